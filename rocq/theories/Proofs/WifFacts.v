(** The length of base58 texts; WIF. *)
From Verif.Model Require Import Py Text Packing Misc Curve Coin Base58 Keys.
From Verif.Spec Require Import Numbers KeysSpec Base58Spec MiscSpec.
From Verif.Proofs Require Import PyFacts NumbersFacts PackingFacts ScriptFacts ScriptTheorems Digits Base58Facts MiscFacts TextFacts CurveFacts KeysFacts.

Lemma vbe_cons B d ds : 2 <= B -> vbe B (d :: ds) = d * B ^ zlen ds + vbe B ds.
Proof. intros HB. change (d :: ds) with ([d] ++ ds). rewrite vbe_app by lia. f_equal. Qed.
(** A number without leading zeros is at least the power of its length less one. *)
Lemma vbe_lower B ds : 2 <= B -> canon_be B ds -> ds <> [] -> B ^ (zlen ds - 1) <= vbe B ds.
Proof.
  intros HB [HD HH] Hne. destruct ds as [|d ds]; [congruence|]. specialize (HH Hne). cbn [hd] in HH. inversion HD as [|? ? Hd HDs]; subst.
  rewrite vbe_cons by exact HB. pose proof (vbe_bound B HB ds HDs). rewrite zlen_cons. replace (1 + zlen ds - 1) with (zlen ds) by lia.
  assert (0 < B ^ zlen ds) by (apply Z.pow_pos_nonneg; pose proof (zlen_nonneg ds); lia).
  cbv beta in Hd. assert (HM : 1 * B ^ zlen ds <= d * B ^ zlen ds) by (apply Z.mul_le_mono_nonneg_r; [lia|clear HB HDs; lia]).
  rewrite Z.mul_1_l in HM. apply (Z.le_trans _ _ _ HM). generalize dependent (vbe B ds). intros v [Hv _]. generalize (d * B ^ zlen ds). intros. lia.
Qed.
Lemma digits_count B ds m : 2 <= B -> canon_be B ds -> 0 < m -> B ^ (m - 1) <= vbe B ds < B ^ m -> zlen ds = m.
Proof.
  intros HB HC Hm [H1 H2]. assert (Hne : ds <> []). { intros ->. change (vbe B []) with 0 in *. assert (0 < B ^ (m - 1)) by (apply Z.pow_pos_nonneg; lia). lia. }
  pose proof (vbe_lower B ds HB HC Hne) as HL. pose proof (vbe_bound B HB ds (proj1 HC)) as HU.
  assert (HA : zlen ds - 1 < m) by (apply (Z.pow_lt_mono_r_iff B); lia).
  assert (HC' : m - 1 < zlen ds) by (apply (Z.pow_lt_mono_r_iff B); pose proof (zlen_nonneg ds); lia). lia.
Qed.
(** The length of the encoding of bytes whose first is not zero *)
Lemma encode_length x r m : 0 < x < 256 -> bytes_ok r = true -> 0 < m -> 58 ^ (m - 1) <= x * 256 ^ zlen r -> (x + 1) * 256 ^ zlen r <= 58 ^ m -> zlen (base58_encode (x :: r)) = m.
Proof.
  intros Hx Hr Hm H1 H2. assert (HC : canon_be 256 (x :: r)). { split; [|cbn; lia]. constructor; [lia|]. now apply digits_256. }
  destruct (encode_spec 0 (x :: r) HC) as (ds & HCh & HCd & HV). cbn [repeat app] in *. apply Forall2_len in HCh. replace (zlen (base58_encode (x :: r))) with (zlen ds) by (unfold zlen; lia).
  apply (digits_count 58); [lia|exact HCd|exact Hm|]. rewrite HV, <- vbe_256, vbe_cons by lia. pose proof (vbe_bound 256 ltac:(lia) r (proj2 (digits_256 r) Hr)). lia.
Qed.
Lemma encode_length_le b m : bytes_ok b = true -> 256 ^ zlen b <= 58 ^ m -> 0 <= m -> zlen b <= m -> zlen (base58_encode b) <= m.
Proof.
  intros HB HM Hm HL. apply digits_256 in HB. destruct (strip_zeros 256 b HB) as (n & r & -> & HC). destruct (encode_spec n r HC) as (ds & HCh & HCd & HV).
  apply Forall2_len in HCh. replace (zlen (base58_encode (repeat 0 n ++ r))) with (zlen (repeat 0 n ++ ds)) by (unfold zlen; lia). rewrite zlen_app in *.
  replace (zlen (repeat 0 n)) with (Z.of_nat n) in * by (unfold zlen; now rewrite repeat_length). pose proof (zlen_nonneg r) as Hr.
  destruct ds as [|d ds]; [change (zlen (@nil Z)) with 0; lia|]. pose proof (vbe_lower 58 (d :: ds) ltac:(lia) HCd ltac:(congruence)) as HLo. rewrite HV, <- vbe_256 in HLo.
  pose proof (vbe_bound 256 ltac:(lia) r (proj1 HC)) as HU. remember (zlen (d :: ds)) as k.
  assert (HK : 58 ^ (Z.of_nat n + k - 1) < 58 ^ m).
  { apply Z.lt_le_trans with (2 := HM). replace (Z.of_nat n + k - 1) with (Z.of_nat n + (k - 1)) by lia. assert (1 <= k) by (subst k; rewrite zlen_cons; pose proof (zlen_nonneg ds); lia).
    rewrite !Z.pow_add_r by lia. assert (58 ^ Z.of_nat n <= 256 ^ Z.of_nat n) by (apply Z.pow_le_mono_l; lia). assert (0 < 58 ^ Z.of_nat n) by (apply Z.pow_pos_nonneg; lia).
    assert (0 < 58 ^ (k - 1)) by (apply Z.pow_pos_nonneg; lia).
    apply Z.le_lt_trans with (256 ^ Z.of_nat n * 58 ^ (k - 1)); [apply Z.mul_le_mono_nonneg_r; lia|]. apply Z.mul_lt_mono_pos_l; lia. }
  apply Z.pow_lt_mono_r_iff in HK; lia.
Qed.

Section Wif.
  Variable H : bytes -> bytes.
  Hypothesis H_ok : forall x, bytes_ok (H x) = true.
  Hypothesis H_len : forall x, zlen (H x) = 32.

  Definition wif_payload (w : Z) (s : bytes) (c : bool) : bytes := w :: s ++ (if c then [1] else []).
  Lemma to_WIF_spec k c co : 0 <= c_WIF_byte (match co with Some x => x | None => sk_coin k end) < 256 ->
    privkey_to_WIF H k c co = Ok (base58_encode_check H (wif_payload (c_WIF_byte (match co with Some x => x | None => sk_coin k end)) (sk_secret k) (match c with Some f => f | None => sk_compressed k end))).
  Proof.
    clear H_ok H_len. intros Hw. unfold privkey_to_WIF, wif_payload. cbv zeta. rewrite pack_byte_ok by lia. cbn [bind app].
    destruct (match c with Some f => f | None => sk_compressed k end); [rewrite pack_byte_ok by lia; reflexivity|]. now rewrite app_nil_r.
  Qed.
  Lemma wif_byte_range c : In c all_coins -> 0x80 <= c_WIF_byte c <= 0xef.
  Proof. clear H_ok H_len. intros Hc. repeat destruct Hc as [<-|Hc]; try contradiction; vm_compute; split; discriminate. Qed.
  Lemma wif_payload_ok w s c : 0 <= w < 256 -> bytes_ok s = true -> bytes_ok (wif_payload w s c) = true.
  Proof.
    clear H_ok H_len. intros Hw Hs. unfold wif_payload. cbn [bytes_ok forallb]. change (forallb byte_ok) with bytes_ok. apply andb_true_iff. split.
    - unfold byte_ok. apply andb_true_iff. rewrite Z.leb_le, Z.ltb_lt. lia.
    - rewrite bytes_ok_app, Hs. destruct c; reflexivity.
  Qed.
  Lemma from_WIF_payload w s c co : bytes_ok (wif_payload w s c) = true -> zlen s = 32 -> from_WIF_byte w = Ok co ->
    privkey_from_WIF H (base58_encode_check H (wif_payload w s c)) = make_privkey s c (Some co).
  Proof using H_ok H_len.
    intros HB HL HW. unfold privkey_from_WIF. rewrite (decode_check_encode H H_ok H_len) by exact HB. cbn [bind].
    assert (HZ : zlen (wif_payload w s c) = if c then 34 else 33). { unfold wif_payload. rewrite zlen_cons, zlen_app, HL. destruct c; reflexivity. }
    rewrite HZ. assert (HS : pyslice (wif_payload w s c) 1 33 = s).
    { rewrite pyslice_nonneg by lia. unfold wif_payload. change (w :: s ++ (if c then [1] else [])) with ([w] ++ (s ++ (if c then [1] else []))). rewrite (zdrop_app_exact 1 [w]) by reflexivity. apply ztake_app_exact. lia. }
    destruct c; cbn [Z.eqb Pos.eqb bind].
    - assert (HI : pyindex (wif_payload w s true) (-1) = Ok 1).
      { unfold wif_payload. change (w :: s ++ [1]) with ([w] ++ s ++ [1]). rewrite app_assoc. apply last_index. }
      rewrite HI. cbn [bind Z.eqb Pos.eqb]. change (pyindex (wif_payload w s true) 0) with (@Ok Z w). cbn [bind]. rewrite HW. cbn [bind]. now rewrite HS.
    - change (pyindex (wif_payload w s false) 0) with (@Ok Z w). cbn [bind]. rewrite HW. cbn [bind]. now rewrite HS.
  Qed.

  Lemma coin_WIF c : In c all_coins -> exists c', from_WIF_byte (c_WIF_byte c) = Ok c' /\ In c' all_coins /\ c_WIF_byte c' = c_WIF_byte c.
  Proof. clear H_ok H_len. intros Hc. repeat destruct Hc as [<-|Hc]; try contradiction; eexists; (split; [vm_compute; reflexivity|]); (split; [cbn; auto|reflexivity]). Qed.
  (** Writing and reading back *)
  Theorem WIF_roundtrip k oc oco : valid_privkey k -> In (sk_coin k) all_coins -> (forall c, oco = Some c -> In c all_coins) ->
    exists t c', privkey_to_WIF H k oc oco = Ok t /\
      privkey_from_WIF H t = Ok (mk_privkey (sk_secret k) (match oc with Some f => f | None => sk_compressed k end) c') /\
      In c' all_coins /\ c_WIF_byte c' = c_WIF_byte (match oco with Some c => c | None => sk_coin k end) /\
      zlen t = (if match oc with Some f => f | None => sk_compressed k end then 52 else 51).
  Proof using H_ok H_len.
    intros HV HC HO. set (c := match oco with Some c => c | None => sk_coin k end). assert (HCo : In c all_coins) by (unfold c; destruct oco; auto).
    pose proof (wif_byte_range c HCo) as HR. destruct (coin_WIF c HCo) as (c' & HF & HI & HW). set (f := match oc with Some f => f | None => sk_compressed k end).
    eexists _, c'. split; [apply to_WIF_spec; fold c; lia|]. fold c f. destruct HV as (HB & HL & HRg).
    assert (HP : bytes_ok (wif_payload (c_WIF_byte c) (sk_secret k) f) = true) by (apply wif_payload_ok; [lia|exact HB]).
    split; [rewrite (from_WIF_payload (c_WIF_byte c) (sk_secret k) f c' HP HL HF); apply make_privkey_valid; repeat split; try assumption; apply HRg|].
    split; [exact HI|]. split; [exact HW|].
    unfold base58_encode_check. unfold wif_payload at 1. cbn [app].
    assert (HZ : zlen ((sk_secret k ++ (if f then [1] else [])) ++ slice_to (H (wif_payload (c_WIF_byte c) (sk_secret k) f)) 4) = if f then 37 else 36).
    { rewrite !zlen_app, HL, (H4_len H H_ok H_len). destruct f; reflexivity. }
    apply encode_length; [lia| |destruct f; lia| |].
    - rewrite !bytes_ok_app, HB, (H4_ok H H_ok H_len). destruct f; reflexivity.
    - rewrite HZ. apply Z.le_trans with (128 * 256 ^ (if f then 37 else 36)); [destruct f; vm_compute; discriminate|]. apply Z.mul_le_mono_nonneg_r; [destruct f; vm_compute; discriminate|lia].
    - rewrite HZ. apply Z.le_trans with (240 * 256 ^ (if f then 37 else 36)); [|destruct f; vm_compute; discriminate]. apply Z.mul_le_mono_nonneg_r; [destruct f; vm_compute; discriminate|lia].
  Qed.
  (** Reading and writing back *)
  Theorem WIF_inverse t k : privkey_from_WIF H t = Ok k -> valid_privkey k /\ In (sk_coin k) all_coins /\ privkey_to_WIF H k None None = Ok t.
  Proof.
    clear H_ok H_len. unfold privkey_from_WIF. intros HF. apply bind_Ok in HF as (raw & HD & HF). apply decode_check_inv in HD as [-> HB]. apply bind_Ok in HF as (good & HG & HF).
    destruct good; [|discriminate]. apply bind_Ok in HF as (w & Hw & HF). apply bind_Ok in HF as (c & Hc & HF).
    assert (HCI : In c all_coins /\ c_WIF_byte c = w).
    { destruct (find_WIF_spec w all_coins) as [(c' & E & (a & b & HA & HP & _))|(E & _)]; unfold from_WIF_byte in Hc; rewrite E in Hc; [|discriminate]. injection Hc as <-. split; [|exact HP]. rewrite HA. apply in_elt. }
    destruct HCI as [HCI HCW]. destruct raw as [|x r]; [discriminate|]. rewrite pyindex_0 in Hw. injection Hw as <-. rewrite zlen_cons in *.
    assert (HSl : pyslice (x :: r) 1 33 = ztake 32 r). { rewrite pyslice_nonneg by lia. change (x :: r) with ([x] ++ r). rewrite (zdrop_app_exact 1 [x]) by reflexivity. reflexivity. }
    rewrite HSl in HF. cbn [bytes_ok forallb] in HB. apply andb_true_iff in HB as [Hx Hr]. change (bytes_ok r = true) in Hr.
    assert (HBs : bytes_ok (ztake 32 r) = true) by now apply bytes_ok_ztake.
    apply make_privkey_Ok in HF as (HV & HS & HCm & HCo); [|exact HBs]. split; [exact HV|]. split; [now rewrite HCo|].
    rewrite to_WIF_spec by (rewrite HCo; pose proof (wif_byte_range c HCI); lia). f_equal. f_equal. rewrite HCo, HCm, HS, HCW. unfold wif_payload. f_equal.
    destruct (Z.eqb_spec (1 + zlen r) 34) as [H34|H34].
    - destruct (Z.eqb_spec (1 + zlen r) 33); [lia|]. apply bind_Ok in HG as (l & HI & HG). injection HG as HG. apply Z.eqb_eq in HG as ->. rewrite <- (ztake_zdrop 32 r) at 2. f_equal.
      assert (HZ1 : zlen (zdrop 32 r) = 1) by (rewrite zlen_zdrop; lia). destruct (zdrop 32 r) as [|y [|]] eqn:E; unfold zlen in HZ1; cbn in HZ1; try lia.
      rewrite <- (ztake_zdrop 32 r), E in HI. change (x :: ztake 32 r ++ [y]) with ((x :: ztake 32 r) ++ [y]) in HI. rewrite last_index in HI. now injection HI as ->.
    - destruct (Z.eqb_spec (1 + zlen r) 33); [|discriminate]. rewrite app_nil_r. apply ztake_all. lia.
  Qed.
  Theorem WIF_errors t e : privkey_from_WIF H t = Err e -> e = ValueError \/ e = Base58Error.
  Proof.
    clear H_ok H_len. unfold privkey_from_WIF. intros HF. apply bind_Err in HF as [HF|(raw & HD & HF)]; [right; now apply (decode_check_err H t)|]. left.
    destruct (Z.eqb_spec (zlen raw) 33) as [H33|H33].
    - cbn [bind] in HF. destruct raw as [|x r]; [discriminate|]. rewrite pyindex_0 in HF. cbn [bind] in HF. apply bind_Err in HF as [HF|(c & Hc & HF)]; [|now apply make_privkey_Err in HF].
      destruct (find_WIF_spec x all_coins) as [(c' & E & _)|(E & _)]; unfold from_WIF_byte in HF; rewrite E in HF; [discriminate|now injection HF].
    - destruct (Z.eqb_spec (zlen raw) 34) as [H34|H34]; [|now injection HF].
      destruct raw as [|y r _] using rev_ind; [discriminate|]. rewrite last_index in HF. cbn [bind] in HF. destruct (y =? 1); [|now injection HF].
      destruct (r ++ [y]) as [|x q] eqn:E; [destruct r; discriminate|]. rewrite pyindex_0 in HF. cbn [bind] in HF. apply bind_Err in HF as [HF|(c & Hc & HF)]; [|now apply make_privkey_Err in HF].
      destruct (find_WIF_spec x all_coins) as [(c' & E' & _)|(E' & _)]; unfold from_WIF_byte in HF; rewrite E' in HF; [discriminate|now injection HF].
  Qed.

  Variable S : bytes -> bytes.
  Lemma minikey_lengths t b : is_minikey S t = Ok b -> zlen t <> 22 -> zlen t <> 30 -> b = false.
  Proof. clear H_ok H_len. unfold is_minikey. destruct (Z.eqb_spec (zlen t) 22), (Z.eqb_spec (zlen t) 30); try contradiction. cbn [orb]. now injection 1. Qed.
  Lemma minikey_other t : zlen t <> 22 -> zlen t <> 30 -> is_minikey S t = Ok false.
  Proof. clear H_ok H_len. unfold is_minikey. destruct (Z.eqb_spec (zlen t) 22), (Z.eqb_spec (zlen t) 30); try contradiction. reflexivity. Qed.
  Lemma minikey_true t : is_minikey S t = Ok true -> zlen t = 22 \/ zlen t = 30.
  Proof. clear H_ok H_len. unfold is_minikey. destruct (Z.eqb_spec (zlen t) 22), (Z.eqb_spec (zlen t) 30); auto. discriminate. Qed.
  (** from_text and the three forms *)
  Theorem text_WIF t : zlen t = 51 \/ zlen t = 52 -> privkey_from_text H S t = privkey_from_WIF H t.
  Proof. clear H_ok H_len. intros HL. unfold privkey_from_text. destruct (Z.eqb_spec (zlen t) 64); [lia|]. rewrite minikey_other by lia. reflexivity. Qed.
  Theorem text_hex k : valid_privkey k -> privkey_from_text H S (privkey_to_hex k) = Ok (mk_privkey (sk_secret k) true Bitcoin).
  Proof.
    clear H_ok H_len. intros (HB & HL & HR). unfold privkey_from_text, privkey_to_hex, privkey_from_hex. rewrite to_hex_length, HL. cbn [Z.mul Pos.mul Z.eqb Pos.eqb]. rewrite from_hex_to_hex by exact HB. cbn [bind]. apply make_privkey_valid. repeat split; try assumption; apply HR.
  Qed.
  Theorem text_minikey t : is_minikey S t = Ok true -> privkey_from_text H S t = make_privkey (S t) false None.
  Proof.
    clear H_ok H_len. intros HM. pose proof (minikey_true t HM). unfold privkey_from_text, privkey_from_minikey. destruct (Z.eqb_spec (zlen t) 64); [lia|]. rewrite HM. cbn [bind negb]. reflexivity.
  Qed.
End Wif.
