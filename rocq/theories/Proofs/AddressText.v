(** The texts of addresses. *)
From Verif.Model Require Import Py Text Packing Misc Curve Coin Base58 Script Cashaddr Keys Address.
From Verif.Spec Require Import Numbers CashaddrSpec AddressSpec.
From Verif.Proofs Require Import PyFacts NumbersFacts ScriptFacts ScriptTheorems Base58Facts WifFacts CashaddrFacts CashaddrDecode CashaddrErrors.

(** The coins *)
Definition coin_fine (c : coin) : Prop :=
  0 <= c_P2PKH_verbyte c < 256 /\ 0 <= c_P2SH_verbyte c < 256 /\ c_P2PKH_verbyte c <> c_P2SH_verbyte c /\
  good_prefix (c_cashaddr_prefix c) /\ upper (c_cashaddr_prefix c) <> c_cashaddr_prefix c /\ zlen (c_cashaddr_prefix c) <= 26.
Lemma coins_fine c : In c all_coins -> coin_fine c.
Proof.
  intros HI. assert (HG : forall p, forallb (fun c => (33 <=? c) && (c <=? 126) && negb (c =? 58) && negb ((65 <=? c) && (c <=? 90))) p = true -> Forall (fun c => 33 <= c <= 126 /\ c <> 58 /\ ~ 65 <= c <= 90) p).
  { intros p HF. apply Forall_forall. intros x Hx. rewrite forallb_forall in HF. apply HF in Hx. repeat (apply andb_true_iff in Hx as [Hx ?]). lia. }
  cbn in HI. unfold coin_fine, good_prefix. repeat destruct HI as [<-|HI]; try contradiction; cbn [c_P2PKH_verbyte c_P2SH_verbyte c_cashaddr_prefix Bitcoin BitcoinTestnet BitcoinScalingTestnet BitcoinRegtest];
    (split; [lia|]); (split; [lia|]); (split; [lia|]); (split; [split; [discriminate|apply HG; reflexivity]|]); (split; [vm_compute; discriminate|vm_compute; discriminate]).
Qed.
Lemma starts_with_iff (p : list Z) : forall t, starts_with t p = true <-> exists r, t = p ++ r.
Proof.
  induction p as [|x p IH]; intros t; cbn [starts_with app].
  - destruct t; split; eauto.
  - destruct t as [|y t]; [split; [discriminate|intros (r & HE); discriminate]|]. cbn [starts_with]. rewrite andb_true_iff, IH, Z.eqb_eq. split.
    + intros [-> (r & ->)]. eauto.
    + intros (r & HE). injection HE as -> ->. eauto.
Qed.
Lemma prefix_lower p : good_prefix p -> lower p = p.
Proof. intros [_ HF]. apply lower_id. revert HF. apply Forall_impl. tauto. Qed.
Lemma prefix_no_colon p : good_prefix p -> ~ In 58 p.
Proof. intros [_ HF] HI. rewrite Forall_forall in HF. apply HF in HI. lia. Qed.
Lemma spelt_lower ss b : spelt ss b -> lower b = b /\ ~ In 58 b.
Proof.
  intros HS. assert (HX : forallb (fun c => negb (c =? 58) && negb ((65 <=? c) && (c <=? 90))) symbols = true) by reflexivity. rewrite forallb_forall in HX.
  assert (HA : Forall (fun c => c <> 58 /\ ~ 65 <= c <= 90) b).
  { induction HS as [|s x ss b [_ HN] _ IH]; constructor; [|exact IH]. apply nth_error_In, HX in HN. apply andb_true_iff in HN as [H1 H2]. lia. }
  split; [apply lower_id; revert HA; apply Forall_impl; tauto|]. intros HI. rewrite Forall_forall in HA. apply HA in HI. lia.
Qed.
Lemma upper_58 t : In 58 (upper t) <-> In 58 t.
Proof. rewrite <- (lower_in_58 (upper t)), <- (lower_in_58 t). enough (HE : lower (upper t) = lower t) by now rewrite HE. rewrite <- upper_lower. apply lower_upper, lower_id, lower_lower. Qed.

(** The cashaddr decoder, in these terms *)
Lemma decode_20 p k h body : good_prefix p -> zlen h = 20 -> (text_of p k h (p ++ 58 :: body) <-> (k = 0 \/ k = 1) /\ bytes_ok h = true /\ cash_body p k h body).
Proof.
  intros HP HL. unfold text_of, cash_body. split.
  - intros (_ & HK & HB & v & ss & b & (code & HI & ->) & HG & HS & HE). apply app_inv_head in HE. injection HE as <-. split; [exact HK|]. split; [exact HB|]. exists ss. split; [|exact HS].
    rewrite HL in HI. cbn in HI. assert (HC : code = 0). { repeat (destruct HI as [HI|HI]; [injection HI; intros; lia|]). contradiction. } rewrite HC, Z.add_0_r in HG. exact HG.
  - intros (HK & HB & ss & HG & HS). split; [exact HP|]. split; [exact HK|]. split; [exact HB|]. exists (8 * k), ss, body. split; [exists 0; rewrite HL; split; [now left|lia]|]. auto.
Qed.
Lemma colon_split (a b x y : pystr) : ~ In 58 a -> ~ In 58 b -> a ++ 58 :: x = b ++ 58 :: y -> a = b /\ x = y.
Proof.
  intros HA HB HE. assert (H1 : split_once 58 (a ++ 58 :: x) = Some (a, x)) by (apply split_once_spec; auto). assert (H2 : split_once 58 (b ++ 58 :: y) = Some (b, y)) by (apply split_once_spec; auto).
  rewrite HE, H2 in H1. injection H1 as -> ->. auto.
Qed.

(** What [from_cashaddr_string] passes to the decoder *)
Definition cash_prefix (text : pystr) (c : coin) : pystr := if bytes_eqb (upper text) text then upper (c_cashaddr_prefix c) else c_cashaddr_prefix c.
Definition cash_text (text : pystr) (c : coin) : pystr :=
  if starts_with text (cash_prefix text c ++ [58]) then text else cash_prefix text c ++ [58] ++ text.
Definition make_kind (kind : Z) (h : bytes) (c : coin) : result address := if kind =? 0 then make_P2PKH h c else make_P2SH h c.
Lemma cash_string_eq t c : from_cashaddr_string t c = ('(q, k, h) <- cash_decode (cash_text t c) ;; if negb (bytes_eqb (cash_prefix t c) q) then Err AssertionError else make_kind k h c).
Proof. reflexivity. Qed.
Lemma cash_text_shape t c : coin_fine c -> exists rest, cash_text t c = cash_prefix t c ++ 58 :: rest /\ (t = cash_text t c \/ t = rest) /\
  lower (cash_text t c) = c_cashaddr_prefix c ++ 58 :: lower rest /\ (upper t = t -> upper rest = rest /\ upper (cash_text t c) = cash_text t c).
Proof.
  intros (_ & _ & _ & HP & _). assert (HX : exists rest, cash_text t c = cash_prefix t c ++ 58 :: rest /\ (t = cash_text t c \/ t = rest)).
  { unfold cash_text. destruct (starts_with t (cash_prefix t c ++ [58])) eqn:ES; [|exists t; split; [reflexivity|now right]]. apply starts_with_iff in ES as (r & HE). exists r. rewrite <- app_assoc in HE. split; [exact HE|now left]. }
  destruct HX as (rest & HE & HT). exists rest. split; [exact HE|]. split; [exact HT|]. split.
  - rewrite HE, lower_app. change (lower (58 :: rest)) with (58 :: lower rest). f_equal. unfold cash_prefix. destruct (bytes_eqb _ _); [|now apply prefix_lower]. rewrite lower_upper; [reflexivity|]. apply lower_id, prefix_lower, HP.
  - intros HU. assert (HQ : cash_prefix t c = upper (c_cashaddr_prefix c)) by (unfold cash_prefix; now rewrite (proj2 (bytes_eqb_eq (upper t) t) HU)).
    assert (HR : upper rest = rest).
    { destruct HT as [HT|HT]; [|rewrite <- HT; exact HU]. assert (HU' : upper (cash_text t c) = cash_text t c) by (rewrite <- HT; exact HU). clear HU HT. rename HU' into HU. rewrite HE in HU. rewrite upper_app in HU. change (upper (58 :: rest)) with (58 :: upper rest) in HU. rewrite HQ, upper_upper in HU. apply app_inv_head in HU. now injection HU. }
    split; [exact HR|]. rewrite HE, upper_app, HQ, upper_upper. change (upper (58 :: rest)) with (58 :: upper rest). now rewrite HR.
Qed.
(** A decoded text has the prefix that was expected. *)
Lemma cash_prefix_same t c q k h : coin_fine c -> cash_decode (cash_text t c) = Ok (q, k, h) ->
  q = cash_prefix t c /\ exists body, text_of (c_cashaddr_prefix c) k h (c_cashaddr_prefix c ++ 58 :: body) /\ cash_forms (c_cashaddr_prefix c) body t.
Proof.
  intros HC HD. pose proof HC as (_ & _ & _ & HP & HNu & _). apply decode_spec in HD as (p & HT & HCa). destruct (cash_text_shape t c HC) as (rest & HE & HTr & HLo & HUp).
  pose proof HT as (HGp & _ & _ & v & ss & body & _ & _ & HS & HEq). pose proof HLo as HLo'. rewrite HEq in HLo. apply colon_split in HLo; [|now apply prefix_no_colon|now apply prefix_no_colon]. destruct HLo as [-> ->]. rewrite HLo' in HT. clear HEq HLo'.
  assert (HLp : lower (c_cashaddr_prefix c) = c_cashaddr_prefix c) by now apply prefix_lower.
  destruct (bytes_eqb_spec (upper t) t) as [HU|HU].
  - assert (HQ : cash_prefix t c = upper (c_cashaddr_prefix c)) by (unfold cash_prefix; now rewrite (proj2 (bytes_eqb_eq (upper t) t) HU)). destruct (HUp HU) as [HUr HUt].
    assert (HLn : lower (cash_text t c) <> cash_text t c).
    { intros HX. rewrite HE, HQ, lower_app, lower_upper in HX by (now apply lower_id). apply (f_equal (fun l : pystr => firstn (length (c_cashaddr_prefix c)) l)) in HX.
      rewrite !firstn_app in HX. assert (HLen : length (upper (c_cashaddr_prefix c)) = length (c_cashaddr_prefix c)) by apply map_length. rewrite HLen, Nat.sub_diag, firstn_all in HX. cbn [firstn] in HX. rewrite !app_nil_r in HX. rewrite <- HLen, firstn_all in HX. now apply HNu. }
    destruct HCa as [[HX _]|(_ & _ & ->)]; [contradiction|]. split; [now rewrite HQ|]. exists (lower rest). split; [exact HT|]. unfold cash_forms. right. right. rewrite upper_app. change (upper (txt ":" ++ lower rest)) with (txt ":" ++ upper (lower rest)). rewrite upper_lower, HUr.
    destruct HTr as [HTr|HTr]; [left; rewrite <- HQ; exact (eq_trans HTr HE)|right; exact HTr].
  - assert (HQ : cash_prefix t c = c_cashaddr_prefix c) by (unfold cash_prefix; destruct (bytes_eqb_spec (upper t) t); [contradiction|reflexivity]).
    destruct HCa as [[HX ->]|(_ & HX & _)].
    + split; [now rewrite HQ|]. exists (lower rest). split; [exact HT|]. assert (HR : lower rest = rest). { rewrite HE, HQ, lower_app, HLp in HX. change (lower (58 :: rest)) with (58 :: lower rest) in HX. apply app_inv_head in HX. now injection HX. }
      unfold cash_forms. rewrite HR. destruct HTr as [HTr|HTr]; [left; rewrite <- HQ; exact (eq_trans HTr HE)|right; left; exact HTr].
    + exfalso. rewrite HE, HQ, upper_app in HX. apply (f_equal (fun l : pystr => firstn (length (c_cashaddr_prefix c)) l)) in HX.
      rewrite !firstn_app in HX. assert (HLen : length (upper (c_cashaddr_prefix c)) = length (c_cashaddr_prefix c)) by apply map_length. rewrite HLen, Nat.sub_diag, firstn_all in HX. cbn [firstn] in HX. rewrite !app_nil_r in HX. rewrite <- HLen, firstn_all in HX. now apply HNu.
Qed.
(** Each form decodes. *)
Lemma cash_form_decodes t c k h body : coin_fine c -> text_of (c_cashaddr_prefix c) k h (c_cashaddr_prefix c ++ 58 :: body) -> cash_forms (c_cashaddr_prefix c) body t ->
  cash_decode (cash_text t c) = Ok (cash_prefix t c, k, h).
Proof.
  intros HC HT HF. pose proof HC as (_ & _ & _ & HP & HNu & _). destruct (text_has_letter _ _ _ _ HT) as [HNL HL]. assert (HLp : lower (c_cashaddr_prefix c) = c_cashaddr_prefix c) by now apply prefix_lower.
  assert (HB : lower body = body /\ ~ In 58 body). { destruct HT as (_ & _ & _ & v & ss & b & _ & _ & HS & HE). apply app_inv_head in HE. injection HE as ->. exact (spelt_lower _ _ HS). } destruct HB as [HLb HN].
  set (p := c_cashaddr_prefix c) in *.
  assert (HD1 : cash_decode (p ++ 58 :: body) = Ok (p, k, h)) by (apply decode_spec; exists p; rewrite HL; split; [exact HT|]; left; auto).
  assert (HLU : lower (upper (p ++ 58 :: body)) = p ++ 58 :: body) by (apply lower_upper, lower_id, HL).
  assert (HD2 : cash_decode (upper (p ++ 58 :: body)) = Ok (upper p, k, h)).
  { apply decode_spec. exists p. rewrite HLU. split; [exact HT|]. right. split; [rewrite HLU; intros HX; now apply HNL|]. split; [apply upper_upper|reflexivity]. }
  assert (HNS : forall b q, ~ In 58 b -> starts_with b (q ++ [58]) = false).
  { intros b q HNb. destruct (starts_with b (q ++ [58])) eqn:ES; [|reflexivity]. apply starts_with_iff in ES as (r & ->). exfalso. apply HNb, in_or_app. left. apply in_or_app. right. now left. }
  change (txt ":" ++ body) with (58 :: body) in HF. unfold cash_text, cash_prefix in *. fold p. destruct HF as [->|[->|[->| ->]]].
  - change (txt ":" ++ body) with (58 :: body). destruct (bytes_eqb_spec (upper (p ++ 58 :: body)) (p ++ 58 :: body)); [contradiction|]. rewrite (proj2 (starts_with_iff (p ++ [58]) (p ++ 58 :: body))) by (exists body; now rewrite <- app_assoc). exact HD1.
  - destruct (bytes_eqb_spec (upper body) body) as [HU|HU]; rewrite HNS by exact HN; [|exact HD1].
    rewrite upper_app in HD2. change (upper (58 :: body)) with (58 :: upper body) in HD2. rewrite HU in HD2. exact HD2.
  - change (txt ":" ++ body) with (58 :: body). rewrite upper_upper. destruct (bytes_eqb_spec (upper (p ++ 58 :: body)) (upper (p ++ 58 :: body))); [|contradiction].
    rewrite (proj2 (starts_with_iff (upper p ++ [58]) (upper (p ++ 58 :: body)))) by (exists (upper body); rewrite upper_app, <- app_assoc; reflexivity). exact HD2.
  - rewrite upper_upper. destruct (bytes_eqb_spec (upper body) (upper body)); [|contradiction]. rewrite HNS by (rewrite upper_58; exact HN). rewrite upper_app in HD2. exact HD2.
Qed.
Lemma make_kind_Ok k h c a : k = 0 \/ k = 1 -> bytes_ok h = true -> (make_kind k h c = Ok a <-> address_of c a /\ kind_of a = k /\ address_hash160 a = h).
Proof.
  intros HK HB. unfold make_kind, make_P2PKH, make_P2SH, validate_hash160, address_of. destruct HK as [->| ->]; cbn [Z.eqb]; destruct (Z.eqb_spec (zlen h) 20) as [HL|HL]; cbn [bind]; split.
  - intros [= <-]. cbn. auto.
  - intros ((HC & _ & _) & HK & HH). destruct a; cbn in *; subst; [reflexivity|discriminate].
  - discriminate.
  - intros ((_ & _ & HX) & _ & HH). subst. contradiction.
  - intros [= <-]. cbn. auto.
  - intros ((HC & _ & _) & HK & HH). destruct a; cbn in *; subst; [discriminate|reflexivity].
  - discriminate.
  - intros ((_ & _ & HX) & _ & HH). subst. contradiction.
Qed.
Lemma cash_string_spec t c a : coin_fine c -> (from_cashaddr_string t c = Ok a <->
  address_of c a /\ exists body, cash_body (c_cashaddr_prefix c) (kind_of a) (address_hash160 a) body /\ cash_forms (c_cashaddr_prefix c) body t).
Proof.
  intros HC. pose proof HC as (_ & _ & _ & HP & _). rewrite cash_string_eq. split.
  - intros HE. apply bind_Ok in HE as ([[q k] h] & HD & HE). destruct (cash_prefix_same _ _ _ _ _ HC HD) as (-> & body & HT & HF). destruct (bytes_eqb_spec (cash_prefix t c) (cash_prefix t c)); [|contradiction]. cbn [negb] in HE.
    pose proof HT as (_ & HK & HB & _). apply (make_kind_Ok k h c a HK HB) in HE as (HA & <- & <-). split; [exact HA|]. exists body. split; [|exact HF]. destruct HA as (_ & _ & HL). now apply (decode_20 _ _ _ _ HP HL) in HT.
  - intros (HA & body & HB & HF). pose proof HA as (_ & HBy & HL). assert (HK : kind_of a = 0 \/ kind_of a = 1) by (destruct a; auto).
    assert (HT : text_of (c_cashaddr_prefix c) (kind_of a) (address_hash160 a) (c_cashaddr_prefix c ++ 58 :: body)) by (apply (decode_20 _ _ _ _ HP HL); auto).
    rewrite (cash_form_decodes t c _ _ body HC HT HF). cbn [bind]. destruct (bytes_eqb_spec (cash_prefix t c) (cash_prefix t c)); [|contradiction]. cbn [negb]. apply make_kind_Ok; auto.
Qed.
Lemma cash_string_err t c e : coin_fine c -> 35 < zlen t -> from_cashaddr_string t c = Err e -> e = ValueError.
Proof.
  intros HC HL. rewrite cash_string_eq. intros HE. apply bind_Err in HE as [HE|([[q k] h] & HD & HE)].
  - apply decode_errors in HE as [->|(-> & q & HD)]; [reflexivity|exfalso]. apply payload_spec in HD as (p & body & cs & HLo & HN & _ & _ & _ & HS & HL8 & _ & HCa). cbn [app] in HS.
    destruct (cash_text_shape t c HC) as (rest & HE & HT & HLo' & _). pose proof HC as (_ & _ & _ & HP & _ & H11). rewrite HLo in HLo'. apply colon_split in HLo'; [|exact HN|now apply prefix_no_colon]. destruct HLo' as [_ ->].
    assert (HR : zlen rest = 8). { rewrite <- HL8, (spelt_length _ _ HS). unfold zlen, lower. now rewrite map_length. }
    assert (HQ : zlen (cash_prefix t c) = zlen (c_cashaddr_prefix c)) by (unfold cash_prefix; destruct (bytes_eqb _ _); [unfold zlen, upper; now rewrite map_length|reflexivity]).
    destruct HT as [HT|HT]; [apply (f_equal zlen) in HT; rewrite HE, zlen_app, zlen_cons in HT; lia|apply (f_equal zlen) in HT; lia].
  - destruct (cash_prefix_same _ _ _ _ _ HC HD) as (-> & _). destruct (bytes_eqb_spec (cash_prefix t c) (cash_prefix t c)); [|contradiction]. cbn [negb] in HE.
    unfold make_kind, make_P2PKH, make_P2SH, validate_hash160 in HE. destruct (k =? 0), (zlen h =? 20); cbn in HE; congruence.
Qed.
Lemma cash_body_length p k h body : zlen h = 20 -> cash_body p k h body -> zlen body = 42.
Proof.
  intros HL (ss & (_ & pad & HP & HLs & _) & HS). rewrite <- (spelt_length _ _ HS), zlen_app. change (zlen (create_checksum p ss)) with 8. rewrite zlen_cons, HL in HLs. lia.
Qed.
Lemma cash_forms_length p body t : cash_forms p body t -> zlen body <= zlen t.
Proof.
  assert (HU : forall x, zlen (upper x) = zlen x) by (intros; unfold zlen, upper; now rewrite map_length). pose proof (zlen_nonneg p).
  intros [->|[->|[->| ->]]]; rewrite ?HU, ?zlen_app; change (zlen (txt ":")) with 1; lia.
Qed.

Section Base58Addresses.
  Variable H : bytes -> bytes.
  Hypothesis H_ok : forall x, bytes_ok (H x) = true.
  Hypothesis H_len : forall x, zlen (H x) = 32.

  Definition verbyte (a : address) : Z := match a with P2PKH _ c => c_P2PKH_verbyte c | P2SH _ c => c_P2SH_verbyte c end.
  Lemma to_string_eq c a : coin_fine c -> address_of c a -> address_to_string H a = Ok (base58_encode_check H (verbyte a :: address_hash160 a)).
  Proof using. intros (H1 & H2 & _) (HC & _). destruct a; cbn in *; subst; rewrite pack_byte_ok by assumption; reflexivity. Qed.
  Lemma text_length p : bytes_ok p = true -> zlen p = 21 -> zlen (base58_encode_check H p) <= 35.
  Proof using H_ok H_len.
    intros HB HL. unfold base58_encode_check. rewrite (slice_to_nonneg (H p) 4) by lia.
    assert (HZ : zlen (p ++ ztake 4 (H p)) = 25) by (rewrite zlen_app, zlen_ztake, (H_len p); lia). apply encode_length_le; [|rewrite HZ; apply Z.leb_le; vm_compute; reflexivity|lia|lia].
    rewrite bytes_ok_app, HB. cbn [andb]. apply bytes_ok_ztake, H_ok.
  Qed.
  Lemma from_base58_spec t c a : coin_fine c -> (address_from_base58 H t c = Ok a <-> address_of c a /\ address_to_string H a = Ok t).
  Proof using H_ok H_len.
    intros HC. pose proof HC as (H1 & H2 & HNe & _). unfold address_from_base58. split.
    - intros HE. apply bind_Ok in HE as (raw & HD & HE). apply decode_check_inv in HD as [HT HB]. destruct (Z.eqb_spec (zlen raw) 21) as [HL|]; [|discriminate]. cbn [negb] in HE.
      destruct raw as [|v h]; [discriminate|]. rewrite pyindex_0 in HE. cbn [bind] in HE. rewrite take1 in HE. rewrite zlen_cons in HL. apply andb_true_iff in HB as [_ HBh].
      assert (HX : address_of c a /\ verbyte a = v /\ address_hash160 a = h).
      { unfold make_P2PKH, make_P2SH, validate_hash160 in HE. replace (zlen h =? 20) with true in HE by lia. cbn [bind] in HE. destruct (Z.eqb_spec v (c_P2PKH_verbyte c)) as [->|]; [injection HE as <-|destruct (Z.eqb_spec v (c_P2SH_verbyte c)) as [->|]; [injection HE as <-|discriminate]];
          (split; [split; [reflexivity|split; [exact HBh|cbn; lia]]|auto]). }
      destruct HX as (HA & <- & <-). split; [exact HA|]. rewrite (to_string_eq c a HC HA). now rewrite HT.
    - intros [HA HT]. rewrite (to_string_eq c a HC HA) in HT. injection HT as <-. pose proof HA as (HCo & HB & HL).
      rewrite (decode_check_encode H H_ok H_len) by (cbn [bytes_ok forallb]; fold (bytes_ok (address_hash160 a)); rewrite HB, andb_true_r; apply byte_ok_iff; destruct a; cbn in *; subst; assumption).
      cbn [bind]. rewrite zlen_cons, HL. replace (_ =? 21) with true by reflexivity. cbn [negb]. rewrite pyindex_0. cbn [bind]. rewrite take1. unfold make_P2PKH, make_P2SH, validate_hash160. rewrite HL. cbn [Z.eqb Pos.eqb bind].
      destruct a as [h c'|h c']; cbn [verbyte address_hash160 address_coin] in *; subst c'; [rewrite Z.eqb_refl; reflexivity|]. destruct (Z.eqb_spec (c_P2SH_verbyte c) (c_P2PKH_verbyte c)) as [HX|]; [congruence|]. now rewrite Z.eqb_refl.
  Qed.
  Lemma from_base58_err t c e : address_from_base58 H t c = Err e -> e = ValueError \/ e = Base58Error.
  Proof using.
    clear H_ok H_len. unfold address_from_base58. intros HE. apply bind_Err in HE as [HE|(raw & _ & HE)]; [right; exact (decode_check_err H t e HE)|left]. destruct (Z.eqb_spec (zlen raw) 21) as [HL|]; [|cbn in HE; congruence]. cbn [negb] in HE.
    destruct raw as [|v h]; [discriminate|]. rewrite pyindex_0 in HE. cbn [bind] in HE. rewrite take1 in HE. unfold make_P2PKH, make_P2SH, validate_hash160 in HE. rewrite zlen_cons in HL. replace (zlen h =? 20) with true in HE by lia. cbn [bind] in HE. destruct (_ =? _); [discriminate|]. destruct (_ =? _); congruence.
  Qed.
  Lemma to_string_short c a t : coin_fine c -> address_of c a -> address_to_string H a = Ok t -> zlen t <= 35.
  Proof using H_ok H_len.
    intros HC HA HT. rewrite (to_string_eq c a HC HA) in HT. injection HT as <-. pose proof HC as (H1 & H2 & _). destruct HA as (HCo & HB & HL). apply text_length; [|rewrite zlen_cons, HL; reflexivity].
    cbn [bytes_ok forallb]. fold (bytes_ok (address_hash160 a)). rewrite HB, andb_true_r. apply byte_ok_iff. destruct a; cbn in *; subst; assumption.
  Qed.
  (** Exactly which texts are read as which addresses *)
  Lemma from_string_spec t c a : coin_fine c -> (address_from_string H t c = Ok a <-> address_of c a /\
    (address_to_string H a = Ok t \/ exists body, cash_body (c_cashaddr_prefix c) (kind_of a) (address_hash160 a) body /\ cash_forms (c_cashaddr_prefix c) body t)).
  Proof using H_ok H_len.
    intros HC. unfold address_from_string. destruct (Z.ltb_spec 35 (zlen t)) as [HL|HL].
    - destruct (from_cashaddr_string t c) as [a'|e] eqn:EC.
      + split.
        * intros [= ->]. apply (cash_string_spec t c a HC) in EC as [HA HX]. auto.
        * intros [HA [HT|HX]]; [pose proof (to_string_short c a t HC HA HT); lia|]. rewrite <- EC. apply (cash_string_spec t c a HC). auto.
      + pose proof (cash_string_err t c e HC HL EC) as ->. cbn [is_ValueError]. rewrite (from_base58_spec t c a HC). split; [tauto|]. intros [HA [HT|HX]]; [auto|]. exfalso. assert (HO : from_cashaddr_string t c = Ok a) by (apply (cash_string_spec t c a HC); auto). congruence.
    - rewrite (from_base58_spec t c a HC). split; [tauto|]. intros [HA [HT|(body & HB & HF)]]; [auto|]. pose proof HA as (_ & _ & H20). apply cash_body_length in HB; [|exact H20]. apply cash_forms_length in HF. lia.
  Qed.
  Lemma from_string_err t c e : coin_fine c -> address_from_string H t c = Err e -> e = ValueError \/ e = Base58Error.
  Proof using.
    intros HC. unfold address_from_string. destruct (Z.ltb_spec 35 (zlen t)) as [HL|HL]; [|apply from_base58_err].
    destruct (from_cashaddr_string t c) as [a'|e'] eqn:EC; [discriminate|]. pose proof (cash_string_err t c e' HC HL EC) as ->. apply from_base58_err.
  Qed.
End Base58Addresses.
