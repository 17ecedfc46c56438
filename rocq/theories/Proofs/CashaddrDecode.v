(** Decoding, exactly. *)
From Verif.Model Require Import Py Text Cashaddr.
From Verif.Spec Require Import CashaddrSpec.
From Verif.Proofs Require Import PyFacts ScriptFacts ScriptTheorems Digits MiscFacts ConvertBits CashaddrFacts.

Lemma val_base_vbe B ds : val_base B ds = vbe B ds.
Proof. unfold val_base, vbe. generalize 0. induction ds as [|d ds IH]; intros a; [reflexivity|]. cbn [fold_left]. rewrite IH. f_equal. lia. Qed.
Lemma symbols_digits l : symbols_ok l <-> digits 32 l.
Proof. reflexivity. Qed.

(** The part of [decode] after the checksum *)
Definition decode_core (payload : bytes) : result (Z * bytes) :=
  let extrabits := (zlen payload * 5) mod 8 in
  if 5 <=? extrabits then Err ValueError
  else
    last <- pyindex payload (-1) ;;
    if negb (Z.land last (Z.shiftl 1 extrabits - 1) =? 0) then Err ValueError
    else
      let decoded := convertbits payload 5 8 false in
      version <- pyindex decoded 0 ;;
      let addr_hash := slice_from decoded 1 in
      let size := Z.land version 3 * 4 + 20 in
      let size := if Z.land version 4 =? 0 then size else Z.shiftl size 1 in
      if negb (size =? zlen addr_hash) then Err ValueError
      else
        let kind := Z.shiftr version 3 in
        if (kind =? SCRIPT_TYPE) || (kind =? PUBKEY_TYPE) then Ok (kind, addr_hash)
        else Err ValueError.
Lemma cash_decode_core addr : cash_decode addr = ('(p, payload) <- decode_payload addr ;; '(k, h) <- decode_core payload ;; Ok (p, k, h)).
Proof.
  unfold cash_decode, decode_core. destruct (decode_payload addr) as [[p payload]|]; [|reflexivity]. cbn [bind]. destruct (5 <=? _); [reflexivity|]. destruct (pyindex payload (-1)); [|reflexivity]. cbn [bind].
  destruct (negb _); [reflexivity|]. destruct (pyindex _ 0); [|reflexivity]. cbn [bind]. destruct (negb _); [reflexivity|]. destruct (_ || _); reflexivity.
Qed.
Definition size_of (version : Z) : Z := let size := Z.land version 3 * 4 + 20 in if Z.land version 4 =? 0 then size else Z.shiftl size 1.
Definition code_size (n c : Z) : bool := existsb (fun p => (fst p =? n) && (snd p =? c)) size_codes.
Lemma code_size_In n c : code_size n c = true <-> In (n, c) size_codes.
Proof.
  unfold code_size. rewrite existsb_exists. split.
  - intros ([a b] & HI & HE). cbn [fst snd] in HE. apply andb_true_iff in HE as [H1 H2]. apply Z.eqb_eq in H1, H2. now subst.
  - intros HI. exists (n, c). split; [exact HI|]. cbn. now rewrite !Z.eqb_refl.
Qed.
Lemma size_code_range n c : In (n, c) size_codes -> 0 <= c <= 7 /\ 20 <= n <= 64.
Proof. intros HI. cbn in HI. repeat (destruct HI as [HI|HI]; [injection HI as <- <-; lia|]). contradiction. Qed.
Lemma version_codes v : 0 <= v < 16 -> In (size_of v, v mod 8) size_codes.
Proof. intros Hv. apply code_size_In. revert v Hv. apply (zrange_all (fun v => code_size (size_of v) (v mod 8))). vm_compute. reflexivity. Qed.
Lemma code_fun n c c' : In (n, c) size_codes -> In (n, c') size_codes -> c = c'.
Proof. cbn. intros H1 H2. repeat (destruct H1 as [H1|H1]; [injection H1 as <- <-; repeat (destruct H2 as [H2|H2]; [congruence|]); contradiction|]). contradiction. Qed.
Lemma size_fun n n' c : In (n, c) size_codes -> In (n', c) size_codes -> n = n'.
Proof. cbn. intros H1 H2. repeat (destruct H1 as [H1|H1]; [injection H1 as <- <-; repeat (destruct H2 as [H2|H2]; [congruence|]); contradiction|]). contradiction. Qed.

Lemma digits_bytes l : digits (2 ^ 8) l <-> bytes_ok l = true.
Proof. apply digits_256. Qed.
Lemma mod_pow_32 V r : 0 <= r < 5 -> (V * 32) mod 2 ^ r = 0.
Proof. intros Hr. replace 32 with (2 ^ (5 - r) * 2 ^ r) by (rewrite <- Z.pow_add_r by lia; replace (5 - r + r) with 5 by lia; reflexivity). rewrite Z.mul_assoc. apply Z.mod_mul. apply Z.pow_nonzero; lia. Qed.
Lemma last_mod a x r : 0 <= r < 5 -> vbe 32 (a ++ [x]) mod 2 ^ r = x mod 2 ^ r.
Proof.
  intros Hr. rewrite vbe_app by lia. change (zlen [x]) with 1. change (vbe 32 [x]) with x. rewrite Z.pow_1_r, Z.add_mod, mod_pow_32, Z.add_0_l, Z.mod_mod by (try exact Hr; apply Z.pow_nonzero; lia). reflexivity.
Qed.
Lemma groups_decoded ps : symbols_ok ps -> ps <> [] -> (zlen ps * 5) mod 8 < 5 -> forall last, pyindex ps (-1) = Ok last ->
  Z.land last (Z.shiftl 1 ((zlen ps * 5) mod 8) - 1) = 0 <-> five_bit_groups (convertbits ps 5 8 false) ps.
Proof.
  intros HS HN HE last HL. destruct (convert_nopad 5 8 ltac:(lia) ltac:(lia) ps HS) as (r & Hr & HR & HD & HV). change (2 ^ 5) with 32 in HV. change (2 ^ 8) with 256 in HV, HD.
  assert (Hrm : (zlen ps * 5) mod 8 = r) by (symmetry; apply (Z.mod_unique_pos _ _ (zlen (convertbits ps 5 8 false))); lia). rewrite Hrm in *.
  destruct (exists_last HN) as (a & x & ->). rewrite last_index in HL. injection HL as <-. rewrite Z.shiftl_1_l, Z.sub_1_r, <- Z.ones_equiv, Z.land_ones by lia. rewrite <- (last_mod a x r) by lia.
  set (ps := a ++ [x]) in *. unfold five_bit_groups. rewrite !val_base_vbe. split.
  - intros HM. split; [exact HS|]. exists r. split; [lia|]. split; [lia|]. rewrite HV. pose proof (Z.div_mod (vbe 32 ps) (2 ^ r) ltac:(apply Z.pow_nonzero; lia)). lia.
  - intros (_ & pad & Hp & HP & HPV). assert (pad = r) by lia. subst pad. rewrite HPV. apply Z.mod_mul. apply Z.pow_nonzero; lia.
Qed.
Lemma groups_fun bs ss ss' : five_bit_groups bs ss -> five_bit_groups bs ss' -> ss = ss'.
Proof.
  intros (H1 & p & Hp & HL & HV) (H1' & p' & Hp' & HL' & HV'). rewrite !val_base_vbe in *. assert (p = p') by lia. subst p'. apply (vbe_unique 32 ltac:(lia)); [exact H1|exact H1'| |congruence]. unfold zlen in *. lia.
Qed.
Lemma groups_inj bs bs' ss : bytes_ok bs = true -> bytes_ok bs' = true -> five_bit_groups bs ss -> five_bit_groups bs' ss -> bs = bs'.
Proof.
  intros Hb Hb' (_ & p & Hp & HL & HV) (_ & p' & Hp' & HL' & HV'). rewrite !val_base_vbe in *. assert (p = p' /\ zlen bs = zlen bs') as [<- HZ] by lia. apply (vbe_unique 256 ltac:(lia)).
  - now apply digits_256.
  - now apply digits_256.
  - unfold zlen in HZ. lia.
  - rewrite HV in HV'. apply Z.mul_cancel_r in HV'; [exact HV'|]. apply Z.pow_nonzero; lia.
Qed.
Lemma core_spec ps k h : symbols_ok ps -> (decode_core ps = Ok (k, h) <-> (k = 0 \/ k = 1) /\ bytes_ok h = true /\ exists v, version_for k h v /\ five_bit_groups (v :: h) ps).
Proof.
  intros HS. assert (HC := convert_nopad 5 8 ltac:(lia) ltac:(lia) ps HS). change (2 ^ 8) with 256 in HC. destruct HC as (r & Hr & HR & HD & _). split.
  - unfold decode_core. cbv zeta. intros HE. destruct (Z.leb_spec 5 ((zlen ps * 5) mod 8)) as [|HX]; [discriminate|]. apply bind_Ok in HE as (lst & HL & HE). assert (HN : ps <> []) by (intros ->; discriminate).
    pose proof (groups_decoded ps HS HN HX lst HL) as HG. destruct (Z.eqb_spec (Z.land lst (Z.shiftl 1 ((zlen ps * 5) mod 8) - 1)) 0) as [HZ|]; [|discriminate]. cbn [negb] in HE. apply HG in HZ. clear HG.
    apply bind_Ok in HE as (v & HV & HE). destruct (convertbits ps 5 8 false) as [|v0 h0] eqn:EC; [discriminate|]. rewrite pyindex_0 in HV. injection HV as ->. rewrite take1 in HE. fold (size_of v) in HE.
    destruct (Z.eqb_spec (size_of v) (zlen h0)) as [Hsz|]; [|discriminate]. cbn [negb] in HE. destruct ((Z.shiftr v 3 =? SCRIPT_TYPE) || (Z.shiftr v 3 =? PUBKEY_TYPE)) eqn:EK; [|discriminate]. injection HE as <- <-.
    inversion HD as [|? ? Hv HD']; subst. rewrite Z.shiftr_div_pow2 in * by lia. change (2 ^ 3) with 8 in *. assert (HK : v / 8 = 0 \/ v / 8 = 1) by (apply orb_true_iff in EK as [EK|EK]; apply Z.eqb_eq in EK; unfold SCRIPT_TYPE, PUBKEY_TYPE in EK; auto).
    split; [exact HK|]. split; [now apply digits_256|]. exists v. split; [|exact HZ]. exists (v mod 8). pose proof (Z.div_mod v 8 ltac:(lia)). split; [|lia]. rewrite <- Hsz. apply version_codes. pose proof (Z.mod_pos_bound v 8 ltac:(lia)). lia.
  - intros (HK & HB & v & (c & HI & Hv) & HG). pose proof (size_code_range _ _ HI) as [Hc Hn]. pose proof HG as (_ & pad & Hpad & HL & _). rewrite zlen_cons in HL. unfold decode_core. cbv zeta.
    assert (HX : (zlen ps * 5) mod 8 = pad) by (symmetry; apply (Z.mod_unique_pos _ _ (1 + zlen h)); lia). assert (HN : ps <> []) by (intros ->; change (zlen (@nil Z)) with 0 in HL; lia).
    destruct (Z.leb_spec 5 ((zlen ps * 5) mod 8)); [lia|]. assert (HLs : exists lst, pyindex ps (-1) = Ok lst) by (destruct (exists_last HN) as (a & x & ->); exists x; apply last_index). destruct HLs as (lst & HLs). rewrite HLs. cbn [bind].
    assert (HDec : convertbits ps 5 8 false = v :: h).
    { destruct (convert_nopad 5 8 ltac:(lia) ltac:(lia) ps HS) as (r' & Hr' & HR' & HD' & HV'). assert (r' = pad) by lia. subst r'. destruct HG as (_ & pad' & Hp' & HL' & HV2). rewrite zlen_cons in HL'. assert (pad' = pad) by lia. subst pad'.
      rewrite !val_base_vbe in HV2. change (2 ^ 5) with 32 in HV'. rewrite HV2, Z.div_mul in HV' by (apply Z.pow_nonzero; lia). apply (vbe_unique 256 ltac:(lia)); [exact HD'| |unfold zlen in *; cbn [length]; lia|exact HV'].
      apply digits_256. rewrite bytes_ok_cons, HB, andb_true_r. apply byte_ok_iff. lia. }
    pose proof (proj2 (groups_decoded ps HS HN ltac:(lia) lst HLs)) as HZ. rewrite HDec in HZ |- *. rewrite (HZ HG), Z.eqb_refl. cbn [negb]. rewrite pyindex_0. cbn [bind]. rewrite take1. fold (size_of v).
    assert (Hm : v mod 8 = c) by (symmetry; apply (Z.mod_unique_pos _ _ k); lia). assert (Hq : v / 8 = k) by (symmetry; apply (Z.div_unique_pos _ _ k c); lia).
    pose proof (version_codes v ltac:(lia)) as HVc. rewrite Hm in HVc. rewrite (size_fun _ _ _ HVc HI), Z.eqb_refl. cbn [negb]. rewrite Z.shiftr_div_pow2 by lia. change (2 ^ 3) with 8. rewrite Hq. destruct HK as [->| ->]; reflexivity.
Qed.
Lemma core_errors ps e : symbols_ok ps -> decode_core ps = Err e -> (ps <> [] /\ e = ValueError) \/ (ps = [] /\ e = IndexError).
Proof.
  intros HS. destruct ps as [|x ps]; [intros HE; right; split; [reflexivity|]; vm_compute in HE; congruence|]. set (qs := x :: ps) in *. intros HE. left. split; [discriminate|]. unfold decode_core in HE. cbv zeta in HE.
  destruct (Z.leb_spec 5 ((zlen qs * 5) mod 8)) as [|HX]; [congruence|]. assert (HN : qs <> []) by discriminate. assert (HLs : exists lst, pyindex qs (-1) = Ok lst) by (destruct (exists_last HN) as (a & y & ->); exists y; apply last_index). destruct HLs as (lst & HLs). rewrite HLs in HE. cbn [bind] in HE.
  destruct (negb _); [congruence|]. destruct (convertbits qs 5 8 false) as [|v h] eqn:EC.
  - destruct (convert_nopad 5 8 ltac:(lia) ltac:(lia) qs HS) as (r & Hr & HR & _). rewrite EC in HR. change (zlen (@nil Z)) with 0 in HR. assert (Hm : (zlen qs * 5) mod 8 = r) by (symmetry; apply (Z.mod_unique_pos _ _ 0); lia). pose proof (zlen_nonneg ps). unfold qs in *. rewrite zlen_cons in *. lia.
  - rewrite pyindex_0 in HE. cbn [bind] in HE. destruct (negb _); [congruence|]. destruct (_ || _); congruence.
Qed.

(** ** Packing *)
Lemma pack_spec k h : k = 0 \/ k = 1 -> bytes_ok h = true ->
  (forall c, In (zlen h, c) size_codes -> exists ss, pack_addr_data k h = Ok ss /\ five_bit_groups (8 * k + c :: h) ss).
Proof.
  intros HK HB c HI. pose proof (size_code_range _ _ HI) as [Hc _]. unfold pack_addr_data. cbv zeta.
  assert (HX : forall n, In (n, c) size_codes -> (let offset := if 40 <=? n then 2 else 1 in let es := Z.lor (if 40 <=? n then 4 else 0) ((n - 20 * offset) / (4 * offset)) in
    negb ((n - 20 * offset) mod (4 * offset) =? 0) || negb ((0 <=? es) && (es <=? 7)) = false /\ es = c)).
  { intros n Hn. cbn in Hn. repeat (destruct Hn as [Hn|Hn]; [injection Hn as <- <-; vm_compute; split; reflexivity|]). contradiction. }
  destruct (HX _ HI) as [H1 H2]. cbv zeta in H1, H2. rewrite H1, H2. clear HX H1 H2. assert (HV : Z.lor (Z.shiftl k 3) c = 8 * k + c).
  { destruct HK as [->| ->]; [reflexivity|]. cut (forall c, 0 <= c < 8 -> (Z.lor (Z.shiftl 1 3) c =? 8 * 1 + c) = true); [intros HF; apply Z.eqb_eq; apply HF; lia|]. apply zrange_all. vm_compute. reflexivity. }
  rewrite HV. rewrite (proj2 (andb_true_iff _ _)) by (rewrite Z.leb_le, Z.ltb_lt; lia). eexists. split; [reflexivity|].
  assert (HD : digits (2 ^ 8) (8 * k + c :: h)) by (apply digits_bytes; rewrite bytes_ok_cons, HB, andb_true_r; apply byte_ok_iff; lia).
  destruct (convert_pad 8 5 ltac:(lia) ltac:(lia) _ HD) as (p & Hp & HL & HDi & HVa). split; [exact HDi|]. exists p. rewrite !val_base_vbe. split; [exact Hp|]. split; [lia|exact HVa].
Qed.

(** ** Characters *)
Lemma charset_symbols : charset = symbols.
Proof. reflexivity. Qed.
Lemma find_char_spec x l : forall n, 0 <= n -> (find_char x l n = -1 /\ ~ In x l) \/ (exists i, find_char x l n = n + i /\ 0 <= i < zlen l /\ nth_error l (Z.to_nat i) = Some x).
Proof.
  induction l as [|c l IH]; intros n Hn; [left; split; [reflexivity|easy]|]. cbn [find_char]. rewrite zlen_cons. pose proof (zlen_nonneg l). destruct (Z.eqb_spec c x) as [->|HN].
  - right. exists 0. split; [lia|]. split; [lia|reflexivity].
  - destruct (IH (n + 1) ltac:(lia)) as [[H1 H2]|(i & H1 & H2 & H3)].
    + left. split; [exact H1|]. intros [HE|HI]; contradiction.
    + right. exists (i + 1). split; [lia|]. split; [lia|]. replace (Z.to_nat (i + 1)) with (S (Z.to_nat i)) by lia. exact H3.
Qed.
Lemma symbols_nodup : NoDup symbols.
Proof. vm_compute. repeat constructor; cbn; intros HI; repeat (destruct HI as [HI|HI]; [discriminate HI|]); exact HI. Qed.
Lemma symbols_length : zlen symbols = 32.
Proof. reflexivity. Qed.
Lemma symbol_fun s s' c : 0 <= s < 32 -> 0 <= s' < 32 -> nth_error symbols (Z.to_nat s) = Some c -> nth_error symbols (Z.to_nat s') = Some c -> s = s'.
Proof.
  intros Hs Hs' H1 H2. assert (Z.to_nat s = Z.to_nat s'); [|lia]. apply (proj1 (NoDup_nth_error symbols) symbols_nodup); [|congruence]. change (length symbols) with 32%nat. lia.
Qed.
Lemma charset_bytes_spec body : forall ds, charset_bytes body = Ok ds <-> spelt ds body.
Proof.
  unfold charset_bytes, spelt. intros ds. split; intros HF; [apply mapM_Ok_iff in HF|apply mapM_Ok_iff].
  - induction HF as [|c d body ds Hc HF IH]; constructor; [|exact IH]. cbv zeta in Hc. rewrite charset_symbols in Hc. destruct (find_char_spec c symbols 0 ltac:(lia)) as [[H1 H2]|(i & H1 & H2 & H3)]; rewrite H1 in Hc; [discriminate|].
    destruct (Z.ltb_spec (0 + i) 0); [lia|]. injection Hc as <-. rewrite symbols_length in H2. split; [lia|]. now rewrite Z.add_0_l.
  - induction HF as [|d c ds body (Hd & Hc) HF IH]; constructor; [|exact IH]. cbv zeta. rewrite charset_symbols. destruct (find_char_spec c symbols 0 ltac:(lia)) as [[H1 H2]|(i & H1 & H2 & H3)].
    + exfalso. apply H2. now apply nth_error_In in Hc.
    + rewrite H1. destruct (Z.ltb_spec (0 + i) 0); [lia|]. f_equal. rewrite symbols_length in H2. rewrite Z.add_0_l. now apply (symbol_fun i d c).
Qed.
Lemma charset_bytes_err body e : charset_bytes body = Err e -> e = ValueError.
Proof. unfold charset_bytes. induction body as [|c body IH]; cbn [mapM]; [discriminate|]. intros HE. apply bind_Err in HE as [HE|(y & _ & HE)]; [cbv zeta in HE; destruct (_ <? 0); congruence|]. apply bind_Err in HE as [HE|(z & _ & HE)]; [now apply IH|discriminate]. Qed.
Lemma spelt_symbols ds body : spelt ds body -> symbols_ok ds.
Proof. intros HF. induction HF as [|? ? ? ? [H _]]; constructor; auto. Qed.
Lemma spelt_fun ds body body' : spelt ds body -> spelt ds body' -> body = body'.
Proof. intros H1. revert body'. induction H1 as [|d c ds body [_ Hc] HF IH]; intros body' H2; inversion H2 as [|? ? ? ? [_ Hc'] HF']; subst; [reflexivity|]. f_equal; [congruence|now apply IH]. Qed.
Lemma spelt_inj ds ds' body : spelt ds body -> spelt ds' body -> ds = ds'.
Proof. intros H1 H2. apply charset_bytes_spec in H1, H2. congruence. Qed.
Lemma spelt_exists ds : symbols_ok ds -> exists body, spelt ds body.
Proof.
  intros HF. induction HF as [|d ds Hd HF (body & IH)]; [exists []; constructor|]. destruct (nth_error symbols (Z.to_nat d)) as [c|] eqn:E.
  - exists (c :: body). constructor; [split; assumption|exact IH].
  - apply nth_error_None in E. change (length symbols) with 32%nat in E. lia.
Qed.
Lemma spelt_length ds body : spelt ds body -> zlen ds = zlen body.
Proof. intros HF. induction HF; [reflexivity|]. rewrite !zlen_cons. lia. Qed.
Lemma symbols_chars c : In c symbols -> lower_char c = c /\ c <> 58.
Proof. intros HI. assert (HF : forallb (fun c => (lower_char c =? c) && negb (c =? 58)) symbols = true) by (vm_compute; reflexivity). rewrite forallb_forall in HF. apply HF in HI. apply andb_true_iff in HI as [H1 H2]. apply Z.eqb_eq in H1. apply negb_true_iff, Z.eqb_neq in H2. auto. Qed.
Lemma spelt_lower ds body : spelt ds body -> lower body = body.
Proof. intros HF. induction HF as [|d c ds body [_ Hc] HF IH]; [reflexivity|]. unfold lower in *. cbn [map]. rewrite IH. f_equal. apply nth_error_In in Hc. now apply symbols_chars. Qed.

(** ** Case and splitting *)
Lemma lower_char_ok c : lower_char c = c <-> ~ 65 <= c <= 90.
Proof. unfold lower_char. destruct (Z.leb_spec 65 c), (Z.leb_spec c 90); cbn [andb]; lia. Qed.
Lemma lower_id t : lower t = t <-> lower_case t.
Proof.
  unfold lower, lower_case. induction t as [|c t IH]; cbn [map]; [split; [constructor|reflexivity]|]. split.
  - intros HE. injection HE as H1 H2. constructor; [now apply lower_char_ok|now apply IH].
  - intros HF. inversion HF; subst. f_equal; [now apply lower_char_ok|now apply IH].
Qed.
Lemma lower_app a b : lower (a ++ b) = lower a ++ lower b.
Proof. apply map_app. Qed.
Lemma upper_app a b : upper (a ++ b) = upper a ++ upper b.
Proof. apply map_app. Qed.
Lemma lower_lower t : lower (lower t) = lower t.
Proof. unfold lower. rewrite map_map. apply map_ext. intros c. unfold lower_char. destruct (Z.leb_spec 65 c), (Z.leb_spec c 90); cbn [andb]; destruct (Z.leb_spec 65 c), (Z.leb_spec c 90); cbn [andb]; try lia; destruct (Z.leb_spec 65 (c + 32)), (Z.leb_spec (c + 32) 90); cbn [andb]; lia. Qed.
Lemma upper_upper t : upper (upper t) = upper t.
Proof. unfold upper. rewrite map_map. apply map_ext. intros c. unfold upper_char. destruct (Z.leb_spec 97 c), (Z.leb_spec c 122); cbn [andb]; destruct (Z.leb_spec 97 c), (Z.leb_spec c 122); cbn [andb]; try lia; destruct (Z.leb_spec 97 (c - 32)), (Z.leb_spec (c - 32) 122); cbn [andb]; lia. Qed.
Lemma lower_upper t : lower_case t -> lower (upper t) = t.
Proof.
  intros HF. induction HF as [|c t Hc HF IH]; [reflexivity|]. unfold lower, upper in *. cbn [map]. rewrite IH. f_equal. unfold upper_char, lower_char.
  destruct (Z.leb_spec 97 c), (Z.leb_spec c 122); cbn [andb]; [destruct (Z.leb_spec 65 (c - 32)), (Z.leb_spec (c - 32) 90); cbn [andb]; lia|..]; destruct (Z.leb_spec 65 c), (Z.leb_spec c 90); cbn [andb]; lia.
Qed.
Lemma upper_lower t : upper (lower t) = upper t.
Proof.
  unfold lower, upper. rewrite map_map. apply map_ext. intros c. unfold upper_char, lower_char. destruct (Z.leb_spec 65 c), (Z.leb_spec c 90); cbn [andb]; try reflexivity.
  destruct (Z.leb_spec 97 (c + 32)), (Z.leb_spec (c + 32) 122), (Z.leb_spec 97 c), (Z.leb_spec c 122); cbn [andb]; lia.
Qed.
Lemma lower_in_58 t : In 58 (lower t) <-> In 58 t.
Proof.
  unfold lower. rewrite in_map_iff. split.
  - intros (c & HC & HI). unfold lower_char in HC. destruct (Z.leb_spec 65 c), (Z.leb_spec c 90); cbn [andb] in HC; try lia; now subst.
  - intros HI. exists 58. split; [reflexivity|exact HI].
Qed.
Lemma split_once_spec sep s : forall a b, split_once sep s = Some (a, b) <-> s = a ++ sep :: b /\ ~ In sep a.
Proof.
  induction s as [|c s IH]; intros a b; cbn [split_once]; [split; [discriminate|intros [HE _]; now destruct a]|]. destruct (Z.eqb_spec c sep) as [->|HN].
  - split; [intros HE; injection HE as <- <-; split; [reflexivity|easy]|]. intros [HE HI]. destruct a as [|x a]; [now injection HE as <-|]. injection HE as <- _. exfalso. apply HI. now left.
  - destruct (split_once sep s) as [[a' b']|] eqn:E.
    + destruct (proj1 (IH a' b') eq_refl) as [H1 H2]. split.
      * intros HE. injection HE as <- <-. split; [now rewrite H1|]. intros [HC|HI]; contradiction.
      * intros [HE HI]. destruct a as [|x a]; [injection HE as -> _; contradiction|]. injection HE as <- HE. assert (HS : Some (a', b') = Some (a, b)) by (apply IH; split; [exact HE|]; intros HC; apply HI; now right). now injection HS as <- <-.
    + split; [discriminate|]. intros [HE HI]. destruct a as [|x a]; [injection HE as -> _; contradiction|]. injection HE as <- HE. assert (HS : @None (pystr * pystr) = Some (a, b)) by (apply IH; split; [exact HE|]; intros HC; apply HI; now right). discriminate.
Qed.
Lemma drop8 (ds : list Z) : 8 <= zlen ds -> exists ss cs, ds = ss ++ cs /\ zlen cs = 8 /\ slice_to ds (-8) = ss.
Proof.
  intros HL. exists (ztake (zlen ds - 8) ds), (zdrop (zlen ds - 8) ds). split; [symmetry; apply ztake_zdrop|]. split; [rewrite zlen_zdrop; lia|]. unfold slice_to, slice_bound. cbn [Z.ltb Z.compare]. f_equal. lia.
Qed.
Lemma drop8_app (ss cs : list Z) : zlen cs = 8 -> slice_to (ss ++ cs) (-8) = ss.
Proof. intros HL. pose proof (zlen_nonneg ss). unfold slice_to, slice_bound. cbn [Z.ltb Z.compare]. rewrite zlen_app, HL. apply ztake_app_exact. lia. Qed.

Definition cased (addr q p : pystr) : Prop := (lower addr = addr /\ q = p) \/ (lower addr <> addr /\ upper addr = addr /\ q = upper p).
Lemma payload_spec addr q data : decode_payload addr = Ok (q, data) <->
  exists p body cs, lower addr = p ++ 58 :: body /\ ~ In 58 p /\ p <> [] /\ Forall (fun x => 33 <= x <= 126) p /\ 8 <= zlen body <= 124 /\ spelt (data ++ cs) body /\ zlen cs = 8 /\
    polymod (prefix_expand p ++ data ++ cs) = 0 /\ cased addr q p.
Proof.
  unfold decode_payload, cased. cbv zeta. split.
  - intros HE. destruct (negb (bytes_eqb (lower addr) addr) && negb (bytes_eqb (upper addr) addr)) eqn:EC; [discriminate|]. destruct (split_once 58 (lower addr)) as [[p body]|] eqn:ES; [|discriminate]. apply split_once_spec in ES as [HS HI].
    destruct p as [|p0 p]; [discriminate|]. set (pp := p0 :: p) in *. destruct (forallb _ pp) eqn:EF; [|discriminate]. cbn [negb] in HE. destruct ((8 <=? zlen body) && (zlen body <=? 124)) eqn:EL; [|discriminate]. cbn [negb] in HE.
    apply bind_Ok in HE as (ds & HD & HE). apply charset_bytes_spec in HD. destruct (Z.eqb_spec (polymod (prefix_expand pp ++ ds)) 0) as [HP|]; [|discriminate]. cbn [negb] in HE.
    apply andb_true_iff in EL. rewrite !Z.leb_le in EL. destruct (drop8 ds ltac:(rewrite (spelt_length _ _ HD); lia)) as (ss & cs & -> & HL8 & HSl). rewrite HSl in HE. injection HE as HQ <-.
    exists pp, body, cs. split; [exact HS|]. split; [exact HI|]. split; [discriminate|]. split; [apply Forall_forall; intros x Hx; rewrite forallb_forall in EF; apply EF in Hx; apply andb_true_iff in Hx; rewrite !Z.leb_le in Hx; exact Hx|].
    split; [exact EL|]. split; [exact HD|]. split; [exact HL8|]. split; [exact HP|]. revert EC HQ. destruct (bytes_eqb_spec (lower addr) addr) as [HLo|HLo]; intros EC HQ; [left; split; [exact HLo|exact (eq_sym HQ)]|]. right. cbn [negb andb] in EC. split; [exact HLo|]. destruct (bytes_eqb_spec (upper addr) addr) as [HU|]; [|discriminate]. split; [exact HU|exact (eq_sym HQ)].
  - intros (p & body & cs & HS & HI & HN & HF & HL & HD & HL8 & HP & HCs). assert (HC : negb (bytes_eqb (lower addr) addr) && negb (bytes_eqb (upper addr) addr) = false).
    { destruct HCs as [[HLo _]|(_ & HU & _)]; [rewrite (proj2 (bytes_eqb_eq (lower addr) addr)) by exact HLo; reflexivity|]. rewrite (proj2 (bytes_eqb_eq (upper addr) addr)) by exact HU. apply andb_false_r. }
    rewrite HC, (proj2 (split_once_spec 58 (lower addr) p body) (conj HS HI)). destruct p as [|p0 p]; [contradiction|]. set (pp := p0 :: p) in *.
    rewrite (proj2 (forallb_forall (fun x => (33 <=? x) && (x <=? 126)) pp)) by (intros x Hx; rewrite Forall_forall in HF; apply HF in Hx; apply andb_true_iff; rewrite !Z.leb_le; exact Hx). cbn [negb].
    rewrite (proj2 (andb_true_iff (8 <=? zlen body) (zlen body <=? 124))) by (rewrite !Z.leb_le; exact HL). cbn [negb]. apply charset_bytes_spec in HD. rewrite HD. cbn [bind]. rewrite HP, Z.eqb_refl. cbn [negb]. rewrite drop8_app by exact HL8. f_equal. f_equal.
    destruct HCs as [[HLo ->]|(HLo & _ & ->)]; [now rewrite (proj2 (bytes_eqb_eq (lower addr) addr)) by exact HLo|]. destruct (bytes_eqb_spec (lower addr) addr); [contradiction|reflexivity].
Qed.
Lemma payload_err addr e : decode_payload addr = Err e -> e = ValueError.
Proof.
  unfold decode_payload. cbv zeta. intros HE. destruct (_ && _); [congruence|]. destruct (split_once _ _) as [[[|p0 p] body]|]; [congruence| |congruence]. destruct (negb _); [congruence|]. destruct (negb _); [congruence|].
  apply bind_Err in HE as [HE|(ds & _ & HE)]; [now apply charset_bytes_err in HE|]. destruct (negb _); congruence.
Qed.
Lemma prefix_symbols p : symbols_ok (prefix_expand p).
Proof. apply symbols_app. split; [|constructor; [lia|constructor]]. apply Forall_forall. intros x Hx. apply in_map_iff in Hx as (c & <- & _). change 31 with (Z.ones 5). rewrite Z.land_ones by lia. apply Z.mod_pos_bound. lia. Qed.

(** The standard text *)
Definition text_of (p : pystr) (k : Z) (h : bytes) (t : pystr) : Prop :=
  good_prefix p /\ (k = 0 \/ k = 1) /\ bytes_ok h = true /\
  exists v ss body, version_for k h v /\ five_bit_groups (v :: h) ss /\ spelt (ss ++ create_checksum p ss) body /\ t = p ++ 58 :: body.
Lemma decode_spec addr q k h : cash_decode addr = Ok (q, k, h) <-> exists p, text_of p k h (lower addr) /\ cased addr q p.
Proof.
  rewrite cash_decode_core. split.
  - intros HE. apply bind_Ok in HE as ([q' data] & HP & HE). apply bind_Ok in HE as ([k' h'] & HC & HE). injection HE as -> -> ->. apply payload_spec in HP as (p & body & cs & HS & HI & HN & HF & HL & HD & HL8 & HPm & HCs).
    pose proof (spelt_symbols _ _ HD) as HSy. apply symbols_app in HSy as [HS1 HS2]. apply (core_spec data k h HS1) in HC as (HK & HB & v & HV & HG). exists p. split; [|exact HCs]. split.
    { split; [exact HN|]. assert (HLp : lower_case p). { assert (HLa : lower_case (lower addr)) by (apply lower_id, lower_lower). rewrite HS in HLa. now apply Forall_app in HLa. }
      apply Forall_forall. intros c Hc. unfold lower_case in HLp. rewrite Forall_forall in HF, HLp. split; [now apply HF|]. split; [|now apply HLp]. intros ->. contradiction. }
    split; [exact HK|]. split; [exact HB|]. exists v, data, body. split; [exact HV|]. split; [exact HG|]. split; [|exact HS]. apply (checksum_unique _ _ _ (prefix_symbols p) HS1 HS2 HL8) in HPm. unfold create_checksum. fold (digits8 (polymod (prefix_expand p ++ data ++ zrepeat 0 8))). now rewrite <- HPm.
  - intros (p & ((HN & HF) & HK & HB & v & ss & body & HV & HG & HD & HT) & HCs). pose proof (spelt_symbols _ _ HD) as HSy. apply symbols_app in HSy as [HS1 HS2].
    assert (HDP : decode_payload addr = Ok (q, ss)).
    { apply payload_spec. exists p, body, (create_checksum p ss). split; [exact HT|]. split; [intros HI; rewrite Forall_forall in HF; apply HF in HI; lia|]. split; [exact HN|]. split; [apply Forall_forall; intros x Hx; rewrite Forall_forall in HF; apply HF in Hx; lia|].
      assert (HL8 : zlen (create_checksum p ss) = 8) by reflexivity. rewrite <- (spelt_length _ _ HD), zlen_app, HL8. split.
      { destruct HV as (c & HI & _). apply size_code_range in HI. destruct HG as (_ & pad & Hp & HLn & _). rewrite zlen_cons in HLn. lia. }
      split; [exact HD|]. split; [exact HL8|]. split; [|exact HCs]. now apply (checksum_unique _ _ _ (prefix_symbols p) HS1 HS2 HL8). }
    rewrite HDP. cbn [bind]. rewrite (proj2 (core_spec ss k h HS1)) by (split; [exact HK|]; split; [exact HB|]; exists v; now split). reflexivity.
Qed.
Lemma decode_errors addr e : cash_decode addr = Err e -> e = ValueError \/ (e = IndexError /\ exists q, decode_payload addr = Ok (q, [])).
Proof.
  rewrite cash_decode_core. intros HE. apply bind_Err in HE as [HE|([q data] & HP & HE)]; [left; now apply payload_err in HE|]. pose proof HP as HP'. apply payload_spec in HP' as (p & body & cs & _ & _ & _ & _ & _ & HD & _).
  pose proof (spelt_symbols _ _ HD) as HSy. apply symbols_app in HSy as [HS1 _]. apply bind_Err in HE as [HE|([k h] & _ & HE)]; [|discriminate]. apply core_errors in HE as [[_ ->]|[-> ->]]; [now left|right; eauto|exact HS1].
Qed.
