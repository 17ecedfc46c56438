(** Base58 (C45, C46). *)
From Verif.Model Require Import Py Text Misc Base58.
From Verif.Spec Require Import Numbers Base58Spec.
From Verif.Proofs Require Import PyFacts NumbersFacts ScriptFacts ScriptTheorems Digits.

Lemma alphabet_chars : alphabet = base58_chars.
Proof. vm_compute. reflexivity. Qed.

Lemma position_Some c l : forall n d, position c l n = Some d -> n <= d < n + zlen l /\ znth l (d - n) = Some c.
Proof.
  induction l as [|x l IH]; intros n d HP; [discriminate|]. cbn [position] in HP. rewrite zlen_cons. pose proof (zlen_nonneg l).
  destruct (Z.eqb_spec x c) as [->|Hne].
  - injection HP as <-. rewrite Z.sub_diag. split; [lia|reflexivity].
  - apply IH in HP as [H1 H2]. split; [lia|]. cbn [znth]. replace (d - n =? 0) with false by lia. replace (d - n <? 0) with false by lia.
    replace (d - n - 1) with (d - (n + 1)) by lia. exact H2.
Qed.
Lemma position_None c l : forall n, position c l n = None <-> ~ In c l.
Proof.
  induction l as [|x l IH]; intros n; cbn [position In]; [tauto|]. destruct (Z.eqb_spec x c) as [->|Hne]; [split; [discriminate|tauto]|]. rewrite IH. tauto.
Qed.
Lemma cvalue_Some c d : cvalue c = Some d <-> 0 <= d < 58 /\ znth base58_chars d = Some c.
Proof.
  split.
  - intros HP. apply position_Some in HP as [H1 H2]. change (zlen base58_chars) with 58 in H1. rewrite Z.sub_0_r in H2. split; [lia|exact H2].
  - intros [Hd HN]. assert (HA : forallb (fun d => match znth base58_chars d with Some c => match cvalue c with Some e => e =? d | None => false end | None => false end)
      (zrange 0 58) = true) by (vm_compute; reflexivity).
    pose proof (zrange_all _ _ _ HA d Hd) as HX. cbv beta in HX. rewrite HN in HX. destruct (cvalue c); [|discriminate]. apply Z.eqb_eq in HX. now subst.
Qed.
Lemma cvalue_None c : cvalue c = None <-> ~ In c alphabet.
Proof. rewrite alphabet_chars. apply position_None. Qed.

Lemma Forall2_len {A B} (R : A -> B -> Prop) l m : Forall2 R l m -> length l = length m.
Proof. induction 1; cbn; auto. Qed.
Definition chars_of (t : pystr) (ds : list Z) : Prop := Forall2 (fun c d => cvalue c = Some d) t ds.
Lemma chars_digits t ds : chars_of t ds -> digits 58 ds.
Proof. induction 1 as [|c d t ds HC _ IH]; constructor; auto. now apply cvalue_Some in HC. Qed.
Lemma chars_fun t ds ds' : chars_of t ds -> chars_of t ds' -> ds = ds'.
Proof. intros HC. revert ds'. induction HC as [|c d t ds Hc _ IH]; intros ds' HC'; inversion HC'; subst; f_equal; [congruence|auto]. Qed.
Lemma chars_inj t t' ds : chars_of t ds -> chars_of t' ds -> t = t'.
Proof.
  intros HC. revert t'. induction HC as [|c d t ds Hc _ IH]; intros t' HC'; inversion HC'; subst; f_equal; [|auto].
  apply cvalue_Some in Hc as [_ Hc]. match goal with H : cvalue x = Some d |- _ => apply cvalue_Some in H as [_ H]; congruence end.
Qed.
Lemma decode_value_ok t ds : chars_of t ds -> forall v, decode_value v t = Ok (fold_left (fun a d => a * 58 + d) ds v).
Proof. induction 1 as [|c d t ds HC _ IH]; intros v; [reflexivity|]. cbn [decode_value fold_left]. now rewrite HC. Qed.
Lemma chars_total t : (exists ds, chars_of t ds) \/ (exists c, In c t /\ ~ In c alphabet).
Proof.
  induction t as [|c t [(ds & IH)|(x & Hx & HN)]]; [left; exists []; constructor| |right; exists x; split; [now right|assumption]].
  destruct (cvalue c) as [d|] eqn:E; [left; exists (d :: ds); now constructor|]. right. exists c. split; [now left|]. now apply cvalue_None.
Qed.
Lemma decode_value_bad t c : In c t -> ~ In c alphabet -> forall v, decode_value v t = Err Base58Error.
Proof.
  intros HI HN. apply cvalue_None in HN. induction t as [|x t IH]; [contradiction|]. intros v. cbn [decode_value]. destruct HI as [->|HI]; [now rewrite HN|].
  destruct (cvalue x); [now apply IH|reflexivity].
Qed.

Lemma be_bytes_min v : 0 <= v -> exists r, int_to_be_bytes v None = Ok r /\ canon_be 256 r /\ be_int r = v.
Proof.
  intros Hv. destruct (Z.eq_dec v 0) as [->|Hne]; [exists []; split; [reflexivity|]; split; [split; [constructor|contradiction]|reflexivity]|].
  destruct (le_bytes_pos v ltac:(lia)) as (body & x & HE & HB & Hx & HV). exists (rev (body ++ [x])).
  unfold int_to_be_bytes, to_bytes_be. unfold int_to_le_bytes in HE. rewrite HE. split; [reflexivity|]. rewrite rev_app_distr. cbn [rev app]. split.
  - split; [|intros _; cbn; lia]. apply digits_256. rewrite bytes_ok_cons, bytes_ok_rev, HB, (proj2 (byte_ok_iff x)) by lia. reflexivity.
  - unfold be_int. cbn [rev]. rewrite rev_involutive, <- val_le_int, val_le_snoc. lia.
Qed.

Lemma leading_repeat x n l : (hd_error l <> Some x) -> leading x (repeat x n ++ l) = Z.of_nat n.
Proof.
  intros HL. induction n as [|n IH]; cbn [repeat app leading].
  - destruct l as [|y l]; [reflexivity|]. cbn in *. destruct (Z.eqb_spec y x) as [->|]; [contradiction HL; reflexivity|reflexivity].
  - rewrite Z.eqb_refl, IH. lia.
Qed.
Lemma canon_hd B r : canon_be B r -> hd_error r <> Some 0.
Proof. intros [_ HL]. destruct r as [|x r]; [discriminate|]. specialize (HL ltac:(discriminate)). cbn in *. congruence. Qed.

Lemma encode_digits_ok f : forall v, 0 <= v < 2 ^ Z.of_nat f -> exists ds, chars_of (encode_digits f v) ds /\ canon 58 ds /\ vle 58 ds = v.
Proof.
  induction f as [|f IH]; intros v Hv.
  - change (2 ^ Z.of_nat 0) with 1 in Hv. exists []. split; [constructor|]. split; [split; [constructor|contradiction]|cbn; lia].
  - cbn [encode_digits]. destruct (Z.eqb_spec v 0) as [->|Hne].
    { exists []. split; [constructor|]. split; [split; [constructor|contradiction]|reflexivity]. }
    pose proof (Z.div_mod v 58 ltac:(lia)) as HD. pose proof (Z.mod_pos_bound v 58 ltac:(lia)) as HM.
    assert (Hq : 0 <= v / 58 < 2 ^ Z.of_nat f).
    { split; [apply Z.div_pos; lia|]. apply Z.div_lt_upper_bound; [lia|]. rewrite Nat2Z.inj_succ, Z.pow_succ_r in Hv by lia. lia. }
    destruct (IH _ Hq) as (ds & HC & HCan & HV). destruct (znth_is_Some base58_chars (v mod 58) HM) as (c & Hc). rewrite Hc.
    exists (v mod 58 :: ds). split; [constructor; [apply cvalue_Some; auto|assumption]|]. split.
    + split; [constructor; [assumption|apply HCan]|]. intros _. destruct ds as [|e ds]; [|apply HCan; discriminate].
      cbn [last]. change (vle 58 []) with 0 in HV. lia.
    + rewrite vle_cons, HV. lia.
Qed.
Lemma repeat_rev {A} (x : A) n : rev (repeat x n) = repeat x n.
Proof.
  induction n as [|n IH]; [reflexivity|]. cbn [repeat rev]. rewrite IH. clear IH. induction n as [|n IH]; [reflexivity|]. cbn [repeat app]. now rewrite IH.
Qed.
Lemma chars_app t u ds es : chars_of t ds -> chars_of u es -> chars_of (t ++ u) (ds ++ es).
Proof. apply Forall2_app. Qed.
Lemma chars_rev t ds : chars_of t ds -> chars_of (rev t) (rev ds).
Proof. induction 1 as [|c d t ds HC _ IH]; [constructor|]. cbn [rev]. apply Forall2_app; [assumption|]. constructor; [assumption|constructor]. Qed.
Lemma chars_ones n : chars_of (repeat 49 n) (repeat 0 n).
Proof. induction n; constructor; auto. Qed.

Lemma encode_spec n r : canon_be 256 r -> exists ds, chars_of (base58_encode (repeat 0 n ++ r)) (repeat 0 n ++ ds) /\ canon_be 58 ds /\ vbe 58 ds = be_int r.
Proof.
  intros HC. unfold base58_encode. assert (HV : be_int (repeat 0 n ++ r) = be_int r) by (rewrite <- !vbe_256; apply vbe_zeros).
  rewrite HV, (leading_repeat 0 n r (canon_hd _ _ HC)). pose proof (vbe_bound 256 ltac:(lia) r (proj1 HC)) as HB. rewrite vbe_256 in HB.
  assert (HL : 0 <= be_int r < 2 ^ Z.of_nat (S (Z.to_nat (Z.log2 (be_int r))))).
  { split; [lia|]. pose proof (Z.log2_nonneg (be_int r)). rewrite Nat2Z.inj_succ, Z2Nat.id by lia.
    destruct (Z.eq_dec (be_int r) 0) as [->|]; [reflexivity|]. apply Z.log2_spec. lia. }
  destruct (encode_digits_ok _ _ HL) as (ds & HCh & HCan & HVal). exists (rev ds). split; [|split].
  - rewrite rev_app_distr. apply chars_app; [|now apply chars_rev]. unfold zrepeat. rewrite Nat2Z.id, repeat_rev. apply chars_ones.
  - apply canon_be_rev. now rewrite rev_involutive.
  - rewrite vbe_rev, rev_involutive by lia. exact HVal.
Qed.
Lemma decode_spec n t ds : chars_of t (repeat 0 n ++ ds) -> t <> [] -> canon_be 58 ds -> exists r, base58_decode t = Ok (repeat 0 n ++ r) /\ canon_be 256 r /\ be_int r = vbe 58 ds.
Proof.
  intros HC Hne HCan. unfold base58_decode. destruct t as [|c0 t0] eqn:Et; [contradiction|]. rewrite <- Et in *. clear Et Hne.
  rewrite (decode_value_ok _ _ HC 0). cbn [bind]. change (fold_left (fun a d => a * 58 + d) (repeat 0 n ++ ds) 0) with (vbe 58 (repeat 0 n ++ ds)). rewrite vbe_zeros.
  destruct (be_bytes_min (vbe 58 ds) (proj1 (vbe_bound 58 ltac:(lia) ds (proj1 HCan)))) as (r & -> & HCr & HV). cbn [bind]. exists r. split; [|auto]. f_equal. f_equal.
  assert (HL : leading 49 t = Z.of_nat n).
  { apply Forall2_app_inv_r in HC as (t1 & t2 & H1 & H2 & ->). assert (t1 = repeat 49 n) as -> by (eapply chars_inj; [exact H1|apply chars_ones]).
    apply leading_repeat. inversion H2 as [|c d t2' ds' Hc _]; subst; [discriminate|]. cbn. intros [= ->]. change (cvalue 49) with (Some 0) in Hc. injection Hc as <-.
    now apply (canon_hd _ _ HCan). }
  rewrite HL. unfold zrepeat. now rewrite Nat2Z.id.
Qed.

Theorem decode_encode b : bytes_ok b = true -> b <> [] -> base58_decode (base58_encode b) = Ok b.
Proof.
  intros HB Hne. destruct (strip_zeros 256 b (proj2 (digits_256 b) HB)) as (n & r & -> & HC).
  destruct (encode_spec n r HC) as (ds & HCh & HCan & HV).
  assert (Ht : base58_encode (repeat 0 n ++ r) <> []).
  { intros E. rewrite E in HCh. apply Forall2_len in HCh. rewrite app_length, repeat_length in HCh. cbn in HCh. destruct n; [|lia]. destruct ds; [|cbn in HCh; lia]. apply Hne. cbn [repeat app].
    apply (canon_be_unique 256 ltac:(lia)); [assumption|split; [constructor|contradiction]|]. rewrite vbe_256, <- HV. reflexivity. }
  destruct (decode_spec n _ ds HCh Ht HCan) as (r' & -> & HC' & HV'). f_equal. f_equal. apply (canon_be_unique 256 ltac:(lia)); auto. rewrite !vbe_256. congruence.
Qed.
Theorem encode_decode t b : base58_decode t = Ok b -> base58_encode b = t /\ bytes_ok b = true /\ b <> [].
Proof.
  intros HD. assert (Hne : t <> []) by (intros ->; discriminate). destruct (chars_total t) as [(ds & HC)|(c & Hc & HN)].
  - destruct (strip_zeros 58 ds (chars_digits _ _ HC)) as (n & ds' & -> & HCan). destruct (decode_spec n t ds' HC Hne HCan) as (r & HR & HCr & HV).
    rewrite HR in HD. injection HD as <-. destruct (encode_spec n r HCr) as (ds2 & HCh & HCan2 & HV2). assert (ds2 = ds') as ->.
    { apply (canon_be_unique 58 ltac:(lia)); auto. congruence. }
    split; [exact (chars_inj _ _ _ HCh HC)|]. split.
    + rewrite bytes_ok_app. rewrite (proj1 (digits_256 r) (proj1 HCr)), andb_true_r. apply bytes_ok_In. intros x Hx. apply repeat_spec in Hx. lia.
    + intros E. apply app_eq_nil in E as [Hn ->]. destruct n; [|discriminate]. cbn in HC. assert (ds' = []) as ->.
      { apply (canon_be_unique 58 ltac:(lia)); [assumption|split; [constructor|contradiction]|]. now rewrite <- HV. }
      inversion HC. now subst.
  - unfold base58_decode in HD. destruct t as [|c0 t0] eqn:Et; [contradiction|]. rewrite <- Et in *. rewrite (decode_value_bad t c Hc HN) in HD. discriminate.
Qed.
Theorem decode_domain t : (t <> [] /\ (forall c, In c t -> In c alphabet) -> exists b, base58_decode t = Ok b) /\
  (~ (t <> [] /\ forall c, In c t -> In c alphabet) -> base58_decode t = Err Base58Error).
Proof.
  split.
  - intros [Hne HA]. destruct (chars_total t) as [(ds & HC)|(c & Hc & HN)]; [|exfalso; auto].
    destruct (strip_zeros 58 ds (chars_digits _ _ HC)) as (n & ds' & -> & HCan). destruct (decode_spec n t ds' HC Hne HCan) as (r & HR & _). eauto.
  - intros HN. destruct t as [|c0 t0] eqn:Et; [reflexivity|]. rewrite <- Et in *. destruct (chars_total t) as [(ds & HC)|(c & Hc & Hx)].
    + exfalso. apply HN. split; [now rewrite Et|]. intros c Hc. destruct (in_dec Z.eq_dec c alphabet) as [|Hni]; [assumption|]. apply cvalue_None in Hni.
      clear - HC Hc Hni. induction HC as [|x d t ds Hx _ IH]; [contradiction|]. destruct Hc as [->|Hc]; [congruence|auto].
    + unfold base58_decode. rewrite Et, <- Et. rewrite (decode_value_bad t c Hc Hx). reflexivity.
Qed.
Lemma leading_count_0 B n r : canon_be B r -> leading_count 0 (repeat 0 n ++ r) n.
Proof.
  intros HC. exists r. split; [reflexivity|]. destruct r as [|y r]; [now left|right]. exists y, r. split; [reflexivity|].
  destruct HC as [_ HL]. exact (HL ltac:(discriminate)).
Qed.
Theorem decode_value_spec t b : base58_decode t = Ok b -> base58_of t b.
Proof.
  intros HD. assert (Hne : t <> []) by (intros ->; discriminate). destruct (chars_total t) as [(ds & HC)|(c & Hc & HN)].
  - destruct (strip_zeros 58 ds (chars_digits _ _ HC)) as (n & ds' & -> & HCan). destruct (decode_spec n t ds' HC Hne HCan) as (r & HR & HCr & HV).
    rewrite HR in HD. injection HD as <-. split.
    + exists (repeat 0 n ++ ds'). split.
      * clear - HC. induction HC as [|c d t ds Hc _ IH]; constructor; auto. apply cvalue_Some in Hc as [Hd Hc]. split; [assumption|]. rewrite alphabet_chars, <- znth_nth_error by lia. exact Hc.
      * rewrite val_be_rev. change (le_int (rev (repeat 0 n ++ r))) with (be_int (repeat 0 n ++ r)). rewrite <- vbe_256, vbe_zeros, vbe_256, HV.
        rewrite <- (vbe_zeros 58 n ds'). unfold vbe.
        assert (HE : forall l a, fold_left (fun a d => 58 * a + d) l a = fold_left (fun a d => a * 58 + d) l a).
        { induction l as [|x l IH]; intros a; [reflexivity|]. cbn [fold_left]. rewrite IH. f_equal. lia. }
        apply HE.
    + exists n. split; [|exact (leading_count_0 256 n r HCr)].
      apply Forall2_app_inv_r in HC as (t1 & t2 & H1 & H2 & ->). assert (t1 = repeat 49 n) as -> by (eapply chars_inj; [exact H1|apply chars_ones]).
      exists t2. split; [reflexivity|]. inversion H2 as [|c d t2' ds2 Hc _]; subst; [now left|right]. exists c, t2'. split; [reflexivity|].
      intros ->. change (cvalue 49) with (Some 0) in Hc. injection Hc as <-. now apply (canon_hd _ _ HCan).
  - unfold base58_decode in HD. destruct t as [|c0 t0] eqn:Et; [contradiction|]. rewrite <- Et in *. rewrite (decode_value_bad t c Hc HN) in HD. discriminate.
Qed.

(** Checksums *)
Lemma split_last4 (b : bytes) : slice_to b (-4) ++ slice_from b (-4) = b.
Proof. apply ztake_zdrop. Qed.
Lemma slice_last (p c : bytes) : zlen c = 4 -> slice_to (p ++ c) (-4) = p /\ slice_from (p ++ c) (-4) = c.
Proof.
  intros HL. unfold slice_to, slice_from, slice_bound. change (-4 <? 0) with true. cbv iota. rewrite zlen_app, HL. pose proof (zlen_nonneg p).
  rewrite Z.max_r by lia. split; [apply ztake_app_exact|apply zdrop_app_exact]; lia.
Qed.

Section Check.
  Variable H : bytes -> bytes.
  Hypothesis H_ok : forall x, bytes_ok (H x) = true.
  Hypothesis H_len : forall x, zlen (H x) = 32.

  Lemma H4_len x : zlen (slice_to (H x) 4) = 4.
  Proof using H_ok H_len. rewrite slice_to_nonneg by lia. rewrite zlen_ztake, H_len. reflexivity. Qed.
  Lemma H4_ok x : bytes_ok (slice_to (H x) 4) = true.
  Proof using H_ok H_len. rewrite slice_to_nonneg by lia. now apply bytes_ok_ztake. Qed.
  Theorem decode_check_encode p : bytes_ok p = true -> base58_decode_check H (base58_encode_check H p) = Ok p.
  Proof using H_ok H_len.
    intros HB. unfold base58_decode_check, base58_encode_check. rewrite decode_encode.
    - cbn [bind]. destruct (slice_last p _ (H4_len p)) as [-> ->]. now rewrite bytes_eqb_refl.
    - now rewrite bytes_ok_app, HB, H4_ok.
    - intros E. apply app_eq_nil in E as [_ E]. pose proof (H4_len p) as HL. rewrite E in HL. discriminate.
  Qed.
  Theorem decode_check_inv t p : base58_decode_check H t = Ok p -> t = base58_encode_check H p /\ bytes_ok p = true.
  Proof.
    unfold base58_decode_check, base58_encode_check. intros HD. apply bind_Ok in HD as (b & HB & HD). apply encode_decode in HB as (HE & Hok & _).
    cbv zeta in HD. destruct (bytes_eqb_spec (slice_from b (-4)) (slice_to (H (slice_to b (-4))) 4)) as [HC|]; [|discriminate]. injection HD as <-.
    rewrite <- HC, split_last4. split; [now symmetry|]. unfold slice_to. now apply bytes_ok_ztake.
  Qed.
  Lemma decode_check_err t e : base58_decode_check H t = Err e -> e = Base58Error.
  Proof.
    unfold base58_decode_check. intros HD. apply bind_Err in HD as [HD|(b & _ & HD)].
    - destruct (decode_domain t) as [H1 H2]. destruct (in_dec Z.eq_dec 0 []) as [[]|_].
      destruct (chars_total t) as [(ds & HC)|(c & Hc & HN)].
      + destruct t as [|c0 t0]; [cbn in HD; now injection HD|]. destruct (H1) as (b & Hb); [|congruence]. split; [discriminate|].
        intros c Hc. destruct (in_dec Z.eq_dec c alphabet) as [|Hni]; [assumption|]. apply cvalue_None in Hni.
        clear - HC Hc Hni. induction HC as [|x d t ds Hx _ IH]; [contradiction|]. destruct Hc as [->|Hc]; [congruence|auto].
      + rewrite H2 in HD; [now injection HD|]. intros [_ HA]. auto.
    - cbv zeta in HD. destruct (bytes_eqb _ _); [discriminate|now injection HD].
  Qed.
  Lemma encode_check_chars p c : bytes_ok p = true -> In c (base58_encode_check H p) -> In c alphabet.
  Proof using H_ok H_len.
    intros HB HI. destruct (in_dec Z.eq_dec c alphabet) as [|Hni]; [assumption|exfalso].
    pose proof (decode_check_encode p HB) as HD. unfold base58_decode_check in HD. apply bind_Ok in HD as (b & HD & _).
    rewrite (proj2 (decode_domain _)) in HD; [discriminate|]. intros [_ HA]. auto.
  Qed.
End Check.
