(** Words, text, and BIP39 mnemonics *)
From Verif.Model Require Import Py Text Misc Mnemonic.
From Verif.Spec Require Import MnemonicSpec.
From Verif.Proofs Require Import PyFacts TextFacts BitsFacts.

(** Word lists *)
Lemma index_of_Some l w i : index_of l w = Some i -> znth l i = Some w /\ 0 <= i < zlen l.
Proof.
  revert i. induction l as [|x l IH]; intros i HI; [discriminate|]. cbn [index_of] in HI. rewrite zlen_cons. pose proof (zlen_nonneg l). destruct (bytes_eqb_spec x w) as [->|Hne].
  - injection HI as <-. split; [reflexivity|lia].
  - destruct (index_of l w) as [j|] eqn:E; [|discriminate]. injection HI as <-. destruct (IH j eq_refl) as [H1 H2]. split; [|lia]. cbn [znth].
    destruct (Z.eqb_spec (Z.succ j) 0); [lia|]. destruct (Z.ltb_spec (Z.succ j) 0); [lia|]. now replace (Z.succ j - 1) with j by lia.
Qed.
Lemma index_of_None l w : index_of l w = None <-> ~ In w l.
Proof.
  induction l as [|x l IH]; [cbn; tauto|]. cbn [index_of In]. destruct (bytes_eqb_spec x w) as [->|Hne]; [split; [discriminate|intros HN; exfalso; apply HN; now left]|].
  destruct (index_of l w) as [j|]; cbn; split; intros HX; try discriminate; try reflexivity; [exfalso; apply HX; right; destruct (bytes_eq_dec x w); [contradiction|]|].
  - destruct (in_dec bytes_eq_dec w l) as [HI|HI]; [exact HI|]. apply IH in HI. discriminate.
  - intros [HX'|HX']; [contradiction|]. now apply IH.
Qed.
Lemma index_of_NoDup l i w : NoDup l -> znth l i = Some w -> index_of l w = Some i.
Proof.
  intros HN HZ. destruct (index_of l w) as [j|] eqn:E.
  - f_equal. apply index_of_Some in E as [HJ Hj]. pose proof (znth_Some _ _ _ HZ) as Hi. rewrite znth_nth_error in HJ, HZ by lia.
    rewrite NoDup_nth_error in HN. assert (HE : Z.to_nat j = Z.to_nat i); [|lia]. apply HN; [apply nth_error_Some; congruence|congruence].
  - apply index_of_None in E. exfalso. apply E. exact (znth_In _ _ _ HZ).
Qed.

(** Words and spaces *)
Lemma word_word_ok w : word w <-> word_ok w.
Proof.
  unfold word, word_ok. rewrite forallb_forall. split; intros [H1 H2]; (split; [exact H1|]); intros c Hc; specialize (H2 c Hc); destruct (is_space_str c); cbn in *; congruence.
Qed.
Lemma join_spaced ws t : spaced ws t <-> t = join (txt " ") ws.
Proof.
  change (txt " ") with [32]. split; intros HX.
  - induction HX as [|w|w v ws t HS IH]; [reflexivity..|]. change (join [32] (w :: v :: ws)) with (w ++ [32] ++ join [32] (v :: ws)). now rewrite <- IH.
  - subst t. induction ws as [|w ws IH]; [constructor|]. destruct ws as [|v ws]; [constructor|]. change (join [32] (w :: v :: ws)) with (w ++ 32 :: join [32] (v :: ws)). now constructor.
Qed.
Lemma split_spaced ws t : spaced ws t -> Forall word ws -> split_ws t = ws.
Proof. intros HS HF. apply join_spaced in HS as ->. apply split_join. eapply Forall_impl; [|exact HF]. intros w. apply word_word_ok. Qed.
Lemma split_words s : Forall word (split_ws s).
Proof.
  unfold split_ws. assert (HG : forall cur, (forall c, In c cur -> is_space_str c = false) -> Forall word (split_ws_aux cur s)); [|apply HG; contradiction].
  induction s as [|c s IH]; intros cur HC; cbn [split_ws_aux].
  - destruct cur as [|x cur]; constructor; [|constructor]. split; [cbn; intros HX; apply app_eq_nil in HX as [_ HX]; discriminate|]. intros y Hy. apply in_rev in Hy. now apply HC.
  - destruct (is_space_str c) eqn:E.
    + destruct cur as [|x cur]; [apply IH; contradiction|]. constructor; [|apply IH; contradiction]. split; [cbn; intros HX; apply app_eq_nil in HX as [_ HX]; discriminate|]. intros y Hy. apply in_rev in Hy. now apply HC.
    + apply IH. intros y [<-|Hy]; [exact E|now apply HC].
Qed.
Lemma spaced_inj ws vs t : Forall word ws -> Forall word vs -> spaced ws t -> spaced vs t -> ws = vs.
Proof. intros H1 H2 S1 S2. rewrite <- (split_spaced _ _ S1 H1). exact (split_spaced _ _ S2 H2). Qed.

(** Functions that treat a space as a separator *)
Lemma map_spaced (f : pystr -> pystr) ws t : (forall a b, f (a ++ 32 :: b) = f a ++ 32 :: f b) -> ws <> [] -> spaced ws t -> spaced (map f ws) (f t).
Proof. intros HF Hne HS. induction HS as [|w|w v ws t HS IH]; [contradiction|constructor|]. rewrite HF. cbn [map]. constructor. apply IH. discriminate. Qed.
Lemma map_fixed {A} (f : A -> A) l : (forall x, In x l -> f x = x) -> map f l = l.
Proof. induction l as [|x l IH]; intros HF; [reflexivity|]. cbn. rewrite HF by now left. f_equal. apply IH. intros y Hy. apply HF. now right. Qed.

Lemma be_int_bound b : bytes_ok b = true -> 0 <= be_int b < 2 ^ (8 * zlen b).
Proof. intros HB. unfold be_int. rewrite <- (zlen_rev b). apply le_int_bound. now rewrite bytes_ok_rev. Qed.
Lemma size_count (e : bytes) : bip39_size (zlen e) -> 256 - zlen e / 4 <? 0 = false /\ In (3 * zlen e / 4) [12; 15; 18; 21; 24].
Proof. intros [-> |[-> |[-> |[-> | ->]]]]; cbn; tauto. Qed.
Lemma existsb_In n l : existsb (Z.eqb n) l = true <-> In n l.
Proof. rewrite existsb_exists. split; [intros (x & HI & HE); apply Z.eqb_eq in HE; now subst|intros HI; exists n; split; [exact HI|apply Z.eqb_refl]]. Qed.
Lemma bad_words_nil ws wl : bip39_bad_words ws wl = [] <-> forall w, In w ws -> In w wl.
Proof.
  unfold bip39_bad_words. induction ws as [|w ws IH]; [cbn; tauto|]. cbn [filter]. destruct (index_of wl w) as [i|] eqn:E.
  - apply index_of_Some in E as [HZ _]. apply znth_In in HZ. rewrite IH. split; [intros HX v [<-|Hv]; [exact HZ|now apply HX]|intros HX v Hv; apply HX; now right].
  - apply index_of_None in E. split; [discriminate|]. intros HX. exfalso. apply E, HX. now left.
Qed.
Lemma mapM_index (wl : list pystr) ns ws : zlen wl = 2048 -> Forall (fun i => 0 <= i < 2048) ns -> (mapM (pyindex wl) ns = Ok ws <-> Forall2 (fun i w => 0 <= i < 2048 /\ znth wl i = Some w) ns ws).
Proof.
  intros HL HF. rewrite mapM_Ok_iff. assert (HI : forall i w, 0 <= i < 2048 -> (pyindex wl i = Ok w <-> znth wl i = Some w)).
  { intros i w Hi. unfold pyindex. destruct (Z.ltb_spec i 0); [lia|]. destruct (znth wl i); split; intros HX; try discriminate; injection HX as <-; reflexivity. }
  split; intros HX; induction HX as [|i w ns ws Hi HX IH]; constructor; try (apply IH; now inversion HF).
  - inversion HF. split; [assumption|]. now apply HI.
  - apply HI; tauto.
Qed.
Lemma entropy_of_code (wl ws : list pystr) : zlen wl = 2048 -> In (zlen ws) [12; 15; 18; 21; 24] -> (forall w, In w ws -> In w wl) ->
  let ns := map (fun w => match index_of wl w with Some i => i | None => 0 end) ws in
  let v := digits_value 2048 (rev ns) 0 1 in
  Forall2 (fun i w => 0 <= i < 2048 /\ znth wl i = Some w) ns ws /\
  exists e, bytes_ok e = true /\ zlen e = 4 * zlen ws / 3 /\ bip39_size (zlen e) /\ be_int e = v / 2 ^ (zlen ws / 3) /\
    int_to_be_bytes (v / Z.shiftl 1 (zlen ws / 3)) (Some (4 * zlen ws / 3)) = Ok e /\ zlen e / 4 = zlen ws / 3 /\ 3 * zlen e / 4 = zlen ws.
Proof.
  intros HL HC HI ns v. assert (HF : Forall2 (fun i w => 0 <= i < 2048 /\ znth wl i = Some w) ns ws).
  { unfold ns. clear v HC. clearbody ns || idtac. induction ws as [|w ws IH]; [constructor|]. cbn [map]. constructor; [|apply IH; intros x Hx; apply HI; now right].
    destruct (index_of wl w) as [i|] eqn:E; [apply index_of_Some in E; rewrite HL in E; tauto|]. apply index_of_None in E. exfalso. apply E, HI. now left. }
  split; [exact HF|]. assert (HR : Forall (fun x => 0 <= x < 2048) (rev ns)) by (apply Forall_rev; clear - HF; induction HF as [|i w ns ws [Hi _] HF IH]; constructor; assumption).
  pose proof (digits_value_bound 2048 (rev ns) ltac:(lia) HR) as HB. fold v in HB. rewrite rev_length in HB. assert (Hn : Z.of_nat (length ns) = zlen ws) by (unfold ns; rewrite map_length; reflexivity). rewrite Hn in HB.
  rewrite Z.shiftl_mul_pow2, Z.mul_1_l by (destruct HC as [<-|[<-|[<-|[<-|[<-|[]]]]]]; vm_compute; discriminate).
  set (u := v / 2 ^ (zlen ws / 3)). assert (Hu : 0 <= u < 2 ^ (8 * (4 * zlen ws / 3))).
  { unfold u. split; [apply Z.div_pos; [lia|apply Z.pow_pos_nonneg; [lia|]; destruct HC as [<-|[<-|[<-|[<-|[<-|[]]]]]]; vm_compute; discriminate]|].
    apply Z.div_lt_upper_bound; [apply Z.pow_pos_nonneg; [lia|]; destruct HC as [<-|[<-|[<-|[<-|[<-|[]]]]]]; vm_compute; discriminate|]. eapply Z.lt_le_trans; [apply HB|]. destruct HC as [<-|[<-|[<-|[<-|[<-|[]]]]]]; vm_compute; discriminate. }
  exists (rev (le_digits (Z.to_nat (4 * zlen ws / 3)) u)). assert (Hz : 0 <= 4 * zlen ws / 3) by (destruct HC as [<-|[<-|[<-|[<-|[<-|[]]]]]]; vm_compute; discriminate).
  assert (Hlen : zlen (rev (le_digits (Z.to_nat (4 * zlen ws / 3)) u)) = 4 * zlen ws / 3) by (rewrite zlen_rev, zlen_le_digits; lia).
  split; [rewrite bytes_ok_rev; apply le_digits_ok|]. split; [exact Hlen|]. rewrite Hlen. split; [unfold bip39_size; destruct HC as [<-|[<-|[<-|[<-|[<-|[]]]]]]; cbn; tauto|].
  split; [unfold be_int; rewrite rev_involutive; apply le_int_digits; rewrite Z2Nat.id by lia; exact Hu|]. split.
  - unfold int_to_be_bytes, to_bytes_be, to_bytes_le. destruct (Z.ltb_spec (4 * zlen ws / 3) 0); [lia|]. destruct (Z.ltb_spec u 0); [lia|]. destruct (Z.leb_spec (2 ^ (8 * (4 * zlen ws / 3))) u); [lia|]. reflexivity.
  - destruct HC as [<-|[<-|[<-|[<-|[<-|[]]]]]]; cbn; tauto.
Qed.

Section Bip39.
  Context (nfkd lower : pystr -> pystr) (T : text_laws nfkd lower).
  Context (H : bytes -> bytes) (H_ok : forall x, bytes_ok (H x) = true) (H_len : forall x, zlen (H x) = 32).

  (** The words of a normalized text *)
  Lemma normalize_words m : split_ws (nfkd m) <> [] -> spaced (split_ws (bip39_normalize nfkd lower m)) (bip39_normalize nfkd lower m) /\
    split_ws (bip39_normalize nfkd lower m) = map lower (split_ws (nfkd m)).
  Proof using T.
    intros Hne. unfold bip39_normalize. assert (HS : spaced (split_ws (nfkd m)) (join (txt " ") (split_ws (nfkd m)))) by now apply join_spaced.
    apply (map_spaced lower) in HS; [|apply (lower_space _ _ T)|exact Hne].
    assert (HW : Forall word (map lower (split_ws (nfkd m)))) by (apply Forall_map; eapply Forall_impl; [|apply split_words]; intros w; apply (lower_word _ _ T)).
    rewrite (split_spaced _ _ HS HW). auto.
  Qed.
  Lemma words_nonempty m : split_ws (bip39_normalize nfkd lower m) <> [] -> split_ws (nfkd m) <> [] \/ split_ws (lower []) <> [].
  Proof using T. unfold bip39_normalize. destruct (split_ws (nfkd m)); [right|left]; [assumption|discriminate]. Qed.
  Lemma lower_nil : lower [] = [].
  Proof using T.
    apply (lower_small _ _ T). contradiction.
  Qed.
  Lemma normalize_spaced m : spaced (split_ws (bip39_normalize nfkd lower m)) (bip39_normalize nfkd lower m).
  Proof using T.
    destruct (split_ws (nfkd m)) as [|w ws] eqn:E; [|apply normalize_words; rewrite E; discriminate].
    unfold bip39_normalize. rewrite E. cbn [join]. rewrite lower_nil. constructor.
  Qed.
  Lemma normalize_good wl ws t : good_words nfkd lower wl -> (forall w, In w ws -> In w wl) -> spaced ws t -> ws <> [] -> bip39_normalize nfkd lower t = t /\ split_ws t = ws.
  Proof using T.
    intros [_ HG] HI HS Hne. assert (HW : Forall word ws) by (apply Forall_forall; intros w Hw; now apply HG, HI).
    assert (HN : nfkd t = t).
    { pose proof (map_spaced nfkd ws t (nfkd_space _ _ T) Hne HS) as HM. rewrite map_fixed in HM by (intros w Hw; now apply HG, HI). apply join_spaced in HM. apply join_spaced in HS. congruence. }
    pose proof (split_spaced ws t HS HW) as HSp. split; [|exact HSp]. unfold bip39_normalize. rewrite HN, HSp.
    pose proof (map_spaced lower ws t (lower_space _ _ T) Hne HS) as HM. rewrite map_fixed in HM by (intros w Hw; now apply HG, HI).
    pose proof (proj1 (join_spaced _ _) HS) as HJ. rewrite <- HJ. apply join_spaced in HM. congruence.
  Qed.

  (** Numbers of entropies *)
  Definition code (e : bytes) : Z := be_int e * 2 ^ (zlen e / 4) + be_int (H e) / 2 ^ (256 - zlen e / 4).
  Lemma check_bound e : zlen e / 4 <= 256 -> 0 <= be_int (H e) / 2 ^ (256 - zlen e / 4) < 2 ^ (zlen e / 4).
  Proof using H_ok H_len.
    intros HS. pose proof (zlen_nonneg e) as H0. pose proof (be_int_bound (H e) (H_ok e)) as HB. rewrite H_len in HB. change (8 * 32) with 256 in HB. assert (0 <= zlen e / 4) by (apply Z.div_pos; lia).
    split; [apply Z.div_pos; [lia|apply Z.pow_pos_nonneg; lia]|]. apply Z.div_lt_upper_bound; [apply Z.pow_pos_nonneg; lia|]. rewrite <- Z.pow_add_r by lia. now replace (256 - zlen e / 4 + zlen e / 4) with 256 by lia.
  Qed.
  Lemma code_bits e : bytes_ok e = true -> bip39_size (zlen e) ->
    bits (Z.to_nat (3 * zlen e / 4) * 11) (code e) = flat_map (bits 8) e ++ firstn (length e / 4) (flat_map (bits 8) (H e)).
  Proof using H_ok H_len.
    intros HB HS. rewrite (bytes_bits e HB), (bytes_bits (H e) (H_ok e)). set (q := (length e / 4)%nat). assert (Hlen : length e = (4 * q)%nat /\ (q <= 8)%nat).
    { unfold q. unfold zlen in HS. destruct HS as [E|[E|[E|[E|E]]]]; replace (length e) with (Z.to_nat (Z.of_nat (length e))) by lia; rewrite E; clear; vm_compute; lia. }
    assert (Hq : zlen e / 4 = Z.of_nat q) by (unfold zlen; destruct Hlen as [-> _]; rewrite Nat2Z.inj_mul; rewrite Z.mul_comm; apply Z.div_mul; lia).
    clearbody q.
    assert (HLH : (length (H e) * 8 = q + (256 - q))%nat) by (specialize (H_len e); unfold zlen in H_len; lia). rewrite HLH, bits_firstn.
    replace (Z.to_nat (3 * zlen e / 4) * 11)%nat with (length e * 8 + q)%nat.
    2:{ unfold zlen. destruct Hlen as [-> _]. replace (3 * Z.of_nat (4 * q) / 4) with (3 * Z.of_nat q) by (rewrite Nat2Z.inj_mul; change (Z.of_nat 4) with 4; replace (3 * (4 * Z.of_nat q)) with (3 * Z.of_nat q * 4) by lia; symmetry; apply Z.div_mul; lia). lia. }
    unfold code. rewrite Hq. pose proof (check_bound e ltac:(lia)) as HC. rewrite Hq in HC. rewrite bits_glue by exact HC. replace (Z.of_nat (256 - q)) with (256 - Z.of_nat q) by lia. reflexivity.
  Qed.
  Definition numbers (e : bytes) : list Z := rev (low_digits 2048 (Z.to_nat (3 * zlen e / 4)) (code e)).
  Lemma mix_bound a b A B : 0 <= a < A -> 0 <= b < B -> 0 <= a * B + b < A * B.
  Proof using. clear. nia. Qed.
  Lemma small_size (e : bytes) : bip39_size (zlen e) -> zlen e / 4 <= 256.
  Proof using. clear. intros [-> |[-> |[-> |[-> | ->]]]]; vm_compute; discriminate. Qed.
  Lemma code_bound e : bytes_ok e = true -> bip39_size (zlen e) -> 0 <= code e < 2048 ^ Z.of_nat (Z.to_nat (3 * zlen e / 4)).
  Proof using H_ok H_len.
    intros HB HS. assert (HX : 2048 ^ Z.of_nat (Z.to_nat (3 * zlen e / 4)) = 2 ^ (8 * zlen e) * 2 ^ (zlen e / 4)) by (clear - HS; destruct HS as [-> |[-> |[-> |[-> | ->]]]]; vm_compute; reflexivity).
    rewrite HX. apply mix_bound; [now apply be_int_bound|]. apply check_bound. now apply small_size.
  Qed.
  Lemma low_digits_inj b n v w : 0 < b -> 0 <= v < b ^ Z.of_nat n -> 0 <= w < b ^ Z.of_nat n -> low_digits b n v = low_digits b n w -> v = w.
  Proof using.
    clear. intros Hb. revert v w. induction n as [|n IH]; intros v w Hv Hw HE; [cbn in *; lia|]. cbn [low_digits] in HE. injection HE as H1 H2. rewrite Nat2Z.inj_succ, Z.pow_succ_r in Hv, Hw by lia.
    apply IH in H2; [|split; [apply Z.div_pos; lia|apply Z.div_lt_upper_bound; lia]..]. rewrite (Z.div_mod v b), (Z.div_mod w b) by lia. now rewrite H1, H2.
  Qed.
  Lemma numbers_code e l : bytes_ok e = true -> bip39_size (zlen e) -> zlen l = 3 * zlen e / 4 -> Forall (fun x => 0 <= x < 2048) l ->
    (numbers e = l <-> code e = digits_value 2048 (rev l) 0 1).
  Proof using H_ok H_len.
    intros HB HS HL HF. pose proof (code_bound e HB HS) as HC. apply Forall_rev in HF. pose proof (low_digits_value 2048 (rev l) eq_refl HF) as HD. pose proof (digits_value_bound 2048 (rev l) eq_refl HF) as HV.
    assert (HN : length (rev l) = Z.to_nat (3 * zlen e / 4)) by (rewrite <- HL, rev_length; unfold zlen; now rewrite Nat2Z.id). rewrite HN in HD, HV. unfold numbers. split.
    - intros HE. apply (low_digits_inj 2048 _ _ _ eq_refl HC HV). rewrite HD, <- HE. now rewrite rev_involutive.
    - intros ->. rewrite HD. apply rev_involutive.
  Qed.
  Lemma code_inj e e' : bytes_ok e = true -> bytes_ok e' = true -> bip39_size (zlen e) -> zlen e' = zlen e -> code e = code e' -> e = e'.
  Proof using H_ok H_len.
    intros HB HB' HS HL HC. pose proof (check_bound e (small_size e HS)) as H1. pose proof (check_bound e') as H2. rewrite HL in H2. specialize (H2 (small_size e HS)). unfold code in HC. rewrite HL in HC.
    assert (HE : be_int e = be_int e').
    { apply (f_equal (fun x => x / 2 ^ (zlen e / 4))) in HC. rewrite !Z.div_add_l, !Z.div_small, !Z.add_0_r in HC by (clear - H1 H2; lia). exact HC. }
    unfold be_int in HE. apply le_int_inj in HE; [|now rewrite bytes_ok_rev..|now rewrite !zlen_rev]. apply (f_equal (@rev Z)) in HE. now rewrite !rev_involutive in HE.
  Qed.
  Lemma size_inj (e e' : bytes) : bip39_size (zlen e) -> bip39_size (zlen e') -> 3 * zlen e / 4 = 3 * zlen e' / 4 -> zlen e = zlen e'.
  Proof using. clear. intros HS HS' HE. destruct HS as [E|[E|[E|[E|E]]]], HS' as [E'|[E'|[E'|[E'|E']]]]; rewrite E, E' in *; try reflexivity; vm_compute in HE; discriminate. Qed.
  Lemma numbers_spec wl e ws : bytes_ok e = true -> bip39_size (zlen e) -> zlen wl = 2048 ->
    (bip39_words H wl e ws <-> Forall2 (fun i w => 0 <= i < 2048 /\ znth wl i = Some w) (numbers e) ws).
  Proof using H_ok H_len.
    intros HB HS HL. assert (HN : Forall (fun x => 0 <= x < 2 ^ Z.of_nat 11) (numbers e)) by (apply Forall_forall; intros x Hx; apply in_rev in Hx; apply (low_digits_range 2048 _ _ _ ltac:(lia) Hx)).
    assert (HE : flat_map (bits 11) (numbers e) = flat_map (bits 8) e ++ firstn (length e / 4) (flat_map (bits 8) (H e))) by (unfold numbers; rewrite (groups_bits 11 2048 _ _ eq_refl); now apply code_bits).
    split.
    - intros (ns & HF & HB'). replace (numbers e) with ns; [exact HF|]. assert (HNs : Forall (fun x => 0 <= x < 2 ^ Z.of_nat 11) ns) by (clear - HF; induction HF as [|i w ns ws [Hi _] HF IH]; constructor; [exact Hi|exact IH]).
      apply (groups_inj 11); [exact HNs|exact HN| |congruence]. assert (HG : forall l, length (flat_map (bits 11) l) = (11 * length l)%nat) by (clear; induction l as [|x l IH]; [reflexivity|]; cbn [flat_map]; rewrite app_length, bits_length, IH; cbn; lia).
      pose proof (HG ns). pose proof (HG (numbers e)). rewrite HB' in *. rewrite HE in *. lia.
    - intros HF. exists (numbers e). auto.
  Qed.
  Lemma from_entropy_eq wl e : bip39_size (zlen e) -> bip39_from_entropy H e wl = (ws <- mapM (pyindex wl) (numbers e) ;; Ok (join (txt " ") ws)).
  Proof using H_ok H_len.
    intros HS. unfold bip39_from_entropy. destruct (size_count e HS) as [-> _]. unfold numbers, code, be_bytes_to_int. rewrite Z.shiftl_mul_pow2, Z.mul_1_l, Z.shiftr_div_pow2; [reflexivity| |]; destruct HS as [-> |[-> |[-> |[-> | ->]]]]; vm_compute; discriminate.
  Qed.
  Lemma numbers_range e : Forall (fun i => 0 <= i < 2048) (numbers e).
  Proof using H_ok H_len. apply Forall_forall; intros x Hx; apply in_rev in Hx; apply (low_digits_range 2048 _ _ _ ltac:(lia) Hx). Qed.
  Lemma from_entropy_spec wl e m : zlen wl = 2048 -> bytes_ok e = true -> bip39_size (zlen e) ->
    (bip39_from_entropy H e wl = Ok m <-> exists ws, bip39_words H wl e ws /\ spaced ws m).
  Proof using H_ok H_len.
    intros HL HB HS. rewrite from_entropy_eq by exact HS. split.
    - intros HX. apply bind_Ok in HX as (ws & HM & HJ). injection HJ as <-. apply (mapM_index wl _ _ HL (numbers_range e)) in HM. exists ws. split; [now apply numbers_spec|now apply join_spaced].
    - intros (ws & HW & HSp). apply numbers_spec in HW; [|assumption..]. apply (mapM_index wl _ _ HL (numbers_range e)) in HW. rewrite HW. cbn [bind]. apply join_spaced in HSp. congruence.
  Qed.
  Lemma from_entropy_total (wl : list pystr) e : zlen wl = 2048 -> bip39_size (zlen e) -> exists m, bip39_from_entropy H e wl = Ok m.
  Proof using H_ok H_len.
    intros HL HS. rewrite from_entropy_eq by exact HS. destruct (mapM_total (pyindex wl) (numbers e)) as (ws & ->); [|eexists; reflexivity].
    intros i Hi. assert (Hr : 0 <= i < zlen wl) by (rewrite HL; pose proof (numbers_range e) as HR; rewrite Forall_forall in HR; now apply HR). destruct (znth_is_Some wl i Hr) as (w & Hw). exists w. unfold pyindex. destruct (Z.ltb_spec i 0); [lia|]. now rewrite Hw.
  Qed.
  Lemma words_count wl e ws : bytes_ok e = true -> bip39_size (zlen e) -> zlen wl = 2048 -> bip39_words H wl e ws -> zlen ws = 3 * zlen e / 4.
  Proof using H_ok H_len.
    intros HB HS HL HW. apply numbers_spec in HW; [|assumption..]. assert (HE : length (numbers e) = length ws) by (clear - HW; induction HW; cbn; congruence). unfold zlen at 1. rewrite <- HE. unfold numbers. rewrite rev_length, low_digits_length. destruct HS as [-> |[-> |[-> |[-> | ->]]]]; reflexivity.
  Qed.

  (** The validity test *)
  Lemma is_valid_cases m wl : zlen wl = 2048 ->
    let ws := split_ws (bip39_normalize nfkd lower m) in
    (~ In (zlen ws) [12; 15; 18; 21; 24] /\ bip39_is_valid nfkd lower H m wl = Ok false) \/
    (In (zlen ws) [12; 15; 18; 21; 24] /\ (exists w, In w ws /\ ~ In w wl) /\ bip39_is_valid nfkd lower H m wl = Err BadWords) \/
    (In (zlen ws) [12; 15; 18; 21; 24] /\ (forall w, In w ws -> In w wl) /\
      exists b, bip39_is_valid nfkd lower H m wl = Ok b /\ (b = true -> exists e, bytes_ok e = true /\ bip39_size (zlen e) /\ bip39_words H wl e ws) /\
        (NoDup wl -> (exists e, bytes_ok e = true /\ bip39_size (zlen e) /\ bip39_words H wl e ws) -> b = true)).
  Proof using H_ok H_len.
    intros HL ws. unfold bip39_is_valid. fold ws. rewrite HL. cbn [Z.eqb Pos.eqb negb]. destruct (existsb (Z.eqb (zlen ws)) [12; 15; 18; 21; 24]) eqn:EC; cbn [negb].
    2:{ left. split; [|reflexivity]. intros HI. apply existsb_In in HI. congruence. }
    apply existsb_In in EC. right. destruct (bip39_bad_words ws wl) as [|bad rest] eqn:EB.
    - right. pose proof (proj1 (bad_words_nil ws wl) EB) as EB'. clear EB. rename EB' into EB. split; [exact EC|]. split; [exact EB|]. destruct (entropy_of_code wl ws HL EC EB) as (HF & e & HB & HLe & HS & HV & HI & HQ & HM). rewrite HI. cbn [bind]. eexists. split; [reflexivity|].
      set (ns := map _ ws) in *. set (v := digits_value 2048 (rev ns) 0 1) in *.
      assert (Hcs : 0 <= zlen ws / 3 <= 256) by (destruct EC as [<-|[<-|[<-|[<-|[<-|[]]]]]]; vm_compute; split; discriminate). rewrite Z.shiftl_mul_pow2, Z.mul_1_l, Z.shiftr_div_pow2 by lia. unfold be_bytes_to_int.
      assert (HR : Forall (fun x => 0 <= x < 2048) ns) by (clear - HF; induction HF as [|i w ns ws [Hi _] HF IH]; constructor; assumption).
      assert (HLn : zlen ns = 3 * zlen e / 4) by (rewrite HM; unfold ns; apply zlen_map).
      pose proof (numbers_code e ns HB HS HLn HR) as Hrev. fold v in Hrev.
      assert (Hcode : code e = v <-> be_int (H e) / 2 ^ (256 - zlen ws / 3) = v mod 2 ^ (zlen ws / 3)).
      { unfold code. rewrite HV, HQ. pose proof (Z.div_mod v (2 ^ (zlen ws / 3))) as HDM. assert (0 < 2 ^ (zlen ws / 3)) by (apply Z.pow_pos_nonneg; lia). lia. }
      split.
      + intros HE. apply Z.eqb_eq in HE. apply Hcode, Hrev in HE. exists e. split; [exact HB|]. split; [exact HS|]. apply numbers_spec; [assumption..|]. now rewrite HE.
      + intros HN (e' & HB' & HS' & HW'). pose proof (words_count wl e' ws HB' HS' HL HW') as HC'. apply numbers_spec in HW'; [|assumption..]. apply Z.eqb_eq. apply Hcode.
        assert (HNs : numbers e' = ns).
        { clear - HN HF HW'. revert HF HW'. generalize (numbers e') as ms. unfold ns. generalize ws as l. clear - HN. induction l as [|w l IH]; intros ms HF HW; inversion HW; subst; [reflexivity|]. inversion HF; subst. cbn [map]. f_equal; [|apply IH; assumption].
          destruct H2 as [_ HZ]. assert (HE : znth wl (match index_of wl w with Some i => i | None => 0 end) = Some w) by tauto. rewrite (index_of_NoDup wl x w HN HZ). reflexivity. }
        rewrite <- HM in HC'. pose proof (size_inj e e' HS HS' HC') as HZ. assert (HLn' : zlen ns = 3 * zlen e' / 4) by (now rewrite HLn, HZ).
        pose proof (proj1 (numbers_code e' ns HB' HS' HLn' HR) HNs) as HV'. fold v in HV'.
        assert (HBE : be_int e' = be_int e).
        { rewrite HV, <- HV'. unfold code. rewrite <- HZ, HQ. pose proof (check_bound e' (small_size e' HS')) as HCe. rewrite <- HZ, HQ in HCe. rewrite Z.div_add_l, Z.div_small, Z.add_0_r by (clear - HCe; lia). reflexivity. }
        assert (He : e' = e).
        { unfold be_int in HBE. apply le_int_inj in HBE; [|now rewrite bytes_ok_rev..|now rewrite !zlen_rev]. apply (f_equal (@rev Z)) in HBE. now rewrite !rev_involutive in HBE. }
        now rewrite He in HV'.
    - left. split; [exact EC|]. split; [|reflexivity]. assert (HI : In bad (bip39_bad_words ws wl)) by (rewrite EB; now left). unfold bip39_bad_words in HI. apply filter_In in HI as [HI HX]. exists bad. split; [exact HI|]. destruct (index_of wl bad) eqn:E; [discriminate|]. now apply index_of_None.
  Qed.
End Bip39.
