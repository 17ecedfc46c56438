(** b64decode undoes b64encode. *)
From Verif.Model Require Import Py Text Base64.
From Verif.Proofs Require Import PyFacts.

Lemma b64_char_facts v : 0 <= v < 64 -> b64_val (b64_char v) = Some v /\ 0 <= b64_char v < 128.
Proof.
  intros Hv. assert (HA : forallb (fun v => match b64_val (b64_char v) with Some w => w =? v | None => false end && (0 <=? b64_char v) && (b64_char v <? 128)) (zrange 0 64) = true) by (vm_compute; reflexivity).
  rewrite forallb_forall in HA. specialize (HA v). assert (HI : In v (zrange 0 64)).
  { unfold zrange. change (Z.to_nat (64 - 0)) with 64%nat. cbn [zrange_nat In]. lia. }
  specialize (HA HI). cbv beta in HA. apply andb_true_iff in HA as [HA H3]. apply andb_true_iff in HA as [H1 H2]. destruct (b64_val (b64_char v)) as [w|]; [|discriminate]. apply Z.eqb_eq in H1. subst w. split; [reflexivity|]. apply Z.leb_le in H2. apply Z.ltb_lt in H3. now split.
Qed.
Lemma b64_span_char v s : 0 <= v < 64 -> b64_span (b64_char v :: s) = (let '(l, t) := b64_span s in (v :: l, t)).
Proof. intros Hv. cbn [b64_span]. destruct (b64_char_facts v Hv) as [-> _]. reflexivity. Qed.
Lemma a2b_group a b c d l : a2b 0 0 (a :: b :: c :: d :: l) = a * 4 + b / 16 :: b mod 16 * 16 + c / 4 :: c mod 4 * 64 + d :: a2b 0 0 l.
Proof. reflexivity. Qed.

Definition ascii_ok (s : pystr) : bool := forallb (fun c => (0 <=? c) && (c <? 128)) s.
Lemma ascii_cons c s : 0 <= c < 128 -> ascii_ok (c :: s) = ascii_ok s.
Proof. intros Hc. unfold ascii_ok. cbn [forallb]. destruct (Z.leb_spec 0 c), (Z.ltb_spec c 128); try lia. reflexivity. Qed.

Lemma split3 x y : 0 <= x < 256 -> 0 <= y < 256 ->
  0 <= x / 4 < 64 /\ 0 <= x mod 4 * 16 + y / 16 < 64 /\ 0 <= y mod 16 * 4 + y / 64 < 64 /\ 0 <= y mod 64 < 64 /\ 0 <= x mod 4 * 16 < 64 /\ 0 <= y mod 16 * 4 < 64.
Proof. intros. repeat split; lia. Qed.

Lemma encode_facts : forall n b, (length b <= n)%nat -> bytes_ok b = true ->
  ascii_ok (b64encode b) = true /\
  exists l k, b64_span (b64encode b) = (l, zrepeat 61 k) /\ a2b 0 0 l = b /\ ((zlen l mod 4 = 0 /\ k = 0) \/ (zlen l mod 4 = 3 /\ k = 1) \/ (zlen l mod 4 = 2 /\ k = 2)).
Proof.
  induction n as [|n IH]; intros b Hn HB.
  { destruct b; [|cbn in Hn; lia]. split; [reflexivity|]. exists [], 0. repeat split. left. split; reflexivity. }
  destruct b as [|x [|y [|z r]]].
  - split; [reflexivity|]. exists [], 0. repeat split. left. split; reflexivity.
  - rewrite bytes_ok_cons in HB. apply andb_true_iff in HB as [Hx _]. apply byte_ok_iff in Hx.
    assert (H1 : 0 <= x / 4 < 64) by lia. assert (H2 : 0 <= x mod 4 * 16 < 64) by lia.
    cbn [b64encode]. split.
    + rewrite !ascii_cons by (try apply b64_char_facts; lia). reflexivity.
    + exists [x / 4; x mod 4 * 16], 2. rewrite !b64_span_char by assumption. split; [reflexivity|]. split; [|right; right; split; reflexivity].
      cbn [a2b]. cbn [Z.eqb Pos.eqb]. f_equal. lia.
  - rewrite !bytes_ok_cons in HB. apply andb_true_iff in HB as [Hx HB]. apply andb_true_iff in HB as [Hy _]. apply byte_ok_iff in Hx, Hy.
    assert (H1 : 0 <= x / 4 < 64) by lia. assert (H2 : 0 <= x mod 4 * 16 + y / 16 < 64) by lia. assert (H3 : 0 <= y mod 16 * 4 < 64) by lia.
    cbn [b64encode]. split.
    + rewrite !ascii_cons by (try apply b64_char_facts; lia). reflexivity.
    + exists [x / 4; x mod 4 * 16 + y / 16; y mod 16 * 4], 1. rewrite !b64_span_char by assumption. split; [reflexivity|]. split; [|right; left; split; reflexivity].
      cbn [a2b]. cbn [Z.eqb Pos.eqb]. f_equal; [lia|]. f_equal. lia.
  - rewrite !bytes_ok_cons in HB. apply andb_true_iff in HB as [Hx HB]. apply andb_true_iff in HB as [Hy HB]. apply andb_true_iff in HB as [Hz HB]. apply byte_ok_iff in Hx, Hy, Hz.
    assert (H1 : 0 <= x / 4 < 64) by lia. assert (H2 : 0 <= x mod 4 * 16 + y / 16 < 64) by lia. assert (H3 : 0 <= y mod 16 * 4 + z / 64 < 64) by lia. assert (H4 : 0 <= z mod 64 < 64) by lia.
    destruct (IH r) as (HA & l & k & HS & HD & HK); [cbn [length] in Hn; lia|exact HB|].
    cbn [b64encode app]. split.
    + rewrite !ascii_cons by (apply b64_char_facts; assumption). exact HA.
    + exists (x / 4 :: x mod 4 * 16 + y / 16 :: y mod 16 * 4 + z / 64 :: z mod 64 :: l), k. rewrite !b64_span_char by assumption. rewrite HS. split; [reflexivity|]. split.
      * rewrite a2b_group, HD. repeat f_equal; lia.
      * assert (HZ : zlen (x / 4 :: x mod 4 * 16 + y / 16 :: y mod 16 * 4 + z / 64 :: z mod 64 :: l) mod 4 = zlen l mod 4).
        { rewrite !zlen_cons. replace (1 + (1 + (1 + (1 + zlen l)))) with (zlen l + 1 * 4) by lia. apply Z.mod_add. lia. }
        rewrite HZ. exact HK.
Qed.

Theorem b64_roundtrip ex b : bytes_ok b = true -> b64decode ex (b64encode b) = Ok b.
Proof.
  intros HB. destruct (encode_facts (length b) b (Nat.le_refl _) HB) as (HA & l & k & HS & HD & HK). unfold b64decode. fold (ascii_ok (b64encode b)). rewrite HA, HS. cbn [negb].
  assert (HL : zlen (zrepeat 61 k) = k) by (apply zlen_repeat; lia). rewrite HL, bytes_eqb_refl. cbn [andb].
  destruct HK as [[HM ->]|[[HM ->]|[HM ->]]]; rewrite HM; cbn; now rewrite HD.
Qed.
Lemma b64_errors ex s e : b64decode ex s = Err e -> e = BinasciiError \/ (e = ValueError /\ exists c, In c s /\ ~ 0 <= c < 128).
Proof.
  unfold b64decode. fold (ascii_ok s). destruct (ascii_ok s) eqn:E; cbn [negb].
  - destruct (b64_span s) as [l t]. repeat match goal with |- (if ?b then _ else _) = _ -> _ => destruct b end; intros HE; try discriminate; injection HE as <-; now left.
  - intros HE. injection HE as <-. right. split; [reflexivity|]. unfold ascii_ok in E. clear - E. induction s as [|c s IH]; [discriminate|]. cbn [forallb] in E. destruct ((0 <=? c) && (c <? 128)) eqn:Ec.
    + destruct (IH E) as (d & Hd & Hn). exists d. split; [now right|exact Hn].
    + exists c. split; [now left|]. intros Hc. apply andb_false_iff in Ec as [Ec|Ec]; [apply Z.leb_gt in Ec|apply Z.ltb_ge in Ec]; lia.
Qed.
Lemma b64_non_ascii ex s c : In c s -> ~ 0 <= c < 128 -> b64decode ex s = Err ValueError.
Proof.
  intros Hc Hn. unfold b64decode. fold (ascii_ok s). assert (E : ascii_ok s = false); [|now rewrite E]. apply not_true_iff_false. intros HA. unfold ascii_ok in HA. rewrite forallb_forall in HA. specialize (HA c Hc). lia.
Qed.
Lemma a2b_ok : forall l q lc, Forall (fun v => 0 <= v < 64) l -> ((q = 0) \/ (q = 1 /\ 0 <= lc < 64) \/ (q = 2 /\ 0 <= lc < 16) \/ (q = 3 /\ 0 <= lc < 4)) -> bytes_ok (a2b q lc l) = true.
Proof.
  induction l as [|v l IH]; intros q lc HF HQ; [reflexivity|]. inversion HF as [|? ? Hv HF']; subst. cbn [a2b].
  destruct HQ as [->|[[-> HQ]|[[-> HQ]|[-> HQ]]]]; cbn [Z.eqb Pos.eqb]; rewrite ?bytes_ok_cons; try (apply andb_true_iff; split; [apply byte_ok_iff; lia|]); apply IH; auto; lia.
Qed.
Lemma find_char_range l c v : find_char l c = Some v -> 0 <= v < zlen l.
Proof.
  revert v. induction l as [|x l IH]; intros v; [discriminate|]. cbn [find_char]. rewrite zlen_cons. pose proof (zlen_nonneg l). destruct (x =? c).
  - intros HE. injection HE as <-. lia.
  - destruct (find_char l c) as [w|]; [|discriminate]. intros HE. injection HE as <-. specialize (IH w eq_refl). lia.
Qed.
Lemma b64_span_range s : Forall (fun v => 0 <= v < 64) (fst (b64_span s)).
Proof.
  induction s as [|c s IH]; [constructor|]. cbn [b64_span]. destruct (b64_val c) as [v|] eqn:E; [|constructor]. destruct (b64_span s) as [l t]. cbn [fst] in *. constructor; [|exact IH]. apply find_char_range in E. exact E.
Qed.
Lemma b64_bytes ex s b : b64decode ex s = Ok b -> bytes_ok b = true.
Proof.
  unfold b64decode. pose proof (b64_span_range s) as HR. destruct (b64_span s) as [l t]. cbn [fst] in HR. repeat match goal with |- (if ?b then _ else _) = _ -> _ => destruct b end; intros HE; try discriminate; injection HE as <-. apply a2b_ok; auto.
Qed.
Lemma b64_length : forall n b, (length b <= n)%nat -> zlen (b64encode b) = 4 * ((zlen b + 2) / 3).
Proof.
  induction n as [|n IH]; intros b Hb; [destruct b; [reflexivity|cbn in Hb; lia]|]. destruct b as [|x [|y [|z r]]]; [reflexivity..|]. cbn [b64encode]. rewrite zlen_app. rewrite IH by (cbn in Hb; lia). change (zlen [_; _; _; _]) with 4. rewrite !zlen_cons.
  replace (1 + (1 + (1 + zlen r)) + 2) with (zlen r + 2 + 1 * 3) by lia. rewrite Z.div_add by lia. lia.
Qed.
