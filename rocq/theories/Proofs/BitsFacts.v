(** Bits of numbers and bytes *)
From Verif.Model Require Import Py Mnemonic.
From Verif.Spec Require Import MnemonicSpec.
From Verif.Proofs Require Import PyFacts.

Lemma bits_length n v : length (bits n v) = n.
Proof. revert v. induction n as [|n IH]; intros v; cbn; [reflexivity|now rewrite IH]. Qed.
Lemma bits_ext n v w : (forall i, 0 <= i < Z.of_nat n -> Z.testbit v i = Z.testbit w i) -> bits n v = bits n w.
Proof.
  induction n as [|n IH]; intros HE; [reflexivity|]. cbn [bits]. f_equal; [apply HE; lia|]. apply IH. intros i Hi. apply HE. lia.
Qed.
Lemma bits_mod n v k : Z.of_nat n <= k -> bits n (v mod 2 ^ k) = bits n v.
Proof. intros Hk. apply bits_ext. intros i Hi. apply Z.mod_pow2_bits_low. lia. Qed.
Lemma bits_app a b v : bits (a + b) v = bits a (v / 2 ^ Z.of_nat b) ++ bits b v.
Proof.
  induction a as [|a IH]; [reflexivity|]. cbn [Nat.add bits app]. rewrite IH, Z.div_pow2_bits by lia. do 2 f_equal. lia.
Qed.
Lemma bits_glue a b v w : 0 <= w < 2 ^ Z.of_nat b -> bits (a + b) (v * 2 ^ Z.of_nat b + w) = bits a v ++ bits b w.
Proof.
  intros Hw. rewrite bits_app. rewrite Z.div_add_l, (Z.div_small w), Z.add_0_r by lia. f_equal.
  rewrite <- (bits_mod b (v * _ + w) (Z.of_nat b)), Z.add_comm, Z.mod_add, Z.mod_small by lia. reflexivity.
Qed.
Lemma bits_firstn a b v : firstn a (bits (a + b) v) = bits a (v / 2 ^ Z.of_nat b).
Proof. rewrite bits_app. rewrite firstn_app, bits_length, Nat.sub_diag. cbn [firstn]. rewrite app_nil_r. apply firstn_all2. rewrite bits_length. lia. Qed.
Lemma bits_inj n v w : 0 <= v < 2 ^ Z.of_nat n -> 0 <= w < 2 ^ Z.of_nat n -> bits n v = bits n w -> v = w.
Proof.
  intros Hv Hw HE. apply Z.bits_inj'. intros i Hi. destruct (Z.lt_ge_cases i (Z.of_nat n)) as [HL|HL].
  - clear Hv Hw. revert HE. induction n as [|n IH]; intros HE; [lia|]. cbn [bits] in HE. injection HE as H1 H2. destruct (Z.eq_dec i (Z.of_nat n)) as [->|Hne]; [exact H1|]. apply IH; [lia|exact H2].
  - rewrite <- (Z.mod_small v (2 ^ Z.of_nat n)), <- (Z.mod_small w (2 ^ Z.of_nat n)) by assumption. rewrite !Z.mod_pow2_bits_high by lia. reflexivity.
Qed.
(** Groups of [g] bits *)
Lemma low_digits_length b n v : length (low_digits b n v) = n.
Proof. revert v. induction n as [|n IH]; intros v; cbn; [reflexivity|now rewrite IH]. Qed.
Lemma low_digits_range b n v x : 0 < b -> In x (low_digits b n v) -> 0 <= x < b.
Proof. intros Hb. revert v. induction n as [|n IH]; intros v HI; [contradiction|]. destruct HI as [<-|HI]; [now apply Z.mod_pos_bound|exact (IH _ HI)]. Qed.
Lemma groups_bits g b n v : b = 2 ^ Z.of_nat g -> flat_map (bits g) (rev (low_digits b n v)) = bits (n * g) v.
Proof.
  intros ->. revert v. induction n as [|n IH]; intros v; [reflexivity|]. cbn [low_digits rev]. rewrite flat_map_app, IH. cbn [flat_map]. rewrite app_nil_r, (bits_mod g v (Z.of_nat g)) by lia.
  replace (S n * g)%nat with (n * g + g)%nat by lia. now rewrite bits_app.
Qed.
Lemma bytes_bits b : bytes_ok b = true -> flat_map (bits 8) b = bits (length b * 8) (be_int b).
Proof.
  intros HB. unfold be_int. rewrite <- (groups_bits 8 256 (length b) (le_int (rev b)) eq_refl). f_equal.
  rewrite <- (rev_involutive b) at 1. f_equal. assert (HL : forall n v, low_digits 256 n v = le_digits n v) by (induction n as [|n IH]; intros v; cbn; [reflexivity|now rewrite IH]).
  rewrite HL. symmetry. apply le_digits_int; [now rewrite bytes_ok_rev|now rewrite rev_length].
Qed.
Lemma groups_inj g l m : Forall (fun x => 0 <= x < 2 ^ Z.of_nat g) l -> Forall (fun x => 0 <= x < 2 ^ Z.of_nat g) m -> length l = length m ->
  flat_map (bits g) l = flat_map (bits g) m -> l = m.
Proof.
  intros HL. revert m. induction HL as [|x l Hx HL IH]; intros m HM HN HE; destruct HM as [|y m Hy HM]; try discriminate; [reflexivity|]. cbn [flat_map] in HE.
  assert (HB : bits g x = bits g y /\ flat_map (bits g) l = flat_map (bits g) m).
  { pose proof (f_equal (firstn g) HE) as H1. pose proof (f_equal (skipn g) HE) as H2. rewrite !firstn_app, !bits_length, Nat.sub_diag in H1. cbn [firstn] in H1. rewrite !app_nil_r, !firstn_all2 in H1 by (rewrite bits_length; lia).
    rewrite !skipn_app, !bits_length, Nat.sub_diag, (skipn_all2 (bits g x)), (skipn_all2 (bits g y)) in H2 by (rewrite bits_length; lia). cbn [skipn app] in H2. split; assumption. }
  destruct HB as [H1 H2]. f_equal; [exact (bits_inj g x y Hx Hy H1)|]. apply IH; [exact HM|now injection HN|exact H2].
Qed.
(** Digits and values *)
Lemma digits_value_spec b parts : forall acc mult, digits_value b parts acc mult = acc + mult * digits_value b parts 0 1.
Proof.
  induction parts as [|p r IH]; intros acc mult; cbn [digits_value]; [lia|]. rewrite (IH (acc + p * mult)), (IH (0 + p * 1)). lia.
Qed.
Lemma digits_value_cons b p r : digits_value b (p :: r) 0 1 = p + b * digits_value b r 0 1.
Proof. cbn [digits_value]. rewrite digits_value_spec. lia. Qed.
Lemma low_digits_value b l : 0 < b -> Forall (fun x => 0 <= x < b) l -> low_digits b (length l) (digits_value b l 0 1) = l.
Proof.
  intros Hb HF. induction HF as [|x l Hx HF IH]; [reflexivity|]. cbn [length low_digits]. rewrite digits_value_cons.
  replace ((x + b * digits_value b l 0 1) mod b) with x by (rewrite Z.add_comm, Z.mul_comm, Z.add_comm, Z.mod_add, Z.mod_small; lia).
  replace ((x + b * digits_value b l 0 1) / b) with (digits_value b l 0 1) by (rewrite (Z.mul_comm b), Z.div_add, Z.div_small; lia). now rewrite IH.
Qed.
Lemma digits_value_bound b l : 0 < b -> Forall (fun x => 0 <= x < b) l -> 0 <= digits_value b l 0 1 < b ^ Z.of_nat (length l).
Proof.
  intros Hb HF. induction HF as [|x l Hx HF IH]; [cbn; lia|]. rewrite digits_value_cons. cbn [length]. rewrite Nat2Z.inj_succ, Z.pow_succ_r by lia. nia.
Qed.
