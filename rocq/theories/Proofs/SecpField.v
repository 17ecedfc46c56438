(** Numbers below the prime are a field. *)
From Coq Require Import Znumtheory Eqdep_dec Bool Field_theory.
From Verif.Model Require Import Py Curve ModInverse Secp256k1.
From Verif.Proofs Require Import PyFacts Primality ModInverseFacts FieldPrime.

Lemma field_value : FIELD = 2 ^ 256 - 0x1000003d1.
Proof. reflexivity. Qed.
Lemma field_bounds : 2 ^ 255 < FIELD < 2 ^ 256 /\ FIELD mod 2 = 1.
Proof. repeat split; reflexivity. Qed.
#[global] Opaque FIELD.

Lemma in_field_iff x : in_field x = true <-> 0 <= x < FIELD.
Proof. unfold in_field. lia. Qed.

(** The operations on numbers are the operations modulo the prime. *)
Lemma fold_ok x : 0 <= x -> 0 <= fold256 x /\ fold256 x mod FIELD = x mod FIELD /\ fold256 x < 2 ^ 256 + 0x1000003d1 * (x / 2 ^ 256 + 1).
Proof.
  intros Hx. unfold fold256, MASK256. change (2 ^ 256 - 1) with (Z.ones 256). rewrite Z.land_ones, Z.shiftr_div_pow2 by lia.
  pose proof field_bounds as [HF _]. pose proof (Z.mod_pos_bound x (2 ^ 256) ltac:(lia)). pose proof (Z.div_pos x (2 ^ 256) Hx ltac:(lia)). split; [lia|]. split; [|lia].
  rewrite (Z.div_mod x (2 ^ 256)) at 3 by lia. replace (2 ^ 256 * (x / 2 ^ 256) + x mod 2 ^ 256) with (x mod 2 ^ 256 + 0x1000003d1 * (x / 2 ^ 256) + (x / 2 ^ 256) * FIELD) by (rewrite field_value; ring).
  rewrite Z.mod_add by lia. reflexivity.
Qed.
Lemma reduce_ok x : 0 <= x < 2 ^ 512 -> field_reduce x = x mod FIELD.
Proof.
  intros Hx. pose proof field_value as HV. pose proof field_bounds as [HF _]. destruct (fold_ok x ltac:(lia)) as (H1 & H2 & H3). destruct (fold_ok (fold256 x) H1) as (H4 & H5 & H6).
  assert (HD : x / 2 ^ 256 < 2 ^ 256) by (apply Z.div_lt_upper_bound; lia). assert (HD2 : fold256 x / 2 ^ 256 < 2 ^ 34) by (apply Z.div_lt_upper_bound; lia).
  unfold field_reduce. set (y := fold256 (fold256 x)) in *. rewrite <- H2, <- H5. destruct (Z.ltb_spec y FIELD).
  - symmetry. apply Z.mod_small. lia.
  - apply Z.mod_unique with 1; lia.
Qed.
Lemma mul_ok x y : in_field x = true -> in_field y = true -> field_mul x y = (x * y) mod FIELD.
Proof. rewrite !in_field_iff. intros Hx Hy. pose proof field_bounds as [HF _]. apply reduce_ok. change (2 ^ 512) with (2 ^ 256 * 2 ^ 256). nia. Qed.
Lemma add_ok x y : in_field x = true -> in_field y = true -> field_add x y = (x + y) mod FIELD.
Proof. rewrite !in_field_iff. intros Hx Hy. unfold field_add. destruct (Z.ltb_spec (x + y) FIELD); [symmetry; apply Z.mod_small; lia|apply Z.mod_unique with 1; lia]. Qed.
Lemma neg_ok x : in_field x = true -> field_neg x = (- x) mod FIELD.
Proof. rewrite in_field_iff. intros Hx. unfold field_neg. destruct (Z.eqb_spec x 0) as [->|]; [reflexivity|apply Z.mod_unique with (-1); lia]. Qed.
Lemma mod_in_field x : in_field (x mod FIELD) = true.
Proof. apply in_field_iff. apply Z.mod_pos_bound. pose proof field_bounds. lia. Qed.
Lemma sub_ok x y : in_field x = true -> in_field y = true -> field_sub x y = (x - y) mod FIELD.
Proof. intros Hx Hy. unfold field_sub. rewrite neg_ok by assumption. rewrite add_ok by (assumption || apply mod_in_field). rewrite Zplus_mod_idemp_r. f_equal. Qed.
Lemma inv_loop_in fuel : forall u v x y, in_field x = true -> in_field y = true -> in_field (inverse_loop FIELD fuel u v x y) = true.
Proof.
  assert (HH : forall x, in_field x = true -> in_field (mod_half FIELD x) = true).
  { intros x. rewrite !in_field_iff. intros Hx. unfold mod_half. rewrite !Z.div2_div. destruct (Z.even x); lia. }
  assert (HS : forall x y, in_field x = true -> in_field y = true -> in_field (mod_sub FIELD x y) = true).
  { intros x y. rewrite !in_field_iff. intros Hx Hy. unfold mod_sub. destruct (Z.leb_spec y x); lia. }
  induction fuel as [|f IH]; intros u v x y Hx Hy; cbn [inverse_loop]; [apply in_field_iff; pose proof field_bounds; lia|].
  destruct (u =? 1); [exact Hx|]. destruct (v =? 1); [exact Hy|]. destruct (Z.even u); [auto|]. destruct (Z.even v); [auto|]. destruct (v <? u); auto.
Qed.
Lemma inv_in x : in_field (field_inv x) = true.
Proof. apply inv_loop_in; apply in_field_iff; pose proof field_bounds; lia. Qed.
Lemma inv_ok x : in_field x = true -> x <> 0 -> (field_inv x * x) mod FIELD = 1.
Proof.
  rewrite in_field_iff. intros Hx Hn. pose proof field_bounds as [HF HO]. rewrite Z.mul_comm. apply (mod_inverse_ok FIELD HO ltac:(lia) field_prime x); lia.
Qed.

(** The field *)
Definition Fp := { x : Z | in_field x = true }.
Definition val (a : Fp) : Z := proj1_sig a.
Definition toF (x : Z) : Fp := exist _ (x mod FIELD) (mod_in_field x).
Lemma val_in a : in_field (val a) = true.
Proof. exact (proj2_sig a). Qed.
Lemma Fp_ext a b : val a = val b -> a = b.
Proof. destruct a as [x Hx], b as [y Hy]. cbn. intros ->. f_equal. apply UIP_dec. apply bool_dec. Qed.
Lemma val_toF x : in_field x = true -> val (toF x) = x.
Proof. rewrite in_field_iff. intros Hx. cbn. apply Z.mod_small. exact Hx. Qed.
Definition Fadd a b := toF (val a + val b).
Definition Fmul a b := toF (val a * val b).
Definition Fopp a := toF (- val a).
Definition Fsub a b := toF (val a - val b).
Definition Finv a := toF (field_inv (val a)).
Definition Fdiv a b := Fmul a (Finv b).
Definition F0 := toF 0.
Definition F1 := toF 1.
Lemma val_mod a : val a mod FIELD = val a.
Proof. apply Z.mod_small. apply in_field_iff. apply val_in. Qed.
Lemma val_to x : val (toF x) = x mod FIELD.
Proof. reflexivity. Qed.
Lemma Fp_field : field_theory F0 F1 Fadd Fmul Fsub Fopp Fdiv Finv (@eq Fp).
Proof.
  pose proof field_bounds as [HF _].
  split; [split| | |]; unfold F0, F1, Fadd, Fmul, Fsub, Fopp, Fdiv, Finv.
  - intros x. apply Fp_ext. rewrite !val_to. rewrite (Z.mod_small 0) by lia. apply val_mod.
  - intros x y. f_equal. ring.
  - intros x y z. apply Fp_ext. rewrite !val_to. rewrite Zplus_mod_idemp_l, Zplus_mod_idemp_r. f_equal. ring.
  - intros x. apply Fp_ext. rewrite !val_to. rewrite (Z.mod_small 1), Z.mul_1_l by lia. apply val_mod.
  - intros x y. f_equal. ring.
  - intros x y z. apply Fp_ext. rewrite !val_to. rewrite Zmult_mod_idemp_l, Zmult_mod_idemp_r. f_equal. ring.
  - intros x y z. apply Fp_ext. rewrite !val_to. rewrite Zmult_mod_idemp_l, <- Zplus_mod. f_equal. ring.
  - intros x y. apply Fp_ext. rewrite !val_to. rewrite Zplus_mod_idemp_r. f_equal.
  - intros x. apply Fp_ext. rewrite !val_to. rewrite Zplus_mod_idemp_r, Z.add_opp_diag_r. reflexivity.
  - intros H. apply (f_equal val) in H. rewrite !val_to in H. rewrite !Z.mod_small in H by lia. discriminate.
  - reflexivity.
  - intros x Hx. apply Fp_ext. rewrite !val_to. rewrite Zmult_mod_idemp_l, (Z.mod_small 1) by lia. apply inv_ok; [apply val_in|].
    intros HZ. apply Hx. apply Fp_ext. rewrite HZ, val_to. now rewrite Z.mod_small by lia.
Qed.
Lemma Fp_eq_dec (a b : Fp) : {a = b} + {a <> b}.
Proof. destruct (Z.eq_dec (val a) (val b)) as [H|H]; [left; now apply Fp_ext|right; congruence]. Qed.
(** The operations on numbers, in the field *)
Lemma val_add a b : val (Fadd a b) = field_add (val a) (val b).
Proof. rewrite add_ok by apply val_in. reflexivity. Qed.
Lemma val_mul a b : val (Fmul a b) = field_mul (val a) (val b).
Proof. rewrite mul_ok by apply val_in. reflexivity. Qed.
Lemma val_sub a b : val (Fsub a b) = field_sub (val a) (val b).
Proof. rewrite sub_ok by apply val_in. reflexivity. Qed.
Lemma val_opp a : val (Fopp a) = field_neg (val a).
Proof. rewrite neg_ok by apply val_in. reflexivity. Qed.
Lemma val_inv a : val (Finv a) = field_inv (val a).
Proof. apply val_toF, inv_in. Qed.
Lemma val_div a b : val (Fdiv a b) = field_div (val a) (val b).
Proof. unfold Fdiv, field_div. rewrite val_mul, val_inv. reflexivity. Qed.
