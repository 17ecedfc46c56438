(** The points of secp256k1 are a commutative group. *)
From Coq Require Import Znumtheory Zpow_facts Eqdep_dec Bool Field_theory Ring Field.
From Verif.Model Require Import Py Curve ModInverse Secp256k1.
From Verif.Proofs Require Import PyFacts Primality FieldPrime EllipticCurve SecpField.

Notation Fpoint := (point Fp).
Definition F7 : Fp := toF 7.
Notation feq := (curve_eq Fp Fadd Fmul F7).
Notation fon := (on Fp Fadd Fmul F7).
Notation fadd := (ec_add Fp Fadd Fmul Fsub Fdiv Fp_eq_dec).
Notation fopp := (ec_opp Fp Fopp).

Lemma val_7 : val F7 = 7.
Proof. apply val_toF. apply in_field_iff. pose proof field_bounds. lia. Qed.
Lemma val_0 : val F0 = 0.
Proof. apply val_toF. apply in_field_iff. pose proof field_bounds. lia. Qed.
Lemma val_1 : val F1 = 1.
Proof. apply val_toF. apply in_field_iff. pose proof field_bounds. lia. Qed.
Lemma F_two : Fadd F1 F1 <> F0.
Proof. intros H. apply (f_equal val) in H. unfold Fadd in H. rewrite val_to, val_1, val_0, Z.mod_small in H by (pose proof field_bounds; lia). discriminate. Qed.
Lemma feq_iff x y : feq x y <-> field_mul (val y) (val y) = curve_rhs (val x).
Proof. unfold curve_eq, curve_rhs. rewrite <- val_7, <- !val_mul, <- val_add. split; [intros H; now rewrite H|apply Fp_ext]. Qed.

(** Powers *)
Lemma field_pow_ok a n : in_field a = true -> in_field (field_pow a n) = true /\ field_pow a n = (a ^ Z.pos n) mod FIELD.
Proof.
  intros Ha. assert (HI : forall x y, in_field x = true -> in_field y = true -> in_field (field_mul x y) = true) by (intros x y Hx Hy; rewrite mul_ok by assumption; apply mod_in_field).
  induction n as [n [H1 H2]|n [H1 H2]|]; cbn [field_pow]; cbv zeta.
  - split; [auto|]. rewrite mul_ok by auto. rewrite mul_ok by auto. rewrite H2. rewrite <- Zmult_mod, Zmult_mod_idemp_r. f_equal. rewrite Pos2Z.inj_xI, Z.pow_add_r, Z.pow_1_r, Z.pow_twice_r by lia. ring.
  - split; [auto|]. rewrite mul_ok by auto. rewrite H2. rewrite <- Zmult_mod. f_equal. rewrite Pos2Z.inj_xO, Z.pow_twice_r. reflexivity.
  - split; [exact Ha|]. rewrite Z.pow_1_r. symmetry. apply Z.mod_small. now apply in_field_iff.
Qed.
Lemma field_fermat x : in_field x = true -> x <> 0 -> (x ^ (FIELD - 1)) mod FIELD = 1.
Proof.
  rewrite in_field_iff. intros Hx Hn. apply fermat; [apply field_prime|]. intros HD. apply Z.divide_pos_le in HD; lia.
Qed.

(** No point has y = 0: -7 is not a cube. *)
Lemma minus_7 : field_pow (field_neg 7) (Z.to_pos ((FIELD - 1) / 3)) <> 1 /\ 3 * ((FIELD - 1) / 3) = FIELD - 1.
Proof. Transparent FIELD. split; vm_compute; [discriminate|reflexivity]. Opaque FIELD. Qed.
Lemma F_no_root x y : feq x y -> y <> F0.
Proof.
  intros HC ->. apply feq_iff in HC. rewrite val_0 in HC. change (field_mul 0 0) with 0 in HC. unfold curve_rhs in HC.
  pose proof field_bounds as [HF _]. pose proof (val_in x) as Hx. set (v := val x) in *. clearbody v.
  assert (HI : forall x y, in_field x = true -> in_field y = true -> in_field (field_mul x y) = true) by (intros; rewrite mul_ok by assumption; apply mod_in_field).
  assert (H7 : in_field 7 = true) by (apply in_field_iff; lia).
  rewrite add_ok in HC by auto. rewrite (mul_ok (field_mul v v)) in HC by auto. rewrite (mul_ok v v) in HC by auto. rewrite Zmult_mod_idemp_l, Zplus_mod_idemp_l in HC.
  assert (HV : v <> 0). { intros ->. rewrite Z.mod_small in HC; lia. }
  destruct minus_7 as [HM H3]. apply HM. assert (HN7 : in_field (field_neg 7) = true) by (rewrite (neg_ok 7 H7); apply mod_in_field).
  destruct (field_pow_ok (field_neg 7) (Z.to_pos ((FIELD - 1) / 3)) HN7) as [_ ->]. rewrite Z2Pos.id by lia.
  rewrite (neg_ok 7 H7). rewrite <- Zpower_mod by lia.
  assert (HE : (- (7)) mod FIELD = (v ^ 3) mod FIELD).
  { replace (v ^ 3) with (v * v * v + 7 + - (7)) by ring. rewrite <- Zplus_mod_idemp_l, <- HC. reflexivity. }
  rewrite Zpower_mod, HE, <- Zpower_mod by lia. rewrite <- Z.pow_mul_r by lia. rewrite H3. now apply field_fermat.
Qed.

(** Points as pairs of numbers and as pairs of elements of the field *)
Definition lower (p : Fpoint) : option (Z * Z) := match p with Some (x, y) => Some (val x, val y) | None => None end.
Definition up (a : option secp_pt) : Fpoint := match raw a with Some (x, y) => Some (toF x, toF y) | None => None end.
Lemma on_curve_iff x y : on_curve (x, y) = true <-> in_field x = true /\ in_field y = true /\ field_mul y y = curve_rhs x.
Proof. unfold on_curve. rewrite !andb_true_iff, Z.eqb_eq. tauto. Qed.
Lemma raw_on a x y : raw a = Some (x, y) -> on_curve (x, y) = true.
Proof. destruct a as [[xy H]|]; [|discriminate]. cbn. intros HE. injection HE as ->. exact H. Qed.
Lemma raw_inj a b : raw a = raw b -> a = b.
Proof.
  destruct a as [[p Hp]|], b as [[q Hq]|]; cbn; intros HE; try discriminate; [|reflexivity]. injection HE as ->. do 2 f_equal. apply UIP_dec. apply bool_dec.
Qed.
Lemma raw_pack p : match p with Some xy => on_curve xy = true | None => True end -> raw (pack p) = p.
Proof. destruct p as [xy|]; [|reflexivity]. intros H. unfold pack. destruct (bool_dec (on_curve xy) true) as [H1|H1]; [reflexivity|contradiction]. Qed.
Lemma lower_up a : lower (up a) = raw a.
Proof.
  unfold up. destruct (raw a) as [[x y]|] eqn:E; [|reflexivity]. apply raw_on, on_curve_iff in E as (Hx & Hy & _). cbn [lower]. now rewrite !val_toF by assumption.
Qed.
Lemma lower_inj p q : lower p = lower q -> p = q.
Proof.
  destruct p as [[x y]|], q as [[u v]|]; cbn [lower]; intros HE; try discriminate; [|reflexivity]. injection HE as H1 H2. apply Fp_ext in H1, H2. now subst.
Qed.
Lemma up_inj a b : up a = up b -> a = b.
Proof. intros H. apply raw_inj. rewrite <- !lower_up, H. reflexivity. Qed.
Lemma lower_on p : fon p <-> match lower p with Some xy => on_curve xy = true | None => True end.
Proof.
  destruct p as [[x y]|]; [|reflexivity]. cbn [on lower]. rewrite feq_iff, on_curve_iff. pose proof (val_in x). pose proof (val_in y). tauto.
Qed.
Lemma up_on a : fon (up a).
Proof. apply lower_on. rewrite lower_up. destruct (raw a) as [[x y]|] eqn:E; [|exact I]. now apply raw_on in E. Qed.
Lemma up_pack p : fon p -> up (pack (lower p)) = p.
Proof. intros H. apply lower_inj. rewrite lower_up. apply raw_pack. now apply lower_on. Qed.
Lemma lower_add p q : lower (fadd p q) = raw_add (lower p) (lower q).
Proof.
  destruct p as [[x1 y1]|]; [|reflexivity]. destruct q as [[x2 y2]|]; [|reflexivity]. cbn [lower ec_add raw_add].
  assert (HS : val (slope Fp Fadd Fmul Fsub Fdiv Fp_eq_dec x1 y1 x2 y2) = raw_slope (val x1) (val y1) (val x2) (val y2)).
  { unfold slope, raw_slope. destruct (Fp_eq_dec x1 x2) as [->|N]; [rewrite Z.eqb_refl|destruct (Z.eqb_spec (val x1) (val x2)) as [E|_]; [apply Fp_ext in E; contradiction|]]; rewrite val_div, ?val_add, ?val_sub, ?val_mul; reflexivity. }
  assert (HC : Some (let '(x, y) := chord Fp Fmul Fsub (slope Fp Fadd Fmul Fsub Fdiv Fp_eq_dec x1 y1 x2 y2) x1 y1 x2 in (val x, val y)) = Some (raw_chord (raw_slope (val x1) (val y1) (val x2) (val y2)) (val x1) (val y1) (val x2))).
  { f_equal. unfold chord, raw_chord. cbv zeta. rewrite <- HS. rewrite !val_sub, !val_mul, !val_sub, !val_mul. reflexivity. }
  destruct (Fp_eq_dec x1 x2) as [E|N].
  - replace (val x1 =? val x2) with true by (rewrite E; symmetry; apply Z.eqb_refl).
    destruct (Fp_eq_dec y1 y2) as [E2|N2].
    + replace (val y1 =? val y2) with true by (rewrite E2; symmetry; apply Z.eqb_refl). rewrite <- HC. reflexivity.
    + destruct (Z.eqb_spec (val y1) (val y2)) as [E3|_]; [apply Fp_ext in E3; contradiction|reflexivity].
  - destruct (Z.eqb_spec (val x1) (val x2)) as [E3|_]; [apply Fp_ext in E3; contradiction|]. rewrite <- HC. reflexivity.
Qed.
Notation padd := (gadd secp256k1).
Lemma up_add a b : up (padd a b) = fadd (up a) (up b).
Proof.
  change (padd a b) with (pack (raw_add (raw a) (raw b))). rewrite <- (lower_up a), <- (lower_up b), <- lower_add. apply up_pack.
  apply (ec_on Fp F0 F1 Fadd Fmul Fsub Fdiv Fopp Finv Fp_field Fp_eq_dec F7 F_two F_no_root); apply up_on.
Qed.
Lemma raw_gadd a b : raw (padd a b) = raw_add (raw a) (raw b).
Proof. rewrite <- !lower_up, up_add. apply lower_add. Qed.

Definition pneg (a : option secp_pt) : option secp_pt := pack (lower (fopp (up a))).
Lemma up_neg a : up (pneg a) = fopp (up a).
Proof. apply up_pack. apply (opp_on' Fp F0 F1 Fadd Fmul Fsub Fdiv Fopp Finv Fp_field). apply up_on. Qed.
Theorem secp_comm a b : padd a b = padd b a.
Proof. apply up_inj. rewrite !up_add. apply (ec_comm Fp F0 F1 Fadd Fmul Fsub Fdiv Fopp Finv Fp_field Fp_eq_dec F7 F_two F_no_root); apply up_on. Qed.
Theorem secp_assoc a b c : padd (padd a b) c = padd a (padd b c).
Proof. apply up_inj. rewrite !up_add. apply (ec_assoc Fp F0 F1 Fadd Fmul Fsub Fdiv Fopp Finv Fp_field Fp_eq_dec F7 F_two F_no_root); apply up_on. Qed.
Theorem secp_zero a : padd None a = a.
Proof. apply up_inj. rewrite up_add. reflexivity. Qed.
Theorem secp_neg a : padd a (pneg a) = None.
Proof. apply up_inj. rewrite up_add, up_neg. apply (add_opp Fp F0 F1 Fadd Fmul Fsub Fdiv Fopp Finv Fp_field Fp_eq_dec F7 F_two F_no_root). apply up_on. Qed.
