(** Coordinates for the toy curve: the points v and N - v share an x, the larger being the odd one. *)
From Verif.Model Require Import Py Curve Ecdsa.
From Verif.Spec Require Import CurveSpec EcdsaSpec.
From Verif.Proofs Require Import PyFacts CurveFacts EcdsaFacts.

Definition toy_px (p : toy_pt) : Z := Z.min (toy_val (Some p)) (CURVE_ORDER - toy_val (Some p)).
Definition toy_odd (p : toy_pt) : bool := CURVE_ORDER / 2 <? toy_val (Some p).
Definition toy_lift (x : Z) (b : bool) : option toy_pt :=
  if (0 <? x) && (x <=? CURVE_ORDER / 2) then toy_of (if b then CURVE_ORDER - x else x) else None.
Definition toy_coords : coords toy := {| px := toy_px : pt toy -> Z; podd := toy_odd : pt toy -> bool; lift := toy_lift : Z -> bool -> option (pt toy) |}.
Lemma toy_some x p : 0 < x < CURVE_ORDER -> toy_of x = Some p <-> toy_val (Some p) = x.
Proof.
  intros Hx. split.
  - intros HE. rewrite <- HE, toy_val_of. apply Z.mod_small. lia.
  - intros HE. apply toy_ext. rewrite toy_val_of, HE. apply Z.mod_small. lia.
Qed.
Lemma toy_pos (p : toy_pt) : 0 < toy_val (Some p) < CURVE_ORDER.
Proof. destruct p as [x Hx]. cbn. unfold in_range in Hx. apply andb_true_iff in Hx. lia. Qed.
Theorem toy_coords_laws : coords_laws toy toy_coords.
Proof.
  pose proof order_odd as HO. pose proof order_field as HF. assert (HN : CURVE_ORDER = 2 * (CURVE_ORDER / 2) + 1) by lia. split; cbn [px podd lift toy_coords].
  - intros p. pose proof (toy_pos p). unfold toy_px. lia.
  - intros p. change (pt toy) with toy_pt in p. pose proof (toy_pos p) as HP. unfold toy_lift, toy_px, toy_odd. destruct (Z.ltb_spec (CURVE_ORDER / 2) (toy_val (Some p))).
    + replace (_ && _) with true by lia. apply toy_some; [lia|]. change (pt toy) with toy_pt in *. lia.
    + replace (_ && _) with true by lia. apply toy_some; [lia|]. change (pt toy) with toy_pt in *. lia.
  - intros x b p. unfold toy_lift. destruct (Z.ltb_spec 0 x); [|discriminate]. destruct (Z.leb_spec x (CURVE_ORDER / 2)); [|discriminate]. cbn [andb]. intros HE. apply toy_some in HE; [|destruct b; lia]. unfold toy_px, toy_odd. rewrite HE. destruct b; lia.
  - intros p q HE. cbn in HE. apply (f_equal toy_val) in HE. rewrite toy_val_of in HE. change (toy_val None) with 0 in HE. change (pt toy) with toy_pt in p, q. pose proof (toy_pos p) as HP. pose proof (toy_pos q) as HQ.
    change (match p with exist _ x _ => x end) with (toy_val (Some p)) in HE. change (match q with exist _ x _ => x end) with (toy_val (Some q)) in HE. unfold toy_px, toy_odd. set (a := toy_val (Some p)) in *. set (b := toy_val (Some q)) in *. clearbody a b.
    assert (a + b = CURVE_ORDER). { apply Z.mod_divide in HE; [|lia]. destruct HE as [k HE]. assert (k = 1) by nia. lia. } lia.
Qed.
Theorem toy_uncompressed : uncompressed_laws toy.
Proof.
  split.
  - intros p. eexists. reflexivity.
  - intros r p. change (pt toy) with toy_pt in p. change (toy_parse (4 :: r) = Some p -> toy_ser false p = 4 :: r). unfold toy_parse, toy_ser. change (4 =? 2) with false. change (4 =? 4) with true. rewrite !andb_false_r, andb_true_r. cbn [andb].
    destruct (Z.eqb_spec (zlen r) 64) as [HL|]; [|discriminate]. destruct (bytes_ok r) eqn:HB; [|discriminate]. destruct (bytes_eqb_spec (zdrop 32 r) (zrepeat 0 32)) as [HZ|]; [|discriminate]. cbn [andb].
    destruct (Z.ltb_spec (be_int (ztake 32 r)) CURVE_ORDER); [|discriminate]. intros HE. assert (HT : bytes_ok (ztake 32 r) = true) by (rewrite <- (ztake_zdrop 32 r), bytes_ok_app in HB; now apply andb_true_iff in HB).
    assert (H0 : 0 <= be_int (ztake 32 r)) by (unfold be_int; apply le_int_nonneg; now rewrite bytes_ok_rev).
    rewrite <- HE, toy_val_of, Z.mod_small, bytes32_be; [|exact HT|rewrite zlen_ztake; lia|lia]. rewrite <- HZ. now rewrite ztake_zdrop.
Qed.
