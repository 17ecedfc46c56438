(** The curve of libsecp256k1 itself: an instance of Model/Curve.v.  Numbers are kept below the prime of the field. *)
From Coq Require Import Bool.
From Verif.Model Require Import Py Curve ModInverse Ecdsa.

(** Reduction of a number below 2^512: 2^256 is 2^32 + 977 modulo the prime *)
Definition MASK256 : Z := 2 ^ 256 - 1.
Definition fold256 (x : Z) : Z := Z.land x MASK256 + 0x1000003d1 * Z.shiftr x 256.
Definition field_reduce (x : Z) : Z := let y := fold256 (fold256 x) in if y <? FIELD then y else y - FIELD.
Definition field_mul (a b : Z) : Z := field_reduce (a * b).
Definition field_add (a b : Z) : Z := let s := a + b in if s <? FIELD then s else s - FIELD.
Definition field_neg (a : Z) : Z := if a =? 0 then 0 else FIELD - a.
Definition field_sub (a b : Z) : Z := field_add a (field_neg b).
Definition field_inv (a : Z) : Z := mod_inverse FIELD a.
Definition field_div (a b : Z) : Z := field_mul a (field_inv b).

(** y^2 = x^3 + 7 *)
Definition curve_rhs (x : Z) : Z := field_add (field_mul (field_mul x x) x) 7.
Definition in_field (x : Z) : bool := (0 <=? x) && (x <? FIELD).
Definition on_curve (p : Z * Z) : bool := let '(x, y) := p in in_field x && in_field y && (field_mul y y =? curve_rhs x).

(** secp256k1_gej_add_var: addition of affine points, [None] being infinity *)
Definition raw_slope (x1 y1 x2 y2 : Z) : Z :=
  if x1 =? x2 then field_div (field_add (field_add (field_mul x1 x1) (field_mul x1 x1)) (field_mul x1 x1)) (field_add y1 y1)
  else field_div (field_sub y2 y1) (field_sub x2 x1).
Definition raw_chord (l x1 y1 x2 : Z) : Z * Z :=
  let x3 := field_sub (field_sub (field_mul l l) x1) x2 in (x3, field_sub (field_mul l (field_sub x1 x3)) y1).
Definition raw_add (p q : option (Z * Z)) : option (Z * Z) :=
  match p, q with
  | None, _ => q
  | _, None => p
  | Some (x1, y1), Some (x2, y2) =>
    if x1 =? x2 then if y1 =? y2 then Some (raw_chord (raw_slope x1 y1 x2 y2) x1 y1 x2) else None
    else Some (raw_chord (raw_slope x1 y1 x2 y2) x1 y1 x2)
  end.

Definition secp_pt := { p : Z * Z | on_curve p = true }.
Definition raw (p : option secp_pt) : option (Z * Z) := match p with Some (exist _ xy _) => Some xy | None => None end.
Definition pack (p : option (Z * Z)) : option secp_pt :=
  match p with
  | Some xy => match bool_dec (on_curve xy) true with left H => Some (exist _ xy H) | right _ => None end
  | None => None
  end.
Definition GX : Z := 0x79BE667EF9DCBBAC55A06295CE870B07029BFCDB2DCE28D959F2815B16F81798.
Definition GY : Z := 0x483ADA7726A3C4655DA4FBFC0E1108A8FD17B448A68554199C47D08FFB10D4B8.
Lemma generator_on_curve : on_curve (GX, GY) = true.
Proof. reflexivity. Qed.

(** secp256k1_fe_sqrt: the power (p + 1) / 4, a root if there is one *)
Fixpoint field_pow (a : Z) (n : positive) : Z :=
  match n with
  | xH => a
  | xO m => let b := field_pow a m in field_mul b b
  | xI m => let b := field_pow a m in field_mul a (field_mul b b)
  end.
Definition field_sqrt (a : Z) : Z := field_pow a (Z.to_pos ((FIELD + 1) / 4)).
(** secp256k1_ge_set_xo_var *)
Definition secp_lift (x : Z) (odd : bool) : option secp_pt :=
  let y := field_sqrt (curve_rhs x) in pack (Some (x, if Bool.eqb (Z.odd y) odd then y else field_neg y)).
(** secp256k1_eckey_pubkey_parse *)
Definition secp_parse (b : bytes) : option secp_pt :=
  if bytes_ok b then
    match b with
    | tag :: r =>
      if (zlen r =? 32) && ((tag =? 2) || (tag =? 3)) then secp_lift (be_int r) (tag =? 3)
      else if (zlen r =? 64) && ((tag =? 4) || (tag =? 6) || (tag =? 7)) then
        let y := be_int (zdrop 32 r) in
        if ((tag =? 6) || (tag =? 7)) && negb (Bool.eqb (Z.odd y) (tag =? 7)) then None
        else pack (Some (be_int (ztake 32 r), y))
      else None
    | [] => None
    end
  else None.
(** secp256k1_eckey_pubkey_serialize *)
Definition secp_serialize (compressed : bool) (p : secp_pt) : bytes :=
  let '(x, y) := proj1_sig p in
  if compressed then (if Z.odd y then 3 else 2) :: bytes32 x else 4 :: bytes32 x ++ bytes32 y.
Definition secp256k1 : curve := {|
  pt := secp_pt;
  gadd := fun a b => pack (raw_add (raw a) (raw b));
  gen := exist _ (GX, GY) generator_on_curve;
  pubkey_parse := secp_parse;
  pubkey_serialize := secp_serialize
|}.
Definition secp_coords : coords secp256k1 := {|
  px := fun p : pt secp256k1 => fst (proj1_sig p);
  podd := fun p : pt secp256k1 => Z.odd (snd (proj1_sig p));
  lift := secp_lift : Z -> bool -> option (pt secp256k1)
|}.
