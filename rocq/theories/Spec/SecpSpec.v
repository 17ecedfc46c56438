(** What secp256k1 is (SEC 2, 2.4.1): the points of y^2 = x^3 + 7 over the field of 2^256 - 2^32 - 977 elements,
    added by chords and tangents, and written in the forms of SEC 1 and ANSI X9.62. *)
From Verif.Model Require Import Py.
From Verif.Spec Require Import Numbers.

Definition P256 : Z := 0xfffffffffffffffffffffffffffffffffffffffffffffffffffffffefffffc2f.
Definition same (a b : Z) : Prop := a mod P256 = b mod P256.
Definition element (x : Z) : Prop := 0 <= x < P256.
Definition secp_point (x y : Z) : Prop := element x /\ element y /\ same (y * y) (x * x * x + 7).
(** l is the slope of the line through two points: of the tangent, if they are the same *)
Definition line_slope (l x1 y1 x2 y2 : Z) : Prop :=
  x1 <> x2 /\ same (l * (x2 - x1)) (y2 - y1) \/ x1 = x2 /\ y1 = y2 /\ same (l * (2 * y1)) (3 * (x1 * x1)).
(** The third point of the curve on the line, mirrored *)
Definition point_sum (x1 y1 x2 y2 x3 y3 : Z) : Prop :=
  exists l, line_slope l x1 y1 x2 y2 /\ same x3 (l * l - x1 - x2) /\ same y3 (l * (x1 - x3) - y1).

(** 32 bytes, the most significant first *)
Definition word (b : bytes) (v : Z) : Prop := bytes_ok b = true /\ zlen b = 32 /\ val_be b = v.
Definition parity (y : Z) : Z := y mod 2.
(** 33 bytes: 2 or 3 and x; 65 bytes: 4, x and y; and the hybrid form: 6 or 7, x and y *)
Definition point_text (b : bytes) (x y : Z) : Prop :=
  (exists bx, b = (2 + parity y) :: bx /\ word bx x) \/
  (exists bx byy, (b = 4 :: bx ++ byy \/ b = (6 + parity y) :: bx ++ byy) /\ word bx x /\ word byy y).
