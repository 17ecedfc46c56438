(** What the coordinates must obey, and what an ECDSA signature is, without inverses. *)
From Verif.Model Require Import Py Text Base64 Curve Ecdsa.
From Verif.Spec Require Import Numbers CurveSpec.

(** Coordinates: a point is determined by its x and the parity of its y; opposite points have the same x and y
    of different parity (the field is of odd characteristic). *)
Record coords_laws (C : curve) (K : coords C) : Prop := {
  law_px : forall p, 0 <= px K p < FIELD;
  law_lift : forall p, lift K (px K p) (podd K p) = Some p;
  law_lift_inv : forall x b p, lift K x b = Some p -> px K p = x /\ podd K p = b;
  law_opposite : forall p q, gadd C (Some p) (Some q) = None -> px K q = px K p /\ podd K q = negb (podd K p)
}.

(** n times a point, by plain iteration *)
Definition mult (C : curve) (n : Z) (P : option (pt C)) : option (pt C) := match n with Zpos m => times C m P | _ => None end.

(** s R = z G + r Q *)
Definition ecdsa_equation (C : curve) (R : pt C) (r s z : Z) (Q : pt C) : Prop :=
  mult C s (Some R) = gadd C (mult C z (Some (gen C))) (mult C r (Some Q)).
(** (r, s) is a signature of the number z by the key Q. *)
Definition ecdsa_signature (C : curve) (K : coords C) (r s z : Z) (Q : pt C) : Prop :=
  0 < r < CURVE_ORDER /\ 0 < s < CURVE_ORDER /\ exists R, px K R mod CURVE_ORDER = r /\ ecdsa_equation C R r s z Q.
(** With a recovery id: which of the points with that x modulo the order R is. *)
Definition recoverable_signature (C : curve) (K : coords C) (r s recid z : Z) (Q : pt C) : Prop :=
  0 < r < CURVE_ORDER /\ 0 < s < CURVE_ORDER /\
  exists R, px K R = r + recid / 2 * CURVE_ORDER /\ podd K R = (recid mod 2 =? 1) /\ ecdsa_equation C R r s z Q.

(** 65 bytes: a header, r and s *)
Definition message_signature (b : bytes) (header r s : Z) : Prop :=
  exists br bs, b = header :: br ++ bs /\ zlen br = 32 /\ zlen bs = 32 /\ val_be br = r /\ val_be bs = s.

(** The DER form of a number: no leading zero byte unless the next has its top bit set, top bit clear *)
Definition der_number (v : Z) (b : bytes) : Prop :=
  bytes_ok b = true /\ val_be b = v /\
  match b with [] => False | [x] => x < 128 | x :: y :: _ => x < 128 /\ (x = 0 -> 128 <= y) end.
Definition der_form (r s : Z) (d : bytes) : Prop :=
  exists R S, der_number r R /\ der_number s S /\ d = [48; zlen R + zlen S + 4; 2; zlen R] ++ R ++ [2; zlen S] ++ S.
(** 64 bytes: r and s *)
Definition compact_form (r s : Z) (c : bytes) : Prop :=
  exists br bs, c = br ++ bs /\ zlen br = 32 /\ zlen bs = 32 /\ bytes_ok c = true /\ val_be br = r /\ val_be bs = s.

(** The bytes of a message *)
Definition message_bytes (m : text_or_bytes) : result bytes := match m with AsText t => utf8_encode t | AsBytes b => Ok b end.

(** What is hashed when a message is signed: the prefix and the message, each after its length *)
Definition compact_size (n : Z) (b : bytes) : Prop :=
  bytes_ok b = true /\
  ((n < 253 /\ b = [n]) \/
   exists t w, b = t :: w /\ val_le w = n /\
     ((t = 253 /\ 253 <= n /\ zlen w = 2) \/ (t = 254 /\ 2 ^ 16 <= n /\ zlen w = 4) \/ (t = 255 /\ 2 ^ 32 <= n /\ zlen w = 8))).
Definition framed (m pre : bytes) : Prop :=
  exists v, compact_size (zlen m) v /\ pre = [24] ++ txt "Bitcoin Signed Message:" ++ [10] ++ v ++ m.

(** What libsecp256k1 reads: a DER sequence of two integers of any size.  The number an integer stands for is its
    value if that is from 0 to the order less one, otherwise 0. *)
Definition der_length (n : Z) (b : bytes) : Prop :=
  bytes_ok b = true /\
  ((n < 128 /\ b = [n]) \/
   exists x w, b = 128 + zlen (x :: w) :: x :: w /\ x <> 0 /\ zlen (x :: w) <= 8 /\ val_be (x :: w) = n /\ 128 <= n).
Definition der_integer_bytes (b : bytes) : Prop :=
  bytes_ok b = true /\
  match b with [] => False | [_] => True | x :: y :: _ => ~ (x = 0 /\ y < 128) /\ ~ (x = 255 /\ 128 <= y) end.
Definition reads_as (b : bytes) (v : Z) : Prop :=
  match b with
  | [] => False
  | x :: _ => (x < 128 /\ val_be b < CURVE_ORDER /\ v = val_be b) \/ ((128 <= x \/ CURVE_ORDER <= val_be b) /\ v = 0)
  end.
Definition der_sequence (d R S : bytes) : Prop :=
  exists lR lS l, der_integer_bytes R /\ der_integer_bytes S /\ der_length (zlen R) lR /\ der_length (zlen S) lS /\
    let body := [2] ++ lR ++ R ++ [2] ++ lS ++ S in der_length (zlen body) l /\ d = [48] ++ l ++ body.
