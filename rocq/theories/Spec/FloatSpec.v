(** Double precision: the finite numbers that are not negative, and the nearest one to a fraction. *)
From Coq Require Import ZArith.
Open Scope Z_scope.

(** The number is m * 2^e.  The mantissa has 53 bits, or fewer if the exponent is the least one. *)
Definition finite_double (m e : Z) : Prop := -1074 <= e <= 971 /\ 0 <= m < 2 ^ 53 /\ (2 ^ 52 <= m \/ e = -1074).
(** |a/b - m * 2^e|, times b * 2^1074 *)
Definition distance (a b m e : Z) : Z := Z.abs (a * 2 ^ 1074 - b * (m * 2 ^ (e + 1074))).
(** No double is nearer to a/b, and any other that is as near has an odd mantissa *)
Definition nearest (a b m e : Z) : Prop :=
  finite_double m e /\
  forall m' e', finite_double m' e' -> distance a b m e < distance a b m' e' \/
    (distance a b m e = distance a b m' e' /\ ((m', e') = (m, e) \/ (Z.Even m /\ ~ Z.Even m'))).
(** a/b is 2^1024 - 2^970, halfway from the greatest double to the next power of two, or more *)
Definition too_big (a b : Z) : Prop := b * (2 ^ 1024 - 2 ^ 970) <= a.
(** Order of doubles *)
Definition less (m e m' e' : Z) : Prop := m * 2 ^ (e + 1074) < m' * 2 ^ (e' + 1074).
