(** What a curve must obey: a commutative group in which CURVE_ORDER times any point is the point at
    infinity, and serialization can be undone.  (Inverses exist, and every point has exactly the order
    CURVE_ORDER, because CURVE_ORDER is prime: Proofs/CurveFacts.v.) *)
From Verif.Model Require Import Py Curve.

(** p + ... + p, n times *)
Definition times (C : curve) (n : positive) (p : option (pt C)) : option (pt C) := Pos.iter (gadd C p) None n.

Record curve_laws (C : curve) : Prop := {
  law_comm : forall a b, gadd C a b = gadd C b a;
  law_assoc : forall a b c, gadd C (gadd C a b) c = gadd C a (gadd C b c);
  law_zero : forall a, gadd C None a = a;
  law_order : forall a, times C (Z.to_pos CURVE_ORDER) a = None;
  law_parse : forall c p, pubkey_parse C (pubkey_serialize C c p) = Some p;
  law_length : forall c p, zlen (pubkey_serialize C c p) = if c then 33 else 65;
  law_bytes : forall c p, bytes_ok (pubkey_serialize C c p) = true;
  law_parse_length : forall b p, pubkey_parse C b = Some p -> zlen b = 33 \/ zlen b = 65;
  law_compressed : forall b p, pubkey_parse C b = Some p -> zlen b = 33 -> b = pubkey_serialize C true p
}.

(** The 65-byte form begins with 4 and is the only one that does. *)
Record uncompressed_laws (C : curve) : Prop := {
  law_first : forall p, exists r, pubkey_serialize C false p = 4 :: r;
  law_uncompressed : forall r p, pubkey_parse C (4 :: r) = Some p -> pubkey_serialize C false p = 4 :: r
}.
