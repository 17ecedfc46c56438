(** Keys in range and what the AES and HMAC parameters must obey. *)
From Verif.Model Require Import Py Curve Coin Keys.
From Verif.Spec Require Import Numbers CurveSpec.

(** 32 bytes denoting a number between 1 and the order, exclusive *)
Definition valid_secret (s : bytes) : Prop := bytes_ok s = true /\ zlen s = 32 /\ 0 < val_be s < CURVE_ORDER.
Definition valid_privkey (k : privkey) : Prop := valid_secret (sk_secret k).

(** n times the generator, and the sum of some points, by plain iteration *)
Definition gen_times (C : curve) (n : Z) : option (pt C) := match n with Zpos m => times C m (Some (gen C)) | _ => None end.
Definition point_sum (C : curve) (l : list (pt C)) : option (pt C) := fold_right (fun p acc => gadd C (Some p) acc) None l.

(** The two sides of an equation between results: both return related values or both raise ValueError. *)
Definition agree {A B} (R : A -> B -> Prop) (x : result A) (y : result B) : Prop :=
  match x, y with Ok a, Ok b => R a b | Err e, Err e' => e = ValueError /\ e' = ValueError | _, _ => False end.

(** CBC mode of a 16-byte block cipher: whole blocks of bytes in, as many out, and decryption undoes encryption. *)
Record cbc_laws (enc dec : bytes -> bytes -> bytes -> result bytes) : Prop := {
  cbc_inverse : forall key iv d, zlen key = 16 -> zlen iv = 16 -> zlen d mod 16 = 0 -> bytes_ok key = true -> bytes_ok iv = true -> bytes_ok d = true ->
    exists c, enc key iv d = Ok c /\ zlen c = zlen d /\ bytes_ok c = true /\ dec key iv c = Ok d
}.
