(** RFC 6979, section 3.2, for HMAC-SHA256 and a group order of 256 bits. *)
From Verif.Model Require Import Py Curve Ecdsa.
From Verif.Spec Require Import Numbers CurveSpec EcdsaSpec HashSpec.

(** Hashes of 32 bytes and secrets as octets: bits2octets reduces modulo the order [q], int2octets writes 32 bytes. *)
Definition octets (n : Z) (b : bytes) : Prop := zlen b = 32 /\ bytes_ok b = true /\ val_be b = n.
Definition mac : bytes -> bytes -> bytes -> Prop := hmac_says sha256_says 64.
(** Steps b to g: K and V *)
Definition seeded (q x : Z) (h1 K V : bytes) : Prop :=
  exists xo ho K1 V1, octets x xo /\ octets (val_be h1 mod q) ho /\
    mac (repeat 0 32) (repeat 1 32 ++ [0] ++ xo ++ ho) K1 /\ mac K1 (repeat 1 32) V1 /\
    mac K1 (V1 ++ [1] ++ xo ++ ho) K /\ mac K V1 V.
(** Step h: candidate [i] and the K that gave it *)
Inductive candidate (q x : Z) (h1 : bytes) : nat -> bytes -> bytes -> Prop :=
| cand_first K V T : seeded q x h1 K V -> mac K V T -> candidate q x h1 O K T
| cand_next i K V K' V' T : candidate q x h1 i K V -> mac K (V ++ [0]) K' -> mac K' V V' -> mac K' V' T -> candidate q x h1 (S i) K' T.

(** Section 2.4 with the nonce k, and s the smaller of the two: (r, s) is a signature of z by the secret x; the recovery id says which point R was. *)
Definition signed_with (C : curve) (K : coords C) (x z k r s recid : Z) : Prop :=
  0 < k < CURVE_ORDER /\ exists R s1, mult C k (Some (gen C)) = Some R /\ r = px K R mod CURVE_ORDER /\ r <> 0 /\
    0 < s1 < CURVE_ORDER /\ (k * s1) mod CURVE_ORDER = (z + r * x) mod CURVE_ORDER /\
    let odd := if podd K R then 1 else 0 in
    ((2 * s1 < CURVE_ORDER /\ s = s1 /\ recid = 2 * (px K R / CURVE_ORDER) + odd) \/
     (CURVE_ORDER < 2 * s1 /\ s = CURVE_ORDER - s1 /\ recid = 2 * (px K R / CURVE_ORDER) + (1 - odd))).
(** The first candidate that gives one is taken. *)
Definition first_signed (C : curve) (K : coords C) (q x : Z) (h1 : bytes) (r s recid : Z) : Prop :=
  exists n Kn T, candidate q x h1 n Kn T /\ signed_with C K x (val_be h1) (val_be T) r s recid /\
    forall i Ki Ti, (i < n)%nat -> candidate q x h1 i Ki Ti -> ~ exists r s recid, signed_with C K x (val_be h1) (val_be Ti) r s recid.
