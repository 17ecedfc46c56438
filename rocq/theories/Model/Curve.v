(** The functions of libsecp256k1 that the code calls, in terms of an abstract group of points, as the
    library documents them.  [None] is the point at infinity. *)
From Verif.Model Require Import Py.

(** keys.py:53 *)
Definition CURVE_ORDER : Z := 0xfffffffffffffffffffffffffffffffebaaedce6af48a03bbfd25e8cd0364141.
(** The prime of the field of coordinates *)
Definition FIELD : Z := 2 ^ 256 - 2 ^ 32 - 977.

Record curve := mk_curve {
  pt : Type;                                       (* points other than infinity *)
  gadd : option pt -> option pt -> option pt;      (* addition *)
  gen : pt;                                        (* the generator *)
  pubkey_parse : bytes -> option pt;               (* secp256k1_ec_pubkey_parse *)
  pubkey_serialize : bool -> pt -> bytes           (* secp256k1_ec_pubkey_serialize; true: compressed *)
}.

Section Curve.
  Variable C : curve.

  (** n times a point *)
  Fixpoint pmul (n : positive) (p : option (pt C)) : option (pt C) :=
    match n with
    | xH => p
    | xO m => let q := pmul m p in gadd C q q
    | xI m => let q := pmul m p in gadd C p (gadd C q q)
    end.
  Definition smul (n : Z) (p : option (pt C)) : option (pt C) :=
    match n with Zpos m => pmul m p | _ => None end.

  (** secp256k1_ec_seckey_verify *)
  Definition seckey_verify (s : bytes) : bool := (0 <? be_int s) && (be_int s <? CURVE_ORDER).
  (** secp256k1_ec_pubkey_create *)
  Definition pubkey_create (s : bytes) : option (pt C) :=
    if seckey_verify s then smul (be_int s) (Some (gen C)) else None.
  (** 32 big-endian bytes of a number below 2^256 *)
  Definition bytes32 (v : Z) : bytes := rev (le_digits 32 v).
  (** secp256k1_ec_privkey_tweak_add: fails if the tweak is not below the order or the sum is zero *)
  Definition privkey_tweak_add (s t : bytes) : option bytes :=
    if CURVE_ORDER <=? be_int t then None
    else let r := (be_int s + be_int t) mod CURVE_ORDER in if r =? 0 then None else Some (bytes32 r).
  (** secp256k1_ec_privkey_tweak_mul: fails if the tweak is zero or not below the order *)
  Definition privkey_tweak_mul (s t : bytes) : option bytes :=
    if (CURVE_ORDER <=? be_int t) || (be_int t =? 0) then None
    else Some (bytes32 ((be_int s * be_int t) mod CURVE_ORDER)).
  (** secp256k1_ec_pubkey_tweak_add *)
  Definition pubkey_tweak_add (p : pt C) (t : bytes) : option (pt C) :=
    if CURVE_ORDER <=? be_int t then None else gadd C (Some p) (smul (be_int t) (Some (gen C))).
  (** secp256k1_ec_pubkey_tweak_mul *)
  Definition pubkey_tweak_mul (p : pt C) (t : bytes) : option (pt C) :=
    if (CURVE_ORDER <=? be_int t) || (be_int t =? 0) then None else smul (be_int t) (Some p).
  (** secp256k1_ec_pubkey_combine *)
  Definition pubkey_combine (l : list (pt C)) : option (pt C) :=
    fold_left (fun a p => gadd C a (Some p)) l None.
End Curve.
