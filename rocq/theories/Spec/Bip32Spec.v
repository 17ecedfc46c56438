(** Extended keys and derivation paths. *)
From Verif.Model Require Import Py Text Curve Coin Keys Bip32.
From Verif.Spec Require Import Numbers CurveSpec KeysSpec.

(** A derivation that fits in the 78 bytes of an extended key: 32 bytes of chain code, a 32-bit child number, 4 bytes
    of parent's fingerprint, and any depth. *)
Definition valid_derivation (d : derivation) : Prop :=
  bytes_ok (d_chain_code d) = true /\ zlen (d_chain_code d) = 32 /\ 0 <= d_n d < 2 ^ 32 /\ 0 <= d_depth d /\
  bytes_ok (d_parent_fingerprint d) = true /\ zlen (d_parent_fingerprint d) = 4.
Definition valid_xprv (k : xprv) : Prop :=
  valid_privkey (xprv_key k) /\ sk_compressed (xprv_key k) = true /\ In (sk_coin (xprv_key k)) all_coins /\ valid_derivation (xprv_derivation k).
Definition valid_xpub {C} (k : xpub C) : Prop :=
  pk_compressed (xpub_key k) = true /\ In (pk_coin (xpub_key k)) all_coins /\ valid_derivation (xpub_derivation k).

(** The 78 bytes of BIP32. *)
Definition layout (version : bytes) (d : derivation) (key : bytes) (out : bytes) : Prop :=
  exists db nb, out = version ++ db ++ d_parent_fingerprint d ++ nb ++ d_chain_code d ++ key /\
    zlen db = 1 /\ val_be db = d_depth d /\ zlen nb = 4 /\ val_be nb = d_n d /\ zlen key = 33.

(** Following a path: one derivation after another, stopping at the first failure. *)
Fixpoint follow {A} (step : A -> Z -> result A) (k : A) (path : list Z) : result A :=
  match path with [] => Ok k | n :: r => match step k n with Ok k' => follow step k' r | Err e => Err e end end.

(** Numbers of the same kind: both below 2^31, or both in [2^31, 2^32). *)
Definition same_kind (n m : Z) : Prop := (0 <= n < 2 ^ 31 /\ 0 <= m < 2 ^ 31) \/ (2 ^ 31 <= n < 2 ^ 32 /\ 2 ^ 31 <= m < 2 ^ 32).

(** Decimal numerals: [numeral s v], the digits s say v.  Leading zeros are allowed. *)
Inductive numeral : pystr -> Z -> Prop :=
| numeral_one c : 48 <= c <= 57 -> numeral [c] (c - 48)
| numeral_more s v c : numeral s v -> 48 <= c <= 57 -> numeral (s ++ [c]) (10 * v + (c - 48)).
(** What a part of a chain string says according to BIP32: a number, and an apostrophe if hardened. *)
Definition part_says (part : pystr) (n : Z) : Prop :=
  exists s v, numeral s v /\ v < 2 ^ 31 /\ ((part = s /\ n = v) \/ (part = s ++ txt "'" /\ n = v + 2 ^ 31)).
(** ... and according to the regular expression, which also lets a newline end a part; then an apostrophe before it is ignored. *)
Definition part_reads (part : pystr) (n : Z) : Prop :=
  part_says part n \/ exists s v, numeral s v /\ v < 2 ^ 31 /\ n = v /\ (part = s ++ [10] \/ part = s ++ txt "'" ++ [10]).
(** The pieces between slashes *)
Definition slashed (s : pystr) (parts : list pystr) : Prop :=
  parts <> [] /\ Forall (fun p => ~ In 47 p) parts /\ s = join [47] parts.
