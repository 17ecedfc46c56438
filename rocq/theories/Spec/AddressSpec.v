(** What the standard outputs are, in terms of operations. *)
From Verif.Model Require Import Py Text Curve Coin Script Cashaddr Keys Address.
From Verif.Spec Require Import Numbers ScriptSpec CashaddrSpec.

(** [s] is some whole operations *)
Definition denotes (s : bytes) (l : list op) : Prop := exists parts, s = concat parts /\ Forall2 encodes parts l.
(** [s] is some operations and then the beginning of a push *)
Definition ends_early (s : bytes) (l : list op) : Prop := exists parts tail more d,
  s = concat parts ++ tail /\ Forall2 encodes parts l /\ tail <> [] /\ more <> [] /\ encodes (tail ++ more) (Data d).

(** Operations that together do nothing, and removing them anywhere, any number of times *)
Inductive no_effect : list op -> Prop :=
| ne_nop : no_effect [Code 97]
| ne_drop d : no_effect [Data d; Code 117]
| ne_2drop d e : no_effect [Data d; Data e; Code 109].
Inductive reduces : list op -> list op -> Prop :=
| red_done l : reduces l l
| red_remove a x b l : no_effect x -> reduces (a ++ b) l -> reduces (a ++ x ++ b) l.

(** The operations of the standard outputs *)
Definition std_P2PKH (h : bytes) : list op := [Code 118; Code 169; Data h; Code 136; Code 172].
Definition std_P2SH (h : bytes) : list op := [Code 169; Data h; Code 135].
Definition std_P2PK (key : bytes) : list op := [Data key; Code 172].
Definition std_multisig (m : bytes) (keys : list bytes) (n : bytes) : list op :=
  [Data m] ++ map Data keys ++ [Data n; Code 174].

(** The public key that some bytes are read as *)
Definition reads_as {C : curve} (b : bytes) (k : pubkey C) : Prop :=
  pubkey_parse C b = Some (pk_point k) /\ pk_compressed k = (zlen b =? 33) /\ pk_coin k = Bitcoin.

(** The cashaddr text of a 20-byte hash, without the prefix *)
Definition cash_body (prefix : pystr) (kind : Z) (h : bytes) (body : pystr) : Prop := exists ss,
  five_bit_groups (8 * kind :: h) ss /\ spelt (ss ++ create_checksum prefix ss) body.
(** ... and the ways of writing it: with or without the prefix, lower-case or upper-case *)
Definition cash_forms (prefix body t : pystr) : Prop :=
  t = prefix ++ txt ":" ++ body \/ t = body \/ t = upper (prefix ++ txt ":" ++ body) \/ t = upper body.
(** An address that a coin can have *)
Definition address_of (c : coin) (a : address) : Prop :=
  address_coin a = c /\ bytes_ok (address_hash160 a) = true /\ zlen (address_hash160 a) = 20.
Definition kind_of (a : address) : Z := match a with P2PKH _ _ => 0 | P2SH _ _ => 1 end.
