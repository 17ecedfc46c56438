(** When two objects are the same thing, and what numerals denote. *)
From Verif.Model Require Import Py Text Curve Coin Keys Bip32 Address Objects.
From Verif.Spec Require Import Numbers KeysSpec.

Inductive same {C : curve} : obj C -> obj C -> Prop :=
| same_bytes x y b : obj_bytes C x = Some b -> obj_bytes C y = Some b -> same x y
| same_priv x y k k' : obj_priv C x = Some k -> obj_priv C y = Some k' -> val_be (sk_secret k) = val_be (sk_secret k') -> same x y
| same_pub x y k k' : obj_pub C x = Some k -> obj_pub C y = Some k' -> pk_point k = pk_point k' -> same x y
| same_P2PKH i j h c d : same (OOut C i (OAddress (P2PKH h c))) (OOut C j (OAddress (P2PKH h d)))
| same_P2SH i j h c d : same (OOut C i (OAddress (P2SH h c))) (OOut C j (OAddress (P2SH h d)))
| same_P2PK i j k k' c d : pk_point k = pk_point k' -> same (OOut C i (OP2PK k c)) (OOut C j (OP2PK k' d))
| same_multisig i j ks ks' m : map pk_point ks = map pk_point ks' -> same (OOut C i (OMultiSig ks m)) (OOut C j (OMultiSig ks' m))
| same_return i j : same (OOut C i OReturn) (OOut C j OReturn)
| same_unknown i : same (OOut C i OUnknown) (OOut C i OUnknown).
(** Private keys are in range *)
Definition valid_obj {C : curve} (x : obj C) : Prop := forall k, obj_priv C x = Some k -> valid_privkey k.

(** What digits denote in base 16; the letters are small *)
Definition hex_value (s : pystr) : Z := fold_left (fun a c => 16 * a + (if c <? 58 then c - 48 else c - 87)) s 0.
