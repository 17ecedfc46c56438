(** Base58: texts over 58 characters. *)
From Verif.Model Require Import Py Text.
From Verif.Spec Require Import Numbers.

(** Digits and letters without 0, O, I and l. *)
Definition alphabet : pystr := txt "123456789" ++ txt "ABCDEFGH" ++ txt "JKLMN" ++ txt "PQRSTUVWXYZ" ++ txt "abcdefghijk" ++ txt "mnopqrstuvwxyz".
(** A text, read as a number in base 58, has the value of the bytes; and the text has as many leading '1's
    (zero digits) as the bytes have leading zeros. *)
Definition same_value (t : pystr) (b : bytes) : Prop :=
  exists ds, Forall2 (fun c d => 0 <= d < 58 /\ nth_error alphabet (Z.to_nat d) = Some c) t ds /\
             fold_left (fun a d => 58 * a + d) ds 0 = val_be b.
Definition leading_count (x : Z) (l : list Z) (n : nat) : Prop :=
  exists r, l = repeat x n ++ r /\ (r = [] \/ exists y r', r = y :: r' /\ y <> x).
Definition base58_of (t : pystr) (b : bytes) : Prop :=
  same_value t b /\ exists n, leading_count 49 t n /\ leading_count 0 b n.
