(** Texts with many digits. *)
From Verif.Model Require Import Py Text Script.
From Verif.Spec Require Import ScriptSpec.

Definition decimal_digit (c : Z) : Prop := 48 <= c <= 57.
(** More than [limit] digits, perhaps after a minus sign, and nothing else *)
Definition long_numeral (limit : Z) (w : pystr) : Prop :=
  exists ds, Forall decimal_digit ds /\ (w = ds \/ w = 45 :: ds) /\ limit < zlen ds.
(** Data whose text is such a numeral: each byte is written as two digits. *)
Definition long_decimal (limit : Z) (o : op) : Prop :=
  match o with Data d => 4 < zlen d /\ looks_decimal d /\ limit < 2 * zlen d | Code _ => False end.
(** A part of a chain string that starts with more than [limit] digits *)
Definition many_digits (limit : Z) (part : pystr) : Prop :=
  exists ds rest, Forall decimal_digit ds /\ part = ds ++ rest /\ limit < zlen ds.
