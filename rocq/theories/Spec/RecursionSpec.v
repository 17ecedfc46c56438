(** How many chains are gone through from a chain down to the one that holds a height. *)
From Verif.Model Require Import Py Chain.

(** [goes_through chains c h n]: the height is looked for on [n] chains: the first on which it is not below the start, or which has
    no parent, is the last. *)
Inductive goes_through (chains : list chain) : nat -> Z -> nat -> Prop :=
| through_last c h ch : nth_error chains c = Some ch -> ch_first ch <= h \/ ch_parent ch = None -> goes_through chains c h 1
| through_parent c h ch p n : nth_error chains c = Some ch -> h < ch_first ch -> ch_parent ch = Some p -> goes_through chains p h n ->
    goes_through chains c h (S n).
