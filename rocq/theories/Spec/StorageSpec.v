(** What a headers file should be: an array of headers, described by the writes made to it. *)
From Verif.Model Require Import Py.

(** The writes made, newest first, as (index, header) pairs. *)
Definition writes := list (Z * bytes).

(** The header last written at an index. *)
Fixpoint newest (w : writes) (i : Z) : option bytes :=
  match w with
  | [] => None
  | (j, raw) :: r => if j =? i then Some raw else newest r i
  end.

(** One more than the highest index written. *)
Fixpoint extent (w : writes) : Z :=
  match w with [] => 0 | (j, _) :: r => Z.max (j + 1) (extent r) end.

(** What reading an index should give: an all-zero header counts as missing. *)
Definition array_read (w : writes) (i : Z) : result bytes :=
  match newest w i with
  | Some raw => if list_eq_dec Z.eq_dec raw (repeat 0 80) then Err MissingHeader else Ok raw
  | None => Err MissingHeader
  end.
