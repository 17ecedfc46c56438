(** Model of /repo/bitcoinx/misc.py and the parts of hashes.py that are not hash functions. *)
From Verif.Model Require Import Py.

(** misc.py:43-44 *)
Definition be_bytes_to_int (b : bytes) : Z := be_int b.
Definition le_bytes_to_int (b : bytes) : Z := le_int b.

(** misc.py:47-51 [int_to_be_bytes]; [None] is size=None. *)
Definition int_to_be_bytes (value : Z) (size : option Z) : result bytes :=
  to_bytes_be value (match size with Some n => n | None => (bit_length value + 7) / 8 end).
(** misc.py:54-58 [int_to_le_bytes] *)
Definition int_to_le_bytes (value : Z) (size : option Z) : result bytes :=
  to_bytes_le value (match size with Some n => n | None => (bit_length value + 7) / 8 end).

(** misc.py:61-64 [chunks], all of them as a list; [fuel] bounds their number.  range raises ValueError if
    the step is zero and is empty if it is negative. *)
Fixpoint chunks_from {A} (fuel : nat) (items : list A) (size i : Z) : list (list A) :=
  match fuel with
  | O => []
  | S f => if i <? zlen items then pyslice items i (i + size) :: chunks_from f items size (i + size)
           else []
  end.
Definition chunks {A} (items : list A) (size : Z) : result (list (list A)) :=
  if size =? 0 then Err ValueError
  else if size <? 0 then Ok []
  else Ok (chunks_from (length items) items size 0).

(** hashes.py:80-85 [hash_to_hex_str] *)
Definition hash_to_hex_str (x : bytes) : pystr := to_hex (rev x).
(** hashes.py:88-92 [hash_to_value] *)
Definition hash_to_value (x : bytes) : Z := le_int x.
(** hashes.py:95-97 [hex_str_to_hash] *)
Definition hex_str_to_hash (x : pystr) : result bytes := b <- from_hex x ;; Ok (rev b).
