(** Independent specification of number encodings. *)
From Verif.Model Require Import Py.

(** Value of a byte string read as a little-endian / big-endian number. *)
Definition val_le (b : bytes) : Z := fold_right (fun d acc => d + 256 * acc) 0 b.
Definition val_be (b : bytes) : Z := fold_left (fun acc d => 256 * acc + d) b 0.
(** Two's complement little-endian value. *)
Definition val_signed_le (b : bytes) : Z :=
  if val_le b <? 2 ^ (8 * zlen b - 1) then val_le b else val_le b - 2 ^ (8 * zlen b).

(** What a pair of fixed-width functions must do: succeed exactly on [lo, hi), produce exactly
    [width] bytes denoting the number, and be inverse to each other. *)
Definition fixed_width_spec (width lo hi : Z) (val : bytes -> Z)
  (pack : Z -> result bytes) (unpack : bytes -> result Z) : Prop :=
  (forall v, lo <= v < hi ->
     exists b, pack v = Ok b /\ bytes_ok b = true /\ zlen b = width /\ val b = v
               /\ unpack b = Ok v) /\
  (forall v, ~ (lo <= v < hi) -> pack v = Err StructError) /\
  (forall b, bytes_ok b = true -> zlen b = width ->
     unpack b = Ok (val b) /\ lo <= val b < hi /\ pack (val b) = Ok b) /\
  (forall b, zlen b <> width -> unpack b = Err StructError).
