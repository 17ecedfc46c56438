(** Property theorems C01-C03: packing. *)
From Verif.Model Require Import Py Packing.
From Verif.Spec Require Import Numbers.
From Verif.Proofs Require Import PackingFacts NumbersFacts.

Theorem C01_fixed_width :
  fixed_width_spec 4 (- 2 ^ 31) (2 ^ 31) val_signed_le pack_le_int32 unpack_le_int32 /\
  fixed_width_spec 8 (- 2 ^ 63) (2 ^ 63) val_signed_le pack_le_int64 unpack_le_int64 /\
  fixed_width_spec 2 0 (2 ^ 16) val_le pack_le_uint16 unpack_le_uint16 /\
  fixed_width_spec 4 0 (2 ^ 32) val_le pack_le_uint32 unpack_le_uint32 /\
  fixed_width_spec 8 0 (2 ^ 64) val_le pack_le_uint64 unpack_le_uint64 /\
  fixed_width_spec 2 0 (2 ^ 16) val_be pack_be_uint16 unpack_be_uint16 /\
  fixed_width_spec 4 0 (2 ^ 32) val_be pack_be_uint32 unpack_be_uint32 /\
  fixed_width_spec 8 0 (2 ^ 64) val_be pack_be_uint64 unpack_be_uint64 /\
  fixed_width_spec 1 0 256 val_le pack_byte unpack_byte.
Proof. exact all_fixed_width. Qed.
Print Assumptions C01_fixed_width.
Example C01_example : pack_le_int32 (-2) = Ok [254; 255; 255; 255] /\
  unpack_le_int32 [254; 255; 255; 255] = Ok (-2) /\ pack_be_uint16 258 = Ok [1; 2] /\
  pack_le_int32 (2 ^ 31) = Err StructError.
Proof. repeat split; vm_compute; reflexivity. Qed.

Theorem C02_varint_roundtrip : forall n rest, 0 <= n < 2 ^ 64 ->
  exists b, pack_varint n = Ok b /\ bytes_ok b = true /\ read_varint (b ++ rest) = Ok (n, rest)
    /\ varint_len n = Ok (zlen b).
Proof. exact varint_spec. Qed.
Print Assumptions C02_varint_roundtrip.
Example C02_example : pack_varint 515 = Ok [253; 3; 2] /\
  read_varint ([253; 3; 2] ++ [7; 8]) = Ok (515, [7; 8]) /\ varint_len 515 = Ok 3.
Proof. repeat split; vm_compute; reflexivity. Qed.

Theorem C02_varint_out_of_range : forall n, ~ (0 <= n < 2 ^ 64) ->
  varint_len n = Err ValueError /\ pack_varint n = Err StructError.
Proof. exact varint_len_err. Qed.
Print Assumptions C02_varint_out_of_range.

Theorem C02_varint_shortest : forall s n rest, bytes_ok s = true -> read_varint s = Ok (n, rest) ->
  0 <= n < 2 ^ 64 /\ exists c b, s = c ++ rest /\ pack_varint n = Ok b /\ zlen b <= zlen c /\
    (zlen b = zlen c -> b = c).
Proof. exact varint_shortest. Qed.
Print Assumptions C02_varint_shortest.
(** Longer encodings of the same number are accepted. *)
Example C02_not_unique : read_varint [253; 5; 0] = Ok (5, []) /\ pack_varint 5 = Ok [5].
Proof. split; vm_compute; reflexivity. Qed.

Theorem C03_varbytes : forall d rest, bytes_ok d = true -> zlen d < 2 ^ 63 ->
  exists b, pack_varbytes d = Ok b /\ bytes_ok b = true /\ read_varbytes (b ++ rest) = Ok (d, rest) /\
    forall p q, b = p ++ q -> q <> [] -> exists e, read_varbytes p = Err e.
Proof. exact varbytes_roundtrip. Qed.
Print Assumptions C03_varbytes.
Example C03_example : pack_varbytes [1; 2; 3] = Ok [3; 1; 2; 3] /\
  read_varbytes [3; 1; 2; 3; 9] = Ok ([1; 2; 3], [9]) /\ read_varbytes [3; 1; 2] = Err StructError.
Proof. repeat split; vm_compute; reflexivity. Qed.

Theorem C03_list : forall (A : Type) (pack_one : A -> result bytes) (read_one : reader A) (l : list A) rest,
  (forall x, In x l -> exists b, pack_one x = Ok b /\ forall s, read_one (b ++ s) = Ok (x, s)) ->
  zlen l < 2 ^ 64 ->
  exists b, pack_list l pack_one = Ok b /\ read_list read_one (b ++ rest) = Ok (l, rest).
Proof. exact @list_roundtrip. Qed.
Print Assumptions C03_list.
Example C03_list_example :
  pack_list [[1]; []; [2; 3]] pack_varbytes = Ok [3; 1; 1; 0; 2; 2; 3] /\
  read_list read_varbytes [3; 1; 1; 0; 2; 2; 3; 77] = Ok ([[1]; []; [2; 3]], [77]).
Proof. split; vm_compute; reflexivity. Qed.
