(** Model of /repo/bitcoinx/packing.py. *)
From Verif.Model Require Import Py.

(** Fixed-width integers, packing.py:47-95: struct formats [<i <q <H <I <Q >H >I >Q B].
    [struct.pack] raises struct.error when the value does not fit; [struct.unpack] raises
    struct.error unless the buffer has exactly the right length. *)
Definition pack_uint_le (n : nat) (v : Z) : result bytes :=
  if (v <? 0) || (2 ^ (8 * Z.of_nat n) <=? v) then Err StructError else Ok (le_digits n v).
Definition unpack_uint_le (n : nat) (b : bytes) : result Z :=
  if zlen b =? Z.of_nat n then Ok (le_int b) else Err StructError.

(** Signed: two's complement. *)
Definition pack_int_le (n : nat) (v : Z) : result bytes :=
  let h := 2 ^ (8 * Z.of_nat n - 1) in
  if (v <? - h) || (h <=? v) then Err StructError else Ok (le_digits n (v mod (2 * h))).
Definition unpack_int_le (n : nat) (b : bytes) : result Z :=
  let h := 2 ^ (8 * Z.of_nat n - 1) in
  if zlen b =? Z.of_nat n
  then let v := le_int b in Ok (if h <=? v then v - 2 * h else v)
  else Err StructError.

(** Big-endian formats. *)
Definition pack_uint_be (n : nat) (v : Z) : result bytes := b <- pack_uint_le n v ;; Ok (rev b).
Definition unpack_uint_be (n : nat) (b : bytes) : result Z := unpack_uint_le n (rev b).

(** packing.py:62-70 *)
Definition pack_le_int32 := pack_int_le 4.
Definition pack_le_int64 := pack_int_le 8.
Definition pack_le_uint16 := pack_uint_le 2.
Definition pack_le_uint32 := pack_uint_le 4.
Definition pack_le_uint64 := pack_uint_le 8.
Definition pack_be_uint16 := pack_uint_be 2.
Definition pack_be_uint32 := pack_uint_be 4.
Definition pack_be_uint64 := pack_uint_be 8.
Definition pack_byte := pack_uint_le 1.
(** packing.py:72-88 *)
Definition unpack_le_int32 := unpack_int_le 4.
Definition unpack_le_int64 := unpack_int_le 8.
Definition unpack_le_uint16 := unpack_uint_le 2.
Definition unpack_le_uint32 := unpack_uint_le 4.
Definition unpack_le_uint64 := unpack_uint_le 8.
Definition unpack_be_uint16 := unpack_uint_be 2.
Definition unpack_be_uint32 := unpack_uint_be 4.
Definition unpack_be_uint64 := unpack_uint_be 8.
Definition unpack_byte := unpack_uint_le 1.

(** packing.py:96-108 [varint_len] *)
Definition varint_len (n : Z) : result Z :=
  if 0 <=? n then
    if n <? 253 then Ok 1
    else if n <? 65536 then Ok 3
    else if n <? 4294967296 then Ok 5
    else if n <=? 18446744073709551615 then Ok 9
    else Err ValueError
  else Err ValueError.

(** packing.py:111-121 [pack_varint] *)
Definition pack_varint (n : Z) : result bytes :=
  if n <? 253 then pack_byte n
  else if n <? 65536 then b <- pack_le_uint16 n ;; Ok (253 :: b)
  else if n <? 4294967296 then b <- pack_le_uint32 n ;; Ok (254 :: b)
  else b <- pack_le_uint64 n ;; Ok (255 :: b).

(** packing.py:124-126 [pack_varbytes] *)
Definition pack_varbytes (data : bytes) : result bytes :=
  p <- pack_varint (zlen data) ;; Ok (p ++ data).

(** packing.py:129-135 [pack_list]; [pack_one] may raise. *)
Definition pack_list {A} (items : list A) (pack_one : A -> result bytes) : result bytes :=
  p <- pack_varint (zlen items) ;;
  parts <- mapM pack_one items ;;
  Ok (concat (p :: parts)).

(** A reader: [io.BytesIO] as the bytes not read yet.  A reading function returns its
    value and the new position. *)
Definition reader (A : Type) := bytes -> result (A * bytes).

(** [BytesIO.read(n)] for n >= 0: at most n bytes; OverflowError if n is no ssize_t. *)
Definition read (n : Z) : reader bytes := fun s =>
  if 2 ^ 63 <=? n then Err OverflowError else Ok (ztake n s, zdrop n s).

(** packing.py:141-178: [read_le_int32] etc.: read exactly the width and unpack. *)
Definition read_fixed (n : nat) (unpack : bytes -> result Z) : reader Z := fun s =>
  '(b, s) <- read (Z.of_nat n) s ;; v <- unpack b ;; Ok (v, s).
Definition read_le_int32 := read_fixed 4 unpack_le_int32.
Definition read_le_int64 := read_fixed 8 unpack_le_int64.
Definition read_le_uint16 := read_fixed 2 unpack_le_uint16.
Definition read_le_uint32 := read_fixed 4 unpack_le_uint32.
Definition read_le_uint64 := read_fixed 8 unpack_le_uint64.
Definition read_be_uint16 := read_fixed 2 unpack_be_uint16.
Definition read_be_uint32 := read_fixed 4 unpack_be_uint32.
Definition read_be_uint64 := read_fixed 8 unpack_be_uint64.

(** packing.py:181-190 [read_varint] *)
Definition read_varint : reader Z := fun s =>
  '(n, s) <- read_fixed 1 unpack_byte s ;;
  if n <? 253 then Ok (n, s)
  else if n =? 253 then read_le_uint16 s
  else if n =? 254 then read_le_uint32 s
  else read_le_uint64 s.

(** packing.py:193-198 [read_varbytes] *)
Definition read_varbytes : reader bytes := fun s =>
  '(n, s) <- read_varint s ;;
  '(b, s) <- read n s ;;
  if zlen b =? n then Ok (b, s) else Err StructError.

(** [[read_one(read) for _ in range(n)]], for a positive n: the first half and the second
    half of the items (so that the definition computes when n is huge and the stream is short). *)
Fixpoint read_pos {A} (read_one : reader A) (n : positive) : reader (list A) := fun s =>
  match n with
  | xH => '(x, s) <- read_one s ;; Ok ([x], s)
  | xO p => '(a, s) <- read_pos read_one p s ;;
            '(b, s) <- read_pos read_one p s ;; Ok (a ++ b, s)
  | xI p => '(x, s) <- read_one s ;;
            '(a, s) <- read_pos read_one p s ;;
            '(b, s) <- read_pos read_one p s ;; Ok (x :: a ++ b, s)
  end.
Definition read_count {A} (read_one : reader A) (n : Z) : reader (list A) := fun s =>
  match n with Zpos p => read_pos read_one p s | _ => Ok ([], s) end.

(** packing.py:201-206 [read_list] *)
Definition read_list {A} (read_one : reader A) : reader (list A) := fun s =>
  '(n, s) <- read_varint s ;; read_count read_one n s.
