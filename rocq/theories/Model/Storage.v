(** Model of /repo/bitcoinx/chain.py:167-280 (_HeaderStorage) and /repo/bitcoinx/util.py:31-41
    (map_file).

    A file is a byte string; a path is an [option] of one.  The memory map is shared with the file, so
    the contents of [self.mmap] and of the file are one and the same.  Not modelled: the object after
    close(), disk-full and permission errors, a second process.  Power failure (pages not flushed, 279-280)
    is described in Spec/PowerSpec.v.
    Arguments are assumed to be of the documented type (int keys, bytes headers). *)
From Verif.Model Require Import Py Packing.

(** chain.py:49-53 [CheckPoint] *)
Record checkpoint := mk_checkpoint { cp_raw : bytes; cp_height : Z; cp_prev_work : Z }.

(** chain.py:43 *)
Definition empty_header : bytes := repeat 0 80.

(** File effects, in program order: what a crash can fall between. *)
Inductive effect :=
| Truncate (size : Z)             (* f.truncate(size): cut, or extend with zeros *)
| Write (off : Z) (data : bytes). (* write at an offset; past the end, zeros fill the gap *)

Definition apply_effect (f : bytes) (e : effect) : bytes :=
  match e with
  | Truncate size => ztake size f ++ zrepeat 0 (size - zlen f)
  | Write off data =>
    ztake off f ++ zrepeat 0 (off - zlen f) ++ data ++ zdrop (off + zlen data) f
  end.
Definition apply_effects (f : bytes) (es : list effect) : bytes := fold_left apply_effect es f.

(** [self.mmap] (as contents) and [self.reserved_size] *)
Record storage := mk_storage { st_file : bytes; st_reserved : Z }.

(** chain.py:191-192 [_offset] *)
Definition offset (st : storage) (key : Z) : Z := st_reserved st + key * 80.

(** chain.py:267-269 [__len__] *)
Definition storage_len (st : storage) : result Z := unpack_le_uint32 (pyslice (st_file st) 4 8).

(** chain.py:245-259 [__getitem__] with an integer key *)
Definition storage_header (st : storage) (index : Z) : result bytes :=
  let start := offset st index in
  let res := pyslice (st_file st) start (start + 80) in
  if (zlen res =? 0) || bytes_eqb res empty_header then Err MissingHeader else Ok res.
Definition storage_get (st : storage) (key : Z) : result bytes :=
  if key <? 0 then n <- storage_len st ;; storage_header st (key + n)
  else storage_header st key.

(** chain.py:257-258: [__getitem__] with a slice [a:b] *)
Definition storage_slice (st : storage) (a b : Z) : result (list bytes) :=
  n <- storage_len st ;; mapM (storage_header st) (zrange (slice_bound n a) (slice_bound n b)).

(** [mmap[a:b] = data]: IndexError unless the slice has the length of the data. *)
Definition mmap_assign (f : bytes) (a b : Z) (data : bytes) : result (list effect) :=
  let i := slice_bound (zlen f) a in
  let j := slice_bound (zlen f) b in
  if Z.max 0 (j - i) =? zlen data then Ok [Write i data] else Err IndexError.

(** chain.py:229-243 [_set_count], [_set_raw_header].  Returns the effects performed and how it
    ended; effects performed before an exception stay. *)
Definition set_raw_header (st : storage) (index : Z) (raw : bytes) : list effect * result unit :=
  if negb (zlen raw =? 80) then ([], Err TypeError)
  else
    let start := offset st index in
    let e1 := if zlen (st_file st) <=? start then [Truncate (offset st (index + 5000))] else [] in
    let f1 := apply_effects (st_file st) e1 in
    match unpack_le_uint32 (pyslice f1 4 8) with
    | Err e => (e1, Err e)
    | Ok n =>
      let count_part :=
        if n <=? index then c <- pack_le_uint32 (index + 1) ;; mmap_assign f1 4 8 c else Ok [] in
      match count_part with
      | Err e => (e1, Err e)
      | Ok e2 =>
        let f2 := apply_effects f1 e2 in
        match mmap_assign f2 start (start + 80) raw with
        | Err e => (e1 ++ e2, Err e)
        | Ok e3 => (e1 ++ e2 ++ e3, Ok tt)
        end
      end
    end.

Definition storage_after (st : storage) (es : list effect) : storage :=
  mk_storage (apply_effects (st_file st) es) (st_reserved st).

(** chain.py:261-265 [__setitem__] with an integer key *)
Definition storage_set (st : storage) (key : Z) (raw : bytes) : storage * result unit :=
  let '(es, r) := set_raw_header st key raw in (storage_after st es, r).

(** chain.py:271-274 [append] *)
Definition storage_append (st : storage) (raw : bytes) : storage * result Z :=
  match storage_len st with
  | Err e => (st, Err e)
  | Ok n => let '(es, r) := set_raw_header st n raw in
            (storage_after st es, _ <- r ;; Ok n)
  end.
(** The effects of [append], for crash analysis. *)
Definition append_effects (st : storage) (raw : bytes) : list effect :=
  match storage_len st with
  | Err _ => []
  | Ok n => fst (set_raw_header st n raw)
  end.

(** chain.py:194-200 [_create_file].  open(.., 'wb') empties the file; the buffered writer flushes on
    seek and on close. *)
Definition create_file (cp : checkpoint) : list effect * result unit :=
  let reserved :=
    a <- pack_le_uint16 8 ;; b <- pack_le_uint16 0 ;; c <- pack_le_uint32 (cp_height cp + 1) ;;
    Ok (a ++ b ++ c) in
  match reserved with
  | Err e => ([Truncate 0], Err e)
  | Ok r => let off := 8 + cp_height cp * 80 in
            if off <? 0 then ([Truncate 0; Write 0 r], Err ValueError)
            else ([Truncate 0; Write 0 r; Write off (cp_raw cp)], Ok tt)
  end.

(** chain.py:202-216 [_open_file] *)
Definition open_file (path : option bytes) (cp : checkpoint) : result storage :=
  match path with
  | None => Err FileNotFoundError
  | Some [] => Err ValueError (* mmap cannot map an empty file *)
  | Some f =>
    if 8 <=? zlen f then
      reserved <- unpack_le_uint16 (pyslice f 0 2) ;;
      version <- unpack_le_uint16 (pyslice f 2 4) ;;
      let st := mk_storage f reserved in
      if version =? 0 then
        raw <- storage_get st (cp_height cp) ;;
        if bytes_eqb raw (cp_raw cp) then Ok st else Err BadHeadersFile
      else Err BadHeadersFile
    else Err BadHeadersFile
  end.

(** chain.py:218-227 [open_or_create] *)
Definition open_or_create (path : option bytes) (cp : checkpoint) : option bytes * result storage :=
  match open_file path cp with
  | Ok st => (path, Ok st)
  | Err FileNotFoundError | Err BadHeadersFile | Err MissingHeader =>
    let '(es, r) := create_file cp in
    let f := apply_effects [] es in
    match r with
    | Err e => (Some f, Err e)
    | Ok _ => (Some f, open_file (Some f) cp)
    end
  | Err e => (path, Err e)
  end.
