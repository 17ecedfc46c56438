(** The fragment of Python that the modelled code uses: bytes, text, exceptions as
    values, slices, integer/bytes conversion.

    Nothing here models a particular file of /repo; it models Python built-ins as documented. *)
From Coq Require Export ZArith List Bool Lia.
Export ListNotations.
#[global] Open Scope Z_scope.

(** A byte string: each element is meant to be in 0..255, see [bytes_ok]. *)
Definition bytes := list Z.
(** A str: the list of its code points. *)
Definition pystr := list Z.

Definition byte_ok (b : Z) : bool := (0 <=? b) && (b <? 256).
Definition bytes_ok (l : bytes) : bool := forallb byte_ok l.

(** The exception classes that the modelled code can raise. *)
Inductive exn :=
| ValueError | TypeError | IndexError | KeyError | AttributeError | OverflowError
| ZeroDivisionError | StructError (* struct.error *) | StopIteration
| SyntaxError | Base58Error | DecryptionError | DerivationError | BadPaddingError | BadWords
| ScriptError | TruncatedScriptError | InvalidSignatureError | BinasciiError (* binascii.Error *)
| MissingHeader | IncorrectBits | InsufficientPoW
| BadHeadersFile | FileNotFoundError | RuntimeError | RecursionError (* a subclass of RuntimeError *) | AssertionError
| PlainException (* an instance of Exception itself *)
| OutOfFuel (* not a Python exception: a bounded loop of the model ran out; proved never to happen *).

Inductive result (A : Type) := Ok (a : A) | Err (e : exn).
Arguments Ok {A} a.
Arguments Err {A} e.

Definition bind {A B} (r : result A) (f : A -> result B) : result B :=
  match r with Ok a => f a | Err e => Err e end.

Declare Scope py_scope.
Delimit Scope py_scope with py.
#[global] Open Scope py_scope.
Notation "x <- r ;; k" := (bind r (fun x => k))
  (at level 61, r at next level, right associativity) : py_scope.
Notation "' p <- r ;; k" := (bind r (fun x => match x with p => k end))
  (at level 61, p pattern, r at next level, right associativity) : py_scope.

Definition is_ok {A} (r : result A) : bool := match r with Ok _ => true | Err _ => false end.

(** Run [f] over a list, left to right, stopping at the first exception. *)
Fixpoint mapM {A B} (f : A -> result B) (l : list A) : result (list B) :=
  match l with
  | [] => Ok []
  | x :: r => y <- f x ;; ys <- mapM f r ;; Ok (y :: ys)
  end.

(** [len(l)] *)
Definition zlen {A} (l : list A) : Z := Z.of_nat (length l).

(** The first [n] elements / all but the first [n], for an integer [n]. *)
Fixpoint ztake {A} (n : Z) (l : list A) : list A :=
  match l with
  | [] => []
  | x :: r => if n <=? 0 then [] else x :: ztake (n - 1) r
  end.
Fixpoint zdrop {A} (n : Z) (l : list A) : list A :=
  match l with
  | [] => []
  | x :: r => if n <=? 0 then l else zdrop (n - 1) r
  end.

(** Adjust a slice bound: negative bounds count from the end, then clamp to [0, len]. *)
Definition slice_bound (len i : Z) : Z :=
  if i <? 0 then Z.max 0 (i + len) else Z.min i len.
(** [l[i:j]] *)
Definition pyslice {A} (l : list A) (i j : Z) : list A :=
  let n := zlen l in
  let i := slice_bound n i in
  let j := slice_bound n j in
  ztake (j - i) (zdrop i l).
(** [l[i:]] and [l[:j]] *)
Definition slice_from {A} (l : list A) (i : Z) : list A :=
  zdrop (slice_bound (zlen l) i) l.
Definition slice_to {A} (l : list A) (j : Z) : list A :=
  ztake (slice_bound (zlen l) j) l.

(** Element at a nonnegative integer position, if any. *)
Fixpoint znth {A} (l : list A) (i : Z) : option A :=
  match l with
  | [] => None
  | x :: r => if i =? 0 then Some x else if i <? 0 then None else znth r (i - 1)
  end.
(** [l[i]] *)
Definition pyindex {A} (l : list A) (i : Z) : result A :=
  match znth l (if i <? 0 then i + zlen l else i) with
  | Some x => Ok x
  | None => Err IndexError
  end.

(** [range(a, b)] as a list. *)
Fixpoint zrange_nat (a : Z) (n : nat) : list Z :=
  match n with O => [] | S m => a :: zrange_nat (a + 1) m end.
Definition zrange (a b : Z) : list Z := zrange_nat a (Z.to_nat (b - a)).

(** [b * n] for a sequence. *)
Definition zrepeat {A} (x : A) (n : Z) : list A := repeat x (Z.to_nat n).

(** [int.from_bytes(b, 'little')] and ['big']. *)
Fixpoint le_int (b : bytes) : Z :=
  match b with [] => 0 | x :: r => x + 256 * le_int r end.
Definition be_int (b : bytes) : Z := le_int (rev b).

(** The [n] low base-256 digits of [v], least significant first. *)
Fixpoint le_digits (n : nat) (v : Z) : bytes :=
  match n with O => [] | S m => v mod 256 :: le_digits m (v / 256) end.

(** [v.to_bytes(n, 'little')]: OverflowError if negative or too big. (A negative size is a
    ValueError in Python.) *)
Definition to_bytes_le (v n : Z) : result bytes :=
  if n <? 0 then Err ValueError
  else if (v <? 0) || (2 ^ (8 * n) <=? v) then Err OverflowError
  else Ok (le_digits (Z.to_nat n) v).
Definition to_bytes_be (v n : Z) : result bytes :=
  b <- to_bytes_le v n ;; Ok (rev b).

(** [v.bit_length()] *)
Definition bit_length (v : Z) : Z := if v =? 0 then 0 else Z.log2 (Z.abs v) + 1.

(** Equality of byte strings / strings. *)
Fixpoint bytes_eqb (a b : list Z) : bool :=
  match a, b with
  | [], [] => true
  | x :: a', y :: b' => (x =? y) && bytes_eqb a' b'
  | _, _ => false
  end.

(** [a.startswith(b)] *)
Fixpoint starts_with (a b : list Z) : bool :=
  match b, a with
  | [], _ => true
  | y :: b', x :: a' => (x =? y) && starts_with a' b'
  | _ :: _, [] => false
  end.

(** Hex digits.  [bytes.hex()] writes lower case; [bytes.fromhex] accepts both cases. *)
Definition hex_char (d : Z) : Z := if d <? 10 then 48 + d else 87 + d.
Definition hex_val (c : Z) : option Z :=
  if (48 <=? c) && (c <=? 57) then Some (c - 48)
  else if (97 <=? c) && (c <=? 102) then Some (c - 87)
  else if (65 <=? c) && (c <=? 70) then Some (c - 55)
  else None.
Fixpoint to_hex (b : bytes) : pystr :=
  match b with [] => [] | x :: r => hex_char (x / 16) :: hex_char (x mod 16) :: to_hex r end.

(** ASCII whitespace as [bytes.fromhex] and [str.split] see it (the str methods also know
    non-ASCII white space and 0x1c-0x1f, see [is_space_str]). *)
Definition is_space (c : Z) : bool := ((9 <=? c) && (c <=? 13)) || (c =? 32).

(** [bytes.fromhex(s)]: white space is skipped between bytes, ValueError on anything else that is
    not a pair of hex digits. *)
Fixpoint from_hex (s : pystr) : result bytes :=
  match s with
  | [] => Ok []
  | c :: r =>
    if is_space c then from_hex r
    else match r with
         | [] => Err ValueError
         | d :: r' =>
           match hex_val c, hex_val d with
           | Some x, Some y => b <- from_hex r' ;; Ok (16 * x + y :: b)
           | _, _ => Err ValueError
           end
         end
  end.

(** Lower and upper case of ASCII text. *)
Definition lower_char (c : Z) : Z := if (65 <=? c) && (c <=? 90) then c + 32 else c.
Definition upper_char (c : Z) : Z := if (97 <=? c) && (c <=? 122) then c - 32 else c.
Definition lower (s : pystr) : pystr := map lower_char s.
Definition upper (s : pystr) : pystr := map upper_char s.

(** [str.split()] white space, [str.isspace]: the ASCII white space, the separators 0x1c to 0x1f and the
    non-ASCII white space. *)
Definition is_space_str (c : Z) : bool :=
  is_space c || ((28 <=? c) && (c <=? 31)) || (c =? 0x85) || (c =? 0xa0) || (c =? 0x1680) || ((0x2000 <=? c) && (c <=? 0x200a))
  || (c =? 0x2028) || (c =? 0x2029) || (c =? 0x202f) || (c =? 0x205f) || (c =? 0x3000).

(** [s.split()]: maximal runs of non-space characters; [cur] is the current run, reversed. *)
Fixpoint split_ws_aux (cur : pystr) (s : pystr) : list pystr :=
  match s with
  | [] => match cur with [] => [] | _ => [rev cur] end
  | c :: r =>
    if is_space_str c
    then match cur with [] => split_ws_aux [] r | _ => rev cur :: split_ws_aux [] r end
    else split_ws_aux (c :: cur) r
  end.
Definition split_ws (s : pystr) : list pystr := split_ws_aux [] s.

(** [s.split(sep)] for a one-character separator. *)
Fixpoint split_on_aux (sep : Z) (cur : pystr) (s : pystr) : list pystr :=
  match s with
  | [] => [rev cur]
  | c :: r => if c =? sep then rev cur :: split_on_aux sep [] r
              else split_on_aux sep (c :: cur) r
  end.
Definition split_on (sep : Z) (s : pystr) : list pystr := split_on_aux sep [] s.

(** [sep.join(l)] *)
Fixpoint join (sep : pystr) (l : list pystr) : pystr :=
  match l with
  | [] => []
  | [x] => x
  | x :: r => x ++ sep ++ join sep r
  end.

(** Decimal text of a natural number: [str(n)], least significant digit first in the
    accumulator; [fuel] bounds the number of digits. *)
Fixpoint dec_digits (fuel : nat) (n : Z) (acc : pystr) : pystr :=
  match fuel with
  | O => acc
  | S f => let acc' := 48 + n mod 10 :: acc in
           if n / 10 =? 0 then acc' else dec_digits f (n / 10) acc'
  end.
Definition str_of_nonneg (n : Z) : pystr := dec_digits (Z.to_nat (Z.log2 n + 1)) n [].
Definition str_of_int (n : Z) : pystr :=
  if n <? 0 then 45 :: str_of_nonneg (- n) else str_of_nonneg n.

Definition is_digit (c : Z) : bool := (48 <=? c) && (c <=? 57).
(** Value of a string of decimal digits. *)
Definition dec_value (s : pystr) : Z := fold_left (fun a c => 10 * a + (c - 48)) s 0.
