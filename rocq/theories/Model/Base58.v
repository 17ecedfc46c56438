(** Model of /repo/bitcoinx/base58.py. *)
From Verif.Model Require Import Py Text Misc.

(** base58.py:19-20 *)
Definition base58_chars : pystr := txt "123456789ABCDEFGHJKLMNPQRSTUVWXYZabcdefghijkmnopqrstuvwxyz".
(** [base58_cmap.get(c)]: position in the alphabet. *)
Fixpoint position (c : Z) (l : list Z) (n : Z) : option Z :=
  match l with [] => None | x :: r => if x =? c then Some n else position c r (n + 1) end.
Definition cvalue (c : Z) : option Z := position c base58_chars 0.

(** base58.py:36-41, the loop over the characters. *)
Fixpoint decode_value (value : Z) (s : pystr) : result Z :=
  match s with
  | [] => Ok value
  | c :: r => match cvalue c with
              | Some d => decode_value (value * 58 + d) r
              | None => Err Base58Error
              end
  end.
(** base58.py:45-50: the number of leading '1's. *)
Fixpoint leading (x : Z) (l : list Z) : Z :=
  match l with [] => 0 | c :: r => if c =? x then 1 + leading x r else 0 end.

(** base58.py:27-53 [base58_decode] (of a str) *)
Definition base58_decode (s : pystr) : result bytes :=
  match s with
  | [] => Err Base58Error
  | _ =>
    value <- decode_value 0 s ;;
    result <- int_to_be_bytes value None ;;
    Ok (zrepeat 0 (leading 49 s) ++ result)
  end.

(** base58.py:60-63: digits of value, least significant first; [fuel] bounds their number. *)
Fixpoint encode_digits (fuel : nat) (value : Z) : pystr :=
  match fuel with
  | O => []
  | S f => if value =? 0 then []
           else match znth base58_chars (value mod 58) with
                | Some c => c :: encode_digits f (value / 58)
                | None => [] (* cannot happen, 0 <= value mod 58 < 58 *)
                end
  end.
(** base58.py:56-71 [base58_encode] *)
Definition base58_encode (b : bytes) : pystr :=
  let value := be_int b in
  rev (encode_digits (S (Z.to_nat (Z.log2 value))) value ++ zrepeat 49 (leading 0 b)).

Section Check.
  Variable double_sha256 : bytes -> bytes.
  Variable sha256 : bytes -> bytes.

  (** base58.py:74-80 [base58_decode_check] *)
  Definition base58_decode_check (s : pystr) : result bytes :=
    b <- base58_decode s ;;
    let result := slice_to b (-4) in
    let check := slice_from b (-4) in
    if bytes_eqb check (slice_to (double_sha256 result) 4) then Ok result else Err Base58Error.

  (** base58.py:83-88 [base58_encode_check] *)
  Definition base58_encode_check (payload : bytes) : pystr :=
    base58_encode (payload ++ slice_to (double_sha256 payload) 4).

  (** base58.py:91-99 [is_minikey]; text is ASCII once all characters are base58, so encode() is the
      identity on its code points. *)
  Definition is_minikey (text : pystr) : result bool :=
    if (zlen text =? 22) || (zlen text =? 30) then
      c <- pyindex text 0 ;;
      if c =? 83 then
        if forallb (fun c => match cvalue c with Some _ => true | None => false end) text then
          h <- pyindex (sha256 (text ++ [63])) 0 ;; Ok (h =? 0)
        else Ok false
      else Ok false
    else Ok false.
End Check.
