(** int() on Pythons that limit the number of digits (3.11 and later, and security releases of earlier ones): a text
    with more than [limit] digits raises ValueError.  The default limit is 4300; it may be set to any number from 640.
    Without a limit the functions are those of Script.v and Bip32.v. *)
From Verif.Model Require Import Py Text Packing Script Bip32.

(** [int(word)] of an optional minus sign and digits; all digits count, also leading zeros. *)
Definition int_limited (limit : Z) (w : pystr) : result Z :=
  if limit <? zlen (filter is_digit w) then Err ValueError else Ok (int_of_word w).
(** script.py:469-486 [asm_word_to_bytes], on ASCII text; the call of int() in line 480 is outside the try. *)
Definition asm_word_limited (limit : Z) (word : pystr) : result bytes :=
  if starts_with word (txt "OP_") then
    match value_of word ops_members with
    | Some v => pack_byte v
    | None => Err ScriptError
    end
  else
    numeric <- (if isdigit word then Ok true
                else c <- pyindex word 0 ;; Ok ((c =? 45) && isdigit (slice_from word 1))) ;;
    let hex :=
      match from_hex word with
      | Ok b => push_item b
      | Err ValueError => Err ScriptError
      | Err e => Err e
      end in
    if (numeric : bool) then
      value <- int_limited limit word ;;
      if Z.abs value <=? 2147483647 then push_int value else hex
    else hex.
(** script.py:488-492 [from_asm] *)
Definition from_asm_limited (limit : Z) (asm : pystr) : result bytes :=
  parts <- mapM (asm_word_limited limit) (split_ws asm) ;; Ok (concat parts).

(** bip32.py:268-294 [bip32_decompose_chain_string] *)
Definition chain_part_limited (limit : Z) (part : pystr) : result Z :=
  match part_match part with
  | None => Err ValueError
  | Some ds =>
    value <- int_limited limit ds ;;
    if HARDENED <=? value then Err ValueError
    else l <- pyindex part (-1) ;; Ok (if l =? 39 then value + HARDENED else value)
  end.
Definition decompose_limited (limit : Z) (chain_str : pystr) : result (list Z) :=
  match split_on 47 chain_str with
  | [] => Err ValueError
  | m :: parts => if negb (bytes_eqb m (txt "m")) then Err ValueError else mapM (chain_part_limited limit) parts
  end.
