(** Model of /repo/bitcoinx/script.py, except classification (Model/Address.v).

    A Script object is its bytes (script.py:320-321 [__init__], 338-344 [__len__] and [__bytes__], 437-439 [to_bytes]);
    461-467 [from_hex] and [to_hex] are those of bytes. *)
From Verif.Model Require Import Py Text Packing Misc Signature.

(** script.py:57-180, the members of Ops in order, aliases included. *)
Definition ops_members : list (pystr * Z) := [
  (txt "OP_0", 0); (txt "OP_FALSE", 0); (txt "OP_PUSHDATA1", 76); (txt "OP_PUSHDATA2", 77);
  (txt "OP_PUSHDATA4", 78); (txt "OP_1NEGATE", 79); (txt "OP_RESERVED", 80);
  (txt "OP_1", 81); (txt "OP_TRUE", 81); (txt "OP_2", 82); (txt "OP_3", 83); (txt "OP_4", 84);
  (txt "OP_5", 85); (txt "OP_6", 86); (txt "OP_7", 87); (txt "OP_8", 88); (txt "OP_9", 89);
  (txt "OP_10", 90); (txt "OP_11", 91); (txt "OP_12", 92); (txt "OP_13", 93); (txt "OP_14", 94);
  (txt "OP_15", 95); (txt "OP_16", 96);
  (txt "OP_NOP", 97); (txt "OP_VER", 98); (txt "OP_IF", 99); (txt "OP_NOTIF", 100);
  (txt "OP_VERIF", 101); (txt "OP_VERNOTIF", 102); (txt "OP_ELSE", 103); (txt "OP_ENDIF", 104);
  (txt "OP_VERIFY", 105); (txt "OP_RETURN", 106);
  (txt "OP_TOALTSTACK", 107); (txt "OP_FROMALTSTACK", 108); (txt "OP_2DROP", 109);
  (txt "OP_2DUP", 110); (txt "OP_3DUP", 111); (txt "OP_2OVER", 112); (txt "OP_2ROT", 113);
  (txt "OP_2SWAP", 114); (txt "OP_IFDUP", 115); (txt "OP_DEPTH", 116); (txt "OP_DROP", 117);
  (txt "OP_DUP", 118); (txt "OP_NIP", 119); (txt "OP_OVER", 120); (txt "OP_PICK", 121);
  (txt "OP_ROLL", 122); (txt "OP_ROT", 123); (txt "OP_SWAP", 124); (txt "OP_TUCK", 125);
  (txt "OP_CAT", 126); (txt "OP_SPLIT", 127); (txt "OP_NUM2BIN", 128); (txt "OP_BIN2NUM", 129);
  (txt "OP_SIZE", 130);
  (txt "OP_INVERT", 131); (txt "OP_AND", 132); (txt "OP_OR", 133); (txt "OP_XOR", 134);
  (txt "OP_EQUAL", 135); (txt "OP_EQUALVERIFY", 136); (txt "OP_RESERVED1", 137);
  (txt "OP_RESERVED2", 138);
  (txt "OP_1ADD", 139); (txt "OP_1SUB", 140); (txt "OP_2MUL", 141); (txt "OP_2DIV", 142);
  (txt "OP_NEGATE", 143); (txt "OP_ABS", 144); (txt "OP_NOT", 145); (txt "OP_0NOTEQUAL", 146);
  (txt "OP_ADD", 147); (txt "OP_SUB", 148); (txt "OP_MUL", 149); (txt "OP_DIV", 150);
  (txt "OP_MOD", 151); (txt "OP_LSHIFT", 152); (txt "OP_RSHIFT", 153);
  (txt "OP_BOOLAND", 154); (txt "OP_BOOLOR", 155); (txt "OP_NUMEQUAL", 156);
  (txt "OP_NUMEQUALVERIFY", 157); (txt "OP_NUMNOTEQUAL", 158); (txt "OP_LESSTHAN", 159);
  (txt "OP_GREATERTHAN", 160); (txt "OP_LESSTHANOREQUAL", 161); (txt "OP_GREATERTHANOREQUAL", 162);
  (txt "OP_MIN", 163); (txt "OP_MAX", 164); (txt "OP_WITHIN", 165);
  (txt "OP_RIPEMD160", 166); (txt "OP_SHA1", 167); (txt "OP_SHA256", 168); (txt "OP_HASH160", 169);
  (txt "OP_HASH256", 170); (txt "OP_CODESEPARATOR", 171); (txt "OP_CHECKSIG", 172);
  (txt "OP_CHECKSIGVERIFY", 173); (txt "OP_CHECKMULTISIG", 174); (txt "OP_CHECKMULTISIGVERIFY", 175);
  (txt "OP_NOP1", 176); (txt "OP_CHECKLOCKTIMEVERIFY", 177); (txt "OP_NOP2", 177);
  (txt "OP_CHECKSEQUENCEVERIFY", 178); (txt "OP_NOP3", 178); (txt "OP_NOP4", 179);
  (txt "OP_NOP5", 180); (txt "OP_NOP6", 181); (txt "OP_NOP7", 182); (txt "OP_NOP8", 183);
  (txt "OP_NOP9", 184); (txt "OP_NOP10", 185)].

Definition OP_0 := 0.
Definition OP_PUSHDATA1 := 76.
Definition OP_PUSHDATA2 := 77.
Definition OP_PUSHDATA4 := 78.
Definition OP_1NEGATE := 79.
Definition OP_RESERVED := 80.
Definition OP_1 := 81.
Definition OP_16 := 96.
Definition OP_NOP := 97.
Definition OP_RETURN := 106.
Definition OP_2DROP := 109.
Definition OP_DROP := 117.
Definition OP_DUP := 118.
Definition OP_EQUAL := 135.
Definition OP_EQUALVERIFY := 136.
Definition OP_HASH160 := 169.
Definition OP_CHECKSIG := 172.
Definition OP_CHECKMULTISIG := 174.

(** [Ops(value).name] (the first member with the value) and [Ops[name]]. *)
Fixpoint name_of (v : Z) (l : list (pystr * Z)) : option pystr :=
  match l with [] => None | (n, w) :: r => if w =? v then Some n else name_of v r end.
Fixpoint value_of (n : pystr) (l : list (pystr * Z)) : option Z :=
  match l with [] => None | (m, v) :: r => if bytes_eqb n m then Some v else value_of n r end.

(** script.py:196-215 [push_item] *)
Definition push_item (item : bytes) : result bytes :=
  let dlen := zlen item in
  let plain :=
    if dlen <? OP_PUSHDATA1 then b <- pack_byte dlen ;; Ok (b ++ item)
    else if dlen <=? 255 then a <- pack_byte OP_PUSHDATA1 ;; b <- pack_byte dlen ;; Ok (a ++ b ++ item)
    else if dlen <=? 65535 then a <- pack_byte OP_PUSHDATA2 ;; b <- pack_le_uint16 dlen ;; Ok (a ++ b ++ item)
    else a <- pack_byte OP_PUSHDATA4 ;; b <- pack_le_uint32 dlen ;; Ok (a ++ b ++ item) in
  match item with
  | [] => Ok [OP_0]
  | [value] =>
    if (0 <? value) && (value <=? 16) then pack_byte (OP_1 + value - 1)
    else if value =? 129 then Ok [OP_1NEGATE]
    else plain
  | _ => plain
  end.

(** script.py:218-220 [push_and_drop_item] *)
Definition push_and_drop_item (item : bytes) : result bytes :=
  p <- push_item item ;; Ok (p ++ [OP_DROP]).
(** script.py:223-230 [push_and_drop_items] *)
Definition push_and_drop_items (items : list bytes) : result bytes :=
  parts <- mapM push_item items ;;
  let parts1 := if 2 <=? zlen items then parts ++ [zrepeat OP_2DROP (zlen parts / 2)] else parts in
  let parts2 := if Z.land (zlen items) 1 =? 0 then parts1 else parts1 ++ [[OP_DROP]] in
  Ok (concat parts2).

(** script.py:233-244 [push_int] *)
Definition push_int (value : Z) : result bytes :=
  if value =? 0 then Ok [OP_0]
  else
    item <- int_to_le_bytes (Z.abs value) None ;;
    last <- pyindex item (-1) ;;
    item' <- (if negb (Z.land last 128 =? 0) then
                b <- pack_byte (if value <? 0 then 128 else 0) ;; Ok (item ++ b)
              else if value <? 0 then
                b <- pack_byte (Z.lor last 128) ;; Ok (slice_to item (-1) ++ b)
              else Ok item) ;;
    push_item item'.

(** script.py:247-253 [item_to_int] *)
Definition item_to_int (item : bytes) : result Z :=
  match item with
  | [] => Ok 0
  | _ =>
    last <- pyindex item (-1) ;;
    if negb (Z.land last 128 =? 0) then
      b <- pack_byte (Z.land last 127) ;; Ok (- le_bytes_to_int (slice_to item (-1) ++ b))
    else Ok (le_bytes_to_int item)
  end.

(** What can be appended to a script: an Ops member, bytes, an int (not an Ops), a Script, anything
    else. *)
Inductive appendable := IOp (c : Z) | IBytes (b : bytes) | IInt (v : Z) | IScript (s : bytes) | IOther.
(** script.py:256-266 [_to_bytes] *)
Definition item_bytes (item : appendable) : result bytes :=
  match item with
  | IOp c => pack_byte c
  | IBytes b => push_item b
  | IInt v => push_int v
  | IScript s => Ok s
  | IOther => Err TypeError
  end.
(** script.py:323-330 [__lshift__] and 332-337 [push_many] *)
Definition lshift (script : bytes) (item : appendable) : result bytes :=
  b <- item_bytes item ;; Ok (script ++ b).
Definition push_many (script : bytes) (items : list appendable) : result bytes :=
  parts <- mapM item_bytes items ;; Ok (script ++ concat parts).

(** What ops() yields: an opcode (int) or pushed data (bytes). *)
Inductive op := Code (c : Z) | Data (d : bytes).

(** script.py:359-399, one round of the loop.  [s] is script[n:], not empty; [None]: raise
    TruncatedScriptError.  Slices at n of the script are slices at 0 of [s]. *)
Definition next_op (s : bytes) : option (op * bytes) :=
  match s with
  | [] => None
  | c :: r =>
    if OP_16 <? c then Some (Code c, r)
    else if c <=? OP_PUSHDATA4 then
      match (if c <? OP_PUSHDATA1 then Ok (c, r)
             else if c =? OP_PUSHDATA1 then n <- pyindex r 0 ;; Ok (n, slice_from r 1)
             else if c =? OP_PUSHDATA2 then n <- unpack_le_uint16 (slice_to r 2) ;; Ok (n, slice_from r 2)
             else n <- unpack_le_uint32 (slice_to r 4) ;; Ok (n, slice_from r 4)) with
      | Err _ => None
      | Ok (dlen, r') =>
        let data := slice_to r' dlen in
        if zlen data =? dlen then Some (Data data, slice_from r' dlen) else None
      end
    else if OP_1 <=? c then Some (Data [c - OP_1 + 1], r)
    else if c =? OP_1NEGATE then Some (Data [129], r)
    else Some (Code c, r)
  end.
(** The operations yielded, and whether TruncatedScriptError is raised after them; [fuel] bounds their
    number. *)
Fixpoint ops_loop (fuel : nat) (s : bytes) : list op * bool :=
  match s with
  | [] => ([], false)
  | _ => match fuel with
         | O => ([], true)
         | S f => match next_op s with
                  | None => ([], true)
                  | Some (o, r) => let '(l, t) := ops_loop f r in (o :: l, t)
                  end
         end
  end.
Definition script_ops (s : bytes) : list op * bool := ops_loop (length s) s.

Section Asm.
  Variable der_ok : bytes -> bool.

  (** script.py:401-423 [op_to_asm_word] *)
  Definition op_to_asm_word (o : op) (decode_sighash : bool) : result pystr :=
    match o with
    | Data d =>
      if zlen d <=? 4 then v <- item_to_int d ;; Ok (str_of_int v)
      else
        b0 <- pyindex d 0 ;;
        if decode_sighash && (b0 =? 48) && (9 <=? zlen d) && (zlen d <=? 73) then
          match make_signature der_ok d with
          | Ok raw => signature_to_string raw
          | Err InvalidSignatureError => Ok (to_hex d)
          | Err e => Err e
          end
        else Ok (to_hex d)
    | Code c =>
      match name_of c ops_members with
      | Some n => Ok n
      | None => Ok (if c =? 255 then txt "OP_INVALIDOPCODE" else txt "OP_UNKNOWN")
      end
    end.
  (** script.py:425-435 [to_asm] *)
  Definition to_asm (s : bytes) (decode_sighash : bool) : result pystr :=
    let '(l, truncated) := script_ops s in
    words <- mapM (fun o => op_to_asm_word o decode_sighash) l ;;
    if truncated then Ok (txt "[error]") else Ok (join [32] words).
End Asm.

(** [word.isdigit()] on ASCII text. *)
Definition isdigit (w : pystr) : bool := match w with [] => false | _ => forallb is_digit w end.
(** [int(word)] of what passes the test in asm_word_to_bytes (a limit on the number of digits:
    IntLimit.v). *)
Definition int_of_word (w : pystr) : Z :=
  match w with
  | c :: r => if c =? 45 then - dec_value r else dec_value w
  | [] => 0
  end.
(** script.py:469-486 [asm_word_to_bytes], on ASCII text. *)
Definition asm_word_to_bytes (word : pystr) : result bytes :=
  if starts_with word (txt "OP_") then
    match value_of word ops_members with
    | Some v => pack_byte v
    | None => Err ScriptError
    end
  else
    numeric <- (if isdigit word then Ok true
                else c <- pyindex word 0 ;; Ok ((c =? 45) && isdigit (slice_from word 1))) ;;
    let hex :=
      match from_hex word with
      | Ok b => push_item b
      | Err ValueError => Err ScriptError
      | Err e => Err e
      end in
    if (numeric : bool) then
      let value := int_of_word word in
      if Z.abs value <=? 2147483647 then push_int value else hex
    else hex.
(** script.py:488-492 [from_asm] *)
Definition from_asm (asm : pystr) : result bytes :=
  parts <- mapM asm_word_to_bytes (split_ws asm) ;; Ok (concat parts).

(** script.py:494-526 [_stripped_ops]; the result list is kept reversed. *)
Definition strip_step (result : list op) (o : op) : list op :=
  match o with
  | Code c =>
    if c =? OP_NOP then result
    else if c =? OP_DROP then
      match result with Data _ :: r => r | _ => o :: result end
    else if c =? OP_2DROP then
      match result with Data _ :: Data _ :: r => r | _ => o :: result end
    else o :: result
  | Data _ => o :: result
  end.
Definition stripped_ops (s : bytes) : list op :=
  let '(l, truncated) := script_ops s in
  let result := fold_left strip_step l [] in
  rev (if truncated then Code OP_0 :: result else result).

(** script.py:528-541 [to_template] *)
Definition template_byte (o : op) : Z := match o with Data _ => OP_PUSHDATA1 | Code c => c end.
Definition template_items (l : list op) : list bytes :=
  concat (map (fun o => match o with Data d => [d] | Code _ => [] end) l).
Definition to_template (s : bytes) : bytes * list bytes :=
  let l := stripped_ops s in (map template_byte l, template_items l).
