(** Model of /repo/bitcoinx/cashaddr.py, on ASCII text. *)
From Verif.Model Require Import Py Text.

(** cashaddr.py:22 *)
Definition charset : pystr := txt "qpzry9x8gf2tvdw0s3jn54khce6mua7l".
(** [_CHARSET.find(x)] *)
Fixpoint find_char (x : Z) (l : pystr) (n : Z) : Z :=
  match l with [] => -1 | c :: r => if c =? x then n else find_char x r (n + 1) end.

(** cashaddr.py:29-40, one round of the loop of [_polymod] *)
Definition polymod_step (c d : Z) : Z :=
  let c0 := Z.shiftr c 35 in
  let c := Z.lxor (Z.shiftl (Z.land c 0x07ffffffff) 5) d in
  let c := if Z.land c0 1 =? 0 then c else Z.lxor c 0x98f2bc8e61 in
  let c := if Z.land c0 2 =? 0 then c else Z.lxor c 0x79b76d99e2 in
  let c := if Z.land c0 4 =? 0 then c else Z.lxor c 0xf33e5fb3c4 in
  let c := if Z.land c0 8 =? 0 then c else Z.lxor c 0xae2eabe2a8 in
  if Z.land c0 16 =? 0 then c else Z.lxor c 0x1e4f43e470.
(** cashaddr.py:25-42 [_polymod] *)
Definition polymod (values : bytes) : Z := Z.lxor (fold_left polymod_step values 1) 1.
(** cashaddr.py:45-50 [_prefix_expand] *)
Definition prefix_expand (prefix : pystr) : bytes := map (fun x => Z.land x 31) prefix ++ [0].
(** cashaddr.py:53-58 [_create_checksum] *)
Definition create_checksum (prefix : pystr) (data : bytes) : bytes :=
  let p := polymod (prefix_expand prefix ++ data ++ zrepeat 0 8) in
  map (fun i => Z.land (Z.shiftr p (5 * (7 - i))) 31) (zrange 0 8).

(** cashaddr.py:71-73, the inner loop of [_convertbits]; [fuel] bounds the rounds. *)
Fixpoint emit (fuel : nat) (acc bits tobits maxv : Z) : bytes * Z :=
  match fuel with
  | O => ([], bits)
  | S f => if tobits <=? bits then
             let bits := bits - tobits in
             let '(l, b) := emit f acc bits tobits maxv in
             (Z.land (Z.shiftr acc bits) maxv :: l, b)
           else ([], bits)
  end.
(** cashaddr.py:68-73, the outer loop; the result is (ret, acc, bits). *)
Fixpoint convert_loop (data : bytes) (frombits tobits maxv max_acc acc bits : Z) : bytes * Z * Z :=
  match data with
  | [] => ([], acc, bits)
  | value :: r =>
    let acc := Z.land (Z.lor (Z.shiftl acc frombits) value) max_acc in
    let bits := bits + frombits in
    let '(l, bits) := emit (Z.to_nat bits) acc bits tobits maxv in
    let '(l', acc, bits) := convert_loop r frombits tobits maxv max_acc acc bits in
    (l ++ l', acc, bits)
  end.
(** cashaddr.py:61-78 [_convertbits] *)
Definition convertbits (data : bytes) (frombits tobits : Z) (pad : bool) : bytes :=
  let maxv := Z.shiftl 1 tobits - 1 in
  let max_acc := Z.shiftl 1 (frombits + tobits - 1) - 1 in
  let '(ret, acc, bits) := convert_loop data frombits tobits maxv max_acc 0 0 in
  if pad && negb (bits =? 0) then ret ++ [Z.land (Z.shiftl acc (tobits - bits)) maxv] else ret.

(** cashaddr.py:81-100 [_pack_addr_data]; kind is 0 or 1 (bytes([version_byte]) raises otherwise). *)
Definition pack_addr_data (kind : Z) (addr_hash : bytes) : result bytes :=
  let offset := if 40 <=? zlen addr_hash then 2 else 1 in
  let encoded_size := Z.lor (if 40 <=? zlen addr_hash then 4 else 0)
                        ((zlen addr_hash - 20 * offset) / (4 * offset)) in
  if negb ((zlen addr_hash - 20 * offset) mod (4 * offset) =? 0)
     || negb ((0 <=? encoded_size) && (encoded_size <=? 7)) then Err ValueError
  else
    let version_byte := Z.lor (Z.shiftl kind 3) encoded_size in
    if (0 <=? version_byte) && (version_byte <? 256) then
      Ok (convertbits (version_byte :: addr_hash) 8 5 true)
    else Err ValueError.

(** [s.split(':', 1)]: the text before the first ':' and the text after it, if there is one. *)
Fixpoint split_once (sep : Z) (s : pystr) : option (pystr * pystr) :=
  match s with
  | [] => None
  | c :: r => if c =? sep then Some ([], r)
              else match split_once sep r with Some (a, b) => Some (c :: a, b) | None => None end
  end.
(** [bytes(_CHARSET.find(x) for x in payload)] *)
Definition charset_bytes (payload : pystr) : result bytes :=
  mapM (fun x => let v := find_char x charset 0 in if v <? 0 then Err ValueError else Ok v) payload.

(** cashaddr.py:103-146 [_decode_payload] *)
Definition decode_payload (addr : pystr) : result (pystr * bytes) :=
  let low := lower addr in
  if negb (bytes_eqb low addr) && negb (bytes_eqb (upper addr) addr) then Err ValueError
  else match split_once 58 low with
  | None => Err ValueError
  | Some (prefix, payload) =>
    match prefix with
    | [] => Err ValueError
    | _ =>
      if negb (forallb (fun x => (33 <=? x) && (x <=? 126)) prefix) then Err ValueError
      else if negb ((8 <=? zlen payload) && (zlen payload <=? 124)) then Err ValueError
      else
        data <- charset_bytes payload ;;
        if negb (polymod (prefix_expand prefix ++ data) =? 0) then Err ValueError
        else Ok (if bytes_eqb low addr then prefix else upper prefix, slice_to data (-8))
    end
  end.

(** cashaddr.py:154-155 *)
Definition PUBKEY_TYPE := 0.
Definition SCRIPT_TYPE := 1.

(** cashaddr.py:158-192 [decode] *)
Definition cash_decode (address : pystr) : result (pystr * Z * bytes) :=
  '(prefix, payload) <- decode_payload address ;;
  let extrabits := (zlen payload * 5) mod 8 in
  if 5 <=? extrabits then Err ValueError
  else
    last <- pyindex payload (-1) ;;
    if negb (Z.land last (Z.shiftl 1 extrabits - 1) =? 0) then Err ValueError
    else
      let decoded := convertbits payload 5 8 false in
      version <- pyindex decoded 0 ;;
      let addr_hash := slice_from decoded 1 in
      let size := Z.land version 3 * 4 + 20 in
      let size := if Z.land version 4 =? 0 then size else Z.shiftl size 1 in
      if negb (size =? zlen addr_hash) then Err ValueError
      else
        let kind := Z.shiftr version 3 in
        if (kind =? SCRIPT_TYPE) || (kind =? PUBKEY_TYPE) then Ok (prefix, kind, addr_hash)
        else Err ValueError.
