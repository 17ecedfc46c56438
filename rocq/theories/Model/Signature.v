(** Model of /repo/bitcoinx/signature.py.  A Signature object is its bytes (218-220 [to_hex], 226-230 [__bytes__], [to_bytes]). *)
From Verif.Model Require Import Py Text Packing Misc.

(** signature.py:149-160 [to_recoverable_signature], of bytes (of text: Model/Ecdsa.v). *)
Definition to_recoverable_signature (message_sig : bytes) : result bytes :=
  if negb (zlen message_sig =? 65) then Err InvalidSignatureError
  else b0 <- pyindex message_sig 0 ;;
       if negb ((27 <=? b0) && (b0 <? 35)) then Err InvalidSignatureError
       else r <- pack_byte (Z.land (b0 - 27) 3) ;; Ok (slice_from message_sig 1 ++ r).
(** signature.py:163-165 [to_message_signature] *)
Definition to_message_signature (recoverable_sig : bytes) (compressed : bool) : result bytes :=
  last <- pyindex recoverable_sig (-1) ;;
  b <- pack_byte (27 + (if compressed then 4 else 0) + last) ;;
  Ok (b ++ slice_to recoverable_sig 64).

(** signature.py:264-269 *)
Definition SH_ALL := 1.
Definition SH_NONE := 2.
Definition SH_SINGLE := 3.
Definition SH_FORKID := 64.
Definition SH_ANYONE_CAN_PAY := 128.

(** signature.py:170-172 [base] and 174-177 [anyone_can_pay] *)
Definition sighash_base (v : Z) : Z := Z.land v 31.
Definition sighash_anyone_can_pay (v : Z) : bool := negb (Z.land v SH_ANYONE_CAN_PAY =? 0).
(** [f'0x{v:02x}'] for a byte *)
Definition hex02 (v : Z) : pystr := txt "0x" ++ [hex_char (v / 16); hex_char (v mod 16)].
(** signature.py:179-190 [to_string]; for SigHash values below 256, as made from a signature's last byte. *)
Definition sighash_to_string (v : Z) : result pystr :=
  k1 <- (if Z.land v 3 =? 0 then Ok []
         else k <- pyindex [txt "ALL"; txt "NONE"; txt "SINGLE"] (Z.land v 3 - 1) ;; Ok [k]) ;;
  let k2 := if Z.land v SH_ANYONE_CAN_PAY =? 0 then [] else [txt "ANYONE_CAN_PAY"] in
  let k3 := if Z.land v SH_FORKID =? 0 then [] else [txt "FORKID"] in
  let residual := Z.land v (Z.lnot (Z.lor (Z.lor SH_ANYONE_CAN_PAY SH_FORKID) 3)) in
  let k4 := if residual =? 0 then [] else [hex02 residual] in
  Ok (join (txt "|") (k1 ++ k2 ++ k3 ++ k4)).

Section Signature.
  (** Whether libsecp256k1 parses the bytes as a DER signature. *)
  Variable der_ok : bytes -> bool.

  (** signature.py:193-203 [Signature.__init__]; the object is its raw bytes. *)
  Definition make_signature (raw : bytes) : result bytes :=
    if bytes_eqb raw [255] then Ok raw
    else if der_ok (slice_to raw (-1)) then Ok raw else Err InvalidSignatureError.
  (** signature.py:247-249 [Signature.to_string] *)
  Definition signature_to_string (raw : bytes) : result pystr :=
    last <- pyindex raw (-1) ;;
    t <- sighash_to_string last ;;
    Ok (to_hex (slice_to raw (-1)) ++ txt "[" ++ t ++ txt "]").
End Signature.
