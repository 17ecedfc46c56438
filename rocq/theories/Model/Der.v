(** libsecp256k1's DER and compact forms of signatures (secp256k1_ecdsa_signature_parse_der, _serialize_der,
    _parse_compact, _serialize_compact), as the library implements them, and the functions of
    /repo/bitcoinx/signature.py that call them.  A parsed signature is the pair of numbers (r, s), each below
    the order of the curve. *)
From Verif.Model Require Import Py Text Packing Misc Curve Signature.

(** secp256k1_der_read_len: the length and what follows it *)
Definition der_read_len (sig : bytes) : option (Z * bytes) :=
  match sig with
  | [] => None
  | b1 :: r =>
    if b1 =? 255 then None
    else if b1 <? 128 then Some (b1, r)
    else if b1 =? 128 then None
    else
      let lenleft := b1 - 128 in
      if zlen r <? lenleft then None
      else match r with
           | [] => None
           | x :: _ =>
             if (x =? 0) || (8 <? lenleft) then None
             else
               let len := be_int (ztake lenleft r) in
               let r' := zdrop lenleft r in
               if (zlen r' <? len) || (len <? 128) then None else Some (len, r')
           end
  end.
(** secp256k1_der_parse_integer: a negative number, or one not below the order, reads as zero. *)
Definition der_parse_integer (sig : bytes) : option (Z * bytes) :=
  match sig with
  | [] => None
  | t :: r =>
    if negb (t =? 2) then None
    else match der_read_len r with
         | None => None
         | Some (rlen, r) =>
           if (rlen =? 0) || (zlen r <? rlen) then None
           else
             let b := ztake rlen r in
             let excessive := match b with
                              | x :: y :: _ => ((x =? 0) && (y <? 128)) || ((x =? 255) && (128 <=? y))
                              | _ => false
                              end in
             if excessive then None
             else
               let negative := match b with x :: _ => 128 <=? x | [] => false end in
               let b' := match b with x :: b1 => if x =? 0 then b1 else b | [] => b end in
               let overflow := negative || (32 <? zlen b') || (CURVE_ORDER <=? be_int b') in
               Some (if overflow then 0 else be_int b', zdrop rlen r)
         end
  end.
(** secp256k1_ecdsa_signature_parse_der *)
Definition parse_der (sig : bytes) : option (Z * Z) :=
  match sig with
  | [] => None
  | t :: r =>
    if negb (t =? 48) then None
    else match der_read_len r with
         | None => None
         | Some (rlen, r) =>
           if negb (rlen =? zlen r) then None
           else match der_parse_integer r with
                | None => None
                | Some (rr, r) =>
                  match der_parse_integer r with
                  | None => None
                  | Some (rs, r) => match r with [] => Some (rr, rs) | _ => None end
                  end
                end
         end
  end.

(** secp256k1_ecdsa_signature_serialize_der: 33 bytes, without the leading zeros that are not needed *)
Fixpoint strip_zeros (b : bytes) : bytes :=
  match b with
  | x :: ((y :: _) as r) => if (x =? 0) && (y <? 128) then strip_zeros r else b
  | _ => b
  end.
Definition der_integer (v : Z) : bytes := strip_zeros (0 :: bytes32 v).
Definition serialize_der (r s : Z) : bytes :=
  let R := der_integer r in
  let S := der_integer s in
  [48; 4 + zlen S + zlen R; 2; zlen R] ++ R ++ [2; zlen S] ++ S.

(** secp256k1_ecdsa_signature_serialize_compact *)
Definition serialize_compact (r s : Z) : bytes := bytes32 r ++ bytes32 s.
(** secp256k1_ecdsa_signature_parse_compact: fails, leaving the signature (0, 0), if a number is not below
    the order *)
Definition parse_compact (sig : bytes) : option (Z * Z) :=
  let r := be_int (ztake 32 sig) in
  let s := be_int (ztake 32 (zdrop 32 sig)) in
  if (CURVE_ORDER <=? r) || (CURVE_ORDER <=? s) then None else Some (r, s).

(** signature.py:83-87 [_der_signature_to_cdata] *)
Definition der_signature_to_cdata (der_sig : bytes) : result (Z * Z) :=
  match parse_der der_sig with Some rs => Ok rs | None => Err InvalidSignatureError end.
(** signature.py:90-95 [der_signature_to_compact] *)
Definition der_signature_to_compact (der_sig : bytes) : result bytes :=
  '(r, s) <- der_signature_to_cdata der_sig ;; Ok (serialize_compact r s).
(** signature.py:73-80 [_cdata_signature_to_der] and 98-103 [compact_signature_to_der], of bytes; the code
    ignores the failure of parse_compact. *)
Definition compact_signature_to_der (compact_sig : bytes) : result bytes :=
  if negb (zlen compact_sig =? 64) then Err InvalidSignatureError
  else let '(r, s) := match parse_compact compact_sig with Some rs => rs | None => (0, 0) end in
       Ok (serialize_der r s).

(** signature.py:193-203 [Signature.__init__] *)
Definition signature_new (raw : bytes) : result bytes :=
  make_signature (fun d => is_ok (der_signature_to_compact d)) raw.
(** signature.py:213-216 [from_hex] and 222-224 [from_der_sig] *)
Definition signature_from_hex (s : pystr) : result bytes := raw <- from_hex s ;; signature_new raw.
Definition signature_from_der_sig (der_sig : bytes) (sighash : Z) : result bytes :=
  b <- pack_byte sighash ;; signature_new (der_sig ++ b).
(** signature.py:232-233 [is_present] *)
Definition signature_is_present (raw : bytes) : bool := negb (bytes_eqb raw [255]).
(** signature.py:251-255 [der_signature] and 257-261 [sighash] *)
Definition signature_der (raw : bytes) : result bytes :=
  if bytes_eqb raw [255] then Err InvalidSignatureError else Ok (slice_to raw (-1)).
Definition signature_sighash (raw : bytes) : result Z :=
  if bytes_eqb raw [255] then Err InvalidSignatureError else pyindex raw (-1).
(** signature.py:235-237 [to_compact], 239-241 [r_value] and 243-245 [s_value] *)
Definition signature_to_compact (raw : bytes) : result bytes := d <- signature_der raw ;; der_signature_to_compact d.
Definition signature_r_value (raw : bytes) : result Z := c <- signature_to_compact raw ;; Ok (be_bytes_to_int (slice_to c 32)).
Definition signature_s_value (raw : bytes) : result Z := c <- signature_to_compact raw ;; Ok (be_bytes_to_int (slice_from c 32)).
