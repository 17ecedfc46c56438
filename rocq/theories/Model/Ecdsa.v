(** ECDSA as libsecp256k1 implements it (secp256k1_ecdsa_sign, _sign_recoverable, _verify, _recover), over the
    abstract curve of Model/Curve.v, and the functions of /repo/bitcoinx/signature.py and keys.py that sign and
    verify.  Numbers modulo the order are Z; the library's overflow checks are comparisons with the order. *)
From Verif.Model Require Import Py Text Packing Misc Curve ModInverse Coin Base58 Base64 Signature Der Keys Address.

(** The affine coordinates of points, as far as ECDSA uses them. *)
Record coords (C : curve) := mk_coords {
  px : pt C -> Z;                          (* x coordinate, 0 <= x < FIELD *)
  podd : pt C -> bool;                     (* whether the y coordinate is odd *)
  lift : Z -> bool -> option (pt C)        (* secp256k1_ge_set_xo_var: the point with this x and parity of y *)
}.
Arguments px {C}.
Arguments podd {C}.
Arguments lift {C}.

(** secp256k1_scalar_inverse: the inverse modulo the order; 0 for 0 *)
Definition scalar_inverse (a : Z) : Z := mod_inverse CURVE_ORDER a.
Definition scalar_mul (a b : Z) : Z := (a * b) mod CURVE_ORDER.
Definition scalar_negate (a : Z) : Z := (- a) mod CURVE_ORDER.
(** secp256k1_scalar_is_high *)
Definition scalar_is_high (a : Z) : bool := CURVE_ORDER / 2 <? a.
(** secp256k1_scalar_set_b32 without overflow check: reduces modulo the order *)
Definition scalar_of_hash (h : bytes) : Z := be_int h mod CURVE_ORDER.

Section Ecdsa.
  Variable C : curve.
  Variable K : coords C.

  (** secp256k1_ecdsa_sig_sign: (r, s, recid) *)
  Definition sig_sign (sec msg non : Z) : option (Z * Z * Z) :=
    match smul C non (Some (gen C)) with
    | None => None
    | Some R =>
      let r := px K R mod CURVE_ORDER in
      let recid := (if CURVE_ORDER <=? px K R then 2 else 0) + (if podd K R then 1 else 0) in
      let s := scalar_mul (scalar_inverse non) ((scalar_mul r sec + msg) mod CURVE_ORDER) in
      if (r =? 0) || (s =? 0) then None
      else if scalar_is_high s then Some (r, scalar_negate s, Z.lxor recid 1)
      else Some (r, s, recid)
    end.

  (** The default nonce function (RFC 6979) of the hash, the secret and the attempt. *)
  Variable nonce : bytes -> bytes -> nat -> bytes.

  (** The loop of secp256k1_ecdsa_sign and secp256k1_ecdsa_sign_recoverable; [fuel] bounds the attempts. *)
  Fixpoint sign_loop (fuel count : nat) (msg_hash secret : bytes) : result (Z * Z * Z) :=
    match fuel with
    | O => Err OutOfFuel
    | S f =>
      let non := be_int (nonce msg_hash secret count) in
      match (if (CURVE_ORDER <=? non) || (non =? 0) then None
             else sig_sign (be_int secret) (scalar_of_hash msg_hash) non) with
      | Some sig => Ok sig
      | None => sign_loop f (S count) msg_hash secret
      end
    end.
  Definition ecdsa_sign (fuel : nat) (msg_hash secret : bytes) : result (Z * Z * Z) :=
    if seckey_verify secret then sign_loop fuel O msg_hash secret else Err ValueError.

  (** secp256k1_ecdsa_verify: refuses signatures whose s is in the upper half *)
  Definition ecdsa_verify (r s : Z) (msg_hash : bytes) (Q : pt C) : bool :=
    if scalar_is_high s then false
    else if (r =? 0) || (s =? 0) then false
    else
      let sn := scalar_inverse s in
      let u1 := scalar_mul sn (scalar_of_hash msg_hash) in
      let u2 := scalar_mul sn r in
      match gadd C (smul C u2 (Some Q)) (smul C u1 (Some (gen C))) with
      | None => false
      | Some R => px K R mod CURVE_ORDER =? r
      end.
  (** secp256k1_ecdsa_recover *)
  Definition ecdsa_recover (r s recid : Z) (msg_hash : bytes) : option (pt C) :=
    if (r =? 0) || (s =? 0) then None
    else
      let x := if Z.land recid 2 =? 0 then Some r
               else if FIELD - CURVE_ORDER <=? r then None else Some (r + CURVE_ORDER) in
      match x with
      | None => None
      | Some x =>
        match lift K x (negb (Z.land recid 1 =? 0)) with
        | None => None
        | Some R =>
          let rn := scalar_inverse r in
          let u1 := scalar_negate (scalar_mul rn (scalar_of_hash msg_hash)) in
          let u2 := scalar_mul rn s in
          gadd C (smul C u2 (Some R)) (smul C u1 (Some (gen C)))
        end
      end.

  (** signature.py:52-62 [_cdata_recsig]: (r, s, recid) *)
  Definition cdata_recsig (recoverable_sig : bytes) : result (Z * Z * Z) :=
    if negb (zlen recoverable_sig =? 65) then Err InvalidSignatureError
    else
      recid <- pyindex recoverable_sig (-1) ;;
      if negb ((0 <=? recid) && (recid <=? 3)) then Err InvalidSignatureError
      else match parse_compact recoverable_sig with
           | Some (r, s) => Ok (r, s, recid)
           | None => Err InvalidSignatureError
           end.
  (** signature.py:65-70 [public_key_from_recoverable_signature] *)
  Definition public_key_from_recoverable_signature (recoverable_sig msg_hash : bytes) : result (pt C) :=
    '(r, s, recid) <- cdata_recsig recoverable_sig ;;
    match ecdsa_recover r s recid msg_hash with Some Q => Ok Q | None => Err InvalidSignatureError end.
  (** signature.py:106-110 [sign_der] *)
  Definition sign_der (fuel : nat) (msg_hash secret : bytes) : result bytes :=
    '(r, s, _) <- ecdsa_sign fuel msg_hash secret ;; Ok (serialize_der r s).
  (** signature.py:113-131 [sign_recoverable] *)
  Definition sign_recoverable (fuel : nat) (msg_hash secret : bytes) : result bytes :=
    '(r, s, recid) <- ecdsa_sign fuel msg_hash secret ;; Ok (serialize_compact r s ++ [recid]).
  (** signature.py:134-140 [verify_recoverable_signature] *)
  Definition verify_recoverable_signature (recoverable_sig msg_hash : bytes) (Q : pt C) : result bool :=
    '(r, s, _) <- cdata_recsig recoverable_sig ;; Ok (ecdsa_verify r s msg_hash Q).
  (** signature.py:143-146 [verify_der_signature] *)
  Definition verify_der_signature (der_sig msg_hash : bytes) (Q : pt C) : result bool :=
    '(r, s) <- der_signature_to_cdata der_sig ;; Ok (ecdsa_verify r s msg_hash Q).

  (** keys.py:236-242 [PrivateKey.sign] and 244-252 [PrivateKey.sign_recoverable] *)
  Definition privkey_sign (fuel : nat) (k : privkey) (message : bytes) (hasher : option (bytes -> bytes)) : result bytes :=
    h <- message_hash message hasher ;; sign_der fuel h (sk_secret k).
  Definition privkey_sign_recoverable (fuel : nat) (k : privkey) (message : bytes) (hasher : option (bytes -> bytes)) : result bytes :=
    h <- message_hash message hasher ;; sign_recoverable fuel h (sk_secret k).
  (** keys.py:391-397 [from_recoverable_signature] *)
  Definition pubkey_from_recoverable_signature (recoverable_sig message : bytes) (hasher : option (bytes -> bytes)) : result (pubkey C) :=
    h <- message_hash message hasher ;;
    Q <- public_key_from_recoverable_signature recoverable_sig h ;;
    Ok (mk_pubkey Q true Bitcoin).
  (** keys.py:514-517 [verify_der_signature] and 519-522 [verify_recoverable_signature] *)
  Definition pubkey_verify_der_signature (P : pubkey C) (der_sig message : bytes) (hasher : option (bytes -> bytes)) : result bool :=
    h <- message_hash message hasher ;; verify_der_signature der_sig h (pk_point P).
  Definition pubkey_verify_recoverable_signature (P : pubkey C) (recoverable_sig message : bytes) (hasher : option (bytes -> bytes)) : result bool :=
    h <- message_hash message hasher ;; verify_recoverable_signature recoverable_sig h (pk_point P).

  (** keys.py:56 *)
  Definition SIGNED_MESSAGE_PREFIX : result bytes := pack_varbytes (txt "Bitcoin Signed Message:" ++ [10]).
  (** keys.py:78-81 [_normalize_message] *)
  Definition normalize_message (message : text_or_bytes) : result bytes :=
    b <- match message with AsText t => utf8_encode t | AsBytes b => Ok b end ;;
    p <- SIGNED_MESSAGE_PREFIX ;;
    v <- pack_varbytes b ;;
    Ok (p ++ v).
  (** keys.py:254-270 [sign_message] and 272-274 [sign_message_to_base64] *)
  Definition sign_message (fuel : nat) (k : privkey) (message : text_or_bytes) (hasher : option (bytes -> bytes)) : result bytes :=
    match hasher with
    | None => Err ValueError
    | Some _ =>
      m <- normalize_message message ;;
      recoverable_sig <- privkey_sign_recoverable fuel k m hasher ;;
      to_message_signature recoverable_sig (sk_compressed k)
    end.
  Definition sign_message_to_base64 (fuel : nat) (k : privkey) (message : text_or_bytes) (hasher : option (bytes -> bytes)) : result pystr :=
    s <- sign_message fuel k message hasher ;; Ok (b64encode s).

  Variable excess_ok : Z -> Z -> bool.   (* see Model/Base64.v *)

  (** signature.py:149-160 [to_recoverable_signature], of text or bytes *)
  Definition to_recoverable (message_sig : text_or_bytes) : result bytes :=
    b <- match message_sig with
         | AsText t => match b64decode excess_ok t with Err BinasciiError => Err InvalidSignatureError | r => r end
         | AsBytes b => Ok b
         end ;;
    to_recoverable_signature b.
  (** keys.py:399-413 [from_signed_message] *)
  Definition pubkey_from_signed_message (message_sig message : text_or_bytes) (hasher : option (bytes -> bytes)) : result (pubkey C) :=
    match hasher with
    | None => Err ValueError
    | Some _ =>
      m <- normalize_message message ;;
      recoverable_sig <- to_recoverable message_sig ;;
      pubkey_from_recoverable_signature recoverable_sig m hasher
    end.
  (** keys.py:477-490 [verify_message] *)
  Definition verify_message (P : pubkey C) (message_sig message : text_or_bytes) (hasher : option (bytes -> bytes)) : result bool :=
    match hasher with
    | None => Err ValueError
    | Some _ =>
      m <- normalize_message message ;;
      recoverable_sig <- to_recoverable message_sig ;;
      pubkey_verify_recoverable_signature P recoverable_sig m hasher
    end.

  Variable double_sha256 hash160 : bytes -> bytes.
  (** The address argument: an Address object, text, or something else *)
  Inductive address_arg := AddrObject (a : address) | AddrText (t : pystr) | AddrOther.
  (** keys.py:492-512 [verify_message_and_address] *)
  Definition verify_message_and_address (message_sig message : text_or_bytes) (a : address_arg) (hasher : option (bytes -> bytes)) : result bool :=
    match pubkey_from_signed_message message_sig message hasher with
    | Err InvalidSignatureError => Ok false
    | Err e => Err e
    | Ok P =>
      h <- match a with
           | AddrObject (P2PKH h _) => Ok h
           | AddrText t => raw <- base58_decode_check double_sha256 t ;; Ok (slice_from raw 1)
           | _ => Err TypeError
           end ;;
      ok <- verify_message P message_sig message hasher ;;
      Ok (ok && (bytes_eqb h (pubkey_hash160 C hash160 P (Some true)) || bytes_eqb h (pubkey_hash160 C hash160 P (Some false))))
    end.
End Ecdsa.
