(** Model of /repo/bitcoinx/keys.py, on top of Model/Curve.v.

    A PrivateKey object is its secret bytes, compression flag and coin; a PublicKey object is a point, a
    compression flag and a coin. *)
From Verif.Model Require Import Py Text Packing Misc Curve Coin Base58 Base64 Aes.

(** Exceptions that [except ValueError] catches: ValueError and its subclasses (base58.py:23, keys.py:59,
    signature.py:48, binascii.Error). *)
Definition is_ValueError (e : exn) : bool :=
  match e with ValueError | Base58Error | DecryptionError | InvalidSignatureError | BinasciiError => true | _ => false end.

(** keys.py:134-140, 155-157 [coin], [is_compressed], [to_bytes] return the attributes. *)
Record privkey := mk_privkey { sk_secret : bytes; sk_compressed : bool; sk_coin : coin }.

(** keys.py:63-68 [_to_32_bytes], of bytes *)
Definition to_32_bytes (value : bytes) : result bytes :=
  if zlen value =? 32 then Ok value else Err ValueError.
(** keys.py:71-75 [_message_hash]; [None] is hasher=None *)
Definition message_hash (message : bytes) (hasher : option (bytes -> bytes)) : result bytes :=
  let h := match hasher with Some f => f message | None => message end in
  if zlen h =? 32 then Ok h else Err ValueError.

(** keys.py:86-108 [PrivateKey.__init__] of bytes; [None] is coin=None *)
Definition make_privkey (secret : bytes) (compressed : bool) (c : option coin) : result privkey :=
  if negb (zlen secret =? 32) then Err ValueError
  else if negb (seckey_verify secret) then Err ValueError
  else Ok (mk_privkey secret compressed (match c with Some c => c | None => Bitcoin end)).

(** keys.py:121-123 [PrivateKey.__eq__] *)
Definition privkey_eqb (a b : privkey) : bool := bytes_eqb (sk_secret a) (sk_secret b).

(** keys.py:147-149 [to_int], 159-162 [from_int], 164-166 [from_arbitrary_bytes] *)
Definition privkey_to_int (k : privkey) : Z := be_bytes_to_int (sk_secret k).
Definition privkey_from_int (value : Z) : result privkey :=
  b <- int_to_be_bytes value (Some 32) ;; make_privkey b true None.
Definition privkey_from_arbitrary_bytes (secret : bytes) : result privkey :=
  privkey_from_int (be_bytes_to_int secret mod CURVE_ORDER).
(** keys.py:151-153 [to_hex], 168-173 [from_hex] *)
Definition privkey_to_hex (k : privkey) : pystr := to_hex (sk_secret k).
Definition privkey_from_hex (s : pystr) : result privkey := b <- from_hex s ;; make_privkey b true None.

(** keys.py:184-191 [from_random], of the successive results of source(32); [OutOfFuel] if the list runs
    out. *)
Fixpoint privkey_from_random (source : list bytes) : result privkey :=
  match source with
  | [] => Err OutOfFuel
  | b :: r => match make_privkey b true None with
              | Ok k => Ok k
              | Err e => if is_ValueError e then privkey_from_random r else Err e
              end
  end.

(** keys.py:222-227 [PrivateKey.add]; the result is a plain PrivateKey *)
Definition privkey_add (k : privkey) (value : bytes) : result privkey :=
  t <- to_32_bytes value ;;
  match privkey_tweak_add (sk_secret k) t with
  | Some s => Ok (mk_privkey s (sk_compressed k) (sk_coin k))
  | None => Err ValueError
  end.
(** keys.py:229-234 [PrivateKey.multiply] *)
Definition privkey_multiply (k : privkey) (value : bytes) : result privkey :=
  t <- to_32_bytes value ;;
  match privkey_tweak_mul (sk_secret k) t with
  | Some s => Ok (mk_privkey s (sk_compressed k) (sk_coin k))
  | None => Err ValueError
  end.

Section Text.
  Variable double_sha256 sha256 : bytes -> bytes.

  (** keys.py:175-182 [from_minikey] *)
  Definition privkey_from_minikey (minikey : pystr) : result privkey :=
    ok <- is_minikey sha256 minikey ;;
    if negb ok then Err ValueError else make_privkey (sha256 minikey) false None.
  (** keys.py:193-199 [from_WIF] *)
  Definition privkey_from_WIF (t : pystr) : result privkey :=
    raw <- base58_decode_check double_sha256 t ;;
    good <- (if zlen raw =? 33 then Ok true
             else if zlen raw =? 34 then l <- pyindex raw (-1) ;; Ok (l =? 1) else Ok false) ;;
    if (good : bool) then
      w <- pyindex raw 0 ;;
      c <- from_WIF_byte w ;;
      make_privkey (pyslice raw 1 33) (zlen raw =? 34) (Some c)
    else Err ValueError.
  (** keys.py:201-208 [from_text] *)
  Definition privkey_from_text (t : pystr) : result privkey :=
    if zlen t =? 64 then privkey_from_hex t
    else
      m <- is_minikey sha256 t ;;
      if (m : bool) then privkey_from_minikey t else privkey_from_WIF t.
  (** keys.py:210-220 [to_WIF]; [None] is the default of compressed and coin *)
  Definition privkey_to_WIF (k : privkey) (compressed : option bool) (c : option coin) : result pystr :=
    let c := match c with Some c => c | None => sk_coin k end in
    b <- pack_byte (c_WIF_byte c) ;;
    let payload := b ++ sk_secret k in
    if (match compressed with Some f => f | None => sk_compressed k end) then
      e <- pack_byte 1 ;; Ok (base58_encode_check double_sha256 (payload ++ e))
    else Ok (base58_encode_check double_sha256 payload).
End Text.

Section Keys.
  Variable C : curve.

  (** keys.py:328-345 [PublicKey.__init__], without the test that the argument is a key of the library, 361-367 [coin] and
      [is_compressed]; 358-359 [__str__] is [to_hex]. *)
  Record pubkey := mk_pubkey { pk_point : pt C; pk_compressed : bool; pk_coin : coin }.

  (** keys.py:110-117 [_secp256k1_public_key] *)
  Definition privkey_point (k : privkey) : result (pt C) :=
    match pubkey_create C (sk_secret k) with Some p => Ok p | None => Err RuntimeError end.
  (** keys.py:142-145 [public_key].  It is a cachedproperty (util.py:43-54): the first access stores the value on the
      object, where later accesses find it.  As the object's attributes never change this is the same value, and it is
      computed here each time. *)
  Definition privkey_public_key (k : privkey) : result pubkey :=
    p <- privkey_point k ;; Ok (mk_pubkey p (sk_compressed k) (sk_coin k)).

  (** keys.py:369-379 [PublicKey.to_bytes]; [None] is compressed=None *)
  Definition pubkey_to_bytes (k : pubkey) (compressed : option bool) : bytes :=
    pubkey_serialize C (match compressed with Some c => c | None => pk_compressed k end) (pk_point k).
  (** keys.py:381-389 [from_bytes] *)
  Definition pubkey_from_bytes (data : bytes) : result pubkey :=
    match pubkey_parse C data with
    | Some p => Ok (mk_pubkey p (zlen data =? 33) Bitcoin)
    | None => Err ValueError
    end.
  (** keys.py:415-417 [to_hex], 419-422 [from_hex] *)
  Definition pubkey_to_hex (k : pubkey) (compressed : option bool) : pystr := to_hex (pubkey_to_bytes k compressed).
  Definition pubkey_from_hex (s : pystr) : result pubkey := b <- from_hex s ;; pubkey_from_bytes b.
  (** keys.py:349-352 [PublicKey.__eq__] *)
  Definition pubkey_eqb (a b : pubkey) : bool :=
    bytes_eqb (pubkey_to_bytes a (Some true)) (pubkey_to_bytes b (Some true)).
  (** keys.py:424-429 [to_point] and 431-436 [from_point] *)
  Definition pubkey_to_point (k : pubkey) : Z * Z :=
    let data := pubkey_to_bytes k (Some false) in
    (be_bytes_to_int (pyslice data 1 33), be_bytes_to_int (slice_from data 33)).
  Definition pubkey_from_point (x y : Z) : result pubkey :=
    xb <- int_to_be_bytes x (Some 32) ;;
    yb <- int_to_be_bytes y (Some 32) ;;
    pubkey_from_bytes ([4] ++ xb ++ yb).

  (** keys.py:443-450 [PublicKey.add] *)
  Definition pubkey_add (k : pubkey) (value : bytes) : result pubkey :=
    t <- to_32_bytes value ;;
    match pubkey_tweak_add C (pk_point k) t with
    | Some p => Ok (mk_pubkey p (pk_compressed k) (pk_coin k))
    | None => Err ValueError
    end.
  (** keys.py:452-461 [PublicKey.multiply] *)
  Definition pubkey_multiply (k : pubkey) (value : bytes) : result pubkey :=
    t <- to_32_bytes value ;;
    match pubkey_tweak_mul C (pk_point k) t with
    | Some p => Ok (mk_pubkey p (pk_compressed k) (pk_coin k))
    | None => Err ValueError
    end.
  (** keys.py:463-475 [combine_keys], of a sequence *)
  Definition combine_keys (keys : list pubkey) : result pubkey :=
    match keys with
    | [] => Err ValueError
    | k :: _ => match pubkey_combine C (map pk_point keys) with
                | Some p => Ok (mk_pubkey p (pk_compressed k) (pk_coin k))
                | None => Err ValueError
                end
    end.
  (** keys.py:548-550 [complement] *)
  Definition pubkey_complement (k : pubkey) : pubkey := mk_pubkey (pk_point k) (negb (pk_compressed k)) (pk_coin k).

  (** keys.py:276-285 [shared_secret] *)
  Definition shared_secret (k : privkey) (pub : pubkey) (message : bytes) (hasher : option (bytes -> bytes)) : result pubkey :=
    dk <- message_hash message hasher ;;
    k2 <- privkey_add k dk ;;
    pub2 <- pubkey_add pub dk ;;
    pubkey_multiply pub2 (sk_secret k2).
  (** keys.py:287-293 [ecdh_shared_secret] *)
  Definition ecdh_shared_secret (k : privkey) (pub : pubkey) : result pubkey := pubkey_multiply pub (sk_secret k).

  Section Ecies.
    Variable sha512 : bytes -> bytes.
    Variable hmac_sha256 : bytes -> bytes -> bytes.   (* key, message *)
    Variable cbc_encrypt cbc_decrypt : bytes -> bytes -> bytes -> result bytes.   (* key, iv, data *)

    (** keys.py:524-538 [encrypt_message], of bytes, with the ephemeral key that from_random returned *)
    Definition encrypt_message_with (ephemeral_key : privkey) (pub : pubkey) (message magic : bytes) : result bytes :=
      shared <- ecdh_shared_secret ephemeral_key pub ;;
      let key := sha512 (pubkey_to_bytes shared (Some true)) in
      let iv := pyslice key 0 16 in
      let key_e := pyslice key 16 32 in
      let key_m := slice_from key 32 in
      ciphertext <- aes_encrypt_with_iv cbc_encrypt key_e iv message ;;
      epub <- privkey_public_key ephemeral_key ;;
      let encrypted_data := magic ++ pubkey_to_bytes epub None ++ ciphertext in
      Ok (encrypted_data ++ hmac_sha256 key_m encrypted_data).
    Definition encrypt_message (source : list bytes) (pub : pubkey) (message magic : bytes) : result bytes :=
      e <- privkey_from_random source ;; encrypt_message_with e pub message magic.

    (** keys.py:295-324 [decrypt_message], of bytes.  Any exception of the AES library or of the padding check
        becomes DecryptionError. *)
    Definition decrypt_message (k : privkey) (message magic : bytes) : result bytes :=
      let mlen := zlen magic in
      if zlen message <? 81 + mlen then Err DecryptionError
      else if negb (starts_with message magic) then Err DecryptionError
      else
        epub <- match pubkey_from_bytes (pyslice message mlen (mlen + 33)) with
                | Err ValueError => Err DecryptionError
                | r => r
                end ;;
        let ciphertext := pyslice message (mlen + 33) (-32) in
        let hmac := slice_from message (-32) in
        shared <- ecdh_shared_secret k epub ;;
        let key := sha512 (pubkey_to_bytes shared None) in
        let iv := pyslice key 0 16 in
        let key_e := pyslice key 16 32 in
        let key_m := slice_from key 32 in
        if negb (bytes_eqb (hmac_sha256 key_m (slice_to message (-32))) hmac) then Err DecryptionError
        else match aes_decrypt_with_iv cbc_decrypt key_e iv ciphertext with
             | Ok d => Ok d
             | Err _ => Err DecryptionError
             end.

    (** keys.py:524-538 [encrypt_message] and 540-542 [encrypt_message_to_base64], of text or bytes *)
    Definition encrypt_message_arg (source : list bytes) (pub : pubkey) (message : text_or_bytes) (magic : bytes) : result bytes :=
      m <- match message with AsText t => utf8_encode t | AsBytes b => Ok b end ;; encrypt_message source pub m magic.
    Definition encrypt_message_to_base64 (source : list bytes) (pub : pubkey) (message : text_or_bytes) (magic : bytes) : result pystr :=
      e <- encrypt_message_arg source pub message magic ;; Ok (b64encode e).
    (** keys.py:295-324 [decrypt_message], of text or bytes *)
    Definition decrypt_message_arg (excess_ok : Z -> Z -> bool) (k : privkey) (message : text_or_bytes) (magic : bytes) : result bytes :=
      m <- match message with
           | AsText t => match b64decode excess_ok t with Err BinasciiError => Err DecryptionError | r => r end
           | AsBytes b => Ok b
           end ;;
      decrypt_message k m magic.
  End Ecies.
End Keys.
Arguments mk_pubkey {C}.
Arguments pk_point {C}.
Arguments pk_compressed {C}.
Arguments pk_coin {C}.
