(** Model of /repo/bitcoinx/bip32.py. *)
From Verif.Model Require Import Py Text Packing Misc Curve Coin Base58 Keys.

(** bip32.py:46 *)
Definition HARDENED : Z := Z.shiftl 1 31.

(** bip32.py:50-56 [BIP32Derivation] *)
Record derivation := mk_derivation { d_chain_code : bytes; d_n : Z; d_depth : Z; d_parent_fingerprint : bytes }.

(** bip32.py:58-75 [extended_key] *)
Definition extended_key (d : derivation) (c : coin) (raw_serkey : bytes) : result bytes :=
  let '(raw_serkey, ver_bytes) :=
    if zlen raw_serkey =? 32 then ([0] ++ raw_serkey, c_xprv_verbytes c) else (raw_serkey, c_xpub_verbytes c) in
  if negb (zlen raw_serkey =? 33) then Err AssertionError
  else
    depth <- pack_byte (d_depth d) ;;
    n <- pack_be_uint32 (d_n d) ;;
    Ok (ver_bytes ++ depth ++ d_parent_fingerprint d ++ n ++ d_chain_code d ++ raw_serkey).
(** bip32.py:77-78 [child] *)
Definition derivation_child (d : derivation) (chain_code : bytes) (n : Z) (parent_fingerprint : bytes) : derivation :=
  mk_derivation chain_code n (d_depth d + 1) parent_fingerprint.

Section Bip32.
  Variable C : curve.
  Variable double_sha256 hash160 : bytes -> bytes.
  Variable hmac_sha512 : bytes -> bytes -> bytes.   (* key, message *)

  (** A BIP32PrivateKey or BIP32PublicKey object: the base class' part and the derivation
      (bip32.py:156-158, 216-218 [derivation]; 232-236 [__str__] and [__repr__] are made of to_extended_key_string). *)
  Record xprv := mk_xprv { xprv_key : privkey; xprv_derivation : derivation }.
  Record xpub := mk_xpub { xpub_key : pubkey C; xpub_derivation : derivation }.

  (** hashes.py:105-107 [hmac_sha512_halves] *)
  Definition hmac_sha512_halves (key msg : bytes) : bytes * bytes :=
    let h := hmac_sha512 key msg in (slice_to h 32, slice_from h 32).

  (** bip32.py:94-96 [BIP32PrivateKey.__init__] and 185-189 [BIP32PublicKey.__init__], of a point *)
  Definition make_xprv (secret : bytes) (d : derivation) (c : coin) : result xprv :=
    k <- make_privkey secret true (Some c) ;; Ok (mk_xprv k d).
  Definition make_xpub (p : pt C) (d : derivation) (c : coin) : xpub := mk_xpub (mk_pubkey p true c) d.

  (** bip32.py:102-111 [_from_parts], [from_seed] *)
  Definition xprv_from_parts (privkey chain_code : bytes) (c : coin) : result xprv :=
    make_xprv privkey (mk_derivation chain_code 0 0 (zrepeat 0 4)) c.
  Definition xprv_from_seed (seed : bytes) (c : coin) : result xprv :=
    let '(privkey, chain_code) := hmac_sha512_halves (txt "Bitcoin seed") seed in xprv_from_parts privkey chain_code c.
  (** bip32.py:113-121 [from_random], of the successive results of source(64) *)
  Fixpoint xprv_from_random (source : list bytes) : result xprv :=
    match source with
    | [] => Err OutOfFuel
    | data :: r => match xprv_from_parts (slice_to data 32) (slice_from data 32) Bitcoin with
                   | Ok k => Ok k
                   | Err e => if is_ValueError e then xprv_from_random r else Err e
                   end
    end.

  (** bip32.py:123-126 [public_key] *)
  Definition xprv_public_key (k : xprv) : result xpub :=
    p <- privkey_point C (xprv_key k) ;; Ok (make_xpub p (xprv_derivation k) (sk_coin (xprv_key k))).
  (** bip32.py:220-226 [BIP32PublicKey.identifier], [fingerprint] and 160-166 of a private key *)
  Definition xpub_identifier (k : xpub) : bytes := hash160 (pubkey_to_bytes C (xpub_key k) None).
  Definition xpub_fingerprint (k : xpub) : bytes := slice_to (xpub_identifier k) 4.
  Definition xprv_fingerprint (k : xprv) : result bytes := p <- xprv_public_key k ;; Ok (xpub_fingerprint p).

  (** bip32.py:128-142 [BIP32PrivateKey.child] *)
  Definition xprv_child (k : xprv) (n : Z) : result xprv :=
    if negb ((0 <=? n) && (n <? Z.shiftl 1 32)) then Err ValueError
    else
      serkey <- (if HARDENED <=? n then Ok ([0] ++ sk_secret (xprv_key k))
                 else p <- xprv_public_key k ;; Ok (pubkey_to_bytes C (xpub_key p) None)) ;;
      nb <- pack_be_uint32 n ;;
      let '(L, R) := hmac_sha512_halves (d_chain_code (xprv_derivation k)) (serkey ++ nb) in
      fp <- xprv_fingerprint k ;;
      let child_derivation := derivation_child (xprv_derivation k) R n fp in
      s <- privkey_add (xprv_key k) L ;;
      make_xprv (sk_secret s) child_derivation (sk_coin (xprv_key k)).
  (** bip32.py:195-204 [BIP32PublicKey.child] *)
  Definition xpub_child (k : xpub) (n : Z) : result xpub :=
    if negb ((0 <=? n) && (n <? HARDENED)) then Err ValueError
    else
      nb <- pack_be_uint32 n ;;
      let '(L, R) := hmac_sha512_halves (d_chain_code (xpub_derivation k)) (pubkey_to_bytes C (xpub_key k) None ++ nb) in
      let child_derivation := derivation_child (xpub_derivation k) R n (xpub_fingerprint k) in
      p <- pubkey_add C (xpub_key k) L ;;
      Ok (make_xpub (pk_point p) child_derivation (pk_coin (xpub_key k))).

  (** bip32.py:144-154 and 206-214 [child_safe]; the loop runs at most [fuel] times. *)
  Fixpoint xprv_child_safe (fuel : nat) (k : xprv) (n : Z) : result xprv :=
    match fuel with
    | O => Err OutOfFuel
    | S f => match xprv_child k n with
             | Ok c => Ok c
             | Err e => if is_ValueError e then
                          if negb ((0 <=? n) && (n <? Z.shiftl 1 32)) then Err e
                          else if Z.land (n + 1) (HARDENED - 1) =? 0 then Err ValueError
                          else xprv_child_safe f k (n + 1)
                        else Err e
             end
    end.
  Fixpoint xpub_child_safe (fuel : nat) (k : xpub) (n : Z) : result xpub :=
    match fuel with
    | O => Err OutOfFuel
    | S f => match xpub_child k n with
             | Ok c => Ok c
             | Err e => if is_ValueError e then
                          if negb ((0 <=? n) && (n <? HARDENED)) then Err e else xpub_child_safe f k (n + 1)
                        else Err e
             end
    end.

  (** bip32.py:98-100, 168-170 and 191-193, 228-230 [to_extended_key_string] *)
  Definition xprv_extended_key (k : xprv) : result bytes :=
    extended_key (xprv_derivation k) (sk_coin (xprv_key k)) (sk_secret (xprv_key k)).
  Definition xpub_extended_key (k : xpub) : result bytes :=
    extended_key (xpub_derivation k) (pk_coin (xpub_key k)) (pubkey_to_bytes C (xpub_key k) None).
  Definition xprv_to_string (k : xprv) : result pystr := e <- xprv_extended_key k ;; Ok (base58_encode_check double_sha256 e).
  Definition xpub_to_string (k : xpub) : result pystr := e <- xpub_extended_key k ;; Ok (base58_encode_check double_sha256 e).

  (** bip32.py:239-254 [_from_extended_key]; the result is a public (inl) or private (inr) key *)
  Definition from_extended_key (ekey : bytes) : result (xpub + xprv) :=
    if negb (zlen ekey =? 78) then Err ValueError
    else
      '(c, is_public_key) <- lookup_xver_bytes (slice_to ekey 4) ;;
      n <- unpack_be_uint32 (pyslice ekey 9 13) ;;
      depth <- pyindex ekey 4 ;;
      let d := mk_derivation (pyslice ekey 13 45) n depth (pyslice ekey 5 9) in
      if (is_public_key : bool) then
        p <- pubkey_from_bytes C (slice_from ekey 45) ;; Ok (inl (make_xpub (pk_point p) d c))
      else
        b <- pyindex ekey 45 ;;
        if negb (b =? 0) then Err ValueError
        else k <- make_xprv (slice_from ekey 46) d c ;; Ok (inr k).
  (** bip32.py:257-265 [bip32_key_from_string] *)
  Definition bip32_key_from_string (s : pystr) : result (xpub + xprv) :=
    e <- base58_decode_check double_sha256 s ;; from_extended_key e.
End Bip32.
Arguments mk_xpub {C}.
Arguments xpub_key {C}.
Arguments xpub_derivation {C}.

(** bip32.py:47 PART_REGEX = "([0-9]+)'?$" matched at the start: some digits, as many as there are, then perhaps an
    apostrophe, then the end or a newline at the end.  Fewer digits can not match, as what follows would be a digit.
    The result is the group. *)
Fixpoint take_digits (s : pystr) : pystr * pystr :=
  match s with
  | c :: r => if is_digit c then let '(d, t) := take_digits r in (c :: d, t) else ([], s)
  | [] => ([], [])
  end.
Definition at_end (s : pystr) : bool := match s with [] => true | [10] => true | _ => false end.
Definition part_match (part : pystr) : option pystr :=
  let '(ds, rest) := take_digits part in
  if zlen ds =? 0 then None
  else if (match rest with 39 :: r => at_end r | _ => false end) || at_end rest then Some ds else None.

(** bip32.py:268-294 [bip32_decompose_chain_string], of a string.  int() of digits is their decimal value; with a
    limit on the digits: IntLimit.v. *)
Definition chain_part (part : pystr) : result Z :=
  match part_match part with
  | None => Err ValueError
  | Some ds =>
    let value := dec_value ds in
    if HARDENED <=? value then Err ValueError
    else l <- pyindex part (-1) ;; Ok (if l =? 39 then value + HARDENED else value)
  end.
Definition bip32_decompose_chain_string (chain_str : pystr) : result (list Z) :=
  match split_on 47 chain_str with
  | [] => Err ValueError
  | m :: parts => if negb (bytes_eqb m (txt "m")) then Err ValueError else mapM chain_part parts
  end.
(** bip32.py:297-303 [bip32_is_valid_chain_string] *)
Definition bip32_is_valid_chain_string (chain_str : pystr) : result bool :=
  match bip32_decompose_chain_string chain_str with
  | Ok _ => Ok true
  | Err e => if is_ValueError e then Ok false else Err e
  end.
(** bip32.py:306-317 [bip32_validate_derivation], of integers *)
Definition bip32_validate_derivation (d : list Z) : result (list Z) :=
  if forallb (fun n => (0 <=? n) && (n <? Z.shiftl 1 32)) d then Ok d else Err ValueError.
(** bip32.py:320-335 [bip32_build_chain_string] *)
Definition build_part (n : Z) : pystr := if n <? HARDENED then str_of_nonneg n else str_of_nonneg (n - HARDENED) ++ [39].
Definition bip32_build_chain_string (d : list Z) : result pystr :=
  d <- bip32_validate_derivation d ;; Ok (join [47] (txt "m" :: map build_part d)).
