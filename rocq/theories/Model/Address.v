(** Model of /repo/bitcoinx/address.py and of classification in script.py, on top of Model/Keys.v.

    Objects are their attributes; arguments have the types that the code expects (bytes for a hash160, a
    Coin for a coin, PublicKey objects or bytes for keys). *)
From Verif.Model Require Import Py Text Packing Misc Curve Coin Base58 Script Cashaddr Keys Bip32.

(** address.py:43-50, 90-94 [Address] ([__str__] is [to_string]), 97-125 [P2PKH_Address] and 128-151 [P2SH_Address] *)
Inductive address := P2PKH (h : bytes) (c : coin) | P2SH (h : bytes) (c : coin).
Definition address_hash160 (a : address) : bytes := match a with P2PKH h _ | P2SH h _ => h end.
Definition address_coin (a : address) : coin := match a with P2PKH _ c | P2SH _ c => c end.

(** address.py:260-265 [_validate_hash160], of bytes *)
Definition validate_hash160 (h : bytes) : result bytes := if zlen h =? 20 then Ok h else Err ValueError.
(** address.py:101-103 and 130-132, the constructors *)
Definition make_P2PKH (h : bytes) (c : coin) : result address := h <- validate_hash160 h ;; Ok (P2PKH h c).
Definition make_P2SH (h : bytes) (c : coin) : result address := h <- validate_hash160 h ;; Ok (P2SH h c).
(** address.py:105-106 and 134-135 [__eq__] *)
Definition address_eqb (a b : address) : bool :=
  match a, b with P2PKH h _, P2PKH h' _ | P2SH h _, P2SH h' _ => bytes_eqb h h' | _, _ => false end.

(** address.py:117-122 and 146-148 [to_script_bytes] *)
Definition address_script (a : address) : result bytes :=
  match a with
  | P2PKH h _ => p <- push_item h ;; Ok ([OP_DUP; OP_HASH160] ++ p ++ [OP_EQUALVERIFY; OP_CHECKSIG])
  | P2SH h _ =>
    x <- pack_byte OP_HASH160 ;; p <- push_item h ;; y <- pack_byte OP_EQUAL ;; Ok (x ++ p ++ y)
  end.

Section Text.
  Variable double_sha256 : bytes -> bytes.

  (** address.py:111-112 and 140-141 [to_string] *)
  Definition address_to_string (a : address) : result pystr :=
    match a with
    | P2PKH h c => v <- pack_byte (c_P2PKH_verbyte c) ;; Ok (base58_encode_check double_sha256 (v ++ h))
    | P2SH h c => v <- pack_byte (c_P2SH_verbyte c) ;; Ok (base58_encode_check double_sha256 (v ++ h))
    end.

  (** address.py:74-88 [_from_cashaddr_string] *)
  Definition from_cashaddr_string (text : pystr) (c : coin) : result address :=
    let prefix := c_cashaddr_prefix c in
    let prefix := if bytes_eqb (upper text) text then upper prefix else prefix in
    let text := if starts_with text (prefix ++ [58]) then text else prefix ++ [58] ++ text in
    '(addr_prefix, kind, h) <- cash_decode text ;;
    if negb (bytes_eqb prefix addr_prefix) then Err AssertionError
    else if kind =? PUBKEY_TYPE then make_P2PKH h c else make_P2SH h c.

  (** address.py:52-72 [from_string] *)
  Definition address_from_base58 (text : pystr) (c : coin) : result address :=
    raw <- base58_decode_check double_sha256 text ;;
    if negb (zlen raw =? 21) then Err ValueError
    else
      verbyte <- pyindex raw 0 ;;
      let h := slice_from raw 1 in
      if verbyte =? c_P2PKH_verbyte c then make_P2PKH h c
      else if verbyte =? c_P2SH_verbyte c then make_P2SH h c
      else Err ValueError.
  Definition address_from_string (text : pystr) (c : coin) : result address :=
    if 35 <? zlen text then
      match from_cashaddr_string text c with
      | Ok a => Ok a
      | Err e => if is_ValueError e then address_from_base58 text c else Err e
      end
    else address_from_base58 text c.
End Text.

(** re.match of b'L*j' and of b'L{3,}\xae$' (script.py:301-305); [L] is OP_PUSHDATA1. *)
Fixpoint skip_pushes (t : bytes) (n : Z) : Z * bytes :=
  match t with
  | x :: r => if x =? OP_PUSHDATA1 then skip_pushes r (n + 1) else (n, t)
  | [] => (n, [])
  end.
Definition match_op_return (t : bytes) : bool :=
  match snd (skip_pushes t 0) with x :: _ => x =? OP_RETURN | [] => false end.
Definition match_multisig (t : bytes) : bool :=
  let '(n, rest) := skip_pushes t 0 in
  (3 <=? n) && match rest with x :: r => (x =? OP_CHECKMULTISIG) && at_end r | [] => false end.

Section Outputs.
  Variable C : curve.

  (** The objects that classification makes, address.py:97-257 *)
  Inductive output :=
  | OAddress (a : address)
  | OP2PK (k : pubkey C) (c : coin)
  | OMultiSig (keys : list (pubkey C)) (threshold : Z)
  | OReturn
  | OUnknown.

  (** address.py:185-191 [P2MultiSig_Output.__init__], of PublicKey objects *)
  Definition make_multisig (keys : list (pubkey C)) (threshold : Z) : result output :=
    if (1 <=? threshold) && (threshold <=? zlen keys) then Ok (OMultiSig keys threshold) else Err ValueError.

  (** The [to_script_bytes] methods: address.py:174-175, 201-206, 238-239, 253-254 *)
  Definition to_script_bytes (o : output) : result bytes :=
    match o with
    | OAddress a => address_script a
    | OP2PK k _ => p <- push_item (pubkey_to_bytes C k None) ;; x <- pack_byte OP_CHECKSIG ;; Ok (p ++ x)
    | OMultiSig keys threshold =>
      m <- push_int threshold ;;
      ps <- mapM (fun k => push_item (pubkey_to_bytes C k None)) keys ;;
      n <- push_int (zlen keys) ;;
      x <- pack_byte OP_CHECKMULTISIG ;;
      Ok (m ++ concat ps ++ n ++ x)
    | OReturn => pack_byte OP_RETURN
    | OUnknown => Err RuntimeError
    end.

  (** The [__eq__] methods: address.py:105-106, 134-135, 162-163, 193-196, 232-233; Unknown_Output has none, and
      two of those are different objects. *)
  Fixpoint pubkeys_eqb (a b : list (pubkey C)) : bool :=
    match a, b with
    | [], [] => true
    | x :: a', y :: b' => pubkey_eqb C x y && pubkeys_eqb a' b'
    | _, _ => false
    end.
  Definition output_eqb (a b : output) : bool :=
    match a, b with
    | OAddress x, OAddress y => address_eqb x y
    | OP2PK x _, OP2PK y _ => pubkey_eqb C x y
    | OMultiSig ks m, OMultiSig ks' m' => pubkeys_eqb ks ks' && (m =? m')
    | OReturn, OReturn => true
    | _, _ => false
    end.

  (** address.py:217-224 [P2MultiSig_Output.from_template]; [items] has at least two elements, or unpacking
      raises ValueError *)
  Definition multisig_from_template (items : list bytes) : result output :=
    match items with
    | threshold :: rest =>
      match rev rest with
      | count :: rkeys =>
        let public_keys := rev rkeys in
        n <- item_to_int count ;;
        if negb (n =? zlen public_keys) then Err ValueError
        else
          m <- item_to_int threshold ;;
          keys <- mapM (pubkey_from_bytes C) public_keys ;;
          make_multisig keys m
      | [] => Err ValueError
      end
    | [] => Err ValueError
    end.

  (** script.py:289-306 [_coin_output_script_templates]: whether a template matches, and what is called with the
      items.  The constructors of addresses and P2PK take one item (TypeError otherwise). *)
  Definition one_item {A} (f : bytes -> result A) (items : list bytes) : result A :=
    match items with [x] => f x | _ => Err TypeError end.
  Definition output_templates (c : coin) : list ((bytes -> bool) * (list bytes -> result output)) := [
    (fun t => bytes_eqb [OP_DUP; OP_HASH160; OP_PUSHDATA1; OP_EQUALVERIFY; OP_CHECKSIG] t,
     one_item (fun h => a <- make_P2PKH h c ;; Ok (OAddress a)));
    (fun t => bytes_eqb [OP_HASH160; OP_PUSHDATA1; OP_EQUAL] t,
     one_item (fun h => a <- make_P2SH h c ;; Ok (OAddress a)));
    (fun t => bytes_eqb [OP_PUSHDATA1; OP_CHECKSIG] t,
     one_item (fun b => k <- pubkey_from_bytes C b ;; Ok (OP2PK k c)));
    (match_op_return, fun _ => Ok OReturn);
    (match_multisig, multisig_from_template)].

  (** script.py:269-286 [_classify_script] *)
  Fixpoint classify_loop (templates : list ((bytes -> bool) * (list bytes -> result output)))
      (template : bytes) (items : list bytes) : result output :=
    match templates with
    | [] => Ok OUnknown
    | (matches, constructor) :: r =>
      if matches template then
        match constructor items with
        | Ok o => Ok o
        | Err e => if is_ValueError e || match e with TypeError => true | _ => false end
                   then classify_loop r template items else Err e
        end
      else classify_loop r template items
    end.
  (** script.py:309-315 [classify_output_script]; the templates are cached on the coin, which changes nothing *)
  Definition classify_output_script (script : bytes) (c : coin) : result output :=
    let '(template, items) := to_template script in classify_loop (output_templates c) template items.

  Section Json.
    Variable double_sha256 hash160 : bytes -> bytes.
    Variable der_ok : bytes -> bool.

    (** keys.py:544-546 [PublicKey.hash160], 438-441 [to_address] (the coin is given), address.py:168-172 *)
    Definition pubkey_hash160 (k : pubkey C) (compressed : option bool) : bytes := hash160 (pubkey_to_bytes C k compressed).
    Definition pubkey_to_address (k : pubkey C) (compressed : option bool) (c : coin) : result address :=
      make_P2PKH (pubkey_hash160 k compressed) c.

    (** The class attribute KIND: address.py:99, 156, 183, 230, 251; P2SH_Address has none. *)
    Definition output_kind (o : output) : result pystr :=
      match o with
      | OAddress (P2PKH _ _) => Ok (txt "pubkeyhash")
      | OAddress (P2SH _ _) => Err AttributeError
      | OP2PK _ _ => Ok (txt "pubkey")
      | OMultiSig _ _ => Ok (txt "multisig")
      | OReturn => Ok (txt "op_return")
      | OUnknown => Ok (txt "unknown")
      end.

    (** script.py:441-458 [to_json]; the dictionary is the list of its entries in order.  16 is
        JSONFlags.CLASSIFY_OUTPUT_SCRIPT (consts.py:46). *)
    Definition script_to_json (s : bytes) (flags : Z) (is_script_sig : bool) (c : coin) : result (list (pystr * pystr)) :=
      asm <- to_asm der_ok s is_script_sig ;;
      let base := [(txt "asm", asm); (txt "hex", to_hex s)] in
      if negb is_script_sig && negb (Z.land flags 16 =? 0) then
        o <- classify_output_script s c ;;
        kind <- output_kind o ;;
        let base := base ++ [(txt "type", kind)] in
        match o with
        | OAddress (P2PKH h c') =>
          a <- address_to_string double_sha256 (P2PKH h c') ;; Ok (base ++ [(txt "address", a)])
        | OP2PK k c' =>
          ad <- pubkey_to_address k None c' ;;
          a <- address_to_string double_sha256 ad ;;
          Ok (base ++ [(txt "pubkey", pubkey_to_hex C k None); (txt "address", a)])
        | _ => Ok base
        end
      else Ok base.
  End Json.
End Outputs.
Arguments OAddress {C}.
Arguments OP2PK {C}.
Arguments OMultiSig {C}.
Arguments OReturn {C}.
Arguments OUnknown {C}.
