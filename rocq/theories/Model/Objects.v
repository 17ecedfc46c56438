(** Comparison, hashing and printing of objects. *)
From Verif.Model Require Import Py Text Packing Misc Curve Coin Base58 Script Keys Bip32 Address Tx.

(** f'{n:x}' *)
Fixpoint hex_digits (fuel : nat) (n : Z) (acc : pystr) : pystr :=
  match fuel with
  | O => acc
  | S f => let acc := hex_char (n mod 16) :: acc in if n / 16 =? 0 then acc else hex_digits f (n / 16) acc
  end.
Definition hex_of_nonneg (n : Z) : pystr := hex_digits (Z.to_nat (Z.log2 n + 1)) n [].
Definition hex_of_int (n : Z) : pystr := if n <? 0 then 45 :: hex_of_nonneg (- n) else hex_of_nonneg n.

(** coin.py:64-65 [Header.hex_str] and 70-74 [Header.__str__] *)
Definition header_hex_str (h : header) : pystr := hash_to_hex_str (h_hash h).
Definition header_str (h : header) : pystr :=
  txt "Header(version=0x" ++ hex_of_int (h_version h) ++ txt ", prev_hash=" ++ hash_to_hex_str (h_prev_hash h) ++
  txt ", merkle_root=" ++ hash_to_hex_str (h_merkle_root h) ++ txt ", timestamp=" ++ str_of_int (h_timestamp h) ++
  txt ", bits=0x" ++ str_of_int (h_bits h) ++ txt ", nonce=" ++ str_of_int (h_nonce h) ++
  txt ", hash=" ++ header_hex_str h ++ txt ", height=" ++ str_of_int (h_height h) ++ txt ")".
(** chain.py:66-67 [IncorrectBits.__str__]; the exceptions keep the header and the bits (chain.py:61-64, 71-73). *)
Definition incorrect_bits_str (h : header) (required_bits : Z) : pystr :=
  txt "header " ++ header_str h ++ txt " requires bits 0x" ++ str_of_int required_bits.
(** chain.py:75-77 [InsufficientPoW.__str__]; coin.py:58-59 [Header.target], which may raise *)
Definition insufficient_pow_str (h : header) : result pystr :=
  target <- header_obj_target h ;;
  Ok (txt "header f" ++ header_str h ++ txt " hash value f" ++ str_of_int (header_hash_value h) ++ txt " exceeds its target " ++ str_of_int target).

(** tx.py:278-282 [TxInput.__repr__] and 330-333 [TxOutput.__repr__]; str of a script is its hex, script.py:346-348 *)
Definition input_repr (i : tx_input) : pystr :=
  txt "TxInput(prev_hash=""" ++ hash_to_hex_str (prev_hash i) ++ txt """, prev_idx=" ++ str_of_int (prev_idx i) ++
  txt ", script_sig=""" ++ to_hex (script_sig i) ++ txt """, sequence=" ++ str_of_int (sequence i) ++ txt ")".
Definition output_repr (o : tx_output) : pystr :=
  txt "TxOutput(value=" ++ str_of_int (value o) ++ txt ", script_pubkey=""" ++ to_hex (script_pubkey o) ++ txt """)".

(** bip32.py:80-83 [BIP32Derivation.__repr__] *)
Definition derivation_repr (d : derivation) : pystr :=
  txt "BIP32Derivation(chain_code=bytes.fromhex(""" ++ to_hex (d_chain_code d) ++ txt """), n=" ++ str_of_int (d_n d) ++ txt ", depth=" ++ str_of_int (d_depth d) ++
  txt ", parent_fingerprint=bytes.fromhex(""" ++ to_hex (d_parent_fingerprint d) ++ txt """))".

(** tx.py:239-248 and 310-319: [to_hex], [from_bytes], [from_hex] of inputs and outputs.  What follows in the
    stream is left unread. *)
Definition input_to_hex (i : tx_input) : result pystr := b <- input_to_bytes i ;; Ok (to_hex b).
Definition input_from_bytes (b : bytes) : result tx_input := '(i, _) <- read_input b ;; Ok i.
Definition input_from_hex (h : pystr) : result tx_input := b <- from_hex h ;; input_from_bytes b.
Definition output_to_hex (o : tx_output) : result pystr := b <- output_to_bytes o ;; Ok (to_hex b).
Definition output_from_bytes (b : bytes) : result tx_output := '(o, _) <- read_output b ;; Ok o.
Definition output_from_hex (h : pystr) : result tx_output := b <- from_hex h ;; output_from_bytes b.

Section Objects.
  Variable C : curve.

  (** The objects compared: bytes, Script and Signature (script.py, signature.py), private keys and their BIP32
      subclass, public keys and theirs, outputs and addresses with their identity. *)
  Inductive obj :=
  | OBytes (b : bytes) | OScript (s : bytes) | OSignature (raw : bytes)
  | OPriv (k : privkey) | OXprv (k : xprv) | OPub (k : pubkey C) | OXpub (k : xpub C)
  | OOut (id : Z) (o : output C).
  Definition obj_bytes (x : obj) : option bytes := match x with OBytes b | OScript b | OSignature b => Some b | _ => None end.
  Definition obj_priv (x : obj) : option privkey := match x with OPriv k => Some k | OXprv k => Some (xprv_key k) | _ => None end.
  Definition obj_pub (x : obj) : option (pubkey C) := match x with OPub k => Some k | OXpub k => Some (xpub_key k) | _ => None end.

  (** x == y.  The methods are script.py:354-357, signature.py:205-208, keys.py:121-123, 349-352, address.py:105-106,
      134-135, 162-163, 193-196, 232-233.  bytes.__eq__ does not know scripts and signatures, whose method is then
      asked; Unknown_Output has no method, and only the object itself is equal to it. *)
  Definition obj_eqb (x y : obj) : bool :=
    match x with
    | OBytes b | OScript b | OSignature b => match obj_bytes y with Some b' => bytes_eqb b b' | None => false end
    | OPriv _ | OXprv _ => match obj_priv x, obj_priv y with Some k, Some k' => privkey_eqb k k' | _, _ => false end
    | OPub _ | OXpub _ => match obj_pub x, obj_pub y with Some k, Some k' => pubkey_eqb C k k' | _, _ => false end
    | OOut id o => match y with OOut id' o' => match o, o' with OUnknown, OUnknown => id =? id' | _, _ => output_eqb C o o' end | _ => false end
    end.

  (** hash(x): script.py:350-352, signature.py:210-211, keys.py:125-127, 354-356, address.py:108-109, 137-138,
      165-166, 198-199, 235-236.  Python's hashes of bytes, of tuples of hashed things, of identities, and its
      reduction of what __hash__ returns to a machine word are parameters. *)
  Variable hash_bytes : bytes -> Z.
  Variable hash_tuple : list Z -> Z.
  Variable hash_id : Z -> Z.
  Variable hash_reduce : Z -> Z.
  Definition hash_pub (k : pubkey C) : Z := hash_reduce (hash_bytes (pubkey_to_bytes C k (Some true))).
  Definition obj_hash (x : obj) : Z :=
    match x with
    | OBytes b => hash_bytes b
    | OScript b | OSignature b => hash_reduce (hash_bytes b)
    | OPriv k => hash_reduce (hash_bytes (sk_secret k))
    | OXprv k => hash_reduce (hash_bytes (sk_secret (xprv_key k)))
    | OPub k => hash_pub k
    | OXpub k => hash_pub (xpub_key k)
    | OOut _ (OAddress (P2PKH h _)) => hash_reduce (hash_bytes h + 2)
    | OOut _ (OAddress (P2SH h _)) => hash_reduce (hash_bytes h + 3)
    | OOut _ (OP2PK k _) => hash_reduce (hash_pub k + 1)
    | OOut _ (OMultiSig ks m) => hash_reduce (hash_tuple (map hash_pub ks) + m)
    | OOut _ OReturn => hash_reduce 28
    | OOut id OUnknown => hash_id id
    end.

  (** keys.py:129-132 [PrivateKey.__str__] and bip32.py:172-173 [BIP32PrivateKey.__repr__] *)
  Variable sha256 double_sha256 : bytes -> bytes.
  Definition privkey_str (k : privkey) : pystr := to_hex (sha256 (sk_secret k)).
  Definition xprv_repr (k : xprv) : pystr := txt "BIP32PrivateKey(""" ++ privkey_str (xprv_key k) ++ txt """)".

  (** address.py:268-275 [_to_public_key] *)
  Inductive key_arg := KeyObj (k : pubkey C) | KeyHex (s : pystr) | KeyBytes (b : bytes).
  Definition to_public_key (a : key_arg) : result (pubkey C) :=
    match a with KeyObj k => Ok k | KeyHex s => pubkey_from_hex C s | KeyBytes b => pubkey_from_bytes C b end.
  (** address.py:158-160 and 185-191, the constructors of any arguments *)
  Definition new_P2PK (a : key_arg) (c : coin) : result (output C) := k <- to_public_key a ;; Ok (OP2PK k c).
  Definition new_multisig (args : list key_arg) (threshold : Z) : result (output C) :=
    keys <- mapM to_public_key args ;; make_multisig C keys threshold.
  (** keys.py:552-558 [P2PK_script], [P2PKH_script] *)
  Variable hash160 : bytes -> bytes.
  Definition P2PK_script (k : pubkey C) : result bytes := to_script_bytes C (OP2PK k (pk_coin k)).
  Definition P2PKH_script (k : pubkey C) : result bytes := a <- pubkey_to_address C hash160 k None (pk_coin k) ;; address_script a.
End Objects.
