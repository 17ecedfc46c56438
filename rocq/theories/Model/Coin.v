(** Model of /repo/bitcoinx/coin.py. *)
From Verif.Model Require Import Py Packing Bits.

(** coin.py:40-52 [Header] *)
Record header := mk_header {
  h_version : Z; h_prev_hash : bytes; h_merkle_root : bytes; h_timestamp : Z; h_bits : Z;
  h_nonce : Z; h_hash : bytes; h_raw : bytes; h_height : Z }.

(** coin.py:54-62 [work], [target], [hash_value] *)
Definition header_obj_work (h : header) : result Z := bits_to_work (h_bits h).
Definition header_obj_target (h : header) : result Z := bits_to_target (h_bits h).
Definition header_hash_value (h : header) : Z := le_int (h_hash h).

(** coin.py:103-104 [header_prev_hash] *)
Definition header_prev_hash (raw : bytes) : bytes := pyslice raw 4 36.
(** coin.py:106-108 [header_timestamp] *)
Definition header_timestamp (raw : bytes) : result Z := unpack_le_uint32 (pyslice raw 68 72).
(** coin.py:110-112 [header_bits] *)
Definition header_bits (raw : bytes) : result Z := unpack_le_uint32 (pyslice raw 72 76).
(** coin.py:114-115 [header_work] *)
Definition header_work (raw : bytes) : result Z := b <- header_bits raw ;; bits_to_work b.

(** packing.py:60,89 [unpack_header]: struct '<i 32s 32s 3I', 80 bytes. *)
Definition unpack_header (raw : bytes) : result (Z * bytes * bytes * Z * Z * Z) :=
  if negb (zlen raw =? 80) then Err StructError
  else
    v <- unpack_le_int32 (ztake 4 raw) ;;
    t <- unpack_le_uint32 (ztake 4 (zdrop 68 raw)) ;;
    b <- unpack_le_uint32 (ztake 4 (zdrop 72 raw)) ;;
    n <- unpack_le_uint32 (ztake 4 (zdrop 76 raw)) ;;
    Ok (v, ztake 32 (zdrop 4 raw), ztake 32 (zdrop 36 raw), t, b, n).

(** coin.py:96-101 [deserialized_header], [header_hash]; [double_sha256] is a parameter. *)
Definition deserialized_header (double_sha256 : bytes -> bytes) (raw : bytes) (height : Z)
  : result header :=
  '(v, p, m, t, b, n) <- unpack_header raw ;;
  Ok (mk_header v p m t b n (double_sha256 raw) raw height).

(** coin.py:77-91: the attributes of a coin that the model uses.  [c_rule] stands for the
    required_bits function. *)
Inductive bits_rule := RuleMainnet | RuleTestnet | RuleScalingTestnet.
Record coin := mk_coin {
  c_id : Z; (* position in all_coins, for identity *)
  c_genesis_header : bytes; c_rule : bits_rule;
  c_P2PKH_verbyte : Z; c_P2SH_verbyte : Z; c_WIF_byte : Z;
  c_xpub_verbytes : bytes; c_xprv_verbytes : bytes; c_cashaddr_prefix : pystr }.

(** coin.py:82-83 genesis_bits and max_target *)
Definition genesis_bits (c : coin) : result Z := header_bits (c_genesis_header c).
Definition max_target (c : coin) : result Z := b <- genesis_bits c ;; bits_to_target b.

(** The genesis headers, coin.py:139-190. *)
Definition genesis_common : bytes :=
  [1; 0; 0; 0] ++ repeat 0 32 ++
  [0x3b; 0xa3; 0xed; 0xfd; 0x7a; 0x7b; 0x12; 0xb2; 0x7a; 0xc7; 0x2c; 0x3e; 0x67; 0x76; 0x8f; 0x61;
   0x7f; 0xc8; 0x1b; 0xc3; 0x88; 0x8a; 0x51; 0x32; 0x3a; 0x9f; 0xb8; 0xaa; 0x4b; 0x1e; 0x5e; 0x4a].
Definition genesis_mainnet : bytes :=
  genesis_common ++ [0x29; 0xab; 0x5f; 0x49; 0xff; 0xff; 0x00; 0x1d; 0x1d; 0xac; 0x2b; 0x7c].
Definition genesis_testnet : bytes :=
  genesis_common ++ [0xda; 0xe5; 0x49; 0x4d; 0xff; 0xff; 0x00; 0x1d; 0x1a; 0xa4; 0xae; 0x18].

Definition bitcoincash : pystr := [98; 105; 116; 99; 111; 105; 110; 99; 97; 115; 104].
Definition bchtest : pystr := [98; 99; 104; 116; 101; 115; 116].

(** coin.py:139-195 *)
Definition Bitcoin : coin :=
  mk_coin 0 genesis_mainnet RuleMainnet 0x00 0x05 0x80
    [0x04; 0x88; 0xb2; 0x1e] [0x04; 0x88; 0xad; 0xe4] bitcoincash.
Definition BitcoinTestnet : coin :=
  mk_coin 1 genesis_testnet RuleTestnet 0x6f 0xc4 0xef
    [0x04; 0x35; 0x87; 0xcf] [0x04; 0x35; 0x83; 0x94] bchtest.
Definition BitcoinScalingTestnet : coin :=
  mk_coin 2 genesis_testnet RuleScalingTestnet 0x6f 0xc4 0xef
    [0x04; 0x35; 0x87; 0xcf] [0x04; 0x35; 0x83; 0x94] bchtest.
Definition BitcoinRegtest : coin :=
  mk_coin 3 genesis_testnet RuleTestnet 0x6f 0xc4 0xef
    [0x04; 0x35; 0x87; 0xcf] [0x04; 0x35; 0x83; 0x94] bchtest.
Definition all_coins : list coin := [Bitcoin; BitcoinTestnet; BitcoinScalingTestnet; BitcoinRegtest].

(** coin.py:117-123 [from_WIF_byte] *)
Fixpoint find_WIF (wif : Z) (l : list coin) : result coin :=
  match l with
  | [] => Err ValueError
  | c :: r => if wif =? c_WIF_byte c then Ok c else find_WIF wif r
  end.
Definition from_WIF_byte (wif : Z) : result coin := find_WIF wif all_coins.
(** coin.py:125-133 [lookup_xver_bytes] *)
Fixpoint find_xver (x : bytes) (l : list coin) : result (coin * bool) :=
  match l with
  | [] => Err ValueError
  | c :: r => if bytes_eqb x (c_xpub_verbytes c) then Ok (c, true)
              else if bytes_eqb x (c_xprv_verbytes c) then Ok (c, false)
              else find_xver x r
  end.
Definition lookup_xver_bytes (x : bytes) : result (coin * bool) := find_xver x all_coins.
