{"id": "C01", "title": "Fixed-width integers pack and unpack as exact inverses", "statement": "For each of pack/unpack le/be int32,int64,uint16,uint32,uint64 and pack_byte: packing succeeds exactly on the type's range (struct.error otherwise), gives exactly the type's width in bytes, unpacking the result gives the number back, and packing the result of unpacking any byte string of that width gives the byte string back.", "quantifier": "every integer, every byte string", "why_tests_cant": "2**64 values per type; tests sample a handful", "anchors": ["bitcoinx/packing.py: pack_le_*, pack_be_*, unpack_*"]}
{"id": "C02", "title": "varint encoding round-trips, has the advertised length and is the shortest accepted", "statement": "For every n with 0 <= n < 2**64, reading pack_varint(n) followed by any bytes returns n and leaves exactly those bytes; varint_len(n) is the length of pack_varint(n); outside the range pack_varint raises struct.error and varint_len ValueError; any byte string that read_varint decodes to n is at least as long as pack_varint(n).", "quantifier": "every integer n, every trailing stream", "why_tests_cant": "unbounded trailing data, 2**64 values and all boundaries", "anchors": ["bitcoinx/packing.py: pack_varint, read_varint, varint_len"]}
{"id": "C03", "title": "Length-prefixed data and lists round-trip and never decode when truncated", "statement": "read_varbytes(pack_varbytes(d)+rest) returns d leaving rest; read_list/pack_list round-trip for any item codec that round-trips; every strict prefix of pack_varbytes(d) makes read_varbytes raise.", "quantifier": "every byte string, every list, every cut point", "why_tests_cant": "unbounded sizes and cut points", "anchors": ["bitcoinx/packing.py: pack_varbytes, read_varbytes, pack_list, read_list"]}
{"id": "C04", "title": "Transactions round-trip through bytes and hex", "statement": "For every transaction whose fields are in range, to_bytes succeeds and from_bytes(to_bytes(tx)) == tx; the same through to_hex/from_hex; Tx.read consumes exactly the serialization and nothing after it.", "quantifier": "every transaction with any number of inputs and outputs and any scripts, every trailing stream", "why_tests_cant": "unbounded lists and scripts", "anchors": ["bitcoinx/tx.py: Tx.to_bytes, Tx.read, Tx.from_bytes, TxInput, TxOutput"]}
{"id": "C05", "title": "A truncated transaction is never accepted", "statement": "Every strict prefix of a serialized transaction makes Tx.from_bytes raise; no prefix decodes to some other transaction, although the reader of prev_hash does not check how many bytes it got.", "quantifier": "every transaction, every cut point", "why_tests_cant": "cut points times transactions is unbounded", "anchors": ["bitcoinx/tx.py: Tx.from_bytes, TxInput.read"]}
{"id": "C06", "title": "What the transaction parser accepts is well-formed and stable", "statement": "If Tx.from_bytes(raw) returns tx, every field of tx is in range, tx.to_bytes() succeeds, is no longer than raw, and decodes again to tx; it equals the bytes consumed from raw exactly when every length in raw used its shortest varint. Serializations are not unique: some raw decode although they are not to_bytes of the result.", "quantifier": "every byte string", "why_tests_cant": "arbitrary attacker-chosen input", "anchors": ["bitcoinx/tx.py: Tx.read", "bitcoinx/packing.py: read_varint"]}
{"id": "C07", "title": "Transaction size() is the length of the serialization", "statement": "Tx.size(), TxInput.size() and TxOutput.size() equal the length of to_bytes() for every transaction that serializes.", "quantifier": "every serializable transaction", "why_tests_cant": "unbounded", "anchors": ["bitcoinx/tx.py: Tx.size_io, TxInput.size, TxOutput.size"]}
{"id": "C08", "title": "signature_hash ignores exactly what its sighash flags exclude", "statement": "With ANYONE_CAN_PAY the hash does not depend on other inputs; with NONE it does not depend on outputs nor other inputs' sequences; with SINGLE it depends on no output but the one of the same index (none when out of range); script_sigs never matter.", "quantifier": "every pair of transactions that agree on the committed parts, every index, value, script and sighash", "why_tests_cant": "relational over unbounded pairs", "anchors": ["bitcoinx/tx.py: Tx.signature_hash"]}
{"id": "C09", "title": "signature_hash commits to everything its sighash flags include", "statement": "If two calls build the same preimage (equal hashes of a collision-free double_sha256) then they agree on version, locktime, sighash, the signed outpoint, value, script and sequence, and on all outpoints, all sequences and the outputs that the flags say are signed.", "quantifier": "every pair of calls", "why_tests_cant": "relational over unbounded pairs; needs an injectivity argument", "anchors": ["bitcoinx/tx.py: Tx.signature_hash, TxInput.to_bytes_for_signature"]}
{"id": "C10", "title": "signature_hash rejects exactly bad indices and values", "statement": "It raises IndexError iff the index is not in [0, number of inputs), ValueError iff the index is good and the value negative, and otherwise succeeds with 32 bytes iff the value, sighash, version, sequence etc. fit their fields.", "quantifier": "every transaction, index, value and sighash", "why_tests_cant": "unbounded", "anchors": ["bitcoinx/tx.py: Tx.signature_hash"]}
{"id": "C11", "title": "is_final_for_block is the consensus finality rule", "statement": "A transaction is final for (height, timestamp) iff its locktime is 0, or below the height when under 500,000,000 else below the timestamp, or all its inputs have sequence 0xffffffff.", "quantifier": "every transaction, height and timestamp", "why_tests_cant": "boundary at every combination", "anchors": ["bitcoinx/tx.py: Tx.is_final_for_block, are_inputs_final"]}
{"id": "C12", "title": "is_coinbase is true iff the transaction is a coinbase", "statement": "Tx.is_coinbase returns True iff the transaction has exactly one input and it spends the null outpoint.", "quantifier": "every transaction", "why_tests_cant": "counterexample needs a transaction shape tests do not build", "anchors": ["bitcoinx/tx.py: Tx.is_coinbase, TxInput.is_coinbase"]}
{"id": "C13", "title": "bits -> target -> bits is the identity on valid bits", "statement": "Whenever bits_to_target(bits) returns, target_to_bits of the result is bits again, so no two valid bits share a target; bits_to_target accepts exactly the values target_to_bits can produce, and raises ValueError on all others.", "quantifier": "every integer bits", "why_tests_cant": "2**32 inputs and all negative/large integers", "anchors": ["bitcoinx/work.py: bits_to_target, target_to_bits"]}
{"id": "C14", "title": "target_to_bits rounds down to the greatest representable target", "statement": "For 0 <= target < 2**256 target_to_bits(target) returns bits whose target is the largest representable value not above target, losing less than 2**-15 of it; outside the range it raises ValueError; the result is monotone and never has the sign bit.", "quantifier": "every integer target", "why_tests_cant": "2**256 inputs", "anchors": ["bitcoinx/work.py: target_to_bits"]}
{"id": "C15", "title": "bits_to_work is positive and decreasing in the target", "statement": "For valid bits, bits_to_work is floor(2**256/(target+1)), at least 1 and at most 2**256, and a smaller target never has less work.", "quantifier": "all valid bits", "why_tests_cant": "2**32 inputs and pairs of them", "anchors": ["bitcoinx/work.py: bits_to_work"]}
{"id": "C16", "title": "The 2016-block retarget is bounded and always representable", "statement": "At a retarget height the required target is the previous target scaled by the measured period clamped to [1/4, 4] of two weeks, capped at the coin's limit, and encoded; off retarget heights it is the previous bits; when the needed headers exist with valid bits nothing raises and the result is valid bits not above the limit.", "quantifier": "every chain, every height", "why_tests_cant": "all chains", "anchors": ["bitcoinx/work.py: _required_bits_fortnightly"]}
{"id": "C17", "title": "The DAA never divides by zero and its result is valid and capped", "statement": "For any chain whose needed headers exist with targets of at least 2 and not easier than the coin's limit (and a limit no easier than that of the coins defined here), _required_bits_DAA returns valid bits with target at most the limit, computed from the work between the median-of-three headers and a period clamped to [half a day, two days].", "quantifier": "every chain, every height", "why_tests_cant": "ZeroDivisionError and ValueError paths depend on work/time extremes", "anchors": ["bitcoinx/work.py: _required_bits_DAA"]}
{"id": "C18", "title": "The EDA only ever eases difficulty, by a quarter, under its median-time rule", "statement": "The EDA result equals the fortnightly result at retarget heights or when the median-time-past difference is under 12 hours; otherwise its target is the fortnightly target plus a quarter, capped at the limit, and rounded to bits.", "quantifier": "every chain, every height", "why_tests_cant": "all chains", "anchors": ["bitcoinx/work.py: _required_bits_EDA"]}
{"id": "C19", "title": "Testnet minimum-difficulty rule", "statement": "On testnet up to the DAA height and off retarget heights, a header over 20 minutes after its parent needs the genesis bits, otherwise the bits of the last header that is at a retarget height or is not at genesis bits; after the DAA height the slow rule applies only where enabled; the backward scan always finds a header when none is missing.", "quantifier": "every chain, height and timestamp", "why_tests_cant": "all chains", "anchors": ["bitcoinx/work.py: _required_bits_testnet"]}
{"id": "C20", "title": "median_time_past is the median of the last 11 timestamps", "statement": "For every chain and height with the needed headers present, median_time_past returns a timestamp t among the last min(11, height+1) headers such that exactly the right number are before it: the element of rank n//2 of the sorted timestamps.", "quantifier": "every chain and height", "why_tests_cant": "all chains, sort correctness", "anchors": ["bitcoinx/chain.py: Headers.median_time_past"]}
{"id": "C21", "title": "The headers file is a faithful array of headers", "statement": "After any sequence of set, append and reads from a freshly opened file: reading index i returns the last header written there or raises MissingHeader when none (or the all-zero header) was written; the length is one more than the highest index ever written; a write affects no other index, including when the file grows; append returns the old length.", "quantifier": "every operation sequence", "why_tests_cant": "unbounded histories", "anchors": ["bitcoinx/chain.py: _HeaderStorage"]}
{"id": "C22", "title": "Reopening a headers file preserves its contents or recreates it cleanly", "statement": "Opening a file left by any history with the same checkpoint yields exactly the same contents and length; opening a file that is missing or does not hold the checkpoint yields a file holding only the checkpoint.", "quantifier": "every history, every file contents of at least one byte", "why_tests_cant": "all file contents and histories", "anchors": ["bitcoinx/chain.py: _HeaderStorage.open_or_create, _open_file, _create_file"]}
{"id": "C23", "title": "A process crash during append loses at most the header being added", "statement": "If the process dies at any point during Headers.connect's storage append, reopening the file gives either the headers before it or those headers plus the new one.", "quantifier": "every state, every crash point between file effects", "why_tests_cant": "needs every crash point", "anchors": ["bitcoinx/chain.py: _HeaderStorage._set_raw_header, _set_count"]}
{"id": "C24", "title": "A process crash while creating the headers file is recoverable", "statement": "If the process dies at any point while the headers file is created, a later open_or_create succeeds.", "quantifier": "every checkpoint, every crash point", "why_tests_cant": "needs every crash point", "anchors": ["bitcoinx/chain.py: _HeaderStorage._create_file, open_or_create", "bitcoinx/util.py: map_file"]}
{"id": "C25", "title": "Out-of-range negative indices raise MissingHeader", "statement": "storage[-k] for k greater than the length raises MissingHeader.", "quantifier": "every storage state, every index", "why_tests_cant": "depends on file size and index arithmetic", "anchors": ["bitcoinx/chain.py: _HeaderStorage.__getitem__"]}
{"id": "C26", "title": "Every stored header is found by hash with its own height and chain", "statement": "After any history of connects and set_ones (below the checkpoint) every header connected is returned by lookup(hash) with the same raw bytes, its height one more than its parent's, and the chain it lies on; hashes of no stored header raise MissingHeader; the answer does not depend on the contents of the cache or on cache evictions.", "quantifier": "every history and cache size, hash collisions and cycles excluded", "why_tests_cant": "unbounded histories, short-hash collisions, evictions", "anchors": ["bitcoinx/chain.py: Headers.lookup, _header_index_slow, _add_chain_tip"]}
{"id": "C27", "title": "connect does what its contract says", "statement": "connect(raw): unknown parent -> MissingHeader; already stored -> the stored header and its chain, nothing changed; bits not the required ones -> IncorrectBits; hash above target -> InsufficientPoW; otherwise the header is stored, its height is its parent's plus one, it becomes the tip of its parent's chain if the parent was that chain's tip and otherwise of a new chain whose parent is the parent's chain. Whenever it raises, nothing has changed.", "quantifier": "every history, every 80-byte header", "why_tests_cant": "unbounded histories", "anchors": ["bitcoinx/chain.py: Headers.connect, _read_header"]}
{"id": "C28", "title": "Every chain is hash-linked", "statement": "On every chain, for every height above the checkpoint up to the tip there is a header, and its prev_hash is the hash of the chain's header one below; the header at the checkpoint height is the checkpoint; heights above the tip or negative raise MissingHeader.", "quantifier": "every reachable state, every chain, every height", "why_tests_cant": "unbounded histories and forks", "anchors": ["bitcoinx/chain.py: Chain.header_index, Headers.header_at_height"]}
{"id": "C29", "title": "Chain work is cumulative work", "statement": "On every chain, chain.work is the checkpoint's prev_work plus the work of every header from the checkpoint to the tip, and chainwork_to_height(chain, h) is the same sum up to h.", "quantifier": "every reachable state, every chain, every height from the checkpoint", "why_tests_cant": "unbounded histories and forks", "anchors": ["bitcoinx/chain.py: Chain.work, Headers.chainwork_to_height, chainwork_range"]}
{"id": "C30", "title": "longest_chain has the most work, earliest on ties", "statement": "longest_chain returns a chain whose work is at least every chain's, and more than that of every chain created before it.", "quantifier": "every reachable state", "why_tests_cant": "unbounded", "anchors": ["bitcoinx/chain.py: Headers.longest_chain"]}
{"id": "C31", "title": "Each header belongs to exactly one chain and tips are exactly the leaves", "statement": "Every stored header from the checkpoint up lies in the own part of exactly one chain; chain tips are exactly the stored headers that are no stored header's parent.", "quantifier": "every reachable state", "why_tests_cant": "unbounded histories and forks", "anchors": ["bitcoinx/chain.py: Headers, Chain"]}
{"id": "C32", "title": "common_chain_and_height finds the fork point", "statement": "For any two chains of one Headers object it returns (chain, h) such that both chains have the same header at every height up to h, and not at h+1 (unless one of them ends there); it is symmetric in the height; the returned chain holds height h on its own part.", "quantifier": "every reachable state, every pair of chains", "why_tests_cant": "arbitrary fork trees", "anchors": ["bitcoinx/chain.py: Chain.common_chain_and_height, parent_heights"]}
{"id": "C33", "title": "Reloading the headers file reproduces the chains", "statement": "Closing and reopening with the same checkpoint after any history gives the same chains in the same order with the same tips, heights, work and header at every height, and the same lookups.", "quantifier": "every history of connects and set_ones below the checkpoint", "why_tests_cant": "unbounded histories", "anchors": ["bitcoinx/chain.py: Headers._read_headers, from_file"]}
{"id": "C34", "title": "Every header above the checkpoint was checked for bits and proof of work", "statement": "In every state reached by connects, each header above the checkpoint has a hash not above the target of its bits, and its bits are those required at its height on the chain it extended when it was connected.", "quantifier": "every history", "why_tests_cant": "unbounded histories", "anchors": ["bitcoinx/chain.py: Headers.connect"]}
{"id": "C35", "title": "set_one changes only the header at that height", "statement": "set_one(height, raw) raises ValueError unless 0 <= height <= checkpoint height; below the checkpoint it changes what is read at that height on every chain and nothing else (no chain, tip, work, lookup, or any other height).", "quantifier": "every reachable state, every height and header", "why_tests_cant": "unbounded", "anchors": ["bitcoinx/chain.py: Headers.set_one"]}
{"id": "C36", "title": "push_item pushes exactly its item with the shortest push", "statement": "For every item under 2**32 bytes Script(push_item(item)).ops() yields exactly item; no shorter script does; larger items raise struct.error.", "quantifier": "every byte string", "why_tests_cant": "unbounded lengths and boundaries", "anchors": ["bitcoinx/script.py: push_item, Script.ops"]}
{"id": "C37", "title": "push_int pushes the script number of its value", "statement": "For every integer v (of encodable size) push_int(v) is one push, of an item that item_to_int maps back to v; that item is the shortest with this value; pushes of different integers differ.", "quantifier": "every integer", "why_tests_cant": "infinitely many", "anchors": ["bitcoinx/script.py: push_int, item_to_int"]}
{"id": "C38", "title": "Scripts built with << and push_many parse back to what was appended", "statement": "ops() of a script built by appending opcodes, items, integers and scripts is the concatenation of the parts' ops; push_many equals repeated <<; ops(a+b) = ops(a)+ops(b) whenever a is not truncated.", "quantifier": "every sequence of items", "why_tests_cant": "unbounded sequences", "anchors": ["bitcoinx/script.py: Script.__lshift__, push_many, _to_bytes, ops"]}
{"id": "C39", "title": "ops() consumes every byte string, raising only TruncatedScriptError", "statement": "For every byte string ops() yields a finite list of opcodes (0x50 or above 0x60) and data and then either ends having accounted for every byte, or raises TruncatedScriptError exactly when the last push runs past the end.", "quantifier": "every byte string", "why_tests_cant": "all scripts", "anchors": ["bitcoinx/script.py: Script.ops"]}
{"id": "C40", "title": "ASM text converts back to the same script", "statement": "Script.from_asm(script.to_asm(False)) == script for every script of known opcodes and minimal pushes.", "quantifier": "every such script", "why_tests_cant": "needs pushes whose hex looks decimal", "anchors": ["bitcoinx/script.py: Script.to_asm, from_asm, op_to_asm_word, asm_word_to_bytes"]}
{"id": "C41", "title": "Dropping no-effect operations preserves script evaluation", "statement": "Replacing a script by its stripped operations gives the same final state under any evaluator in which OP_NOP does nothing, a push followed by OP_DROP does nothing, and two pushes followed by OP_2DROP do nothing; push_and_drop_items(items) strips to nothing after any complete script.", "quantifier": "every script, every evaluator obeying the laws", "why_tests_cant": "all scripts and all evaluators", "anchors": ["bitcoinx/script.py: Script._stripped_ops, push_and_drop_items"]}
{"id": "C42", "title": "Output scripts classify back to the output that made them", "statement": "classify_output_script(output.to_script(), coin) == output for every P2PKH and P2SH address, P2PK output and m-of-n multisig output, and every script starting with pushes then OP_RETURN classifies as OP_RETURN output.", "quantifier": "every hash160, every public key, every m-of-n", "why_tests_cant": "unbounded keys and n", "anchors": ["bitcoinx/script.py: classify_output_script", "bitcoinx/address.py"]}
{"id": "C43", "title": "Classification is sound", "statement": "If a script classifies as P2PKH/P2SH of h, P2PK of K or m-of-n multisig, then after removing no-effect operations its operations are exactly that output's standard ones with those data (up to the encoding of public keys); truncated scripts classify as none of these.", "quantifier": "every script", "why_tests_cant": "all scripts", "anchors": ["bitcoinx/script.py: _classify_script, to_template"]}
{"id": "C44", "title": "JSON conversion of any output script succeeds", "statement": "Script.to_json(flags, False, coin) returns for every script and flags.", "quantifier": "every script, every flags", "why_tests_cant": "needs classifying every kind of script", "anchors": ["bitcoinx/script.py: Script.to_json", "bitcoinx/address.py: P2SH_Address"]}
{"id": "C45", "title": "Base58 is a bijection between byte strings and base58 text", "statement": "base58_decode(base58_encode(b)) == b for every non-empty b; base58_encode(base58_decode(t)) == t for every non-empty text over the alphabet; decode raises Base58Error on exactly the empty text and texts with a character outside the alphabet.", "quantifier": "every byte string, every text", "why_tests_cant": "infinitely many, leading zeros", "anchors": ["bitcoinx/base58.py: base58_encode, base58_decode"]}
{"id": "C46", "title": "Base58Check round-trips and accepts nothing but its own encodings", "statement": "base58_decode_check(base58_encode_check(p)) == p for every payload; if base58_decode_check(t) returns p then t == base58_encode_check(p).", "quantifier": "every byte string, every text, every hash function with 32-byte output", "why_tests_cant": "infinitely many", "anchors": ["bitcoinx/base58.py: base58_encode_check, base58_decode_check"]}
{"id": "C47", "title": "Address text round-trips and is unambiguous", "statement": "For every 20-byte hash and defined coin, Address.from_string(address.to_string(), coin) == address (same kind), the text is at most 35 characters; a base58 text parses to at most one address of a coin, whose to_string is that text.", "quantifier": "every hash160, coin, kind and text", "why_tests_cant": "2**160 hashes", "anchors": ["bitcoinx/address.py: Address.from_string, to_string", "bitcoinx/base58.py"]}
{"id": "C48", "title": "Cashaddr decodes what the cashaddr construction encodes", "statement": "For every lower-case prefix, kind 0/1 and hash of a permitted size, decode of prefix:charset(payload+checksum) built by _pack_addr_data and _create_checksum returns (prefix, kind, hash); the upper-case text likewise.", "quantifier": "every prefix, kind and hash", "why_tests_cant": "unbounded", "anchors": ["bitcoinx/cashaddr.py: decode, _pack_addr_data, _create_checksum, _convertbits, _polymod"]}
{"id": "C49", "title": "Cashaddr checksum detects substitution and burst errors", "statement": "If a text decodes, then every text of the same length with the same prefix that differs from it only inside a window of 8 consecutive payload characters is rejected with ValueError, as is any text that differs from it in one to four characters anywhere in prefix and payload (letter case aside; of a prefix character the low five bits count).", "quantifier": "every valid address with a prefix of at most 900 characters, every such error", "why_tests_cant": "all addresses and errors", "anchors": ["bitcoinx/cashaddr.py: _polymod, _decode_payload"]}
{"id": "C50", "title": "Cashaddr decoding is injective and raises only ValueError", "statement": "Two lower-case texts with the same prefix that decode to the same kind and hash are equal; decode of any ASCII string either returns or raises ValueError.", "quantifier": "every string", "why_tests_cant": "all strings", "anchors": ["bitcoinx/cashaddr.py: decode"]}
{"id": "C51", "title": "WIF round-trips", "statement": "PrivateKey.from_WIF(key.to_WIF()) has the same secret and compression flag and a coin with the same WIF byte, for every valid key; from_text accepts the WIF, hex and minikey forms of a key without mistaking one for another.", "quantifier": "every secret in range, both flags, every coin", "why_tests_cant": "2**256 keys", "anchors": ["bitcoinx/keys.py: PrivateKey.to_WIF, from_WIF, from_text"]}
{"id": "C52", "title": "Extended keys round-trip", "statement": "bip32_key_from_string(key.to_extended_key_string()) has the same secret or public key and the same derivation data, for every extended key of depth at most 255, and a coin with the same version bytes; keys deeper than 255 cannot be serialized.", "quantifier": "every extended key", "why_tests_cant": "2**512 keys", "anchors": ["bitcoinx/bip32.py: _from_extended_key, extended_key"]}
{"id": "C53", "title": "Public derivation matches private derivation", "statement": "For every extended private key and every non-hardened n, deriving the child and taking its public key gives the same extended public key as deriving the public child of its public key, and one fails exactly when the other does; hence also for every path of non-hardened steps.", "quantifier": "every key, every path", "why_tests_cant": "all keys and paths; the failing case has probability 2**-127", "anchors": ["bitcoinx/bip32.py: BIP32PrivateKey.child, BIP32PublicKey.child"]}
{"id": "C54", "title": "BIP32 chain strings round-trip and say what they mean", "statement": "bip32_decompose_chain_string(bip32_build_chain_string(d)) == d for every valid derivation d; if a chain string decomposes, each part is a decimal number, hardened iff the part is written with an apostrophe.", "quantifier": "every derivation, every string", "why_tests_cant": "unbounded strings", "anchors": ["bitcoinx/bip32.py: bip32_build_chain_string, bip32_decompose_chain_string"]}
{"id": "C55", "title": "Shared secrets agree", "statement": "For any two keys and message, A.shared_secret(B.public_key, m) == B.shared_secret(A.public_key, m), raising for one side exactly when for the other; likewise ecdh_shared_secret.", "quantifier": "every pair of keys and message, any curve group", "why_tests_cant": "all keys", "anchors": ["bitcoinx/keys.py: PrivateKey.shared_secret, ecdh_shared_secret"]}
{"id": "C56", "title": "ECIES decrypts what it encrypts and rejects what was tampered with", "statement": "key.decrypt_message(key.public_key.encrypt_message(m, magic), magic) == m for every message; any input either decrypts or raises DecryptionError; an input that decrypts has the right magic and carries the MAC of its body under the derived key.", "quantifier": "every key, message, magic and random source, every input", "why_tests_cant": "all messages", "anchors": ["bitcoinx/keys.py: PublicKey.encrypt_message, PrivateKey.decrypt_message"]}
{"id": "C57", "title": "Padding is removed exactly when valid", "statement": "Stripping the PKCS7 padding of padded data gives the data; stripping succeeds only on data that is the padding of its result.", "quantifier": "every byte string", "why_tests_cant": "infinitely many", "anchors": ["bitcoinx/aes.py: _append_PKCS7_padding, _strip_PKCS7_padding"]}
{"id": "C58", "title": "Message signatures convert losslessly", "statement": "to_recoverable_signature(to_message_signature(sig, c)) == sig for every 65-byte recoverable signature with recovery id 0-3 and either flag; message signatures accepted are exactly those of 65 bytes with first byte 27..34.", "quantifier": "every signature", "why_tests_cant": "all byte strings", "anchors": ["bitcoinx/signature.py: to_recoverable_signature, to_message_signature"]}
{"id": "C59", "title": "SigHash text distinguishes all sighash bytes", "statement": "SigHash.to_string is different for different sighash bytes, and the base and anyone_can_pay attributes read the documented bits.", "quantifier": "all 256 values", "why_tests_cant": "pairs", "anchors": ["bitcoinx/signature.py: SigHash"]}
{"id": "C60", "title": "BIP39 mnemonics validate exactly when they encode some entropy", "statement": "For a list of 2048 distinct normalized words: the mnemonic of any entropy of 16, 20, 24, 28 or 32 bytes is valid and of the right word count; and every valid mnemonic is, after normalization, the mnemonic of exactly one such entropy.", "quantifier": "every entropy, every word list, every mnemonic", "why_tests_cant": "2**256 entropies", "anchors": ["bitcoinx/mnemonic.py: BIP39Mnemonic._from_entropy, is_valid"]}
{"id": "C61", "title": "Old Electrum seeds and mnemonics convert losslessly", "statement": "old_to_hex_seed(hex_seed_to_old(h)) == h for every lower-case hex seed of 32 or 64 characters, and hex_seed_to_old(old_to_hex_seed(m)) is m normalized for every valid old mnemonic.", "quantifier": "every seed and mnemonic", "why_tests_cant": "2**256 seeds", "anchors": ["bitcoinx/mnemonic.py: ElectrumMnemonic.old_to_hex_seed, hex_seed_to_old"]}
{"id": "C62", "title": "New Electrum mnemonics have the promised size and validity", "statement": "Whenever generate_new returns, the mnemonic satisfies is_valid_new for the prefix and (with skip_old) is not a valid old mnemonic; entropies drawn by _random_integer encode to exactly word_count words and different entropies to different mnemonics.", "quantifier": "every random source, wordlist and prefix", "why_tests_cant": "all random draws", "anchors": ["bitcoinx/mnemonic.py: ElectrumMnemonic.generate_new, _from_entropy, _random_integer"]}
{"id": "C63", "title": "Displayed hashes convert losslessly", "statement": "hex_str_to_hash(hash_to_hex_str(h)) == h for every h, and hash_to_hex_str(hex_str_to_hash(s)) == s for every even-length lower-case hex s.", "quantifier": "every byte string", "why_tests_cant": "infinitely many", "anchors": ["bitcoinx/hashes.py: hash_to_hex_str, hex_str_to_hash"]}
{"id": "C64", "title": "Integers and byte strings convert losslessly", "statement": "be/le_bytes_to_int(int_to_be/le_bytes(v)) == v for v >= 0 with the least number of bytes, with a size given exactly that many bytes or OverflowError iff it does not fit; chunks() concatenate back to their input with all but the last of full size.", "quantifier": "every integer and size", "why_tests_cant": "infinitely many", "anchors": ["bitcoinx/misc.py: int_to_be_bytes, int_to_le_bytes, chunks"]}
{"id": "C65", "title": "Coins are found by their version bytes", "statement": "Coin.from_WIF_byte and lookup_xver_bytes return a coin carrying exactly the bytes asked for, the first such in all_coins, and raise ValueError when there is none.", "quantifier": "every byte string", "why_tests_cant": "all inputs", "anchors": ["bitcoinx/coin.py: Coin.from_WIF_byte, lookup_xver_bytes"]}
{"id": "C66", "title": "Header fields deserialize consistently", "statement": "For every 80-byte raw header the deserialized header's fields re-serialize to the raw bytes, and header_bits, header_timestamp, header_prev_hash and header_work of the raw bytes agree with it.", "quantifier": "every 80-byte string", "why_tests_cant": "2**640 inputs", "anchors": ["bitcoinx/coin.py: Coin.deserialized_header, header_bits, header_timestamp, header_prev_hash"]}
{"id": "C67", "title": "Combining public keys is order-independent and matches adding private keys", "statement": "combine_keys gives the same key for any order of its arguments, fails exactly when the sum is the point at infinity or there are no keys; PublicKey.add/multiply of a private key's public key equals the public key of PrivateKey.add/multiply, failing together.", "quantifier": "every list of keys", "why_tests_cant": "all keys and permutations", "anchors": ["bitcoinx/keys.py: PublicKey.combine_keys, add, multiply", "bitcoinx/keys.py: PrivateKey.add, multiply"]}
{"id": "C68", "title": "child_safe returns the first derivable child", "statement": "child_safe(n) returns child(m) for the least m >= n with a valid derivation in the same (hardened or not) range, and raises ValueError if n is out of range or none is left.", "quantifier": "every key and n", "why_tests_cant": "invalid children have probability 2**-127", "anchors": ["bitcoinx/bip32.py: child_safe"]}
{"id": "C69", "title": "BIP39 seeds depend exactly on the normalized mnemonic and passphrase", "statement": "to_seed gives the same seed for two mnemonics and passphrases that normalize alike, in particular for mnemonics differing only in white space; and if the key derivation function is injective, different normalized mnemonics or passphrases give different seeds.", "quantifier": "every mnemonic and passphrase, every normalization and key derivation function", "why_tests_cant": "all pairs of texts", "anchors": ["bitcoinx/mnemonic.py: BIP39Mnemonic.to_seed, normalize"]}
{"id": "C70", "title": "Word list files are read as their words", "statement": "A text of lines that are each blank, a comment, or one word between white space is read as the lower-case words in order, or SyntaxError if the count is not the expected one. No list with a space in a word, or of the wrong count, is ever returned, and no other error is raised.", "quantifier": "every text", "why_tests_cant": "all texts", "anchors": ["bitcoinx/mnemonic.py: Wordlists._text_to_wordlist"]}
{"id": "C71", "title": "generate_old_seed makes valid seeds of the promised size", "statement": "For word counts 12 and 24 generate_old_seed returns a seed that is valid, whose mnemonic has that many words, is valid and converts back to the seed; every other count raises ValueError.", "quantifier": "every random source and word count", "why_tests_cant": "all random draws", "anchors": ["bitcoinx/mnemonic.py: ElectrumMnemonic.generate_old_seed"]}
{"id": "C72", "title": "hex_seed_to_old accepts only hexadecimal seeds", "statement": "hex_seed_to_old accepts exactly the hexadecimal texts of 32 or 64 characters.", "quantifier": "every text", "why_tests_cant": "all texts", "anchors": ["bitcoinx/mnemonic.py: ElectrumMnemonic.hex_seed_to_old"]}
{"id": "C73", "title": "Signed messages verify and give the key back", "statement": "For every key and message, what sign_message returns is 65 bytes, is accepted by verify_message of the public key and from_signed_message gives that key; likewise for sign_message_to_base64 (88 characters), for verify_message_and_address with the address of the compressed or uncompressed key, for sign with verify_der_signature (at most 72 bytes) and for sign_recoverable. Signing succeeds once one of the nonces works.", "quantifier": "every key, message, hash function, nonce function and Python version's base64", "why_tests_cant": "all keys and messages", "anchors": ["bitcoinx/keys.py: PrivateKey.sign, sign_recoverable, sign_message, sign_message_to_base64, PublicKey.verify_message, verify_der_signature, verify_recoverable_signature, from_signed_message", "bitcoinx/signature.py"]}
{"id": "C74", "title": "verify_message accepts exactly low-s ECDSA signatures", "statement": "verify_message returns True exactly if the signature is 65 bytes with a header from 27 to 34 and the r and s in it form an ECDSA signature of the framed message by the key, with s below half the order; it raises InvalidSignatureError exactly if the bytes do not have that form or r or s is not below the order. verify_der_signature returns True exactly for the strict DER form of such a signature.", "quantifier": "every key, signature and message", "why_tests_cant": "2**520 signatures", "anchors": ["bitcoinx/keys.py: PublicKey.verify_message, verify_der_signature", "bitcoinx/signature.py: verify_recoverable_signature, verify_der_signature"]}
{"id": "C75", "title": "The key recovered from a signed message verifies it", "statement": "If from_signed_message(sig, m) returns a key then the key's verify_message(sig, m) returns True, and the key is the one determined by r, s and the recovery id.", "quantifier": "every signature and message", "why_tests_cant": "all signatures", "anchors": ["bitcoinx/keys.py: PublicKey.from_signed_message, verify_message"]}
{"id": "C76", "title": "verify_message_and_address is True exactly for signatures by the address's key", "statement": "PublicKey.verify_message_and_address returns True exactly if the signature is a low-s signature of the message by a key whose compressed or uncompressed hash160 is that of the address; it returns False for any other signature and raises only for bad addresses.", "quantifier": "every signature, message and address", "why_tests_cant": "all signatures and addresses", "anchors": ["bitcoinx/keys.py: PublicKey.verify_message_and_address"]}
{"id": "C77", "title": "The framing of signed messages is injective", "statement": "Two messages whose framed forms are equal are equal, text being taken as its UTF-8 encoding; equal framings of two texts come from equal texts.", "quantifier": "every pair of messages", "why_tests_cant": "all pairs", "anchors": ["bitcoinx/keys.py: _normalize_message"]}
{"id": "C78", "title": "DER and compact signatures convert losslessly", "statement": "compact_signature_to_der then der_signature_to_compact is the identity and conversely; what is not a DER signature or not 64 bytes raises InvalidSignatureError.", "quantifier": "every byte string", "why_tests_cant": "all byte strings", "anchors": ["bitcoinx/signature.py: compact_signature_to_der, der_signature_to_compact"]}
{"id": "C79", "title": "Signature objects take exactly signatures and give consistent parts", "statement": "Signature(raw) accepts exactly the missing-signature marker and DER signatures followed by a sighash byte; der_signature and sighash are the parts of raw, r_value and s_value the numbers in it; from_der_sig and from_hex build the same object; the missing signature's parts raise.", "quantifier": "every byte string", "why_tests_cant": "all byte strings", "anchors": ["bitcoinx/signature.py: Signature"]}
{"id": "C80", "title": "Base64 is the standard one, round trips and fails only with known errors", "statement": "b64encode(b) is the RFC 4648 text of b, the bits left over zero; b64decode(t, validate=True) gives b exactly when t is such a text of b with any left-over bits (so different texts can decode alike) and '=' up to a multiple of four (where the Python allows, more). b64decode(b64encode(b), validate=True) == b, the text has 4*ceil(n/3) characters; decoding any text gives bytes or raises binascii.Error, or ValueError for non-ASCII text.", "quantifier": "every byte string and text", "why_tests_cant": "all byte strings", "anchors": ["bitcoinx/keys.py: sign_message_to_base64, encrypt_message_to_base64, decrypt_message", "bitcoinx/signature.py: base64 in verify_message"]}
{"id": "C81", "title": "Private keys from integers, arbitrary bytes, random draws, hex and minikeys", "statement": "from_int(n) succeeds exactly for 0 < n < N with the 32-byte secret of n and ValueError otherwise; to_int inverts it; from_arbitrary_bytes(b) is the key of int(b) mod N, ValueError if that is 0; from_random returns the first acceptable draw; == compares secrets; hex and its inverse agree; is_minikey accepts exactly texts beginning with S of length 22, 26 or 30 whose checksum byte sha256(text + '?')[0] is 0, and from_minikey is the uncompressed key of sha256(text).", "quantifier": "every integer, byte string, sequence of draws and text", "why_tests_cant": "all integers and texts", "anchors": ["bitcoinx/keys.py:110-208 PrivateKey.from_int, from_hex, from_minikey, is_minikey, from_arbitrary_bytes, from_random"]}
{"id": "C82", "title": "Forms of public keys: bytes, hex, points, complement and equality", "statement": "from_bytes(K.to_bytes()) == K in both forms and with the same flag; from_bytes succeeds only on the two forms; == is equality of points; complement changes only the flag; to_point and from_point invert each other.", "quantifier": "every public key over every curve obeying the laws; every byte string", "why_tests_cant": "all keys", "anchors": ["bitcoinx/keys.py:327-450,548-550 PublicKey.from_bytes, to_bytes, from_point, to_point, complement, __eq__"]}
{"id": "C83", "title": "First characters and lengths of addresses, WIF and extended keys", "statement": "Bitcoin P2PKH texts begin with 1 and have at most 34 characters, P2SH with 3 and 34; for the other networks m or n and 34, 2 and 35; WIF texts begin with 5 (51 characters), K or L (52), or 9 (51), c (52) for the other networks; extended keys begin with xprv, xpub, tprv or tpub and have 111 characters.", "quantifier": "every hash160, secret, flag, coin and derivation; every 32-byte checksum function", "why_tests_cant": "2^160 hashes and 2^256 secrets; the leading characters follow from the range of a base-58 quotient", "anchors": ["bitcoinx/address.py:111-112,140-141", "bitcoinx/keys.py:210-220", "bitcoinx/bip32.py:98-100,191-193", "bitcoinx/coin.py:139-195"]}
{"id": "C84", "title": "The JSON object of a transaction says what the transaction is", "statement": "For every well-formed transaction Tx.to_json gives its version, lock time, counts, every input and output in order with its number if asked, the hash in display order, the size of the serialization and the meaning of the lock time if asked; input scripts have exactly asm and hex; coinbase scripts holding UTF-8 text show that text; and two transactions with the same object are equal whatever the flags and coins.", "quantifier": "every well-formed transaction, every flags and coin, every curve and hash functions", "why_tests_cant": "unboundedly many transactions; losslessness is about pairs", "anchors": ["bitcoinx/tx.py:159-197,259-276,321-328", "bitcoinx/script.py:441-458"]}
{"id": "C85", "title": "Exactly when a transaction has a JSON object, and what is said of each kind of output", "statement": "Tx.to_json raises (AttributeError) exactly when outputs are to be classified and some output's script reduces to a P2SH script; otherwise each output says asm and hex, and when classified its kind, and for P2PKH and P2PK the address (and key).", "quantifier": "every well-formed transaction, flags and coin; every script", "why_tests_cant": "needs every script", "anchors": ["bitcoinx/tx.py:182-197,321-328", "bitcoinx/script.py:441-458", "bitcoinx/address.py"]}
{"id": "C86", "title": "Meaning of lock times", "statement": "locktime_description says any block for 0, the height with grouped digits below 500000000, and otherwise the UTC date and time by the Gregorian calendar; different lock times have different descriptions.", "quantifier": "every 32-bit lock time", "why_tests_cant": "2^32 lock times; tests try three", "anchors": ["bitcoinx/tx.py:336-343"]}
{"id": "C87", "title": "The hash an input's JSON object shows is the hash the spent transaction's object shows", "statement": "If an input spends an output of transaction t, the hash entry of its JSON object equals the hash entry of t's JSON object.", "quantifier": "every transaction and input", "why_tests_cant": "tests compare each with a literal, never the two", "anchors": ["bitcoinx/tx.py:159-162,182-197,259-276"]}
{"id": "C88", "title": "When objects are equal, and that equal objects hash alike", "statement": "== of bytes, scripts, signatures, private and public keys (BIP32 or not) and outputs is an equivalence relation with the stated meaning (bytes by contents, private keys by value, public keys by point, outputs by class and contents, coins and compression ignored, unknown outputs by identity); equal objects have equal hashes.", "quantifier": "every pair of objects, any functions for Python's hashes of bytes, tuples and identities", "why_tests_cant": "needs all pairs and all hash functions", "anchors": ["bitcoinx/script.py:350-357", "bitcoinx/signature.py:205-211", "bitcoinx/keys.py:121-127,349-356", "bitcoinx/address.py:105-109,134-138,162-166,193-199,232-236"]}
{"id": "C89", "title": "Printed forms determine what they print, and say numbers in the base they announce", "statement": "The texts of headers, chain errors, inputs, outputs and derivations determine every field they show; a private key's texts depend only on the SHA-256 of its secret; digits printed after 0x are hexadecimal.", "quantifier": "every header, error, input, output, derivation and key", "why_tests_cant": "tests compare one literal text", "anchors": ["bitcoinx/coin.py:70-74", "bitcoinx/chain.py:59-77", "bitcoinx/tx.py", "bitcoinx/bip32.py:172-173", "bitcoinx/keys.py:129-132"]}
{"id": "C90", "title": "Scripts of a key, keys as arguments, hexadecimal of parts, fixed-width readers, random extended keys", "statement": "P2PK_script and P2PKH_script are the standard scripts byte for byte and classify back to the key; outputs made of a key object, its bytes or its hexadecimal are equal; a multisig output can be made exactly of readable keys and 1 <= threshold <= n; inputs and outputs survive hexadecimal; big- and little-endian readers take exactly their width or raise struct.error; hash_to_value is the number the displayed hash denotes; from_random uses the first 64 bytes that give a key.", "quantifier": "every key, argument list, input, output, byte string and random source", "why_tests_cant": "needs every argument", "anchors": ["bitcoinx/keys.py:552-558", "bitcoinx/address.py:158-160,185-191,268-275", "bitcoinx/tx.py", "bitcoinx/packing.py:141-178", "bitcoinx/hashes.py:83-97", "bitcoinx/bip32.py:113-121"]}
{"id": "C91", "title": "The curve: secp256k1 is the group its users assume", "statement": "The points y^2 = x^3 + 7 over the field of 2^256 - 2^32 - 977 elements, added by chords and tangents, are a commutative group; CURVE_ORDER times any point is infinity; every point is k times the generator for exactly one k with 0 < k < CURVE_ORDER; a point is given by x and the parity of y; both serializations read back.", "quantifier": "every point and pair and triple of points of secp256k1", "why_tests_cant": "about 2^256 points; associativity and the order need a proof", "anchors": ["bitcoinx/keys.py:53 CURVE_ORDER", "libsecp256k1 as called by bitcoinx/keys.py"]}
{"id": "C92", "title": "Public keys on secp256k1: which bytes and coordinates are keys, and whose", "statement": "PublicKey.from_bytes reads exactly the compressed, uncompressed and hybrid forms of points of the curve and raises ValueError for everything else; to_point gives the coordinates and from_point takes exactly the points of the curve; every public key is that of exactly one 32-byte secret; signed messages verify and give the key back.", "quantifier": "every byte string, pair of integers, public key, message", "why_tests_cant": "all byte strings and all keys", "anchors": ["bitcoinx/keys.py:110-145,399-436", "bitcoinx/keys.py:487-546"]}
{"id": "C93", "title": "A classified output gives back the script it came from", "statement": "If a script with standard operations and shortest pushes classifies as an output, then to_script() of that output is the script.", "quantifier": "every script paying to a public key", "why_tests_cant": "needs the unusual forms of keys", "anchors": ["bitcoinx/script.py: _classify_script", "bitcoinx/address.py:165-179 P2PK_Output", "bitcoinx/keys.py:399-413"]}
{"id": "C94", "title": "The hash functions are the standard ones", "statement": "sha1, sha256, sha512, ripemd160, double_sha256, hash160, hmac_sha512, HMAC-SHA256 and PBKDF2-HMAC-SHA512 compute what FIPS 180-4, the RIPEMD-160 paper, RFC 2104 and RFC 2898 say, and give 20, 32 or 64 bytes.", "quantifier": "every byte string", "why_tests_cant": "all messages, all lengths including block boundaries", "anchors": ["bitcoinx/hashes.py:36-105", "bitcoinx/mnemonic.py:152"]}
{"id": "C95", "title": "Equal hashes mean equal contents or a collision of the hash function's step", "statement": "If two transactions, two signature hash calls, two chains of headers or two byte strings have the same hash, then they are the same (agree on what is committed to), or computing these hashes exhibits two different steps of SHA-256 or RIPEMD-160 with the same result, or (signature hashes, chains) a string that hashes to zero.", "quantifier": "every pair of byte strings, well-formed transactions, calls, chains of headers", "why_tests_cant": "a statement about all pairs of inputs", "anchors": ["bitcoinx/hashes.py:69-78", "bitcoinx/tx.py:90-157", "bitcoinx/coin.py:96-101"]}
{"id": "C96", "title": "The coins' genesis headers are valid", "statement": "Every coin's genesis header has 80 bytes and a zero previous hash, and its double SHA-256 meets its own target, which is the coin's maximum target.", "quantifier": "every coin", "why_tests_cant": "checked against a proved model of the hash function", "anchors": ["bitcoinx/coin.py:79-84,139-190"]}
{"id": "C97", "title": "The AES functions are AES", "statement": "For keys of 16, 24 or 32 bytes the block cipher computes exactly what FIPS 197 says (substitution by inverses in the field of 256 elements, key schedule, rounds), and is a permutation of blocks. aes_encrypt_with_iv is CBC encryption of the PKCS7-padded data; aes_decrypt_with_iv returns m exactly if m encrypts to the data; the exceptions are ValueError exactly for wrong sizes and BadPaddingError exactly for plaintext that is not padded data.", "quantifier": "every key, iv and data", "why_tests_cant": "2^128 blocks and as many keys; the S-box and the field are compared with their definitions", "anchors": ["bitcoinx/aes.py:47-82"]}
{"id": "C98", "title": "Encrypted messages, with no part left abstract", "statement": "With secp256k1, SHA-512, HMAC-SHA256 and AES: encrypt_message returns exactly magic, compressed ephemeral public key, CBC ciphertext and MAC with the keys cut from the SHA-512 of the shared point; decrypt_message returns m exactly for such messages to the key; what is encrypted to a key, as bytes or base64, decrypts with it.", "quantifier": "every key, random source, message, magic", "why_tests_cant": "all keys and messages; tests check a few round trips", "anchors": ["bitcoinx/keys.py:287-324", "bitcoinx/keys.py:524-542", "bitcoinx/aes.py:63-82"]}
{"id": "C99", "title": "Signing with RFC 6979", "statement": "The nonces are exactly the candidates of RFC 6979 (HMAC-SHA256, secp256k1's order) for hashes below the order, and for other hashes what it would give without reducing the hash. sign, sign_recoverable and sign_message return exactly the signature (DER, compact with recovery id, message form) from the first candidate that is between 1 and the order less one and gives r, s different from zero, with s in the lower half; signing is deterministic.", "quantifier": "every key, message, hash function", "why_tests_cant": "2^256 keys and hashes; retries happen with probability 2^-127 and no test can reach them", "anchors": ["bitcoinx/signature.py:106-131", "bitcoinx/keys.py:236-274"]}
{"id": "C100", "title": "Keys, addresses and wallets with the real functions", "statement": "With secp256k1, SHA-256, RIPEMD-160 and HMAC-SHA512 and nothing assumed: WIF, addresses, extended private and public keys are read back from their texts; equal addresses mean the same key in the same form, or a hash collision located in the two computations; every key derived from a seed is valid, is read back from its text to depth 255, and unhardened derivation of public keys gives the public keys of the private derivation.", "quantifier": "every key, seed, coin, derivation path", "why_tests_cant": "all keys, seeds and paths", "anchors": ["bitcoinx/keys.py:193-220", "bitcoinx/keys.py:410-450", "bitcoinx/address.py:52-150", "bitcoinx/bip32.py"]}
{"id": "C101", "title": "The bundled word lists are read exactly", "statement": "Each BIP39 word list file of the package is UTF-8 text, one word to a line; reading it succeeds with 2048 words, all different, each its own normalization, which are the lines of the file normalized. The Electrum list is read as its 1626 words. In the English list no two words share their first four letters.", "quantifier": "every bundled file; every normalization and lower case that decomposes the characters in question as Unicode does", "why_tests_cant": "tests read the lists but do not check each word's normalization or distinctness", "anchors": ["bitcoinx/mnemonic.py:34-94", "bitcoinx/misc.py:67-69"]}
{"id": "C102", "title": "BIP39 with the bundled lists, SHA-256 and PBKDF2", "statement": "For each bundled list: every entropy of an allowed size has a mnemonic, which is valid and belongs to no other entropy; a text is valid exactly if its normalization is the mnemonic of some entropy; generated mnemonics are valid; the seed is PBKDF2-HMAC-SHA512 with 2048 rounds as defined by the standards, of 64 bytes. Texts that normalize differently have different seeds.", "quantifier": "every entropy, text and passphrase", "why_tests_cant": "2^128 to 2^256 entropies", "anchors": ["bitcoinx/mnemonic.py:97-171"]}
{"id": "C103", "title": "The cache of word lists is transparent", "statement": "In any sequence of calls of original_electrum_wordlist and bip39_wordlist every call gives what reading the file afresh gives: the same words or the same exception.", "quantifier": "every sequence of calls, any contents of the files", "why_tests_cant": "answers depend on the history of calls", "anchors": ["bitcoinx/mnemonic.py:75-94"]}
{"id": "C104", "title": "Difficulty is the correctly rounded quotient", "statement": "Header.difficulty is the double nearest to max_target / target (ties to even), ZeroDivisionError exactly for bits 0 and ValueError exactly for bits that stand for no target. A harder target always has a strictly greater difficulty, bits with equal difficulties are equal, and the easiest target has exactly 1.0.", "quantifier": "every bits; every pair of natural numbers for the division", "why_tests_cant": "about 2^31 valid bits; ties and overflow are rare", "anchors": ["bitcoinx/coin.py:67-68", "bitcoinx/coin.py:96-97"]}
{"id": "C105", "title": "A connect that raises changes nothing, however many chains there are", "statement": "Whenever Headers.connect raises, the object and its file are as before, and the file can be opened again; this holds with any number of chains.", "quantifier": "every reachable state, including those with 2^16 chains; every header", "why_tests_cant": "the failing case needs 65536 forks", "anchors": ["bitcoinx/chain.py:323-340", "bitcoinx/chain.py:362-377", "bitcoinx/chain.py:423-454"]}
{"id": "C106", "title": "Reading numbers from text where Python limits the digits of int()", "statement": "On a Python that limits int() to some number of digits (640 or more, 4300 by default), Script.from_asm returns what it returns without the limit, except that it raises if a word is a decimal number with more digits; it raises nothing but ScriptError. bip32_decompose_chain_string raises nothing but ValueError, and reads what it reads without the limit unless a part has more digits.", "quantifier": "every text, every script, every limit", "why_tests_cant": "needs thousands of digits and depends on the Python used", "anchors": ["bitcoinx/script.py:469-492", "bitcoinx/bip32.py:268-294"]}
{"id": "C107", "title": "New Electrum mnemonics have as many words as the bits asked for need, drawn evenly", "statement": "ElectrumMnemonic.generate_new returns a valid mnemonic of the least number of words w with wordlist_size^w >= 2^bits, up to the accuracy of math.log; every number of w words is as likely to be drawn as any other, up to a factor 1 + 2^-15; so there are at least 2^bits mnemonics to choose from ('with the given bits of entropy'). It raises ValueError for fewer than 132 bits or 2048 words, OverflowError for bits too big for a float, and nothing else.", "quantifier": "every word list of 2048 to 2^63 words, every number of bits, every logarithm with relative error up to 2^-50, everything urandom may return", "why_tests_cant": "uniformity is about all byte strings that urandom may return, and rounding about all sizes", "anchors": ["bitcoinx/mnemonic.py:204-226", "bitcoinx/mnemonic.py:333-349"]}
{"id": "C108", "title": "AES without Cryptodome does the same", "statement": "Whether or not Cryptodome is installed, aes_encrypt_with_iv, aes_decrypt_with_iv, PublicKey.encrypt_message and PrivateKey.decrypt_message return the same bytes and raise the same exceptions for the same arguments.", "quantifier": "every key, initialization vector, data and message of any length", "why_tests_cant": "a test environment has one of the two libraries, and messages may have any length", "anchors": ["bitcoinx/aes.py:36-40", "bitcoinx/aes.py:63-82", "bitcoinx/keys.py:295-324", "bitcoinx/keys.py:524-538"]}
{"id": "C109", "title": "Headers can be read and connected however deep the chains are nested", "statement": "Chain.header_index, which calls itself once for every chain between the chain asked and the one that holds the height, always returns the index or raises MissingHeader; Headers.connect accepts every valid header, whatever the recursion limit of the interpreter.", "quantifier": "every recursion limit, every history of headers, every chain and height, every coin", "why_tests_cant": "tests have a handful of chains; the limit is met only by hundreds of nested forks", "anchors": ["bitcoinx/chain.py:143-154", "bitcoinx/chain.py:396-413", "bitcoinx/chain.py:423-454", "bitcoinx/work.py:80-187"]}
{"id": "C110", "title": "A power failure loses at most the headers connected since the last flush", "statement": "Whatever headers were connected since Headers.flush and whichever pages of the memory map the system had written back, after a power failure the headers that were flushed are still in the file at their places, the file opens, and no header is found in it that connect would refuse.", "quantifier": "every history before the flush, every sequence of connects after it, every size of pages, every choice of the version in which each page and the length of the file reached the disk", "why_tests_cant": "tests cannot choose what the system writes back, and the places where a page ends inside a header are far from the start of the file", "anchors": ["bitcoinx/chain.py:229-243", "bitcoinx/chain.py:271-280", "bitcoinx/chain.py:311-322", "bitcoinx/chain.py:486-487"]}
{"id": "C111", "title": "Two Headers objects of one file", "statement": "If two Headers objects were made from one headers file and connect headers to it in turn, no header is overwritten, each object finds what the other connected, and the file opens again with every connected header in it exactly once.", "quantifier": "every history of the file, every two headers (equal or not) that the objects accept, every coin rule", "why_tests_cant": "no test opens a headers file twice; the outcome depends on what each object keeps in memory, for every history", "anchors": ["bitcoinx/chain.py:229-243", "bitcoinx/chain.py:267-274", "bitcoinx/chain.py:342-394", "bitcoinx/chain.py:423-454", "bitcoinx/util.py:31-40"]}
