{
 "claims": [
  {
   "property": "C01",
   "status": "proved",
   "theorems": [
    "C01_fixed_width"
   ],
   "note": ""
  },
  {
   "property": "C02",
   "status": "proved",
   "theorems": [
    "C02_varint_roundtrip",
    "C02_varint_out_of_range",
    "C02_varint_shortest"
   ],
   "note": ""
  },
  {
   "property": "C03",
   "status": "proved",
   "theorems": [
    "C03_varbytes",
    "C03_list"
   ],
   "note": ""
  },
  {
   "property": "C04",
   "status": "proved",
   "theorems": [
    "C04_tx_roundtrip",
    "C04_tx_roundtrip_hex"
   ],
   "note": ""
  },
  {
   "property": "C05",
   "status": "proved",
   "theorems": [
    "C05_tx_truncated"
   ],
   "note": ""
  },
  {
   "property": "C06",
   "status": "proved",
   "theorems": [
    "C06_tx_canonical",
    "C06_tx_errors",
    "C06_tx_not_unique"
   ],
   "note": ""
  },
  {
   "property": "C07",
   "status": "proved",
   "theorems": [
    "C07_tx_size",
    "C07_input_size",
    "C07_output_size"
   ],
   "note": ""
  },
  {
   "property": "C08",
   "status": "proved",
   "theorems": [
    "C08_signature_hash_ignores"
   ],
   "note": ""
  },
  {
   "property": "C09",
   "status": "proved",
   "theorems": [
    "C09_signature_hash_binds"
   ],
   "note": ""
  },
  {
   "property": "C10",
   "status": "proved",
   "theorems": [
    "C10_signature_hash_errors",
    "C10_signature_hash_length"
   ],
   "note": ""
  },
  {
   "property": "C11",
   "status": "proved",
   "theorems": [
    "C11_final"
   ],
   "note": ""
  },
  {
   "property": "C12",
   "status": "partial",
   "theorems": [
    "C12_is_coinbase_refuted",
    "C12_is_coinbase_empty_refuted",
    "C12_is_coinbase_partial"
   ],
   "note": "The claim as stated is false of the code: C12_is_coinbase_refuted exhibits a two-input transaction reported as coinbase and C12_is_coinbase_empty_refuted a transaction without inputs for which IndexError is raised. C12_is_coinbase_partial is the exact characterisation of what the code computes."
  },
  {
   "property": "C13",
   "status": "proved",
   "theorems": [
    "C13_bits_to_target",
    "C13_round_trip",
    "C13_injective",
    "C13_domain",
    "C13_error"
   ],
   "note": ""
  },
  {
   "property": "C14",
   "status": "proved",
   "theorems": [
    "C14_rounds_down",
    "C14_total",
    "C14_error",
    "C14_monotone",
    "C14_order"
   ],
   "note": ""
  },
  {
   "property": "C15",
   "status": "proved",
   "theorems": [
    "C15_work",
    "C15_range",
    "C15_decreasing"
   ],
   "note": ""
  },
  {
   "property": "C16",
   "status": "proved",
   "theorems": [
    "C16_genesis",
    "C16_keep",
    "C16_retarget",
    "C16_bounds",
    "C16_mainnet"
   ],
   "note": ""
  },
  {
   "property": "C17",
   "status": "proved",
   "theorems": [
    "C17_DAA",
    "C17_median_unique",
    "C17_mainnet",
    "C17_tiny_targets_refuted",
    "C17_easy_limit_refuted"
   ],
   "note": "The _refuted theorems show that the hypotheses of the positive theorems are needed."
  },
  {
   "property": "C18",
   "status": "proved",
   "theorems": [
    "C18_EDA",
    "C18_retarget_heights",
    "C18_mainnet"
   ],
   "note": ""
  },
  {
   "property": "C19",
   "status": "proved",
   "theorems": [
    "C19_testnet",
    "C19_coins"
   ],
   "note": ""
  },
  {
   "property": "C20",
   "status": "proved",
   "theorems": [
    "C20_median_time_past",
    "C20_unique"
   ],
   "note": ""
  },
  {
   "property": "C21",
   "status": "proved",
   "theorems": [
    "C21_array",
    "C21_writes",
    "C21_slice"
   ],
   "note": ""
  },
  {
   "property": "C22",
   "status": "proved",
   "theorems": [
    "C22_reopen",
    "C22_open_any"
   ],
   "note": ""
  },
  {
   "property": "C23",
   "status": "partial",
   "theorems": [
    "C23_connect_crash_partial",
    "C23_connect_crash_refuted",
    "C23_old_headers_kept"
   ],
   "note": "The claim as stated is false: C23_connect_crash_refuted shows that from every state and for every header there is a crash point (the count is written before the header) after which the file opens with MissingHeader every time. C23_connect_crash_partial: at every crash point the outcome is the old state, the new state, or that; C23_old_headers_kept: the old headers stay in the file."
  },
  {
   "property": "C24",
   "status": "partial",
   "theorems": [
    "C24_create_crash_refuted",
    "C24_create_crash_partial"
   ],
   "note": "The claim as stated is false: C24_create_crash_refuted gives the crash point (truncated to an empty file) after which the file can never be opened. C24_create_crash_partial covers every other crash point."
  },
  {
   "property": "C25",
   "status": "partial",
   "theorems": [
    "C25_negative_refuted",
    "C25_one_below_partial"
   ],
   "note": "The claim as stated is false: C25_negative_refuted exhibits an index below -len that does not raise. C25_one_below_partial is the part that holds."
  },
  {
   "property": "C26",
   "status": "proved",
   "theorems": [
    "C26_stored_found",
    "C26_others_missing",
    "C26_cache_independent"
   ],
   "note": ""
  },
  {
   "property": "C27",
   "status": "partial",
   "theorems": [
    "C27_raising_changes_nothing",
    "C27_no_parent",
    "C27_stored",
    "C27_new"
   ],
   "note": "Proved case by case, under the bounds of the file format and array types (fewer than 2^16 chains, 2^32-1 headers). One case differs from the claim: connecting the checkpoint's own header raises MissingHeader (second part of C27_stored)."
  },
  {
   "property": "C28",
   "status": "proved",
   "theorems": [
    "C28_hash_linked",
    "C28_header_at_height"
   ],
   "note": ""
  },
  {
   "property": "C29",
   "status": "proved",
   "theorems": [
    "C29_work"
   ],
   "note": ""
  },
  {
   "property": "C30",
   "status": "proved",
   "theorems": [
    "C30_longest"
   ],
   "note": ""
  },
  {
   "property": "C31",
   "status": "proved",
   "theorems": [
    "C31_one_chain",
    "C31_tips_are_leaves"
   ],
   "note": ""
  },
  {
   "property": "C32",
   "status": "proved",
   "theorems": [
    "C32_fork_point",
    "C32_symmetric"
   ],
   "note": ""
  },
  {
   "property": "C33",
   "status": "proved",
   "theorems": [
    "C33_reload"
   ],
   "note": ""
  },
  {
   "property": "C34",
   "status": "proved",
   "theorems": [
    "C34_checked_when_connected",
    "C34_all_checked"
   ],
   "note": ""
  },
  {
   "property": "C35",
   "status": "proved",
   "theorems": [
    "C35_set_one_below",
    "C35_set_one_out_of_range",
    "C35_set_one_checkpoint"
   ],
   "note": ""
  },
  {
   "property": "C36",
   "status": "proved",
   "theorems": [
    "C36_push_item"
   ],
   "note": ""
  },
  {
   "property": "C37",
   "status": "proved",
   "theorems": [
    "C37_push_int",
    "C37_injective",
    "C37_item_to_int"
   ],
   "note": ""
  },
  {
   "property": "C38",
   "status": "proved",
   "theorems": [
    "C38_concat",
    "C38_push_many_is_repeated_append",
    "C38_parts",
    "C38_part"
   ],
   "note": ""
  },
  {
   "property": "C39",
   "status": "proved",
   "theorems": [
    "C39_ops",
    "C39_whole",
    "C39_truncated",
    "C39_opcodes"
   ],
   "note": ""
  },
  {
   "property": "C40",
   "status": "partial",
   "theorems": [
    "C40_roundtrip_exactly",
    "C40_refuted"
   ],
   "note": "The claim as stated is false: C40_refuted pushes five zero bytes, whose ASM text reads back as the number 0. C40_roundtrip_exactly is an exact characterisation of the scripts that survive the round trip (with a limit on the digits of int(): C106)."
  },
  {
   "property": "C41",
   "status": "proved",
   "theorems": [
    "C41_strip_preserves",
    "C41_strip_complete",
    "C41_push_and_drop_items",
    "C41_push_and_drop_item"
   ],
   "note": ""
  },
  {
   "property": "C42",
   "status": "proved",
   "theorems": [
    "C42_P2PKH",
    "C42_P2SH",
    "C42_P2PK",
    "C42_multisig",
    "C42_equal",
    "C42_script_exists",
    "C42_op_return"
   ],
   "note": ""
  },
  {
   "property": "C43",
   "status": "proved",
   "theorems": [
    "C43_P2PKH",
    "C43_P2SH",
    "C43_P2PK",
    "C43_multisig",
    "C43_op_return",
    "C43_truncated",
    "C43_total"
   ],
   "note": ""
  },
  {
   "property": "C44",
   "status": "partial",
   "theorems": [
    "C44_refuted",
    "C44_exactly"
   ],
   "note": "The claim is false of the code: C44_refuted, the script of a P2SH address raises AttributeError for every curve, hash, coin when flags contain the classification bit, because P2SH_Address has no KIND. C44_exactly: for every script, flags and defined coin that is the only failure, and it happens exactly for scripts that reduce to a P2SH script."
  },
  {
   "property": "C45",
   "status": "proved",
   "theorems": [
    "C45_decode_encode",
    "C45_encode_decode",
    "C45_domain",
    "C45_meaning"
   ],
   "note": ""
  },
  {
   "property": "C46",
   "status": "proved",
   "theorems": [
    "C46_decode_encode",
    "C46_only_own_encodings",
    "C46_meaning",
    "C46_only_Base58Error"
   ],
   "note": ""
  },
  {
   "property": "C47",
   "status": "proved",
   "theorems": [
    "C47_roundtrip",
    "C47_unambiguous",
    "C47_exactly",
    "C47_injective",
    "C47_errors",
    "C47_prefixes"
   ],
   "note": ""
  },
  {
   "property": "C48",
   "status": "proved",
   "theorems": [
    "C48_decode",
    "C48_groups",
    "C48_exactly"
   ],
   "note": ""
  },
  {
   "property": "C49",
   "status": "proved",
   "theorems": [
    "C49_window",
    "C49_two_characters",
    "C49_four_characters",
    "C49_prefix_refuted"
   ],
   "note": "Four characters is what the Hartmann-Tzeng argument gives for this generator; C49_prefix_refuted shows why only the low five bits of prefix characters count: 'q:...' and '1:...' have the same checksum."
  },
  {
   "property": "C50",
   "status": "partial",
   "theorems": [
    "C50_injective",
    "C50_injective_cases",
    "C50_errors_refuted",
    "C50_errors_partial"
   ],
   "note": "Injectivity is proved (C50_injective). The claim about exceptions is false as stated: C50_errors_refuted, a payload consisting of the checksum alone raises IndexError. C50_errors_partial: that is the only case."
  },
  {
   "property": "C51",
   "status": "proved",
   "theorems": [
    "C51_roundtrip",
    "C51_inverse",
    "C51_errors",
    "C51_text_WIF",
    "C51_text_hex",
    "C51_text_minikey"
   ],
   "note": ""
  },
  {
   "property": "C52",
   "status": "proved",
   "theorems": [
    "C52_private",
    "C52_public",
    "C52_deep",
    "C52_inverse",
    "C52_errors",
    "C52_layout",
    "C52_layout_public",
    "C52_reachable"
   ],
   "note": ""
  },
  {
   "property": "C53",
   "status": "proved",
   "theorems": [
    "C53_child",
    "C53_path",
    "C53_public_key",
    "C53_child_value"
   ],
   "note": ""
  },
  {
   "property": "C54",
   "status": "partial",
   "theorems": [
    "C54_roundtrip",
    "C54_build",
    "C54_newline_refuted",
    "C54_decompose_partial",
    "C54_no_newline_partial",
    "C54_errors",
    "C54_is_valid",
    "C54_rebuild"
   ],
   "note": "The round trip holds (C54_roundtrip). The second half is false as stated: C54_newline_refuted, a part may end with a newline ('$' in the regular expression), and then an apostrophe before it is ignored, so \"m/44'\\n\" is the unhardened 44. C54_decompose_partial is the exact characterisation; C54_no_newline_partial gives the claim for strings without newlines. With a limit on the digits of int(): C106."
  },
  {
   "property": "C55",
   "status": "proved",
   "theorems": [
    "C55_shared_secret",
    "C55_fails",
    "C55_ecdh",
    "C55_public_key"
   ],
   "note": ""
  },
  {
   "property": "C56",
   "status": "partial",
   "theorems": [
    "C56_roundtrip",
    "C56_encrypts",
    "C56_accepts",
    "C56_errors",
    "C56_base64",
    "C56_text_errors_partial",
    "C56_text_refuted"
   ],
   "note": "The round trip, tamper rejection and errors hold for bytes (C56_base64 for base64 text). The claim about exceptions is false for str arguments: C56_text_refuted, a non-ASCII text raises ValueError. C56_text_errors_partial: that is the only other exception."
  },
  {
   "property": "C57",
   "status": "proved",
   "theorems": [
    "C57_append",
    "C57_strip",
    "C57_strip_inv",
    "C57_errors"
   ],
   "note": ""
  },
  {
   "property": "C58",
   "status": "proved",
   "theorems": [
    "C58_roundtrip",
    "C58_accepted",
    "C58_rejected",
    "C58_inverse"
   ],
   "note": ""
  },
  {
   "property": "C59",
   "status": "proved",
   "theorems": [
    "C59_text_total",
    "C59_text_injective",
    "C59_attributes",
    "C59_text",
    "C59_names"
   ],
   "note": ""
  },
  {
   "property": "C60",
   "status": "proved",
   "theorems": [
    "C60_from_entropy",
    "C60_valid_exactly",
    "C60_unique",
    "C60_invalid",
    "C60_generate"
   ],
   "note": ""
  },
  {
   "property": "C61",
   "status": "proved",
   "theorems": [
    "C61_seed",
    "C61_lower_seed",
    "C61_mnemonic",
    "C61_valid_exactly"
   ],
   "note": ""
  },
  {
   "property": "C62",
   "status": "proved",
   "theorems": [
    "C62_valid",
    "C62_random",
    "C62_word_count",
    "C62_search",
    "C62_injective"
   ],
   "note": ""
  },
  {
   "property": "C63",
   "status": "proved",
   "theorems": [
    "C63_hash_hex",
    "C63_hex_hash",
    "C63_text"
   ],
   "note": ""
  },
  {
   "property": "C64",
   "status": "proved",
   "theorems": [
    "C64_le_least",
    "C64_be_least",
    "C64_negative",
    "C64_sized",
    "C64_chunks",
    "C64_pieces_unique"
   ],
   "note": ""
  },
  {
   "property": "C65",
   "status": "proved",
   "theorems": [
    "C65_from_WIF_byte",
    "C65_lookup_xver_bytes",
    "C65_shared_bytes"
   ],
   "note": ""
  },
  {
   "property": "C66",
   "status": "proved",
   "theorems": [
    "C66_header_fields",
    "C66_other_lengths"
   ],
   "note": ""
  },
  {
   "property": "C67",
   "status": "proved",
   "theorems": [
    "C67_combine_order",
    "C67_combine",
    "C67_combine_secrets",
    "C67_add",
    "C67_multiply",
    "C67_add_secret",
    "C67_multiply_secret"
   ],
   "note": ""
  },
  {
   "property": "C68",
   "status": "proved",
   "theorems": [
    "C68_private",
    "C68_private_stops",
    "C68_public",
    "C68_public_stops"
   ],
   "note": ""
  },
  {
   "property": "C69",
   "status": "proved",
   "theorems": [
    "C69_same",
    "C69_different",
    "C69_words"
   ],
   "note": ""
  },
  {
   "property": "C70",
   "status": "proved",
   "theorems": [
    "C70_read",
    "C70_sound",
    "C70_errors"
   ],
   "note": ""
  },
  {
   "property": "C71",
   "status": "proved",
   "theorems": [
    "C71_old_seed"
   ],
   "note": ""
  },
  {
   "property": "C72",
   "status": "partial",
   "theorems": [
    "C72_not_hexadecimal_refuted",
    "C72_length_partial"
   ],
   "note": "The claim as stated is false: int(chunk, 16) accepts signs, 0x, underscores and white space, C72_not_hexadecimal_refuted. C72_length_partial: the length is checked; C61_seed: hexadecimal texts are accepted."
  },
  {
   "property": "C73",
   "status": "proved",
   "theorems": [
    "C73_message",
    "C73_base64",
    "C73_address",
    "C73_der",
    "C73_recoverable",
    "C73_signs",
    "C73_errors"
   ],
   "note": ""
  },
  {
   "property": "C74",
   "status": "proved",
   "theorems": [
    "C74_exactly",
    "C74_raises",
    "C74_text",
    "C74_der"
   ],
   "note": ""
  },
  {
   "property": "C75",
   "status": "partial",
   "theorems": [
    "C75_exactly",
    "C75_verifies_partial",
    "C75_high_s_refuted"
   ],
   "note": "The claim as stated is false: C75_high_s_refuted, every signature that verifies has a twin with s replaced by N - s from which the same key is recovered but which the key rejects. C75_exactly characterises recovery; C75_verifies_partial: the recovered key verifies exactly if s is in the lower half."
  },
  {
   "property": "C76",
   "status": "partial",
   "theorems": [
    "C76_exactly",
    "C76_errors_partial",
    "C76_text_refuted"
   ],
   "note": "C76_exactly is the exact condition for True. The claim that other signatures give False is false for text: C76_text_refuted, non-ASCII text raises ValueError. C76_errors_partial: for bytes it raises only for bad addresses."
  },
  {
   "property": "C77",
   "status": "proved",
   "theorems": [
    "C77_framed",
    "C77_injective",
    "C77_texts",
    "C77_total"
   ],
   "note": ""
  },
  {
   "property": "C78",
   "status": "partial",
   "theorems": [
    "C78_compact_roundtrip",
    "C78_der_exactly",
    "C78_der_errors",
    "C78_der_roundtrip",
    "C78_compact_errors",
    "C78_compact_refuted",
    "C78_der_refuted"
   ],
   "note": "Lossless for numbers from 1 (or 0, in the compact direction) to the order less one: C78_compact_roundtrip, C78_der_roundtrip. False otherwise: C78_compact_refuted, out-of-range numbers silently become the zero signature; C78_der_refuted, different DER byte strings read as the same signature. C78_der_exactly characterises what is read."
  },
  {
   "property": "C79",
   "status": "partial",
   "theorems": [
    "C79_accepted",
    "C79_parts",
    "C79_missing",
    "C79_from_der_sig",
    "C79_hex",
    "C79_from_der_sig_refuted",
    "C79_from_der_sig_partial"
   ],
   "note": "One case of the claim fails: C79_from_der_sig_refuted, from_der_sig(b'', 0xff) is the missing signature. C79_from_der_sig_partial: otherwise it takes exactly DER signatures."
  },
  {
   "property": "C80",
   "status": "partial",
   "theorems": [
    "C80_roundtrip",
    "C80_length",
    "C80_decodes",
    "C80_errors",
    "C80_encode",
    "C80_decode",
    "C80_unique_refuted"
   ],
   "note": "Round trip, standard alphabet and padding, errors and the exact language of the decoder are proved (C80_encode, C80_decode). One text per byte string is false of the code: C80_unique_refuted, the unused bits of the last character are ignored."
  },
  {
   "property": "C81",
   "status": "proved",
   "theorems": [
    "C81_from_int",
    "C81_to_int",
    "C81_arbitrary_bytes",
    "C81_random",
    "C81_equal",
    "C81_hex",
    "C81_minikey",
    "C81_from_minikey"
   ],
   "note": ""
  },
  {
   "property": "C82",
   "status": "proved",
   "theorems": [
    "C82_roundtrip",
    "C82_from_bytes",
    "C82_equal",
    "C82_complement",
    "C82_to_point",
    "C82_from_point"
   ],
   "note": ""
  },
  {
   "property": "C83",
   "status": "proved",
   "theorems": [
    "C83_P2PKH",
    "C83_P2SH",
    "C83_test_P2PKH",
    "C83_test_P2SH",
    "C83_WIF",
    "C83_xprv",
    "C83_xpub"
   ],
   "note": ""
  },
  {
   "property": "C84",
   "status": "proved",
   "theorems": [
    "C84_says",
    "C84_lossless",
    "C84_coinbase_text",
    "C84_input_flags",
    "C84_encode",
    "C84_coinbase_any"
   ],
   "note": ""
  },
  {
   "property": "C85",
   "status": "proved",
   "theorems": [
    "C85_exactly",
    "C85_plain",
    "C85_pubkeyhash",
    "C85_pubkey",
    "C85_multisig",
    "C85_op_return"
   ],
   "note": ""
  },
  {
   "property": "C86",
   "status": "proved",
   "theorems": [
    "C86_meaning",
    "C86_distinct"
   ],
   "note": ""
  },
  {
   "property": "C87",
   "status": "partial",
   "theorems": [
    "C87_exactly",
    "C87_refuted"
   ],
   "note": "The claim is false of the code: C87_refuted gives two well-formed transactions. Tx.to_json shows its hash reversed (display order) while TxInput.to_json shows prev_hash as stored. C87_exactly: for every transaction, input and hash function the two agree exactly when the hash reads the same in both directions."
  },
  {
   "property": "C88",
   "status": "proved",
   "theorems": [
    "C88_meaning",
    "C88_equivalence",
    "C88_hash"
   ],
   "note": ""
  },
  {
   "property": "C89",
   "status": "partial",
   "theorems": [
    "C89_header",
    "C89_incorrect_bits",
    "C89_insufficient_pow",
    "C89_bits_exactly",
    "C89_bits_refuted",
    "C89_input",
    "C89_output",
    "C89_derivation",
    "C89_secret"
   ],
   "note": "Everything but the last clause is proved; the last clause is false of the code: C89_bits_refuted. Header.__str__ and IncorrectBits.__str__ print bits after 0x in decimal; C89_bits_exactly: the text is right as hexadecimal exactly when bits < 10."
  },
  {
   "property": "C90",
   "status": "proved",
   "theorems": [
    "C90_key_args",
    "C90_multisig",
    "C90_scripts",
    "C90_input_hex",
    "C90_output_hex",
    "C90_readers",
    "C90_hash_value",
    "C90_total_value",
    "C90_random"
   ],
   "note": ""
  },
  {
   "property": "C91",
   "status": "proved",
   "theorems": [
    "C91_points",
    "C91_coords",
    "C91_addition",
    "C91_sum_unique",
    "C91_laws",
    "C91_uncompressed",
    "C91_coords_laws",
    "C91_generated"
   ],
   "note": ""
  },
  {
   "property": "C92",
   "status": "proved",
   "theorems": [
    "C92_from_bytes",
    "C92_from_bytes_raises",
    "C92_to_point",
    "C92_from_point",
    "C92_one_secret",
    "C92_message"
   ],
   "note": ""
  },
  {
   "property": "C93",
   "status": "partial",
   "theorems": [
    "C93_multisig",
    "C93_addresses",
    "C93_exactly",
    "C93_refuted"
   ],
   "note": "False of the code: C93_refuted. A key in the hybrid form (first byte 6 or 7) is read, but is written in the uncompressed form, so that the output's script, hash160 and address are not those of the script. C93_exactly: an output paying to a key gives its script back exactly if the key is not hybrid. Multisig scripts likewise: C93_multisig. Addresses always give their script: C93_addresses."
  },
  {
   "property": "C94",
   "status": "proved",
   "theorems": [
    "C94_sha256",
    "C94_sha512",
    "C94_sha1",
    "C94_ripemd160",
    "C94_double_sha256",
    "C94_hash160",
    "C94_hmac_sha512",
    "C94_hmac_sha256",
    "C94_pbkdf2",
    "C94_primes",
    "C94_sizes"
   ],
   "note": ""
  },
  {
   "property": "C95",
   "status": "proved",
   "theorems": [
    "C95_sha256",
    "C95_ripemd160",
    "C95_double_sha256",
    "C95_hash160",
    "C95_tx_hash",
    "C95_signature_hash",
    "C95_header_chain"
   ],
   "note": ""
  },
  {
   "property": "C96",
   "status": "proved",
   "theorems": [
    "C96_start",
    "C96_new_file",
    "C96_genesis"
   ],
   "note": ""
  },
  {
   "property": "C97",
   "status": "proved",
   "theorems": [
    "C97_block",
    "C97_permutation",
    "C97_encrypt",
    "C97_encrypts",
    "C97_decrypt",
    "C97_errors"
   ],
   "note": ""
  },
  {
   "property": "C98",
   "status": "proved",
   "theorems": [
    "C98_roundtrip",
    "C98_encrypts",
    "C98_base64",
    "C98_decrypt",
    "C98_encrypt"
   ],
   "note": ""
  },
  {
   "property": "C99",
   "status": "proved",
   "theorems": [
    "C99_nonce",
    "C99_nonce_unreduced",
    "C99_sign",
    "C99_sign_recoverable",
    "C99_sign_message",
    "C99_deterministic"
   ],
   "note": ""
  },
  {
   "property": "C100",
   "status": "proved",
   "theorems": [
    "C100_WIF",
    "C100_address",
    "C100_address_of_one_key",
    "C100_xprv",
    "C100_xpub",
    "C100_wallet"
   ],
   "note": ""
  },
  {
   "property": "C101",
   "status": "proved",
   "theorems": [
    "C101_read",
    "C101_utf8",
    "C101_electrum",
    "C101_four_letters"
   ],
   "note": ""
  },
  {
   "property": "C102",
   "status": "partial",
   "theorems": [
    "C102_from_entropy",
    "C102_valid_exactly",
    "C102_unique",
    "C102_generate",
    "C102_seed",
    "C102_nul",
    "C102_different_refuted"
   ],
   "note": "All but the last clause is proved. The last is false: C102_different_refuted; C102_nul: every English mnemonic of 12 words has the same seed as the text with a NUL after it, for every passphrase, because HMAC pads short keys with zeros."
  },
  {
   "property": "C103",
   "status": "partial",
   "theorems": [
    "C103_transparent_partial",
    "C103_words",
    "C103_length_refuted"
   ],
   "note": "False of the code in one case: C103_length_refuted, bip39_wordlist('electrum_old.txt') raises SyntaxError, but after the Electrum list has been used it returns those 1626 words, since the cache ignores the expected length. C103_transparent_partial: without that call the claim holds for any files and any sequence; C103_words: what is returned is always the words of the file."
  },
  {
   "property": "C104",
   "status": "proved",
   "theorems": [
    "C104_division",
    "C104_difficulty",
    "C104_monotone",
    "C104_injective",
    "C104_one"
   ],
   "note": ""
  },
  {
   "property": "C105",
   "status": "partial",
   "theorems": [
    "C105_overflow",
    "C105_reachable",
    "C105_raising_changes_nothing_refuted"
   ],
   "note": "False of the code: chain indices are kept in an array of 16-bit numbers, and the append to it raises after the header was written and the chain added. C105_overflow: in every state with 2^16 chains, a valid header that forks raises OverflowError, is in the file, makes lookup raise IndexError, and the file raises OverflowError whenever it is opened. C105_reachable: states with any number of chains up to 2^16 are reached; C105_raising_changes_nothing_refuted is a whole such history. C27_raising_changes_nothing is the claim below 2^16 chains."
  },
  {
   "property": "C106",
   "status": "partial",
   "theorems": [
    "C106_no_limit",
    "C106_reads",
    "C106_errors",
    "C106_first",
    "C106_roundtrip",
    "C106_refuted",
    "C106_chain",
    "C106_chain_errors"
   ],
   "note": "One clause is false of the code: C106_refuted, for every limit there is a script whose ASM text raises ValueError in from_asm (int() is called outside the try), though it reads back correctly without a limit. C106_reads, C106_errors, C106_first: exactly when; C106_roundtrip: the scripts that survive. C106_no_limit: without a limit only ScriptError is raised (texts below 2^32 characters)."
  },
  {
   "property": "C107",
   "status": "partial",
   "theorems": [
    "C107_accurate",
    "C107_word_count",
    "C107_least",
    "C107_exact",
    "C107_errors",
    "C107_size",
    "C107_uniform",
    "C107_first",
    "C107_generate",
    "C107_draw",
    "C107_no_words",
    "C107_refused",
    "C107_entropy_refuted"
   ],
   "note": "One clause is false of the code: C107_entropy_refuted, with 2048 words and 132 bits at most 2^132 - 2^121 mnemonics can be returned, because the most significant word is never the first of the list (and only those with the prefix are). Proved: the number of words (C107_word_count within 2^-48 of the bits, C107_least, C107_exact), the number of bytes drawn (C107_size), evenness (C107_uniform, C107_first), the whole function (C107_generate, C107_refused), errors (C107_errors)."
  },
  {
   "property": "C108",
   "status": "partial",
   "theorems": [
    "C108_encrypt",
    "C108_encrypt_says",
    "C108_decrypt",
    "C108_errors",
    "C108_refuted",
    "C108_differ",
    "C108_library",
    "C108_messages"
   ],
   "note": "False of the code in one respect: C108_refuted, C108_differ: for data that is empty or not whole blocks aes_decrypt_with_iv raises Exception itself with pyaes, and BadPaddingError or ValueError with Cryptodome. Proved: encryption is the same for all arguments, exceptions included (C108_encrypt), decryption gives the same bytes (C108_decrypt), all exceptions of pyaes (C108_errors), and messages behave the same in every case, exceptions included (C108_messages)."
  },
  {
   "property": "C109",
   "status": "partial",
   "theorems": [
    "C109_index",
    "C109_connect",
    "C109_connect_enough",
    "C109_read_enough",
    "C109_connect_refuted",
    "C109_read_refuted"
   ],
   "note": "False of the code: C109_connect_refuted, C109_read_refuted: with room for fewer than 2016 calls (the default limit of Python is 1000) some sequence of valid headers is connected and the next valid header raises RecursionError, however often it is presented; with any number of calls below the number of chains that can exist some stored header cannot be read by its height. Proved: exactly when a lookup raises it, namely when more chains are gone through than calls fit (C109_index); connecting raises it without changing the object or the file, or does what it does without a limit (C109_connect); 2016 calls are always enough to connect, for every coin, and 147 once the coin follows the DAA (C109_connect_enough), so mainnet headers of today connect under the default limit; reading near the start of a chain, or while there are no more chains than calls, is not affected (C109_read_enough). The number of calls that fit is a parameter; in the code it varies by the few frames of the callers."
  },
  {
   "property": "C110",
   "status": "partial",
   "theorems": [
    "C110_kept_partial",
    "C110_recovered_partial",
    "C110_opens_refuted",
    "C110_torn_refuted",
    "C110_places"
   ],
   "note": "False of the code in its second and third part. Proved: the flushed headers are at their places after any power failure (C110_kept_partial); if the page with the count was not written back the file opens with exactly the flushed chains (C110_recovered_partial). Refuted: after any accepted header the file may be left such that it never opens again (C110_opens_refuted); and where a page ends between bytes 36 and 72 of the new header (C110_places: three of every 256 places with pages of 4096 bytes) the file may open with a torn header that connect refuses and whose bits read zero, worth 2^256, so that its chain becomes the longest (C110_torn_refuted)."
  },
  {
   "property": "C111",
   "status": "partial",
   "theorems": [
    "C111_rules",
    "C111_appends_partial",
    "C111_opens_partial",
    "C111_finds_refuted",
    "C111_once_refuted"
   ],
   "note": "False of the code. Proved: two objects that append in turn overwrite nothing, both headers follow those that were in the file (C111_appends_partial), and if they differ the file opens again with all headers (C111_opens_partial). Refuted: the other object never finds the header (C111_finds_refuted), and if both connect the same header, whatever the history, it is in the file twice and the file opens with two chains that end in it (C111_once_refuted). C111_rules: the rules of all coins are of the kind assumed."
  }
 ]
}