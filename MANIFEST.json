{
 "claims": [
  {
   "property": "C01",
   "status": "proved",
   "theorems": [
    "C01_var_int_round_trip"
   ],
   "note": ""
  },
  {
   "property": "C02",
   "status": "proved",
   "theorems": [
    "C02_var_int_reader"
   ],
   "note": "The reader accepts exactly the four count forms; non-minimal ones included."
  },
  {
   "property": "C03",
   "status": "proved",
   "theorems": [
    "C03_transaction_round_trip",
    "C03_transaction_bytes_injective",
    "C03_transaction_slice_round_trip"
   ],
   "note": ""
  },
  {
   "property": "C04",
   "status": "proved",
   "theorems": [
    "C04_serialized_sizes"
   ],
   "note": "Sums below 2^64 (no wrap-around of the size accumulator modelled)."
  },
  {
   "property": "C05",
   "status": "proved",
   "theorems": [
    "C05_truncated_transaction",
    "C05_truncated_header",
    "C05_truncated_block"
   ],
   "note": ""
  },
  {
   "property": "C06",
   "status": "proved",
   "theorems": [
    "C06_header_layout",
    "C06_every_80_bytes_are_a_header",
    "C06_block_round_trip"
   ],
   "note": ""
  },
  {
   "property": "C07",
   "status": "proved",
   "theorems": [
    "C07_transaction_reader_exact",
    "C07_transaction_rewrite",
    "C07_block_reader_exact",
    "C07_block_rewrite"
   ],
   "note": ""
  },
  {
   "property": "C08",
   "status": "proved",
   "theorems": [
    "C08_push_round_trip",
    "C08_push_data",
    "C08_reader_exact"
   ],
   "note": "Data below 2^31 bytes (push keeps the size in an int). push_data returns the data except for the single byte 81, where it returns whatever the external class makes of integer{0x81}."
  },
  {
   "property": "C09",
   "status": "proved",
   "theorems": [
    "C09_push_is_shortest",
    "C09_push_accepted_exact",
    "C09_minimal_is_push"
   ],
   "note": ""
  },
  {
   "property": "C10",
   "status": "proved",
   "theorems": [
    "C10_compile_after_decompile",
    "C10_decompile_is_parsing",
    "C10_decompile_after_compile",
    "C10_compile_is_concatenation",
    "C10_decompile_total",
    "C10_end_of_stream"
   ],
   "note": ""
  },
  {
   "property": "C11",
   "status": "proved",
   "theorems": [
    "C11_counter_visits_instructions",
    "C11_any_bytes",
    "C11_overread_exact",
    "C11_stays_inside_refuted"
   ],
   "note": "The clause 'never reads outside the script' is false for raw bytes; the exact set of scripts is given and the clause holds for every decompilable script."
  },
  {
   "property": "C12",
   "status": "proved",
   "theorems": [
    "C12_encoding",
    "C12_value_is_sign_and_magnitude",
    "C12_minimal_is_canonical",
    "C12_minimal_injective",
    "C12_shortest",
    "C12_zero_and_trim",
    "C12_extend",
    "C12_sign_tests"
   ],
   "note": ""
  },
  {
   "property": "C13",
   "status": "proved",
   "theorems": [
    "C13_opcode_table",
    "C13_instruction"
   ],
   "note": "One table over integers and byte strings for all 80 opcodes that only move data; operands and stacks below 2^31. The external division is assumed to truncate (hypothesis `truncating`)."
  },
  {
   "property": "C14",
   "status": "proved",
   "theorems": [
    "C14_operand_exact"
   ],
   "note": ""
  },
  {
   "property": "C15",
   "status": "proved",
   "theorems": [
    "C15_split_then_cat",
    "C15_cat_then_split",
    "C15_left_right",
    "C15_bitwise",
    "C15_invert",
    "C15_shifts",
    "C15_num2bin",
    "C15_bin2num",
    "C15_num2bin_then_bin2num",
    "C13_opcode_table"
   ],
   "note": "Consequences of the opcode table, to which C13_opcode_table ties the machine."
  },
  {
   "property": "C16",
   "status": "proved",
   "theorems": [
    "C16_histories",
    "C16_start",
    "C16_push_exact",
    "C16_modify_exact",
    "C16_every_step",
    "C16_after_throw_refuted"
   ],
   "note": "C16_every_step assumes minimal encodings and, after genesis, a memory limit below 2^31."
  },
  {
   "property": "C17",
   "status": "proved",
   "theorems": [
    "C17_halts",
    "C17_evaluate_terminates"
   ],
   "note": ""
  },
  {
   "property": "C18",
   "status": "proved",
   "theorems": [
    "C18_all_taken_is_right",
    "C18_not_taken_skips_the_rest",
    "C18_else_skips_the_rest",
    "C18_selected_branch_refuted"
   ],
   "note": "Selected-branch execution is refuted; the exact behaviour of the code is proved."
  },
  {
   "property": "C19",
   "status": "proved",
   "theorems": [
    "C19_verify_never_continues",
    "C19_checksigverify_succeeds",
    "C19_script_goes_on_refuted"
   ],
   "note": "The property is refuted; what happens instead is proved for every script."
  },
  {
   "property": "C20",
   "status": "proved",
   "theorems": [
    "C20_checklocktimeverify_exact",
    "C20_checksequenceverify_exact",
    "C20_check_locktime",
    "C20_check_sequence",
    "C20_flag_enforces_refuted"
   ],
   "note": "The flag clause is refuted (inverted test)."
  },
  {
   "property": "C21",
   "status": "proved",
   "theorems": [
    "C21_run_is_stepping",
    "C21_halted_stays",
    "C21_exceptions_reported"
   ],
   "note": ""
  },
  {
   "property": "C22",
   "status": "proved",
   "theorems": [
    "C22_fork_preimage_exact",
    "C22_fork_preimage_defined_exact",
    "C22_fork_preimage_length"
   ],
   "note": ""
  },
  {
   "property": "C23",
   "status": "proved",
   "theorems": [
    "C23_fork_commits",
    "C23_fork_commitment_exact",
    "C23_preimage_determines_directive",
    "C23_signature_hash",
    "C23_single_out_of_range_refuted",
    "C23_kind_zero_refuted"
   ],
   "note": "Collision freedom is assumed only for the messages the two preimages hash."
  },
  {
   "property": "C24",
   "status": "proved",
   "theorems": [
    "C24_fork_ignores",
    "C24_input_scripts_irrelevant",
    "C23_fork_commitment_exact"
   ],
   "note": ""
  },
  {
   "property": "C25",
   "status": "proved",
   "theorems": [
    "C25_directive_parts",
    "C25_valid_exact",
    "C25_directive_determined",
    "C25_bits_read"
   ],
   "note": ""
  },
  {
   "property": "C26",
   "status": "proved",
   "theorems": [
    "C26_root",
    "C26_proofs_derive_root",
    "C26_tree",
    "C26_server",
    "C26_server_proofs",
    "C26_tree_and_server",
    "C26_server_of_tree_finds_nothing_refuted",
    "C26_empty_tree_refuted",
    "C26_tree_valid_canonical_refuted",
    "C26_valid_exact",
    "C26_server_root"
   ],
   "note": "List, tree and server agree with an independent description of the tree; three side findings are refutations."
  },
  {
   "property": "C27",
   "status": "proved",
   "theorems": [
    "C27_proof_valid_exact",
    "C27_sound",
    "C27_index_inside",
    "C27_leaf_is_in_the_list",
    "C27_branches_agree",
    "C27_inner_node_refuted",
    "C27_index_refuted"
   ],
   "note": "Soundness for branches of full height; without the height inner nodes pass for leaves."
  },
  {
   "property": "C28",
   "status": "proved",
   "theorems": [
    "C28_duplicate",
    "C28_same_completion",
    "C28_root_determines",
    "C28_equal_lengths"
   ],
   "note": ""
  },
  {
   "property": "C29",
   "status": "proved",
   "theorems": [
    "C29_valid_is_sound",
    "C29_valid_is_complete",
    "C29_dual_of_tree",
    "C29_addition",
    "C29_histories",
    "C29_implicit_sibling_refuted",
    "C29_unchecked_addition_refuted",
    "C29_invalid_left_operand"
   ],
   "note": "Histories of additions of complete, correct branches; mixing implicit and explicit siblings and unchecked additions are refuted."
  },
  {
   "property": "C30",
   "status": "proved",
   "theorems": [
    "C30_roundtrip",
    "C30_bytes",
    "C30_256_levels_refuted",
    "C30_paths_derive_root",
    "C30_paths_are_the_clients",
    "C30_redundant_node_refuted",
    "C30_validate_exact"
   ],
   "note": "Round trip and path extraction hold for tidy BUMPs; without tidiness a client can be unrelated to the root, and 256 levels do not survive the one-byte height: both refuted."
  },
  {
   "property": "C31",
   "status": "proved",
   "theorems": [
    "C31_expand_exact",
    "C31_encode_exact",
    "C31_never_larger",
    "C31_greatest",
    "C31_loss",
    "C31_monotone",
    "C31_again",
    "C31_canonical",
    "C31_encoding_is_normal",
    "C31_small_lost_refuted",
    "C31_max",
    "C31_success"
   ],
   "note": "Exact for all values. Refuted below 2^24: compact(uint256) reads an exponent it never set and the result expands to 0, whatever the exponent held; this is proved for every value of it."
  },
  {
   "property": "C32",
   "status": "proved",
   "theorems": [
    "C32_split_join",
    "C32_join_split",
    "C32_category_range",
    "C32_version_bits",
    "C32_general_bits",
    "C32_version_is_magic",
    "C32_mask"
   ],
   "note": "All int32 versions and all 16-bit pairs."
  },
  {
   "property": "C33",
   "status": "proved",
   "theorems": [
    "C33_valid_exact",
    "C33_string_is_a_header",
    "C33_slice_agrees",
    "C33_header_valid_exact",
    "C33_zero_target_never_valid",
    "C33_default_not_valid",
    "C33_string_commits",
    "C33_rebuild_exact",
    "C33_rebuild_without_path",
    "C33_rebuild_with_path_refuted",
    "C33_jobs",
    "C33_solver_sound",
    "C33_solver_finds_first",
    "C33_solver_gives_up",
    "C33_solver_ends",
    "C33_solver_no_extra_nonce_refuted",
    "C33_empty",
    "C33_rebuild_fields"
   ],
   "note": "For any hash function. Refuted: the constructor from a work string ignores the Merkle path it is given, so a proof with a path becomes the empty proof; without a second extra nonce the solver indexes an empty string. ExtraNonce2[-1] is taken to be the last byte."
  },
  {
   "property": "C34",
   "status": "proved",
   "theorems": [
    "C34_notation_function",
    "C34_notation_unique",
    "C34_notation_total",
    "C34_notation_alphabet",
    "C34_encode_exact",
    "C34_decode_exact",
    "C34_roundtrip",
    "C34_injective",
    "C34_one_text",
    "C34_all_zero",
    "C34_recover_sound",
    "C34_recover_complete",
    "C34_recover_valid"
   ],
   "note": "For any hash with 32-byte results. When value and checksum are all zero bytes the result depends on what the external base58 writer gives for an empty sequence, which is a parameter; the round trip is proved for every other value and for a writer that gives the empty text."
  },
  {
   "property": "C35",
   "status": "proved",
   "theorems": [
    "C35_address_roundtrip",
    "C35_address_injective",
    "C35_address_decode_exact",
    "C35_address_valid_exact",
    "C35_short_payload_refuted",
    "C35_invalid_network_is_written_as_test_refuted",
    "C35_wif_roundtrip",
    "C35_wif_decode_exact",
    "C35_wif_one_text",
    "C35_wif_invalid_is_empty"
   ],
   "note": "Round trips hold. Refuted: an address is not the only text for its digest (payloads shorter than 20 bytes are accepted and filled with zeros), and the invalid network is written as test."
  },
  {
   "property": "C36",
   "status": "proved",
   "theorems": [
    "C36_read_exact",
    "C36_read_write",
    "C36_undefined_exact",
    "C36_undefined_refuted"
   ],
   "note": "Reading accepts exactly the texts written for version 1, networks 0 to 2 and non-empty data. Refuted: the alternation in the pattern lets upper-case hexadecimal text without the prefix through, and with a matching checksum a failed hexadecimal read is dereferenced."
  },
  {
   "property": "C37",
   "status": "proved",
   "theorems": [
    "C37_roundtrip",
    "C37_well_formed",
    "C37_ends",
    "C37_never_ends_refuted",
    "C37_never_ends_later_refuted",
    "C37_too_large_refuted",
    "C37_lenient_refuted",
    "C37_harden",
    "C37_soften"
   ],
   "note": "Every well-formed path is read correctly. Refuted: a foreign character makes the parser loop for ever, a number of 2^31 or more gives the empty path (so the parent key itself is returned), and malformed texts are accepted."
  },
  {
   "property": "C38",
   "status": "proved",
   "theorems": [
    "C38_secret_exact",
    "C38_secret_unfinished",
    "C38_public_exact",
    "C38_bip32",
    "C38_commute",
    "C38_concatenation",
    "C38_hardened_public",
    "C38_byte_order_refuted",
    "C38_order_refuted",
    "C38_text",
    "C38_seed",
    "C38_seed_refuted",
    "C38_source",
    "C38_seed_commutes"
   ],
   "note": "Exact for any HMAC and any group. Commutation holds when the left half is below the order in both byte orders; the public derivation compares it the wrong way round (refuted), and a left half equal to the order repeats the parent's secret (refuted)."
  },
  {
   "property": "C39",
   "status": "proved",
   "theorems": [
    "C39_secret_roundtrip",
    "C39_public_roundtrip",
    "C39_secret_exact",
    "C39_public_exact",
    "C39_public_canonical",
    "C39_secret_canonical_refuted",
    "C39_other_keys_refuted",
    "C39_valid_exact",
    "C39_valid_refuted",
    "C39_prefixes"
   ],
   "note": "Round trips and exact sets of accepted texts. Refuted: valid reads the big-endian key as a little-endian number; the byte before a secret is not checked, so texts of secrets are not canonical."
  },
  {
   "property": "C40",
   "status": "proved",
   "theorems": [
    "C40_word_list",
    "C40_generate_exact",
    "C40_generate_undefined",
    "C40_generated_valid",
    "C40_word_count",
    "C40_determines_entropy",
    "C40_distinct_sentences",
    "C40_valid_standard",
    "C40_valid_exact",
    "C40_valid_undefined",
    "C40_length_refuted",
    "C40_japanese_refuted"
   ],
   "note": "Holds for English. generate is exactly BIP 39 in terms of bits; of sentences with 12 to 24 words, valid accepts exactly the generated ones. Refuted beyond that: other lengths are accepted (one word in eight is valid alone), from 27 words on the shift is undefined, and in Japanese nothing can be generated and no text is valid. SHA-256 is any function with values of 32 bytes; the word lists are those of the source."
  },
  {
   "property": "C41",
   "status": "proved",
   "theorems": [
    "C41_confirmed_validates",
    "C41_confirmed_known",
    "C41_insert_proofs_exact",
    "C41_total",
    "C41_confirmed_validates_refuted",
    "C41_confirmed_known_refuted",
    "C41_insert_with_path_refuted"
   ],
   "note": "Proved for proofs from one Merkle tree per root and for histories without removals of headers; refuted otherwise (a proof repeated in the other style empties the paths, a removed header keeps its confirmations, a transaction inserted with its path is never confirmed)."
  },
  {
   "property": "C42",
   "status": "proved",
   "theorems": [
    "C42_sound",
    "C42_exact",
    "C42_known_roots",
    "C42_funded",
    "C42_keys_refuted",
    "C42_double_spend_refuted",
    "C42_empty_refuted",
    "C42_amounts_refuted",
    "C42_rules_refuted",
    "C42_header_refuted",
    "C42_incoherent_refuted",
    "C42_null_refuted"
   ],
   "note": "validate is characterised exactly on coherent proofs, and payments are genuine when transactions stand under their own ids and no two of them have one id. As stated the property is refuted: keys are not compared with ids, outputs can be spent twice, empty proofs and invalid transactions pass, sums wrap, an unset time selects the old rules, the confirming header need not be the known one. Soundness needs the upgrade time not above the unset time."
  },
  {
   "property": "C43",
   "status": "proved",
   "theorems": [
    "C43_round_trip",
    "C43_bytes",
    "C43_size",
    "C43_reader_exact",
    "C43_one_encoding_refuted",
    "C43_equality_refuted",
    "C43_valid_exact",
    "C43_first_is_proven",
    "C43_empty"
   ],
   "note": "Exact for every BEEF with sorted BUMP levels. Refuted: one encoding per BEEF (flag byte) and equality (version ignored)."
  },
  {
   "property": "C44",
   "status": "proved",
   "theorems": [
    "C44_round_trip",
    "C44_sizes",
    "C44_written_form",
    "C44_reader_exact",
    "C44_form_wf",
    "C44_plain_reader"
   ],
   "note": "The reader is characterised exactly: six arbitrary bytes are accepted as the marker."
  },
  {
   "property": "C45",
   "status": "proved",
   "theorems": [
    "C45_size_exact",
    "C45_size_refuted",
    "C45_extended_size",
    "C45_sums",
    "C45_rate_refuted"
   ],
   "note": "The exact difference is proved; equality is refuted with 253 outputs. The fee rate of a design counts the bytes without the extended format, and that of the completed transaction with it: equality of the two is refuted for all designs."
  },
  {
   "property": "C46",
   "status": "proved",
   "theorems": [
    "C46_recognised",
    "C46_pubkey_recognised",
    "C46_built",
    "C46_address_exact",
    "C46_hash_exact",
    "C46_script_hash_exact",
    "C46_pubkey_exact",
    "C46_reads_exact",
    "C46_same_script_refuted",
    "C46_shortest",
    "C46_address_ends",
    "C46_hash_ends",
    "C46_script_hash_ends",
    "C46_pubkey_ends",
    "C46_total_refuted",
    "C46_disjoint",
    "C46_p2sh_test",
    "C46_redeem_size",
    "C46_push_size",
    "C46_push",
    "C46_push_size_refuted",
    "C46_suffix",
    "C46_plain_ends",
    "C46_repeat",
    "C46_repeat_refuted",
    "C46_repeat_ends",
    "C46_repeat_ends_refuted",
    "C46_optional_refuted",
    "C46_return_refuted",
    "C46_alternatives"
   ],
   "note": "Scripts built are read back to the same payload. Refuted: a matching script need not be the one built (non-minimal pushes match too); the exact set of matching scripts is proved, and the one built is the shortest of them. Refuted: match does not always answer; exactly when is proved. Refuted: OP_RETURN patterns do not match the data that follows."
  },
  {
   "property": "C47",
   "status": "proved",
   "theorems": [
    "C47_output_exact",
    "C47_output_written",
    "C47_made",
    "C47_output_round_trip",
    "C47_output_kept",
    "C47_long_tag_refuted",
    "C47_output_sized",
    "C47_rewrite_refuted",
    "C47_output_total",
    "C47_output_cut",
    "C47_output_other",
    "C47_version_refuted",
    "C47_input_exact",
    "C47_input_written",
    "C47_input_round_trip",
    "C47_input_kept",
    "C47_input_sized",
    "C47_input_estimate",
    "C47_input_estimate_refuted",
    "C47_input_total",
    "C47_input_cut",
    "C47_work_header",
    "C47_work_valid",
    "C47_work_puzzles",
    "C47_mined",
    "C47_proof_input_exact",
    "C47_proof_input_refuted",
    "C47_solution_refuted",
    "C47_candidates_refuted",
    "C47_redeem_estimate",
    "C47_version"
   ],
   "note": "Exactly which scripts are read as which boost outputs and inputs; what is written; round trip and announced sizes with their exact exceptions; the header and document hashed. Refuted parts: contracts with tags over 20 bytes are written but unreadable, sizes are wrong for data of 75, 255 or 65535 bytes, version gives the type, the redemption estimate is too small for 73-byte signatures, the input a proof gives back is wrong without version bits, solutions of inputs drop the bits, candidates are compared by script only."
  },
  {
   "property": "C48",
   "status": "proved",
   "theorems": [
    "C48_distinct_refuted",
    "C48_exact",
    "C48_random_refuted"
   ],
   "note": "Distinctness is refuted for every start: the exact sequence of keys is proved (the first key, then one constant). random_key_source never returns for any entropy, because validity asks for a network that is set after the loop."
  },
  {
   "property": "C49",
   "status": "proved",
   "theorems": [
    "C49_exact"
   ],
   "note": "Refuted and characterised exactly over all histories: every byte returned is zero, and all other histories have undefined behaviour. The generator is never used."
  },
  {
   "property": "C50",
   "status": "proved",
   "theorems": [
    "C50_methods_exact",
    "C50_request",
    "C50_response",
    "C50_boolean_response",
    "C50_messages_exact",
    "C50_notification_refuted",
    "C50_errors",
    "C50_session_id",
    "C50_digest_exact",
    "C50_digest_refuted",
    "C50_int_refuted",
    "C50_notify_exact",
    "C50_notify_refuted",
    "C50_submit_exact",
    "C50_submit",
    "C50_mask_refuted",
    "C50_subscribe",
    "C50_subscription_equality_refuted",
    "C50_authorize",
    "C50_set_difficulty_refuted",
    "C50_set_extranonce",
    "C50_fields_exact",
    "C50_accepted",
    "C50_valid_difficulty_refuted",
    "C50_submit_valid",
    "C50_submit_method_refuted"
   ],
   "note": "Requests, responses, session ids, subscriptions, authorizations and shares round trip. Refuted, with the exact behaviour proved: notifications are built without a method; digests come back with each word rotated; parameters of mining.notify with a Merkle branch cannot be written; version masks are never read; versions survive only if the hexadecimal writer of the data library gives the most significant digit first (parameter mem); difficulties that are not whole numbers are lost. The text of JSON is not modelled. That a submit request has the method mining.submit is refuted: validity does not look at the method."
  },
  {
   "property": "C51",
   "status": "proved",
   "theorems": [
    "C51_mask",
    "C51_matching",
    "C51_once",
    "C51_matching_refuted",
    "C51_numbers",
    "C51_handled",
    "C51_shares"
   ],
   "note": "Masks, numbering, the bound on handled responses and the share counts hold for every history. Responses are matched exactly while requests are sent one after the other and fewer than 2^32 were sent; refuted when two are on their way at once (they get the same number), with the exact behaviour proved. Share counts are kept modulo 2^32, as in the code."
  },
  {
   "property": "C52",
   "status": "proved",
   "theorems": [
    "C52_signed_verifies",
    "C52_content",
    "C52_verify_exact",
    "C52_mimetype_refuted",
    "C52_stripped_refuted",
    "C52_reads_exact",
    "C52_round_trip",
    "C52_text_refuted",
    "C52_sent",
    "C52_json",
    "C52_json_valid",
    "C52_json_refuted",
    "C52_given",
    "C52_valid_json"
   ],
   "note": "Signatures, SHA-256, base64 and the text of JSON are parameters. Refuted: the round trip of text envelopes, because they are written with the encoding UTF_8 and read as UTF-8, so that no signed JSON document verifies after it was sent; exactly the valid base64 envelopes survive. Also shown: the type is not covered by the signature and an envelope without key and signature verifies."
  },
  {
   "property": "C53",
   "status": "proved",
   "theorems": [
    "C53_sums_exact",
    "C53_valid_balanced",
    "C53_valid_exact",
    "C53_overflow_refuted",
    "C53_negative_refuted"
   ],
   "note": "Exact sums up to 4392 valid amounts whatever the library does on overflow; refuted beyond for sums that wrap around, and refuted for outputs of negative value, which validity accepts if they cannot be spent."
  },
  {
   "property": "C54",
   "status": "proved",
   "theorems": [
    "C54_input_slice",
    "C54_input_slice_out_of_range",
    "C54_output_slice_is_undefined",
    "C54_block_transaction_slices"
   ],
   "note": "transaction::output(slice) reads an uninitialised counter; the model reports undefined behaviour for every well-formed transaction."
  },
  {
   "property": "C55",
   "status": "proved",
   "theorems": [
    "C55_min_push_size_exact"
   ],
   "note": ""
  },
  {
   "property": "C56",
   "status": "proved",
   "theorems": [
    "C56_pre_verify_exact"
   ],
   "note": ""
  },
  {
   "property": "C57",
   "status": "proved",
   "theorems": [
    "C57_return_ends_with_success",
    "C57_data_output_is_spent",
    "C57_return_unlocks"
   ],
   "note": ""
  },
  {
   "property": "C58",
   "status": "proved",
   "theorems": [
    "C58_strict_multisig",
    "C58_profiles_are_strict",
    "C58_any_subset_refuted"
   ],
   "note": ""
  },
  {
   "property": "C59",
   "status": "proved",
   "theorems": [
    "C59_evaluate_throws"
   ],
   "note": ""
  },
  {
   "property": "C60",
   "status": "proved",
   "theorems": [
    "C60_negative_zero_misread"
   ],
   "note": ""
  },
  {
   "property": "C61",
   "status": "proved",
   "theorems": [
    "C61_separator_in_conditional_refuted"
   ],
   "note": ""
  },
  {
   "property": "C62",
   "status": "proved",
   "theorems": [
    "C62_anyone_can_spend"
   ],
   "note": ""
  },
  {
   "property": "C63",
   "status": "proved",
   "theorems": [
    "C63_locktime_operand_exact_refuted",
    "C63_locktime_operand_small",
    "C20_checklocktimeverify_exact"
   ],
   "note": ""
  },
  {
   "property": "C64",
   "status": "proved",
   "theorems": [
    "C64_verify_signature_exact",
    "C64_error",
    "C64_result"
   ],
   "note": ""
  },
  {
   "property": "C65",
   "status": "proved",
   "theorems": [
    "C65_evaluation_is_defined"
   ],
   "note": "Assumes minimal encodings required (C60 shows why), memory limit below 2^31 after genesis and a truncating external division."
  },
  {
   "property": "C66",
   "status": "proved",
   "theorems": [
    "C66_original_preimage_exact",
    "C66_original_commits",
    "C66_original_commits_all",
    "C66_outputs_vs_consensus",
    "C66_sequences_vs_consensus",
    "C66_consensus_single_refuted"
   ],
   "note": ""
  },
  {
   "property": "C67",
   "status": "proved",
   "theorems": [
    "C67_caching_is_invisible",
    "C67_fresh_cache_coherent"
   ],
   "note": ""
  },
  {
   "property": "C68",
   "status": "proved",
   "theorems": [
    "C68_harmless_runs",
    "C68_copy_after_use",
    "C68_copies_are_safe_refuted"
   ],
   "note": ""
  },
  {
   "property": "C69",
   "status": "proved",
   "theorems": [
    "C69_complete_exact",
    "C69_complete_throws_exact",
    "C69_bytes_round_trip_exact",
    "C69_bytes_round_trip_refuted",
    "C69_valid_exact"
   ],
   "note": ""
  },
  {
   "property": "C70",
   "status": "proved",
   "theorems": [
    "C70_ill_formed",
    "C70_terminates_exact",
    "C70_runs_for_ever"
   ],
   "note": ""
  },
  {
   "property": "C71",
   "status": "proved",
   "theorems": [
    "C71_outside",
    "C71_first_leaf_for_every_index_refuted",
    "C71_last_undefined_refuted",
    "C71_proof_needs_a_cycle"
   ],
   "note": "The intended behaviour is refuted for every list with more than one leaf; the exact behaviour is proved."
  },
  {
   "property": "C72",
   "status": "proved",
   "theorems": [
    "C72_remove_unnecessary",
    "C72_root",
    "C72_sum",
    "C72_two_branches",
    "C72_three_paths_keep_both_refuted",
    "C72_three_paths_keep_old_refuted",
    "C72_three_paths_keep_new_refuted"
   ],
   "note": "Sums are exact when the common offsets of each level form a common prefix (always so for two branches); with three paths the merge loses one, refuted for every policy of the ordered sequence."
  },
  {
   "property": "C73",
   "status": "proved",
   "theorems": [
    "C73_root",
    "C73_path",
    "C73_explicit",
    "C73_wide_index_refuted",
    "C73_no_siblings_refuted"
   ],
   "note": "Exact when implicit siblings are right siblings and the index fits 32 bits; the other cases are refuted."
  },
  {
   "property": "C74",
   "status": "proved",
   "theorems": [
    "C74_exact",
    "C74_as_number",
    "C74_power_of_256_refuted",
    "C74_low",
    "C74_high",
    "C74_scale_unique",
    "C74_scale_loop",
    "C74_difficulty_0_runs_for_ever_refuted"
   ],
   "note": "The floating quotient is given as a dyadic p/2^s; later steps are exact. Refuted: a quotient that is a power of 256 (difficulty 65535) gives a target of 0, and difficulty 0, which is the declared minimum, never ends."
  },
  {
   "property": "C75",
   "status": "proved",
   "theorems": [
    "C75_valid_exact",
    "C75_library_exact",
    "C75_reversed",
    "C75_valid_is_not_usable_refuted",
    "C75_wif_any_key"
   ],
   "note": "Refuted in both directions; both predicates are characterised exactly. That libsecp256k1 reads keys big-endian is taken from its interface."
  },
  {
   "property": "C76",
   "status": "proved",
   "theorems": [
    "C76_fields",
    "C76_depth_refuted",
    "C76_skipped_index_repeats"
   ],
   "note": "The depth is counted modulo 256 (the unbounded statement is refuted)."
  },
  {
   "property": "C77",
   "status": "proved",
   "theorems": [
    "C77_plus_refuted",
    "C77_times_refuted",
    "C77_plus_exact",
    "C77_times_exact",
    "C77_refused",
    "C77_negate",
    "C77_public",
    "C77_negate_public",
    "C77_tweak_public",
    "C77_tweak_refused",
    "C77_times_public",
    "C77_plus_public_exact",
    "C77_plus_public_refuted",
    "C77_plus_public_any",
    "C77_compress",
    "C77_compress_inverse"
   ],
   "note": "Sums and products of secrets and sums of public keys are refuted with their exact behaviour; the rest is proved. libsecp256k1 is represented by discrete logarithms and by encodings with stated laws; for products the law that a product is not zero (the order is prime) is a hypothesis."
  },
  {
   "property": "C78",
   "status": "proved",
   "theorems": [
    "C78_equal_exact",
    "C78_equal_points",
    "C78_equal_plain",
    "C78_hybrid_refuted",
    "C78_malleable",
    "C78_verify_exact"
   ],
   "note": "Equality by point is refuted for hybrid encodings and proved for the others. That ECDSA refuses the zero signature is a hypothesis of C78_verify_exact."
  },
  {
   "property": "C79",
   "status": "proved",
   "theorems": [
    "C79_compare_exact",
    "C79_undefined_exact",
    "C79_default_exact",
    "C79_transitive_refuted",
    "C79_big_size_refuted"
   ],
   "note": "Proved for comparable rates, refuted for the default rate and for sizes of 2^63 and more."
  },
  {
   "property": "C80",
   "status": "proved",
   "theorems": [
    "C80_fee_exact",
    "C80_fee_zero",
    "C80_fee_refuted"
   ],
   "note": "Doubles are modelled as fractions with rounding to nearest, ties to even. Exact below 2^53, refuted beyond."
  },
  {
   "property": "C81",
   "status": "proved",
   "theorems": [
    "C81_complete",
    "C81_complete_throws"
   ],
   "note": ""
  },
  {
   "property": "C82",
   "status": "proved",
   "theorems": [
    "C82_validate_exact",
    "C82_anchored",
    "C82_forged_refuted",
    "C82_index_refuted",
    "C82_rootless_refuted"
   ],
   "note": "validate is characterised exactly. As stated the property is refuted in three ways; it is proved when every BUMP has a root and contains the transactions that name it."
  },
  {
   "property": "C83",
   "status": "proved",
   "theorems": [
    "C83_by_height",
    "C83_by_digest_sound",
    "C83_by_digest_complete",
    "C83_latest",
    "C83_insert_exact",
    "C83_insert_refused",
    "C83_remove_exact",
    "C83_linked_refuted",
    "C83_latest_refuted",
    "C83_by_digest_sound_refuted",
    "C83_same_root_refuted",
    "C83_same_header_refuted"
   ],
   "note": "Proved for histories that extend the chain without gaps and without equal roots, refuted otherwise. Each operation is characterised exactly."
  },
  {
   "property": "C84",
   "status": "proved",
   "theorems": [
    "C84_pending_exact",
    "C84_reorganisation_exact",
    "C84_insert_tx_exact",
    "C84_remove_tx_exact",
    "C84_pending_refuted",
    "C84_reorganisation_refuted"
   ],
   "note": "Proved when transactions come before their proofs and no header is removed, refuted otherwise."
  },
  {
   "property": "C85",
   "status": "proved",
   "theorems": [
    "C85_shape",
    "C85_exists",
    "C85_validates",
    "C85_database",
    "C85_database_keyed"
   ],
   "note": "Existence for databases whose unconfirmed transactions have ancestries of bounded depth; validation for databases without removals, clashes of roots and inconsistent proofs."
  },
  {
   "property": "C86",
   "status": "proved",
   "theorems": [
    "C86_proof_exact",
    "C86_proof_plain",
    "C86_validated",
    "C86_database_exact",
    "C86_database_fails",
    "C86_database_plain",
    "C86_database_refuted"
   ],
   "note": "Proved for proofs. Refuted for databases, where the inputs come out reversed; the exact result and failures are given."
  },
  {
   "property": "C87",
   "status": "proved",
   "theorems": [
    "C87_equal_exact",
    "C87_equal_refuted",
    "C87_compare_refuted",
    "C87_contains_exact",
    "C87_ordering_exact"
   ],
   "note": "The ordering is exact for trees without null pointers and without cycles. Equality and comparison of confirmations are refuted, with their exact behaviour."
  },
  {
   "property": "C88",
   "status": "proved",
   "theorems": [
    "C88_sound",
    "C88_exists",
    "C88_exact",
    "C88_validates_exact",
    "C88_otherwise",
    "C88_failure_refuted",
    "C88_index_refuted"
   ],
   "note": "Soundness for every BEEF, exact behaviour for readable ones. That a failed read can be told apart is refuted: it gives the empty proof, which validates; an index that is out of range is undefined although the BEEF is valid."
  },
  {
   "property": "C89",
   "status": "proved",
   "theorems": [
    "C89_order",
    "C89_round_trip",
    "C89_round_trip_lone",
    "C89_validates",
    "C89_same",
    "C89_generated",
    "C89_chain_refuted",
    "C89_alone_refuted",
    "C89_three_refuted"
   ],
   "note": "Round trip for tight, coherent proofs whose confirmations the BUMPs give back, and outright with one mined transaction for each block; refuted for payments that spend from each other, blocks with a single transaction and three transactions of one block."
  },
  {
   "property": "C90",
   "status": "proved",
   "theorems": [
    "C90_constants",
    "C90_path_text",
    "C90_path_distinct",
    "C90_account_refuted",
    "C90_keys",
    "C90_public_agrees",
    "C90_hardened_refuted",
    "C90_wallets",
    "C90_named_wallets",
    "C90_centbee",
    "C90_pins",
    "C90_sources"
   ],
   "note": "Holds for accounts below 2^31 and, for public derivation, where no half of an HMAC output reaches the order in either byte order (C38). Refuted: accounts of 2^31 or more are accepted and alias; a watch-only account answers a hardened index with the hash of an empty key on the main network; Centbee's path is not one of BIP 44. electrum_sv_wallet has no definition."
  },
  {
   "property": "C91",
   "status": "proved",
   "theorems": [
    "C91_seed",
    "C91_seed_separates",
    "C91_unchecked_refuted",
    "C91_electrum_refuted",
    "C91_electrum_exact"
   ],
   "note": "BIP 39 seeds hold as stated. Refuted: the sentence is not checked before a seed is made, and Electrum seeds of different words and passphrases coincide whatever PBKDF2 is; the exact condition is proved."
  },
  {
   "property": "C92",
   "status": "proved",
   "theorems": [
    "C92_address",
    "C92_pubkey",
    "C92_address_protected",
    "C92_redeemed",
    "C92_signed",
    "C92_signed_code",
    "C92_library_enough",
    "C92_protected_refuted"
   ],
   "note": "Evaluation of straight scripts is reduced to the opcode table of C13 without bound on length; hash functions and signature verification are parameters. Success needs the stated memory and operation limits, which the library's configurations give. Refuted: without SIGPUSHONLY (as before genesis) anyone can spend the output, see C62."
  },
  {
   "property": "C93",
   "status": "proved",
   "theorems": [
    "C93_boost",
    "C93_boost_protected",
    "C93_redeemed",
    "C93_stuck",
    "C93_custom_numbers",
    "C93_old_numbers",
    "C93_library_numbers",
    "C93_exponent_refuted",
    "C93_data_refuted",
    "C93_chronicle_refuted"
   ],
   "note": "Both directions; spending needs enough memory and operations, which every configuration with the genesis stack has (C92_library_enough). Refuted: that valid work always spends the output (exponents 33 and below 3, data of 256 bytes under MINIMALDATA, the chronicle profile with its four-byte numbers); the exact set of such outputs is proved."
  },
  {
   "property": "C94",
   "status": "proved",
   "theorems": [
    "C94_configure_message",
    "C94_requests_exact",
    "C94_requests_round_trip_refuted",
    "C94_rolling_refused",
    "C94_results_exact",
    "C94_results_round_trip",
    "C94_single_extensions_refuted",
    "C94_result_valid",
    "C94_inserted",
    "C94_names_refuted",
    "C94_accepted",
    "C94_minimum",
    "C94_about",
    "C94_split",
    "C94_dotted"
   ],
   "note": "Refuted, with the exact behaviour proved: parameters of requests are written under key.key instead of name.key, so that every message that asks for version rolling or a minimum difficulty is refused by the reader; version masks are never read; the info extension is written and read under different keys; results made of parameters lose them and accepted results with parameters are invalid. Three of the four extensions are written with an underscore where the protocol has a hyphen. What happens to repeated names in the list of extensions depends on the data library and is excluded."
  },
  {
   "property": "C95",
   "status": "proved",
   "theorems": [
    "C95_knows",
    "C95_authorized",
    "C95_extensions_refuted",
    "C95_configure_exact",
    "C95_requests",
    "C95_notifications",
    "C95_undefined",
    "C95_server_sets_refuted",
    "C95_server_mask",
    "C95_authorize_inverted_refuted",
    "C95_server_receives",
    "C95_version",
    "C95_announced_extranonce",
    "C95_announced_difficulty"
   ],
   "note": "Difficulty, extranonce, job and authorization of a client are proved for every history. Refuted, with the exact behaviour proved: no history gives a client a mask or minimum difficulty; an answer to mining.configure is only taken when no extension was asked for; client.get_version is answered twice and throws; a server never has subscriptions and so never sets difficulty or extranonce; masks are announced under the wrong method; users that are refused are authorized and accepted ones are undefined behaviour."
  },
  {
   "property": "C96",
   "status": "proved",
   "theorems": [
    "C96_valid_exact",
    "C96_binary_written",
    "C96_binary_undefined",
    "C96_binary_read",
    "C96_binary_read_valid",
    "C96_binary_back",
    "C96_binary_round_trip",
    "C96_json_written",
    "C96_json_invalid",
    "C96_json_back",
    "C96_json_round_trip",
    "C96_json_acceptable",
    "C96_json_read",
    "C96_json_refused",
    "C96_json_undefined",
    "C96_json_throws",
    "C96_json_subject_refuted",
    "C96_json_target"
   ],
   "note": "Exact behaviour of both forms. Refuted in part: bytes with a transaction are read without it and are then not valid, indices of 2^32 and more are cut and leave zeros at the end, trees and composite proofs are read as branches, a transaction of 32 bytes comes back from JSON as an id, a target type without a target is undefined behaviour, transaction_included of a JSON value is always false and its txid always hashes."
  },
  {
   "property": "C97",
   "status": "proved",
   "theorems": [
    "C97_validate_exact",
    "C97_validate_sound",
    "C97_constructors",
    "C97_roots",
    "C97_constructors_refuted"
   ],
   "note": "Soundness up to explicit collisions and for the height of the path, as in C27 and C83. Refuted: the two constructors without a target (and the one given the header type) make records whose bytes are undefined behaviour."
  },
  {
   "property": "C98",
   "status": "proved",
   "theorems": [
    "C98_node_read",
    "C98_node_undefined",
    "C98_read",
    "C98_undefined",
    "C98_node_written",
    "C98_written",
    "C98_back",
    "C98_round_trip",
    "C98_empty_refuted"
   ],
   "note": "Exact characterisations of what is read, written and undefined. Refuted parts: a node that is not a duplicate and has no hash member is undefined behaviour rather than an error; unknown flags become intermediate (C98_round_trip says exactly when the BUMP survives); a BUMP without levels is written but not read; a level given as an object or null is accepted (C98_read_example)."
  },
  {
   "property": "C99",
   "status": "proved",
   "theorems": [
    "C99_redeemed_spends",
    "C99_redeem_exact",
    "C99_as_designed",
    "C99_last_separator",
    "C99_script_signed",
    "C99_default",
    "C99_default_nothing",
    "C99_default_no_key",
    "C99_silent_refuted",
    "C99_good_key_refuted",
    "C99_unreadable_refuted"
   ],
   "note": "Proved end to end. Refuted as stated without its conditions: an input without its key, with no key, or with two keys gets an empty script and redeem says nothing (C99_silent_refuted); a valid secret may be refused because secrets are compared in the wrong byte order (C99_good_key_refuted); one output that is not a script stops the whole transaction (C99_unreadable_refuted). C99_default* say exactly which script the default redeemer gives."
  },
  {
   "property": "C100",
   "status": "proved",
   "theorems": [
    "C100_spend_commits",
    "C100_all"
   ],
   "note": "Unforgeability and absence of collisions are explicit hypotheses about the documents concerned, shown satisfiable. With SINGLE, NONE or ANYONECANPAY the agreement is that of same_commitment (C22-C24)."
  },
  {
   "property": "C101",
   "status": "proved",
   "theorems": [
    "C101_conflict",
    "C101_conflict_valid",
    "C101_conflict_back",
    "C101_status",
    "C101_status_none",
    "C101_status_undefined",
    "C101_status_written",
    "C101_status_back_refuted",
    "C101_quote",
    "C101_quote_valid",
    "C101_quote_defined",
    "C101_quote_back",
    "C101_quote_direct_refuted",
    "C101_quote_unsound",
    "C101_policy_refuted",
    "C101_submitted_refuted",
    "C101_tx_status",
    "C101_tx_status_valid",
    "C101_tx_status_back_refuted",
    "C101_submitted_all",
    "C101_submitted_all_back_refuted",
    "C101_submission",
    "C101_policy",
    "C101_submitted",
    "C101_quote_written",
    "C101_policy_written",
    "C101_submitted_written",
    "C101_tx_status_written",
    "C101_status_json",
    "C101_submitted_all_written"
   ],
   "note": "Exact characterisations of what is read and written. Refuted parts: a status is looked for under returnDescription and read from resultDescription, so that no written status is read back and a status with only the first name is undefined behaviour; policy quotes and submission results that are read are never valid, because what they inherit is assigned to a temporary object; a written list of submissions is not read back, and reading it is undefined when it is empty; quotes come back when written to text and only when no fee is negative, and not without text."
  },
  {
   "property": "C102",
   "status": "proved",
   "theorems": [
    "C102_call",
    "C102_call_defined",
    "C102_response_refuted",
    "C102_request_refuted",
    "C102_response",
    "C102_request"
   ],
   "note": "Which answers are accepted is characterised exactly: an envelope with no signature is accepted. Refuted part: the value, key and signature returned are always empty, because the message read is assigned to a temporary object, and what is read is the envelope rather than its payload."
  },
  {
   "property": "C103",
   "status": "proved",
   "theorems": [
    "C103_valid",
    "C103_validate_refuted",
    "C103_node_checked",
    "C103_forged_refuted",
    "C103_inputs_refuted",
    "C103_from_proof",
    "C103_from_proof_defined",
    "C103_from_proof_valid"
   ],
   "note": "Validity and conversion are characterised exactly. Refuted parts: validate (database) never looks at the database, so that any transaction with any well-formed proof is accepted (C103_validate_refuted, C103_forged_refuted); nothing relates the nodes to the inputs of the transactions above them (C103_inputs_refuted), nor a proof to the transaction it stands beside. C103_node_checked says what the check of a node would mean with the database."
  },
  {
   "property": "C104",
   "status": "proved",
   "theorems": [
    "C104_to_proof",
    "C104_there_and_back",
    "C104_header_refuted",
    "C104_node_read",
    "C104_read",
    "C104_round_trip",
    "C104_sent",
    "C104_answers_refuted"
   ],
   "note": "Reading is characterised exactly and the round trips are proved for envelopes without answers, with proofs by id and 32-bit positions. Refuted parts: envelopes with answers of miners never come back, whatever is read (C104_answers_refuted); a header given in a proof is kept although the database has another one for its root (C104_header_refuted). JSON that cannot be read gives the empty envelope, which is valid (Example)."
  },
  {
   "property": "C105",
   "status": "proved",
   "theorems": [
    "C105_valid",
    "C105_kinds",
    "C105_read",
    "C105_unread_refuted",
    "C105_undefined",
    "C105_error_refuted"
   ],
   "note": "Validity of the five kinds of response and what is returned are characterised exactly. Refuted parts: a body that is not JSON is valid with the content type alone, and every accessor then dereferences an empty optional (C105_unread_refuted); error () calls itself and never returns (C105_error_refuted); errors with the listed statuses are accepted whatever their body says, and the timestamp need not be text (C105_kinds, Example)."
  },
  {
   "property": "C106",
   "status": "proved",
   "theorems": [
    "C106_headers",
    "C106_submit",
    "C106_submit_txs",
    "C106_status",
    "C106_paths",
    "C106_default",
    "C106_undefined",
    "C106_words"
   ],
   "note": "Holds: headers are exactly the options, bodies carry exactly the transactions. The text form of JSON is a parameter, assumed to be read back for the values written."
  },
  {
   "property": "C107",
   "status": "proved",
   "theorems": [
    "C107_satisfies",
    "C107_rate_refuted",
    "C107_sigops_refuted",
    "C107_undefined"
   ],
   "note": "What is checked is characterised exactly. Refuted parts: the fee is compared with the rate for a single byte, so that one satoshi pays for any size at one satoshi per byte (C107_rate_refuted); the limit on signature operations is never reached because the count always is 0 (C107_sigops_refuted); a fee for 0 bytes throws, and valid policies without satoshis are undefined (C107_undefined)."
  },
  {
   "property": "C108",
   "status": "proved",
   "theorems": [
    "C108_same_text",
    "C108_unique",
    "C108_unique_refuted",
    "C108_throws",
    "C108_instruction",
    "C108_unnamed",
    "C108_code",
    "C108_code_size"
   ],
   "note": "Two scripts have the same text exactly when they have the same opcodes and push the same data, up to the one exception stated in C108_same_text; minimal scripts are determined by their text. Refuted part: the text of scripts that are not minimal does not determine them (C108_unique_refuted), and opcodes from 0xba to 0xfe share one name (C108_unnamed). Writing a script that cannot be parsed throws (C108_throws)."
  },
  {
   "property": "C109",
   "status": "proved",
   "theorems": [
    "C109_calendar",
    "C109_moment",
    "C109_fields",
    "C109_day_refuted",
    "C109_text",
    "C109_text_unique",
    "C109_of_time",
    "C109_of_int"
   ],
   "note": "The fields and the text are characterised exactly for all 2^32 timestamps. Refuted part: day () returns the month, counted from 0 like month () (C109_day_refuted). gmtime and strftime are modelled by the calendar and the format."
  },
  {
   "property": "C110",
   "status": "proved",
   "theorems": [
    "C110_civil",
    "C110_read",
    "C110_read_any",
    "C110_format",
    "C110_exact",
    "C110_back",
    "C110_back_refuted",
    "C110_unread_refuted",
    "C110_after_refuted"
   ],
   "note": "Reading is characterised exactly for texts in the format; the number of the day is right for all years. Refuted parts: from 2038-01-19 03:14:08 on the int overflows, so that half of all timestamps cannot be read back (C110_back, C110_back_refuted); a text that does not match leaves fields unset, which is undefined rather than refused (C110_unread_refuted); a string_view that does not end with 0 is read beyond its end (C110_after_refuted); 30 February is accepted (Example). strptime is modelled as in glibc."
  },
  {
   "property": "C111",
   "status": "proved",
   "theorems": [
    "C111_proof",
    "C111_proof_for",
    "C111_solved",
    "C111_job_refuted",
    "C111_size_refuted",
    "C111_mask_refuted",
    "C111_same_work",
    "C111_replay_refuted",
    "C111_puzzle",
    "C111_notify"
   ],
   "note": "What is checked is characterised exactly. Refuted parts: solved jobs do not check the job id nor whether bits go with a mask (C111_job_refuted); the size of the second extra nonce and the worker's name are never checked (C111_size_refuted); masks are used inverted with respect to BIP 310, by which they are negotiated (C111_mask_refuted says exactly when that makes no difference); bits outside the mask are ignored, so that the same work counts as many shares (C111_same_work, C111_replay_refuted). What data::valid says of a worker is a parameter."
  },
  {
   "property": "C112",
   "status": "proved",
   "theorems": [
    "C112_push",
    "C112_expired",
    "C112_recent",
    "C112_ordered",
    "C112_late_refuted"
   ],
   "note": "Exact for all histories; if times come in order the jobs kept are exactly the recent ones. Refuted part: otherwise old jobs may stay behind a recent one (C112_late_refuted)."
  },
  {
   "property": "C113",
   "status": "proved",
   "theorems": [
    "C113_accepted",
    "C113_scripts",
    "C113_rules"
   ],
   "note": "Composes redemption (C99), generation of proofs (C85), the interpreter and validation (C42). Hash functions, keys and signatures are parameters that have their sizes and verify; the outputs may be from before genesis or after."
  },
  {
   "property": "C114",
   "status": "proved",
   "theorems": [
    "C114_authorised",
    "C114_before_refuted",
    "C114_before_address"
   ],
   "note": "Composes validation (C42) with C100; holds for outputs from after genesis. Refuted for those from before: the rules used for them do not ask that unlocking scripts only push data, and OP_ENDIF does not end a branch that was not taken (C62), so that the validation accepts a payment that takes any such output, in particular to any address, without a signature (C114_before_refuted). Proofs must be keyed by transaction ids without collisions (see C42_keys_refuted). Exceptions thrown by the interpreter count as not accepted."
  },
  {
   "property": "C115",
   "status": "proved",
   "theorems": [
    "C115_redeemed",
    "C115_worked",
    "C115_timestamp_refuted",
    "C115_unchecked_refuted"
   ],
   "note": "Both directions, for every input; composes writing of inputs (C47), signing (C99) and the interpreter (C93). The scripts must be within the size limits of the interpreter's proofs. Refuted as the library states it: a valid proof of work whose timestamp is zero is redeemed with empty scripts (C115_timestamp_refuted), and redeem does not check the solution (C115_unchecked_refuted)."
  },
  {
   "property": "C116",
   "status": "proved",
   "theorems": [
    "C116_gathered",
    "C116_undefined",
    "C116_added",
    "C116_value",
    "C116_valid",
    "C116_scripts_refuted"
   ],
   "note": "The external set is any that inserts by outpoint. Refuted for the scripts: those after the first are not looked at, and the transaction made from a valid puzzle then does not spend them (C116_scripts_refuted)."
  },
  {
   "property": "C117",
   "status": "proved",
   "theorems": [
    "C117_determined",
    "C117_lengths",
    "C117_sizes_refuted",
    "C117_protocol_refuted"
   ],
   "note": "Determination and exact lengths are proved for every message. That the stated sizes are right, and that the form is the protocol's, is refuted for every message."
  },
  {
   "property": "C118",
   "status": "proved",
   "theorems": [
    "C118_command",
    "C118_long",
    "C118_names",
    "C118_sizes",
    "C118_order",
    "C118_endpoint",
    "C118_port_refuted",
    "C118_ipv4_refuted"
   ],
   "note": "Commands, sizes and order are proved exactly. The byte order of the port (exact condition) and the place of IPv4 addresses are refuted."
  },
  {
   "property": "C119",
   "status": "proved",
   "theorems": [
    "C119_defined",
    "C119_exact",
    "C119_refuses",
    "C119_determined",
    "C119_der",
    "C119_normalized",
    "C119_empty_refuted",
    "C119_normalized_der",
    "C119_one_of_two",
    "C119_high_refuted"
   ],
   "note": "Exact. That the test is defined is refuted for no bytes. That a normalized signature has a low second number is refuted for numbers not below the order, which count as zero."
  },
  {
   "property": "C120",
   "status": "proved",
   "theorems": [
    "C120_defined",
    "C120_checked",
    "C120_valid",
    "C120_minimal",
    "C120_bip66",
    "C120_der",
    "C120_unique",
    "C120_both",
    "C120_same",
    "C120_minimal_refuted",
    "C120_bip66_refuted",
    "C120_same_refuted",
    "C120_produced",
    "C120_signs"
   ],
   "note": "Exact. That minimal is BIP 66 is refuted both ways (negative numbers, zero), and that minimal signatures have one encoding; above 129 bytes the lax reader disagrees with minimal. C120_signs discharges what the properties of redeeming assume about signatures, except that they verify."
  },
  {
   "property": "C121",
   "status": "proved",
   "theorems": [
    "C121_size",
    "C121_written",
    "C121_read",
    "C121_round_trip",
    "C121_round_trip_refuted",
    "C121_directive_refuted"
   ],
   "note": "The round trip is refuted: it holds exactly if the declared sizes happen to be those of the content. The directive of a signature made from a point is not its last byte."
  },
  {
   "property": "C122",
   "status": "proved",
   "theorems": [
    "C122_rounded",
    "C122_nearest",
    "C122_order",
    "C122_invalid"
   ],
   "note": ""
  },
  {
   "property": "C123",
   "status": "proved",
   "theorems": [
    "C123_back",
    "C123_same",
    "C123_never_larger",
    "C123_same_refuted",
    "C123_power_refuted",
    "C123_others"
   ],
   "note": "That the target always comes back is refuted (the target of block 32256 comes back one less, powers of 256 come back as zero); the exact result and a sufficient condition are proved."
  },
  {
   "property": "C124",
   "status": "proved",
   "theorems": [
    "C124_exact",
    "C124_undefined_refuted",
    "C124_target",
    "C124_same",
    "C124_same_refuted",
    "C124_small_refuted"
   ],
   "note": "That the number is the target is refuted (it may be smaller, larger or undefined); the exact value, the bound on the error and a sufficient condition for equality are proved. The external number of mantissa bits is taken to be 52."
  },
  {
   "property": "C125",
   "status": "proved",
   "theorems": [
    "C125_candidate",
    "C125_close",
    "C125_more",
    "C125_harder",
    "C125_invalid"
   ],
   "note": ""
  },
  {
   "property": "C126",
   "status": "proved",
   "theorems": [
    "C126_outpoint_read",
    "C126_outpoint_write",
    "C126_output",
    "C126_input",
    "C126_block",
    "C126_defaults",
    "C126_output_valid",
    "C126_outpoint_valid",
    "C126_fields",
    "C126_value",
    "C126_script",
    "C126_cut_refuted",
    "C126_input_slice",
    "C126_input_slice_read",
    "C126_input_slice_refuted"
   ],
   "note": "That looking up the script of a cut output is harmless, and that the slice of an input is always the input, are refuted; exactly when each holds is proved."
  },
  {
   "property": "C127",
   "status": "proved",
   "theorems": [
    "C127_exact",
    "C127_throws",
    "C127_root_refuted",
    "C127_root",
    "C127_coinbase",
    "C127_coinbase_refuted",
    "C127_slice"
   ],
   "note": "That a valid block's transactions hash to its Merkle root, and that coinbase scripts may be anything, are refuted; the exact conditions are proved."
  },
  {
   "property": "C128",
   "status": "proved",
   "theorems": [
    "C128_block",
    "C128_whole",
    "C128_hash",
    "C128_root",
    "C128_work",
    "C128_valid"
   ],
   "note": "With SHA-256 defined concretely in Sha256Spec.v."
  },
  {
   "property": "C129",
   "status": "proved",
   "theorems": [
    "C129_unasked",
    "C129_asked",
    "C129_right",
    "C129_stale_refuted",
    "C129_load_refuted",
    "C129_load"
   ],
   "note": "That the id always is the hash of the present fields, and that a known hash can be loaded, are refuted; the exact answer after any history is proved."
  },
  {
   "property": "C130",
   "status": "proved",
   "theorems": [
    "C130_written",
    "C130_throws",
    "C130_defined",
    "C130_valid",
    "C130_determines",
    "C130_names_refuted"
   ],
   "note": "That the ids of previous transactions can be looked up among the hashes in the same JSON is refuted; the exact form is proved. The case of the digits of the external hex writers is a parameter."
  },
  {
   "property": "C131",
   "status": "proved",
   "theorems": [
    "C131_errors",
    "C131_each",
    "C131_success",
    "C131_text",
    "C131_size_refuted"
   ],
   "note": "That scripts beyond the size limit are refused, and that texts of errors are distinct, are refuted; the exact sets are proved."
  },
  {
   "property": "C132",
   "status": "proved",
   "theorems": [
    "C132_bitwise",
    "C132_unique",
    "C132_swap",
    "C132_opcodes",
    "C132_opcodes_refuted",
    "C132_zero",
    "C132_zero_refuted",
    "C132_not",
    "C132_left",
    "C132_left_bytes",
    "C132_left_iff",
    "C132_right",
    "C132_right_string",
    "C132_right_iff",
    "C132_right_refuted",
    "C132_split",
    "C132_parts",
    "C132_bool"
   ],
   "note": "That the bitwise functions implement the opcodes for all operands, that the shorter operand is extended with zeros, and that right on strings gives the last bytes are refuted; the exact conditions are proved. Whether left on bytes is right depends on the external method range with one argument, a parameter here."
  },
  {
   "property": "C133",
   "status": "proved",
   "theorems": [
    "C133_custom",
    "C133_library",
    "C133_allowed",
    "C133_profiles",
    "C133_chronicle_refuted"
   ],
   "note": "That every profile that customizes limits has the limits of genesis is refuted: the chronicle profile lacks the flag that the limits are looked up with, so that it has the limits before genesis and allows no others."
  },
  {
   "property": "C134",
   "status": "proved",
   "theorems": [
    "C134_submit",
    "C134_submit_determines",
    "C134_query",
    "C134_submit_all",
    "C134_submit_all_determines",
    "C134_apart",
    "C134_status",
    "C134_quotes",
    "C134_status_refuted",
    "C134_words"
   ],
   "note": "How streams write digests, what GET does with a path and the form encoding of the query are external. That the status is asked for by the hexadecimal digest is refuted in this sense: paths have the digest as the stream writes it and quotes drop the first two characters of that, so that one of the two is wrong for every way of writing."
  },
  {
   "property": "C135",
   "status": "proved",
   "theorems": [
    "C135_address_main",
    "C135_address_other",
    "C135_address_read",
    "C135_wif_write",
    "C135_wif_read",
    "C135_xprv_write",
    "C135_xpub_write",
    "C135_xprv_read",
    "C135_xpub_read",
    "C135_one_form"
   ],
   "note": "For any hash function with 32 bytes. What base 58 makes of no digits is external, so that the address of zeros is only included if its checksum is not zero or no digits are written as nothing."
  },
  {
   "property": "C136",
   "status": "proved",
   "theorems": [
    "C136_trial",
    "C136_matching",
    "C136_errors",
    "C136_refused",
    "C136_not_refused",
    "C136_exact",
    "C136_removed",
    "C136_removed_refuted"
   ],
   "note": "Refuted part: with elements below the arguments, what is removed from the script code are those elements and not the signatures. For stacks with less than 2^31 elements. OP_CHECKMULTISIGVERIFY ends the program also when it succeeds."
  },
  {
   "property": "C137",
   "status": "proved",
   "theorems": [
    "C137_spent",
    "C137_protected",
    "C137_in_order",
    "C137_last_keys",
    "C137_any_keys_refuted"
   ],
   "note": "Refuted part: with NULLFAIL, signatures by keys that are not the last ones do not spend the output. For scripts together below 2^31 bytes, given enough memory and operations for the direction from signatures to spending."
  },
  {
   "property": "C138",
   "status": "proved",
   "theorems": [
    "C138_exact",
    "C138_rest_ignored",
    "C138_both_keys_refuted"
   ],
   "note": "Refuted part: a script that joins two keys by OP_CHECKSIGVERIFY does not ask for both signatures. For scripts together below 2^31 bytes and without the cases that the table of effects leaves out (conditions, OP_RETURN, further separators, and lock operands that are a negative zero when numbers need not be minimal); given enough memory and operations for the direction from the tables to spending."
  },
  {
   "property": "C139",
   "status": "proved",
   "theorems": [
    "C139_exact",
    "C139_key",
    "C139_own_code_refuted",
    "C139_anyone_spends",
    "C139_hash_refuted"
   ],
   "note": "Refuted parts: a script that spends the output need not have the hash, and a signature for the redeem script as script code is not accepted. The exact behaviour is proved, for redeem scripts without conditions and with the restrictions of C138."
  },
  {
   "property": "C140",
   "status": "proved",
   "theorems": [
    "C140_exact",
    "C140_frozen",
    "C140_kept_refuted",
    "C140_locked_refuted"
   ],
   "note": "Refuted parts: with the flags that are named after the locks, a lock that has been kept does not let the key spend when upgradable instructions are discouraged (as in the rules before Genesis), and a lock that has not been kept lets it otherwise. The exact behaviour is proved, for operands of at most 32 bits; given enough memory and operations for the direction to spending."
  },
  {
   "property": "C141",
   "status": "proved",
   "theorems": [
    "C141_exact",
    "C141_first_condition",
    "C141_either_key_refuted"
   ],
   "note": "Refuted part: an output that either of two keys may spend is spent without any signature. The exact behaviour is proved for the first condition of a script when it is not met, after instructions as in C138; given enough memory and operations for the direction to spending. Scripts whose conditions are met are the subject of C142."
  },
  {
   "property": "C142",
   "status": "proved",
   "theorems": [
    "C142_exact",
    "C142_first_branch",
    "C142_return",
    "C142_after_condition_refuted"
   ],
   "note": "Refuted part: when a condition is met and its branch ends with OP_ELSE, what follows OP_ENDIF is skipped too, so a check of a signature there is never made. The exact behaviour is proved for scripts with conditions nested to any depth, OP_RETURN, and instructions as in C138; a separator is covered where what follows it can be read by itself, and in front of a check of signatures otherwise, and OP_ELSE or OP_ENDIF without a condition never pass the checks before the run. For the direction to spending, enough memory and operations are supposed."
  },
  {
   "property": "C143",
   "status": "proved",
   "theorems": [
    "C143_frozen",
    "C143_unread",
    "C143_separator_refuted"
   ],
   "note": "Refuted part: with a signature that is good for any code, a branch that checks it is spent, and with a separator before the check it is not. Proved for every such branch at the start of a script, with any instructions that only work on the stacks between the separator and the check, and without any assumption on memory, for each of the four opcodes that check signatures."
  },
  {
   "property": "C144",
   "status": "proved",
   "theorems": [
    "C144_hash",
    "C144_anyone",
    "C144_signed_branch",
    "C144_protected_refuted"
   ],
   "note": "The property as a user expects it is refuted (C144_protected_refuted). Proved: what follows the preimage and OP_1 is spent exactly if the hash is right, for every rest of the script, and OP_1 OP_0 spends every such output within the limits. When the branch checks the signature with OP_CHECKSIGVERIFY, meeting the condition needs both the preimage and the signature (C144_signed_branch)."
  },
  {
   "property": "C145",
   "status": "proved",
   "theorems": [
    "C145_secret",
    "C145_secret_and_key"
   ],
   "note": "Both directions, for unlocking scripts of pushes. Scripts that hash to a script (flag for P2SH set and the form of P2SH) are excluded here and are the subject of C139."
  }
 ]
}