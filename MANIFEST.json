{
 "claims": [
  {
   "property": "C01",
   "status": "proved",
   "theorems": [
    "C01_fixed_length",
    "C01_fixed_digits",
    "C01_big_endian_is_reverse",
    "C01_decode_is_positional",
    "C01_decode_encode_truncates",
    "C01_negative_is_zeros",
    "C01_unbounded_roundtrip_refuted"
   ],
   "note": ""
  },
  {
   "property": "C02",
   "status": "proved",
   "theorems": [
    "C02_roundtrip",
    "C02_shortest",
    "C02_nonempty",
    "C02_big_endian_is_reverse",
    "C02_negative_is_empty"
   ],
   "note": ""
  },
  {
   "property": "C03",
   "status": "proved",
   "theorems": [
    "C03_varint_is_compact_size",
    "C03_varint_roundtrip",
    "C03_varint_overflow_wraps",
    "C03_compact_size_unique"
   ],
   "note": ""
  },
  {
   "property": "C04",
   "status": "proved",
   "theorems": [
    "C04_buffer_refines_fifo",
    "C04_buffer_conserves_bytes",
    "C04_short_read_changes_nothing"
   ],
   "note": ""
  },
  {
   "property": "C05",
   "status": "proved",
   "theorems": [
    "C05_hex_roundtrip",
    "C05_hex_accepts",
    "C05_hex_total",
    "C05_hex_rejects"
   ],
   "note": ""
  },
  {
   "property": "C06",
   "status": "proved",
   "theorems": [
    "C06_base58_encodes",
    "C06_base58_roundtrip",
    "C06_base58_text_unique"
   ],
   "note": ""
  },
  {
   "property": "C07",
   "status": "proved",
   "theorems": [
    "C07_base58_accepts_alphabet",
    "C07_base58_canonical",
    "C07_base58_rejects"
   ],
   "note": ""
  },
  {
   "property": "C08",
   "status": "proved",
   "theorems": [
    "C08_base58check_iff",
    "C08_base58check_roundtrip",
    "C08_base58check_text",
    "C08_base58check_errors",
    "C08_contained_errors_refuted"
   ],
   "note": ""
  },
  {
   "property": "C09",
   "status": "proved",
   "theorems": [
    "C09_encode_value",
    "C09_encode_shortest",
    "C09_roundtrip",
    "C09_default_range",
    "C09_four_byte_range_refuted",
    "C09_str_operand_fails"
   ],
   "note": ""
  },
  {
   "property": "C10",
   "status": "proved",
   "theorems": [
    "C10_minimal_iff",
    "C10_minimal_accepts_exactly_shortest",
    "C10_plain_value",
    "C10_too_long",
    "C10_shortest_unique"
   ],
   "note": ""
  },
  {
   "property": "C11",
   "status": "proved",
   "theorems": [
    "C11_find_int",
    "C11_find_name",
    "C11_find_network_object",
    "C11_only_unknown_network",
    "C11_find_quiet",
    "C11_unambiguous",
    "C11_address_types_disjoint"
   ],
   "note": ""
  },
  {
   "property": "C12",
   "status": "proved",
   "theorems": [
    "C12_constructor",
    "C12_constructor_errors",
    "C12_from_bytes",
    "C12_from_bytes_errors",
    "C12_from_hex_in_range",
    "C12_from_wif_in_range"
   ],
   "note": ""
  },
  {
   "property": "C13",
   "status": "proved",
   "theorems": [
    "C13_bytes_length",
    "C13_bytes_value",
    "C13_bytes_roundtrip",
    "C13_hex_roundtrip",
    "C13_bytes_back"
   ],
   "note": ""
  },
  {
   "property": "C14",
   "status": "proved",
   "theorems": [
    "C14_wif_roundtrip",
    "C14_wif_payload"
   ],
   "note": ""
  },
  {
   "property": "C15",
   "status": "proved",
   "theorems": [
    "C15_wif_exact",
    "C15_wif_errors",
    "C15_wif_contained",
    "C15_wif_contained_refuted"
   ],
   "note": ""
  },
  {
   "property": "C16",
   "status": "proved",
   "theorems": [
    "C16_string_roundtrip",
    "C16_bytes_roundtrip",
    "C16_hex_roundtrip",
    "C16_payload",
    "C16_strings_injective",
    "C16_constructor",
    "C16_bytearray_has_no_text"
   ],
   "note": ""
  },
  {
   "property": "C17",
   "status": "proved",
   "theorems": [
    "C17_string_exact",
    "C17_string_errors",
    "C17_string_contained_refuted",
    "C17_bytes_accepts",
    "C17_bytes_value",
    "C17_bytes_errors"
   ],
   "note": ""
  },
  {
   "property": "C18",
   "status": "proved",
   "theorems": [
    "C18_uncompressed_roundtrip"
   ],
   "note": ""
  },
  {
   "property": "C19",
   "status": "proved",
   "theorems": [
    "C19_compressed_roundtrip",
    "C19_hex_roundtrip",
    "C19_decompression",
    "C19_root_unique"
   ],
   "note": ""
  },
  {
   "property": "C20",
   "status": "proved",
   "theorems": [
    "C20_constructor",
    "C20_constructor_errors",
    "C20_parsed_on_curve",
    "C20_from_bytes_errors",
    "C20_from_hex_errors"
   ],
   "note": ""
  },
  {
   "property": "C21",
   "status": "proved",
   "theorems": [
    "C21_accepts_exactly",
    "C21_from_hex",
    "C21_bytearray",
    "C21_non_residue",
    "C21_trailing_ignored",
    "C21_length_refuted",
    "C21_range_refuted",
    "C21_one_point_two_keys_refuted"
   ],
   "note": ""
  },
  {
   "property": "C22",
   "status": "proved",
   "theorems": [
    "C22_inverse_mod"
   ],
   "note": ""
  },
  {
   "property": "C23",
   "status": "proved",
   "theorems": [
    "C23_root_is_root",
    "C23_legendre",
    "C23_sound_and_complete",
    "C23_two_refuted"
   ],
   "note": ""
  },
  {
   "property": "C24",
   "status": "proved",
   "theorems": [
    "C24_add",
    "C24_double",
    "C24_double_two_torsion",
    "C24_add_unreduced",
    "C24_constructor",
    "C24_order_assertion_vacuous",
    "C24_secp"
   ],
   "note": ""
  },
  {
   "property": "C25",
   "status": "proved",
   "theorems": [
    "C25_repeated_addition",
    "C25_sum_is_unique",
    "C25_negative_scalar",
    "C25_generator",
    "C25_generator_injective"
   ],
   "note": ""
  },
  {
   "property": "C26",
   "status": "proved",
   "theorems": [
    "C26_verify_accepts_sign",
    "C26_verify_accepts_any_nonce",
    "C26_secp_verify_accepts_sign",
    "C26_secp_sign_outcome",
    "C26_sign_total",
    "C26_nonce_zero",
    "C26_sign_values",
    "C26_nonce_range",
    "C26_unreduced_r_refuted"
   ],
   "note": ""
  },
  {
   "property": "C27",
   "status": "proved",
   "theorems": [
    "C27_accepts_exactly_bip66",
    "C27_never_raises",
    "C27_bytearray_raises"
   ],
   "note": ""
  },
  {
   "property": "C28",
   "status": "proved",
   "theorems": [
    "C28_constructs",
    "C28_constructor_rejects",
    "C28_from_name",
    "C28_from_name_rejects",
    "C28_name_roundtrip",
    "C28_named_numbers",
    "C28_unnamed",
    "C28_for_number",
    "C28_number_value",
    "C28_for_number_rejects",
    "C28_order",
    "C28_push_names"
   ],
   "note": ""
  },
  {
   "property": "C29",
   "status": "proved",
   "theorems": [
    "C29_push_for",
    "C29_push_for_errors",
    "C29_shortest_wire_form",
    "C29_var_push_for",
    "C29_var_push_errors",
    "C29_const_push_errors"
   ],
   "note": ""
  },
  {
   "property": "C30",
   "status": "proved",
   "theorems": [
    "C30_constructor",
    "C30_constructor_errors"
   ],
   "note": ""
  },
  {
   "property": "C31",
   "status": "proved",
   "theorems": [
    "C31_roundtrip",
    "C31_bytes_are_the_wire_form",
    "C31_parse_then_print",
    "C31_pushdata_refuted",
    "C31_hex",
    "C31_hash"
   ],
   "note": ""
  },
  {
   "property": "C32",
   "status": "proved",
   "theorems": [
    "C32_grammar",
    "C32_from_bytes",
    "C32_truncated",
    "C32_errors",
    "C32_unambiguous",
    "C32_every_script_has_bytes"
   ],
   "note": ""
  },
  {
   "property": "C33",
   "status": "proved",
   "theorems": [
    "C33_classify",
    "C33_unclassified",
    "C33_is_valid",
    "C33_exclusive",
    "C33_no_signatures_refuted",
    "C33_no_keys_refuted"
   ],
   "note": ""
  },
  {
   "property": "C34",
   "status": "proved",
   "theorems": [
    "C34_classify_fails_exactly",
    "C34_totality_refuted"
   ],
   "note": ""
  },
  {
   "property": "C35",
   "status": "proved",
   "theorems": [
    "C35_no_data",
    "C35_roundtrip",
    "C35_text_grammar",
    "C35_printed_tokens",
    "C35_unnamed_refuted",
    "C35_empty_refuted",
    "C35_errors",
    "C35_error_unique",
    "C35_read_or_bad"
   ],
   "note": ""
  },
  {
   "property": "C36",
   "status": "proved",
   "theorems": [
    "C36_public_key_back",
    "C36_pay_to_pubkey_in_total",
    "C36_public_keys_back",
    "C36_multisig_total",
    "C36_pay_to_pubkey_in",
    "C36_pay_to_pubkey_out",
    "C36_pay_to_pubkey_out_total",
    "C36_pay_to_script_in",
    "C36_pay_to_script_in_script",
    "C36_pay_to_script_out",
    "C36_op_return",
    "C36_op_return_total",
    "C36_redeem_multisig",
    "C36_parsed_public_key_refuted",
    "C36_parsed_public_keys_refuted"
   ],
   "note": ""
  },
  {
   "property": "C37",
   "status": "proved",
   "theorems": [
    "C37_constructs",
    "C37_errors"
   ],
   "note": ""
  },
  {
   "property": "C38",
   "status": "proved",
   "theorems": [
    "C38_wire_format",
    "C38_total",
    "C38_input",
    "C38_output",
    "C38_injective",
    "C38_input_hex",
    "C38_output_hex"
   ],
   "note": ""
  },
  {
   "property": "C39",
   "status": "proved",
   "theorems": [
    "C39_roundtrip",
    "C39_hex_roundtrip",
    "C39_parse_print"
   ],
   "note": ""
  },
  {
   "property": "C40",
   "status": "proved",
   "theorems": [
    "C40_huge_inputs",
    "C40_huge_outputs",
    "C40_grammar",
    "C40_trailing",
    "C40_truncated",
    "C40_canonical_refuted",
    "C40_input",
    "C40_output",
    "C40_input_hex",
    "C40_output_hex"
   ],
   "note": ""
  },
  {
   "property": "C41",
   "status": "proved",
   "theorems": [
    "C41_frame"
   ],
   "note": ""
  },
  {
   "property": "C42",
   "status": "proved",
   "theorems": [
    "C42_message",
    "C42_other_scripts",
    "C42_commits",
    "C42_signs_message",
    "C42_commute"
   ],
   "note": ""
  },
  {
   "property": "C43",
   "status": "proved",
   "theorems": [
    "C43_sigtype_is_suffix",
    "C43_every_type_covers_all",
    "C43_none_refuted",
    "C43_single_refuted",
    "C43_anyonecanpay_refuted"
   ],
   "note": ""
  },
  {
   "property": "C44",
   "status": "proved",
   "theorems": [
    "C44_errors",
    "C44_out_of_range",
    "C44_only_in_range",
    "C44_negative_is_identity",
    "C44_plain_input",
    "C44_sign_again",
    "C44_parsed_never_signs"
   ],
   "note": ""
  },
  {
   "property": "C45",
   "status": "proved",
   "theorems": [
    "C45_can_sign_exact",
    "C45_sign_total",
    "C45_sign_matches",
    "C45_sign_errors",
    "C45_created",
    "C45_key_count",
    "C45_sign",
    "C45_can_sign",
    "C45_can_sign_count",
    "C45_key_unchecked",
    "C45_wrong_key_refuted"
   ],
   "note": ""
  },
  {
   "property": "C46",
   "status": "proved",
   "theorems": [
    "C46_can_sign",
    "C46_can_sign_any_network",
    "C46_testnet_key_never"
   ],
   "note": ""
  },
  {
   "property": "C47",
   "status": "proved",
   "theorems": [
    "C47_get_id",
    "C47_outpoint_reversed",
    "C47_outpoint_refuted"
   ],
   "note": ""
  },
  {
   "property": "C48",
   "status": "proved",
   "theorems": [
    "C48_output_create",
    "C48_output_create_fails",
    "C48_address_output",
    "C48_script_output",
    "C48_multisig_output",
    "C48_multisig_never_p2sh_refuted",
    "C48_multisig_not_read_back"
   ],
   "note": ""
  },
  {
   "property": "C49",
   "status": "proved",
   "theorems": [
    "C49_data_output",
    "C49_too_much",
    "C49_empty_or_bytearray",
    "C49_unserializable_refuted"
   ],
   "note": ""
  },
  {
   "property": "C50",
   "status": "proved",
   "theorems": [
    "C50_created",
    "C50_other_scripts",
    "C50_unclassifiable",
    "C50_cannot_sign"
   ],
   "note": ""
  },
  {
   "property": "C51",
   "status": "proved",
   "theorems": [
    "C51_words",
    "C51_words_total",
    "C51_words_underflow",
    "C51_ifdup",
    "C51_depth",
    "C51_size",
    "C51_toaltstack",
    "C51_fromaltstack",
    "C51_fromaltstack_underflow",
    "C51_equal",
    "C51_equalverify",
    "C51_verify",
    "C51_pick",
    "C51_roll",
    "C51_pick_roll_range",
    "C51_pick_roll_not_a_number",
    "C51_underflow",
    "C51_drop",
    "C51_drop_refuted",
    "C51_push_zero",
    "C51_push_number",
    "C51_nop",
    "C51_codeseparator",
    "C51_return",
    "C51_hash",
    "C51_hash_underflow",
    "C51_reserved"
   ],
   "note": ""
  },
  {
   "property": "C52",
   "status": "proved",
   "theorems": [
    "C52_unary",
    "C52_unary_total",
    "C52_unary_not_a_number",
    "C52_unary_underflow",
    "C52_binary",
    "C52_binary_total",
    "C52_binary_not_a_number",
    "C52_binary_underflow",
    "C52_numequalverify",
    "C52_within",
    "C52_within_not_a_number",
    "C52_within_underflow",
    "C52_operand_unique",
    "C52_abs",
    "C52_abs_refuted"
   ],
   "note": ""
  },
  {
   "property": "C53",
   "status": "proved",
   "theorems": [
    "C53_truth",
    "C53_falsehood",
    "C53_bitcoin",
    "C53_bitcoin_refuted"
   ],
   "note": ""
  },
  {
   "property": "C54",
   "status": "proved",
   "theorems": [
    "C54_balanced",
    "C54_if",
    "C54_if_underflow",
    "C54_if_unexecuted",
    "C54_else_endif",
    "C54_else_endif_alone",
    "C54_then_branch",
    "C54_else_branch"
   ],
   "note": ""
  },
  {
   "property": "C55",
   "status": "proved",
   "theorems": [
    "C55_skip",
    "C55_only_failures",
    "C55_stacks",
    "C55_skip_block"
   ],
   "note": ""
  },
  {
   "property": "C56",
   "status": "proved",
   "theorems": [
    "C56_bounds_attained",
    "C56_bounds",
    "C56_script_size",
    "C56_final_items",
    "C56_mid_script_refuted",
    "C56_element_size",
    "C56_operation_count"
   ],
   "note": ""
  },
  {
   "property": "C57",
   "status": "proved",
   "theorems": [
    "C57_evaluate",
    "C57_verify",
    "C57_step"
   ],
   "note": ""
  },
  {
   "property": "C58",
   "status": "proved",
   "theorems": [
    "C58_step",
    "C58_evaluate",
    "C58_verify",
    "C58_p2pkh_never",
    "C58_p2sh_never",
    "C58_checkmultisig",
    "C58_multisig_script",
    "C58_multisig_never"
   ],
   "note": ""
  },
  {
   "property": "C59",
   "status": "proved",
   "theorems": [
    "C59_p2sh",
    "C59_sigpushonly",
    "C59_minimaldata_step",
    "C59_minimaldata_evaluate",
    "C59_minimaldata_verify",
    "C59_pushdata_evaluate",
    "C59_pushdata_verify",
    "C59_exceptions",
    "C59_flags_used"
   ],
   "note": ""
  },
  {
   "property": "C60",
   "status": "proved",
   "theorems": [
    "C60_fresh"
   ],
   "note": ""
  },
  {
   "property": "C61",
   "status": "proved",
   "theorems": [
    "C61_exactly"
   ],
   "note": ""
  },
  {
   "property": "C62",
   "status": "proved",
   "theorems": [
    "C62_public",
    "C62_private",
    "C62_public_errors",
    "C62_private_errors",
    "C62_public_unknown_version",
    "C62_private_unknown_version",
    "C62_short_refused",
    "C62_pad_byte_refuted",
    "C62_length_refuted",
    "C62_not_injective"
   ],
   "note": ""
  },
  {
   "property": "C63",
   "status": "proved",
   "theorems": [
    "C63_public_text_fails",
    "C63_private_text_fails",
    "C63_private_derive_never",
    "C63_derive_normal",
    "C63_derive_hardened",
    "C63_roundtrip_refuted",
    "C63_derivation_refuted",
    "C63_unicode_checked",
    "C63_unicode_unchecked",
    "C63_private_text",
    "C63_public_text"
   ],
   "note": ""
  },
  {
   "property": "C64",
   "status": "proved",
   "theorems": [
    "C64_derive",
    "C64_index_ignored",
    "C64_all_or_none",
    "C64_recorded",
    "C64_hardened_refused",
    "C64_bip32_refuted",
    "C64_distinct_refuted",
    "C64_first_hardened"
   ],
   "note": ""
  },
  {
   "property": "C65",
   "status": "proved",
   "theorems": [
    "C65_roundtrip",
    "C65_roundtrip_exact_refuted",
    "C65_roundtrip_exact_any_refuted",
    "C65_whole_units_exact",
    "C65_whole_units_in",
    "C65_fields",
    "C65_injective",
    "C65_monotone",
    "C65_shown",
    "C65_integer",
    "C65_float_satoshis",
    "C65_float",
    "C65_errors",
    "C65_satoshis_errors",
    "C65_nothing",
    "C65_first_argument_wins"
   ],
   "note": ""
  },
  {
   "property": "C66",
   "status": "proved",
   "theorems": [
    "C66_raises",
    "C66_exact",
    "C66_valid",
    "C66_invalid_amount",
    "C66_dict",
    "C66_other",
    "C66_scheme_ignored",
    "C66_scheme_refuted",
    "C66_total_refuted",
    "C66_dict_total_refuted"
   ],
   "note": ""
  },
  {
   "property": "C67",
   "status": "proved",
   "theorems": [
    "C67_mutators_never_succeed"
   ],
   "note": ""
  },
  {
   "property": "C68",
   "status": "proved",
   "theorems": [
    "C68_push_only"
   ],
   "note": ""
  },
  {
   "property": "C69",
   "status": "proved",
   "theorems": [
    "C69_parsed_push_refuted",
    "C69_built_push"
   ],
   "note": ""
  },
  {
   "property": "C70",
   "status": "proved",
   "theorems": [
    "C70_errors",
    "C70_signatures",
    "C70_script_created",
    "C70_multisig_created"
   ],
   "note": ""
  },
  {
   "property": "C71",
   "status": "proved",
   "theorems": [
    "C71_address",
    "C71_text",
    "C71_pays_the_script"
   ],
   "note": ""
  },
  {
   "property": "C72",
   "status": "proved",
   "theorems": [
    "C72_hash_lock"
   ],
   "note": ""
  },
  {
   "property": "C73",
   "status": "proved",
   "theorems": [
    "C73_commutative",
    "C73_associative",
    "C73_neutral",
    "C73_inverse",
    "C73_scalars_add"
   ],
   "note": ""
  },
  {
   "property": "C74",
   "status": "proved",
   "theorems": [
    "C74_field_prime",
    "C74_order_prime",
    "C74_secp_group",
    "C74_order",
    "C74_no_zero_abscissa",
    "C74_no_zero_ordinate"
   ],
   "note": ""
  },
  {
   "property": "C75",
   "status": "proved",
   "theorems": [
    "C75_derivation",
    "C75_injective",
    "C75_serializes",
    "C75_address_of_public_key",
    "C75_address"
   ],
   "note": ""
  },
  {
   "property": "C76",
   "status": "proved",
   "theorems": [
    "C76_recovers_signer",
    "C76_recovered_keys_verify",
    "C76_not_an_abscissa"
   ],
   "note": ""
  },
  {
   "property": "C77",
   "status": "proved",
   "theorems": [
    "C77_verify_is_ecdsa",
    "C77_out_of_range",
    "C77_raises_exactly",
    "C77_outcomes",
    "C77_infinity_raises",
    "C77_off_curve_raises",
    "C77_boolean_refuted"
   ],
   "note": ""
  },
  {
   "property": "C78",
   "status": "proved",
   "theorems": [
    "C78_from_seed",
    "C78_from_seed_errors",
    "C78_bip32_seed_refuted"
   ],
   "note": ""
  },
  {
   "property": "C79",
   "status": "proved",
   "theorems": [
    "C79_public_half",
    "C79_same_fingerprint"
   ],
   "note": ""
  },
  {
   "property": "C80",
   "status": "proved",
   "theorems": [
    "C80_nonce",
    "C80_nonce_any_hash",
    "C80_unique",
    "C80_range",
    "C80_bound_irrelevant",
    "C80_secp",
    "C80_secp_sign",
    "C80_reduced_hash_refuted"
   ],
   "note": ""
  },
  {
   "property": "C81",
   "status": "proved",
   "theorems": [
    "C81_fiat_roundtrip",
    "C81_fiat_exact_refuted",
    "C81_zero_rate"
   ],
   "note": ""
  },
  {
   "property": "C82",
   "status": "proved",
   "theorems": [
    "C82_members",
    "C82_members_amount",
    "C82_parts"
   ],
   "note": ""
  },
  {
   "property": "C83",
   "status": "proved",
   "theorems": [
    "C83_text",
    "C83_total",
    "C83_roundtrip",
    "C83_roundtrip_amount",
    "C83_roundtrip_amount_refuted",
    "C83_roundtrip_empty_refuted"
   ],
   "note": ""
  },
  {
   "property": "C84",
   "status": "proved",
   "theorems": [
    "C84_accepts",
    "C84_blanks",
    "C84_nearest",
    "C84_overflow",
    "C84_error",
    "C84_writes"
   ],
   "note": ""
  },
  {
   "property": "C85",
   "status": "proved",
   "theorems": [
    "C85_read",
    "C85_written",
    "C85_large_amounts_read",
    "C85_exact_refuted"
   ],
   "note": ""
  },
  {
   "property": "C86",
   "status": "proved",
   "theorems": [
    "C86_base58check_valid",
    "C86_writes",
    "C86_write_error",
    "C86_negative",
    "C86_reads",
    "C86_read_error",
    "C86_roundtrip",
    "C86_secret",
    "C86_secret_compressed",
    "C86_valid",
    "C86_invalid",
    "C86_valid_raises",
    "C86_class_writes",
    "C86_class_reads",
    "C86_class_reads_exact",
    "C86_injective_refuted",
    "C86_total_refuted",
    "C86_canonical_refuted",
    "C86_valid_is_key_refuted"
   ],
   "note": ""
  },
  {
   "property": "C87",
   "status": "proved",
   "theorems": [
    "C87_writes",
    "C87_reads",
    "C87_read_error",
    "C87_roundtrip",
    "C87_hash",
    "C87_hash_error",
    "C87_valid",
    "C87_invalid",
    "C87_valid_raises",
    "C87_testnet_script",
    "C87_class_writes",
    "C87_class_reads",
    "C87_class_public_key",
    "C87_total_refuted"
   ],
   "note": ""
  },
  {
   "property": "C88",
   "status": "proved",
   "theorems": [
    "C88_encode",
    "C88_negative_length",
    "C88_decode",
    "C88_roundtrip",
    "C88_bytes_roundtrip",
    "C88_signed_raises",
    "C88_signed_refuted",
    "C88_minimal",
    "C88_shortest",
    "C88_minimal_unique",
    "C88_nonpositive",
    "C88_minimal_roundtrip",
    "C88_leading_zeros"
   ],
   "note": ""
  },
  {
   "property": "C89",
   "status": "proved",
   "theorems": [
    "C89_outcome",
    "C89_strict",
    "C89_long",
    "C89_empty",
    "C89_secret_range",
    "C89_point_range"
   ],
   "note": ""
  },
  {
   "property": "C90",
   "status": "proved",
   "theorems": [
    "C90_decode_errors",
    "C90_encodes",
    "C90_unique",
    "C90_strict",
    "C90_decodes",
    "C90_decodes_der",
    "C90_roundtrip",
    "C90_canonical_refuted"
   ],
   "note": ""
  },
  {
   "property": "C91",
   "status": "proved",
   "theorems": [
    "C91_malformed",
    "C91_well_formed_or_not",
    "C91_exact",
    "C91_true_or_raises",
    "C91_bad_signature",
    "C91_infinite",
    "C91_key_range",
    "C91_malleable"
   ],
   "note": ""
  },
  {
   "property": "C92",
   "status": "proved",
   "theorems": [
    "C92_hashed_first",
    "C92_exact",
    "C92_digests",
    "C92_roundtrip_refuted"
   ],
   "note": ""
  },
  {
   "property": "C93",
   "status": "proved",
   "theorems": [
    "C93_signature_accepted",
    "C93_input",
    "C93_transaction",
    "C93_spends"
   ],
   "note": ""
  },
  {
   "property": "C94",
   "status": "proved",
   "theorems": [
    "C94_input",
    "C94_transaction",
    "C94_spends",
    "C94_other_key",
    "C94_swapped",
    "C94_any_order_refuted"
   ],
   "note": ""
  },
  {
   "property": "C95",
   "status": "proved",
   "theorems": [
    "C95_number",
    "C95_bitcoin_truth",
    "C95_interpreter_truth",
    "C95_step",
    "C95_step_typed",
    "C95_evaluate",
    "C95_verify"
   ],
   "note": ""
  },
  {
   "property": "C96",
   "status": "proved",
   "theorems": [
    "C96_sound",
    "C96_sound_plain",
    "C96_complete",
    "C96_complete_plain",
    "C96_sound_refuted",
    "C96_complete_refuted",
    "C96_truth_refuted",
    "C96_operands_refuted",
    "C96_limit_refuted",
    "C96_flags_refuted"
   ],
   "note": ""
  },
  {
   "property": "C97",
   "status": "proved",
   "theorems": [
    "C97_plain",
    "C97_reflexive",
    "C97_symmetric",
    "C97_symmetric_refuted",
    "C97_transitive_refuted",
    "C97_network",
    "C97_privkey",
    "C97_pubkey",
    "C97_address",
    "C97_hdpriv",
    "C97_hdpub",
    "C97_instr",
    "C97_script",
    "C97_input",
    "C97_output",
    "C97_tx",
    "C97_opcode",
    "C97_opcode_total",
    "C97_opcode_order",
    "C97_opcode_above",
    "C97_not_equal",
    "C97_not_equal_opcode",
    "C97_not_equal_opcode_other",
    "C97_not_equal_refuted",
    "C97_instr_other",
    "C97_instr_tuple",
    "C97_tuple_derived",
    "C97_tuple_other",
    "C97_list",
    "C97_tuple_instr",
    "C97_tuple_instr_not_equal",
    "C97_plain_instr_not_equal",
    "C97_model_opcodes",
    "C97_model_instr",
    "C97_model_pubkeys"
   ],
   "note": ""
  },
  {
   "property": "C98",
   "status": "proved",
   "theorems": [
    "C98_number",
    "C98_characters",
    "C98_hashable",
    "C98_otherwise",
    "C98_consistent",
    "C98_keys_refuted",
    "C98_script",
    "C98_parsed",
    "C98_text",
    "C98_tx",
    "C98_equal_refuted"
   ],
   "note": ""
  },
  {
   "property": "C99",
   "status": "proved",
   "theorems": [
    "C99_string",
    "C99_string_written",
    "C99_number",
    "C99_object",
    "C99_network",
    "C99_network_text",
    "C99_network_str",
    "C99_network_unshown",
    "C99_network_str_refuted",
    "C99_network_unshown_refuted",
    "C99_network_injective_refuted",
    "C99_fixed",
    "C99_buffer",
    "C99_count",
    "C99_length",
    "C99_wrong_type",
    "C99_wrong_type_refuted",
    "C99_kinds",
    "C99_undocumented",
    "C99_raised",
    "C99_arity",
    "C99_not_a_string",
    "C99_string_injective",
    "C99_number_injective",
    "C99_shown_string",
    "C99_shown",
    "C99_subclass",
    "C99_bitforge",
    "C99_nested",
    "C99_nested_only",
    "C99_except_hex",
    "C99_except_base58",
    "C99_except_network",
    "C99_except_uri",
    "C99_model_wrong_type",
    "C99_model_unexpected_data",
    "C99_model_transaction"
   ],
   "note": ""
  },
  {
   "property": "C100",
   "status": "proved",
   "theorems": [
    "C100_string_written",
    "C100_string_read",
    "C100_string_injective",
    "C100_opcode",
    "C100_opcode_refuted",
    "C100_opcode_injective",
    "C100_instr",
    "C100_instr_unnamed",
    "C100_instr_injective",
    "C100_script",
    "C100_script_injective",
    "C100_model_script",
    "C100_output",
    "C100_input",
    "C100_transaction",
    "C100_privkey",
    "C100_privkey_equal",
    "C100_privkey_hidden_refuted",
    "C100_privkey_compression_refuted",
    "C100_pubkey",
    "C100_pubkey_injective",
    "C100_address",
    "C100_address_injective",
    "C100_unit",
    "C100_unit_equal",
    "C100_uri",
    "C100_network",
    "C100_hdpriv",
    "C100_hdpriv_secret",
    "C100_hdpub"
   ],
   "note": ""
  },
  {
   "property": "C101",
   "status": "proved",
   "theorems": [
    "C101_other_s",
    "C101_only_two",
    "C101_value_mod_order",
    "C101_other_key",
    "C101_forgery",
    "C101_secp_every_s",
    "C101_secp_low_s_refuted"
   ],
   "note": ""
  },
  {
   "property": "C102",
   "status": "proved",
   "theorems": [
    "C102_known_nonce",
    "C102_repeated_nonce",
    "C102_long_values",
    "C102_reduced_values",
    "C102_secp_reduced",
    "C102_secp_long_leaks"
   ],
   "note": ""
  },
  {
   "property": "C103",
   "status": "proved",
   "theorems": [
    "C103_in_range",
    "C103_first_accepted",
    "C103_one_draw",
    "C103_uniform",
    "C103_key",
    "C103_given_secret",
    "C103_seed",
    "C103_given_seed"
   ],
   "note": ""
  },
  {
   "property": "C104",
   "status": "proved",
   "theorems": [
    "C104_stored",
    "C104_unchanged",
    "C104_stored_fits",
    "C104_readback",
    "C104_signing",
    "C104_input_errors",
    "C104_output_errors",
    "C104_errors",
    "C104_amounts_refuted",
    "C104_ids_refuted"
   ],
   "note": ""
  },
  {
   "property": "C105",
   "status": "proved",
   "theorems": [
    "C105_wallet",
    "C105_wallet_errors",
    "C105_serial",
    "C105_pubkey"
   ],
   "note": ""
  },
  {
   "property": "C106",
   "status": "proved",
   "theorems": [
    "C106_new",
    "C106_new_errors",
    "C106_equal",
    "C106_equivalence",
    "C106_not_equal_refuted",
    "C106_hash_refuted",
    "C106_equal_points_refuted",
    "C106_functional_model",
    "C106_infinity",
    "C106_add",
    "C106_add_same_class",
    "C106_double",
    "C106_double_raises",
    "C106_mul",
    "C106_mul_negative",
    "C106_order_refuted",
    "C106_other_curve",
    "C106_equal_curves_refuted",
    "C106_no_curve",
    "C106_no_curve_add",
    "C106_none_only_infinity_refuted",
    "C106_repr",
    "C106_repr_determines",
    "C106_curve_repr",
    "C106_curve_repr_determines",
    "C106_curve_str",
    "C106_curve_str_determines",
    "C106_str",
    "C106_str_coordinates",
    "C106_str_determines_refuted",
    "C106_message",
    "C106_message_determines"
   ],
   "note": ""
  },
  {
   "property": "C107",
   "status": "proved",
   "theorems": [
    "C107_address",
    "C107_address_read",
    "C107_address_first",
    "C107_wif",
    "C107_wif_read",
    "C107_wif_first",
    "C107_hd_public",
    "C107_hd_private",
    "C107_hd_prefix_refuted",
    "C107_one_reader"
   ],
   "note": ""
  },
  {
   "property": "C108",
   "status": "proved",
   "theorems": [
    "C108_items_below",
    "C108_items_below_back",
    "C108_failures_stay",
    "C108_drop_refuted",
    "C108_run",
    "C108_run_kept",
    "C108_extra_items",
    "C108_depth_refuted",
    "C108_join",
    "C108_join_altstack_refuted",
    "C108_join_count_refuted",
    "C108_fewer_flags_step",
    "C108_fewer_flags"
   ],
   "note": ""
  },
  {
   "property": "C109",
   "status": "proved",
   "theorems": [
    "C109_compact",
    "C109_script",
    "C109_input",
    "C109_output",
    "C109_transaction",
    "C109_address_output",
    "C109_script_output",
    "C109_multisig_output",
    "C109_data_output",
    "C109_signed_address",
    "C109_signed_script",
    "C109_three_keys_refuted",
    "C109_estimate",
    "C109_parsed_script",
    "C109_parsed_transaction",
    "C109_counts",
    "C109_rewritten"
   ],
   "note": ""
  },
  {
   "property": "C110",
   "status": "proved",
   "theorems": [
    "C110_twin",
    "C110_messages",
    "C110_differs",
    "C110_address",
    "C110_low_unique",
    "C110_two_nonces"
   ],
   "note": ""
  },
  {
   "property": "C111",
   "status": "proved",
   "theorems": [
    "C111_each",
    "C111_order",
    "C111_frame",
    "C111_signed",
    "C111_message_unique",
    "C111_address",
    "C111_script",
    "C111_can_sign",
    "C111_can_sign_other",
    "C111_multisig_can_sign_other"
   ],
   "note": ""
  },
  {
   "property": "C112",
   "status": "proved",
   "theorems": [
    "C112_dead",
    "C112_dead_anywhere",
    "C112_block",
    "C112_doomed",
    "C112_somewhere_refuted",
    "C112_broken",
    "C112_own_outputs",
    "C112_multisig",
    "C112_multisig_open"
   ],
   "note": ""
  },
  {
   "property": "C113",
   "status": "proved",
   "theorems": [
    "C113_size",
    "C113_script",
    "C113_input",
    "C113_output",
    "C113_transaction",
    "C113_key",
    "C113_signature",
    "C113_bare_script_refuted",
    "C113_stream",
    "C113_stream_prefix",
    "C113_written",
    "C113_reads",
    "C113_reads_back",
    "C113_reads_inputs",
    "C113_reads_outputs",
    "C113_messages",
    "C113_messages_rest",
    "C113_messages_any_id_refuted"
   ],
   "note": ""
  },
  {
   "property": "C114",
   "status": "proved",
   "theorems": [
    "C114_inside",
    "C114_several",
    "C114_verify",
    "C114_rewrites",
    "C114_reorders",
    "C114_multisig",
    "C114_relaxes",
    "C114_relaxes_back_refuted",
    "C114_negate_twice_refuted",
    "C114_stack_words",
    "C114_shorter_stack_words",
    "C114_dropping",
    "C114_drop_refuted"
   ],
   "note": ""
  },
  {
   "property": "C115",
   "status": "proved",
   "theorems": [
    "C115_sum",
    "C115_negative",
    "C115_same_abscissa",
    "C115_product",
    "C115_no_pair",
    "C115_shared",
    "C115_keys_sum",
    "C115_keys_mirror",
    "C115_keys_mirror_bytes",
    "C115_keys_same_abscissa",
    "C115_keys_shared",
    "C115_bip32_compatible",
    "C115_hd_child"
   ],
   "note": ""
  },
  {
   "property": "C116",
   "status": "proved",
   "theorems": [
    "C116_generated",
    "C116_count",
    "C116_abscissas",
    "C116_order",
    "C116_signatures",
    "C116_recovers_all",
    "C116_secp",
    "C116_secp_count",
    "C116_key_has_secret",
    "C116_parsed_key_has_secret",
    "C116_every_key_refuted"
   ],
   "note": ""
  },
  {
   "property": "C117",
   "status": "proved",
   "theorems": [
    "C117_equation",
    "C117_two_values",
    "C117_two_keys",
    "C117_second_key",
    "C117_some_key",
    "C117_one_signature_for_both",
    "C117_large_r",
    "C117_small_r_refuted",
    "C117_secp_large_r",
    "C117_keys_signing_both"
   ],
   "note": ""
  },
  {
   "property": "C118",
   "status": "proved",
   "theorems": [
    "C118_items",
    "C118_spending",
    "C118_push_only",
    "C118_hash_lock",
    "C118_hash_lock_reveals",
    "C118_hash_lock_push_only",
    "C118_hash_lock_iff",
    "C118_literal_lock",
    "C118_literal_lock_reveals"
   ],
   "note": ""
  },
  {
   "property": "C119",
   "status": "proved",
   "theorems": [
    "C119_same_id",
    "C119_history",
    "C119_history_ids",
    "C119_same_digest",
    "C119_signed_history",
    "C119_replay",
    "C119_key_address",
    "C119_script_address",
    "C119_key_is_no_script"
   ],
   "note": ""
  },
  {
   "property": "C120",
   "status": "proved",
   "theorems": [
    "C120_secret_bytes",
    "C120_wif_texts",
    "C120_address_texts",
    "C120_public_keys",
    "C120_public_bytes",
    "C120_signatures",
    "C120_secp_signatures",
    "C120_shared_address",
    "C120_shared_script_address",
    "C120_shared_id",
    "C120_variants_differ",
    "C120_address_determines_key_refuted",
    "C120_id_determines_transaction_refuted"
   ],
   "note": ""
  },
  {
   "property": "C121",
   "status": "proved",
   "theorems": [
    "C121_evaluate",
    "C121_verify",
    "C121_bitcoin_value",
    "C121_bitcoin",
    "C121_wider",
    "C121_sound",
    "C121_complete_refuted",
    "C121_size",
    "C121_one_of"
   ],
   "note": ""
  },
  {
   "property": "C122",
   "status": "proved",
   "theorems": [
    "C122_verify",
    "C122_bitcoin",
    "C122_needs",
    "C122_enough",
    "C122_exactly",
    "C122_wider",
    "C122_same_items_refuted"
   ],
   "note": ""
  },
  {
   "property": "C123",
   "status": "proved",
   "theorems": [
    "C123_order",
    "C123_satoshis",
    "C123_opposite",
    "C123_same_value",
    "C123_at_rate",
    "C123_from_fiat",
    "C123_text",
    "C123_strict_refuted"
   ],
   "note": ""
  },
  {
   "property": "C124",
   "status": "proved",
   "theorems": [
    "C124_step",
    "C124_step_enough",
    "C124_run",
    "C124_run_enough",
    "C124_skipped",
    "C124_required",
    "C124_straight",
    "C124_verify",
    "C124_spend",
    "C124_spend_pushes",
    "C124_fixed_refuted"
   ],
   "note": ""
  },
  {
   "property": "C125",
   "status": "proved",
   "theorems": [
    "C125_point",
    "C125_roots",
    "C125_same_ordinate",
    "C125_same_cube",
    "C125_six_apart",
    "C125_sum_of_two",
    "C125_sum_of_three",
    "C125_keys",
    "C125_keys_same_ordinate",
    "C125_related_nonces",
    "C125_related_nonces_leak"
   ],
   "note": ""
  },
  {
   "property": "C126",
   "status": "proved",
   "theorems": [
    "C126_evaluate",
    "C126_bitcoin",
    "C126_bytes",
    "C126_verify",
    "C126_bitcoin_verify",
    "C126_stack_words"
   ],
   "note": ""
  },
  {
   "property": "C127",
   "status": "proved",
   "theorems": [
    "C127_evaluate",
    "C127_bitcoin",
    "C127_bytes",
    "C127_verify",
    "C127_bitcoin_verify"
   ],
   "note": ""
  },
  {
   "property": "C128",
   "status": "proved",
   "theorems": [
    "C128_verify",
    "C128_choose",
    "C128_bitcoin",
    "C128_bitcoin_choose",
    "C128_nested",
    "C128_under",
    "C128_over"
   ],
   "note": ""
  },
  {
   "property": "C129",
   "status": "proved",
   "theorems": [
    "C129_path",
    "C129_fields",
    "C129_last_ignored",
    "C129_secrets",
    "C129_determined",
    "C129_wallet",
    "C129_parsed"
   ],
   "note": ""
  },
  {
   "property": "C130",
   "status": "proved",
   "theorems": [
    "C130_verify",
    "C130_bitcoin",
    "C130_all",
    "C130_all_bitcoin",
    "C130_left",
    "C130_nested",
    "C130_leftover_refuted"
   ],
   "note": ""
  },
  {
   "property": "C131",
   "status": "proved",
   "theorems": [
    "C131_address",
    "C131_hex",
    "C131_address_hex",
    "C131_lock_time",
    "C131_lock_time_discouraged",
    "C131_key_count",
    "C131_key_operations",
    "C131_signature_count",
    "C131_null_dummy",
    "C131_minimal_push",
    "C131_stack_size"
   ],
   "note": ""
  }
 ]
}