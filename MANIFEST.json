{
 "claims": [
  {
   "property": "C01",
   "status": "proved",
   "theorems": [
    "C01_text_round_trip"
   ],
   "note": ""
  },
  {
   "property": "C02",
   "status": "proved",
   "theorems": [
    "C02_binary_round_trip"
   ],
   "note": ""
  },
  {
   "property": "C03",
   "status": "proved",
   "theorems": [
    "C03_composable",
    "C03_concatenation"
   ],
   "note": ""
  },
  {
   "property": "C04",
   "status": "proved",
   "theorems": [
    "C04_self_framing",
    "C04_stream"
   ],
   "note": ""
  },
  {
   "property": "C05",
   "status": "proved",
   "theorems": [
    "C05_text_canonical",
    "C05_no_malleability"
   ],
   "note": ""
  },
  {
   "property": "C06",
   "status": "proved",
   "theorems": [
    "C06_padding_accepted_refuted",
    "C06_reencode_panics_refuted",
    "C06_reencodes_iff"
   ],
   "note": "The expected 'padding is never accepted' is false of the code (C06_padding_accepted_refuted, C06_reencode_panics_refuted)."
  },
  {
   "property": "C07",
   "status": "proved",
   "theorems": [
    "C07_binary_canonical"
   ],
   "note": ""
  },
  {
   "property": "C08",
   "status": "proved",
   "theorems": [
    "C08_text_binary_agree"
   ],
   "note": ""
  },
  {
   "property": "C09",
   "status": "proved",
   "theorems": [
    "C09_text_panics_iff",
    "C09_ascii_text_panics_iff",
    "C09_binary_panics_iff",
    "C09_never_panics_refuted"
   ],
   "note": "'Never panics' is false of the code (C09_never_panics_refuted); the exact panicking inputs are proved, for every text and every byte string."
  },
  {
   "property": "C10",
   "status": "proved",
   "theorems": [
    "C10_arguments",
    "C10_raw_size",
    "C10_unknown_code",
    "C10_unknown_variable_code_refuted"
   ],
   "note": "The clause 'an unknown code is rejected' is false for codes starting with 4..9 (C10_unknown_variable_code_refuted)."
  },
  {
   "property": "C11",
   "status": "proved",
   "theorems": [
    "C11_variable_code_selection",
    "C11_four_gib_truncated_refuted"
   ],
   "note": "Raw kept whole up to 2^32-1 bytes; refuted at 2^32 bytes."
  },
  {
   "property": "C12",
   "status": "proved",
   "theorems": [
    "C12_prefix_free"
   ],
   "note": ""
  },
  {
   "property": "C13",
   "status": "proved",
   "theorems": [
    "C13_encodes",
    "C13_parsed_binary_encodes"
   ],
   "note": ""
  },
  {
   "property": "C14",
   "status": "proved",
   "theorems": [
    "C14_range",
    "C14_round_trip",
    "C14_arguments",
    "C14_encoders_reject",
    "C14_unknown_code"
   ],
   "note": ""
  },
  {
   "property": "C15",
   "status": "proved",
   "theorems": [
    "C15_text_canonical",
    "C15_binary_canonical"
   ],
   "note": ""
  },
  {
   "property": "C16",
   "status": "proved",
   "theorems": [
    "C16_text_panic_iff",
    "C16_ascii",
    "C16_binary_never_panics",
    "C16_build_never_panics"
   ],
   "note": ""
  },
  {
   "property": "C17",
   "status": "proved",
   "theorems": [
    "C17_width",
    "C17_overflow_truncates",
    "C17_power_too_long"
   ],
   "note": ""
  },
  {
   "property": "C18",
   "status": "proved",
   "theorems": [
    "C18_semver",
    "C18_injective",
    "C18_string",
    "C18_short_strings",
    "C18_string_total"
   ],
   "note": ""
  },
  {
   "property": "C19",
   "status": "proved",
   "theorems": [
    "C19_text_round_trip",
    "C19_same_indexer",
    "C19_ondex_lost_refuted"
   ],
   "note": ""
  },
  {
   "property": "C20",
   "status": "proved",
   "theorems": [
    "C20_binary_round_trip",
    "C20_big_codes_panic"
   ],
   "note": ""
  },
  {
   "property": "C21",
   "status": "proved",
   "theorems": [
    "C21_composable"
   ],
   "note": ""
  },
  {
   "property": "C22",
   "status": "proved",
   "theorems": [
    "C22_accepts_iff",
    "C22_arguments",
    "C22_never_panics",
    "C22_unknown_code",
    "C22_variable_code",
    "C22_lead_codes_useless"
   ],
   "note": ""
  },
  {
   "property": "C23",
   "status": "proved",
   "theorems": [
    "C23_text_canonical",
    "C23_binary_canonical",
    "C23_padding_accepted_refuted"
   ],
   "note": ""
  },
  {
   "property": "C24",
   "status": "proved",
   "theorems": [
    "C24_text_rejects",
    "C24_small_codes_reject",
    "C24_binary_accepts_refuted"
   ],
   "note": ""
  },
  {
   "property": "C25",
   "status": "proved",
   "theorems": [
    "C25_binary_never_panics",
    "C25_text_panic_iff",
    "C25_ascii_never_panics"
   ],
   "note": ""
  },
  {
   "property": "C26",
   "status": "proved",
   "theorems": [
    "C26_pather",
    "C26_code_classes",
    "C26_verfer",
    "C26_cigar",
    "C26_siger",
    "C26_diger",
    "C26_seqner",
    "C26_dater",
    "C26_bexter",
    "C26_material",
    "C26_diger_material",
    "C26_saider",
    "C26_saider_code",
    "C26_signer"
   ],
   "note": "Every typed constructor, with all optional arguments."
  },
  {
   "property": "C27",
   "status": "proved",
   "theorems": [
    "C27_number",
    "C27_number_material",
    "C27_number_parse_unchecked",
    "C27_number_any_code_refuted",
    "C27_salter",
    "C27_salter_any_code_refuted"
   ],
   "note": "'A parsed Number (Salter) has a number (salt) code' is false (C27_number_any_code_refuted, C27_salter_any_code_refuted)."
  },
  {
   "property": "C28",
   "status": "proved",
   "theorems": [
    "C28_number"
   ],
   "note": ""
  },
  {
   "property": "C29",
   "status": "proved",
   "theorems": [
    "C29_hex_input",
    "C29_hex_rejected",
    "C29_empty",
    "C29_hex_round_trip"
   ],
   "note": ""
  },
  {
   "property": "C30",
   "status": "proved",
   "theorems": [
    "C30_num_no_panic",
    "C30_num_panics_iff",
    "C30_num_panics_refuted"
   ],
   "note": "'num() never panics' is false of the code (C30_num_panics_refuted); the exact panicking texts are proved."
  },
  {
   "property": "C31",
   "status": "proved",
   "theorems": [
    "C31_sn_round_trip",
    "C31_order",
    "C31_text_order_refuted"
   ],
   "note": "'qb64 order is numeric order' is false of the code (C31_text_order_refuted); the qb2 order is proved."
  },
  {
   "property": "C32",
   "status": "proved",
   "theorems": [
    "C32_accepts",
    "C32_round_trip",
    "C32_now",
    "C32_accepts_iff",
    "C32_not_a_date_refuted"
   ],
   "note": "Texts that are not dates are accepted (C32_not_a_date_refuted)."
  },
  {
   "property": "C33",
   "status": "proved",
   "theorems": [
    "C33_round_trip",
    "C33_exact_iff",
    "C33_same_object",
    "C33_rejects"
   ],
   "note": ""
  },
  {
   "property": "C34",
   "status": "proved",
   "theorems": [
    "C34_round_trip",
    "C34_accepted",
    "C34_path",
    "C34_round_trip_refuted"
   ],
   "note": "Outside proper components the round trip is false of the code (C34_round_trip_refuted)."
  },
  {
   "property": "C35",
   "status": "proved",
   "theorems": [
    "C35_root",
    "C35_strip",
    "C35_root_strip",
    "C35_strip_other",
    "C35_strip_refuted"
   ],
   "note": "Unconditional stripping is false of the code (C35_strip_refuted)."
  },
  {
   "property": "C36",
   "status": "proved",
   "theorems": [
    "C36_text",
    "C36_components",
    "C36_prefix",
    "C36_prefix_refuted"
   ],
   "note": "The converse of the component-wise statement is false of the code (C36_prefix_refuted)."
  },
  {
   "property": "C37",
   "status": "proved",
   "theorems": [
    "C37_resolve",
    "C37_compose",
    "C37_compose_refuted",
    "C37_numeric_key_refuted",
    "C37_tail"
   ],
   "note": "With empty components composition is false of the code (C37_compose_refuted, C37_numeric_key_refuted)."
  },
  {
   "property": "C38",
   "status": "proved",
   "theorems": [
    "C38_satisfied",
    "C38_accepted",
    "C38_rejected",
    "C38_distinct_refuted"
   ],
   "note": "Distinctness of indices is not required by the code (C38_distinct_refuted)."
  },
  {
   "property": "C39",
   "status": "proved",
   "theorems": [
    "C39_weights",
    "C39_safe",
    "C39_exact",
    "C39_checked",
    "C39_refuted"
   ],
   "note": "Exactness without overflow checks is false when sums overflow (C39_refuted); the safe direction C39_safe holds in every build."
  },
  {
   "property": "C40",
   "status": "proved",
   "theorems": [
    "C40_set",
    "C40_monotone"
   ],
   "note": ""
  },
  {
   "property": "C41",
   "status": "proved",
   "theorems": [
    "C41_panic_iff",
    "C41_never_panics_refuted",
    "C41_overflow_refuted"
   ],
   "note": "The property first listed ('never panics') is false: C41_never_panics_refuted, C41_overflow_refuted; the exact panics are proved."
  },
  {
   "property": "C42",
   "status": "proved",
   "theorems": [
    "C42_limen",
    "C42_sound",
    "C42_wellformed",
    "C42_accepted",
    "C42_sith_lists",
    "C42_several_slashes_refuted",
    "C42_zero_denominator_refuted",
    "C42_empty_refuted"
   ],
   "note": "Findings: C42_several_slashes_refuted, C42_zero_denominator_refuted, C42_empty_refuted."
  },
  {
   "property": "C43",
   "status": "proved",
   "theorems": [
    "C43_limen",
    "C43_empty_refuted"
   ],
   "note": "C43_empty_refuted for the empty threshold."
  },
  {
   "property": "C44",
   "status": "proved",
   "theorems": [
    "C44_rebuilt",
    "C44_empty_refuted",
    "C44_json_text",
    "C44_json",
    "C44_json_refuted"
   ],
   "note": "C44_empty_refuted, C44_json_refuted."
  },
  {
   "property": "C45",
   "status": "proved",
   "theorems": [
    "C45_json_injective",
    "C45_json_injective_refuted"
   ],
   "note": "NaN and infinities print as null and are excluded (C45_json_injective_refuted)."
  },
  {
   "property": "C46",
   "status": "proved",
   "theorems": [
    "C46_json_round_trip",
    "C46_json_round_trip_refuted",
    "C46_json_stable",
    "C46_layout"
   ],
   "note": "Refuted for floats printed without '.' (C46_json_round_trip_refuted); C79 says which floats are read back from their texts."
  },
  {
   "property": "C47",
   "status": "proved",
   "theorems": [
    "C47_json_import",
    "C47_json_import_refuted"
   ],
   "note": "'Never panics' is false of the code (C47_json_import_refuted); the exact panicking texts are proved."
  },
  {
   "property": "C48",
   "status": "proved",
   "theorems": [
    "C48_deversify",
    "C48_deversify_total",
    "C48_versify",
    "C48_versify_refuses",
    "C48_versify_overflow_refuted"
   ],
   "note": "versify output out of range is not readable (C48_versify_overflow_refuted)."
  },
  {
   "property": "C49",
   "status": "proved",
   "theorems": [
    "C49_sizeify",
    "C49_sizeify_short",
    "C49_sizeify_general",
    "C49_sizeify_general_refuted",
    "C49_sizeify_total"
   ],
   "note": "General objects: C49_sizeify_general; raw = JSON of ked is refuted in general (C49_sizeify_general_refuted)."
  },
  {
   "property": "C50",
   "status": "proved",
   "theorems": [
    "C50_sniff",
    "C50_sniff_total",
    "C50_load",
    "C50_load_panics"
   ],
   "note": ""
  },
  {
   "property": "C51",
   "status": "proved",
   "theorems": [
    "C51_saidify",
    "C51_saidify_verifies",
    "C51_saidify_size",
    "C51_saidify_total",
    "C51_new_with_sad"
   ],
   "note": "Relative to hash_contract (digest sizes); keys of objects are distinct (IndexMap)."
  },
  {
   "property": "C52",
   "status": "proved",
   "theorems": [
    "C52_verify",
    "C52_verify_panics",
    "C52_binding",
    "C52_tamper"
   ],
   "note": "Relative to hash_contract. 'verify never panics' is false (C52_verify_panics)."
  },
  {
   "property": "C53",
   "status": "proved",
   "theorems": [
    "C53_digest",
    "C53_verify_iff",
    "C53_compare_iff",
    "C53_compare_nothing"
   ],
   "note": ""
  },
  {
   "property": "C54",
   "status": "proved",
   "theorems": [
    "C54_key",
    "C54_digest",
    "C54_code",
    "C54_material",
    "C54_material_refuted",
    "C54_verify_key",
    "C54_verify_digest",
    "C54_digest_verifies",
    "C54_key_verifies",
    "C54_key_verifies_refuted",
    "C54_fixed_key_refuted",
    "C54_binding",
    "C54_verify_panics",
    "C54_new_panics"
   ],
   "note": "exact derivation and verification for all fifteen codes; key prefixes verify only when the key's text is canonical, refuted otherwise"
  },
  {
   "property": "C55",
   "status": "proved",
   "theorems": [
    "C55_load_again",
    "C55_from_ked",
    "C55_consistent",
    "C55_populate",
    "C55_populate_atomic_refuted",
    "C55_said_verified_refuted"
   ],
   "note": ""
  },
  {
   "property": "C56",
   "status": "proved",
   "theorems": [
    "C56_indexed_signature",
    "C56_out_of_range"
   ],
   "note": ""
  },
  {
   "property": "C57",
   "status": "proved",
   "theorems": [
    "C57_signer_from_raw",
    "C57_signer_random",
    "C57_signer_round_trip",
    "C57_sign_then_verify",
    "C57_verify_iff"
   ],
   "note": "Relative to scheme_contract (sizes and correctness of the signature schemes), stated as a hypothesis and met by a toy instance."
  },
  {
   "property": "C58",
   "status": "proved",
   "theorems": [
    "C58_batch",
    "C58_defaults",
    "C58_paths_distinct",
    "C58_prefix_collision_refuted",
    "C58_stretch",
    "C58_seed",
    "C58_unknown_tier"
   ],
   "note": "Path collision between different prefixes: C58_prefix_collision_refuted."
  },
  {
   "property": "C59",
   "status": "proved",
   "theorems": [
    "C59_text_panics_iff",
    "C59_others",
    "C59_sign_never_panics"
   ],
   "note": ""
  },
  {
   "property": "C60",
   "status": "proved",
   "theorems": [
    "C60_value_set",
    "C60_value_set_other",
    "C60_value_get",
    "C60_position",
    "C60_conversions"
   ],
   "note": ""
  },
  {
   "property": "C61",
   "status": "proved",
   "theorems": [
    "C61_end_to_end"
   ],
   "note": ""
  },
  {
   "property": "C62",
   "status": "proved",
   "theorems": [
    "C62_keys",
    "C62_witnesses",
    "C62_not_a_list_refuted",
    "C62_thresholds",
    "C62_sequence",
    "C62_first_seen",
    "C62_first_seen_refuted",
    "C62_event",
    "C62_credential",
    "C62_loaded",
    "C62_made"
   ],
   "note": "all accessors of Serder and Creder, with the exact panics; hexadecimal first seen numbers and key entries that are not lists are refuted"
  },
  {
   "property": "C63",
   "status": "proved",
   "theorems": [
    "C63_pretty",
    "C63_read_back"
   ],
   "note": "exact text, truncation, panics and errors; untruncated texts read back as the content"
  },
  {
   "property": "C64",
   "status": "proved",
   "theorems": [
    "C64_text",
    "C64_binary",
    "C64_group",
    "C64_group_binary"
   ],
   "note": "text and binary, any items, groups with count codes"
  },
  {
   "property": "C65",
   "status": "proved",
   "theorems": [
    "C65_signed_event",
    "C65_accepted",
    "C65_replay_refuted"
   ],
   "note": "delivery and acceptance; soundness of acceptance; replay of one signature refutes distinctness for numeric thresholds"
  },
  {
   "property": "C66",
   "status": "proved",
   "theorems": [
    "C66_build",
    "C66_primitives",
    "C66_saider",
    "C66_event",
    "C66_threshold",
    "C66_path",
    "C66_limen"
   ],
   "note": "C66_build, C66_primitives, C66_saider, C66_event, C66_threshold, C66_path; each gives the crash condition in both directions except C66_threshold's value forms (a sufficient condition for not crashing) and C66_path (never)"
  },
  {
   "property": "C67",
   "status": "proved",
   "theorems": [
    "C67_out",
    "C67_in",
    "C67_rebuild_refuted",
    "C67_rebuild"
   ],
   "note": "What one expects (a Number is rebuilt from its value) is false from 2^64 on (C67_rebuild_refuted); the exact behaviour is proved for all numbers."
  },
  {
   "property": "C68",
   "status": "proved",
   "theorems": [
    "C68_values",
    "C68_invalid",
    "C68_threshold"
   ],
   "note": ""
  },
  {
   "property": "C69",
   "status": "proved",
   "theorems": [
    "C69_saidify",
    "C69_ked"
   ],
   "note": "What one expects (the JSON text is returned) is false of the code for every input; these theorems say so."
  },
  {
   "property": "C70",
   "status": "proved",
   "theorems": [
    "C70_arrays",
    "C70_signers",
    "C70_codex",
    "C70_roles"
   ],
   "note": ""
  },
  {
   "property": "C71",
   "status": "proved",
   "theorems": [
    "C71_reads",
    "C71_unambiguous",
    "C71_value",
    "C71_load"
   ],
   "note": "The reader of serde_json (external, modelled) is proved equal to an independent grammar. Floating point numerals are read by an arbitrary function. Closed the gap that no theorem spoke about \\u escapes."
  },
  {
   "property": "C72",
   "status": "proved",
   "theorems": [
    "C72_utf8",
    "C72_bytes",
    "C72_json",
    "C72_loaded"
   ],
   "note": "UTF-8 equals the code-point definition; byte and text entry points agree; strings of every loaded document are texts"
  },
  {
   "property": "C73",
   "status": "proved",
   "theorems": [
    "C73_self_addressing"
   ],
   "note": "Composition theorem over Prefixer, Serder, Saider. The last part (the identifier does not verify with Saider) is a finding about the code."
  },
  {
   "property": "C74",
   "status": "proved",
   "theorems": [
    "C74_fixed_text",
    "C74_fixed_binary",
    "C74_variable",
    "C74_unknown",
    "C74_binary_faithful",
    "C74_text_rewrites",
    "C74_variable_rewrites",
    "C74_indexed",
    "C74_index_text",
    "C74_index_binary",
    "C74_ondex_binary"
   ],
   "note": "Every field combination of Matter (any code, size below 2^32, any bytes) and every indexed signature whose index and ondex fit the code; the setters are record updates, so assembled objects are arbitrary records."
  },
  {
   "property": "C75",
   "status": "proved",
   "theorems": [
    "C75_shortest",
    "C75_grammatical"
   ],
   "note": "Minimality is for values without floats (how a float is printed is up to the parameter that models it); the grammar theorem includes floats that read back as themselves."
  },
  {
   "property": "C76",
   "status": "proved",
   "theorems": [
    "C76_seqner",
    "C76_number",
    "C76_dater",
    "C76_bext",
    "C76_digest",
    "C76_no_key",
    "C76_key",
    "C76_signer",
    "C76_defaults",
    "C76_empty_text",
    "C76_threshold",
    "C76_message"
   ],
   "note": "every field value; defaults of all types. Wild raw lengths of bext are shown with the padding of the base64 engine"
  },
  {
   "property": "C77",
   "status": "proved",
   "theorems": [
    "C77_history",
    "C77_history_self_addressing",
    "C77_prefix",
    "C77_numbered",
    "C77_transport",
    "C77_rotation",
    "C77_announce",
    "C77_extend",
    "C77_identifier_refuted",
    "C77_bytes",
    "C77_bytes_refuted"
   ],
   "note": "relative to the digest contract (length of digests) and that floats print as JSON numbers (proved of the actual reader in C79); conclusions name the colliding texts"
  },
  {
   "property": "C78",
   "status": "proved",
   "theorems": [
    "C78_contract",
    "C78_diger",
    "C78_vectors",
    "C78_long_vectors",
    "C78_blake3_halves"
   ],
   "note": "the algorithms are written from the standards, not from the source of the crates; agreement on test vectors is by computation"
  },
  {
   "property": "C79",
   "status": "proved",
   "theorems": [
    "C79_rounding",
    "C79_reads_nearest",
    "C79_prints",
    "C79_shortest",
    "C79_stable",
    "C79_shape",
    "C79_error_bound",
    "C79_json_round_trip",
    "C79_unstable",
    "C79_said_lost"
   ],
   "note": "the reader of serde_json and the printer ryu are written from their documentation and source as remembered, and agree with a Python implementation on random numerals; the printer searches for the shortest numeral instead of following the algorithm of ryu"
  },
  {
   "property": "C80",
   "status": "proved",
   "theorems": [
    "C80_kinds",
    "C80_float_to_integer",
    "C80_integer_to_float",
    "C80_integer_to_float_refuted"
   ],
   "note": "a float that is NaN or infinite is held as the text null; its conversion to an integer (0 or an extreme) is not modelled"
  }
 ]
}