{
"C06": [
"proved",
"The expected 'padding is never accepted' is false of the code (C06_padding_accepted_refuted, C06_reencode_panics_refuted)."
],
"C09": [
"proved",
"'Never panics' is false of the code (C09_never_panics_refuted); the exact panicking inputs are proved, for every text and every byte string."
],
"C10": [
"proved",
"The clause 'an unknown code is rejected' is false for codes starting with 4..9 (C10_unknown_variable_code_refuted)."
],
"C11": [
"proved",
"Raw kept whole up to 2^32-1 bytes; refuted at 2^32 bytes."
],
"C27": [
"proved",
"'A parsed Number (Salter) has a number (salt) code' is false (C27_number_any_code_refuted, C27_salter_any_code_refuted)."
],
"C26": [
"proved",
"Every typed constructor, with all optional arguments."
],
"C30": [
"proved",
"'num() never panics' is false of the code (C30_num_panics_refuted); the exact panicking texts are proved."
],
"C31": [
"proved",
"'qb64 order is numeric order' is false of the code (C31_text_order_refuted); the qb2 order is proved."
],
"C32": [
"proved",
"Texts that are not dates are accepted (C32_not_a_date_refuted)."
],
"C58": [
"proved",
"Path collision between different prefixes: C58_prefix_collision_refuted."
],
"C57": [
"proved",
"Relative to scheme_contract (sizes and correctness of the signature schemes), stated as a hypothesis and met by a toy instance."
],
"C45": [
"proved",
"NaN and infinities print as null and are excluded (C45_json_injective_refuted)."
],
"C46": [
"proved",
"Refuted for floats printed without '.' (C46_json_round_trip_refuted); C79 says which floats are read back from their texts."
],
"C47": [
"proved",
"'Never panics' is false of the code (C47_json_import_refuted); the exact panicking texts are proved."
],
"C48": [
"proved",
"versify output out of range is not readable (C48_versify_overflow_refuted)."
],
"C49": [
"proved",
"General objects: C49_sizeify_general; raw = JSON of ked is refuted in general (C49_sizeify_general_refuted)."
],
"C51": [
"proved",
"Relative to hash_contract (digest sizes); keys of objects are distinct (IndexMap)."
],
"C52": [
"proved",
"Relative to hash_contract. 'verify never panics' is false (C52_verify_panics)."
],
"C38": [
"proved",
"Distinctness of indices is not required by the code (C38_distinct_refuted)."
],
"C39": [
"proved",
"Exactness without overflow checks is false when sums overflow (C39_refuted); the safe direction C39_safe holds in every build."
],
"C40": [
"proved",
""
],
"C41": [
"proved",
"The property first listed ('never panics') is false: C41_never_panics_refuted, C41_overflow_refuted; the exact panics are proved."
],
"C42": [
"proved",
"Findings: C42_several_slashes_refuted, C42_zero_denominator_refuted, C42_empty_refuted."
],
"C43": [
"proved",
"C43_empty_refuted for the empty threshold."
],
"C44": [
"proved",
"C44_empty_refuted, C44_json_refuted."
],
"C34": [
"proved",
"Outside proper components the round trip is false of the code (C34_round_trip_refuted)."
],
"C35": [
"proved",
"Unconditional stripping is false of the code (C35_strip_refuted)."
],
"C36": [
"proved",
"The converse of the component-wise statement is false of the code (C36_prefix_refuted)."
],
"C37": [
"proved",
"With empty components composition is false of the code (C37_compose_refuted, C37_numeric_key_refuted)."
],
"C54": [
"proved",
"exact derivation and verification for all fifteen codes; key prefixes verify only when the key's text is canonical, refuted otherwise"
],
"C62": [
"proved",
"all accessors of Serder and Creder, with the exact panics; hexadecimal first seen numbers and key entries that are not lists are refuted"
],
"C63": [
"proved",
"exact text, truncation, panics and errors; untruncated texts read back as the content"
],
"C64": [
"proved",
"text and binary, any items, groups with count codes"
],
"C65": [
"proved",
"delivery and acceptance; soundness of acceptance; replay of one signature refutes distinctness for numeric thresholds"
],
"C66": [
"proved",
"C66_build, C66_primitives, C66_saider, C66_event, C66_threshold, C66_path; each gives the crash condition in both directions except C66_threshold's value forms (a sufficient condition for not crashing) and C66_path (never)"
],
"C67": [
"proved",
"What one expects (a Number is rebuilt from its value) is false from 2^64 on (C67_rebuild_refuted); the exact behaviour is proved for all numbers."
],
"C68": [
"proved",
""
],
"C69": [
"proved",
"What one expects (the JSON text is returned) is false of the code for every input; these theorems say so."
],
"C70": [
"proved",
""
],
"C71": [
"proved",
"The reader of serde_json (external, modelled) is proved equal to an independent grammar. Floating point numerals are read by an arbitrary function. Closed the gap that no theorem spoke about \\u escapes."
],
"C72": [
"proved",
"UTF-8 equals the code-point definition; byte and text entry points agree; strings of every loaded document are texts"
],
"C73": [
"proved",
"Composition theorem over Prefixer, Serder, Saider. The last part (the identifier does not verify with Saider) is a finding about the code."
],
"C74": [
"proved",
"Every field combination of Matter (any code, size below 2^32, any bytes) and every indexed signature whose index and ondex fit the code; the setters are record updates, so assembled objects are arbitrary records."
],
"C75": [
"proved",
"Minimality is for values without floats (how a float is printed is up to the parameter that models it); the grammar theorem includes floats that read back as themselves."
],
"C76": [
"proved",
"every field value; defaults of all types. Wild raw lengths of bext are shown with the padding of the base64 engine"
],
"C77": [
"proved",
"relative to the digest contract (length of digests) and that floats print as JSON numbers (proved of the actual reader in C79); conclusions name the colliding texts"
],
"C78": [
"proved",
"the algorithms are written from the standards, not from the source of the crates; agreement on test vectors is by computation"
],
"C79": [
"proved",
"the reader of serde_json and the printer ryu are written from their documentation and source as remembered, and agree with a Python implementation on random numerals; the printer searches for the shortest numeral instead of following the algorithm of ryu"
],
"C80": [
"proved",
"a float that is NaN or infinite is held as the text null; its conversion to an integer (0 or an extreme) is not modelled"
]
}