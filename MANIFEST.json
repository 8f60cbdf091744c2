{
 "claims": [
  {
   "property": "C01",
   "status": "proved",
   "theorems": [
    "C01_stream_writes_stay_in_buffer",
    "C01_null_buffer_writes_nothing"
   ],
   "note": ""
  },
  {
   "property": "C02",
   "status": "proved",
   "theorems": [
    "C02_stream_byte_count_exact"
   ],
   "note": ""
  },
  {
   "property": "C03",
   "status": "proved",
   "theorems": [
    "C03_stream_overflow_flags_precise",
    "C03_stream_overflow_flags_sticky",
    "C03_stream_position_overflow_implies_buffer_overflow",
    "C03_null_stream_reports_overflow"
   ],
   "note": ""
  },
  {
   "property": "C04",
   "status": "proved",
   "theorems": [
    "C04_stream_content_is_the_writes",
    "C04_stream_keeps_a_suffix",
    "C04_stream_never_alters_written_bytes"
   ],
   "note": ""
  },
  {
   "property": "C05",
   "status": "proved",
   "theorems": [
    "C05_calls_render",
    "C05_programs_render",
    "C05_two_pass",
    "C05_history_independent"
   ],
   "note": ""
  },
  {
   "property": "C06",
   "status": "proved",
   "theorems": [
    "C06_null_stream_safe",
    "C06_all_streams_safe",
    "C06_null_context_refuted"
   ],
   "note": ""
  },
  {
   "property": "C07",
   "status": "proved",
   "theorems": [
    "C07_cbor_header_shortest",
    "C07_cbor_header_undefined",
    "C07_cbor_header_simple_24_to_31_refuted"
   ],
   "note": "For type 7 with arguments 24..31 the head is not well-formed RFC 8949; the theorem set says exactly which heads are, and the refuted case is proved separately."
  },
  {
   "property": "C08",
   "status": "proved",
   "theorems": [
    "C08_cbor_uint_round_trip",
    "C08_cbor_int_round_trip",
    "C08_cbor_int_min_overflows_refuted"
   ],
   "note": "For every int64_t except INT64_MIN under C rules (signed overflow); that case is characterised separately."
  },
  {
   "property": "C09",
   "status": "proved",
   "theorems": [
    "C09_cbor_strings_verbatim",
    "C09_cbor_null_string_is_null"
   ],
   "note": "An empty string with a NULL buffer calls memcpy(dst, NULL, 0); the theorem allows exactly that and nothing else."
  },
  {
   "property": "C10",
   "status": "proved",
   "theorems": [
    "C10_cbor_documents_round_trip",
    "C10_cbor_documents_prefix_free"
   ],
   "note": ""
  },
  {
   "property": "C11",
   "status": "proved",
   "theorems": [
    "C11_asn1_header_is_der"
   ],
   "note": ""
  },
  {
   "property": "C12",
   "status": "proved",
   "theorems": [
    "C12_asn1_base128_minimal_and_invertible"
   ],
   "note": ""
  },
  {
   "property": "C13",
   "status": "proved",
   "theorems": [
    "C13_asn1_length_matches_content",
    "C13_asn1_length_matches_content_any_override",
    "C13_asn1_sequence_wraps_content",
    "C13_asn1_null_callback_is_empty",
    "C13_asn1_nesting"
   ],
   "note": ""
  },
  {
   "property": "C14",
   "status": "proved",
   "theorems": [
    "C14_asn1_tag_overrides",
    "C14_asn1_null_fallbacks_ignore_override",
    "C14_asn1_null_override"
   ],
   "note": ""
  },
  {
   "property": "C15",
   "status": "proved",
   "theorems": [
    "C15_asn1_integer_value",
    "C15_asn1_integer_canonical"
   ],
   "note": ""
  },
  {
   "property": "C16",
   "status": "proved",
   "theorems": [
    "C16_asn1_uint64",
    "C16_asn1_int64"
   ],
   "note": ""
  },
  {
   "property": "C17",
   "status": "proved",
   "theorems": [
    "C17_asn1_integer_reads_only_its_slice_refuted",
    "C17_asn1_integer_output_depends_on_stray_byte",
    "C17_asn1_integer_clean",
    "C17_asn1_integer_stray_read_exact"
   ],
   "note": "The intended claim (reads only its slice) is false of the code: C17_asn1_integer_reads_only_its_slice_refuted. The property is its exact characterisation, C17_asn1_integer_stray_read_exact."
  },
  {
   "property": "C18",
   "status": "proved",
   "theorems": [
    "C18_asn1_bitstring_bits",
    "C18_asn1_bitstring_null_is_empty"
   ],
   "note": ""
  },
  {
   "property": "C19",
   "status": "proved",
   "theorems": [
    "C19_asn1_oid_round_trip",
    "C19_asn1_oid_injective",
    "C19_asn1_oid_null_cases",
    "C19_asn1_oid_first_subidentifier_refuted"
   ],
   "note": "Within the arc bounds of the claim; the truncation of 2.999 is a refuted theorem."
  },
  {
   "property": "C20",
   "status": "proved",
   "theorems": [
    "C20_library_oids_registered",
    "C20_oid_equals_is_equality",
    "C20_oid_equals_equivalence",
    "C20_library_oids_distinct",
    "C20_oid_equals_unchecked_count_refuted"
   ],
   "note": "For arc counts up to 10, as claimed; larger equal counts read out of bounds (refuted theorem)."
  },
  {
   "property": "C21",
   "status": "proved",
   "theorems": [
    "C21_asn1_strings_verbatim",
    "C21_asn1_boolean_and_null"
   ],
   "note": ""
  },
  {
   "property": "C22",
   "status": "proved",
   "theorems": [
    "C22_name_round_trip",
    "C22_name_injective",
    "C22_name_fallback"
   ],
   "note": ""
  },
  {
   "property": "C23",
   "status": "proved",
   "theorems": [
    "C23_extensions_round_trip",
    "C23_no_extensions",
    "C23_extensions_in_order"
   ],
   "note": ""
  },
  {
   "property": "C24",
   "status": "proved",
   "theorems": [
    "C24_basic_constraints_round_trip",
    "C24_basic_constraints_clean",
    "C24_basic_constraints_null"
   ],
   "note": ""
  },
  {
   "property": "C25",
   "status": "proved",
   "theorems": [
    "C25_key_usage_exact",
    "C25_key_usage_any_mask",
    "C25_key_usage_minimal_for_all_masks_refuted",
    "C25_key_usage_null"
   ],
   "note": "For masks made by the macros; the mask 80 01 set by hand is not minimal (refuted theorem)."
  },
  {
   "property": "C26",
   "status": "proved",
   "theorems": [
    "C26_tbs_round_trip",
    "C26_cert_round_trip",
    "C26_null"
   ],
   "note": ""
  },
  {
   "property": "C27",
   "status": "proved",
   "theorems": [
    "C27_signed_is_shipped",
    "C27_signature_independent"
   ],
   "note": ""
  },
  {
   "property": "C28",
   "status": "proved",
   "theorems": [
    "C28_tbs_unambiguous",
    "C28_cert_unambiguous"
   ],
   "note": ""
  },
  {
   "property": "C29",
   "status": "proved",
   "theorems": [
    "C29_open_dice_round_trip",
    "C29_open_dice_null",
    "C29_open_dice_injective"
   ],
   "note": ""
  },
  {
   "property": "C30",
   "status": "proved",
   "theorems": [
    "C30_tcb_info_round_trip",
    "C30_multi_tcb_info_round_trip",
    "C30_tcb_info_null",
    "C30_multi_tcb_info_null_list",
    "C30_operational_flags_exact"
   ],
   "note": ""
  },
  {
   "property": "C31",
   "status": "proved",
   "theorems": [
    "C31_ueid_round_trip",
    "C31_tcb_freshness_round_trip",
    "C31_null"
   ],
   "note": ""
  },
  {
   "property": "C32",
   "status": "proved",
   "theorems": [
    "C32_sha224",
    "C32_sha256",
    "C32_sha384",
    "C32_sha512",
    "C32_null_no_op",
    "C32_constants_are_root_fractions"
   ],
   "note": ""
  },
  {
   "property": "C33",
   "status": "proved",
   "theorems": [
    "C33_context",
    "C33_digest_is_hash",
    "C33_regrouping"
   ],
   "note": ""
  },
  {
   "property": "C34",
   "status": "proved",
   "theorems": [
    "C34_digest_contract",
    "C34_digest_errors_justified",
    "C34_digest_output"
   ],
   "note": ""
  },
  {
   "property": "C35",
   "status": "proved",
   "theorems": [
    "C35_first_null_list",
    "C35_later_null_list_refuted"
   ],
   "note": "The intended claim is false of the code beyond the first list (C35_later_null_list_refuted, for every later NULL list); the property states exactly what happens."
  },
  {
   "property": "C36",
   "status": "proved",
   "theorems": [
    "C36_hmac_over_any_digest",
    "C36_hmac_is_fips198"
   ],
   "note": ""
  },
  {
   "property": "C37",
   "status": "proved",
   "theorems": [
    "C37_hmac_contract",
    "C37_hmac_errors_justified",
    "C37_null_key_refuted"
   ],
   "note": "For keys whose buffer is not NULL, or C libraries whose memcpy accepts NULL with size 0; otherwise C37_null_key_refuted."
  },
  {
   "property": "C38",
   "status": "proved",
   "theorems": [
    "C38_extract_is_rfc5869",
    "C38_expand_is_rfc5869",
    "C38_hkdf_is_rfc5869",
    "C38_prefix",
    "C38_absent_salt"
   ],
   "note": ""
  },
  {
   "property": "C39",
   "status": "proved",
   "theorems": [
    "C39_overlong_refuted",
    "C39_counter_repeats"
   ],
   "note": "The intended claim is false of the code (C39_overlong_refuted, for every over-long request); the property states exactly what happens. The BoringSSL back end does reject such requests (C42_expand_contract)."
  },
  {
   "property": "C40",
   "status": "proved",
   "theorems": [
    "C40_extract_contract",
    "C40_expand_contract",
    "C40_hkdf_contract",
    "C40_errors_leave_output",
    "C40_zero_length",
    "C40_hmac_error_ignored_refuted"
   ],
   "note": "With the hmac of the nat20 context; C40_hmac_error_ignored_refuted shows that errors of another hmac are ignored."
  },
  {
   "property": "C41",
   "status": "proved",
   "theorems": [
    "C41_digest_state_wiped",
    "C41_hmac_keys_wiped",
    "C41_expand_block_wiped",
    "C41_hkdf_prk_wiped",
    "C41_sha256_registers_wiped",
    "C41_sha512_registers_wiped"
   ],
   "note": ""
  },
  {
   "property": "C42",
   "status": "proved",
   "theorems": [
    "C42_digest_contract",
    "C42_hmac_contract",
    "C42_extract_contract",
    "C42_expand_contract",
    "C42_hkdf_contract",
    "C42_digest_allocation_refuted",
    "C42_digest_agrees",
    "C42_hmac_agrees_iff",
    "C42_extract_agrees",
    "C42_expand_agrees_iff",
    "C42_hkdf_agrees_iff",
    "C42_later_null_list_differs",
    "C42_digest_failures_exact",
    "C42_hmac_failures_exact",
    "C42_extract_failures_exact",
    "C42_expand_failures_exact",
    "C42_hkdf_failures_exact"
   ],
   "note": "BoringSSL's own functions are parameters, assumed to compute SHA-2, HMAC and HKDF (computes_sha2) and to fail at any subset of calls. C42_digest_allocation_refuted: the missing check of EVP_MD_CTX_new."
  },
  {
   "property": "C43",
   "status": "proved",
   "theorems": [
    "C43_unwrap",
    "C43_sign",
    "C43_unwrap_defined",
    "C43_unwrap_bytes"
   ],
   "note": "For every pair r, s below 256^coordinate, in the DER encoding of SpecDer.v."
  },
  {
   "property": "C44",
   "status": "proved",
   "theorems": [
    "C44_any_hmac",
    "C44_rfc6979",
    "C44_found",
    "C44_range",
    "C44_unique",
    "C44_small_order",
    "C44_failures_exact"
   ],
   "note": "Every order, seed, digest and HMAC function; the loop is modelled with fuel, C44_found shows that fuel suffices whenever RFC 6979 has a value, C44_small_order that it never ends for q <= 1."
  },
  {
   "property": "C45",
   "status": "proved",
   "theorems": [
    "C45_history",
    "C45_defined",
    "C45_keeps_key",
    "C45_new_secret",
    "C45_new_derived",
    "C45_free",
    "C45_kdf_depends_on",
    "C45_secret_never_signs",
    "C45_secret_no_public_key",
    "C45_signing_key_no_kdf",
    "C45_use_after_free_refuted"
   ],
   "note": "Histories of calls with live or NULL handles; a freed handle is dangling (C45_use_after_free_refuted)."
  },
  {
   "property": "C46",
   "status": "proved",
   "theorems": [
    "C46_hex_writes_two_digits_per_byte",
    "C46_hex_round_trip",
    "C46_hex_injective",
    "C46_parser_accepts_hex",
    "C46_parser_exact",
    "C46_odd_length_rejected",
    "C46_parser_strict_refuted"
   ],
   "note": ""
  },
  {
   "property": "C47",
   "status": "proved",
   "theorems": [
    "C47_hexdump_lines",
    "C47_hexdump_shows_the_rows",
    "C47_hexdump_digits",
    "C47_hexdump_injective"
   ],
   "note": ""
  },
  {
   "property": "C48",
   "status": "proved",
   "theorems": [
    "C48_reader",
    "C48_every_file",
    "C48_all_vectors_in_order",
    "C48_truncated_last_vector_dropped",
    "C48_misfit_reported",
    "C48_unopened_file_throws",
    "C48_no_fields_never_ends",
    "C48_file_round_trip"
   ],
   "note": ""
  },
  {
   "property": "C49",
   "status": "proved",
   "theorems": [
    "C49_sign_contract",
    "C49_public_contract",
    "C49_kdf_contract",
    "C49_kdf_succeeds",
    "C49_make_secret_contract",
    "C49_two_pass_sign",
    "C49_two_pass_public",
    "C49_size_after_failure_refuted",
    "C49_sign_failures_exact",
    "C49_public_failures_exact",
    "C49_kdf_failures_exact"
   ],
   "note": "A failing EVP_DigestSignFinal overwrites the size parameter (C49_size_after_failure_refuted); the contract says exactly that."
  },
  {
   "property": "C50",
   "status": "proved",
   "theorems": [
    "C50_rs",
    "C50_signature_2_asn1_sequence",
    "C50_issue",
    "C50_issued",
    "C50_from_cdi",
    "C50_from_cdi_complete"
   ],
   "note": ""
  },
  {
   "property": "C51",
   "status": "proved",
   "theorems": [
    "C51_claims_round_trip",
    "C51_claims_unambiguous",
    "C51_issued_claims"
   ],
   "note": ""
  },
  {
   "property": "C52",
   "status": "proved",
   "theorems": [
    "C52_profile_exact",
    "C52_default_not_before_refuted",
    "C52_documented_serial"
   ],
   "note": ""
  },
  {
   "property": "C53",
   "status": "proved",
   "theorems": [
    "C53_open_close",
    "C53_nat20",
    "C53_boringssl",
    "C53_interchangeable",
    "C53_two_pass",
    "C53_extract_expand"
   ],
   "note": ""
  },
  {
   "property": "C54",
   "status": "proved",
   "theorems": [
    "C54_cert_encoding"
   ],
   "note": ""
  },
  {
   "property": "C55",
   "status": "proved",
   "theorems": [
    "C55_programs",
    "C55_derive_and_sign",
    "C55_chain"
   ],
   "note": ""
  },
  {
   "property": "C56",
   "status": "proved",
   "theorems": [
    "C56_vectors",
    "C56_fixed_tests",
    "C56_back_ends",
    "C56_nat20",
    "C56_boringssl",
    "C56_null_key_refuted",
    "C56_passing_means",
    "C56_sha_functions",
    "C56_files"
   ],
   "note": ""
  },
  {
   "property": "C57",
   "status": "proved",
   "theorems": [
    "C57_error_tests",
    "C57_sign_errors_leak",
    "C57_kdf_test",
    "C57_kdf_test_means",
    "C57_all_pass"
   ],
   "note": ""
  },
  {
   "property": "C58",
   "status": "proved",
   "theorems": [
    "C58_reading_first",
    "C58_in_place",
    "C58_expand_exact",
    "C58_expand",
    "C58_hkdf",
    "C58_errors",
    "C58_expand_over_prk",
    "C58_expand_in_place_refuted"
   ],
   "note": ""
  },
  {
   "property": "C59",
   "status": "proved",
   "theorems": [
    "C59_programs",
    "C59_same_output",
    "C59_digest",
    "C59_bitstring_refuted",
    "C59_integer_refuted"
   ],
   "note": ""
  },
  {
   "property": "C60",
   "status": "proved",
   "theorems": [
    "C60_parameters",
    "C60_sound",
    "C60_complete",
    "C60_wrong_vector_fails",
    "C60_compares",
    "C60_first_test",
    "C60_make_secret"
   ],
   "note": ""
  },
  {
   "property": "C61",
   "status": "proved",
   "theorems": [
    "C61_exact",
    "C61_unwritten",
    "C61_programs",
    "C61_programs_refuted"
   ],
   "note": ""
  },
  {
   "property": "C62",
   "status": "proved",
   "theorems": [
    "C62_core_tests_pass",
    "C62_core_tests_undefined",
    "C62_stream_prepend",
    "C62_stream_counter_overflow",
    "C62_asn1_header",
    "C62_asn1_header_with_content",
    "C62_asn1_null",
    "C62_asn1_boolean",
    "C62_asn1_integer",
    "C62_asn1_integer_empty",
    "C62_asn1_int64",
    "C62_asn1_bitstring",
    "C62_asn1_octetstring",
    "C62_asn1_strings",
    "C62_asn1_sequence",
    "C62_asn1_object_identifier",
    "C62_cbor_header",
    "C62_cbor_counts",
    "C62_cbor_integer",
    "C62_cbor_sized"
   ],
   "note": ""
  },
  {
   "property": "C63",
   "status": "proved",
   "theorems": [
    "C63_name",
    "C63_extensions",
    "C63_basic_constraints",
    "C63_key_usage",
    "C63_tbs",
    "C63_cert",
    "C63_open_dice",
    "C63_tcb_info",
    "C63_multi_tcb_info",
    "C63_ueid_and_freshness"
   ],
   "note": ""
  },
  {
   "property": "C64",
   "status": "proved",
   "theorems": [
    "C64_name",
    "C64_name_fallback",
    "C64_extensions",
    "C64_basic_constraints",
    "C64_key_usage",
    "C64_tbs",
    "C64_tbs_null",
    "C64_tbs_zero",
    "C64_open_dice",
    "C64_tcb_info",
    "C64_multi_tcb_info",
    "C64_freshness",
    "C64_ueid",
    "C64_null_pointer",
    "C64_rows_pass"
   ],
   "note": ""
  },
  {
   "property": "C65",
   "status": "proved",
   "theorems": [
    "C65_path_exact",
    "C65_linked",
    "C65_wrong_signer",
    "C65_default_period",
    "C65_issue_for"
   ],
   "note": ""
  },
  {
   "property": "C66",
   "status": "proved",
   "theorems": [
    "C66_verdict",
    "C66_conforming",
    "C66_same_signature"
   ],
   "note": ""
  },
  {
   "property": "C67",
   "status": "proved",
   "theorems": [
    "C67_element",
    "C67_extensions",
    "C67_certificate",
    "C67_document"
   ],
   "note": ""
  }
 ]
}