{
 "claims": [
  {
   "property": "C01",
   "status": "proved",
   "theorems": [
    "C01_signing_entry_points",
    "C01_verification_entry_points",
    "C01_signing_covers_sig_structure",
    "C01_verification_covers_sig_structure"
   ],
   "note": "Signing and verification, every adapter call, whatever the outcome."
  },
  {
   "property": "C02",
   "status": "proved",
   "theorems": [
    "C02_hash_path_is_eddsa_path"
   ],
   "note": "Hash path and EdDSA serialisation give the same bytes, for every input."
  },
  {
   "property": "C03",
   "status": "proved",
   "theorems": [
    "C03_sig_structure_injective"
   ],
   "note": "Lengths below 2^64, as any C buffer."
  },
  {
   "property": "C04",
   "status": "proved",
   "theorems": [
    "C04_entry_points",
    "C04_message_is_cose_sign1"
   ],
   "note": "For every request, configuration, adapter and buffer."
  },
  {
   "property": "C05",
   "status": "proved",
   "theorems": [
    "C05_round_trip_openssl",
    "C05_round_trip_psa",
    "C05_round_trip_any_history",
    "C05_round_trip_inline",
    "C05_reported_is_requested",
    "C05_reserved_kid_refuted"
   ],
   "note": "Under the adapter contracts keys_match, one_digest, hash_reliable, and with the OpenSSL and PSA adapters from assumptions on those libraries only. The reserved short-circuit kid is excluded: messages with it are treated as short-circuit ones (refuted theorem)."
  },
  {
   "property": "C06",
   "status": "proved",
   "theorems": [
    "C06_round_trip_any_history",
    "C06_round_trip_detached"
   ],
   "note": "Under the same adapter contracts as C05, any AAD."
  },
  {
   "property": "C07",
   "status": "partial",
   "theorems": [
    "C07_sign_aad_swaps_its_arguments",
    "C07_sign_aad_refuted"
   ],
   "note": "As stated the property is false of the code (see the _refuted theorem); what holds instead is proved. The property is false of the code; proved that every successful call swaps AAD and payload, with a concrete counterexample."
  },
  {
   "property": "C08",
   "status": "partial",
   "theorems": [
    "C08_eddsa_auxiliary_buffer_signing",
    "C08_eddsa_auxiliary_size_calculation",
    "C08_eddsa_auxiliary_buffer_verification",
    "C08_size_not_reported_refuted"
   ],
   "note": "As stated the property is false of the code (see the _refuted theorem); what holds instead is proved. Exact outcomes for signing and verification; refuted in one point: a verification that fails for lack of room does not report the size needed."
  },
  {
   "property": "C09",
   "status": "partial",
   "theorems": [
    "C09_test_adapter",
    "C09_short_circuit_round_trip",
    "C09_short_circuit_rsa_refuted",
    "C09_short_circuit_own_kid_refuted"
   ],
   "note": "As stated the property is false of the code (see the _refuted theorem); what holds instead is proved. ES256/384/512 without own kid; refuted for PS256 (empty signature) and for a signer with its own kid. With the test adapter the signature is SHA-256 of the Sig_structure repeated."
  },
  {
   "property": "C10",
   "status": "proved",
   "theorems": [
    "C10_openssl_contract",
    "C10_psa_contract",
    "C10_entry_points",
    "C10_size_calculation_exact"
   ],
   "note": "Under the adapter contracts hash_reliable and sizes_agree; digests non-empty for short-circuit. The OpenSSL and PSA adapters are proved to meet the adapter contract."
  },
  {
   "property": "C11",
   "status": "proved",
   "theorems": [
    "C11_entry_points",
    "C11_buffer_threshold"
   ],
   "note": "Under the adapter contracts sizes_agree and room_irrelevant; digests non-empty for short-circuit."
  },
  {
   "property": "C12",
   "status": "proved",
   "theorems": [
    "C12_piecewise_is_one_shot"
   ],
   "note": "Payloads built by any nesting of encoder calls within the encoder's limits."
  },
  {
   "property": "C13",
   "status": "proved",
   "theorems": [
    "C13_verification_sound",
    "C13_accepted_messages_exact",
    "C13_entry_points_exact"
   ],
   "note": "Soundness with the exact adapter call; exact characterisation of acceptance under one_digest and hash_reliable."
  },
  {
   "property": "C14",
   "status": "proved",
   "theorems": [
    "C14_short_circuit_needs_permission",
    "C14_short_circuit_error"
   ],
   "note": "No adapter call at all and never success; exact error for acceptable messages."
  },
  {
   "property": "C15",
   "status": "proved",
   "theorems": [
    "C15_decode_only_no_crypto",
    "C15_decode_only_same_outputs"
   ],
   "note": "No adapter calls, independence of key and back end, same outputs as full verification."
  },
  {
   "property": "C16",
   "status": "proved",
   "theorems": [
    "C16_verify_outputs_on_success_only",
    "C16_sign_output_on_success_only"
   ],
   "note": "Verification and signing."
  },
  {
   "property": "C17",
   "status": "proved",
   "theorems": [
    "C17_alg_and_crit_protected"
   ],
   "note": "For every message."
  },
  {
   "property": "C18",
   "status": "partial",
   "theorems": [
    "C18_unknown_critical_rejected",
    "C18_unknown_critical_refuted",
    "C18_label_zero_refuted"
   ],
   "note": "As stated the property is false of the code (see the _refuted theorem); what holds instead is proved. For integer labels listed before a 0 and all text labels; refuted when 0 is listed or is the label."
  },
  {
   "property": "C19",
   "status": "partial",
   "theorems": [
    "C19_algorithm_used",
    "C19_algorithm_exact",
    "C19_algorithm_truncated_refuted"
   ],
   "note": "As stated the property is false of the code (see the _refuted theorem); what holds instead is proved. For identifiers in int32 range, larger ones rejected; refuted below -2^31 (truncated). C19_algorithm_used: what is used instead, for every message."
  },
  {
   "property": "C20",
   "status": "partial",
   "theorems": [
    "C20_no_duplicate_parameters",
    "C20_two_content_types_refuted",
    "C20_empty_content_type_refuted"
   ],
   "note": "As stated the property is false of the code (see the _refuted theorem); what holds instead is proved. alg, crit, kid, IV, partial IV always; content type within a bucket; refuted for content types of different kind or an empty text one in different buckets."
  },
  {
   "property": "C21",
   "status": "proved",
   "theorems": [
    "C21_content_type"
   ],
   "note": "Exact relation between message and reported content type."
  },
  {
   "property": "C22",
   "status": "proved",
   "theorems": [
    "C22_tag_policy"
   ],
   "note": "Acceptance changes with the tag flags exactly as documented."
  },
  {
   "property": "C23",
   "status": "partial",
   "theorems": [
    "C23_tags_exact",
    "C23_tags_returned",
    "C23_tag_four_out_of_bounds",
    "C23_get_nth_tag_refuted",
    "C23_tag_hidden_refuted",
    "C23_fresh_context_reports_tag_zero"
   ],
   "note": "As stated the property is false of the code (see the _refuted theorem); what holds instead is proved. Exact tags for every index except 4; refuted for index 4 (read outside the array), tag number 2^64-1, fresh context. C23_tags_exact: what is returned for every message."
  },
  {
   "property": "C24",
   "status": "proved",
   "theorems": [
    "C24_decoding_safe"
   ],
   "note": "Every byte string, every configuration."
  },
  {
   "property": "C25",
   "status": "partial",
   "theorems": [
    "C25_limits_enforced",
    "C25_limits_suffice",
    "C25_label_zero_refuted"
   ],
   "note": "As stated the property is false of the code (see the _refuted theorem); what holds instead is proved. Both directions; labels 0 are not counted (refuted)."
  },
  {
   "property": "C26",
   "status": "proved",
   "theorems": [
    "C26_kid_irrelevant",
    "C26_require_kid",
    "C26_require_kid_only"
   ],
   "note": "Both directions; without the flag a message accepted with one kid is accepted with any other and with none (adapters that ignore the kid, kid not the one reserved for short-circuit signatures), with the same outcome."
  },
  {
   "property": "C27",
   "status": "partial",
   "theorems": [
    "C27_auxiliary_size",
    "C27_first_message",
    "C27_auxiliary_size_refuted"
   ],
   "note": "As stated the property is false of the code (see the _refuted theorem); what holds instead is proved. Exact value reported; for the first message of a context it is the right one (C27_first_message); property refuted for reused contexts."
  },
  {
   "property": "C28",
   "status": "proved",
   "theorems": [
    "C28_sha256",
    "C28_test_adapter",
    "C28_shift_refuted"
   ],
   "note": "Any chunks below 2^32 bytes; the specification is written from FIPS 180-4 and takes the bit length modulo 2^64. Refuted by the letter of C11: shifting a byte of 128 or more by 24 as an int is undefined, the theorem takes it as wrapping."
  },
  {
   "property": "C29",
   "status": "partial",
   "theorems": [
    "C29_update_returns_partial",
    "C29_update_returns_refuted"
   ],
   "note": "As stated the property is false of the code (see the _refuted theorem). Returns for every length below 2^32; refuted from 2^32 on, where the loop never ends."
  },
  {
   "property": "C30",
   "status": "proved",
   "theorems": [
    "C30_conversion_lossless",
    "C30_format_injective",
    "C30_wrong_length_rejected"
   ],
   "note": "From an assumption on OpenSSL: i2d_ECDSA_SIG and d2i_ECDSA_SIG are DER."
  },
  {
   "property": "C31",
   "status": "partial",
   "theorems": [
    "C31_ossl_sign_in_bounds_partial",
    "C31_ossl_sign_eddsa_in_bounds",
    "C31_psa_sign_in_bounds",
    "C31_overflow_refuted",
    "C31_sign_overflow_refuted",
    "C31_conversion_exact"
   ],
   "note": "As stated the property is false of the code (see the _refuted theorem). No write outside when the buffer holds the whole signature, for EdDSA and for PSA always; refuted for smaller buffers and numbers with leading zeros, also through t_cose_sign1_sign. C31_conversion_exact: the exact condition."
  },
  {
   "property": "C32",
   "status": "proved",
   "theorems": [
    "C32_openssl_sound",
    "C32_openssl_complete",
    "C32_openssl_total",
    "C32_openssl_eddsa",
    "C32_psa"
   ],
   "note": "Success implies the library verified for every library; the converse when the library has memory and set-up works; never undefined behaviour."
  },
  {
   "property": "C33",
   "status": "partial",
   "theorems": [
    "C33_signing_finishes_hashes",
    "C33_piecewise_signing_finishes_hashes",
    "C33_verification_finishes_hashes",
    "C33_openssl_sign",
    "C33_openssl_eddsa",
    "C33_openssl_hash",
    "C33_psa_hash",
    "C33_openssl_verify_partial",
    "C33_verify_leak_refuted",
    "C33_psa_leak_refuted",
    "C33_openssl_verify_exact",
    "C33_psa_hash_exact"
   ],
   "note": "As stated the property is false of the code (see the _refuted theorem). Hashes started by t_cose always finished; OpenSSL signing, hashing and EdDSA release everything. Verification leaks when ECDSA_SIG_set0 fails or the DER form exceeds the buffer; PSA hashing needs a library that aborts failed operations. C33_openssl_verify_exact and C33_psa_hash_exact: exactly when and what is lost."
  },
  {
   "property": "C34",
   "status": "partial",
   "theorems": [
    "C34_reported",
    "C34_openssl_signing",
    "C34_psa_signing",
    "C34_psa_no_eddsa",
    "C34_test_adapter",
    "C34_test_adapter_verification",
    "C34_test_adapter_signing",
    "C34_hashes_offered",
    "C34_psa_hashes_offered",
    "C34_consistency_refuted"
   ],
   "note": "As stated the property is false of the code (see the _refuted theorem). Exact for signing algorithms; refuted for SHA-384/512 reported but not offered in some builds, and for signature sizes."
  },
  {
   "property": "C35",
   "status": "proved",
   "theorems": [
    "C35_hash_buffer",
    "C35_hash_of_algorithm",
    "C35_signature_buffer",
    "C35_der_buffer"
   ],
   "note": "Every combination of disable macros."
  },
  {
   "property": "C36",
   "status": "proved",
   "theorems": [
    "C36_omit_tag"
   ],
   "note": "Both directions, same adapter calls, buffers up to the encoder's 4 GiB limit."
  },
  {
   "property": "C37",
   "status": "partial",
   "theorems": [
    "C37_nothing_follows",
    "C37_at_least_four_elements",
    "C37_extra_elements_refuted",
    "C37_trailing_protected_refuted"
   ],
   "note": "As stated the property is false of the code (see the _refuted theorem); what holds instead is proved. At least four elements, nothing after the message; refuted for extra elements and for data after the protected map."
  },
  {
   "property": "C38",
   "status": "proved",
   "theorems": [
    "C38_any_history",
    "C38_history_irrelevant"
   ],
   "note": "Any two contexts with equal key, flags and auxiliary buffer."
  },
  {
   "property": "C39",
   "status": "partial",
   "theorems": [
    "C39_detached_null_payload_never_signed",
    "C39_inline_null_payload",
    "C39_null_aad",
    "C39_detached_null_payload_refuted",
    "C39_null_aad_verification",
    "C39_null_detached_payload_verification"
   ],
   "note": "As stated the property is false of the code (see the _refuted theorem); what holds instead is proved. Signing and verification; detached NULL payload refuted for signing."
  },
  {
   "property": "C40",
   "status": "proved",
   "theorems": [
    "C40_no_substitution",
    "C40_short_circuit_tamper"
   ],
   "note": "Short-circuit messages; also any signature accepted twice."
  },
  {
   "property": "C41",
   "status": "proved",
   "theorems": [
    "C41_returned_buffers_in_message"
   ],
   "note": "Payload, kid, IV, partial IV, text content type."
  },
  {
   "property": "C42",
   "status": "proved",
   "theorems": [
    "C42_openssl",
    "C42_psa",
    "C42_any_history",
    "C42_verification_safe",
    "C42_uninitialised_variable_irrelevant"
   ],
   "note": "For adapters that are themselves safe (adapter_safe). Also with the OpenSSL and PSA adapters."
  },
  {
   "property": "C43",
   "status": "proved",
   "theorems": [
    "C43_any_history",
    "C43_any_history_parameters",
    "C43_signing_history"
   ],
   "note": "Equal configuration gives equal error, output and adapter calls."
  },
  {
   "property": "C44",
   "status": "proved",
   "theorems": [
    "C44_representation_irrelevant"
   ],
   "note": "Any two representations of the same data item within decoder limits."
  },
  {
   "property": "C45",
   "status": "proved",
   "theorems": [
    "C45_unsupported_refused",
    "C45_unsupported_refused_piecewise"
   ],
   "note": "Also for encode_parameters."
  },
  {
   "property": "C46",
   "status": "partial",
   "theorems": [
    "C46_encoder_error_reported",
    "C46_unbalanced_not_finished",
    "C46_open_bstr_unnoticed_refuted",
    "C46_payload_closed_unnoticed_refuted"
   ],
   "note": "Errors and unbalanced levels are reported by encode_signature or when finishing; two mistakes are not reported by encode_signature, and one (closing the byte string of the payload and opening another) is not reported at all: refuted with witnesses."
  },
  {
   "property": "C47",
   "status": "proved",
   "theorems": [
    "C47_embedded_is_one_shot"
   ],
   "note": "Any error-free encoder state within the nesting limits."
  },
  {
   "property": "C48",
   "status": "proved",
   "theorems": [
    "C48_signing_safe",
    "C48_openssl",
    "C48_openssl_room",
    "C48_openssl_measuring",
    "C48_psa",
    "C48_test_adapter",
    "C48_any_history"
   ],
   "note": "For any adapter that meets the stated contract and for the OpenSSL, PSA and test adapters. OpenSSL with ECDSA needs a buffer that holds the message, see C31."
  },
  {
   "property": "C49",
   "status": "proved",
   "theorems": [
    "C49_settings_last_given",
    "C49_message_of_history"
   ],
   "note": "Histories are an inductive relation over the API calls (ApiSpec.v); the request of a history is a fold over the calls that does not use the model."
  },
  {
   "property": "C50",
   "status": "proved",
   "theorems": [
    "C50_settings_last_given"
   ],
   "note": "Histories are an inductive relation over the API calls (ApiSpec.v)."
  },
  {
   "property": "C51",
   "status": "proved",
   "theorems": [
    "C51_signing",
    "C51_piecewise_signing",
    "C51_verification",
    "C51_failing_start",
    "C51_failing_finish",
    "C51_failing_off"
   ],
   "note": "For hash_finish, sign and sign_eddsa the log does not record the hash context or the room, so the answer is that of some context or room; the adapter is arbitrary."
  },
  {
   "property": "C52",
   "status": "proved",
   "theorems": [
    "C52_signing",
    "C52_verification",
    "C52_openssl_signing",
    "C52_openssl_verification",
    "C52_psa_signing",
    "C52_psa_verification"
   ],
   "note": "Adapters are compared by a relation between hash contexts and equal answers; the relation is proved of the OpenSSL and PSA models. A key longer than the build expects does differ (C52_long_key_case)."
  },
  {
   "property": "C53",
   "status": "proved",
   "theorems": [
    "C53_unknown_parameters_ignored",
    "C53_added_parameters",
    "C53_any_order",
    "C53_order_label_zero_refuted"
   ],
   "note": "With a label 0 among ten other labels the order does matter (C53_order_label_zero_refuted); the statement excepts it."
  },
  {
   "property": "C54",
   "status": "proved",
   "theorems": [
    "C54_content_type_build"
   ],
   "note": "The converse is not claimed: without content types their values are not looked at."
  },
  {
   "property": "C55",
   "status": "proved",
   "theorems": [
    "C55_detach",
    "C55_attach"
   ],
   "note": "One theorem per direction."
  },
  {
   "property": "C56",
   "status": "proved",
   "theorems": [
    "C56_tags"
   ],
   "note": ""
  },
  {
   "property": "C57",
   "status": "partial",
   "theorems": [
    "C57_every_message",
    "C57_broken",
    "C57_no_array",
    "C57_never_malformed",
    "C57_cut",
    "C57_truncated_refuted",
    "C57_errors_true",
    "C57_only_signature",
    "C57_documented_codes_refuted",
    "C57_no_message",
    "C57_well_formed",
    "C57_trailing_bytes"
   ],
   "note": "Proved for every message and code with the meaning given in ErrorSpec.v, which is that of t_cose_common.h except in three places where the code departs from it (C57_documented_codes_refuted): a parameter twice in one bucket gives PARAMETER_CBOR, a missing algorithm UNSUPPORTED_SIGNING_ALG, some well-formed crit arrays CBOR_NOT_WELL_FORMED; also a detached message with a payload gives CBOR_FORMATTING. For a data item that is no message each code names a fault of the item (C57_no_message), malformed is said only of something malformed (C57_well_formed, and C57_never_malformed for any message well-formed by RFC 8949, decoder limits aside), and bytes after a data item give the item's own error or CBOR_NOT_WELL_FORMED (C57_trailing_bytes). Bytes that start with no data item are arrays that break off or no arrays (C57_every_message); both give an error without any adapter call (C57_broken, C57_no_array), which names a fault of the elements before the break or depends on the place of the break, and calls it malformed only if it is. A message cut between elements is not reported as malformed (C57_cut, C57_truncated_refuted)."
  },
  {
   "property": "C58",
   "status": "proved",
   "theorems": [
    "C58_openssl_signing",
    "C58_psa_signing",
    "C58_openssl_verification",
    "C58_psa_verification"
   ],
   "note": "OpenSSL signing assumes that the library writes no more than the room it is given and that its ECDSA signatures decode to numbers that fit the key (sign_library); PSA signing assumes only the room (psa_within_room). Verification assumes nothing of the library."
  },
  {
   "property": "C59",
   "status": "proved",
   "theorems": [
    "C59_only_signed_verified",
    "C59_short_circuit_verifies_unsigned",
    "C59_libraries"
   ],
   "note": "A reduction: the hash function is any function the two adapters compute, and nothing is assumed of the signature scheme. C59_short_circuit_verifies_unsigned shows why the short-circuit permission must be off. C59_libraries states it for signing and verifying with OpenSSL or PSA in any combination: the exceptions are then a collision of the hash and a signature, valid in the scheme the verifying library implements, of a digest or input never signed."
  },
  {
   "property": "C60",
   "status": "proved",
   "theorems": [
    "C60_signing_errors",
    "C60_faults_reported",
    "C60_parameters_step",
    "C60_piecewise_errors",
    "C60_signature_step_encoder",
    "C60_signature_step"
   ],
   "note": "For one-call signing with at most MAX_OFFSET bytes before the signature and, for detached signing, a payload pointer that is not NULL (C39 is about that). For piecewise signing only the first step is covered. C60_piecewise_errors, C60_signature_step_encoder, C60_signature_step: signing in steps."
  },
  {
   "property": "C61",
   "status": "proved",
   "theorems": [
    "C61_signing_succeeds",
    "C61_measuring_succeeds",
    "C61_measured_is_enough",
    "C61_openssl",
    "C61_psa"
   ],
   "note": "At most MAX_OFFSET bytes before the signature (C60). What the libraries must be able to do is stated in LiveSpec.v; DER signatures are taken to need at most ten bytes more than their numbers."
  },
  {
   "property": "C62",
   "status": "partial",
   "theorems": [
    "C62_one_step",
    "C62_two_step",
    "C62_dynamic",
    "C62_one_step_as_written",
    "C62_two_step_as_written",
    "C62_dynamic_as_written",
    "C62_openssl",
    "C62_openssl_dynamic",
    "C62_psa",
    "C62_one_step_shows",
    "C62_dynamic_shows",
    "C62_two_step_shows_partial",
    "C62_two_step_shows_refuted"
   ],
   "note": "two_step_sign_example returns success without verifying anything when QCBOREncode_Finish fails (C62_two_step_shows_refuted); everything else is proved. The making of the key pair is a parameter here and modelled in C67."
  },
  {
   "property": "C63",
   "status": "proved",
   "theorems": [
    "C63_options_widen",
    "C63_unused_bits_verifying",
    "C63_unused_bits_signing"
   ],
   "note": "Every pair of option words, whatever the message, adapter and build."
  },
  {
   "property": "C64",
   "status": "proved",
   "theorems": [
    "C64_interoperate",
    "C64_same_verdict"
   ],
   "note": "C64_interoperate: libraries are described by which signatures they make and accept (a relation between digests and COSE signatures), in the terms of their own interfaces; the signer's and the verifier's build and library are independent. C64_same_verdict: any message, either direction. Not for short-circuit signatures in the first statement (C09), and not for decode-only mode in the second (C15)."
  },
  {
   "property": "C65",
   "status": "proved",
   "theorems": [
    "C65_openssl_sign",
    "C65_openssl_verify",
    "C65_openssl_wrong_signature",
    "C65_openssl_size",
    "C65_openssl_eddsa",
    "C65_openssl_hash",
    "C65_psa_sign",
    "C65_psa_verify",
    "C65_psa_size",
    "C65_psa_hash",
    "C65_openssl_signing",
    "C65_psa_signing",
    "C65_openssl_verification",
    "C65_psa_verification"
   ],
   "note": "FaultSpec.v says for each code what the library answered to which question. No assumption on the libraries, except for C65_openssl_wrong_signature. A buffer too small for a signature gives T_COSE_ERR_SIG_FAIL, not T_COSE_ERR_SIG_BUFFER_SIZE as t_cose_crypto.h says for adapters; this is what the fault relations state."
  },
  {
   "property": "C66",
   "status": "proved",
   "theorems": [
    "C66_unprotected_irrelevant",
    "C66_adapters"
   ],
   "note": "Both messages must be acceptable but for the signature; what makes unprotected parameters unacceptable is C13, C20, C25, C57."
  },
  {
   "property": "C67",
   "status": "partial",
   "theorems": [
    "C67_one_step",
    "C67_two_step",
    "C67_dynamic",
    "C67_same_results",
    "C67_openssl",
    "C67_openssl_dynamic",
    "C67_psa",
    "C67_released_refuted"
   ],
   "note": "Not everything is freed (C67_released_refuted): make_ossl_key_pair never frees the EVP_PKEY_CTX, and after an error the programs jump over the statements that free key and buffers. Proved: no use after free, no double free, no free of something not obtained, in every run; a program that ends well leaves only the EVP_PKEY_CTX (OpenSSL) or nothing (PSA); a failing run loses at most that, the key and the buffers. psa_close_key counts as giving the key back."
  },
  {
   "property": "C68",
   "status": "partial",
   "theorems": [
    "C68_never_accepted",
    "C68_string",
    "C68_inside",
    "C68_unreadable",
    "C68_protected",
    "C68_documented_code_refuted"
   ],
   "note": "Refused without any adapter call: proved for every well-formed message with such a string anywhere (C68_never_accepted), and inside the protected byte string (C68_protected). The documented code is not the one returned everywhere (C68_documented_code_refuted): it is proved that for an accepted message with one element replaced the code is PARAMETER_CBOR for protected and unprotected parameters, CBOR_FORMATTING for the payload of a detached message and SIGN1_FORMAT elsewhere (C68_string); for strings further inside an element also TOO_MANY_PARAMETERS or TOO_MANY_TAGS if the element has too many (C68_inside, C68_unreadable)."
  },
  {
   "property": "C69",
   "status": "proved",
   "theorems": [
    "C69_verdict",
    "C69_signed",
    "C69_wrong_input",
    "C69_test_adapter",
    "C69_test_wrong_input"
   ],
   "note": "C69_verdict for any message without other fault, C69_signed for a message of the signer verified with any key, AAD and payload, C69_wrong_input for AAD or payload other than those signed. The library is assumed to answer yes or no when asked about a signature (an answer below 0 of OpenSSL gives SIG_FAIL, see C65); the remaining case of C69_wrong_input, one signature that is right for two inputs, is what the scheme has to exclude. C69_test_adapter and C69_test_wrong_input: the same for short-circuit signatures and the test adapter, where the exception is a collision of SHA-256."
  },
  {
   "property": "C70",
   "status": "proved",
   "theorems": [
    "C70_message_size",
    "C70_measured_size",
    "C70_enough",
    "C70_es256"
   ],
   "note": "C70_message_size: exact size of every message made, and the 30 bytes; C70_measured_size: the same sizes are measured; C70_enough: buffers with 30 and 35 bytes more than the data are enough for an adapter that works (C61 shows that the OpenSSL and PSA adapters do); C70_es256: the 150 bytes of the documentation."
  },
  {
   "property": "C71",
   "status": "proved",
   "theorems": [
    "C71_sign",
    "C71_sign_parts",
    "C71_verify",
    "C71_own_kid",
    "C71_never_called_refuted"
   ],
   "note": "C71_sign and C71_sign_parts for signing, C71_verify for messages with the reserved kid, C71_own_kid for the others. The stronger claim of the documentation, that the adapter is never called and verification always works, is refuted by C71_never_called_refuted: the hash functions of the adapter are called."
  },
  {
   "property": "C72",
   "status": "partial",
   "theorems": [
    "C72_unsupported",
    "C72_null",
    "C72_pieces",
    "C72_refused",
    "C72_within",
    "C72_small_buffer_partial",
    "C72_small_buffer_refuted"
   ],
   "note": "C72_unsupported, C72_null, C72_pieces, C72_refused, C72_within: for the OpenSSL, PSA and test adapters. C72_small_buffer_partial: the PSA adapter reports a small buffer; C72_small_buffer_refuted: the OpenSSL and test adapters write past its end, for every such buffer."
  },
  {
   "property": "C73",
   "status": "proved",
   "theorems": [
    "C73_signing",
    "C73_signature_step",
    "C73_verification",
    "C73_few_calls"
   ],
   "note": "C73_signing, C73_signature_step, C73_verification: the log of calls, whatever the adapter returns, is one of the sequences of ProtocolSpec.orderly. C73_few_calls: at most ten calls."
  },
  {
   "property": "C74",
   "status": "partial",
   "theorems": [
    "C74_psa_partial",
    "C74_openssl_sign_partial",
    "C74_openssl_verify_partial",
    "C74_openssl_codes",
    "C74_psa_codes",
    "C74_signing_refuted",
    "C74_verification_refuted"
   ],
   "note": "C74_psa_partial, C74_openssl_sign_partial, C74_openssl_verify_partial: a key the library refuses gives an error, never success. C74_signing_refuted, C74_verification_refuted: the documented codes for keys never come out of signing or verification with either adapter, whatever the library does; C74_openssl_codes, C74_psa_codes: all the codes that do."
  },
  {
   "property": "C75",
   "status": "proved",
   "theorems": [
    "C75_by_kid_sound",
    "C75_by_kid_exact",
    "C75_unknown_kid"
   ],
   "note": "C75_by_kid_sound: success means the signature was made with the key for the kid. C75_by_kid_exact: the messages accepted, exactly. C75_unknown_kid: without a key nothing is called."
  },
  {
   "property": "C76",
   "status": "partial",
   "theorems": [
    "C76_numbers",
    "C76_run_partial",
    "C76_main_partial",
    "C76_table_partial",
    "C76_wide_refuted",
    "C76_smallest_refuted"
   ],
   "note": "C76_numbers: what is shown for a number. C76_run_partial, C76_main_partial, C76_table_partial: the tests run, their count and the report, for results between -2^31 and 2^31 exclusive. C76_wide_refuted: a result that is a multiple of 2^32 counts as passed. C76_smallest_refuted: the result -2^31 cannot be reported."
  },
  {
   "property": "C77",
   "status": "partial",
   "theorems": [
    "C77_made",
    "C77_accepted_partial",
    "C77_both_ivs_refuted",
    "C77_twice_refuted",
    "C77_crit_absent_refuted",
    "C77_tagged_refuted"
   ],
   "note": "C77_made: every message made obeys all the rules. C77_accepted_partial: the types of labels and values (tags ignored) and what must be protected, for messages accepted. C77_both_ivs_refuted, C77_twice_refuted, C77_crit_absent_refuted, C77_tagged_refuted: rules that are not enforced."
  },
  {
   "property": "C78",
   "status": "proved",
   "theorems": [
    "C78_truncated",
    "C78_appended",
    "C78_other_mode",
    "C78_other_mode_detached",
    "C78_other_mode_attached"
   ],
   "note": "C78_truncated, C78_appended: for every data item, accepted or not. C78_other_mode: refused whatever differs between the two calls; C78_other_mode_detached, C78_other_mode_attached: the codes, for the same context. Elements after the fourth and bytes inside the protected byte string are another matter (C37)."
  },
  {
   "property": "C79",
   "status": "proved",
   "theorems": [
    "C79_outputs_irrelevant"
   ],
   "note": "For detached content the payload is an input; there only the parameters pointer varies."
  },
  {
   "property": "C80",
   "status": "partial",
   "theorems": [
    "C80_shortest",
    "C80_deterministic_partial",
    "C80_signed_bytes",
    "C80_deterministic_refuted"
   ],
   "note": "C80_deterministic_partial: the message is deterministic exactly if it does not have both a key id and a content type; C80_deterministic_refuted: with both it is not, the key id (4) comes before the content type (3). C80_shortest and C80_signed_bytes hold without exception; the former compares with the representations that the decoder reads (no strings of indefinite length)."
  },
  {
   "property": "C81",
   "status": "partial",
   "theorems": [
    "C81_shows_bytes",
    "C81_print_safe",
    "C81_payload_shown",
    "C81_all_run",
    "C81_status_partial",
    "C81_status_refuted"
   ],
   "note": "C81_shows_bytes, C81_print_safe: printing, for all buffers. C81_payload_shown: the payload shown (for two_step_sign_example see C62). C81_all_run: examples after a failed one are run. C81_status_partial: the status is 0 in all cases; C81_status_refuted: also if an example failed. Lengths are printed with %ld as if a long held them."
  },
  {
   "property": "C82",
   "status": "partial",
   "theorems": [
    "C82_basic",
    "C82_known_good",
    "C82_sizes",
    "C82_auxiliary_buffer",
    "C82_wrong_payload_partial",
    "C82_cwt_partial",
    "C82_unsupported_partial",
    "C82_keys",
    "C82_test_keys",
    "C82_t_cose_passes",
    "C82_t_cose_passes_all",
    "C82_t_cose_unsupported",
    "C82_openssl",
    "C82_psa",
    "C82_wrong_payload_refuted",
    "C82_cwt_refuted",
    "C82_unsupported_refuted"
   ],
   "note": "C82_basic, C82_known_good, C82_sizes, C82_auxiliary_buffer: exactly when these tests pass. C82_wrong_payload_partial, C82_cwt_partial, C82_unsupported_partial: exactly when the other three pass, which is less than their claim; the refuted theorems give wrong implementations that pass. C82_keys, C82_test_keys: keys are given back. C82_t_cose_passes: t_cose passes five of the tests with every working library; C82_t_cose_unsupported: and the test of unsupported algorithms, working or not; C82_t_cose_passes_all, C82_openssl, C82_psa: all tests pass in every build, if the library also accepts the stored messages other libraries made. Partial because of the three tests that pass for wrong implementations."
  },
  {
   "property": "C83",
   "status": "partial",
   "theorems": [
    "C83_same_message",
    "C83_replica_refuted"
   ],
   "note": "C83_same_message: with no options the maker makes the message of t_cose_sign1_sign, with the same calls, and makes none where that makes none; for contexts without content type, algorithms other than EdDSA, and the short circuit with ECDSA and no kid. C83_replica_refuted: each of these conditions is needed."
  },
  {
   "property": "C84",
   "status": "proved",
   "theorems": [
    "C84_signs_what_it_holds"
   ],
   "note": "For payloads in memory and output buffers that are not NULL; contexts fresh from init when asked for no protected parameters. Other protected parameters are any bytes, the same in the message and in what is signed; what stands in place of the unprotected parameters is not specified, but for its being counted as one item."
  }
 ]
}