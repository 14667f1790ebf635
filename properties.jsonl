{"id": "C01", "title": "What is signed is the COSE Sig_structure", "statement": "Whenever the library hashes or serialises data to be signed or verified, the bytes fed to the crypto layer are exactly the RFC 8152 Sig_structure [\"Signature1\", protected bucket bytes, external AAD, payload] in preferred CBOR, where the protected bucket bytes are those in the message, the AAD is what the caller gave (empty if none) and the payload is the inline or detached payload.", "quantifier": "every protected bucket, AAD, payload (any length below 2^64), every supported algorithm and every crypto back end", "why_tests_cant": "unbounded payload/AAD lengths cross four CBOR head-width boundaries; tests check a handful of vectors", "anchors": ["src/t_cose_util.c:create_tbs", "src/t_cose_util.c:create_tbs_hash", "src/t_cose_util.c:hash_bstr"]}
{"id": "C02", "title": "Incremental hashing and the EdDSA serialisation agree", "statement": "The byte stream hashed chunk by chunk for ECDSA/RSA signatures is identical to the single buffer serialised for EdDSA, so switching algorithm never changes what is covered.", "quantifier": "every protected bucket, AAD and payload, NULL or empty AAD included, every auxiliary buffer large enough", "why_tests_cant": "two separate code paths must agree on all inputs", "anchors": ["src/t_cose_util.c:create_tbs", "src/t_cose_util.c:create_tbs_hash"]}
{"id": "C03", "title": "The signed bytes determine protected parameters, AAD and payload", "statement": "Two different (protected bucket, AAD, payload) triples never give the same to-be-signed bytes, so a signature over one cannot be replayed for another by shifting bytes between fields.", "quantifier": "every pair of triples", "why_tests_cant": "a universally quantified injectivity over unbounded strings", "anchors": ["src/t_cose_util.c:create_tbs", "src/t_cose_util.c:create_tbs_hash"]}
{"id": "C04", "title": "Signed messages are exactly COSE_Sign1", "statement": "A successful signing call returns, byte for byte, [tag 18 unless omitted] array(4) of: bstr{1: alg}, map with kid (if set and non-empty) and content type (if set), the payload bstr (or null when detached), the signature bstr - in preferred CBOR.", "quantifier": "every payload, AAD, kid, content type, option flag combination, algorithm, build configuration and large enough buffer", "why_tests_cant": "unbounded inputs, 2^n configurations", "anchors": ["src/t_cose_sign1_sign.c:t_cose_sign1_encode_parameters_internal", "src/t_cose_sign1_sign.c:t_cose_sign1_encode_signature_aad_internal", "src/t_cose_sign1_sign.c:t_cose_sign1_sign_aad_internal"]}
{"id": "C05", "title": "Sign then verify round trip (inline payload)", "statement": "A message made by t_cose_sign1_sign() verifies with the matching key and no AAD; verification returns exactly the payload, algorithm, kid and content type given to the signer.", "quantifier": "every payload, kid other than the reserved short-circuit kid, content type, hash-based algorithm, and crypto back end whose verify accepts what its sign produced", "why_tests_cant": "unbounded payload and parameter space", "anchors": ["src/t_cose_sign1_sign.c:t_cose_sign1_sign_aad_internal", "src/t_cose_sign1_verify.c:t_cose_sign1_verify_internal"]}
{"id": "C06", "title": "Sign then verify round trip (detached payload)", "statement": "A message made by t_cose_sign1_sign_detached() with any AAD verifies through t_cose_sign1_verify_detached() with the same AAD and detached payload.", "quantifier": "every non-NULL payload, AAD, kid other than the reserved short-circuit kid, content type, hash-based algorithm and lawful back end", "why_tests_cant": "unbounded inputs", "anchors": ["inc/t_cose/t_cose_sign1_sign.h:t_cose_sign1_sign_detached", "inc/t_cose/t_cose_sign1_verify.h:t_cose_sign1_verify_detached"]}
{"id": "C07", "title": "t_cose_sign1_sign_aad() signs the given payload with the given AAD", "statement": "t_cose_sign1_sign_aad(aad, payload) yields a message that t_cose_sign1_verify_aad() with the same AAD accepts returning the same payload, and with a NULL AAD it is equivalent to t_cose_sign1_sign(payload).", "quantifier": "every aad, payload and context", "why_tests_cant": "the repository's own test passes the two arguments in the wrong order and so hides a swap", "anchors": ["inc/t_cose/t_cose_sign1_sign.h:t_cose_sign1_sign_aad", "src/t_cose_sign1_sign.c:t_cose_sign1_sign_aad_internal"]}
{"id": "C08", "title": "EdDSA round trip with an auxiliary buffer", "statement": "With EdDSA, the auxiliary buffer size reported after a size calculation (or failed attempt) is exactly the size needed: any auxiliary buffer at least that large lets signing and verification succeed, any smaller one gives T_COSE_ERR_AUXILIARY_BUFFER_SIZE, none gives T_COSE_ERR_NEED_AUXILIARY_BUFFER.", "quantifier": "every payload, AAD, kid, auxiliary buffer size", "why_tests_cant": "all sizes and boundaries", "anchors": ["src/t_cose_sign1_sign.c:sign1_sign_eddsa", "src/t_cose_sign1_verify.c:sign1_verify_eddsa"]}
{"id": "C09", "title": "Short-circuit signatures round trip", "statement": "A message made with the short-circuit option verifies when short-circuit verification is allowed, and signing refuses algorithms for which it cannot make a signature of the right size.", "quantifier": "every algorithm accepted by the signer, payload, AAD and configuration", "why_tests_cant": "universally quantified over algorithms and payloads", "anchors": ["src/t_cose_short_circuit.c:short_circuit_sig_size", "src/t_cose_short_circuit.c:short_circuit_sign", "src/t_cose_short_circuit.c:t_cose_crypto_short_circuit_verify"]}
{"id": "C10", "title": "Size calculation is exact", "statement": "Calling a signing function with a NULL output buffer returns success with exactly the length of the message that the same call with a real buffer produces.", "quantifier": "every payload, AAD, kid, content type, algorithm, back end whose sig_size is exact", "why_tests_cant": "equality of two runs over unbounded inputs", "anchors": ["src/t_cose_sign1_sign.c:t_cose_sign1_sign_aad_internal", "inc/t_cose/t_cose_sign1_sign.h:t_cose_sign1_sign"]}
{"id": "C11", "title": "Buffer-size behaviour is a sharp threshold", "statement": "Signing succeeds for every output buffer of at least the calculated size, with the same bytes whatever the buffer size, and fails for every smaller buffer; a successful result never exceeds the buffer.", "quantifier": "every buffer size and every input", "why_tests_cant": "every capacity value must be considered", "anchors": ["src/t_cose_sign1_sign.c:t_cose_sign1_sign_aad_internal"]}
{"id": "C12", "title": "Piecewise signing equals one-shot signing", "statement": "encode_parameters, then adding the payload bytes to the encoder, then encode_signature, then finishing the encoder gives the same result as t_cose_sign1_sign().", "quantifier": "every payload, context and buffer", "why_tests_cant": "equality of two API sequences for all inputs", "anchors": ["src/t_cose_sign1_sign.c:t_cose_sign1_encode_parameters_internal", "src/t_cose_sign1_sign.c:t_cose_sign1_encode_signature_aad_internal"]}
{"id": "C13", "title": "Verification soundness", "statement": "If verification (not decode-only) succeeds then either the crypto back end's verify accepted exactly (algorithm from the protected bucket, caller's key, hash or bytes of the Sig_structure over the message's protected bucket, the caller's AAD and the payload, the message's signature), or the message used the reserved short-circuit kid, short-circuit verification was explicitly allowed and the signature starts with that hash. The payload and the parameters returned are those of that message, each written only if asked for.", "quantifier": "every byte string offered as a message, every AAD, key, option flags, build configuration and crypto back end", "why_tests_cant": "quantifies over all attacker-controlled messages", "anchors": ["src/t_cose_sign1_verify.c:t_cose_sign1_verify_internal", "src/t_cose_sign1_verify.c:sign1_verify_default", "src/t_cose_sign1_verify.c:sign1_verify_eddsa", "src/t_cose_sign1_verify.c:sign1_verify_short_circuit"]}
{"id": "C14", "title": "Short-circuit messages are never accepted unless allowed", "statement": "Without T_COSE_OPT_ALLOW_SHORT_CIRCUIT and T_COSE_OPT_DECODE_ONLY no message carrying the short-circuit kid verifies, and the back end is never asked to verify it.", "quantifier": "every message and context", "why_tests_cant": "all messages", "anchors": ["src/t_cose_sign1_verify.c:sign1_verify_short_circuit", "src/t_cose_sign1_verify.c:t_cose_sign1_verify_internal"]}
{"id": "C15", "title": "Decode-only never touches cryptography", "statement": "With T_COSE_OPT_DECODE_ONLY no hash or verification function of the crypto layer is called, the result is independent of key and back end, and whenever full verification succeeds decode-only returns the same payload and parameters.", "quantifier": "every message, key, back end", "why_tests_cant": "all messages and back ends", "anchors": ["src/t_cose_sign1_verify.c:t_cose_sign1_verify_internal"]}
{"id": "C16", "title": "Outputs only on success", "statement": "If a verification call fails, the caller's payload and parameter outputs are left untouched; in the detached case the payload is never written. If a signing call fails the result is left untouched.", "quantifier": "every message, flags, back end and failure point", "why_tests_cant": "every failure path", "anchors": ["src/t_cose_sign1_verify.c:t_cose_sign1_verify_internal", "src/t_cose_sign1_sign.c:t_cose_sign1_sign_aad_internal"]}
{"id": "C17", "title": "Algorithm and crit must be protected", "statement": "No message that carries an algorithm ID or a crit parameter in the unprotected bucket verifies.", "quantifier": "every well-formed message in any CBOR encoding", "why_tests_cant": "all messages and encodings", "anchors": ["src/t_cose_parameters.c:parse_cose_header_parameters", "src/t_cose_parameters.c:decode_critical_parameter"]}
{"id": "C18", "title": "Unknown critical parameters are rejected", "statement": "Unless T_COSE_OPT_UNKNOWN_CRIT_ALLOWED is set, a message whose crit list names a parameter that is present and not understood by t_cose does not verify.", "quantifier": "every message, crit list and unknown parameter", "why_tests_cant": "all lists of labels", "anchors": ["src/t_cose_parameters.c:check_critical_labels", "src/t_cose_parameters.c:decode_critical_parameter", "src/t_cose_parameters.c:add_label_to_list"]}
{"id": "C19", "title": "Reported and used algorithm is the one in the message", "statement": "The algorithm ID used for verification and returned to the caller equals the integer in the protected bucket; IDs outside int32 are rejected.", "quantifier": "every 64-bit algorithm ID", "why_tests_cant": "2^64 values; only a few are tested", "anchors": ["src/t_cose_parameters.c:parse_cose_header_parameters"]}
{"id": "C20", "title": "Duplicate header parameters are rejected", "statement": "A message in which kid, IV, partial IV, content type or algorithm occurs more than once (within a bucket or once in each) does not verify.", "quantifier": "every message with a repeated known label", "why_tests_cant": "all combinations of values, types and buckets", "anchors": ["src/t_cose_parameters.c:parse_cose_header_parameters"]}
{"id": "C21", "title": "Content type range", "statement": "A returned integer content type is the value in the message and in 0..65535; other integers and other CBOR types are rejected; absence is reported as the documented empty value.", "quantifier": "every content type value", "why_tests_cant": "2^64 values", "anchors": ["src/t_cose_parameters.c:parse_cose_header_parameters"]}
{"id": "C22", "title": "COSE tag policy", "statement": "With TAG_REQUIRED only messages whose innermost tag is 18 are accepted, with TAG_PROHIBITED only messages whose innermost tag is not 18, and otherwise both.", "quantifier": "every tag sequence and option combination", "why_tests_cant": "all tag numbers and nestings", "anchors": ["src/t_cose_sign1_verify.c:process_tags"]}
{"id": "C23", "title": "Unprocessed tags are returned faithfully and reading them is memory safe", "statement": "After successful verification t_cose_sign1_get_nth_tag(0,1,2,...) enumerates the tags outside the COSE tag, innermost first, then CBOR_TAG_INVALID64 for every larger index, without ever reading outside the context.", "quantifier": "every tag sequence and every index", "why_tests_cant": "every index value, including the array bound", "anchors": ["inc/t_cose/t_cose_sign1_verify.h:t_cose_sign1_get_nth_tag", "src/t_cose_sign1_verify.c:process_tags"]}
{"id": "C24", "title": "No out-of-bounds access while decoding", "statement": "Decoding any message performs no out-of-bounds access to the fixed-size label lists and tag array.", "quantifier": "every byte string", "why_tests_cant": "all attacker-controlled messages", "anchors": ["src/t_cose_parameters.c:add_label_to_list", "src/t_cose_parameters.c:decode_critical_parameter", "src/t_cose_parameters.c:check_critical_labels", "src/t_cose_sign1_verify.c:process_tags"]}
{"id": "C25", "title": "Limits on the number of parameters are exact", "statement": "Up to 10 integer-labelled and 10 text-labelled unknown parameters and up to 10 integer and 10 text crit labels are accepted; one more of any kind is rejected.", "quantifier": "every number and mix of labels", "why_tests_cant": "all lists", "anchors": ["src/t_cose_parameters.c:add_label_to_list", "src/t_cose_parameters.c:decode_critical_parameter"]}
{"id": "C26", "title": "REQUIRE_KID", "statement": "With T_COSE_OPT_REQUIRE_KID a message without a kid never verifies, even in decode-only mode; without the flag presence of kid is irrelevant to acceptance of ordinary messages.", "quantifier": "every message", "why_tests_cant": "all messages", "anchors": ["src/t_cose_sign1_verify.c:t_cose_sign1_verify_internal"]}
{"id": "C27", "title": "Auxiliary buffer size report after verification", "statement": "After verification the reported auxiliary buffer size is that needed for the message just processed, and zero if its algorithm needs none.", "quantifier": "every history of verifications with one context", "why_tests_cant": "depends on call history", "anchors": ["inc/t_cose/t_cose_sign1_verify.h:t_cose_sign1_verify_auxiliary_buffer_size", "src/t_cose_sign1_verify.c:sign1_verify_eddsa", "src/t_cose_sign1_verify.c:t_cose_sign1_verify_internal"]}
{"id": "C28", "title": "Bundled SHA-256 computes SHA-256", "statement": "The bundled hash gives the FIPS 180-4 SHA-256 digest of the concatenation of all data fed in, however it is split into calls.", "quantifier": "every sequence of chunks, each shorter than 2^32 bytes, total below 2^61 bytes", "why_tests_cant": "all messages and all splits", "anchors": ["crypto_adapters/b_con_hash/sha256.c:sha256_init", "crypto_adapters/b_con_hash/sha256.c:sha256_update", "crypto_adapters/b_con_hash/sha256.c:sha256_final", "crypto_adapters/b_con_hash/sha256.c:sha256_transform"]}
{"id": "C29", "title": "Bundled SHA-256 terminates on every input length", "statement": "sha256_update returns for every size_t length.", "quantifier": "every length", "why_tests_cant": "needs 4 GiB inputs", "anchors": ["crypto_adapters/b_con_hash/sha256.c:sha256_update"]}
{"id": "C30", "title": "ECDSA DER/COSE signature conversion is lossless", "statement": "Converting a DER (r,s) to COSE form gives the two integers left-padded to the key length, and converting back gives a DER signature of the same (r,s); a COSE signature whose length is not twice the key length is rejected.", "quantifier": "every r, s below 256^key_len and every key size", "why_tests_cant": "leading-zero cases occur with probability 2^-8k", "anchors": ["crypto_adapters/t_cose_openssl_crypto.c:ecdsa_signature_der_to_cose", "crypto_adapters/t_cose_openssl_crypto.c:ecdsa_signature_cose_to_der"]}
{"id": "C31", "title": "Signing never writes outside the signature buffer", "statement": "The OpenSSL adapter writes only within the signature buffer it is given, whatever the signature value.", "quantifier": "every r, s, key length and buffer length", "why_tests_cant": "only rare short r or s values expose it", "anchors": ["crypto_adapters/t_cose_openssl_crypto.c:ecdsa_signature_der_to_cose", "crypto_adapters/t_cose_openssl_crypto.c:t_cose_crypto_sign"]}
{"id": "C32", "title": "Adapter verify reports success only if the library verified", "statement": "The OpenSSL and PSA adapters' verify functions return success if and only if the underlying library reported a valid signature for the given algorithm, key, hash and signature; every other library outcome, allocation failure or key problem gives an error.", "quantifier": "every behaviour of the underlying library", "why_tests_cant": "all failure combinations", "anchors": ["crypto_adapters/t_cose_openssl_crypto.c:t_cose_crypto_verify", "crypto_adapters/t_cose_openssl_crypto.c:t_cose_crypto_verify_eddsa", "crypto_adapters/t_cose_psa_crypto.c:t_cose_crypto_verify"]}
{"id": "C33", "title": "Hash contexts and allocations are released on every path", "statement": "Every hash operation started during signing or verification is finished exactly once, and the OpenSSL adapter frees everything it allocates on every path, including allocation failures.", "quantifier": "every pattern of library failures", "why_tests_cant": "failure patterns are not enumerable by tests", "anchors": ["crypto_adapters/t_cose_openssl_crypto.c:ecdsa_signature_cose_to_der", "crypto_adapters/t_cose_openssl_crypto.c:t_cose_crypto_hash_start", "crypto_adapters/t_cose_openssl_crypto.c:t_cose_crypto_hash_finish", "src/t_cose_util.c:create_tbs_hash"]}
{"id": "C34", "title": "Algorithm support is reported consistently", "statement": "In every build configuration, if t_cose_is_algorithm_supported() reports a signing algorithm or hash as supported then the library and adapter accept it, and the adapter never accepts an algorithm it reports as unsupported.", "quantifier": "every algorithm ID and every combination of disable macros", "why_tests_cant": "2^8 configurations are not all built", "anchors": ["crypto_adapters/t_cose_openssl_crypto.c:t_cose_crypto_is_algorithm_supported", "crypto_adapters/t_cose_psa_crypto.c:t_cose_crypto_is_algorithm_supported", "crypto_adapters/t_cose_test_crypto.c:t_cose_crypto_is_algorithm_supported", "src/t_cose_util.c:signature_algorithm_id_is_supported", "src/t_cose_util.c:hash_alg_id_from_sig_alg_id"]}
{"id": "C35", "title": "Fixed internal buffers are large enough in every configuration", "statement": "The hash of every enabled algorithm fits the fixed hash buffer and every ECDSA signature of an enabled curve fits the fixed signature buffers.", "quantifier": "every combination of disable macros and every algorithm", "why_tests_cant": "2^8 configurations", "anchors": ["src/t_cose_crypto.h:T_COSE_CRYPTO_MAX_HASH_SIZE", "src/t_cose_crypto.h:T_COSE_MAX_ECDSA_SIG_SIZE", "src/t_cose_sign1_verify.c:sign1_verify_default"]}
{"id": "C36", "title": "The CBOR tag option changes only the tag", "statement": "Signing with T_COSE_OPT_OMIT_CBOR_TAG gives exactly the same message without its leading tag byte.", "quantifier": "every input", "why_tests_cant": "equality of two runs for all inputs", "anchors": ["src/t_cose_sign1_sign.c:t_cose_sign1_encode_parameters_internal"]}
{"id": "C37", "title": "A COSE_Sign1 has exactly four elements and nothing follows it", "statement": "A message whose array has a number of elements other than four, or that is followed by extra bytes, or whose protected bucket bstr holds anything after its map, does not verify.", "quantifier": "every message", "why_tests_cant": "all messages", "anchors": ["src/t_cose_sign1_verify.c:t_cose_sign1_verify_internal"]}
{"id": "C38", "title": "Verification does not depend on context history", "statement": "The result, payload and parameters of a verification depend only on message, AAD, flags, key and auxiliary buffer, not on earlier uses of the context.", "quantifier": "every history", "why_tests_cant": "all histories", "anchors": ["src/t_cose_sign1_verify.c:t_cose_sign1_verify_internal"]}
{"id": "C39", "title": "NULL and empty are interchangeable for AAD and payloads", "statement": "NULL_Q_USEFUL_BUF_C and a zero-length buffer mean the same for AAD and payload in signing and verification.", "quantifier": "every context and message", "why_tests_cant": "representation independence over all inputs", "anchors": ["src/t_cose_sign1_sign.c:t_cose_sign1_encode_signature_aad_internal", "src/t_cose_sign1_verify.c:t_cose_sign1_verify_internal"]}
{"id": "C40", "title": "Tampering is detected unless the hash collides", "statement": "If a short-circuit message verifies, then any message with a different protected bucket, payload or AAD and a signature with the same leading hash bytes verifies only if SHA collides on two different Sig_structures.", "quantifier": "every pair of messages", "why_tests_cant": "all pairs", "anchors": ["src/t_cose_sign1_verify.c:sign1_verify_short_circuit", "src/t_cose_util.c:create_tbs_hash"]}
{"id": "C41", "title": "Returned buffers point into the message", "statement": "The returned payload, kid, IV, partial IV and text content type are contiguous parts of the message that was verified.", "quantifier": "every message", "why_tests_cant": "all messages", "anchors": ["src/t_cose_sign1_verify.c:t_cose_sign1_verify_internal", "src/t_cose_parameters.c:parse_cose_header_parameters"]}
{"id": "C42", "title": "Verification terminates without undefined behaviour", "statement": "Verification of any byte string returns an error code or success; it neither loops nor reads uninitialised results in a way that affects the outcome.", "quantifier": "every byte string and flags", "why_tests_cant": "all inputs", "anchors": ["src/t_cose_sign1_verify.c:t_cose_sign1_verify_internal"]}
{"id": "C43", "title": "Signing is independent of context history", "statement": "A signing context can be reused: result depends only on configured key, kid, content type, flags, algorithm, auxiliary buffer and arguments.", "quantifier": "every history of signing calls (successful or failed)", "why_tests_cant": "all histories", "anchors": ["src/t_cose_sign1_sign.c:t_cose_sign1_sign_aad_internal"]}
{"id": "C44", "title": "CBOR representation independence", "statement": "Verification result, payload and parameters do not depend on whether the message's array, maps and lengths use definite, indefinite or non-minimal CBOR encodings.", "quantifier": "every message and every alternative encoding of its structure", "why_tests_cant": "all encodings", "anchors": ["src/t_cose_sign1_verify.c:t_cose_sign1_verify_internal", "src/t_cose_parameters.c:parse_cose_header_parameters"]}
{"id": "C45", "title": "Unsupported algorithms are refused before anything happens", "statement": "Signing with an algorithm that is not supported in the build returns T_COSE_ERR_UNSUPPORTED_SIGNING_ALG, produces no output and never calls the crypto layer.", "quantifier": "every algorithm ID and configuration", "why_tests_cant": "2^32 IDs", "anchors": ["src/t_cose_sign1_sign.c:t_cose_sign1_encode_parameters_internal", "src/t_cose_util.c:signature_algorithm_id_is_supported"]}
{"id": "C46", "title": "Caller errors while building the payload are always reported", "statement": "If, between encode_parameters and encode_signature, the caller leaves levels open, closes something else than was opened, or overflows the buffer, encode_signature or the final QCBOREncode_Finish reports an error and no message is produced; a recorded encoder error is reported before the crypto layer is called.", "quantifier": "every sequence of encoder calls by the caller", "why_tests_cant": "all call sequences", "anchors": ["src/t_cose_sign1_sign.c:t_cose_sign1_encode_signature_aad_internal"]}
{"id": "C47", "title": "A COSE_Sign1 can be built in the middle of a larger encoding", "statement": "encode_parameters and encode_signature used on an encoder that already holds other data append exactly the message that signing in one call gives, make the same crypto calls, and leave the surrounding structure as it was with one more item.", "quantifier": "all encoder states without error within the nesting limits, all payload trees, configurations, adapters", "why_tests_cant": "the surrounding structures, offsets and nesting levels are unbounded", "anchors": ["inc/t_cose/t_cose_sign1_sign.h: t_cose_sign1_encode_parameters, t_cose_sign1_encode_signature", "src/t_cose_sign1_sign.c"]}
{"id": "C48", "title": "Signing terminates without undefined behaviour", "statement": "Signing any payload with any configured context returns an error code or success, whatever the crypto library returns, if the buffer is large enough for the message or only the size is asked for.", "quantifier": "every context configured through the API, payload, additional data, build configuration and adapter that keeps to its buffers", "why_tests_cant": "all inputs and all library behaviours", "anchors": ["src/t_cose_sign1_sign.c:t_cose_sign1_sign_aad_internal", "src/t_cose_sign1_sign.c:t_cose_sign1_encode_signature_aad_internal", "src/t_cose_util.c:create_tbs_hash", "crypto_adapters/t_cose_openssl_crypto.c:t_cose_crypto_sign"]}
{"id": "C49", "title": "A signing context carries what was last set", "statement": "After any sequence of initialisation, setters and signing calls, whether they succeeded or failed, a signing context carries for each setting the value last given, and signing produces the message that these settings ask for.", "quantifier": "every sequence of API calls on a signing context, every adapter, payload and build configuration", "why_tests_cant": "all call sequences and all values", "anchors": ["inc/t_cose/t_cose_sign1_sign.h:t_cose_sign1_sign_init", "inc/t_cose/t_cose_sign1_sign.h:t_cose_sign1_set_signing_key", "inc/t_cose/t_cose_sign1_sign.h:t_cose_sign1_set_content_type_uint", "inc/t_cose/t_cose_sign1_sign.h:t_cose_sign1_set_content_type_tstr", "inc/t_cose/t_cose_sign1_sign.h:t_cose_sign1_sign_set_auxiliary_buffer", "src/t_cose_sign1_sign.c:t_cose_sign1_sign_aad_internal"]}
{"id": "C50", "title": "A verification context carries what was last set", "statement": "After any sequence of initialisation, setters and verification calls, with any outcome, a verification context carries the option flags, key and auxiliary buffer last given, and its tag array has its full length.", "quantifier": "every sequence of API calls on a verification context, every adapter, message and build configuration", "why_tests_cant": "all call sequences, messages and library behaviours", "anchors": ["inc/t_cose/t_cose_sign1_verify.h:t_cose_sign1_verify_init", "inc/t_cose/t_cose_sign1_verify.h:t_cose_sign1_set_verification_key", "inc/t_cose/t_cose_sign1_verify.h:t_cose_sign1_verify_set_auxiliary_buffer", "src/t_cose_sign1_verify.c:t_cose_sign1_verify_internal"]}
{"id": "C51", "title": "Errors of the crypto library are passed on", "statement": "When a call into the crypto adapter made by signing or verification fails, its error code is what the caller gets, and no further adapter call is made.", "quantifier": "every adapter, context, payload, message and build configuration", "why_tests_cant": "failures at every call of every library; the repository's test covers two failures of one adapter while signing", "anchors": ["src/t_cose_util.c:create_tbs_hash", "src/t_cose_sign1_sign.c:t_cose_sign1_encode_signature_aad_internal", "src/t_cose_sign1_sign.c:t_cose_sign1_sign_aad_internal", "src/t_cose_sign1_verify.c:t_cose_sign1_verify_internal", "crypto_adapters/t_cose_test_crypto.c:hash_test_mode"]}
{"id": "C52", "title": "Switching an algorithm off changes nothing for the others", "statement": "Two builds that differ in the signing algorithms only sign alike, byte for byte, with every algorithm both have, and a message one of them verifies is verified with the same result by a build with more algorithms; with OpenSSL for keys no longer than the longest curve of either build.", "quantifier": "every pair of build configurations, context, payload, message and key; every adapter that itself treats the algorithm alike in both builds, among them the OpenSSL and PSA adapters", "why_tests_cant": "a test binary is one build; the number of pairs of configurations and the messages are beyond enumeration", "anchors": ["src/t_cose_util.c:hash_alg_id_from_sig_alg_id", "src/t_cose_crypto.h:T_COSE_CRYPTO_MAX_HASH_SIZE", "src/t_cose_crypto.h:T_COSE_MAX_ECDSA_SIG_SIZE", "src/t_cose_sign1_sign.c:t_cose_sign1_sign_aad_internal", "src/t_cose_sign1_verify.c:t_cose_sign1_verify_internal", "crypto_adapters/t_cose_openssl_crypto.c:t_cose_crypto_sign", "crypto_adapters/t_cose_psa_crypto.c:t_cose_crypto_hash_start"]}
{"id": "C53", "title": "Unprotected parameters matter only through those processed", "statement": "If a message is verified, so is every message that differs only in its unprotected parameters, provided the parameters t_cose processes (labels 1 to 6) have the same values, the others are within the documented limits, and none of them is listed as critical. The adapter is called in the same way and the payload and parameters returned are the same. In particular the order of unprotected parameters does not matter (label 0, reserved by COSE, excepted).", "quantifier": "every message, every set of further parameters, every order, every adapter, build and set of options", "why_tests_cant": "the parameters that may be added or reordered are unbounded data items", "anchors": ["src/t_cose_parameters.c:parse_cose_header_parameters", "src/t_cose_parameters.c:check_critical_labels", "src/t_cose_sign1_verify.c:t_cose_sign1_verify_internal"]}
{"id": "C54", "title": "A build without content types accepts what the full build accepts", "statement": "A message verified by a build is verified by the same build with T_COSE_DISABLE_CONTENT_TYPE, with the same adapter calls, payload and parameters, except that the content type is reported as absent.", "quantifier": "every build, message, adapter, context and set of arguments", "why_tests_cant": "relates two builds for all messages; each test binary has one build", "anchors": ["src/t_cose_parameters.c:parse_cose_header_parameters", "src/t_cose_parameters.c:process_content_type", "src/t_cose_sign1_verify.c:t_cose_sign1_verify_internal"]}
{"id": "C55", "title": "Attaching or detaching the payload does not affect verification", "statement": "A message with its payload inside is verified if and only if the message with null in its place is verified by the detached functions when given the payload, with the same adapter calls and the same parameters returned.", "quantifier": "every message, payload, adapter, build, context and set of options", "why_tests_cant": "relates two entry points for all messages", "anchors": ["src/t_cose_sign1_verify.c:t_cose_sign1_verify_internal", "inc/t_cose/t_cose_sign1_verify.h:t_cose_sign1_verify_detached"]}
{"id": "C56", "title": "Tags do not affect verification beyond the tag policy", "statement": "If a message is verified, the same content with any other tags (as many as the decoder takes) is verified as well, provided the tag options accept it, with the same adapter calls, payload and parameters.", "quantifier": "every message, every sequence of tags, every adapter, build, context and set of options", "why_tests_cant": "all tag sequences and contents", "anchors": ["src/t_cose_sign1_verify.c:process_tags", "src/t_cose_sign1_verify.c:t_cose_sign1_verify_internal"]}
{"id": "C57", "title": "Error codes of verification are true", "statement": "An error code returned by verification describes a fault the call really has, as described in t_cose_common.h: each decoding error names a fault of the message (wrong tag, wrong type of a parameter, algorithm or crit not protected, a parameter in both buckets, and so on), each later error is returned only for a message without such faults and names the check that failed or is the answer of the last call of the adapter. A message with nothing wrong but its signature never gives a decoding or parameter error.", "quantifier": "every byte string that is or is not a message, every adapter, build, context and set of options", "why_tests_cant": "tests sample one message per code; that no other message gives the code is a statement about all byte strings", "anchors": ["src/t_cose_sign1_verify.c:t_cose_sign1_verify_internal", "src/t_cose_parameters.c:parse_cose_header_parameters", "inc/t_cose/t_cose_common.h:t_cose_err_t"]}
{"id": "C58", "title": "No failure of the cryptographic library is lost", "statement": "With the OpenSSL adapter and with the PSA adapter, signing returns a message, and verification reports success, only if every library call it rested on succeeded: each part of the Sig_structure was accepted by the hash, the digest is the one the library returned for exactly the whole Sig_structure, every setting of the key context was taken, and the signature is the one the library made of that digest or Sig_structure (or, for verification, the library's answer for it was exactly the success value).", "quantifier": "every library whatever its calls answer (for signing: within the room it was given), every key, build, request, message and set of options", "why_tests_cant": "library calls do not fail in tests, and the library may answer differently for each data and at each call", "anchors": ["crypto_adapters/t_cose_openssl_crypto.c:t_cose_crypto_hash_update", "crypto_adapters/t_cose_openssl_crypto.c:t_cose_crypto_sign", "crypto_adapters/t_cose_openssl_crypto.c:t_cose_crypto_verify", "crypto_adapters/t_cose_psa_crypto.c:t_cose_crypto_hash_update", "crypto_adapters/t_cose_psa_crypto.c:t_cose_crypto_verify"]}
{"id": "C59", "title": "Only what was signed can be verified", "statement": "Take any history of signing calls, whatever they were asked to sign and whatever their outcome. A message that verifies without the short-circuit permission has the protected parameters, AAD and payload of one of those calls with the same algorithm and the key that belongs to the verifier's; otherwise either two different Sig_structures have the same digest, or the adapter accepted a signature for a digest (for EdDSA: an input) that was never given to a signer's adapter with that key and algorithm. So forging a message takes a hash collision or a forgery of the underlying signature scheme; no ambiguity of the encoding, of detached versus inline content, of AAD versus payload, or of one algorithm versus another helps.", "quantifier": "every finite set of signing calls (inline, detached, piece by piece), every message, adapter pair with a common hash function, build, AAD and payload", "why_tests_cant": "an attacker chooses the message; tests try a few modifications of one message", "anchors": ["src/t_cose_sign1_verify.c:t_cose_sign1_verify_internal", "src/t_cose_sign1_sign.c:t_cose_sign1_encode_signature_aad_internal", "src/t_cose_util.c:create_tbs_hash", "src/t_cose_util.c:create_tbs"]}
{"id": "C60", "title": "Error codes of signing are true", "statement": "An error of signing is either the adapter's answer to the last call made to it or describes a fault the request and the buffers really have: algorithm not in the build or without a hash for a short-circuit signature, short-circuit signing not in the build, two content types, auxiliary buffer missing or shorter than the Sig_structure, output buffer shorter than the message. Conversely each of these faults that does not depend on the signature is reported before the adapter is asked anything, the first of them in a fixed order. So a request without faults, for which the adapter does not fail, is signed.", "quantifier": "every request, payload, AAD, output and auxiliary buffer (NULL buffers of size calculation included), adapter and build, message sizes up to QCBOR's limit", "why_tests_cant": "tests sample one request per code; that no other request gives the code, at any buffer size, is a statement about all of them", "anchors": ["src/t_cose_sign1_sign.c:t_cose_sign1_sign_aad_internal", "src/t_cose_sign1_sign.c:t_cose_sign1_encode_parameters_internal", "src/t_cose_sign1_sign.c:sign1_sign_eddsa", "src/t_cose_sign1_sign.c:sign1_sign_short_circuit", "inc/t_cose/t_cose_common.h:t_cose_err_t"]}
{"id": "C61", "title": "Signing succeeds when it can", "statement": "If the request has no fault (algorithm in the build, at most one content type, short-circuit only where possible), the adapter works for it, and the buffers have the size the message and EdDSA need, signing returns success and the message asked for, and its size is the one that can be computed beforehand from the size of a signature. With a NULL output buffer that size is returned, and for EdDSA the size of the auxiliary buffer; measuring, making buffers of exactly those sizes and signing therefore succeeds. The same holds for the OpenSSL and PSA adapters if the library itself can hash and sign with the key.", "quantifier": "every build, request, payload, AAD, inline or detached, signature size, adapter that works; every OpenSSL or PSA library that can sign", "why_tests_cant": "that no combination of options, sizes and library behaviour makes signing fail for a reason the caller could not foresee is about all of them", "anchors": ["src/t_cose_sign1_sign.c:t_cose_sign1_sign_aad_internal", "src/t_cose_sign1_sign.c:t_cose_sign1_encode_signature_aad_internal", "crypto_adapters/t_cose_openssl_crypto.c:t_cose_crypto_sign", "crypto_adapters/t_cose_openssl_crypto.c:t_cose_crypto_sign_eddsa", "crypto_adapters/t_cose_psa_crypto.c:t_cose_crypto_sign"]}
{"id": "C62", "title": "The example programs do what they show", "statement": "The programs of examples/ (sign in one step, in two steps, with buffers of measured size) end with success and print the payload that was signed, for any map within the encoder's limits, any payload, any algorithm and any sufficient buffers, with an adapter that works; as written (ES256 and 300 bytes; EdDSA and malloc) also with OpenSSL and PSA. Conversely, with any adapter, a program that reports success has printed the payload it signed.", "quantifier": "every payload map, payload, algorithm, buffer size, adapter, malloc behaviour and build", "why_tests_cant": "the programs are run with one payload, key and buffer size; users copy them and change these", "anchors": ["examples/t_cose_basic_example_ossl.c:one_step_sign_example", "examples/t_cose_basic_example_ossl.c:two_step_sign_example", "examples/t_cose_basic_example_ossl.c:dynamic_buffer_example", "examples/t_cose_basic_example_psa.c:one_step_sign_example", "examples/t_cose_basic_example_psa.c:two_step_sign_example"]}
{"id": "C63", "title": "Options only widen or narrow what is accepted", "statement": "A message that verifies with some option flags verifies with any flags that are no stricter (requiring less, allowing more), with the same payload, parameters and tags and the same cryptographic calls (none in decode-only mode). Bits of the option words that have no meaning change nothing, whatever the outcome, in verification and signing.", "quantifier": "every message, context, pair of option words, adapter and build", "why_tests_cant": "2^32 option words times all messages; tests try single flags on single messages", "anchors": ["inc/t_cose/t_cose_sign1_verify.h:T_COSE_OPT_REQUIRE_KID", "inc/t_cose/t_cose_sign1_verify.h:T_COSE_OPT_DECODE_ONLY", "src/t_cose_sign1_verify.c:t_cose_sign1_verify_internal", "src/t_cose_sign1_sign.c:t_cose_sign1_sign_aad_internal"]}
{"id": "C64", "title": "Crypto libraries and builds interoperate", "statement": "A message signed with one crypto library (OpenSSL or PSA) and build configuration verifies with either library and any build that has the algorithm, given the matching key, and delivers the payload and the parameters that were asked for (the content type if both builds know content types). More generally, any message at all that verifies with one library verifies with the other, with the same payload and parameters, if the two libraries hold the same signatures to be valid.", "quantifier": "every message, key pair, algorithm, payload, AAD, pair of libraries and pair of builds", "why_tests_cant": "a test build links one crypto library; interoperability rests on both adapters using the same signature format, hash and padding for every algorithm and key", "anchors": ["crypto_adapters/t_cose_openssl_crypto.c:t_cose_crypto_sign", "crypto_adapters/t_cose_openssl_crypto.c:t_cose_crypto_verify", "crypto_adapters/t_cose_psa_crypto.c:t_cose_crypto_sign", "crypto_adapters/t_cose_psa_crypto.c:t_cose_crypto_verify", "src/t_cose_sign1_verify.c:t_cose_sign1_verify_internal"]}
{"id": "C65", "title": "Errors that come from the crypto library are true", "statement": "An error that the OpenSSL or PSA adapter returns names what went wrong: unsupported algorithm only if the build does not have it (or PSA says so), incorrect or empty key only for a key of another library or a NULL key, insufficient memory only if an allocation failed, wrong signature only if its length is wrong or the library found it wrong, and a general failure only if a call of the library failed or the result did not fit. With a library that works, a signature it does not accept gives T_COSE_ERR_SIG_VERIFY and no other error. The code reaches the caller of signing and verification.", "quantifier": "every OpenSSL and PSA behaviour, key, algorithm, digest, signature, buffer size, sequence of data hashed and build", "why_tests_cant": "library failures (allocation, initialisation, settings) cannot be provoked in tests, and every combination of them matters", "anchors": ["src/t_cose_crypto.h:t_cose_crypto_verify", "src/t_cose_crypto.h:t_cose_crypto_sign", "crypto_adapters/t_cose_openssl_crypto.c:ecdsa_signature_cose_to_der", "crypto_adapters/t_cose_openssl_crypto.c:configure_pkey_context", "crypto_adapters/t_cose_openssl_crypto.c:t_cose_crypto_hash_finish", "crypto_adapters/t_cose_psa_crypto.c:psa_status_to_t_cose_error_signing", "crypto_adapters/t_cose_psa_crypto.c:psa_status_to_t_cose_error_hash"]}
{"id": "C66", "title": "Unprotected parameters have no influence on the verdict", "statement": "The unprotected header parameters are not covered by the signature. Two messages with the same tags, protected parameters, payload and signature, both with processable unprotected parameters, get the same verification result, the same payload and the same cryptographic calls, whatever their unprotected parameters are (key id, IVs, content type, unknown ones); only a key id that marks a short-circuit signature makes a difference, and key ids are not looked at by the OpenSSL, PSA and test adapters.", "quantifier": "every pair of such messages, every context, options, build, library behaviour, good and bad signatures", "why_tests_cant": "a statement about all pairs of messages, including those whose signature does not verify", "anchors": ["src/t_cose_sign1_verify.c:t_cose_sign1_verify_internal", "src/t_cose_sign1_verify.c:sign1_verify_default", "src/t_cose_sign1_verify.c:sign1_verify_eddsa", "crypto_adapters/t_cose_openssl_crypto.c:t_cose_crypto_verify", "crypto_adapters/t_cose_psa_crypto.c:t_cose_crypto_verify"]}
{"id": "C67", "title": "The example programs handle keys and memory correctly", "statement": "The example programs, which users copy, make a key, allocate buffers and give them back: nothing is used after it was freed or before it was obtained, nothing is freed twice, and at the end everything is freed, whichever call of the crypto library, of malloc or of t_cose fails. The key they make is used like any other, so that the programs end well with libraries that work.", "quantifier": "every outcome of key generation and import, of malloc and of the crypto library, every algorithm, payload and buffer size", "why_tests_cant": "the programs are run with libraries that succeed; leaks and frees on error paths show only when the calls fail in every possible place", "anchors": ["examples/t_cose_basic_example_ossl.c:make_ossl_key_pair", "examples/t_cose_basic_example_ossl.c:free_ossl_key_pair", "examples/t_cose_basic_example_ossl.c:dynamic_buffer_example", "examples/t_cose_basic_example_psa.c:make_psa_ecdsa_key_pair", "examples/t_cose_basic_example_psa.c:free_psa_ecdsa_key_pair"]}
{"id": "C68", "title": "Strings of indefinite length are refused", "statement": "Indefinite-length CBOR strings are not supported. A message that contains one anywhere (protected bucket, parameters, payload, signature, inside other items, with tags) is refused before any cryptography, whatever else it contains; a message that would otherwise be accepted gives T_COSE_ERR_SIGN1_FORMAT.", "quantifier": "every well-formed message, place and kind of such a string, nesting, tags, chunks, option, build and library; every accepted message and element replaced", "why_tests_cant": "the places, the nesting and the chunks of such strings are unbounded; tests have one string in one place", "anchors": ["inc/t_cose/t_cose_sign1_verify.h:t_cose_sign1_verify", "src/t_cose_sign1_verify.c:t_cose_sign1_verify_internal", "src/t_cose_parameters.c:parse_cose_header_parameters", "src/t_cose_util.c:qcbor_decode_error_to_t_cose_error"]}
{"id": "C69", "title": "A wrong signature, AAD, payload or key gives T_COSE_ERR_SIG_VERIFY", "statement": "If the AAD or the detached payload passed to verification is not the one that was signed, or the signature is wrong for the key, the error is T_COSE_ERR_SIG_VERIFY and no other one. For a message without other fault and a library that works, verification succeeds if the signature is right for the Sig_structure and gives T_COSE_ERR_SIG_VERIFY otherwise; the only way to success with other AAD or payload is a signature that is right for two different inputs.", "quantifier": "every message, AAD, payload, key, algorithm, option, build, OpenSSL and PSA library that works; short-circuit signatures included", "why_tests_cant": "all wrong AADs, payloads, keys and signatures, of every length, with every algorithm and library", "anchors": ["inc/t_cose/t_cose_sign1_verify.h:t_cose_sign1_verify_aad", "src/t_cose_sign1_verify.c:t_cose_sign1_verify_internal", "src/t_cose_sign1_verify.c:sign1_verify_default", "src/t_cose_sign1_verify.c:sign1_verify_eddsa", "crypto_adapters/t_cose_openssl_crypto.c:t_cose_crypto_verify", "crypto_adapters/t_cose_psa_crypto.c:t_cose_crypto_verify"]}
{"id": "C70", "title": "The documented sizes of buffers are enough", "statement": "The size of a message is exactly the sum of its parts and of their CBOR heads, with at most 30 bytes that are not payload, signature, kid or text content type. An output buffer 30 bytes larger than these data is always enough (for ES256 with a kid of up to 32 bytes: 150 bytes more than the payload), and an auxiliary buffer 35 bytes larger than AAD and payload is always enough for EdDSA.", "quantifier": "every payload, AAD, kid, content type, algorithm, option, build and adapter that works; messages up to the limit of QCBOR", "why_tests_cant": "the CBOR heads grow at 24, 256, 65536 and 2^32 bytes in each of four strings, with every algorithm and option", "anchors": ["inc/t_cose/t_cose_sign1_sign.h:t_cose_sign1_sign", "inc/t_cose/t_cose_sign1_sign.h:t_cose_sign1_sign_set_auxiliary_buffer", "src/t_cose_sign1_sign.c:t_cose_sign1_sign_aad_internal", "src/t_cose_sign1_sign.c:sign1_sign_eddsa"]}
{"id": "C71", "title": "Short-circuit signatures need no key and no public-key cryptography", "statement": "With T_COSE_OPT_SHORT_CIRCUIT_SIG the message made does not depend on the signing key nor on the public-key functions of the adapter, which are never called; verification of a message with the reserved kid gives the same verdict whatever key is set and whatever these functions do, and never calls them. A short-circuit message made with a kid of the signer's own is not recognised as such: it is verified only if the adapter takes the repeated hash for a signature.", "quantifier": "every build, adapter, key, option, payload, AAD, message, whether signed in one call or in two", "why_tests_cant": "all keys and all behaviours of the public-key functions", "anchors": ["inc/t_cose/t_cose_sign1_sign.h:T_COSE_OPT_SHORT_CIRCUIT_SIG", "inc/t_cose/t_cose_sign1_sign.h:t_cose_sign1_set_signing_key", "inc/t_cose/t_cose_sign1_verify.h:t_cose_sign1_set_verification_key", "src/t_cose_sign1_sign.c:sign1_sign_short_circuit", "src/t_cose_sign1_verify.c:sign1_verify_short_circuit"]}
{"id": "C72", "title": "The hash functions of the adapters do what t_cose_crypto.h documents", "statement": "A hash that is not in the build is refused with T_COSE_ERR_UNSUPPORTED_HASH; NULL pieces do nothing; how the data is cut into pieces does not matter; data the library refuses makes the hash fail at the end, whatever follows; the digest lies within the buffer given; a buffer that is too small gives T_COSE_ERR_HASH_BUFFER_SIZE.", "quantifier": "every adapter of the repository, behaviour of its library, build, sequence of pieces and buffer size", "why_tests_cant": "unbounded sequences of pieces, failures of the library at any of them, and buffers the tests never pass", "anchors": ["src/t_cose_crypto.h:t_cose_crypto_hash_start", "src/t_cose_crypto.h:t_cose_crypto_hash_update", "src/t_cose_crypto.h:t_cose_crypto_hash_finish", "crypto_adapters/t_cose_openssl_crypto.c:t_cose_crypto_hash_finish", "crypto_adapters/t_cose_psa_crypto.c:t_cose_crypto_hash_finish", "crypto_adapters/t_cose_test_crypto.c:t_cose_crypto_hash_finish"]}
{"id": "C73", "title": "The adapter is called as its interface describes", "statement": "One call of the signing or verification functions runs at most one hash operation: start, seven updates, finish; if start fails nothing is fed or finished. At most one call concerning a key follows; it is the last call, carries the algorithm and key (and for verification the key id and signature) of the message, and gets exactly the digest that finish returned, finish having been given room for the largest digest of the build. EdDSA runs no hash operation. A short-circuit signature makes no call that concerns a key, and no signature is ever made when only the size is asked for. There are at most ten calls.", "quantifier": "every adapter (any results of its functions), build, context, payload, aad and buffer; every byte string given to verification; every state of the encoder in piecewise signing", "why_tests_cant": "adapters can fail at any call; the tests never see the sequence of calls, and an adapter with limited operation slots or keys in hardware depends on it", "anchors": ["src/t_cose_crypto.h:t_cose_crypto_hash_start", "src/t_cose_crypto.h:t_cose_crypto_hash_update", "src/t_cose_crypto.h:t_cose_crypto_hash_finish", "src/t_cose_crypto.h:t_cose_crypto_sign", "src/t_cose_crypto.h:t_cose_crypto_verify", "src/t_cose_util.c:create_tbs_hash", "src/t_cose_sign1_sign.c:t_cose_sign1_encode_signature_aad_internal", "src/t_cose_sign1_verify.c:t_cose_sign1_verify_internal"]}
{"id": "C74", "title": "Keys that cannot be used are reported with the documented codes", "statement": "A key that the library does not have gives T_COSE_ERR_UNKNOWN_KEY, a key the library cannot use for the algorithm gives T_COSE_ERR_WRONG_TYPE_OF_KEY, and a buffer too small for the signature gives T_COSE_ERR_SIG_BUFFER_SIZE; none of these ever ends in success.", "quantifier": "every OpenSSL and PSA behaviour, key, algorithm, build, request, message and buffer", "why_tests_cant": "the tests have one good key for each algorithm; which codes can never come out is a statement about all library behaviours", "anchors": ["src/t_cose_crypto.h:t_cose_crypto_sign", "src/t_cose_crypto.h:t_cose_crypto_verify", "inc/t_cose/t_cose_common.h:T_COSE_ERR_UNKNOWN_KEY", "inc/t_cose/t_cose_common.h:T_COSE_ERR_WRONG_TYPE_OF_KEY", "crypto_adapters/t_cose_openssl_crypto.c:configure_pkey_context", "crypto_adapters/t_cose_psa_crypto.c:psa_status_to_t_cose_error_signing"]}
{"id": "C75", "title": "Finding the key by its id with two calls works", "statement": "When a caller verifies as t_cose_sign1_verify.h describes (decode-only first, look up the key for the returned kid, allocate an auxiliary buffer of the reported size, verify again), success means that the signature was made with the key for the kid of the message, which is the kid in the returned parameters, and no other key was used. Every message that meets the requirements and was signed with the key for its kid is accepted, EdDSA included. Without a key for the kid no cryptographic function is called.", "quantifier": "every message, table of keys, option flags, AAD, detached or attached payload, adapter and build", "why_tests_cant": "the tests do not use the two calls together; the message could be read differently by the two calls for some bytes", "anchors": ["inc/t_cose/t_cose_sign1_verify.h:t_cose_sign1_set_verification_key", "inc/t_cose/t_cose_sign1_verify.h:t_cose_sign1_verify_set_auxiliary_buffer", "src/t_cose_sign1_verify.c:t_cose_sign1_verify_internal"]}
{"id": "C76", "title": "The test program runs the tests asked for and counts the failures", "statement": "RunTestsTCose() calls the tests named, or all enabled ones if none is named, each once and in the order of the table; it returns the number of those that returned a value other than zero, reports how many ran, and writes a line about each test with the value it returned, and the two numbers in decimal. main() returns zero exactly if they all passed and no key was leaked.", "quantifier": "every table of tests, results of the tests, list of names, with or without output", "why_tests_cant": "the test program cannot test itself; a failure it does not count looks like success", "anchors": ["test/run_tests.c:RunTestsTCose", "test/run_tests.c:NumToString", "test/run_tests.h:RunTestsTCose", "main.c:main"]}
{"id": "C77", "title": "Header parameters follow the rules of RFC 8152", "statement": "In every message made and every message accepted, labels are integers or text strings; the algorithm is an integer, kid, IV and Partial IV are byte strings, the content type is a text string or a number below 65536, crit is a non-empty array of labels; the algorithm and crit are protected; no label occurs twice; IV and Partial IV do not both occur; crit lists only parameters that are in the protected header.", "quantifier": "every message made (any algorithm, key, kid, content type, payload) and every message accepted, in any CBOR encoding", "why_tests_cant": "all sets of parameters of all types", "anchors": ["src/t_cose_parameters.c:parse_cose_header_parameters", "src/t_cose_parameters.c:decode_critical_parameter", "src/t_cose_parameters.c:check_critical_labels", "src/t_cose_sign1_sign.c:add_unprotected_parameters", "src/t_cose_sign1_sign.c:encode_protected_parameters"]}
{"id": "C78", "title": "A message is read in one way only", "statement": "A message cut off anywhere before its end, or with anything appended, is refused with an error, without outputs and without any call of the cryptographic library. A message that t_cose_sign1_verify() accepts with the payload inside is refused by t_cose_sign1_verify_detached() whatever payload is passed, with T_COSE_ERR_CBOR_FORMATTING, and one accepted as detached is refused by t_cose_sign1_verify(), with T_COSE_ERR_SIGN1_FORMAT.", "quantifier": "every message, every place of the cut, every appended byte string, all contexts, options, builds and adapters, also when they differ between the two calls", "why_tests_cant": "all messages, cuts and contexts; a test tries a few cuts of one message", "anchors": ["src/t_cose_sign1_verify.c:t_cose_sign1_verify_internal", "inc/t_cose/t_cose_sign1_verify.h:t_cose_sign1_verify_detached"]}
{"id": "C79", "title": "Outputs that are not asked for do not matter", "statement": "The payload and parameters pointers of the verification functions may be NULL. Which of them are NULL, and what the payload variable holds before the call, has no influence on the result code, the context, the calls of the cryptographic library and the other output; nothing is delivered that was not asked for.", "quantifier": "every message, context, option, build, adapter and combination of pointers", "why_tests_cant": "all messages with all combinations of pointers", "anchors": ["src/t_cose_sign1_verify.c:t_cose_sign1_verify_internal", "inc/t_cose/t_cose_sign1_verify.h:t_cose_sign1_verify_aad"]}
{"id": "C80", "title": "What is made when signing is encoded deterministically", "statement": "A message made by t_cose_sign1_sign() is the core deterministic encoding (RFC 8949 section 4.2.1) of its content: shortest heads, definite lengths, map keys in ascending order; no other byte string that t_cose reads as the same content is shorter. The same holds of the protected parameters and of the Sig_structure that is hashed or signed.", "quantifier": "every request, payload, AAD, build and adapter", "why_tests_cant": "all contents, and all other encodings of each; a test compares one message with a literal", "anchors": ["src/t_cose_sign1_sign.c:add_unprotected_parameters", "src/t_cose_sign1_sign.c:encode_protected_parameters", "src/t_cose_sign1_sign.c:t_cose_sign1_encode_parameters_internal", "src/t_cose_util.c:create_tbs_hash"]}
{"id": "C81", "title": "The example programs show what was made and report failures", "statement": "print_useful_buf() of the example programs shows the number of bytes and every byte of a buffer, so that it can be read back, without undefined behaviour for every buffer t_cose returns; after an example that went well the payload shown is the one that was signed. All examples are run, and a program in which an example failed ends with a status other than 0.", "quantifier": "every buffer and label; every adapter, library, way of making keys and result of malloc", "why_tests_cant": "all byte strings of all lengths, all failures of the libraries; nothing tests the examples", "anchors": ["examples/t_cose_basic_example_ossl.c:print_useful_buf", "examples/t_cose_basic_example_ossl.c:main", "examples/t_cose_basic_example_psa.c:print_useful_buf", "examples/t_cose_basic_example_psa.c:main"]}
{"id": "C82", "title": "The tests with a real library pass only if what they test works", "statement": "Linked with any implementation of the functions it calls, each test of t_cose_sign_verify_test.c returns 0 exactly if what it is about works for every supported algorithm: signing and verifying give the payload back, a changed payload is refused with T_COSE_ERR_SIG_VERIFY, the CWT of RFC 8392 is made and its payload given back, sizes calculated agree with sizes made, known messages are accepted, unsupported algorithms are refused by signing and by verifying, too small auxiliary buffers are reported. Each key taken is given back, however the test ends. t_cose with a working library passes.", "quantifier": "every implementation of the API, right or wrong; every way of making keys; every cryptographic adapter and build", "why_tests_cant": "what a test checks, over all implementations it could be linked with, cannot be settled by running it with one", "anchors": ["test/t_cose_sign_verify_test.c:sign_verify_basic_test_alg", "test/t_cose_sign_verify_test.c:sign_verify_sig_fail_test", "test/t_cose_sign_verify_test.c:sign_verify_make_cwt_test", "test/t_cose_sign_verify_test.c:size_test", "test/t_cose_sign_verify_test.c:known_good_test", "test/t_cose_sign_verify_test.c:sign_verify_unsupported_test_alg", "test/t_cose_sign_verify_test.c:sign_verify_bad_auxiliary_buffer", "test/t_cose_make_openssl_test_key.c:make_key_pair", "test/t_cose_make_psa_test_key.c:make_key_pair"]}
{"id": "C83", "title": "The maker of test messages is a replica of signing", "statement": "Asked for no deviation, t_cose_test_message_sign1_sign, with which the tests make the messages they verify, makes a message exactly if t_cose_sign1_sign does in the same context and buffer, the same message byte for byte, with the same calls to the cryptographic library.", "quantifier": "every build, adapter, context, payload and output buffer", "why_tests_cant": "the tests compare what verification answers to a few made messages; no test compares the maker with the code it replicates, which it encodes with other encoder calls", "anchors": ["test/t_cose_make_test_messages.c:t_cose_test_message_sign1_sign", "test/t_cose_make_test_messages.c:encode_protected_parameters", "test/t_cose_make_test_messages.c:add_unprotected_parameters", "test/t_cose_make_test_messages.c:short_circuit_sign"]}
{"id": "C84", "title": "Test messages are signed over what they hold", "statement": "Whatever deviations t_cose_test_message_sign1_sign is asked for (parameters missing, empty, unclosed, of the wrong type, not well formed, of indefinite length), if it returns a message, the signature at the end of that message is the one made, with the algorithm and key of the context, over the hash of the Sig_structure of exactly the protected parameters and payload in it, without additional data; and the message is an array that counts, unless of indefinite length, the payload, the signature and one item for each kind of parameters not left out; protected parameters asked to be left out, empty, unclosed or an array are so, and unprotected ones asked to be left out are.", "quantifier": "every build, adapter, context, combination of options, payload and output buffer", "why_tests_cant": "2^32 combinations of options, and payloads of any content; a test of a bad message passes as well if the signature of that message is wrong", "anchors": ["test/t_cose_make_test_messages.c:t_cose_test_message_sign1_sign", "test/t_cose_make_test_messages.c:t_cose_sign1_test_message_output_signature", "test/t_cose_make_test_messages.c:t_cose_sign1_test_message_encode_parameters", "test/t_cose_make_test_messages.h:T_COSE_TEST_NO_PROTECTED_PARAMETERS"]}
