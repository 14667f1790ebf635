# Formal model of t_cose (COSE_Sign1 signing and verification)

Source: `/repo` (laurencelundblade/t_cose at the pinned commit), read as text only.
Everything lives in `rocq/theories` (Coq 8.16.1, logical path `Verif`), standard library only.

## 1. What is modelled

The model is executable, total Gallina, function by function; each definition cites its C source and lines.
Model files contain no proofs.

| Coq file | Models |
|---|---|
| `Base.v` | bytes, `q_useful_buf_c` with NULL distinguished from empty, the outcome type (`Ret` / `UB`), event log of crypto-adapter calls |
| `Const.v` | error codes, COSE labels, algorithm ids, option flags, sizes, the record `cfg` of `T_COSE_DISABLE_*` build switches |
| `QEnc.v`, `QDec.v` | the part of the QCBOR encoder / decoder that t_cose calls (dependency, see 4) |
| `Crypto.v` | the crypto adapter interface of `src/t_cose_crypto.h` as a record of functions |
| `Util.v` | `src/t_cose_util.c` |
| `ShortCircuit.v` | `src/t_cose_short_circuit.c` |
| `Sign.v` | `src/t_cose_sign1_sign.c`, inline functions of `inc/t_cose/t_cose_sign1_sign.h` |
| `Params.v` | `src/t_cose_parameters.c`, `.h` |
| `Verify.v` | `src/t_cose_sign1_verify.c`, inline functions of `inc/t_cose/t_cose_sign1_verify.h` |
| `Algs.v` | algorithm lists of `src/t_cose_crypto.h` |
| `Sha256.v` | `crypto_adapters/b_con_hash/sha256.c` |
| `TestCrypto.v` | `crypto_adapters/t_cose_test_crypto.c`, with and without `T_COSE_ENABLE_HASH_FAIL_TEST` |
| `OpenSSL.v` | `crypto_adapters/t_cose_openssl_crypto.c` over a record of OpenSSL functions |
| `Psa.v` | `crypto_adapters/t_cose_psa_crypto.c` over a record of PSA functions |
| `Examples.v` | the three programs of `examples/t_cose_basic_example_ossl.c`, the two of `examples/t_cose_basic_example_psa.c` |
| `ExampleRun.v` | the same programs with the making of keys, malloc and free, over records of the key functions of OpenSSL and PSA |
| `ExampleMain.v` | `print_useful_buf` and `main` of both files in `examples/` |
| `SvTests.v` | `test/t_cose_sign_verify_test.c` (all tests) and `make_key_pair` of the OpenSSL and PSA test keys; the implementation tested is a parameter |
| `MakeMessage.v` | `test/t_cose_make_test_messages.c` (all functions), for any build, adapter, context and test options; not modelled: what `me->protected_parameters` held before a message without protected parameters (NULL, as after init); the type check of closing calls with indefinite length |
| `RunTests.v` | `test/run_tests.c`, `main.c`: the test program, a test being the value it returns |

Specifications, written without the model's own functions:

| Coq file | Specifies |
|---|---|
| `Spec.v` | CBOR data items and preferred encoding (RFC 8949), Sig_structure and COSE_Sign1 (RFC 8152) |
| `DecSpec.v` | which byte strings represent a data item in any permitted representation, within QCBOR's documented limits |
| `SignSpec.v`, `PieceSpec.v` | what a caller of the signing API asked for, what a digest and a signature are, adapter contracts; payloads built with the encoder |
| `ApiSpec.v` | which contexts sequences of API calls can make, and what such a sequence asks for |
| `PassSpec.v` | what an adapter answers to a logged call |
| `MessageSpec.v` | pairs of messages that differ in one part |
| `BuildSpec.v` | pairs of build configurations, adapters that treat an algorithm alike |
| `ErrorSpec.v`, `ItemSpec.v`, `BrokenSpec.v` | meaning of each error code of verification, for messages, for other data items and for other bytes |
| `VerdictSpec.v` | when a signature is right, seen from outside |
| `SizeSpec.v` | sizes of messages and auxiliary buffers, counted by hand |
| `ShortSpec.v` | adapters that differ in public-key cryptography only |
| `HashSpec.v` | the hash functions of an adapter used by themselves |
| `LeakSpec.v` | exactly when verification with OpenSSL loses an allocation |
| `ExactSpec.v` | algorithm identifiers cut to 32 bits, tags with the number 2^64-1 |
| `ProtocolSpec.v` | the sequences of calls of the adapter that its interface describes |
| `KeyErrorSpec.v` | how the libraries report keys that cannot be used |
| `KidSpec.v` | the caller's two calls that find a key by its id |
| `RunSpec.v` | decimal numbers, the tests to run, the report about them |
| `HeaderSpec.v` | the rules of RFC 8152 for header parameters |
| `WholeSpec.v` | messages refused; calls that differ in the outputs asked for |
| `CanonSpec.v` | deterministic encoding (RFC 8949 4.2.1) of the kinds of data items that are made |
| `IndefSpec.v` | strings of indefinite length in a message |
| `WideSpec.v` | well-formedness of CBOR (RFC 8949) without the limits of a decoder |
| `LibrarySpec.v` | what a cryptographic library was asked and answered |
| `ForgerySpec.v` | a history of signing calls and what it asked an adapter to sign |
| `SignErrorSpec.v` | meaning of each error code of signing |
| `LiveSpec.v` | an adapter that works for a request; libraries that can sign; the size of a message |
| `InterSpec.v` | a signature scheme as a relation, and what OpenSSL and PSA must do to implement it |
| `FaultSpec.v` | what each error code of the adapters says about the library's answers |
| `UnauthSpec.v` | adapters that ignore key ids; verifications that come out alike |
| `ExampleSpec.v` | what the example programs ask for and are to show |
| `ExampleRunSpec.v` | what a program holds after a log of obtaining, using and freeing |
| `ExampleMainSpec.v` | hexadecimal dumps and reading them back; examples run one after the other |
| `SvSpec.v` | what passing a test of `SvTests.v` means, in terms of the calls it makes |
| `MakeMessageSpec.v` | the contexts for which the maker of test messages replicates signing; what a message made with any options holds |
| `VerifySpec.v` | parts of a message read off its data item; acceptance conditions; adapter contracts |
| `Sha256Spec.v` | FIPS 180-4 SHA-256 (constants computed from square and cube roots of primes) |
| `AdapterSpec.v` | DER of ECDSA signatures, COSE form of ECDSA signatures, what is assumed of OpenSSL and PSA, resource ledger |

Proofs: `BaseFacts EncFacts UtilFacts` (encoder, Sig_structure), `SignFacts SignProofs SignMore SignMore2 SignMore3
Piece SignSafe HashUse` (signing), `DecFacts DecSkip DecCtx DecSim ParamFacts VerifyDec BucketFacts LabelFacts
VerifySafe VerifyFacts VerifyCheck Unique Parts VerifyTop RoundTrip VerifyMore VerifyMore2 VerifyMore3 VerifyMore4`
(decoding and verification), `Sha256Facts OpenSSLFacts OpenSSLFacts2 PsaFacts AdapterFacts SupportFacts AdapterTop`
(adapters), `ApiFacts` (call sequences), `PassFacts` (adapter errors), `BuildFacts` and `BuildAdapter` (pairs of builds),
`MessageFacts` (pairs of messages), `ErrorFacts`, `ErrorTop`, `WideFacts`, `FormedFacts`, `OpensFacts`, `ItemFacts`, `TailFacts` and `BrokenFacts` (what errors say, C57), `LibraryFacts` (C58), `ForgeryFacts` and `ForgeryLib` (C59), `SignErrorFacts` (C60), `LiveFacts` and `LiveAdapter` (C61), `ExampleFacts` and `ExampleFacts2` (C62), `OptionFacts` (C63), `InterFacts` (C64), `FaultFacts` (C65), `UnauthFacts` (C66), `ExampleRunFacts` (C67), `IndefFacts` (C68), `VerdictFacts` (C69), `SizeFacts` (C70), `ShortFacts` (C71), `HashFacts` (C72), `LeakFacts` and `ExactFacts` (exact versions of C31, C33, C19 and C23), `PieceErrorFacts` (C60 piecewise), `ProtocolFacts` and `ProtocolVerify` (C73), `KeyErrorFacts` (C74), `KidFacts` (C75), `RunFacts` (C76), `HeaderFacts` (C77), `WholeFacts` (C78, C79), `CanonFacts` (C80), `ExampleMainFacts` (C81), `SvFacts`, `SvFacts2` and `SvFacts3` (C82), `MakeMessageFacts` (C83), `MakeMessageFacts2` (C84). `Toy.v`, `DemoLib.v`, `Demo.v` and `LiveDemo.v` hold small concrete adapters and libraries used only for the cases beside the
theorems. `Prop_Cases.v`, `Prop_Cases2.v`, `Prop_Cases3.v` and `Prop_Cases4.v` hold further computed cases (examples, not proofs). `RepoTests.v`, `RepoTests2.v` and `RepoTests3.v` run every test of `/repo/test/t_cose_test.c` against the model, with the maker of test messages (`t_cose_make_test_messages.c`) and the test adapter with the bundled SHA-256; all give the recorded results, among them a digest computed by another COSE implementation (tests of the model, not proofs). The tests of `t_cose_sign_verify_test.c` need a real library; they are modelled in `SvTests.v` (C82), and what they check is covered for every working library by C05, C10, C45, C65 and C69.
`Prop_Sign.v`, `Prop_Verify.v`, `Prop_Adapter.v`, `Prop_Api.v`, `Prop_Pass.v`, `Prop_Build.v`, `Prop_Message.v`, `Prop_Error.v`, `Prop_Item.v`, `Prop_Broken.v`, `Prop_Library.v`, `Prop_Forgery.v`, `Prop_ForgeryLib.v`, `Prop_SignError.v`, `Prop_Live.v`, `Prop_Example.v`, `Prop_Option.v`, `Prop_Inter.v`, `Prop_Fault.v`, `Prop_Unauth.v`, `Prop_ExampleRun.v`, `Prop_Indef.v`, `Prop_Verdict.v`, `Prop_Size.v`, `Prop_Short.v`, `Prop_Hash.v`, `Prop_Leak.v`, `Prop_Exact.v`, `Prop_Protocol.v`, `Prop_KeyError.v`, `Prop_Kid.v`, `Prop_Run.v`, `Prop_Header.v`, `Prop_Whole.v`, `Prop_Canon.v`, `Prop_ExampleMain.v`, `Prop_Sv.v`, `Prop_Make.v`, `Prop_Entry.v` (C01, C04, C10, C11 and C39 for the functions of the API by name) hold the property theorems only, each closed by `exact` and followed
by `Print Assumptions` and a concrete case.

Conventions.
* Undefined behaviour (out-of-bounds access, endless loop, read of an uninitialised object, NULL dereference) is the
  separate outcome `UB`; nothing in the model totalises it away.
* External code is a record of functions that theorems quantify over; the laws a theorem needs are hypotheses in its
  statement (section 5).
* Compile-time switches are the record `cfg`; theorems quantify over it.
* Every call into the crypto adapter is logged, so "never calls crypto" is a statement on the log. Allocations in the
  adapters are logged, so "frees everything" is a statement on that log.
* A property that the code violates keeps its statement; a theorem `..._refuted` gives a witness by computation, and
  the other theorems of that property state exactly what holds instead. Such properties have status `partial`.

Not modelled: the bytes of the example keys, the other messages printed by `examples/`, `test/` (other than `RepoTests*.v`, `RunTests.v`, `SvTests.v` and `MakeMessage.v`), threads, timing, stack size, alignment.

## 2. Properties

| Id | How modelled and proved | Result |
|---|---|---|
| C01 | log of hash updates and EdDSA calls equals the Sig_structure of the specification, signing and verification | proved |
| C02 | both paths of `Util.v` against the same specification | proved |
| C03 | heads are prefix free, encoder injective | proved |
| C04 | symbolic execution of the encoder model against the specification, all buffers | proved |
| C05, C06 | decoder run on the message of C04; for any adapter meeting contracts and for OpenSSL and PSA from library assumptions | proved |
| C07 | arguments of `t_cose_sign1_sign_aad` arrive swapped | refuted; exact behaviour proved |
| C08 | outcome as a function of the auxiliary buffer, signing, size calculation and verification | exact outcomes proved; size not reported after a failed verification: refuted |
| C09 | short-circuit signature recomputed in verification | proved for ES256/384/512 without own kid; PS256 and own kid refuted |
| C10, C11 | equation for the required size, independent of the buffer | proved |
| C12, C47 | payload trees; encoder states of unbounded size | proved |
| C13 | exact characterisation of accepted messages, soundness with the very adapter call, also for each function of the API | proved |
| C14, C15, C16, C17 | inversion of the verification function, log | proved |
| C18 | label lists as lists of labels | proved but for label 0; refuted with label 0 |
| C19 | protected algorithm value against the reported one | proved in int32 range; refuted below -2^31 |
| C20 | duplicate labels in and across buckets | proved but for content type; refuted for content type in both buckets |
| C21, C22 | parameter and tag rules against the data item | proved |
| C23 | tags returned for every index | proved but for index 4, tag 2^64-1, fresh context: refuted |
| C24, C42 | no `UB` outcome for any byte string | proved |
| C25 | label counts | proved; labels 0 are not counted: refuted |
| C26 | both directions of the kid requirement; with other key ids and none messages are as acceptable as before (`UnauthFacts.acceptable_kid`) | proved |
| C27 | value reported after any call | exact value proved; stale value refuted |
| C28 | loop invariants of `sha256_update`, `sha256_final` against FIPS 180-4 | proved, `int` shifts wrapping; strict C11 reading refuted |
| C29 | loop counter is 32 bits wide | proved below 2^32; refuted from 2^32 on |
| C30 | left padding, DER integers | proved |
| C31 | every write of `ecdsa_signature_der_to_cose` has to be within the buffer | proved for buffers holding the signature; refuted for smaller ones |
| C32 | all outcomes of library calls | proved |
| C33 | ledger of allocations | proved but for two error paths of verification and PSA without automatic abort: refuted |
| C34 | all build switches | signing algorithms proved; hashes and signature sizes refuted |
| C35 | all build switches | proved |
| C36 | equation between the two messages | proved |
| C37 | trailing bytes, number of elements | trailing bytes and at least four proved; extra elements and data after the protected map refuted |
| C38, C43 | equal configuration gives equal results | proved |
| C39 | NULL and empty buffers | proved; detached NULL payload when signing refuted |
| C40 | corollary of C13 and C03 | proved |
| C41 | returned buffers located in the message | proved |
| C44 | results depend on the data item only | proved |
| C45 | unsupported algorithms, no adapter call | proved |
| C46 | all operation sequences between the two calls | partial: two mistakes are noticed only at the end, one (the payload's byte string closed and another opened) never |
| C48 | no `UB` outcome of signing, generic and per adapter | proved |
| C49, C50 | induction over sequences of API calls; C05, C06, C38, C42, C43, C48 are also stated for every context such a sequence can make (`..._any_history`) | proved |
| C51 | composition lemma on logs, per function | proved |
| C52 | two builds with two adapters step by step; the adapters compared by a relation on hash contexts, proved of OpenSSL and PSA | proved |
| C53, C54, C55, C56 | one theorem: a message with the same protected bytes, signature, payload, algorithm and kid leads to the same check (`MessageFacts.accepted_transfer`) | proved; C53 but for label 0 |
| C57 | `ErrorSpec.v` states the meaning of each code; `ErrorFacts.decode_error` goes through the decoder step by step, `ErrorTop.core_error` through the signature check | partial: three codes differ from their description. Data items that are no message: `ItemSpec.item_fault`; bytes after a data item: `TailFacts.trailing_error`; other bytes: `BrokenSpec.breaks_off`, `no_array` and `break_code`, proved by running the decoder up to the place of the break (`BrokenFacts.broken_decode`). `WideSpec.well_formed` is RFC 8949 without decoder limits; `WideFacts` shows the decoder calls nothing well-formed malformed |
| C58 | `LibrarySpec.v` states what the library was asked and answered; `LibraryFacts` derives it from success of each adapter function and joins it with C01 and C05 | proved |
| C59 | the digest checked determines the Sig_structure unless there is a collision; the Sig_structure determines its parts; every digest given to a signing adapter is that of the Sig_structure of its call (`ForgeryFacts.only_signed_verified`); `ForgeryLib` replaces the verifying adapter by the signature scheme its library implements | proved, as a reduction |
| C60 | `SignErrorSpec.v` states the meaning of each code; proved from `SignFacts.sign_eq`, which gives the whole of one-call signing as one expression; piecewise signing through C12, its last step for any state of the encoder | proved |
| C61 | `LiveSpec.v` states what an adapter, OpenSSL and PSA must be able to do; the code is run forward from `SignFacts.sign_eq` | proved |
| C62 | C61, C47 and C05 composed along the three programs, for any map, payload, algorithm and sizes, and as written | partial: that a two-step program that reports success has shown the payload is refuted |
| C63 | simulation between two runs that differ in the options only (`OptionFacts`): success carries over to less strict options, and all outcomes to words that agree on the bits in use | proved |
| C64 | both adapters shown to make and accept exactly the signatures of one relation, given what each library does in its own terms (`InterSpec`, `InterFacts`); then completeness of verification (C13) with the verifier's build | proved |
| C65 | `FaultSpec.v` relates each error code to what the library answered; each adapter function is taken apart call by call (`FaultFacts`), and joined with C51 and C60 for signing and verification as a whole | proved |
| C66 | for acceptable messages verification is one expression of which only the key id depends on the unprotected parameters (`UnauthFacts.core_eq`, `core_kid`) | proved |
| C67 | case analysis over the runs of each program, replaying the log of obtained and freed objects; results equal those of the programs of C62 (`ExampleRunFacts`) | partial: the code leaks (`C67_released_refuted`) |
| C68 | the decoder reads no item with such a string in it (`IndefFacts.has_no_read`), so the message breaks off there; the elements before it are those of the accepted message and decode as before (`replaced_decode`), so the code is that of the break | partial: the documented code is refuted (`C68_documented_code_refuted`); the codes returned are proved |
| C69 | a message without fault reaches the signature check (`VerdictFacts.acceptable_core`); the adapter answers success exactly for the signatures the library accepts (C64) and SIG_VERIFY for others (C65) | proved |
| C70 | the encoding of the message (C04) is counted part by part (`SizeFacts.counted_ok`); that a buffer of this size is enough is C61 | proved |
| C71 | two runs with different keys and public-key functions are compared step by step (`ShortFacts`); own kids by soundness of verification (C13) | proved; that the adapter is never called, as the documentation says, is refuted (`C71_never_called_refuted`): its hash is |
| C72 | start, updates and finish run by themselves (`HashSpec.hash_all`), by induction over the pieces | partial: only the PSA adapter reports a buffer that is too small; the others write past its end (`C72_small_buffer_refuted`) |
| C73 | the log of calls of signing, of the last step of piecewise signing and of verification, against `ProtocolSpec.orderly` | `t_cose_crypto_is_algorithm_supported` is a pure function of the build in the model and is not in the log |
| C74 | what the adapters answer when the library refuses the key, and all codes they can answer with | partial: such keys give an error, but never one of the documented codes (`C74_signing_refuted`, `C74_verification_refuted`, for every library) |
| C75 | the two calls composed (`KidSpec.verify_by_kid`, the caller's program from the documentation), by C13 for each call | the table of keys is any function |
| C76 | the loop over any table, the conversion of numbers digit by digit | proved for results that an `int32_t` holds and can negate; refuted for others |
| C77 | from what a signed message holds (`sign_success_spec`) and what acceptance implies (C13) | proved for messages made; for messages accepted the types of labels and values up to tags, and what must be protected; the other rules are refuted |
| C78 | a byte string starts with at most one data item (`Unique.reads_unique`), and the adapter is called for acceptable messages only (C73); the codes by decoding in both modes | proved |
| C79 | decoding and checking do not look at the pointers | proved |
| C80 | the message as made (C04) is `encode` of a data item, and `encode` uses the shortest heads; the two possible keys of the unprotected map are compared | partial: refuted with both a key id and a content type |
| C81 | the text printed is computed and taken apart into lines by induction over the bytes; `main` is a loop over the programs of `ExampleRun.v` | partial: the exit status is always 0, refuted |
| C82 | the tests are functions of the implementation they are linked with; for each, passing is characterised exactly; with t_cose the characterisations follow from C61 and C10 | partial: three tests pass also if what they are about is wrong, refuted; that t_cose passes all tests assumes that the library accepts the stored messages, which other libraries made |
| C83 | both encoders run to the same bytes by the relation `R` of `EncFacts.v`; the same signature is then asked for | partial: proved without content type, for algorithms other than EdDSA and, with the short circuit, for ECDSA without own kid (`C83_same_message`); each of these conditions is needed, refuted without (`C83_replica_refuted`) |
| C84 | an invariant of encoder calls that stay inside the array: what was written before is kept (`kept_runs`), so the protected parameters, the payload and the signature are at their places whatever is written between | proved for payloads in memory and output buffers that are not NULL; the protected parameters are given where they do not depend on the algorithm (`protected_wanted`); the place of the unprotected parameters holds any bytes (`rest`), counted as one item of the array, and none if they are left out |

## 3. Findings

Behaviour of the code that a user would not expect, each with a `_refuted` theorem or exact statement:

1. `t_cose_sign1_sign_aad` passes AAD and payload in the wrong order: the AAD becomes the payload (C07).
2. `t_cose_sign1_get_nth_tag` with index 4 reads outside `auTags`; on a fresh context it reports tag 0; a tag
   2^64-1 hides those after it (C23).
3. Algorithm identifiers below -2^31 are truncated to 32 bits, so -2^32-7 is taken as ES256 (C19).
4. A label 0 ends the lists of critical and unknown labels: listing 0 in crit hides what follows, an unknown
   label 0 is never checked and not counted (C18, C25).
5. The protected and unprotected buckets may both have a content type if one is an integer and the other text, or
   the first is an empty text (C20).
6. Short-circuit signing with PS256/384/512 gives an empty signature: the size check tests a pointer (C09).
7. A short-circuit message signed with the signer's own kid cannot be verified as such (C09); a signer that happens
   to use the reserved kid makes messages that do not verify (C05).
8. The auxiliary size reported by verification is that of the last EdDSA message, also after other messages; it is
   not updated when the buffer is too small (C08, C27).
9. Arrays with more than four elements, and data after the map in the protected bucket, are accepted (C37).
10. `t_cose_sign1_sign_detached` with a NULL payload signs as if the payload were inline, with an error (C39).
11. After `EnterBstrWrapped` fails an uninitialised variable is read; the outcome does not depend on it (C42).
12. Short-circuit verification ignores signature bytes beyond the hash (C13, C40).
13. `sha256_update` never returns for 2^32 bytes or more; shifts of bytes into the sign bit (C28, C29).
14. SHA-384/512 are reported as supported in builds whose adapters refuse them; signature sizes are given for
    unsupported algorithms (C34). EdDSA functions of the OpenSSL adapter do not check the type of the key, PSA
    functions do not check that the key is a PSA key.
15. An ECDSA signature with short r or s written to a buffer smaller than the signature overruns it: the check
    compares with the number of significant bytes (C31). Reachable through `t_cose_sign1_sign` with an output
    buffer a few bytes too small.
16. `ecdsa_signature_cose_to_der` does not free the ECDSA_SIG when `ECDSA_SIG_set0` fails, nor the DER encoding when
    it does not fit; a PSA operation is not aborted after a failed update (C33).
17. Positions beyond 2^32-101 in an encoding give `T_COSE_ERR_CBOR_FORMATTING`.
18. The algorithm does not fix the curve of an OpenSSL key, but the build does limit it: ES256 with a 521-bit key
    works unless ES512 is switched off, which makes the DER buffer too small (C52).
19. A parameter with label 0 is accepted before ten other unknown parameters and refused after them (C53).
20. A parameter twice in one bucket gives `T_COSE_ERR_PARAMETER_CBOR`, not `T_COSE_ERR_DUPLICATE_PARAMETER`; a message without
    algorithm gives `T_COSE_ERR_UNSUPPORTED_SIGNING_ALG`, and `T_COSE_ERR_NO_ALG_ID` is never returned; a crit array with five tags on an
    element or an integer below -2^63 gives `T_COSE_ERR_CBOR_NOT_WELL_FORMED` though well-formed; a payload in a
    detached message gives `T_COSE_ERR_CBOR_FORMATTING` (C57).
21. `two_step_sign_example` does not return the error of `QCBOREncode_Finish`: with a buffer a few bytes too small it
    returns success having verified nothing (C62).
22. The example programs never free the EVP_PKEY_CTX with which they make a key, and after an error neither the key nor
    the buffers they allocated (C67).
23. A message cut between two of its elements, or in a map between two entries, gives `T_COSE_ERR_SIGN1_FORMAT` or
    `T_COSE_ERR_PARAMETER_CBOR`, not `T_COSE_ERR_CBOR_NOT_WELL_FORMED` (C57).
24. The header says a string of indefinite length gives `T_COSE_ERR_SIGN1_FORMAT`; among parameters it gives
    `T_COSE_ERR_PARAMETER_CBOR`, as detached payload `T_COSE_ERR_CBOR_FORMATTING` (C68).
25. The documentation of `t_cose_sign1_set_verification_key` says short-circuit verification never calls the adapter
   and always works; it calls the adapter's hash functions and fails without them (C71).
26. `t_cose_crypto_hash_finish` is documented to return `T_COSE_ERR_HASH_BUFFER_SIZE` for a small buffer. The OpenSSL and
    test adapters never look at its size and write past its end (C72). t_cose itself passes buffers that are large enough (C35).
27. The crypto interface documents `T_COSE_ERR_UNKNOWN_KEY`, `T_COSE_ERR_WRONG_TYPE_OF_KEY` and, for signing,
    `T_COSE_ERR_SIG_BUFFER_SIZE`. Neither the OpenSSL nor the PSA adapter ever returns them: a missing or unsuitable key
    or a small buffer gives `T_COSE_ERR_SIG_FAIL` (C74). A caller cannot tell a missing key from any other failure.
28. The test program casts the result of a test, an `int_fast32_t`, to `int32_t`: where the former has 64 bits a failure whose
    low 32 bits are zero counts as passed. Reporting the result -2^31 overflows (C76). A name that is not in the table
    runs nothing, which counts as success.
29. Rules of RFC 8152 that verification does not enforce (C77): IV and Partial IV may both be present; a label t_cose does
    not know may occur several times, also once in each bucket; crit may list parameters that are absent, or that are
    present but not protected; tags around labels and values are ignored.
30. A message with both a key id and a content type is not encoded deterministically: `add_unprotected_parameters` writes
    label 4 before label 3 (C80). COSE does not demand an order; a receiver that insists on deterministic CBOR refuses it.
31. `main` of the example programs ignores what the examples return: the exit status is 0 even if all of them failed (C81).
32. Three tests of `t_cose_sign_verify_test.c` cannot fail because of what they test (C82). `sign_verify_sig_fail_test` (385-388) and `sign_verify_make_cwt_test` (544-548) set a result and overwrite it with 0, so that a library accepting every signature, or giving out another payload, passes; `sign_verify_unsupported_test` overwrites the result of signing before looking at it.
33. The maker of test messages is not quite the replica its comments say (C83): with the short circuit it always puts in the short-circuit kid, where `t_cose_sign1_sign` keeps one that was set, and refuses PS256/384/512; it leaves out the content type; it refuses EdDSA; failures are reported with other error codes.

## 4. Trusted base

* Coq's kernel (8.16.1), `coqc`, `coqchk`.
* Axioms: every property theorem prints "Closed under the global context". (A whole-library listing shows seven
  parameters of `Coq.ssr.ssrunder`, loaded with the standard library's tactics and used by no theorem.)
* The reading of the C code by hand; the model is not extracted from or run against the C code.
* QCBOR is not part of `/repo`. `QEnc.v` and `QDec.v` state its documented behaviour as an executable model
  written from its public documentation and the evidence in the repository's tests
  (e.g. `test/t_cose_test.c` 1057-1083 fixes several error codes). Assumed in particular:
  sticky errors; `UsefulOutBuf` never writes past its buffer; heads are minimal; `ExitArray`/`ExitMap` skip
  unread items; "recoverable" malformed items are skipped while searching a map; at most 4 tags per item; nesting
  limit 15; at most 65534 items; indefinite-length strings rejected (no string allocator is set).
  Not modelled: QCBOR's own interpretation of tags such as dates and big numbers (treated as plain tags),
  float content, UTF-8 validity (QCBOR does not check it), and its limit on the length of the input (about 4 GB;
  longer messages are refused by QCBOR and accepted by the model, so theorems saying that verification succeeds are about
  shorter ones).
* OpenSSL and PSA are records of functions: a call's result depends on its arguments only (and for hash contexts on
  what they have taken in). Randomised signatures are covered because theorems quantify over the record, one record
  per call history; theorems relating two calls (C10, C11) state what they assume. r and s in a DER signature are taken
  as non-negative. C compiler, memory layout, stack size: not modelled.

## 5. Contracts

What theorems assume of the code around t_cose; each is a definition in a `*Spec.v` file, and `AdapterTop.v` and
`AdapterFacts.v` prove them of the adapters from assumptions on the libraries.

* `hash_reliable`, `one_digest`: hashing the given data succeeds, and its result depends on the data only.
* `keys_match`: the verification key accepts what the signing key signs.
* `sizes_agree`, `room_irrelevant`: signatures have the reported size, whatever the size of the buffer.
* `hashing_safe`, `adapter_safe`: the adapter itself has no undefined behaviour.
* OpenSSL: `openssl_works` (set-up calls succeed, enough memory, `i2d`/`d2i_ECDSA_SIG` are DER, digests have their
  length, signatures stay within the given room), `key_pair`, `on_curve` (the key's curve is that of the algorithm).
* PSA: `psa_hash_library`, `psa_within_room`, `psa_key_pair`, `psa_complete`.
* That something succeeds (C61, C62) needs more: `signer_works`, and of the libraries `ossl_can_hash`, `ossl_can_sign`,
  `psa_can_hash`, `psa_can_sign`.

## 6. Wrong programs

`seeded/LOG.jsonl` has one line per attempt: an edit of a model definition in a scratch copy that a realistic bug
would make, the claim it breaks, and what happened. In the scratch copy the proof of every lemma that no longer
compiles is replaced by `Admitted`; then `Print Assumptions` is read for each property theorem.

* `theorems_failed`: property theorems that depend on such a lemma. Their proofs no longer go through; this does not
  by itself show that they are false of the edited program, and theorems sharing a lemma with the claim are listed too.
* `cases_failed`: concrete cases and `_refuted` witnesses, checked by computation, whose outcome changed. These are
  direct evidence that the edit is visible.
* `proofs_over_limit`: proofs that hit the scratch run's limit of 420 s or 4 GB, which shows nothing about them.
* `witnesses`: the changed cases that concern the claim. An entry without one (and with a `remark`) is an edit that
  turned out not to break a claim, although proofs stopped compiling; H1 and H3 are such, and were first logged wrongly.
* `claims_surviving`: properties the edit should break none of whose theorems failed; `before_tightening` gives the
  result before the theorems in `theorems_tightened` existed.
