(** The message decoding tests of /repo/test/t_cose_test.c run against the
    model: sign1_sample_inputs 1057-1083, crit_tests_table 900-935,
    bad_parameters_tests_table, all_header_parameters_test, the tag tests. The
    bytes were produced from the descriptions in
    /repo/test/t_cose_make_test_messages.c. They check the model (mostly its
    QCBOR part) against the repository's recorded behaviour; they are not
    proofs of any property. *)
From Verif Require Import Base Const QEnc QDec Params Verify.
Open Scope N_scope.

Definition of_hex (l : list N) : bytes := map byte_of_N l.

Definition decode_result (flags : N) (m : bytes) : option terr :=
  match verify_decode cfg_full (UBuf [x01]) (verify_init flags) m None false with
  | Ret (DErr e, _) => Some e
  | Ret (DOk d, _) =>
    if has_flag flags OPT_UNKNOWN_CRIT_ALLOWED then Some T_SUCCESS
    else match check_critical_labels (m_crit d) (m_unknown d) with Ret e => Some e | UB _ => None end
  | UB _ => None
  end.

Example test_s0 : decode_result 8 (of_hex [132; 64; 160; 95; 0; 255; 64]) = Some ERR_SIGN1_FORMAT.
Proof. vm_compute. reflexivity. Qed.

Example test_s1 : decode_result 8 (of_hex [132; 64; 163; 64; 64]) = Some ERR_PARAMETER_CBOR.
Proof. vm_compute. reflexivity. Qed.

Example test_s2 : decode_result 8 (of_hex [131; 64; 160; 64]) = Some ERR_SIGN1_FORMAT.
Proof. vm_compute. reflexivity. Qed.

Example test_s3 : decode_result 8 (of_hex [132; 64; 160; 64; 79]) = Some ERR_CBOR_NOT_WELL_FORMED.
Proof. vm_compute. reflexivity. Qed.

Example test_s4 : decode_result 8 (of_hex [132; 64; 160; 79; 64]) = Some ERR_CBOR_NOT_WELL_FORMED.
Proof. vm_compute. reflexivity. Qed.

Example test_s5 : decode_result 8 (of_hex [132; 79; 160; 64; 64]) = Some ERR_CBOR_NOT_WELL_FORMED.
Proof. vm_compute. reflexivity. Qed.

Example test_s6 : decode_result 8 (of_hex [159; 64; 191; 255; 64; 64]) = Some ERR_SIGN1_FORMAT.
Proof. vm_compute. reflexivity. Qed.

Example test_s7 : decode_result 8 (of_hex [159; 64; 191; 255; 64; 64; 255]) = Some T_SUCCESS.
Proof. vm_compute. reflexivity. Qed.

Example test_s8 : decode_result 8 (of_hex [132; 64; 160; 64; 64]) = Some T_SUCCESS.
Proof. vm_compute. reflexivity. Qed.

Example test_s9 : decode_result 8 (of_hex [60]) = Some ERR_CBOR_NOT_WELL_FORMED.
Proof. vm_compute. reflexivity. Qed.

Example test_crit_exist : decode_result 8 (of_hex [210; 132; 79; 162; 1; 38; 2; 138; 10; 11; 12; 13; 14; 15; 16; 17; 18; 19; 161; 4; 88; 32; 239; 149; 75; 75; 217; 189; 246; 112; 208; 51; 96; 130; 245; 239; 21; 42; 248; 243; 91; 106; 108; 0; 239; 166; 169; 167; 31; 73; 81; 126; 24; 198; 71; 112; 97; 121; 108; 111; 97; 100; 88; 64; 0; 0; 0; 0; 0; 0; 0; 0; 0; 0; 0; 0; 0; 0; 0; 0; 0; 0; 0; 0; 0; 0; 0; 0; 0; 0; 0; 0; 0; 0; 0; 0; 0; 0; 0; 0; 0; 0; 0; 0; 0; 0; 0; 0; 0; 0; 0; 0; 0; 0; 0; 0; 0; 0; 0; 0; 0; 0; 0; 0; 0; 0; 0; 0]) = Some T_SUCCESS.
Proof. vm_compute. reflexivity. Qed.

Example test_crit_too_many : decode_result 8 (of_hex [210; 132; 80; 162; 1; 38; 2; 139; 10; 11; 12; 13; 14; 15; 16; 17; 18; 19; 20; 161; 4; 88; 32; 239; 149; 75; 75; 217; 189; 246; 112; 208; 51; 96; 130; 245; 239; 21; 42; 248; 243; 91; 106; 108; 0; 239; 166; 169; 167; 31; 73; 81; 126; 24; 198; 71; 112; 97; 121; 108; 111; 97; 100; 88; 64; 0; 0; 0; 0; 0; 0; 0; 0; 0; 0; 0; 0; 0; 0; 0; 0; 0; 0; 0; 0; 0; 0; 0; 0; 0; 0; 0; 0; 0; 0; 0; 0; 0; 0; 0; 0; 0; 0; 0; 0; 0; 0; 0; 0; 0; 0; 0; 0; 0; 0; 0; 0; 0; 0; 0; 0; 0; 0; 0; 0; 0; 0; 0; 0]) = Some ERR_CRIT_PARAMETER.
Proof. vm_compute. reflexivity. Qed.

Example test_crit_bad_label : decode_result 8 (of_hex [210; 132; 70; 162; 1; 38; 2; 129; 245; 161; 4; 88; 32; 239; 149; 75; 75; 217; 189; 246; 112; 208; 51; 96; 130; 245; 239; 21; 42; 248; 243; 91; 106; 108; 0; 239; 166; 169; 167; 31; 73; 81; 126; 24; 198; 71; 112; 97; 121; 108; 111; 97; 100; 88; 64; 0; 0; 0; 0; 0; 0; 0; 0; 0; 0; 0; 0; 0; 0; 0; 0; 0; 0; 0; 0; 0; 0; 0; 0; 0; 0; 0; 0; 0; 0; 0; 0; 0; 0; 0; 0; 0; 0; 0; 0; 0; 0; 0; 0; 0; 0; 0; 0; 0; 0; 0; 0; 0; 0; 0; 0; 0; 0; 0; 0; 0; 0; 0; 0]) = Some ERR_CRIT_PARAMETER.
Proof. vm_compute. reflexivity. Qed.

Example test_crit_unknown_uint : decode_result 8 (of_hex [210; 132; 79; 163; 1; 38; 24; 42; 24; 43; 2; 131; 24; 42; 24; 43; 24; 44; 161; 4; 88; 32; 239; 149; 75; 75; 217; 189; 246; 112; 208; 51; 96; 130; 245; 239; 21; 42; 248; 243; 91; 106; 108; 0; 239; 166; 169; 167; 31; 73; 81; 126; 24; 198; 71; 112; 97; 121; 108; 111; 97; 100; 88; 64; 0; 0; 0; 0; 0; 0; 0; 0; 0; 0; 0; 0; 0; 0; 0; 0; 0; 0; 0; 0; 0; 0; 0; 0; 0; 0; 0; 0; 0; 0; 0; 0; 0; 0; 0; 0; 0; 0; 0; 0; 0; 0; 0; 0; 0; 0; 0; 0; 0; 0; 0; 0; 0; 0; 0; 0; 0; 0; 0; 0; 0; 0; 0; 0]) = Some ERR_UNKNOWN_CRITICAL_PARAMETER.
Proof. vm_compute. reflexivity. Qed.

Example test_crit_unknown_tstr : decode_result 8 (of_hex [210; 132; 83; 163; 1; 38; 98; 104; 104; 24; 43; 2; 131; 98; 104; 104; 97; 104; 99; 104; 104; 104; 161; 4; 88; 32; 239; 149; 75; 75; 217; 189; 246; 112; 208; 51; 96; 130; 245; 239; 21; 42; 248; 243; 91; 106; 108; 0; 239; 166; 169; 167; 31; 73; 81; 126; 24; 198; 71; 112; 97; 121; 108; 111; 97; 100; 88; 64; 0; 0; 0; 0; 0; 0; 0; 0; 0; 0; 0; 0; 0; 0; 0; 0; 0; 0; 0; 0; 0; 0; 0; 0; 0; 0; 0; 0; 0; 0; 0; 0; 0; 0; 0; 0; 0; 0; 0; 0; 0; 0; 0; 0; 0; 0; 0; 0; 0; 0; 0; 0; 0; 0; 0; 0; 0; 0; 0; 0; 0; 0; 0; 0]) = Some ERR_UNKNOWN_CRITICAL_PARAMETER.
Proof. vm_compute. reflexivity. Qed.

Example test_crit_unknown_uint_ok : decode_result 40 (of_hex [210; 132; 79; 163; 1; 38; 24; 42; 24; 43; 2; 131; 24; 42; 24; 43; 24; 44; 161; 4; 88; 32; 239; 149; 75; 75; 217; 189; 246; 112; 208; 51; 96; 130; 245; 239; 21; 42; 248; 243; 91; 106; 108; 0; 239; 166; 169; 167; 31; 73; 81; 126; 24; 198; 71; 112; 97; 121; 108; 111; 97; 100; 88; 64; 0; 0; 0; 0; 0; 0; 0; 0; 0; 0; 0; 0; 0; 0; 0; 0; 0; 0; 0; 0; 0; 0; 0; 0; 0; 0; 0; 0; 0; 0; 0; 0; 0; 0; 0; 0; 0; 0; 0; 0; 0; 0; 0; 0; 0; 0; 0; 0; 0; 0; 0; 0; 0; 0; 0; 0; 0; 0; 0; 0; 0; 0; 0; 0]) = Some T_SUCCESS.
Proof. vm_compute. reflexivity. Qed.

Example test_crit_unknown_tstr_ok : decode_result 40 (of_hex [210; 132; 83; 163; 1; 38; 98; 104; 104; 24; 43; 2; 131; 98; 104; 104; 97; 104; 99; 104; 104; 104; 161; 4; 88; 32; 239; 149; 75; 75; 217; 189; 246; 112; 208; 51; 96; 130; 245; 239; 21; 42; 248; 243; 91; 106; 108; 0; 239; 166; 169; 167; 31; 73; 81; 126; 24; 198; 71; 112; 97; 121; 108; 111; 97; 100; 88; 64; 0; 0; 0; 0; 0; 0; 0; 0; 0; 0; 0; 0; 0; 0; 0; 0; 0; 0; 0; 0; 0; 0; 0; 0; 0; 0; 0; 0; 0; 0; 0; 0; 0; 0; 0; 0; 0; 0; 0; 0; 0; 0; 0; 0; 0; 0; 0; 0; 0; 0; 0; 0; 0; 0; 0; 0; 0; 0; 0; 0; 0; 0; 0; 0]) = Some T_SUCCESS.
Proof. vm_compute. reflexivity. Qed.

Example test_crit_not_protected : decode_result 8 (of_hex [210; 132; 67; 161; 1; 38; 162; 2; 148; 24; 100; 100; 120; 120; 120; 120; 24; 101; 100; 120; 120; 120; 120; 24; 102; 100; 120; 120; 120; 120; 24; 103; 100; 120; 120; 120; 120; 24; 104; 100; 120; 120; 120; 120; 24; 105; 100; 120; 120; 120; 120; 24; 106; 100; 120; 120; 120; 120; 24; 107; 100; 120; 120; 120; 120; 24; 108; 100; 120; 120; 120; 120; 24; 109; 100; 120; 120; 120; 120; 4; 88; 32; 239; 149; 75; 75; 217; 189; 246; 112; 208; 51; 96; 130; 245; 239; 21; 42; 248; 243; 91; 106; 108; 0; 239; 166; 169; 167; 31; 73; 81; 126; 24; 198; 71; 112; 97; 121; 108; 111; 97; 100; 88; 64; 0; 0; 0; 0; 0; 0; 0; 0; 0; 0; 0; 0; 0; 0; 0; 0; 0; 0; 0; 0; 0; 0; 0; 0; 0; 0; 0; 0; 0; 0; 0; 0; 0; 0; 0; 0; 0; 0; 0; 0; 0; 0; 0; 0; 0; 0; 0; 0; 0; 0; 0; 0; 0; 0; 0; 0; 0; 0; 0; 0; 0; 0; 0; 0]) = Some ERR_PARAMETER_NOT_PROTECTED.
Proof. vm_compute. reflexivity. Qed.

Example test_crit_empty : decode_result 8 (of_hex [210; 132; 69; 162; 1; 38; 2; 128; 161; 4; 88; 32; 239; 149; 75; 75; 217; 189; 246; 112; 208; 51; 96; 130; 245; 239; 21; 42; 248; 243; 91; 106; 108; 0; 239; 166; 169; 167; 31; 73; 81; 126; 24; 198; 71; 112; 97; 121; 108; 111; 97; 100; 88; 64; 0; 0; 0; 0; 0; 0; 0; 0; 0; 0; 0; 0; 0; 0; 0; 0; 0; 0; 0; 0; 0; 0; 0; 0; 0; 0; 0; 0; 0; 0; 0; 0; 0; 0; 0; 0; 0; 0; 0; 0; 0; 0; 0; 0; 0; 0; 0; 0; 0; 0; 0; 0; 0; 0; 0; 0; 0; 0; 0; 0; 0; 0; 0; 0]) = Some ERR_CRIT_PARAMETER.
Proof. vm_compute. reflexivity. Qed.

Example test_crit_many_tstr : decode_result 8 (of_hex [210; 132; 80; 162; 1; 38; 2; 139; 96; 96; 96; 96; 96; 96; 96; 96; 96; 96; 96; 161; 4; 88; 32; 239; 149; 75; 75; 217; 189; 246; 112; 208; 51; 96; 130; 245; 239; 21; 42; 248; 243; 91; 106; 108; 0; 239; 166; 169; 167; 31; 73; 81; 126; 24; 198; 71; 112; 97; 121; 108; 111; 97; 100; 88; 64; 0; 0; 0; 0; 0; 0; 0; 0; 0; 0; 0; 0; 0; 0; 0; 0; 0; 0; 0; 0; 0; 0; 0; 0; 0; 0; 0; 0; 0; 0; 0; 0; 0; 0; 0; 0; 0; 0; 0; 0; 0; 0; 0; 0; 0; 0; 0; 0; 0; 0; 0; 0; 0; 0; 0; 0; 0; 0; 0; 0; 0; 0; 0; 0]) = Some ERR_CRIT_PARAMETER.
Proof. vm_compute. reflexivity. Qed.

Example test_unclosed_protected : decode_result 8 (of_hex [210; 132; 65; 161; 161; 4; 88; 32; 239; 149; 75; 75; 217; 189; 246; 112; 208; 51; 96; 130; 245; 239; 21; 42; 248; 243; 91; 106; 108; 0; 239; 166; 169; 167; 31; 73; 81; 126; 24; 198; 71; 112; 97; 121; 108; 111; 97; 100; 88; 64; 0; 0; 0; 0; 0; 0; 0; 0; 0; 0; 0; 0; 0; 0; 0; 0; 0; 0; 0; 0; 0; 0; 0; 0; 0; 0; 0; 0; 0; 0; 0; 0; 0; 0; 0; 0; 0; 0; 0; 0; 0; 0; 0; 0; 0; 0; 0; 0; 0; 0; 0; 0; 0; 0; 0; 0; 0; 0; 0; 0; 0; 0; 0; 0]) = Some ERR_PARAMETER_CBOR.
Proof. vm_compute. reflexivity. Qed.

Example test_dup_content_id : decode_result 8 (of_hex [210; 132; 69; 162; 1; 38; 3; 3; 162; 4; 88; 32; 239; 149; 75; 75; 217; 189; 246; 112; 208; 51; 96; 130; 245; 239; 21; 42; 248; 243; 91; 106; 108; 0; 239; 166; 169; 167; 31; 73; 81; 126; 24; 198; 3; 3; 71; 112; 97; 121; 108; 111; 97; 100; 88; 64; 0; 0; 0; 0; 0; 0; 0; 0; 0; 0; 0; 0; 0; 0; 0; 0; 0; 0; 0; 0; 0; 0; 0; 0; 0; 0; 0; 0; 0; 0; 0; 0; 0; 0; 0; 0; 0; 0; 0; 0; 0; 0; 0; 0; 0; 0; 0; 0; 0; 0; 0; 0; 0; 0; 0; 0; 0; 0; 0; 0; 0; 0; 0; 0]) = Some ERR_DUPLICATE_PARAMETER.
Proof. vm_compute. reflexivity. Qed.

Example test_too_large_ct : decode_result 8 (of_hex [210; 132; 67; 161; 1; 38; 162; 4; 88; 32; 239; 149; 75; 75; 217; 189; 246; 112; 208; 51; 96; 130; 245; 239; 21; 42; 248; 243; 91; 106; 108; 0; 239; 166; 169; 167; 31; 73; 81; 126; 24; 198; 3; 26; 0; 1; 0; 0; 71; 112; 97; 121; 108; 111; 97; 100; 88; 64; 0; 0; 0; 0; 0; 0; 0; 0; 0; 0; 0; 0; 0; 0; 0; 0; 0; 0; 0; 0; 0; 0; 0; 0; 0; 0; 0; 0; 0; 0; 0; 0; 0; 0; 0; 0; 0; 0; 0; 0; 0; 0; 0; 0; 0; 0; 0; 0; 0; 0; 0; 0; 0; 0; 0; 0; 0; 0; 0; 0; 0; 0; 0; 0]) = Some ERR_BAD_CONTENT_TYPE.
Proof. vm_compute. reflexivity. Qed.

Example test_nwf2 : decode_result 8 (of_hex [210; 132; 67; 161; 1; 38; 162; 24; 55; 129; 162; 24; 66; 98; 104; 105; 255; 24; 67; 99; 98; 121; 101; 4; 88; 32; 239; 149; 75; 75; 217; 189; 246; 112; 208; 51; 96; 130; 245; 239; 21; 42; 248; 243; 91; 106; 108; 0; 239; 166; 169; 167; 31; 73; 81; 126; 24; 198; 71; 112; 97; 121; 108; 111; 97; 100; 88; 64; 0; 0; 0; 0; 0; 0; 0; 0; 0; 0; 0; 0; 0; 0; 0; 0; 0; 0; 0; 0; 0; 0; 0; 0; 0; 0; 0; 0; 0; 0; 0; 0; 0; 0; 0; 0; 0; 0; 0; 0; 0; 0; 0; 0; 0; 0; 0; 0; 0; 0; 0; 0; 0; 0; 0; 0; 0; 0; 0; 0; 0; 0; 0; 0]) = Some ERR_CBOR_NOT_WELL_FORMED.
Proof. vm_compute. reflexivity. Qed.

Example test_kid_in_protected : decode_result 8 (of_hex [210; 132; 72; 162; 1; 38; 4; 67; 107; 105; 100; 161; 4; 88; 32; 239; 149; 75; 75; 217; 189; 246; 112; 208; 51; 96; 130; 245; 239; 21; 42; 248; 243; 91; 106; 108; 0; 239; 166; 169; 167; 31; 73; 81; 126; 24; 198; 71; 112; 97; 121; 108; 111; 97; 100; 88; 64; 0; 0; 0; 0; 0; 0; 0; 0; 0; 0; 0; 0; 0; 0; 0; 0; 0; 0; 0; 0; 0; 0; 0; 0; 0; 0; 0; 0; 0; 0; 0; 0; 0; 0; 0; 0; 0; 0; 0; 0; 0; 0; 0; 0; 0; 0; 0; 0; 0; 0; 0; 0; 0; 0; 0; 0; 0; 0; 0; 0; 0; 0; 0; 0]) = Some ERR_DUPLICATE_PARAMETER.
Proof. vm_compute. reflexivity. Qed.

Example test_too_many_unknown : decode_result 8 (of_hex [210; 132; 67; 161; 1; 38; 172; 10; 245; 11; 245; 12; 245; 13; 245; 14; 245; 15; 245; 16; 245; 17; 245; 18; 245; 19; 245; 20; 245; 4; 88; 32; 239; 149; 75; 75; 217; 189; 246; 112; 208; 51; 96; 130; 245; 239; 21; 42; 248; 243; 91; 106; 108; 0; 239; 166; 169; 167; 31; 73; 81; 126; 24; 198; 71; 112; 97; 121; 108; 111; 97; 100; 88; 64; 0; 0; 0; 0; 0; 0; 0; 0; 0; 0; 0; 0; 0; 0; 0; 0; 0; 0; 0; 0; 0; 0; 0; 0; 0; 0; 0; 0; 0; 0; 0; 0; 0; 0; 0; 0; 0; 0; 0; 0; 0; 0; 0; 0; 0; 0; 0; 0; 0; 0; 0; 0; 0; 0; 0; 0; 0; 0; 0; 0; 0; 0; 0; 0]) = Some ERR_TOO_MANY_PARAMETERS.
Proof. vm_compute. reflexivity. Qed.

Example test_unprot_not_map : decode_result 8 (of_hex [210; 132; 67; 161; 1; 38; 129; 88; 32; 239; 149; 75; 75; 217; 189; 246; 112; 208; 51; 96; 130; 245; 239; 21; 42; 248; 243; 91; 106; 108; 0; 239; 166; 169; 167; 31; 73; 81; 126; 24; 198; 71; 112; 97; 121; 108; 111; 97; 100; 88; 64; 0; 0; 0; 0; 0; 0; 0; 0; 0; 0; 0; 0; 0; 0; 0; 0; 0; 0; 0; 0; 0; 0; 0; 0; 0; 0; 0; 0; 0; 0; 0; 0; 0; 0; 0; 0; 0; 0; 0; 0; 0; 0; 0; 0; 0; 0; 0; 0; 0; 0; 0; 0; 0; 0; 0; 0; 0; 0; 0; 0; 0; 0; 0; 0]) = Some ERR_PARAMETER_CBOR.
Proof. vm_compute. reflexivity. Qed.

Example test_bad_crit : decode_result 8 (of_hex [210; 132; 67; 161; 1; 38; 162; 2; 98; 104; 105; 4; 88; 32; 239; 149; 75; 75; 217; 189; 246; 112; 208; 51; 96; 130; 245; 239; 21; 42; 248; 243; 91; 106; 108; 0; 239; 166; 169; 167; 31; 73; 81; 126; 24; 198; 71; 112; 97; 121; 108; 111; 97; 100; 88; 64; 0; 0; 0; 0; 0; 0; 0; 0; 0; 0; 0; 0; 0; 0; 0; 0; 0; 0; 0; 0; 0; 0; 0; 0; 0; 0; 0; 0; 0; 0; 0; 0; 0; 0; 0; 0; 0; 0; 0; 0; 0; 0; 0; 0; 0; 0; 0; 0; 0; 0; 0; 0; 0; 0; 0; 0; 0; 0; 0; 0; 0; 0; 0; 0]) = Some ERR_CRIT_PARAMETER.
Proof. vm_compute. reflexivity. Qed.

Example test_nwf1 : decode_result 8 (of_hex [210; 132; 67; 161; 1; 38; 161; 120; 120; 120; 120; 120; 120; 4; 88; 32; 239; 149; 75; 75; 217; 189; 246; 112; 208; 51; 96; 130; 245; 239; 21; 42; 248; 243; 91; 106; 108; 0; 239; 166; 169; 167; 31; 73; 81; 126; 24; 198; 71; 112; 97; 121; 108; 111; 97; 100; 88; 64; 0; 0; 0; 0; 0; 0; 0; 0; 0; 0; 0; 0; 0; 0; 0; 0; 0; 0; 0; 0; 0; 0; 0; 0; 0; 0; 0; 0; 0; 0; 0; 0; 0; 0; 0; 0; 0; 0; 0; 0; 0; 0; 0; 0; 0; 0; 0; 0; 0; 0; 0; 0; 0; 0; 0; 0; 0; 0; 0; 0; 0; 0; 0; 0]) = Some ERR_CBOR_NOT_WELL_FORMED.
Proof. vm_compute. reflexivity. Qed.

Example test_no_unprot : decode_result 8 (of_hex [210; 131; 67; 161; 1; 38; 71; 112; 97; 121; 108; 111; 97; 100; 88; 64; 0; 0; 0; 0; 0; 0; 0; 0; 0; 0; 0; 0; 0; 0; 0; 0; 0; 0; 0; 0; 0; 0; 0; 0; 0; 0; 0; 0; 0; 0; 0; 0; 0; 0; 0; 0; 0; 0; 0; 0; 0; 0; 0; 0; 0; 0; 0; 0; 0; 0; 0; 0; 0; 0; 0; 0; 0; 0; 0; 0; 0; 0; 0; 0]) = Some ERR_PARAMETER_CBOR.
Proof. vm_compute. reflexivity. Qed.

Example test_no_prot : decode_result 8 (of_hex [210; 131; 161; 4; 88; 32; 239; 149; 75; 75; 217; 189; 246; 112; 208; 51; 96; 130; 245; 239; 21; 42; 248; 243; 91; 106; 108; 0; 239; 166; 169; 167; 31; 73; 81; 126; 24; 198; 71; 112; 97; 121; 108; 111; 97; 100; 88; 64; 0; 0; 0; 0; 0; 0; 0; 0; 0; 0; 0; 0; 0; 0; 0; 0; 0; 0; 0; 0; 0; 0; 0; 0; 0; 0; 0; 0; 0; 0; 0; 0; 0; 0; 0; 0; 0; 0; 0; 0; 0; 0; 0; 0; 0; 0; 0; 0; 0; 0; 0; 0; 0; 0; 0; 0; 0; 0; 0; 0; 0; 0; 0; 0]) = Some ERR_PARAMETER_CBOR.
Proof. vm_compute. reflexivity. Qed.

Example test_extra : decode_result 8 (of_hex [210; 132; 67; 161; 1; 38; 162; 24; 55; 129; 161; 24; 66; 98; 104; 105; 4; 88; 32; 239; 149; 75; 75; 217; 189; 246; 112; 208; 51; 96; 130; 245; 239; 21; 42; 248; 243; 91; 106; 108; 0; 239; 166; 169; 167; 31; 73; 81; 126; 24; 198; 71; 112; 97; 121; 108; 111; 97; 100; 88; 64; 0; 0; 0; 0; 0; 0; 0; 0; 0; 0; 0; 0; 0; 0; 0; 0; 0; 0; 0; 0; 0; 0; 0; 0; 0; 0; 0; 0; 0; 0; 0; 0; 0; 0; 0; 0; 0; 0; 0; 0; 0; 0; 0; 0; 0; 0; 0; 0; 0; 0; 0; 0; 0; 0; 0; 0; 0; 0; 0; 0; 0; 0; 0; 0]) = Some T_SUCCESS.
Proof. vm_compute. reflexivity. Qed.

Example test_param_label : decode_result 8 (of_hex [210; 132; 67; 161; 1; 38; 162; 88; 32; 239; 149; 75; 75; 217; 189; 246; 112; 208; 51; 96; 130; 245; 239; 21; 42; 248; 243; 91; 106; 108; 0; 239; 166; 169; 167; 31; 73; 81; 126; 24; 198; 88; 32; 239; 149; 75; 75; 217; 189; 246; 112; 208; 51; 96; 130; 245; 239; 21; 42; 248; 243; 91; 106; 108; 0; 239; 166; 169; 167; 31; 73; 81; 126; 24; 198; 4; 88; 32; 239; 149; 75; 75; 217; 189; 246; 112; 208; 51; 96; 130; 245; 239; 21; 42; 248; 243; 91; 106; 108; 0; 239; 166; 169; 167; 31; 73; 81; 126; 24; 198; 71; 112; 97; 121; 108; 111; 97; 100; 88; 64; 0; 0; 0; 0; 0; 0; 0; 0; 0; 0; 0; 0; 0; 0; 0; 0; 0; 0; 0; 0; 0; 0; 0; 0; 0; 0; 0; 0; 0; 0; 0; 0; 0; 0; 0; 0; 0; 0; 0; 0; 0; 0; 0; 0; 0; 0; 0; 0; 0; 0; 0; 0; 0; 0; 0; 0; 0; 0; 0; 0; 0; 0; 0; 0]) = Some ERR_PARAMETER_CBOR.
Proof. vm_compute. reflexivity. Qed.

Example test_bad_prot : decode_result 8 (of_hex [210; 132; 67; 129; 24; 42; 161; 4; 88; 32; 239; 149; 75; 75; 217; 189; 246; 112; 208; 51; 96; 130; 245; 239; 21; 42; 248; 243; 91; 106; 108; 0; 239; 166; 169; 167; 31; 73; 81; 126; 24; 198; 71; 112; 97; 121; 108; 111; 97; 100; 88; 64; 0; 0; 0; 0; 0; 0; 0; 0; 0; 0; 0; 0; 0; 0; 0; 0; 0; 0; 0; 0; 0; 0; 0; 0; 0; 0; 0; 0; 0; 0; 0; 0; 0; 0; 0; 0; 0; 0; 0; 0; 0; 0; 0; 0; 0; 0; 0; 0; 0; 0; 0; 0; 0; 0; 0; 0; 0; 0; 0; 0; 0; 0; 0; 0]) = Some ERR_PARAMETER_CBOR.
Proof. vm_compute. reflexivity. Qed.

Example test_all : decode_result 8 (of_hex [210; 132; 67; 161; 1; 38; 165; 4; 88; 32; 239; 149; 75; 75; 217; 189; 246; 112; 208; 51; 96; 130; 245; 239; 21; 42; 248; 243; 91; 106; 108; 0; 239; 166; 169; 167; 31; 73; 81; 126; 24; 198; 5; 66; 105; 118; 6; 74; 112; 97; 114; 116; 105; 97; 108; 95; 105; 118; 3; 1; 24; 55; 130; 162; 24; 66; 98; 104; 105; 24; 67; 99; 98; 121; 101; 129; 160; 71; 112; 97; 121; 108; 111; 97; 100; 88; 64; 0; 0; 0; 0; 0; 0; 0; 0; 0; 0; 0; 0; 0; 0; 0; 0; 0; 0; 0; 0; 0; 0; 0; 0; 0; 0; 0; 0; 0; 0; 0; 0; 0; 0; 0; 0; 0; 0; 0; 0; 0; 0; 0; 0; 0; 0; 0; 0; 0; 0; 0; 0; 0; 0; 0; 0; 0; 0; 0; 0; 0; 0; 0; 0]) = Some T_SUCCESS.
Proof. vm_compute. reflexivity. Qed.

Example test_indef_crit : decode_result 8 (of_hex [210; 159; 81; 191; 1; 38; 24; 42; 24; 43; 2; 159; 24; 42; 24; 43; 24; 44; 255; 255; 191; 4; 88; 32; 239; 149; 75; 75; 217; 189; 246; 112; 208; 51; 96; 130; 245; 239; 21; 42; 248; 243; 91; 106; 108; 0; 239; 166; 169; 167; 31; 73; 81; 126; 24; 198; 255; 71; 112; 97; 121; 108; 111; 97; 100; 88; 64; 0; 0; 0; 0; 0; 0; 0; 0; 0; 0; 0; 0; 0; 0; 0; 0; 0; 0; 0; 0; 0; 0; 0; 0; 0; 0; 0; 0; 0; 0; 0; 0; 0; 0; 0; 0; 0; 0; 0; 0; 0; 0; 0; 0; 0; 0; 0; 0; 0; 0; 0; 0; 0; 0; 0; 0; 0; 0; 0; 0; 0; 0; 0; 0; 255]) = Some ERR_UNKNOWN_CRITICAL_PARAMETER.
Proof. vm_compute. reflexivity. Qed.

Example test_indef_crit_ok : decode_result 40 (of_hex [210; 159; 81; 191; 1; 38; 24; 42; 24; 43; 2; 159; 24; 42; 24; 43; 24; 44; 255; 255; 191; 4; 88; 32; 239; 149; 75; 75; 217; 189; 246; 112; 208; 51; 96; 130; 245; 239; 21; 42; 248; 243; 91; 106; 108; 0; 239; 166; 169; 167; 31; 73; 81; 126; 24; 198; 255; 71; 112; 97; 121; 108; 111; 97; 100; 88; 64; 0; 0; 0; 0; 0; 0; 0; 0; 0; 0; 0; 0; 0; 0; 0; 0; 0; 0; 0; 0; 0; 0; 0; 0; 0; 0; 0; 0; 0; 0; 0; 0; 0; 0; 0; 0; 0; 0; 0; 0; 0; 0; 0; 0; 0; 0; 0; 0; 0; 0; 0; 0; 0; 0; 0; 0; 0; 0; 0; 0; 0; 0; 0; 0; 255]) = Some T_SUCCESS.
Proof. vm_compute. reflexivity. Qed.

Example test_tag_req : decode_result 12 (of_hex [132; 67; 161; 1; 38; 161; 4; 88; 32; 239; 149; 75; 75; 217; 189; 246; 112; 208; 51; 96; 130; 245; 239; 21; 42; 248; 243; 91; 106; 108; 0; 239; 166; 169; 167; 31; 73; 81; 126; 24; 198; 71; 112; 97; 121; 108; 111; 97; 100; 88; 64; 0; 0; 0; 0; 0; 0; 0; 0; 0; 0; 0; 0; 0; 0; 0; 0; 0; 0; 0; 0; 0; 0; 0; 0; 0; 0; 0; 0; 0; 0; 0; 0; 0; 0; 0; 0; 0; 0; 0; 0; 0; 0; 0; 0; 0; 0; 0; 0; 0; 0; 0; 0; 0; 0; 0; 0; 0; 0; 0; 0; 0; 0; 0; 0]) = Some ERR_INCORRECTLY_TAGGED.
Proof. vm_compute. reflexivity. Qed.

Example test_tag_proh : decode_result 24 (of_hex [210; 132; 67; 161; 1; 38; 161; 4; 88; 32; 239; 149; 75; 75; 217; 189; 246; 112; 208; 51; 96; 130; 245; 239; 21; 42; 248; 243; 91; 106; 108; 0; 239; 166; 169; 167; 31; 73; 81; 126; 24; 198; 71; 112; 97; 121; 108; 111; 97; 100; 88; 64; 0; 0; 0; 0; 0; 0; 0; 0; 0; 0; 0; 0; 0; 0; 0; 0; 0; 0; 0; 0; 0; 0; 0; 0; 0; 0; 0; 0; 0; 0; 0; 0; 0; 0; 0; 0; 0; 0; 0; 0; 0; 0; 0; 0; 0; 0; 0; 0; 0; 0; 0; 0; 0; 0; 0; 0; 0; 0; 0; 0; 0; 0; 0; 0]) = Some ERR_INCORRECTLY_TAGGED.
Proof. vm_compute. reflexivity. Qed.

Example test_tags_6 : decode_result 8 (of_hex [217; 3; 132; 217; 3; 133; 217; 3; 134; 217; 3; 135; 217; 3; 136; 210; 132; 67; 161; 1; 38; 161; 4; 88; 32; 239; 149; 75; 75; 217; 189; 246; 112; 208; 51; 96; 130; 245; 239; 21; 42; 248; 243; 91; 106; 108; 0; 239; 166; 169; 167; 31; 73; 81; 126; 24; 198; 71; 112; 97; 121; 108; 111; 97; 100; 88; 64; 0; 0; 0; 0; 0; 0; 0; 0; 0; 0; 0; 0; 0; 0; 0; 0; 0; 0; 0; 0; 0; 0; 0; 0; 0; 0; 0; 0; 0; 0; 0; 0; 0; 0; 0; 0; 0; 0; 0; 0; 0; 0; 0; 0; 0; 0; 0; 0; 0; 0; 0; 0; 0; 0; 0; 0; 0; 0; 0; 0; 0; 0; 0; 0]) = Some ERR_TOO_MANY_TAGS.
Proof. vm_compute. reflexivity. Qed.

Example test_tags_2 : decode_result 8 (of_hex [217; 3; 132; 217; 3; 133; 210; 132; 67; 161; 1; 38; 161; 4; 88; 32; 239; 149; 75; 75; 217; 189; 246; 112; 208; 51; 96; 130; 245; 239; 21; 42; 248; 243; 91; 106; 108; 0; 239; 166; 169; 167; 31; 73; 81; 126; 24; 198; 71; 112; 97; 121; 108; 111; 97; 100; 88; 64; 0; 0; 0; 0; 0; 0; 0; 0; 0; 0; 0; 0; 0; 0; 0; 0; 0; 0; 0; 0; 0; 0; 0; 0; 0; 0; 0; 0; 0; 0; 0; 0; 0; 0; 0; 0; 0; 0; 0; 0; 0; 0; 0; 0; 0; 0; 0; 0; 0; 0; 0; 0; 0; 0; 0; 0; 0; 0; 0; 0; 0; 0; 0; 0]) = Some T_SUCCESS.
Proof. vm_compute. reflexivity. Qed.

(** The tags of 900(901(18(...))) as returned. *)
Example test_tags_returned :
  match verify_decode cfg_full (UBuf []) (verify_init 8) (of_hex [217; 3; 132; 217; 3; 133; 210; 132; 67; 161; 1; 38; 161; 4; 88; 32; 239; 149; 75; 75; 217; 189; 246; 112; 208; 51; 96; 130; 245; 239; 21; 42; 248; 243; 91; 106; 108; 0; 239; 166; 169; 167; 31; 73; 81; 126; 24; 198; 71; 112; 97; 121; 108; 111; 97; 100; 88; 64; 0; 0; 0; 0; 0; 0; 0; 0; 0; 0; 0; 0; 0; 0; 0; 0; 0; 0; 0; 0; 0; 0; 0; 0; 0; 0; 0; 0; 0; 0; 0; 0; 0; 0; 0; 0; 0; 0; 0; 0; 0; 0; 0; 0; 0; 0; 0; 0; 0; 0; 0; 0; 0; 0; 0; 0; 0; 0; 0; 0; 0; 0; 0; 0]) None false with
  | Ret (_, v) => v_tags v
  | _ => []
  end = [901; 900; TAG_INVALID64; TAG_INVALID64].
Proof. vm_compute. reflexivity. Qed.
