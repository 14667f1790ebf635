(** Further concrete cases for the crypto adapters, checked by computation. Like
    those of Prop_Cases.v they are examples that serve as witnesses for edited
    programs (see DESIGN.md, section 6). *)
From Verif Require Import Base Const QEnc QDec Crypto Util ShortCircuit Params Verify Sign Spec SignSpec Toy.
From Verif Require Import Algs OpenSSL Psa AdapterSpec DemoLib Sha256 Sha256Spec TestCrypto.
Open Scope N_scope. Open Scope list_scope.

Definition okey : tkey := {| k_lib := 1; k_handle := 5 |}.
Definition digest32 : bytes := repeat x37 32.
Definition good_sig : bytes := cose_signature 32 (demo_r digest32) (demo_s digest32).
Definition everr (x : L terr) : option terr := match snd x with Ret e => Some e | UB _ => None end.
Definition serr (x : L (terr * bytes)) : option terr := match snd x with Ret r => Some (fst r) | UB _ => None end.
Definition sign_code2 (cr : crypto) (alg : Z) : option terr :=
  match snd (sign_aad_internal cfg_full cr (toy_signer alg 0) false (UBuf toy_payload) (UBuf toy_aad) (out_buf 300)) with
  | Ret (e, _, _) => Some e | UB _ => None end.
Definition size_of (cr : crypto) (me : sctx) (c : cfg) : option (terr * option ubufc) :=
  match snd (sign_aad_internal c cr me false (UBuf toy_payload) (UBuf toy_aad) {| wb_null := true; wb_len := 1000 |}) with
  | Ret (e, _, r) => Some (e, r) | UB _ => None end.

(** A key of some other size. *)
Definition with_bits (bits : N) (l : ossl) : ossl := {|
  ev_bits := fun _ => bits; ev_size := ev_size l; d2i_sig := d2i_sig l; bn_ok := bn_ok l; sig_new := sig_new l; sig_set0 := sig_set0 l;
  i2d_sig := i2d_sig l; ctx_new := ctx_new l; ctx_init := ctx_init l; ctx_set := ctx_set l; pkey_sign := pkey_sign l;
  pkey_verify := pkey_verify l; md_known := md_known l; md_new := md_new l; md_init := md_init l; md_update := md_update l;
  md_final := md_final l; dsign_init := dsign_init l; dsign := dsign l; dverify_init := dverify_init l; dverify := dverify l |}.

(** Configurations with one algorithm beside ES256. *)
Definition only_ps384 : cfg :=
  {| dis_short_circuit := false; dis_content_type := false; dis_es384 := true; dis_es512 := true; dis_eddsa := true;
     dis_ps256 := true; dis_ps384 := false; dis_ps512 := true |}.

(** ** OpenSSL *)

Example C32_negative_case :
  map (fun f => everr (ossl_verify cfg_full (faulty f) (-7) okey NULL_UBUF digest32 good_sig)) [FNone; FVerify 0; FVerify (-1); FVerify (-2); FVerify 2] =
  map Some [T_SUCCESS; ERR_SIG_VERIFY; ERR_SIG_FAIL; ERR_SIG_FAIL; ERR_SIG_FAIL] /\
  map (fun f => everr (ossl_verify_eddsa (faulty f) okey NULL_UBUF digest32 (demo_sig digest32))) [FNone; FDverify 0; FDverify (-1); FDverify 2] =
  map Some [T_SUCCESS; ERR_SIG_VERIFY; ERR_SIG_FAIL; ERR_SIG_FAIL].
Proof. vm_compute. repeat split. Qed.

Example C33_sign_eddsa_case :
  map (fun f => live [] (fst (ossl_sign_eddsa (faulty f) okey digest32 64))) [FNone; FNew; FDsignInit; FDsign] = repeat (Some []) 4.
Proof. vm_compute. repeat split. Qed.
Example C33_verify_eddsa_case :
  map (fun f => live [] (fst (ossl_verify_eddsa (faulty f) okey NULL_UBUF digest32 (demo_sig digest32)))) [FNone; FNew; FDverifyInit; FDverify 0] =
  repeat (Some []) 4.
Proof. vm_compute. repeat split. Qed.
Example C33_sign_case :
  map (fun f => live [] (fst (ossl_sign cfg_full (faulty f) (-7) okey digest32 64))) [FNone; FCtxNew; FCtxInit; FSign; FD2i] = repeat (Some []) 5 /\
  map (fun f => live [] (fst (ossl_sign cfg_full (faulty f) (-37) okey digest32 64))) [FNone; FCtxSet 0; FCtxSet 3] = repeat (Some []) 3 /\
  live [] (fst (ossl_sign cfg_full (faulty FNone) (-7) okey digest32 10)) = Some [].
Proof. vm_compute. repeat split. Qed.
Example C33_verify_case :
  map (fun f => live [] (fst (ossl_verify cfg_full (faulty f) (-7) okey NULL_UBUF digest32 good_sig)))
    [FNone; FBn true; FBn false; FSigNew; FI2d; FCtxInit; FVerify 0] = repeat (Some []) 7.
Proof. vm_compute. repeat split. Qed.
Example C33_hash_case :
  let after f := let (l, r) := ossl_hash_start cfg_full (faulty f) (-16) in
    match r with
    | Ret (T_SUCCESS, h) => live [] (l ++ fst (ossl_hash_finish (faulty f) (ossl_hash_update (faulty f) (ossl_hash_update (faulty f) h (UBuf [x01])) (UBuf [x02])) 32))
    | _ => live [] l end in
  map after [FNone; FKnown; FNew; FInit; FUpdate 0; FUpdate 1; FFinal] = repeat (Some []) 7.
Proof. vm_compute. repeat split. Qed.

Example C30_short_numbers_case :
  let f r s := match snd (ecdsa_signature_der_to_cose demo_ossl 5 (der_signature r s) 64) with Ret x => x | UB _ => None end in
  f 5 7 = Some (cose_signature 32 5 7) /\ f (2 ^ 255) 1 = Some (cose_signature 32 (2 ^ 255) 1) /\ f 0 300 = Some (cose_signature 32 0 300).
Proof. vm_compute. repeat split. Qed.
Example C30_p521_case :
  let lib := with_bits 521 demo_ossl in let r := 2 ^ 520 + 3 in let s := 2 ^ 519 + 1 in
  match snd (ecdsa_signature_der_to_cose lib 5 (der_signature r s) 132) with Ret x => x | UB _ => None end = Some (cose_signature 66 r s) /\
  snd (ecdsa_signature_cose_to_der lib 5 (cose_signature 66 r s) 148) = Ret (T_SUCCESS, der_signature r s).
Proof. vm_compute. repeat split. Qed.
Example C30_length_case :
  map (fun b => everr (ossl_verify cfg_full demo_ossl (-7) okey NULL_UBUF digest32 b)) [good_sig; good_sig ++ [x00]; firstn 63 good_sig; []] =
  map Some [T_SUCCESS; ERR_SIG_VERIFY; ERR_SIG_VERIFY; ERR_SIG_VERIFY].
Proof. vm_compute. repeat split. Qed.
Example C30_order_case :
  snd (ecdsa_signature_cose_to_der demo_ossl 5 (cose_signature 32 5 7) 100) = Ret (T_SUCCESS, der_signature 5 7).
Proof. vm_compute. reflexivity. Qed.

Example C32_foreign_key_case :
  map (fun k => everr (ossl_verify cfg_full demo_ossl (-7) k NULL_UBUF digest32 good_sig))
    [okey; {| k_lib := 2; k_handle := 5 |}; {| k_lib := 0; k_handle := 5 |}; {| k_lib := 1; k_handle := 0 |}] =
  map Some [T_SUCCESS; ERR_INCORRECT_KEY_FOR_LIB; ERR_INCORRECT_KEY_FOR_LIB; ERR_EMPTY_KEY].
Proof. vm_compute. repeat split. Qed.
(** PSS signatures with the settings of RFC 8230 are accepted, others not. *)
Example C32_pss_settings_case :
  map (fun a => everr (ossl_verify cfg_full (faulty FNone) a okey NULL_UBUF digest32 (pss_sig (pss_settings a) digest32))) [-37; -38; -39]%Z =
    repeat (Some T_SUCCESS) 3 /\
  everr (ossl_verify cfg_full (faulty FNone) (-38) okey NULL_UBUF digest32 (pss_sig (pss_settings (-37)) digest32)) = Some ERR_SIG_VERIFY /\
  everr (ossl_verify cfg_full (faulty FNone) (-37) okey NULL_UBUF digest32 (pss_sig (firstn 3 (pss_settings (-37))) digest32)) = Some ERR_SIG_VERIFY.
Proof. vm_compute. repeat split. Qed.

Example C34_hashes_case :
  let f c h := match snd (ossl_hash_start c demo_ossl h) with Ret r => Some (fst r) | UB _ => None end in
  map (f only_ps384) [-16; -43; -44; -45]%Z = map Some [T_SUCCESS; T_SUCCESS; ERR_UNSUPPORTED_HASH; ERR_UNSUPPORTED_HASH].
Proof. vm_compute. repeat split. Qed.
Example C34_supported_case :
  map (ossl_is_supported cfg_full) [-7; -35; -36; -37; -38; -39; -8; -16; -43; -44; 0; -9]%Z =
    [true; true; true; true; true; true; true; true; true; true; false; false] /\
  map (psa_is_supported cfg_full) [-7; -35; -36; -37; -38; -39; -8; -16; -43; -44; 0]%Z =
    [true; true; true; true; true; true; false; true; true; true; false] /\
  map (ossl_is_supported only_ps384) [-7; -35; -36; -37; -38; -39; -8]%Z = [true; false; false; false; true; false; false].
Proof. vm_compute. repeat split. Qed.
Example C34_eddsa_not_rsa_case :
  everr (ossl_verify cfg_full demo_ossl (-8) okey NULL_UBUF digest32 good_sig) = Some ERR_UNSUPPORTED_SIGNING_ALG /\
  serr (ossl_sign cfg_full demo_ossl (-8) okey digest32 64) = Some ERR_UNSUPPORTED_SIGNING_ALG /\
  map (t_cose_algorithm_is_rsassa_pss cfg_full) [-37; -38; -39; -8; -7]%Z = [true; true; true; false; false] /\
  map (t_cose_algorithm_is_ecdsa cfg_full) [-7; -35; -36; -8; -37]%Z = [true; true; true; false; false].
Proof. vm_compute. repeat split. Qed.

(** The size asked for is that of the message made. *)
Example C10_openssl_size_case :
  let size cr alg := match size_of cr (toy_signer alg 0) cfg_full with Some (T_SUCCESS, Some u) => Some (u_len u) | _ => None end in
  let len cr alg := match snd (sign_aad_internal cfg_full cr (toy_signer alg 0) false (UBuf toy_payload) (UBuf toy_aad) (out_buf 300)) with
    | Ret (T_SUCCESS, _, Some u) => Some (u_len u) | _ => None end in
  map (size (openssl cfg_full (faulty FNone))) [-7; -37; -8]%Z = map (len (openssl cfg_full (faulty FNone))) [-7; -37; -8]%Z /\
  map (size (psa_crypto cfg_full (faulty_psa PFNone))) [-7; -37]%Z =
    map (len (psa_crypto cfg_full (faulty_psa PFNone))) [-7; -37]%Z /\
  size (openssl cfg_full (faulty FNone)) (-7)%Z = Some 84.
Proof. vm_compute. repeat split. Qed.
Example C10_sizes_case :
  map (fun b => snd (ossl_sig_size cfg_full (with_bits b demo_ossl) (-36) okey)) [256; 384; 521] = [64; 96; 132] /\
  map (PSA_SIGN_OUTPUT_SIZE PKEcc) [256; 384; 521] = [64; 96; 132] /\ map (PSA_SIGN_OUTPUT_SIZE PKRsa) [2048; 2049] = [256; 257].
Proof. vm_compute. repeat split. Qed.

(** ** Failing calls *)

Example C58_openssl_calls_case :
  map (fun f => sign_code2 (openssl cfg_full (faulty f)) (-7)) [FNone; FKnown; FNew; FInit; FUpdate 0; FUpdate 12; FFinal; FCtxNew; FCtxInit; FSign; FD2i] =
  map Some [T_SUCCESS; ERR_UNSUPPORTED_HASH; ERR_INSUFFICIENT_MEMORY; ERR_HASH_GENERAL_FAIL; ERR_HASH_GENERAL_FAIL; ERR_HASH_GENERAL_FAIL;
            ERR_HASH_GENERAL_FAIL; ERR_INSUFFICIENT_MEMORY; ERR_SIG_FAIL; ERR_SIG_FAIL; ERR_SIG_FAIL] /\
  map (fun f => sign_code2 (openssl cfg_full (faulty f)) (-37)) [FNone; FCtxSet 0; FCtxSet 1; FCtxSet 2; FCtxSet 3] =
  Some T_SUCCESS :: repeat (Some ERR_SIG_FAIL) 4 /\
  map (fun f => sign_code2 (openssl cfg_full (faulty f)) (-8)) [FNone; FNew; FDsignInit; FDsign] =
  map Some [T_SUCCESS; ERR_INSUFFICIENT_MEMORY; ERR_SIG_FAIL; ERR_SIG_FAIL].
Proof. vm_compute. repeat split. Qed.
Example C58_openssl_verify_calls_case :
  map (fun f => everr (ossl_verify cfg_full (faulty f) (-7) okey NULL_UBUF digest32 good_sig))
    [FNone; FBn true; FBn false; FSigNew; FSet0; FI2d; FCtxNew; FCtxInit] =
  map Some [T_SUCCESS; ERR_INSUFFICIENT_MEMORY; ERR_INSUFFICIENT_MEMORY; ERR_INSUFFICIENT_MEMORY; ERR_SIG_FAIL; ERR_SIG_FAIL; ERR_INSUFFICIENT_MEMORY; ERR_SIG_FAIL] /\
  map (fun f => everr (ossl_verify_eddsa (faulty f) okey NULL_UBUF digest32 (demo_sig digest32))) [FNone; FNew; FDverifyInit] =
  map Some [T_SUCCESS; ERR_INSUFFICIENT_MEMORY; ERR_SIG_FAIL].
Proof. vm_compute. repeat split. Qed.
Example C58_psa_calls_case :
  map (fun f => sign_code2 (psa_crypto cfg_full (faulty_psa f)) (-7))
    [PFNone; PFSetup (-141); PFSetup (-134); PFUpdate 0 (-141); PFUpdate 12 (-141); PFFinish (-141); PFFinish (-138); PFSign (-141); PFSign (-132)] =
  map Some [T_SUCCESS; ERR_HASH_GENERAL_FAIL; ERR_UNSUPPORTED_HASH; ERR_HASH_GENERAL_FAIL; ERR_HASH_GENERAL_FAIL; ERR_HASH_GENERAL_FAIL;
            ERR_HASH_BUFFER_SIZE; ERR_INSUFFICIENT_MEMORY; ERR_SIG_FAIL].
Proof. vm_compute. repeat split. Qed.

(** ** PSA *)

Example C32_psa_answers_case :
  map (fun f => psa_verify cfg_full (faulty_psa f) (-7) okey NULL_UBUF digest32 (psa_sig (PEcdsa (-16)) digest32))
    [PFNone; PFVerify (-149); PFVerify (-134); PFVerify (-141); PFVerify (-151); PFVerify 1] =
  [T_SUCCESS; ERR_SIG_VERIFY; ERR_UNSUPPORTED_SIGNING_ALG; ERR_INSUFFICIENT_MEMORY; ERR_TAMPERING_DETECTED; ERR_SIG_FAIL].
Proof. vm_compute. repeat split. Qed.
Example C32_psa_algorithms_case :
  map (fun p => psa_verify cfg_full (faulty_psa PFNone) (fst p) okey NULL_UBUF digest32 (psa_sig (snd p) digest32))
    [(-7, PEcdsa (-16)); (-35, PEcdsa (-43)); (-36, PEcdsa (-44)); (-37, PRsaPss (-16)); (-38, PRsaPss (-43)); (-39, PRsaPss (-44))]%Z =
  repeat T_SUCCESS 6.
Proof. vm_compute. repeat split. Qed.
Example C34_psa_unsupported_case :
  psa_verify_eddsa okey NULL_UBUF digest32 good_sig = Ret ERR_UNSUPPORTED_SIGNING_ALG /\
  psa_sign_eddsa okey digest32 64 = Ret (ERR_UNSUPPORTED_SIGNING_ALG, []) /\
  map (fun a => psa_verify cfg_full (faulty_psa (PFVerify 0)) a okey NULL_UBUF digest32 good_sig) [-8; -9; 0; -16]%Z = repeat ERR_UNSUPPORTED_SIGNING_ALG 4 /\
  psa_verify only_ps384 (faulty_psa (PFVerify 0)) (-35) okey NULL_UBUF digest32 good_sig = ERR_UNSUPPORTED_SIGNING_ALG.
Proof. vm_compute. repeat split. Qed.

(** ** The bundled SHA-256 and the test adapter *)

Definition hashed (chunks : list bytes) : option bytes :=
  match fold_left (fun x d => match x with Ret ctx => sha256_update true ctx d | UB w => UB w end) chunks (Ret (sha256_init (zeros 64))) with
  | Ret ctx => match sha256_final true ctx (zeros 32) with Ret d => Some d | UB _ => None end
  | UB _ => None
  end.
Example C28_lengths_case :
  map (fun n => hashed [repeat x61 n]) [0; 3; 55; 56; 57; 63; 64; 65; 119; 120]%nat =
  map (fun n => Some (sha256 (repeat x61 n))) [0; 3; 55; 56; 57; 63; 64; 65; 119; 120]%nat.
Proof. vm_compute. reflexivity. Qed.
(** The state before the last byte of a message of 2^32 bits. *)
Example C28_length_counter_case :
  let ctx := {| h_data := repeat x61 64; h_datalen := 63; h_bitlen := 2 ^ 32 - 512; h_state := h_state (sha256_init []) |} in
  match sha256_update true ctx [x61] with Ret ctx => Some (h_bitlen ctx, h_datalen ctx) | UB _ => None end = Some (2 ^ 32, 0).
Proof. vm_compute. reflexivity. Qed.
Example C28_other_hash_case : map (fun h => fst (test_hash_start (zeros 64) h)) [-16; -43; -44; 0]%Z =
  [T_SUCCESS; ERR_UNSUPPORTED_HASH; ERR_UNSUPPORTED_HASH; ERR_UNSUPPORTED_HASH].
Proof. vm_compute. repeat split. Qed.
Example C28_digest_length_case :
  match test_hash_finish true (sha256_init (zeros 64)) 32 with Ret (e, d) => Some (e, d) | UB _ => None end = Some (T_SUCCESS, sha256 []).
Proof. vm_compute. reflexivity. Qed.
Example C34_test_verify_case :
  test_verify (-7) okey NULL_UBUF digest32 good_sig = Ret ERR_UNSUPPORTED_SIGNING_ALG /\
  test_verify_eddsa okey NULL_UBUF digest32 good_sig = Ret ERR_UNSUPPORTED_SIGNING_ALG /\
  test_sign (-7) okey digest32 64 = Ret (ERR_UNSUPPORTED_SIGNING_ALG, []).
Proof. vm_compute. repeat split. Qed.
