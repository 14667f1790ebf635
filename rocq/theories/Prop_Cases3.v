(** Further concrete cases: error codes, CBOR corner cases, build switches. Like
    those of Prop_Cases.v they are examples that serve as witnesses for edited
    programs (see DESIGN.md, section 6). *)
From Verif Require Import Base Const QEnc QDec Crypto Util ShortCircuit Params Verify Sign Spec SignSpec Toy PieceSpec.
From Verif Require Import Algs OpenSSL Psa AdapterSpec DemoLib Prop_Cases Prop_Cases2.
Open Scope N_scope. Open Scope list_scope.

(** ** Encoding and decoding *)

Definition long (n : nat) : bytes := repeat x5a n.
Example C01_C04_lengths_case :
  let m n := smsg (sign_aad_internal cfg_full toy (toy_signer (-7) 0) false (UBuf (long n)) (UBuf toy_aad) (out_buf 900)) in
  let e n := Some (UBuf (requested_message cfg_full (toy_request (-7) 0) (Some (long n))
                           (toy_sig (toy_digest (sig_structure es256_prot toy_aad (long n)))))) in
  map m [0; 23; 24; 25; 255; 256]%nat = map e [0; 23; 24; 25; 255; 256]%nat.
Proof. vm_compute. reflexivity. Qed.
Example C13_tagged_elements_case :
  let s := CBytes (toy_good es256_prot) in let p := CBytes es256_prot in let b := CBytes toy_payload in
  let v l := code_of 0 (encode (CArray l)) in
  v [p; CMap []; b; s] = Some T_SUCCESS /\ v [p; CMap []; CTag 24 b; s] = Some ERR_SIGN1_FORMAT /\
  v [p; CMap []; b; CTag 24 s] = Some ERR_SIGN1_FORMAT /\ v [CTag 24 p; CMap []; b; s] <> Some T_SUCCESS.
Proof. vm_compute. repeat split; discriminate. Qed.
(** Every proper prefix of a message is refused, within the signature as not well formed. *)
Example C13_C57_truncated_case :
  let m := toy_built [] es256_prot [(CUInt 4, CBytes [x41])] [] in
  forallb (fun n => match code_of 0 (firstn n m) with Some T_SUCCESS => false | _ => true end) (seq 0%nat (length m)) = true /\
  forallb (fun n => match code_of 0 (firstn n m) with Some ERR_CBOR_NOT_WELL_FORMED => true | _ => false end)
          (seq (Nat.sub (length m) 65) 65) = true /\ code_of 0 m = Some T_SUCCESS.
Proof. vm_compute. auto. Qed.
Example C46_unbalanced_case :
  let r ops := piecewise cfg_full toy (toy_signer (-7) 0) (UBuf toy_aad) ops (out_buf 300) in
  scode (r [OpOpenArray; OpUInt 1; OpCloseArray]) = Some T_SUCCESS /\ scode (r [OpOpenArray; OpUInt 1]) <> Some T_SUCCESS /\
  scode (r [OpOpenMap; OpUInt 1; OpUInt 1; OpCloseArray]) <> Some T_SUCCESS /\
  scode (r [OpOpenBstr; OpUInt 1]) <> Some T_SUCCESS.
Proof. vm_compute. repeat split; discriminate. Qed.
Example C21_range_case :
  let v ct := code_of 0 (toy_built [] es256_prot [(CUInt 3, ct)] []) in
  map v [CUInt 0; CUInt 65535; CUInt 65536; CNInt 0; CNInt 70000; CText [x61]; CNull] =
  map Some [T_SUCCESS; T_SUCCESS; ERR_BAD_CONTENT_TYPE; ERR_BAD_CONTENT_TYPE; ERR_BAD_CONTENT_TYPE; T_SUCCESS; ERR_BAD_CONTENT_TYPE].
Proof. vm_compute. reflexivity. Qed.

(** ** Error codes of verification *)

Example C57_codes_case :
  let p := encode (CMap alg_es256) in
  code_of 0 (toy_built [18; 18; 18; 18; 18] p [] []) = Some ERR_TOO_MANY_TAGS /\
  code_of 2 (toy_built [] p [] []) = Some ERR_NO_KID /\ code_of 2 (toy_built [] p [(CUInt 4, CBytes [x41])] []) = Some T_SUCCESS /\
  code_of 0 (toy_built [] (encode (CMap [(CUInt 1, CUInt 2147483648)])) [] []) = Some ERR_NON_INTEGER_ALG_ID /\
  code_of 0 (toy_built [] (encode (CMap [(CUInt 1, CText [x61])])) [] []) = Some ERR_PARAMETER_CBOR /\
  code_of 0 [x01] = Some ERR_SIGN1_FORMAT /\ code_of 0 [xff] = Some ERR_CBOR_NOT_WELL_FORMED /\
  code_of 0 (toy_built [] p [(CUInt 5, CBytes [x01])] []) = Some T_SUCCESS.
Proof. vm_compute. repeat split. Qed.
Example C22_policies_case :
  let v flags tags := code_of flags (toy_built tags es256_prot [] []) in
  v 16 [18] = Some ERR_INCORRECTLY_TAGGED /\ v 16 [] = Some T_SUCCESS /\ v 16 [61] = Some T_SUCCESS /\
  v 4 [18] = Some T_SUCCESS /\ v 4 [] = Some ERR_INCORRECTLY_TAGGED /\ v 4 [61] = Some ERR_INCORRECTLY_TAGGED.
Proof. vm_compute. repeat split. Qed.
Example C23_C25_five_tags_case :
  map (fun n => code_of 0 (toy_built (repeat 61 n) es256_prot [] [])) [0; 1; 4; 5; 6; 9]%nat =
  map Some [T_SUCCESS; T_SUCCESS; T_SUCCESS; ERR_TOO_MANY_TAGS; ERR_TOO_MANY_TAGS; ERR_TOO_MANY_TAGS].
Proof. vm_compute. reflexivity. Qed.

(** ** Error codes of signing *)

Example C60_codes_case :
  let me alg aux := sign_set_auxiliary_buffer (toy_signer alg 0) aux in
  scode (run_sign cfg_full toy (me (-8)%Z {| wb_null := true; wb_len := 100 |}) 200) = Some ERR_NEED_AUXILIARY_BUFFER /\
  scode (run_sign cfg_full toy (me (-8)%Z (out_buf 10)) 200) = Some ERR_AUXILIARY_BUFFER_SIZE /\
  scode (run_sign cfg_full toy (toy_signer (-7) 0) 5) = Some ERR_TOO_SMALL /\
  scode (run_sign cfg_full toy (toy_signer (-7) 0) 83) = Some ERR_TOO_SMALL /\
  scode (run_sign cfg_full toy (toy_signer (-7) 1) 40) = Some ERR_SIG_BUFFER_SIZE /\
  scode (run_sign cfg_no_short toy (toy_signer (-7) 1) 200) = Some ERR_SHORT_CIRCUIT_SIG_DISABLED.
Proof. vm_compute. repeat split. Qed.

(** An adapter that fails with a code of its own. *)
Definition odd_signer : crypto := {|
  cr_hctx := cr_hctx toy; cr_hash_start := cr_hash_start toy; cr_hash_update := cr_hash_update toy; cr_hash_finish := cr_hash_finish toy;
  cr_sig_size := cr_sig_size toy; cr_sign := fun _ _ _ _ => Ret (ERR_TAMPERING_DETECTED, []); cr_verify := cr_verify toy;
  cr_sign_eddsa := fun _ _ _ => Ret (ERR_TAMPERING_DETECTED, []); cr_verify_eddsa := cr_verify_eddsa toy; cr_is_supported := cr_is_supported toy |}.
Definition odd_hash : crypto := {|
  cr_hctx := cr_hctx toy; cr_hash_start := cr_hash_start toy; cr_hash_update := cr_hash_update toy;
  cr_hash_finish := fun _ _ => Ret (ERR_HASH_BUFFER_SIZE, []);
  cr_sig_size := cr_sig_size toy; cr_sign := cr_sign toy; cr_verify := cr_verify toy;
  cr_sign_eddsa := cr_sign_eddsa toy; cr_verify_eddsa := cr_verify_eddsa toy; cr_is_supported := cr_is_supported toy |}.
Example C51_own_code_case :
  scode (run_sign cfg_full odd_signer (toy_signer (-7) 0) 200) = Some ERR_TAMPERING_DETECTED /\
  scode (run_sign cfg_full odd_signer (toy_signer (-8) 0) 200) = Some ERR_TAMPERING_DETECTED /\
  scode (run_sign cfg_full odd_hash (toy_signer (-7) 0) 200) = Some ERR_HASH_BUFFER_SIZE.
Proof. vm_compute. repeat split. Qed.

(** ** Settings and build switches *)

Example C49_key_last_case :
  let me := set_signing_key (set_content_type_uint (sign_init 2 (-35)) 42) toy_key (UBuf [x41; x42]) in
  c_ct_uint me = 42 /\ c_flags me = 2 /\ c_alg me = (-35)%Z.
Proof. vm_compute. auto. Qed.
Example C50_options_case : v_flags (set_verification_key (verify_init 3) toy_key) = 3.
Proof. reflexivity. Qed.
Definition without (alg : Z) : cfg :=
  {| dis_es384 := (alg =? -35)%Z; dis_es512 := (alg =? -36)%Z; dis_ps256 := (alg =? -37)%Z; dis_ps384 := (alg =? -38)%Z;
     dis_ps512 := (alg =? -39)%Z; dis_eddsa := (alg =? -8)%Z; dis_short_circuit := false; dis_content_type := false |}.
Example C45_C52_one_off_case :
  forallb (fun off => forallb (fun alg =>
      match scode (run_sign (without off) toy_wide (toy_signer alg 0) 300) with
      | Some T_SUCCESS => negb (off =? alg)%Z
      | Some ERR_UNSUPPORTED_SIGNING_ALG => (off =? alg)%Z
      | _ => false end) [-7; -35; -36; -37; -38; -39; -8]%Z) [-35; -36; -37; -38; -39; -8]%Z = true.
Proof. vm_compute. reflexivity. Qed.
(** Digests of every enabled hash fit the hash buffer. *)
Example C35_C52_hash_buffer_case :
  let only alg := {| dis_es384 := negb (alg =? -35)%Z; dis_es512 := negb (alg =? -36)%Z; dis_ps256 := negb (alg =? -37)%Z;
    dis_ps384 := negb (alg =? -38)%Z; dis_ps512 := negb (alg =? -39)%Z; dis_eddsa := true; dis_short_circuit := false; dis_content_type := false |} in
  forallb (fun p => N.of_nat (wide (snd p)) <=? max_hash_size (only (fst p)))
          [(-7, -16); (-35, -43); (-36, -44); (-37, -16); (-38, -43); (-39, -44)]%Z = true.
Proof. vm_compute. reflexivity. Qed.

(** ** Adapters *)

Example C58_pss_verify_case :
  map (fun f => everr (ossl_verify cfg_full (faulty f) (-37) okey NULL_UBUF digest32 (pss_sig (pss_settings (-37)) digest32)))
    [FNone; FCtxSet 0; FCtxSet 1; FCtxSet 2; FCtxSet 3] = Some T_SUCCESS :: repeat (Some ERR_SIG_FAIL) 4.
Proof. vm_compute. reflexivity. Qed.
Example C34_psa_sign_unsupported_case :
  map (fun a => psa_sign cfg_full (faulty_psa PFNone) a okey digest32 64) [-8; -9; 0; -16]%Z =
  repeat (Ret (ERR_UNSUPPORTED_SIGNING_ALG, [])) 4.
Proof. vm_compute. reflexivity. Qed.

(** ** Further cases of decoding *)

(** Indefinite lengths: the outer array, the unprotected map, the protected map. *)
Example C13_indefinite_case :
  let s p := encode (CBytes (toy_good p)) in let b := encode (CBytes toy_payload) in let q := encode (CBytes es256_prot) in
  let p' := [xbf; x01; x26; xff] in
  code_of 0 ([x9f] ++ q ++ [xa0] ++ b ++ s es256_prot ++ [xff]) = Some T_SUCCESS /\
  code_of 0 ([x84] ++ q ++ [xbf; x04; x41; x41; xff] ++ b ++ s es256_prot) = Some T_SUCCESS /\
  code_of 0 ([x84] ++ encode (CBytes p') ++ [xa0] ++ b ++ s p') = Some T_SUCCESS /\
  code_of 0 ([x9f] ++ q ++ [xa0] ++ b ++ s es256_prot ++ [xff; xff]) = Some ERR_CBOR_NOT_WELL_FORMED /\
  code_of 0 ([x9f] ++ q ++ [xa0] ++ b ++ [xff]) = Some ERR_SIGN1_FORMAT.
Proof. vm_compute. repeat split. Qed.
(** Heads longer than needed. *)
Example C12_C13_long_heads_case :
  let s := encode (CBytes (toy_good es256_prot)) in let b := encode (CBytes toy_payload) in let q := encode (CBytes es256_prot) in
  map (fun h => code_of 0 (h ++ q ++ [xa0] ++ b ++ s))
      [[x84]; [x98; x04]; [x99; x00; x04]; [x9a; x00; x00; x00; x04]; [x9b; x00; x00; x00; x00; x00; x00; x00; x04]] =
  repeat (Some T_SUCCESS) 5.
Proof. vm_compute. reflexivity. Qed.
(** Where null is required nothing else will do. *)
Example C06_C13_null_case :
  let v p := wcode (run_verify cfg_full toy ([x84] ++ encode (CBytes es256_prot) ++ [xa0] ++ p ++ encode (CBytes (toy_good es256_prot)))
                      (Some (UBuf toy_payload)) false true) in
  map v [[xf6]; [xf7]; [xf4]; [x00]; [x40]; encode (CBytes toy_payload)] = Some T_SUCCESS :: repeat (Some ERR_CBOR_FORMATTING) 5.
Proof. vm_compute. reflexivity. Qed.
(** A parameter in both buckets, also when the first is empty. *)
Example C20_both_case :
  let v l x y := code_of 0 (toy_built [] (encode (CMap (alg_es256 ++ [(CUInt l, x)]))) [(CUInt l, y)] []) in
  let e := CBytes [] in let f := CBytes [x41] in let t := CText [x61] in
  [v 4 e f; v 4 f e; v 5 e e; v 6 f f; v 3 t t; v 3 (CUInt 1) (CUInt 1)] = repeat (Some ERR_DUPLICATE_PARAMETER) 6.
Proof. vm_compute. reflexivity. Qed.
Example C13_C18_crit_elements_case :
  let v xs := code_of 0 (toy_built [] (encode (CMap (alg_es256 ++ [(CUInt 2, CArray xs)]))) [] []) in
  v [CUInt 1] = Some T_SUCCESS /\ v [CUInt 1; CNull] = Some ERR_CRIT_PARAMETER /\ v [CUInt 1; CBytes [x01]] = Some ERR_CRIT_PARAMETER /\
  v [CText [x61]; CArray []] = Some ERR_CRIT_PARAMETER /\ v [] = Some ERR_CRIT_PARAMETER.
Proof. vm_compute. repeat split. Qed.
(** Integer and text labels in the other bucket are critical too. *)
Example C18_integer_case :
  let v c u := code_of 0 (toy_built [] (encode (CMap (alg_es256 ++ [(CUInt 2, CArray [c])]))) [(u, CNull)] []) in
  v (CUInt 100) (CUInt 100) = Some ERR_UNKNOWN_CRITICAL_PARAMETER /\ v (CUInt 100) (CUInt 101) = Some T_SUCCESS /\
  v (CText [x61]) (CText [x61]) = Some ERR_UNKNOWN_CRITICAL_PARAMETER.
Proof. vm_compute. repeat split. Qed.
Example C25_unknown_case :
  let v k := code_of 0 (toy_built [] es256_prot (map (fun i => (CUInt (N.of_nat (100 + i)), CNull)) (seq 0%nat k)) []) in
  map v [9; 10; 11; 12]%nat = map Some [T_SUCCESS; T_SUCCESS; ERR_TOO_MANY_PARAMETERS; ERR_TOO_MANY_PARAMETERS].
Proof. vm_compute. reflexivity. Qed.
(** A map cut short by the end of its byte string. *)
Example C57_cut_map_case :
  map (fun p => code_of 0 (toy_built [] p [] [])) [[xa2; x01; x26]; [xa2; x01; x26; x04]; [xbf; x01; x26]; [xa1; x01]] =
  map Some [ERR_PARAMETER_CBOR; ERR_CBOR_NOT_WELL_FORMED; ERR_PARAMETER_CBOR; ERR_CBOR_NOT_WELL_FORMED].
Proof. vm_compute. reflexivity. Qed.

(** ** Further cases of signing *)

Example C06_detached_case :
  smsg (sign_detached cfg_full toy (toy_signer (-7) 0) (UBuf toy_aad) (UBuf toy_payload) (out_buf 200)) =
  Some (UBuf (requested_message cfg_full (toy_request (-7) 0) None (toy_sig (toy_digest (sig_structure es256_prot toy_aad toy_payload))))).
Proof. vm_compute. reflexivity. Qed.
Example C08_reported_size_case :
  match run_sign cfg_full toy (toy_signer (-8) 0) 200 with
  | (_, Ret (_, me, _)) => sign_auxiliary_buffer_size cfg_full me | _ => 0 end =
  blen (sig_structure (protected_header (-8)) toy_aad toy_payload).
Proof. vm_compute. reflexivity. Qed.
(** The signature buffer is what is left of the output buffer. *)
Definition nosy : crypto := {|
  cr_hctx := cr_hctx toy; cr_hash_start := cr_hash_start toy; cr_hash_update := cr_hash_update toy; cr_hash_finish := cr_hash_finish toy;
  cr_sig_size := cr_sig_size toy; cr_sign := fun _ _ _ room => Ret (if room =? 183 then T_SUCCESS else ERR_FAIL, [x00]);
  cr_verify := cr_verify toy; cr_sign_eddsa := cr_sign_eddsa toy; cr_verify_eddsa := cr_verify_eddsa toy; cr_is_supported := cr_is_supported toy |}.
Example C11_room_case : scode (run_sign cfg_full nosy (toy_signer (-7) 0) 200) = Some T_SUCCESS.
Proof. vm_compute. reflexivity. Qed.

(** ** The functions of the API *)

Example C13_entry_points_case :
  let m := toy_built [] es256_prot [] [] in
  let d := encode (CArray [CBytes es256_prot; CMap []; CNull; CBytes (toy_good es256_prot)]) in
  let r (x : M vres) := match x with (_, Ret w) => Some (w_err w) | _ => None end in
  r (verify_aad cfg_full toy NULL_UBUF (toy_verifier 0) m (UBuf toy_aad) None false) = Some T_SUCCESS /\
  r (verify_aad cfg_full toy NULL_UBUF (toy_verifier 0) m NULL_UBUF None false) = Some ERR_SIG_VERIFY /\
  r (verify cfg_full toy NULL_UBUF (toy_verifier 0) m None false) = Some ERR_SIG_VERIFY /\
  r (verify_detached cfg_full toy NULL_UBUF (toy_verifier 0) d (UBuf toy_aad) (UBuf toy_payload) false) = Some T_SUCCESS /\
  r (verify_detached cfg_full toy NULL_UBUF (toy_verifier 0) d (UBuf toy_aad) (UBuf [x01]) false) = Some ERR_SIG_VERIFY.
Proof. vm_compute. repeat split. Qed.
(** An adapter whose hashing fails. *)
Example C51_verify_hash_case :
  let r flags m := match verify_internal cfg_full odd_hash NULL_UBUF (toy_verifier flags) m (UBuf toy_aad) None false false with
                   (_, Ret w) => Some (w_err w) | _ => None end in
  r 0 (toy_built [] es256_prot [] []) = Some ERR_HASH_BUFFER_SIZE /\
  r 1 (toy_built [] es256_prot [(CUInt 4, CBytes (u_data get_short_circuit_kid))] []) = Some ERR_HASH_BUFFER_SIZE.
Proof. vm_compute. repeat split. Qed.
