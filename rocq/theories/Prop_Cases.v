(** Further concrete cases of the properties, checked by computation. They are
    examples, not proofs. They serve as witnesses for edited programs (see
    DESIGN.md, section 6) that the cases beside the theorems do not notice. *)
From Verif Require Import Base Const QEnc QDec Crypto Util ShortCircuit Params Verify Sign Spec SignSpec Toy.
Open Scope N_scope. Open Scope list_scope.

Definition code_of (flags : N) (m : bytes) : option terr :=
  match snd (toy_verify flags m) with Ret w => Some (w_err w) | UB _ => None end.
Definition params_of (flags : N) (m : bytes) : option params :=
  match snd (toy_verify flags m) with Ret w => w_params w | UB _ => None end.
Definition alg_es256 : list (cbor * cbor) := [(CUInt 1, CNInt 6)].
Definition scode (x : M (terr * sctx * option ubufc)) : option terr := match snd x with Ret (e, _, _) => Some e | UB _ => None end.
Definition smsg (x : M (terr * sctx * option ubufc)) : option ubufc := match snd x with Ret (_, _, r) => r | UB _ => None end.
Definition run_sign (c : cfg) (cr : crypto) (me : sctx) (n : N) := sign_aad_internal c cr me false (UBuf toy_payload) (UBuf toy_aad) (out_buf n).

(** A message with any signature and kid, for the short-circuit cases. *)
Definition with_sig (prot : bytes) (kid sig : bytes) : bytes :=
  encode (CArray [CBytes prot; CMap [(CUInt 4, CBytes kid)]; CBytes toy_payload; CBytes sig]).
Definition sc_digest (prot : bytes) : bytes := toy_digest (sig_structure prot toy_aad toy_payload).

(** An adapter whose digests have the length of the algorithm's hash. *)
Definition wide (halg : Z) : nat := if (halg =? -43)%Z then 48%nat else if (halg =? -44)%Z then 64%nat else 32%nat.
Definition wide_digest (halg : Z) (b : bytes) : bytes := firstn (wide halg) (rev b ++ zeros 64).
Definition toy_wide : crypto := {|
  cr_hctx := Z * bytes;
  cr_hash_start := fun a => (T_SUCCESS, (a, []));
  cr_hash_update := fun h u => Ret (fst h, snd h ++ u_data u);
  cr_hash_finish := fun h n => Ret (T_SUCCESS, wide_digest (fst h) (snd h));
  cr_sig_size := cr_sig_size toy; cr_sign := cr_sign toy; cr_verify := cr_verify toy;
  cr_sign_eddsa := cr_sign_eddsa toy; cr_verify_eddsa := cr_verify_eddsa toy; cr_is_supported := cr_is_supported toy |}.

Example C13_short_circuit_truncated_case :
  let m n := with_sig es256_prot reserved_kid (firstn n (sc_digest es256_prot)) in
  code_of 1 (m 32%nat) = Some T_SUCCESS /\ code_of 1 (m 31%nat) = Some ERR_SIG_VERIFY /\ code_of 1 (m 0%nat) = Some ERR_SIG_VERIFY.
Proof. vm_compute. auto. Qed.

Example C40_short_circuit_es384_case :
  let p := protected_header (-35) in
  let d := wide_digest (-43) (sig_structure p toy_aad toy_payload) in
  let v sig := match snd (verify_internal cfg_full toy_wide NULL_UBUF (toy_verifier 1) (with_sig p reserved_kid sig) (UBuf toy_aad) None false false) with
               | Ret w => Some (w_err w) | UB _ => None end in
  v d = Some T_SUCCESS /\ v (zeros 48) = Some ERR_SIG_VERIFY /\ v (removelast d ++ [xff]) = Some ERR_SIG_VERIFY.
Proof. vm_compute. auto. Qed.

Definition sc_signer (alg : Z) : sctx := set_signing_key (sign_init 1 alg) toy_key NULL_UBUF.
Definition sc_request (alg : Z) : request :=
  {| q_alg := alg; q_flags := 1; q_key := toy_key; q_kid := []; q_ct_uint := None; q_ct_text := None; q_aux := toy_aux |}.
Example C09_sizes_case :
  let r alg n := smsg (run_sign cfg_full toy_wide (sc_signer alg) n) in
  let e alg halg n := Some (UBuf (requested_message cfg_full (sc_request alg) (Some toy_payload)
      (repeat_to (wide_digest halg (requested_tbs (sc_request alg) toy_aad toy_payload)) n))) in
  r (-7)%Z 300 = e (-7)%Z (-16)%Z 64 /\ r (-35)%Z 300 = e (-35)%Z (-43)%Z 96 /\ r (-36)%Z 300 = e (-36)%Z (-44)%Z 132.
Proof. vm_compute. auto. Qed.

(** Buffers of exactly the required size and one byte less. *)
Example C11_exact_case :
  let m := requested_message cfg_full (sc_request (-7)) (Some toy_payload) (zeros 64) in
  let m2 := requested_message cfg_full (toy_request (-7) 0) (Some toy_payload) (zeros 64) in
  scode (run_sign cfg_full toy (sc_signer (-7)) (blen m)) = Some T_SUCCESS /\
  scode (run_sign cfg_full toy (sc_signer (-7)) (blen m - 1)) <> Some T_SUCCESS /\
  scode (run_sign cfg_full toy (toy_signer (-7) 0) (blen m2)) = Some T_SUCCESS /\
  scode (run_sign cfg_full toy (toy_signer (-7) 0) (blen m2 - 1)) <> Some T_SUCCESS.
Proof. vm_compute. repeat split; discriminate. Qed.

Example C10_case_all_paths :
  let size me := match snd (sign_aad_internal cfg_full toy me false (UBuf toy_payload) (UBuf toy_aad) {| wb_null := true; wb_len := 2 ^ 64 - 1 |}) with
                 | Ret (T_SUCCESS, _, Some u) => Some (u_len u) | _ => None end in
  let len q := Some (blen (requested_message cfg_full q (Some toy_payload) (zeros 64))) in
  size (toy_signer (-7) 0) = len (toy_request (-7) 0) /\ size (toy_signer (-8) 0) = len (toy_request (-8) 0) /\
  size (sc_signer (-7)) = len (sc_request (-7)).
Proof. vm_compute. auto. Qed.

(** Header parameters. *)
Example C13_empty_crit_case :
  code_of 0 (toy_built [] (prot_of (alg_es256 ++ [(CUInt 2, CArray [])])) [] []) = Some ERR_CRIT_PARAMETER.
Proof. vm_compute. reflexivity. Qed.
Example C18_text_case :
  let m crit := toy_built [] (prot_of (alg_es256 ++ [(CUInt 2, CArray [crit]); (CText [x41], CUInt 0)])) [] [] in
  code_of 0 (m (CText [x41])) = Some ERR_UNKNOWN_CRITICAL_PARAMETER /\ code_of 32 (m (CText [x41])) = Some T_SUCCESS /\
  code_of 0 (m (CText [x42])) = Some T_SUCCESS.
Proof. vm_compute. auto. Qed.
Example C13_label_kind_case :
  code_of 0 (toy_built [] (prot_of alg_es256) [(CBytes [x41], CUInt 0)] []) = Some ERR_PARAMETER_CBOR.
Proof. vm_compute. reflexivity. Qed.
Example C13_crit_alone_case :
  code_of 0 (toy_built [] (prot_of (alg_es256 ++ [(CUInt 2, CArray [CUInt 2])])) [] []) = Some T_SUCCESS.
Proof. vm_compute. reflexivity. Qed.
Example C13_every_parameter_case :
  params_of 0 (toy_built [] (prot_of alg_es256) [(CUInt 3, CText [x61]); (CUInt 4, CBytes [x41]); (CUInt 5, CBytes [x42; x43])] []) =
    Some {| p_alg := -7; p_kid := UBuf [x41]; p_iv := UBuf [x42; x43]; p_partial_iv := NULL_UBUF; p_ct_tstr := UBuf [x61]; p_ct_uint := 65536 |} /\
  params_of 0 (toy_built [] (prot_of alg_es256) [(CUInt 3, CUInt 9); (CUInt 6, CBytes [x44])] []) =
    Some {| p_alg := -7; p_kid := NULL_UBUF; p_iv := NULL_UBUF; p_partial_iv := UBuf [x44]; p_ct_tstr := NULL_UBUF; p_ct_uint := 9 |}.
Proof. vm_compute. auto. Qed.

(** Signing. *)
Example C04_empty_kid_case :
  let me := set_signing_key (sign_init 0 (-7)) toy_key (UBuf []) in
  let q := {| q_alg := -7; q_flags := 0; q_key := toy_key; q_kid := []; q_ct_uint := None; q_ct_text := None; q_aux := toy_aux |} in
  smsg (run_sign cfg_full toy me 200) =
    Some (UBuf (requested_message cfg_full q (Some toy_payload) (toy_sig (toy_digest (requested_tbs q toy_aad toy_payload))))).
Proof. vm_compute. reflexivity. Qed.
Example C04_two_content_types_case :
  scode (run_sign cfg_full toy (set_content_type_tstr (toy_signer (-7) 0) [x61]) 200) = Some ERR_DUPLICATE_PARAMETER.
Proof. vm_compute. reflexivity. Qed.
Example C04_own_kid_case :
  let q := toy_request (-7) 1 in
  smsg (run_sign cfg_full toy (toy_signer (-7) 1) 200) =
    Some (UBuf (requested_message cfg_full q (Some toy_payload) (repeat_to (toy_digest (requested_tbs q toy_aad toy_payload)) 64))).
Proof. vm_compute. reflexivity. Qed.
Definition cfg_no_short : cfg :=
  {| dis_es384 := true; dis_es512 := false; dis_ps256 := false; dis_ps384 := false; dis_ps512 := false;
     dis_eddsa := false; dis_short_circuit := true; dis_content_type := false |}.
Example C04_short_circuit_disabled_case :
  scode (run_sign cfg_no_short toy (sc_signer (-7)) 200) = Some ERR_SHORT_CIRCUIT_SIG_DISABLED.
Proof. vm_compute. reflexivity. Qed.
Example C45_disabled_case :
  run_sign cfg_no_short toy (toy_signer (-35) 0) 200 = ([], Ret (ERR_UNSUPPORTED_SIGNING_ALG, toy_signer (-35) 0, None)).
Proof. vm_compute. reflexivity. Qed.
Example C08_small_auxiliary_case :
  let me n := sign_set_auxiliary_buffer (toy_signer (-8) 0) {| wb_null := false; wb_len := n |} in
  let n := blen (requested_tbs (toy_request (-8) 0) toy_aad toy_payload) in
  scode (run_sign cfg_full toy (me n) 200) = Some T_SUCCESS /\
  scode (run_sign cfg_full toy (me (n - 1)) 200) = Some ERR_AUXILIARY_BUFFER_SIZE.
Proof. vm_compute. auto. Qed.
(** Every output buffer too small for the message: an error, the adapter is not
    asked when the headers and payload alone do not fit, no result. *)
Example C16_C46_small_buffer_case :
  run_sign cfg_full toy (toy_signer (-7) 0) 12 = ([], snd (run_sign cfg_full toy (toy_signer (-7) 0) 12)) /\
  scode (run_sign cfg_full toy (toy_signer (-7) 0) 12) = Some ERR_TOO_SMALL /\
  scode (run_sign cfg_full toy (toy_signer (-7) 0) 60) = Some ERR_SIG_BUFFER_SIZE /\
  smsg (run_sign cfg_full toy (toy_signer (-7) 0) 12) = None /\ smsg (run_sign cfg_full toy (toy_signer (-7) 0) 60) = None.
Proof. vm_compute. auto. Qed.
Example C43_context_kept_case :
  match snd (run_sign cfg_full toy (sc_signer (-7)) 200) with Ret (_, me, _) => c_kid me = NULL_UBUF | UB _ => False end.
Proof. vm_compute. reflexivity. Qed.

(** EdDSA: what is signed and verified is the Sig_structure. *)
Example C01_eddsa_case :
  let t := requested_tbs (toy_request (-8) 0) toy_aad toy_payload in
  fst (run_sign cfg_full toy (toy_signer (-8) 0) 200) = [EvSignEddsa toy_key t] /\
  match smsg (run_sign cfg_full toy (toy_signer (-8) 0) 200) with
  | Some (UBuf m) => fst (toy_verify 0 m) = [EvVerifyEddsa toy_key (UBuf [x41; x42]) t (toy_sig t)] /\ code_of 0 m = Some T_SUCCESS
  | _ => False
  end.
Proof. vm_compute. auto. Qed.

(** A hash that does not start is not used. *)
Definition no_start : crypto := {|
  cr_hctx := bytes; cr_hash_start := fun _ => (ERR_UNSUPPORTED_HASH, []); cr_hash_update := cr_hash_update toy;
  cr_hash_finish := cr_hash_finish toy; cr_sig_size := cr_sig_size toy; cr_sign := cr_sign toy; cr_verify := cr_verify toy;
  cr_sign_eddsa := cr_sign_eddsa toy; cr_verify_eddsa := cr_verify_eddsa toy; cr_is_supported := cr_is_supported toy |}.
Example C33_no_start_case :
  fst (run_sign cfg_full no_start (toy_signer (-7) 0) 200) = [EvHashStart (-16)] /\
  scode (run_sign cfg_full no_start (toy_signer (-7) 0) 200) = Some ERR_UNSUPPORTED_HASH.
Proof. vm_compute. auto. Qed.

(** Decode only: no adapter call, for each kind of message. *)
Example C15_every_kind_case :
  let v m := (fst (toy_verify 8 m), code_of 8 m) in
  v (with_sig es256_prot reserved_kid []) = ([], Some T_SUCCESS) /\ v (with_sig es256_prot [x41] []) = ([], Some T_SUCCESS) /\
  v (with_sig (protected_header (-8)) [x41] []) = ([], Some T_SUCCESS).
Proof. vm_compute. auto. Qed.

(** Settings reach the message unchanged. *)
Example C49_large_content_type_case :
  let me := set_content_type_uint (set_signing_key (sign_init 0 (-7)) toy_key (UBuf [x41])) 65535 in
  let q := {| q_alg := -7; q_flags := 0; q_key := toy_key; q_kid := [x41]; q_ct_uint := Some 65535; q_ct_text := None; q_aux := toy_aux |} in
  smsg (run_sign cfg_full toy me 200) =
    Some (UBuf (requested_message cfg_full q (Some toy_payload) (toy_sig (toy_digest (requested_tbs q toy_aad toy_payload))))).
Proof. vm_compute. reflexivity. Qed.

(** Verification. *)
Definition toy_good (prot : bytes) : bytes := toy_sig (toy_digest (sig_structure prot toy_aad toy_payload)).
Definition wcode (x : M vres) : option terr := match snd x with Ret w => Some (w_err w) | UB _ => None end.
Definition outputs (x : M vres) : option (option ubufc * option params) :=
  match snd x with Ret w => Some (w_payload w, w_params w) | UB _ => None end.
Definition run_verify (c : cfg) (cr : crypto) (m : bytes) (payload : option ubufc) (want dc : bool) : M vres :=
  verify_internal c cr NULL_UBUF (toy_verifier 0) m (UBuf toy_aad) payload want dc.

Example C13_detached_not_null_case :
  let m pl := encode (CArray [CBytes es256_prot; CMap []; pl; CBytes (toy_good es256_prot)]) in
  let v pl := wcode (run_verify cfg_full toy (m pl) (Some (UBuf toy_payload)) false true) in
  v CNull = Some T_SUCCESS /\ v (CBytes toy_payload) = Some ERR_CBOR_FORMATTING /\ v (CUInt 0) = Some ERR_CBOR_FORMATTING.
Proof. vm_compute. auto. Qed.
Example C13_longer_signature_case :
  code_of 0 (with_sig es256_prot [x41] (toy_good es256_prot)) = Some T_SUCCESS /\
  code_of 0 (with_sig es256_prot [x41] (toy_good es256_prot ++ [x00])) = Some ERR_SIG_VERIFY.
Proof. vm_compute. auto. Qed.

(** An adapter that verifies ES384 only. *)
Definition only_es384 : crypto := {|
  cr_hctx := cr_hctx toy_wide; cr_hash_start := cr_hash_start toy_wide; cr_hash_update := cr_hash_update toy_wide;
  cr_hash_finish := cr_hash_finish toy_wide; cr_sig_size := cr_sig_size toy; cr_sign := cr_sign toy;
  cr_verify := fun alg _ _ d s => Ret (if (alg =? -35)%Z && bytes_eqb s (toy_sig d) then T_SUCCESS else ERR_SIG_VERIFY);
  cr_sign_eddsa := cr_sign_eddsa toy; cr_verify_eddsa := cr_verify_eddsa toy; cr_is_supported := cr_is_supported toy |}.
Example C13_algorithm_case :
  let m alg halg := with_sig (protected_header alg) [x41] (toy_sig (wide_digest halg (sig_structure (protected_header alg) toy_aad toy_payload))) in
  wcode (run_verify cfg_full only_es384 (m (-35)%Z (-43)%Z) None false false) = Some T_SUCCESS /\
  wcode (run_verify cfg_full only_es384 (m (-7)%Z (-16)%Z) None false false) = Some ERR_SIG_VERIFY.
Proof. vm_compute. auto. Qed.
Example C13_no_short_circuit_build_case :
  let v sig := wcode (run_verify cfg_no_short toy (with_sig es256_prot reserved_kid sig) None false false) in
  v (toy_good es256_prot) = Some T_SUCCESS /\ v (zeros 64) = Some ERR_SIG_VERIFY.
Proof. vm_compute. auto. Qed.
Example C13_outputs_case :
  let m := with_sig es256_prot [x41] (toy_good es256_prot) in
  outputs (run_verify cfg_full toy m None false false) = Some (None, None) /\
  outputs (run_verify cfg_full toy m (Some NULL_UBUF) false false) = Some (Some (UBuf toy_payload), None).
Proof. vm_compute. auto. Qed.
Example C16_bad_signature_case :
  let m := with_sig es256_prot [x41] (zeros 64) in
  wcode (run_verify cfg_full toy m (Some NULL_UBUF) true false) = Some ERR_SIG_VERIFY /\
  outputs (run_verify cfg_full toy m (Some NULL_UBUF) true false) = Some (None, None).
Proof. vm_compute. auto. Qed.
Example C13_eddsa_case :
  let p := protected_header (-8) in
  code_of 0 (with_sig p [x41] (toy_sig (sig_structure p toy_aad toy_payload))) = Some T_SUCCESS /\
  code_of 0 (with_sig p [x41] (zeros 64)) = Some ERR_SIG_VERIFY.
Proof. vm_compute. auto. Qed.
Example C13_one_byte_header_case :
  code_of 8 (with_sig [xa0] [x41] []) = Some T_SUCCESS /\ code_of 8 (with_sig [x00] [x41] []) <> Some T_SUCCESS /\ code_of 8 (with_sig [x82] [x41] []) <> Some T_SUCCESS.
Proof. vm_compute. repeat split; discriminate. Qed.
Example C50_key_and_buffer_case :
  let me := verify_set_auxiliary_buffer (set_verification_key (verify_init 0) toy_key) toy_aux in
  v_key me = toy_key /\ v_aux me = toy_aux.
Proof. vm_compute. auto. Qed.
Example C23_order_case :
  let t m n := match snd (toy_verify 0 m) with Ret w => get_nth_tag (w_ctx w) n | UB u => UB u end in
  let m := toy_built [18; 61; 7] es256_prot [] [] in let m2 := toy_built [61; 7] es256_prot [] [] in
  t m 0 = Ret 61 /\ t m 1 = Ret 7 /\ t m 2 = Ret (2 ^ 64 - 1) /\ t m2 0 = Ret 61 /\ t m2 1 = Ret 7 /\ t m2 2 = Ret (2 ^ 64 - 1).
Proof. vm_compute. repeat split. Qed.
Example C27_size_case :
  let p := protected_header (-8) in
  let m := with_sig p [x41] (toy_sig (sig_structure p toy_aad toy_payload)) in
  match snd (toy_verify 0 m) with Ret w => verify_auxiliary_buffer_size cfg_full (w_ctx w) = blen (sig_structure p toy_aad toy_payload) | UB _ => False end.
Proof. vm_compute. reflexivity. Qed.
