(** Further concrete cases: the adapters called directly, the example programs and the
    test program with something that fails. Like those of Prop_Cases.v they are examples
    that serve as witnesses for edited programs (see DESIGN.md, section 6). *)
From Coq Require Strings.String.
Import Strings.String.StringSyntax.
From Verif Require Import Base Const QEnc Crypto Algs OpenSSL Psa Sign Verify Spec SignSpec Toy AdapterSpec DemoLib.
From Verif Require Import Examples ExampleRun ExampleMain RunTests RunSpec.
Open Scope N_scope. Open Scope list_scope.

Definition cfg_es256 : cfg :=
  {| dis_es384 := true; dis_es512 := true; dis_ps256 := true; dis_ps384 := true; dis_ps512 := true; dis_eddsa := true;
     dis_content_type := false; dis_short_circuit := false |}.

(** ** The adapters *)

(** What the libraries are asked for. *)
Example C64_settings_case :
  let x := {| px_key := 7; px_verify := false; px_params := [] |} in
  map (fun alg => px_params (snd (configure_pkey_context cfg_full demo_ossl x alg))) [ES256; PS256; PS384; PS512]
    = [[]; [PadPSS; SigMd SHA_256; Mgf1Md SHA_256; SaltlenDigest]; [PadPSS; SigMd SHA_384; Mgf1Md SHA_384; SaltlenDigest];
       [PadPSS; SigMd SHA_512; Mgf1Md SHA_512; SaltlenDigest]] /\
  map (cose_alg_id_to_psa_alg_id cfg_full) [ES256; ES384; ES512; PS256; PS384; PS512]
    = [PEcdsa SHA_256; PEcdsa SHA_384; PEcdsa SHA_512; PRsaPss SHA_256; PRsaPss SHA_384; PRsaPss SHA_512].
Proof. vm_compute. repeat split. Qed.

(** Hashes that are not in the build, and an update that is refused with more to follow. *)
Definition hashed_in (cr : crypto) (halg : Z) (pieces : list bytes) : option (terr * bytes) :=
  let (err, h) := cr_hash_start cr halg in
  if negb (terr_eqb err T_SUCCESS) then Some (err, [])
  else
    match fold_left (fun h p => match h with Ret h => cr_hash_update cr h (UBuf p) | UB u => UB u end) pieces (Ret h) with
    | Ret h => match cr_hash_finish cr h 64 with Ret r => Some r | UB _ => None end
    | UB _ => None
    end.
Example C72_refused_case :
  map (fun halg => option_map fst (hashed_in (openssl cfg_es256 demo_ossl) halg [])) [SHA_256; SHA_384; SHA_512]
    = [Some T_SUCCESS; Some ERR_UNSUPPORTED_HASH; Some ERR_UNSUPPORTED_HASH] /\
  map (fun halg => option_map fst (hashed_in (psa_crypto cfg_es256 demo_psa) halg [])) [SHA_256; SHA_384; SHA_512]
    = [Some T_SUCCESS; Some ERR_UNSUPPORTED_HASH; Some ERR_UNSUPPORTED_HASH] /\
  map (fun n => option_map fst (hashed_in (openssl cfg_full (faulty (FUpdate n))) SHA_256 [[x01]; [x02]; [x03]])) [0; 1; 2; 3]%nat
    = [Some ERR_HASH_GENERAL_FAIL; Some ERR_HASH_GENERAL_FAIL; Some ERR_HASH_GENERAL_FAIL; Some T_SUCCESS] /\
  map (fun n => option_map fst (hashed_in (psa_crypto cfg_full (faulty_psa (PFUpdate n (-132)))) SHA_256 [[x01]; [x02]; [x03]])) [0; 1; 2; 3]%nat
    = [Some ERR_HASH_GENERAL_FAIL; Some ERR_HASH_GENERAL_FAIL; Some ERR_HASH_GENERAL_FAIL; Some T_SUCCESS].
Proof. vm_compute. repeat split. Qed.

(** The operation of PSA is released, once, by whichever call ends it. *)
Example C33_psa_log_case :
  let h := {| ph_alg := PHash SHA_256; ph_data := [x01]; ph_status := 0%Z |} in
  fst (psa_start cfg_full demo_psa SHA_256) = [RAlloc RMdCtx] /\ fst (psa_update demo_psa h (UBuf [x02])) = [] /\
  fst (psa_finish demo_psa h 32) = [RFree RMdCtx] /\ fst (psa_finish demo_psa h 31) = [RFree RMdCtx] /\
  fst (psa_update (faulty_psa (PFUpdate 1 (-132))) h (UBuf [x02])) = [RFree RMdCtx].
Proof. vm_compute. repeat split. Qed.

(** Keys that PSA does not know or that OpenSSL refuses a setting for. *)
Example C74_refused_case :
  map (fun s => cr_sig_size (psa_crypto cfg_full (faulty_psa (PFKey s))) ES256 toy_key) [0; -136; -140]%Z
    = [(T_SUCCESS, 64); (ERR_SIG_FAIL, 0); (ERR_SIG_FAIL, 0)] /\
  map (fun n => cr_sign (openssl cfg_full (faulty (FCtxSet n))) PS256 toy_key (zeros 32) 100) [0; 1; 2; 3]%nat
    = repeat (Ret (ERR_SIG_FAIL, [])) 4 /\
  map (fun n => cr_verify (openssl cfg_full (faulty (FCtxSet n))) PS256 toy_key (UNull 0) (zeros 32) (zeros 64)) [0; 1; 2; 3]%nat
    = repeat (Ret ERR_SIG_FAIL) 4.
Proof. vm_compute. repeat split. Qed.

(** ** Sizes *)

(** An adapter with other EdDSA signatures. *)
Definition eddsa_of (n : nat) : crypto := {|
  cr_hctx := cr_hctx toy; cr_hash_start := cr_hash_start toy; cr_hash_update := cr_hash_update toy; cr_hash_finish := cr_hash_finish toy;
  cr_sig_size := fun _ _ => (T_SUCCESS, N.of_nat n); cr_sign := cr_sign toy; cr_verify := cr_verify toy;
  cr_sign_eddsa := fun _ _ room => Ret (if N.of_nat n <=? room then (T_SUCCESS, zeros n) else (ERR_TOO_SMALL, []));
  cr_verify_eddsa := cr_verify_eddsa toy; cr_is_supported := cr_is_supported toy |}.
Definition size_with (n : nat) (out : wbuf) : option N :=
  match snd (sign_aad cfg_full (eddsa_of n) (toy_signer (-8) 0) (UBuf toy_payload) (UBuf toy_aad) out) with
  | Ret (T_SUCCESS, _, Some u) => Some (u_len u)
  | _ => None
  end.
Example C08_C10_eddsa_size_case :
  map (fun n => size_with n {| wb_null := true; wb_len := SIZE_MAX |}) [64; 80; 114]%nat
    = map (fun n => size_with n {| wb_null := false; wb_len := 300 |}) [64; 80; 114]%nat /\
  map (fun n => size_with n {| wb_null := true; wb_len := SIZE_MAX |}) [64; 80; 114]%nat = [Some 84; Some 100; Some 134].
Proof. vm_compute. repeat split. Qed.

(** ** The example programs *)

(** An adapter that verifies with one key only, and one that verifies nothing. *)
Definition verifying (e : tkey -> terr) : crypto := {|
  cr_hctx := cr_hctx toy; cr_hash_start := cr_hash_start toy; cr_hash_update := cr_hash_update toy; cr_hash_finish := cr_hash_finish toy;
  cr_sig_size := cr_sig_size toy; cr_sign := cr_sign toy; cr_verify := fun _ k _ _ _ => Ret (e k); cr_sign_eddsa := cr_sign_eddsa toy;
  cr_verify_eddsa := fun k _ _ _ => Ret (e k); cr_is_supported := cr_is_supported toy |}.
Definition all_examples (cr : crypto) : list (out code) :=
  let made := (T_SUCCESS, toy_key) in
  map (fun x : M shown => match snd x with Ret s => Ret (x_code s) | UB u => UB u end)
    [one_step_sign_example cfg_full cr (UNull 9) made; two_step_sign_example cfg_full cr (UNull 9) made;
     dynamic_buffer_example cfg_full cr (UNull 9) (fun _ _ => true) made].
Example C62_verified_case :
  all_examples (verifying (fun k => if k_handle k =? 7 then T_SUCCESS else ERR_SIG_VERIFY)) = repeat (Ret (TCose T_SUCCESS)) 3 /\
  all_examples (verifying (fun _ => ERR_SIG_VERIFY)) = repeat (Ret (TCose ERR_SIG_VERIFY)) 3.
Proof. vm_compute. repeat split. Qed.

(** Keys that cannot be made. *)
Definition keys_with (curve new : bool) (init gen : Z) (frees : bool) : keygen :=
  {| kg_ctx := fun _ => true; kg_init := fun _ => init; kg_curve := fun _ => if curve then 1%Z else 0%Z; kg_new := new;
     kg_gen := fun _ => (gen, 7); kg_frees := frees |}.
Definition log_and_code (x : X (terr * option tkey)) : list xevent * option terr :=
  (fst x, match snd x with Ret r => Some (fst r) | UB _ => None end).
Example C67_no_key_case :
  map (fun kg => log_and_code (make_ossl_key_pair kg ES256))
    [keys_with true true 0 1 true; keys_with false true 1 1 true; keys_with true false 1 1 true; keys_with true true 1 0 true;
     keys_with true true 1 0 false]
    = [([XTake XKeyCtx; XUse XKeyCtx], Some ERR_FAIL); ([XTake XKeyCtx; XUse XKeyCtx], Some ERR_FAIL);
       ([XTake XKeyCtx; XUse XKeyCtx; XUse XKeyCtx; XTake XKey], Some T_SUCCESS);
       ([XTake XKeyCtx; XUse XKeyCtx; XTake XKey; XUse XKeyCtx; XGive XKey], Some ERR_FAIL);
       ([XTake XKeyCtx; XUse XKeyCtx; XTake XKey; XUse XKeyCtx], Some ERR_FAIL)] /\
  map (fun ks => log_and_code (make_psa_ecdsa_key_pair ks ES256))
    [{| ks_init := (-1)%Z; ks_import := fun _ => (0%Z, 7) |}; {| ks_init := 0%Z; ks_import := fun _ => ((-141)%Z, 7) |};
     {| ks_init := 0%Z; ks_import := fun _ => (0%Z, 7) |}]
    = [([], Some ERR_FAIL); ([], Some ERR_FAIL); ([XTake XKey], Some T_SUCCESS)].
Proof. vm_compute. repeat split. Qed.

(** All examples are run, also when those before them fail. *)
Definition keys_taken (log : list xevent) : nat := length (filter (fun e => match e with XTake XKey => true | _ => false end) log).
Example C81_failing_case :
  let ks := {| ks_init := 0%Z; ks_import := fun _ => (0%Z, 7) |} in
  let prog s := main_psa cfg_full (psa_crypto cfg_full (faulty_psa (PFSign s))) (UNull 9) ks in
  map (fun s => keys_taken (fst (prog s))) [0; -132]%Z = [2; 2]%nat /\ map (fun s => snd (prog s)) [0; -132]%Z = [Ret 0%Z; Ret 0%Z].
Proof. vm_compute. repeat split. Qed.

(** ** The test program *)

(** All tests are called, also when those before them fail. *)
Definition failing_tests : list test_entry :=
  map (fun n => {| t_name := fst n; t_result := snd n; t_enabled := true |}) [(str "a", 5); (str "b", 0); (str "c", -6); (str "d", 0)]%Z.
Example C76_failing_case :
  option_map (fun r => (calls (fst (fst r)), snd (fst r), snd r)) (run_tests false [] failing_tests)
    = Some ([str "a"; str "b"; str "c"; str "d"], 4%Z, 2%Z).
Proof. vm_compute. reflexivity. Qed.
