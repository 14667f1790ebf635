(** C58: success reported with the OpenSSL or the PSA adapter rests on the
    success of every library call. *)
From Verif Require Import Base Const QEnc QDec Crypto Util ShortCircuit Params Sign Verify Spec SignSpec Toy Demo.
From Verif Require Import Algs OpenSSL Psa AdapterSpec LibrarySpec LibraryFacts VerifyTop VerifySpec.
Open Scope N_scope. Open Scope list_scope.

(** ** Signing *)

(** A message is returned only with a signature OpenSSL made, of the digest OpenSSL
    computed from the whole Sig_structure, with the settings that go with the
    algorithm. No call failed on the way ([ossl_hashed], [ossl_signed]). *)
Theorem C58_openssl_signing : forall c lib q me det payload aad pl ad n log me' r, sign_library lib ->
  configured q me -> holds payload pl -> holds aad ad ->
  sign_aad_internal c (openssl c lib) me det payload aad {| wb_null := false; wb_len := n |} = (log, Ret (T_SUCCESS, me', r)) ->
  exists sig, r = Some (UBuf (requested_message c q (if det then None else Some pl) sig)) /\
    ossl_made c lib q (requested_tbs q ad pl) sig.
Proof. exact ossl_sign_made. Qed.
Print Assumptions C58_openssl_signing.

Theorem C58_psa_signing : forall c lib q me det payload aad pl ad n log me' r, psa_within_room lib ->
  configured q me -> holds payload pl -> holds aad ad ->
  sign_aad_internal c (psa_crypto c lib) me det payload aad {| wb_null := false; wb_len := n |} = (log, Ret (T_SUCCESS, me', r)) ->
  exists sig, r = Some (UBuf (requested_message c q (if det then None else Some pl) sig)) /\
    psa_made c lib q (requested_tbs q ad pl) sig.
Proof. exact psa_sign_made. Qed.
Print Assumptions C58_psa_signing.

(** ** Verification *)

Theorem C58_openssl_verification : forall c lib junk me msg aad payload want dc log w ad gv,
  length (v_tags me) = 4%nat -> holds aad ad -> detached_arg dc payload gv ->
  verify_internal c (openssl c lib) junk me msg aad payload want dc = (log, Ret w) -> w_err w = T_SUCCESS ->
  decode_only (v_flags me) = false ->
  exists g pm p pl, message msg g pm /\ acceptable c (v_flags me) dc gv g pm p pl /\ delivered me payload want dc p pl w /\
  let tbs := sig_structure (g_prot g) ad pl in
  if short_circuit_kid c p then
    allows_short_circuit (v_flags me) = true /\
    exists halg d rest, hash_for (p_alg p) = Some halg /\ ossl_hashed lib halg tbs d /\ g_sig g = d ++ rest
  else if uses_eddsa c p then ossl_verified_eddsa lib (v_key me) tbs (g_sig g)
  else exists halg d, hash_for (p_alg p) = Some halg /\ ossl_hashed lib halg tbs d /\
    ossl_verified c lib (p_alg p) (v_key me) d (g_sig g).
Proof. exact ossl_verify_asked. Qed.
Print Assumptions C58_openssl_verification.

Theorem C58_psa_verification : forall c lib junk me msg aad payload want dc log w ad gv,
  length (v_tags me) = 4%nat -> holds aad ad -> detached_arg dc payload gv ->
  verify_internal c (psa_crypto c lib) junk me msg aad payload want dc = (log, Ret w) -> w_err w = T_SUCCESS ->
  decode_only (v_flags me) = false ->
  exists g pm p pl halg d, message msg g pm /\ acceptable c (v_flags me) dc gv g pm p pl /\ delivered me payload want dc p pl w /\
  hash_for (p_alg p) = Some halg /\ psa_hashed lib halg (sig_structure (g_prot g) ad pl) d /\
  if short_circuit_kid c p then allows_short_circuit (v_flags me) = true /\ exists rest, g_sig g = d ++ rest
  else psa_accepts c lib (p_alg p) (v_key me) d (g_sig g).
Proof. exact psa_verify_asked. Qed.
Print Assumptions C58_psa_verification.

(** A library that works, and each of its calls failing in turn. *)
Definition sign_with (cr : crypto) (alg : Z) : option (terr * option ubufc) :=
  match sign_aad_internal cfg_full cr (toy_signer alg 0) false (UBuf toy_payload) (UBuf toy_aad) (out_buf 300) with
  | (_, Ret (e, _, r)) => Some (e, r) | _ => None end.
Definition verify_with (cr : crypto) (m : option (terr * option ubufc)) : option terr :=
  match m with
  | Some (T_SUCCESS, Some (UBuf m)) =>
      match verify_internal cfg_full cr NULL_UBUF (toy_verifier 0) m (UBuf toy_aad) (Some NULL_UBUF) true false with
      | (_, Ret w) => Some (w_err w) | _ => None end
  | _ => None
  end.
Definition sign_code (cr : crypto) (alg : Z) : option terr := option_map fst (sign_with cr alg).

Example C58_case :
  let lib f := openssl cfg_full (faulty f) in let m alg := sign_with (lib FNone) alg in
  map (fun alg => verify_with (lib FNone) (m alg)) [-7; -37; -38; -39; -8]%Z = repeat (Some T_SUCCESS) 5 /\
  map (fun f => sign_code (lib f) (-7)) [FKnown; FNew; FInit; FUpdate 0; FUpdate 12; FFinal; FCtxNew; FCtxInit; FSign; FD2i] =
    map Some [ERR_UNSUPPORTED_HASH; ERR_INSUFFICIENT_MEMORY; ERR_HASH_GENERAL_FAIL; ERR_HASH_GENERAL_FAIL; ERR_HASH_GENERAL_FAIL;
              ERR_HASH_GENERAL_FAIL; ERR_INSUFFICIENT_MEMORY; ERR_SIG_FAIL; ERR_SIG_FAIL; ERR_SIG_FAIL] /\
  map (fun f => sign_code (lib f) (-37)) [FCtxSet 0; FCtxSet 1; FCtxSet 2; FCtxSet 3] = repeat (Some ERR_SIG_FAIL) 4 /\
  map (fun f => sign_code (lib f) (-8)) [FNew; FDsignInit; FDsign] = map Some [ERR_INSUFFICIENT_MEMORY; ERR_SIG_FAIL; ERR_SIG_FAIL] /\
  map (fun f => verify_with (lib f) (m (-7)%Z))
    [FKnown; FUpdate 0; FUpdate 12; FFinal; FBn true; FBn false; FSigNew; FSet0; FI2d; FCtxNew; FCtxInit; FVerify 0; FVerify (-1); FVerify 2] =
    map Some [ERR_UNSUPPORTED_HASH; ERR_HASH_GENERAL_FAIL; ERR_HASH_GENERAL_FAIL; ERR_HASH_GENERAL_FAIL; ERR_INSUFFICIENT_MEMORY;
              ERR_INSUFFICIENT_MEMORY; ERR_INSUFFICIENT_MEMORY; ERR_SIG_FAIL; ERR_SIG_FAIL; ERR_INSUFFICIENT_MEMORY; ERR_SIG_FAIL;
              ERR_SIG_VERIFY; ERR_SIG_FAIL; ERR_SIG_FAIL] /\
  map (fun f => verify_with (lib f) (m (-8)%Z)) [FNew; FDverifyInit; FDverify 0; FDverify (-1)] =
    map Some [ERR_INSUFFICIENT_MEMORY; ERR_SIG_FAIL; ERR_SIG_VERIFY; ERR_SIG_FAIL].
Proof. vm_compute. repeat split. Qed.

Example C58_psa_case :
  let lib f := psa_crypto cfg_full (faulty_psa f) in let m alg := sign_with (lib PFNone) alg in
  map (fun alg => verify_with (lib PFNone) (m alg)) [-7; -35; -36; -37; -38; -39]%Z = repeat (Some T_SUCCESS) 6 /\
  map (fun f => sign_code (lib f) (-7)) [PFSetup (-141); PFUpdate 0 (-141); PFUpdate 12 (-141); PFFinish (-141); PFSign (-141); PFSign (-132)] =
    map Some [ERR_HASH_GENERAL_FAIL; ERR_HASH_GENERAL_FAIL; ERR_HASH_GENERAL_FAIL; ERR_HASH_GENERAL_FAIL; ERR_INSUFFICIENT_MEMORY; ERR_SIG_FAIL] /\
  map (fun f => verify_with (lib f) (m (-7)%Z)) [PFSetup (-134); PFUpdate 0 (-141); PFUpdate 12 (-141); PFFinish (-138); PFVerify (-149); PFVerify (-151); PFVerify 1] =
    map Some [ERR_UNSUPPORTED_HASH; ERR_HASH_GENERAL_FAIL; ERR_HASH_GENERAL_FAIL; ERR_HASH_BUFFER_SIZE; ERR_SIG_VERIFY; ERR_TAMPERING_DETECTED; ERR_SIG_FAIL].
Proof. vm_compute. repeat split. Qed.
