(** C74: keys that cannot be used. *)
From Verif Require Import Base Const QEnc QDec Crypto OpenSSL Psa Sign Verify Spec SignSpec DecSpec VerifySpec AdapterSpec FaultSpec PassSpec KeyErrorSpec.
From Verif Require Import KeyErrorFacts Toy DemoLib Demo.
Open Scope N_scope. Open Scope list_scope.

(** What a key that cannot be used gives: an error, but not the one documented. *)
Theorem C74_psa_partial : forall c lib alg k a, psa_alg_of c alg a ->
  (forall hash room status sig, psa_sign_hash lib (k_handle k) a hash room = (status, sig) -> blen sig <= room ->
     psa_no_key status \/ psa_wrong_key status \/ psa_small_buffer status ->
     cr_sign (psa_crypto c lib) alg k hash room = Ret (ERR_SIG_FAIL, [])) /\
  (forall kid hash sig, psa_no_key (psa_verify_hash lib (k_handle k) a hash sig) \/ psa_wrong_key (psa_verify_hash lib (k_handle k) a hash sig) ->
     cr_verify (psa_crypto c lib) alg k kid hash sig = Ret ERR_SIG_FAIL) /\
  (psa_no_key (fst (fst (psa_key lib (k_handle k)))) -> cr_sig_size (psa_crypto c lib) alg k = (ERR_SIG_FAIL, 0)).
Proof. exact psa_key_errors. Qed.
Print Assumptions C74_psa_partial.

Theorem C74_openssl_sign_partial : forall c lib alg k l hash room,
  settings c alg l -> ossl_key k -> ctx_new lib (k_handle k) = true -> ossl_wrong_key lib false (k_handle k) l ->
  cr_sign (openssl c lib) alg k hash room = Ret (ERR_SIG_FAIL, []).
Proof. exact ossl_wrong_key_sign. Qed.
Print Assumptions C74_openssl_sign_partial.

(** ECDSA signatures are converted before OpenSSL sees the key. *)
Theorem C74_openssl_verify_partial : forall c lib alg k kid l hash sig,
  settings c alg l -> ossl_key k -> ossl_wrong_key lib true (k_handle k) l ->
  exists e, cr_verify (openssl c lib) alg k kid hash sig = Ret e /\ In e [ERR_SIG_FAIL; ERR_SIG_VERIFY; ERR_INSUFFICIENT_MEMORY].
Proof. exact ossl_wrong_key_verify. Qed.
Print Assumptions C74_openssl_verify_partial.

(** The codes an adapter can answer with, whatever the library does. *)
Theorem C74_openssl_codes : forall c lib ev e, answers (openssl c lib) ev e -> e <> T_SUCCESS -> In e
  [ERR_UNSUPPORTED_SIGNING_ALG; ERR_INCORRECT_KEY_FOR_LIB; ERR_EMPTY_KEY; ERR_INSUFFICIENT_MEMORY; ERR_SIG_FAIL; ERR_SIG_VERIFY;
   ERR_UNSUPPORTED_HASH; ERR_HASH_GENERAL_FAIL].
Proof. exact ossl_answer_codes. Qed.
Print Assumptions C74_openssl_codes.

Theorem C74_psa_codes : forall c lib ev e, answers (psa_crypto c lib) ev e -> e <> T_SUCCESS -> In e
  [ERR_UNSUPPORTED_SIGNING_ALG; ERR_INSUFFICIENT_MEMORY; ERR_SIG_FAIL; ERR_SIG_VERIFY; ERR_TAMPERING_DETECTED;
   ERR_UNSUPPORTED_HASH; ERR_HASH_BUFFER_SIZE; ERR_HASH_GENERAL_FAIL].
Proof. exact psa_answer_codes. Qed.
Print Assumptions C74_psa_codes.

(** So signing and verification never answer with the codes for keys; only
    short-circuit signing has the one for small buffers. *)
Theorem C74_signing_refuted : forall c cr q me (det : bool) payload aad pl ad buf log err me' r,
  own_adapter c cr ->
  configured q me -> holds payload pl -> holds aad ad -> (det = true -> u_is_null payload = false) ->
  let op := if det then None else Some pl in
  blen (requested_message c q op []) <= MAX_OFFSET ->
  sign_aad_internal c cr me det payload aad buf = (log, Ret (err, me', r)) ->
  ~ In err key_codes /\ (err = ERR_SIG_BUFFER_SIZE -> wants_short_circuit (q_flags q) = true).
Proof. exact signing_key_codes. Qed.
Print Assumptions C74_signing_refuted.

Theorem C74_verification_refuted : forall c cr junk me msg aad payload want dc log w ad gv,
  own_adapter c cr ->
  length (v_tags me) = 4%nat -> holds aad ad -> detached_arg dc payload gv ->
  verify_internal c cr junk me msg aad payload want dc = (log, Ret w) -> ~ In (w_err w) key_codes.
Proof. exact verification_key_codes. Qed.
Print Assumptions C74_verification_refuted.

(** Signing and verifying, as PSA answers with a status. *)
Definition psa_signing (status : Z) : out terr :=
  match sign_aad_internal cfg_full (psa_crypto cfg_full (faulty_psa (PFSign status))) (toy_signer (-7) 0) false (UBuf toy_payload) (UBuf toy_aad) (out_buf 200) with
  | (_, Ret (e, _, _)) => Ret e | (_, UB u) => UB u end.
Definition psa_verifying (status : Z) : out terr :=
  match sign_aad_internal cfg_full (psa_crypto cfg_full (faulty_psa PFNone)) (toy_signer (-7) 0) false (UBuf toy_payload) (UBuf toy_aad) (out_buf 200) with
  | (_, Ret (_, _, Some (UBuf m))) =>
      match verify_internal cfg_full (psa_crypto cfg_full (faulty_psa (PFVerify status))) NULL_UBUF (toy_verifier 0) m (UBuf toy_aad) None false false with
      | (_, Ret w) => Ret (w_err w) | (_, UB u) => UB u end
  | _ => UB OOBRead
  end.
Example C74_case :
  map psa_signing [0; -140; -136; -133; -135; -138]%Z = map Ret [T_SUCCESS; ERR_SIG_FAIL; ERR_SIG_FAIL; ERR_SIG_FAIL; ERR_SIG_FAIL; ERR_SIG_FAIL] /\
  map psa_verifying [0; -140; -136; -133; -135; -149]%Z = map Ret [T_SUCCESS; ERR_SIG_FAIL; ERR_SIG_FAIL; ERR_SIG_FAIL; ERR_SIG_FAIL; ERR_SIG_VERIFY] /\
  psa_alg_of cfg_full (-7) (PEcdsa (-16)) /\ settings cfg_full (-37) (pss_settings (-37)) /\
  ossl_wrong_key (faulty (FCtxSet 2)) true 7 (pss_settings (-37)).
Proof.
  split; [vm_compute; reflexivity|]. split; [vm_compute; reflexivity|].
  split; [exists (-16)%Z; split; [reflexivity|]; left; split; [now left|reflexivity]|].
  split; [right; split; [left; split; reflexivity|reflexivity]|].
  right. exists [PadPSS; SigMd (-16)], (Mgf1Md (-16)), [SaltlenDigest]. split; reflexivity.
Qed.
