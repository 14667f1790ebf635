(** C65: error codes that come from the OpenSSL and PSA adapters are true. *)
From Verif Require Import Base Const QEnc Crypto OpenSSL Psa Sign Verify Spec SignSpec AdapterSpec LibrarySpec PassSpec SignErrorSpec FaultSpec.
From Verif Require Import FaultFacts Toy DemoLib Demo.
Open Scope N_scope. Open Scope list_scope.

(** ** OpenSSL *)

Theorem C65_openssl_sign : forall c lib alg k hash room e sig,
  cr_sign (openssl c lib) alg k hash room = Ret (e, sig) -> e <> T_SUCCESS -> ossl_sign_fault c lib alg k hash room e.
Proof. exact ossl_sign_faults. Qed.
Print Assumptions C65_openssl_sign.

Theorem C65_openssl_verify : forall c lib alg k kid hash sig e,
  cr_verify (openssl c lib) alg k kid hash sig = Ret e -> e <> T_SUCCESS -> ossl_verify_fault c lib alg k hash sig e.
Proof. exact ossl_verify_faults. Qed.
Print Assumptions C65_openssl_verify.

(** With a library that works, a signature it does not accept gives the error
    for that and no other. *)
Theorem C65_openssl_wrong_signature : forall c lib alg k kid hash sig,
  setup_works lib -> enough_memory lib -> der_library lib -> on_curve lib alg (k_handle k) ->
  (forall x s h, pkey_verify lib x s h = 0%Z \/ pkey_verify lib x s h = 1%Z) ->
  ossl_key k -> ecdsa_enabled c alg \/ pss_enabled c alg -> ~ ossl_accepts c lib alg k hash sig ->
  cr_verify (openssl c lib) alg k kid hash sig = Ret ERR_SIG_VERIFY.
Proof. exact ossl_wrong_signature. Qed.
Print Assumptions C65_openssl_wrong_signature.

Theorem C65_openssl_size : forall c lib alg k e n,
  cr_sig_size (openssl c lib) alg k = (e, n) -> e <> T_SUCCESS -> ossl_size_fault c alg k e.
Proof. exact ossl_size_faults. Qed.
Print Assumptions C65_openssl_size.

Theorem C65_openssl_eddsa : forall c lib k kid tbs,
  (forall room e sig, cr_sign_eddsa (openssl c lib) k tbs room = Ret (e, sig) -> e <> T_SUCCESS -> ossl_sign_eddsa_fault lib k tbs room e) /\
  (forall sig e, cr_verify_eddsa (openssl c lib) k kid tbs sig = Ret e -> e <> T_SUCCESS -> ossl_verify_eddsa_fault lib k tbs sig e).
Proof. split; intros; [eapply ossl_sign_eddsa_faults|eapply ossl_verify_eddsa_faults]; eassumption. Qed.
Print Assumptions C65_openssl_eddsa.

Theorem C65_openssl_hash : forall c lib halg,
  (forall e h, cr_hash_start (openssl c lib) halg = (e, h) -> e <> T_SUCCESS -> ossl_start_fault c lib halg e) /\
  (forall pieces room h h' e d,
     cr_hash_start (openssl c lib) halg = (T_SUCCESS, h) -> update_all (openssl c lib) h pieces = Ret h' ->
     cr_hash_finish (openssl c lib) h' room = Ret (e, d) -> e <> T_SUCCESS -> ossl_digest_fault lib halg pieces e).
Proof. split; intros; [eapply ossl_start_faults|eapply ossl_digest_faults]; eassumption. Qed.
Print Assumptions C65_openssl_hash.

(** ** PSA *)

Theorem C65_psa_sign : forall c lib alg k hash room e sig,
  cr_sign (psa_crypto c lib) alg k hash room = Ret (e, sig) -> e <> T_SUCCESS -> psa_sign_fault c lib alg k hash room e.
Proof. exact psa_sign_faults. Qed.
Print Assumptions C65_psa_sign.

Theorem C65_psa_verify : forall c lib alg k kid hash sig e,
  cr_verify (psa_crypto c lib) alg k kid hash sig = Ret e -> e <> T_SUCCESS -> psa_verify_fault c lib alg k hash sig e.
Proof. exact psa_verify_faults. Qed.
Print Assumptions C65_psa_verify.

Theorem C65_psa_size : forall c lib alg k e n,
  cr_sig_size (psa_crypto c lib) alg k = (e, n) -> e <> T_SUCCESS -> psa_size_fault c lib alg k e.
Proof. exact psa_size_faults. Qed.
Print Assumptions C65_psa_size.

Theorem C65_psa_hash : forall c lib halg,
  (forall e h, cr_hash_start (psa_crypto c lib) halg = (e, h) -> e <> T_SUCCESS -> psa_start_fault c lib halg e) /\
  (forall pieces room h h' e d,
     cr_hash_start (psa_crypto c lib) halg = (T_SUCCESS, h) -> update_all (psa_crypto c lib) h pieces = Ret h' ->
     cr_hash_finish (psa_crypto c lib) h' room = Ret (e, d) -> e <> T_SUCCESS -> psa_digest_fault c lib halg pieces room e).
Proof. split; intros; [eapply psa_start_faults|eapply psa_digest_faults]; eassumption. Qed.
Print Assumptions C65_psa_hash.

(** ** Signing and verification as a whole *)

Theorem C65_openssl_signing : forall c lib q me (det : bool) payload aad pl ad buf log err me' r,
  configured q me -> holds payload pl -> holds aad ad -> (det = true -> u_is_null payload = false) ->
  let op := if det then None else Some pl in
  blen (requested_message c q op []) <= MAX_OFFSET ->
  sign_aad_internal c (openssl c lib) me det payload aad buf = (log, Ret (err, me', r)) -> err <> T_SUCCESS ->
  signing_fault c (openssl c lib) q op (requested_tbs q ad pl) buf log err \/
  exists before ev, log = before ++ [ev] /\ ossl_call_fault c lib ev err.
Proof. exact ossl_signing_calls. Qed.
Print Assumptions C65_openssl_signing.

Theorem C65_psa_signing : forall c lib q me (det : bool) payload aad pl ad buf log err me' r,
  configured q me -> holds payload pl -> holds aad ad -> (det = true -> u_is_null payload = false) ->
  let op := if det then None else Some pl in
  blen (requested_message c q op []) <= MAX_OFFSET ->
  sign_aad_internal c (psa_crypto c lib) me det payload aad buf = (log, Ret (err, me', r)) -> err <> T_SUCCESS ->
  signing_fault c (psa_crypto c lib) q op (requested_tbs q ad pl) buf log err \/
  exists before ev, log = before ++ [ev] /\ psa_call_fault c lib ev err.
Proof. exact psa_signing_calls. Qed.
Print Assumptions C65_psa_signing.

Theorem C65_openssl_verification : forall c lib junk me msg aad payload want dc log w before ev later,
  verify_internal c (openssl c lib) junk me msg aad payload want dc = (log, Ret w) -> log = before ++ ev :: later ->
  answers (openssl c lib) ev T_SUCCESS \/ (later = [] /\ ossl_call_fault c lib ev (w_err w)).
Proof. exact ossl_verifying_calls. Qed.
Print Assumptions C65_openssl_verification.

Theorem C65_psa_verification : forall c lib junk me msg aad payload want dc log w before ev later,
  verify_internal c (psa_crypto c lib) junk me msg aad payload want dc = (log, Ret w) -> log = before ++ ev :: later ->
  answers (psa_crypto c lib) ev T_SUCCESS \/ (later = [] /\ psa_call_fault c lib ev (w_err w)).
Proof. exact psa_verifying_calls. Qed.
Print Assumptions C65_psa_verification.

(** Each code arises, each call of the library failing in turn. *)
Definition d32 : bytes := zeros 31 ++ [x05].
Definition ossl_verify_code (f : fault) (alg : Z) (k : tkey) (sig : bytes) : out terr :=
  cr_verify (openssl cfg_full (faulty f)) alg k NULL_UBUF d32 sig.
Definition ossl_sign_code (f : fault) (alg : Z) (k : tkey) (room : N) : out terr :=
  match cr_sign (openssl cfg_full (faulty f)) alg k d32 room with Ret (e, _) => Ret e | UB w => UB w end.
Definition no_key : tkey := {| k_lib := 1; k_handle := 0 |}.
Definition psa_key_for : tkey := {| k_lib := 2; k_handle := 7 |}.

Example C65_openssl_case :
  let good := demo_sig d32 in
  let v f := ossl_verify_code f (-7) toy_key good in let s f alg := ossl_sign_code f alg toy_key 64 in
  v FNone = Ret T_SUCCESS /\ s FNone (-7)%Z = Ret T_SUCCESS /\ s FNone (-37)%Z = Ret T_SUCCESS /\
  ossl_verify_code FNone (-8) toy_key good = Ret ERR_UNSUPPORTED_SIGNING_ALG /\
  ossl_verify_code FNone (-7) no_key good = Ret ERR_EMPTY_KEY /\
  ossl_verify_code FNone (-7) psa_key_for good = Ret ERR_INCORRECT_KEY_FOR_LIB /\
  ossl_verify_code FNone (-7) toy_key (x00 :: good) = Ret ERR_SIG_VERIFY /\
  ossl_verify_code FNone (-7) toy_key (firstn 63 good ++ [x01]) = Ret ERR_SIG_VERIFY /\
  map v [FBn true; FBn false; FSigNew; FCtxNew] = repeat (Ret ERR_INSUFFICIENT_MEMORY) 4 /\
  map v [FSet0; FI2d; FCtxInit; FVerify (-1); FVerify 2] = repeat (Ret ERR_SIG_FAIL) 5 /\
  v (FVerify 0) = Ret ERR_SIG_VERIFY /\
  map (fun n => ossl_verify_code (FCtxSet n) (-37) toy_key good) [0; 1; 2; 3]%nat = repeat (Ret ERR_SIG_FAIL) 4 /\
  ossl_sign_code FNone (-8) toy_key 64 = Ret ERR_UNSUPPORTED_SIGNING_ALG /\
  ossl_sign_code FNone (-7) no_key 64 = Ret ERR_EMPTY_KEY /\
  ossl_sign_code FNone (-7) psa_key_for 64 = Ret ERR_INCORRECT_KEY_FOR_LIB /\
  s FCtxNew (-7)%Z = Ret ERR_INSUFFICIENT_MEMORY /\
  map (fun f => s f (-7)%Z) [FCtxInit; FSign; FD2i] = repeat (Ret ERR_SIG_FAIL) 3 /\
  map (fun n => s (FCtxSet n) (-37)%Z) [0; 1; 2; 3]%nat = repeat (Ret ERR_SIG_FAIL) 4 /\
  ossl_sign_code FNone (-37) toy_key 63 = Ret ERR_SIG_FAIL /\ ossl_sign_code FNone (-7) toy_key 0 = Ret ERR_SIG_FAIL.
Proof. vm_compute. repeat split. Qed.

Definition ossl_digest_code (f : fault) (halg : Z) (pieces : list ubufc) : terr :=
  let cr := openssl cfg_full (faulty f) in
  match cr_hash_start cr halg with
  | (T_SUCCESS, h) => match update_all cr h pieces with
      | Ret h => match cr_hash_finish cr h 64 with Ret (e, _) => e | UB _ => ERR_FAIL end
      | UB _ => ERR_FAIL end
  | (e, _) => e
  end.
Definition psa_digest_code (f : pfault) (halg : Z) (pieces : list ubufc) : terr :=
  let cr := psa_crypto cfg_full (faulty_psa f) in
  match cr_hash_start cr halg with
  | (T_SUCCESS, h) => match update_all cr h pieces with
      | Ret h => match cr_hash_finish cr h 64 with Ret (e, _) => e | UB _ => ERR_FAIL end
      | UB _ => ERR_FAIL end
  | (e, _) => e
  end.

Example C65_hash_case :
  let l := [UBuf [x01; x02]; UNull 3; UBuf [x03]] in
  ossl_digest_code FNone (-16) l = T_SUCCESS /\ ossl_digest_code FNone (-5) l = ERR_UNSUPPORTED_HASH /\
  map (fun f => ossl_digest_code f (-16) l) [FKnown; FNew; FInit; FUpdate 0; FUpdate 2; FFinal] =
    [ERR_UNSUPPORTED_HASH; ERR_INSUFFICIENT_MEMORY; ERR_HASH_GENERAL_FAIL; ERR_HASH_GENERAL_FAIL; ERR_HASH_GENERAL_FAIL; ERR_HASH_GENERAL_FAIL] /\
  psa_digest_code PFNone (-16) l = T_SUCCESS /\ psa_digest_code PFNone (-5) l = ERR_UNSUPPORTED_HASH /\
  map (fun f => psa_digest_code f (-16) l)
    [PFSetup (-134); PFSetup (-135); PFSetup (-141); PFUpdate 0 (-138); PFUpdate 2 (-132); PFFinish (-138); PFFinish (-149)] =
    [ERR_UNSUPPORTED_HASH; ERR_UNSUPPORTED_HASH; ERR_HASH_GENERAL_FAIL; ERR_HASH_BUFFER_SIZE; ERR_HASH_GENERAL_FAIL; ERR_HASH_BUFFER_SIZE; ERR_HASH_GENERAL_FAIL].
Proof. vm_compute. repeat split. Qed.

Example C65_eddsa_case :
  let s f k := match cr_sign_eddsa (openssl cfg_full (faulty f)) k d32 64 with Ret (e, _) => Ret e | UB w => UB w end in
  let v f k sig := cr_verify_eddsa (openssl cfg_full (faulty f)) k NULL_UBUF d32 sig in
  let good := demo_sig d32 in
  s FNone toy_key = Ret T_SUCCESS /\ v FNone toy_key good = Ret T_SUCCESS /\
  s FNone no_key = Ret ERR_EMPTY_KEY /\ v FNone psa_key_for good = Ret ERR_INCORRECT_KEY_FOR_LIB /\
  map (fun f => s f toy_key) [FNew; FDsignInit; FDsign] = map Ret [ERR_INSUFFICIENT_MEMORY; ERR_SIG_FAIL; ERR_SIG_FAIL] /\
  map (fun f => v f toy_key good) [FNew; FDverifyInit; FDverify 0; FDverify (-1); FDverify 2] =
    map Ret [ERR_INSUFFICIENT_MEMORY; ERR_SIG_FAIL; ERR_SIG_VERIFY; ERR_SIG_FAIL; ERR_SIG_FAIL] /\
  v FNone toy_key (x01 :: good) = Ret ERR_SIG_VERIFY.
Proof. vm_compute. repeat split. Qed.

Example C65_size_case :
  map (fun p => fst (cr_sig_size (openssl cfg_full demo_ossl) (fst p) (snd p)))
    [((-7)%Z, toy_key); ((-8)%Z, toy_key); ((-7)%Z, no_key); ((-7)%Z, psa_key_for); ((-99)%Z, toy_key)] =
    [T_SUCCESS; T_SUCCESS; ERR_EMPTY_KEY; ERR_INCORRECT_KEY_FOR_LIB; ERR_UNSUPPORTED_SIGNING_ALG] /\
  map (fun f => fst (cr_sig_size (psa_crypto cfg_full (faulty_psa f)) (-7) toy_key)) [PFNone; PFKey (-141); PFKey (-136)] =
    [T_SUCCESS; ERR_INSUFFICIENT_MEMORY; ERR_SIG_FAIL] /\
  fst (cr_sig_size (psa_crypto cfg_full demo_psa) (-8) toy_key) = ERR_UNSUPPORTED_SIGNING_ALG.
Proof. vm_compute. repeat split. Qed.

Example C65_psa_case :
  let v f alg := cr_verify (psa_crypto cfg_full (faulty_psa f)) alg toy_key NULL_UBUF d32 (psa_sig (PEcdsa (-16)) d32) in
  let s f alg room := match cr_sign (psa_crypto cfg_full (faulty_psa f)) alg toy_key d32 room with Ret (e, _) => Ret e | UB w => UB w end in
  v PFNone (-7)%Z = Ret T_SUCCESS /\ v PFNone (-8)%Z = Ret ERR_UNSUPPORTED_SIGNING_ALG /\ v PFNone (-37)%Z = Ret ERR_SIG_VERIFY /\
  map (fun st => v (PFVerify st) (-7)%Z) [-149; -134; -141; -151; -135; 1]%Z =
    map Ret [ERR_SIG_VERIFY; ERR_UNSUPPORTED_SIGNING_ALG; ERR_INSUFFICIENT_MEMORY; ERR_TAMPERING_DETECTED; ERR_SIG_FAIL; ERR_SIG_FAIL] /\
  s PFNone (-7)%Z 64 = Ret T_SUCCESS /\ s PFNone (-8)%Z 64 = Ret ERR_UNSUPPORTED_SIGNING_ALG /\ s PFNone (-7)%Z 63 = Ret ERR_SIG_FAIL /\
  map (fun st => s (PFSign st) (-7)%Z 64) [-134; -141; -151; -132]%Z =
    map Ret [ERR_UNSUPPORTED_SIGNING_ALG; ERR_INSUFFICIENT_MEMORY; ERR_TAMPERING_DETECTED; ERR_SIG_FAIL].
Proof. vm_compute. repeat split. Qed.

(** The library of [C65_openssl_wrong_signature]: the demonstration library. *)
Example C65_wrong_signature_case :
  (forall x s h, pkey_verify demo_ossl x s h = 0%Z \/ pkey_verify demo_ossl x s h = 1%Z) /\
  setup_works demo_ossl /\ enough_memory demo_ossl /\ der_library demo_ossl /\ on_curve demo_ossl (-7) 7 /\
  cr_verify (openssl cfg_full demo_ossl) (-7) toy_key NULL_UBUF d32 (zeros 64) = Ret ERR_SIG_VERIFY /\
  cr_verify (openssl cfg_full demo_ossl) (-7) toy_key NULL_UBUF d32 [] = Ret ERR_SIG_VERIFY.
Proof.
  split; [intros x s h; cbn [pkey_verify demo_ossl]; cbv zeta; destruct (bytes_eqb _ _); auto|].
  split; [repeat split|]. split; [repeat split|]. split; [apply demo_works|]. split; [apply demo_curve|]. split; vm_compute; reflexivity.
Qed.
