(** Properties of the crypto adapters and of the library together with them.
    Each theorem is followed by a concrete case that meets its hypotheses. *)
From Verif Require Import Base Const QEnc Crypto Util ShortCircuit Sign Params Verify Spec SignSpec Toy Demo.
From Verif Require Import Sha256 Sha256Spec Algs TestCrypto OpenSSL Psa AdapterSpec OpenSSLFacts2 AdapterFacts PsaFacts SupportFacts.
From Verif Require Import SignProofs SignMore VerifyTop RoundTrip HashUse SignSafe AdapterTop VerifySpec.
From Coq Require Import Lia.
Open Scope N_scope. Open Scope list_scope.

(** ** C28, C29: the bundled SHA-256 *)

(** [junk]: what the context holds before; [hash]: the buffer the digest goes to.
    Shifts of an [int] wrap, as compilers define. *)
Theorem C28_sha256 : forall junk hash chunks,
  length junk = 64%nat -> (32 <= length hash)%nat -> Forall (fun d => blen d < 2 ^ 32) chunks ->
  exists ctx, sha_feed (sha256_init junk) chunks = Ret ctx /\
    sha256_final true ctx hash = Ret (sha256 (concat chunks) ++ skipn 32 hash).
Proof. exact sha_chunks. Qed.
Print Assumptions C28_sha256.

(** The test adapter's hash is SHA-256. *)
Theorem C28_test_adapter : forall junk c, length junk = 64%nat -> hash_is (test_crypto true junk c) (fun _ => sha256).
Proof. exact test_hash_is. Qed.
Print Assumptions C28_test_adapter.

(** FIPS 180-4's example, in two pieces. *)
Example C28_case : sha256 (concat [[x61]; [x62; x63]]) =
  [xba; x78; x16; xbf; x8f; x01; xcf; xea; x41; x41; x40; xde; x5d; xae; x22; x23;
   xb0; x03; x61; xa3; x96; x17; x7a; x9c; xb4; x10; xff; x61; xf2; x00; x15; xad] /\
  exists ctx, sha_feed (sha256_init (zeros 64)) [[x61]; [x62; x63]] = Ret ctx /\
    sha256_final true ctx (zeros 32) = Ret (sha256 [x61; x62; x63]).
Proof. split; [vm_compute; reflexivity|]. eexists. split; [vm_compute; reflexivity|]. vm_compute. reflexivity. Qed.

(** By the letter of C, [data[j] << 24] is undefined for bytes of 128 and more. *)
Theorem C28_shift_refuted : exists data, sha256_update false (sha256_init (zeros 64)) data = UB BadShift.
Proof. exists (x80 :: zeros 63). vm_compute. reflexivity. Qed.
Print Assumptions C28_shift_refuted.

Theorem C29_update_returns_partial : forall junk chunks d,
  length junk = 64%nat -> Forall (fun d => blen d < 2 ^ 32) chunks -> blen d < 2 ^ 32 ->
  exists ctx ctx', sha_feed (sha256_init junk) chunks = Ret ctx /\ sha256_update true ctx d = Ret ctx'.
Proof. exact sha_update_returns. Qed.
Print Assumptions C29_update_returns_partial.

Example C29_case : Forall (fun d => blen d < 2 ^ 32) [zeros 100] /\ blen (zeros 70) < 2 ^ 32.
Proof. split; [apply Forall_cons; [reflexivity|apply Forall_nil]|reflexivity]. Qed.

(** Longer data is never taken in, however long one waits. *)
Theorem C29_update_returns_refuted : exists data, 2 ^ 32 <= blen data /\
  forall rounds, update_loop true rounds 0 (sha256_init (zeros 64)) data = UB Diverges.
Proof.
  exists (repeat x00 (N.to_nat (2 ^ 32))).
  assert (L : 2 ^ 32 <= blen (repeat x00 (N.to_nat (2 ^ 32)))).
  { unfold blen. rewrite repeat_length, N2Nat.id. apply N.le_refl. }
  split; [exact L|]. intro rounds. apply sha_update_never_returns; [reflexivity|exact L].
Qed.
Print Assumptions C29_update_returns_refuted.

(** ** C30: ECDSA signature formats *)

Theorem C30_conversion_lossless : forall lib key r s room room', der_library lib -> enough_memory lib ->
  let len := coordinate_length (ev_bits lib key) in
  len < 127 -> r < 256 ^ len -> s < 256 ^ len -> 2 * len <= room -> 2 * len + 10 <= room' ->
  snd (ecdsa_signature_der_to_cose lib key (der_signature r s) room) = Ret (Some (cose_signature len r s)) /\
  snd (ecdsa_signature_cose_to_der lib key (cose_signature len r s) room') = Ret (T_SUCCESS, der_signature r s).
Proof. exact ecdsa_conversion. Qed.
Print Assumptions C30_conversion_lossless.

Theorem C30_format_injective : forall len r s r' s', r < 256 ^ len -> s < 256 ^ len -> r' < 256 ^ len -> s' < 256 ^ len ->
  cose_signature len r s = cose_signature len r' s' -> r = r' /\ s = s'.
Proof. exact cose_signature_inj. Qed.
Print Assumptions C30_format_injective.

Theorem C30_wrong_length_rejected : forall lib key sig room, blen sig <> 2 * coordinate_length (ev_bits lib key) ->
  ecdsa_signature_cose_to_der lib key sig room = ([], Ret (ERR_SIG_VERIFY, [])).
Proof. exact wrong_length_rejected. Qed.
Print Assumptions C30_wrong_length_rejected.

(** A short r: zero bytes come back in front. *)
Example C30_case : der_library demo_ossl /\ enough_memory demo_ossl /\ coordinate_length (ev_bits demo_ossl 7) = 32 /\
  cose_signature 32 5 (256 ^ 31) = zeros 31 ++ [x05] ++ [x01] ++ zeros 31 /\
  der_signature 5 200 = [x30; x07; x02; x01; x05; x02; x02; x00; xc8].
Proof. split; [apply demo_works|]. split; [apply demo_works|]. repeat split; vm_compute; reflexivity. Qed.

(** ** C31: writes stay in the buffer *)

(** [room]: length of the buffer for the signature. *)
Theorem C31_ossl_sign_in_bounds_partial : forall c lib alg k hash room,
  sign_library lib ->
  (ecdsa_enabled c alg -> 2 * coordinate_length (ev_bits lib (k_handle k)) <= room) ->
  exists res, snd (ossl_sign c lib alg k hash room) = Ret res.
Proof. exact ossl_sign_safe. Qed.
Print Assumptions C31_ossl_sign_in_bounds_partial.

Theorem C31_ossl_sign_eddsa_in_bounds : forall lib k tbs room,
  sign_library lib -> exists res, snd (ossl_sign_eddsa lib k tbs room) = Ret res.
Proof. exact ossl_sign_eddsa_safe. Qed.
Print Assumptions C31_ossl_sign_eddsa_in_bounds.

Theorem C31_psa_sign_in_bounds : forall c lib alg k hash room,
  psa_within_room lib -> exists res, psa_sign c lib alg k hash room = Ret res.
Proof. exact psa_sign_safe. Qed.
Print Assumptions C31_psa_sign_in_bounds.

Example C31_case : sign_library demo_ossl /\ psa_within_room demo_psa /\
  exists sig, snd (ossl_sign cfg_full demo_ossl (-7) toy_key (zeros 32) 64) = Ret (T_SUCCESS, sig) /\ blen sig = 64.
Proof.
  split; [apply demo_works|]. split; [apply demo_psa_room|]. eexists. split; [vm_compute; reflexivity|]. reflexivity.
Qed.

(** In a smaller buffer a signature whose numbers are short overruns it. *)
Theorem C31_overflow_refuted : forall lib key der room r s, let len := coordinate_length (ev_bits lib key) in
  d2i_sig lib der = Some (r, s) -> r < 256 ^ len -> 0 < s -> bn_num_bytes r + bn_num_bytes s <= room -> room < 2 * len ->
  snd (ecdsa_signature_der_to_cose lib key der room) = UB OOBWrite.
Proof. exact der_to_cose_overruns. Qed.
Print Assumptions C31_overflow_refuted.

(** OpenSSL making a signature with r = 1 and s = 1, otherwise as above. *)
Definition short_ossl : ossl := {|
  ev_bits := fun _ => 256; ev_size := fun _ => 64;
  d2i_sig := read_signature; bn_ok := fun _ _ => true; sig_new := true; sig_set0 := fun _ _ => true;
  i2d_sig := fun r s => Some (der_signature r s);
  ctx_new := fun _ => true; ctx_init := fun _ => true; ctx_set := fun _ _ => true;
  pkey_sign := fun _ _ room => made (der_signature 1 1) room;
  pkey_verify := fun _ _ _ => 1%Z;
  md_known := fun _ => true; md_new := true; md_init := fun _ => true;
  md_update := fun _ _ _ => true; md_final := fun md data => Some (demo_hash md data);
  dsign_init := fun _ => true; dsign := fun _ t room => made (demo_sig t) room;
  dverify_init := fun _ => true; dverify := fun _ _ _ => 1%Z |}.

(** The same through t_cose_sign1_sign, with a buffer too small for the message. *)
Theorem C31_sign_overflow_refuted : exists n log,
  sign cfg_full (openssl cfg_full short_ossl) (toy_signer (-7) 0) (UBuf toy_payload) {| wb_null := false; wb_len := n |} = (log, UB OOBWrite).
Proof. exists 60. eexists. vm_compute. reflexivity. Qed.
Print Assumptions C31_sign_overflow_refuted.

(** ** C48: signing has no undefined behaviour *)

Theorem C48_signing_safe : forall c cr q me (det : bool) payload aad pl ad buf,
  configured q me -> holds payload pl -> holds aad ad ->
  hashing_safe c cr [ad; pl] ->
  (wants_short_circuit (q_flags q) = true -> forall halg data d, digest_of cr halg data d -> d <> []) ->
  (wb_null buf = false -> wants_short_circuit (q_flags q) = false ->
     forall room, blen (requested_message c q (if det then None else Some pl) []) + room = wb_len buf + 2 -> 0 < room ->
     (q_alg q <> (-8)%Z -> forall d, is_ret (cr_sign cr (q_alg q) (q_key q) d room)) /\
     (q_alg q = (-8)%Z -> forall t, is_ret (cr_sign_eddsa cr (q_key q) t room))) ->
  is_ret (snd (sign_aad_internal c cr me det payload aad buf)).
Proof. exact sign_safe. Qed.
Print Assumptions C48_signing_safe.

Theorem C48_openssl : forall c lib q me (det : bool) payload aad pl ad n,
  digests_sized lib -> sign_library lib ->
  configured q me -> holds payload pl -> holds aad ad ->
  (forall sig, blen sig = 2 * coordinate_length (ev_bits lib (k_handle (q_key q))) ->
     blen (requested_message c q (if det then None else Some pl) sig) <= n) ->
  exists res, snd (sign_aad_internal c (openssl c lib) me det payload aad {| wb_null := false; wb_len := n |}) = Ret res.
Proof. exact ossl_signing_fits_safe. Qed.
Print Assumptions C48_openssl.

Theorem C48_openssl_room : forall c lib q me (det : bool) payload aad pl ad buf,
  digests_sized lib -> sign_library lib ->
  configured q me -> holds payload pl -> holds aad ad ->
  ecdsa_room c lib q (if det then None else Some pl) buf ->
  exists res, snd (sign_aad_internal c (openssl c lib) me det payload aad buf) = Ret res.
Proof. exact ossl_signing_safe. Qed.
Print Assumptions C48_openssl_room.

Theorem C48_openssl_measuring : forall c lib q me (det : bool) payload aad pl ad n,
  digests_sized lib -> configured q me -> holds payload pl -> holds aad ad ->
  exists res, snd (sign_aad_internal c (openssl c lib) me det payload aad {| wb_null := true; wb_len := n |}) = Ret res.
Proof. exact ossl_measuring_safe. Qed.
Print Assumptions C48_openssl_measuring.

Theorem C48_psa : forall c lib q me (det : bool) payload aad pl ad buf,
  psa_within_room lib -> configured q me -> holds payload pl -> holds aad ad -> wants_short_circuit (q_flags q) = false ->
  exists res, snd (sign_aad_internal c (psa_crypto c lib) me det payload aad buf) = Ret res.
Proof. exact psa_signing_safe. Qed.
Print Assumptions C48_psa.

Theorem C48_test_adapter : forall c junk q me (det : bool) payload aad pl ad buf,
  length junk = 64%nat -> configured q me -> holds payload pl -> holds aad ad -> blen pl < 2 ^ 32 -> blen ad < 2 ^ 32 ->
  exists res, snd (sign_aad_internal c (test_crypto true junk c) me det payload aad buf) = Ret res.
Proof. exact test_signing_safe. Qed.
Print Assumptions C48_test_adapter.

Example C48_case : digests_sized demo_ossl /\ sign_library demo_ossl /\ configured (toy_request (-7) 0) (toy_signer (-7) 0) /\
  blen (requested_message cfg_full (toy_request (-7) 0) (Some toy_payload) (zeros 64)) <= 200 /\
  exists log me m, sign cfg_full (openssl cfg_full demo_ossl) (toy_signer (-7) 0) (UBuf toy_payload) (out_buf 200) = (log, Ret (T_SUCCESS, me, Some (UBuf m))).
Proof.
  split; [exact (works_sized _ _ (proj2 (proj2 (proj2 (proj2 (proj2 demo_works))))))|].
  split; [apply demo_works|]. split; [apply toy_configured|]. split; [vm_compute; discriminate|].
  do 3 eexists. vm_compute. reflexivity.
Qed.

(** ** C32: success exactly when the library verified *)

Theorem C32_openssl_sound : forall c lib alg k kid hash sig,
  snd (ossl_verify c lib alg k kid hash sig) = Ret T_SUCCESS -> ossl_key k /\ ossl_accepts c lib alg k hash sig.
Proof. exact ossl_verify_sound. Qed.
Print Assumptions C32_openssl_sound.

Theorem C32_openssl_complete : forall c lib alg k kid hash sig,
  setup_works lib -> enough_memory lib -> der_library lib -> on_curve lib alg (k_handle k) ->
  ossl_key k -> ossl_accepts c lib alg k hash sig ->
  snd (ossl_verify c lib alg k kid hash sig) = Ret T_SUCCESS.
Proof. exact ossl_accepted_verifies. Qed.
Print Assumptions C32_openssl_complete.

(** In all other cases there is an error, never undefined behaviour. *)
Theorem C32_openssl_total : forall c lib alg k kid hash sig, exists err, snd (ossl_verify c lib alg k kid hash sig) = Ret err.
Proof. exact ossl_verify_total. Qed.
Print Assumptions C32_openssl_total.

Theorem C32_openssl_eddsa : forall lib k kid tbs sig,
  (exists err, snd (ossl_verify_eddsa lib k kid tbs sig) = Ret err) /\
  (snd (ossl_verify_eddsa lib k kid tbs sig) = Ret T_SUCCESS <->
   ossl_key k /\ md_new lib = true /\ dverify_init lib (k_handle k) = true /\ dverify lib (k_handle k) sig tbs = 1%Z).
Proof. intros. split; [apply ossl_verify_eddsa_total|apply ossl_verify_eddsa_iff]. Qed.
Print Assumptions C32_openssl_eddsa.

Theorem C32_psa : forall c lib alg k kid hash sig,
  psa_verify c lib alg k kid hash sig = T_SUCCESS <-> psa_accepts c lib alg k hash sig.
Proof. exact psa_verify_iff. Qed.
Print Assumptions C32_psa.

Example C32_case : exists sig, ossl_accepts cfg_full demo_ossl (-7) toy_key (zeros 31 ++ [x05]) sig /\
  snd (ossl_verify cfg_full demo_ossl (-7) toy_key NULL_UBUF (zeros 31 ++ [x05]) sig) = Ret T_SUCCESS /\
  snd (ossl_verify cfg_full demo_ossl (-7) toy_key NULL_UBUF (zeros 31 ++ [x06]) sig) = Ret ERR_SIG_VERIFY /\
  psa_accepts cfg_full demo_psa (-7) toy_key (zeros 31 ++ [x05]) sig /\
  psa_verify cfg_full demo_psa (-7) toy_key NULL_UBUF (zeros 31 ++ [x06]) sig = ERR_SIG_VERIFY.
Proof.
  exists (cose_signature 32 5 0). split.
  - left. split; [now left|]. exists 5, 0, (der_signature 5 0). repeat split; vm_compute; reflexivity.
  - split; [vm_compute; reflexivity|]. split; [vm_compute; reflexivity|]. split; [|vm_compute; reflexivity].
    exists (-16)%Z. split; [reflexivity|]. left. split; [now left|]. vm_compute. reflexivity.
Qed.

(** ** C33: everything is released *)

(** [hashes_finished]: hashes are started, fed and finished in order and none is
    left running. *)
Theorem C33_signing_finishes_hashes : forall c cr me detached payload aad buf log r,
  sign_aad_internal c cr me detached payload aad buf = (log, Ret r) -> hashes_finished cr log.
Proof. exact sign_tidy. Qed.
Print Assumptions C33_signing_finishes_hashes.

Theorem C33_piecewise_signing_finishes_hashes : forall c cr me aad payload e log r,
  encode_signature_aad_internal c cr me aad payload e = (log, Ret r) -> hashes_finished cr log.
Proof. exact encode_signature_tidy. Qed.
Print Assumptions C33_piecewise_signing_finishes_hashes.

Theorem C33_verification_finishes_hashes : forall c cr junk me msg aad payload want dc log r,
  verify_internal c cr junk me msg aad payload want dc = (log, Ret r) -> hashes_finished cr log.
Proof. exact verify_tidy. Qed.
Print Assumptions C33_verification_finishes_hashes.

Theorem C33_openssl_sign : forall c lib alg k hash room log res,
  ossl_sign c lib alg k hash room = (log, Ret res) -> released log.
Proof. exact ossl_sign_released. Qed.
Print Assumptions C33_openssl_sign.

Theorem C33_openssl_eddsa : forall lib k kid tbs sig room,
  (forall log res, ossl_sign_eddsa lib k tbs room = (log, Ret res) -> released log) /\
  (forall log res, ossl_verify_eddsa lib k kid tbs sig = (log, Ret res) -> released log).
Proof. intros. split; intros log res; [apply ossl_sign_eddsa_released|apply ossl_verify_eddsa_released]. Qed.
Print Assumptions C33_openssl_eddsa.

(** A hash context, whatever comes between start and finish. *)
Theorem C33_openssl_hash : forall c lib halg log err h us room log2 res,
  ossl_hash_start c lib halg = (log, Ret (err, h)) ->
  (err <> T_SUCCESS -> released log) /\
  (err = T_SUCCESS -> ossl_hash_finish lib (fold_left (ossl_hash_update lib) us h) room = (log2, Ret res) -> released (log ++ log2)).
Proof. exact ossl_hash_lifecycle. Qed.
Print Assumptions C33_openssl_hash.

Theorem C33_psa_hash : forall c lib halg log err h us log1 h' room log2 res,
  psa_aborts lib = true -> psa_start c lib halg = (log, Ret (err, h)) ->
  (err <> T_SUCCESS -> released log) /\
  (err = T_SUCCESS -> psa_updates lib h us = (log1, Ret h') -> psa_finish lib h' room = (log2, Ret res) ->
   released (log ++ log1 ++ log2)).
Proof. exact psa_hash_lifecycle. Qed.
Print Assumptions C33_psa_hash.

(** Verification releases everything when ECDSA_SIG_set0 does not fail and keys
    are not larger than the curve of the algorithm. *)
Theorem C33_openssl_verify_partial : forall c lib alg k kid hash sig log res,
  ossl_verify c lib alg k kid hash sig = (log, Ret res) ->
  (forall r s, sig_set0 lib r s = true) -> der_library lib -> on_curve lib alg (k_handle k) -> released log.
Proof. exact ossl_verify_leaves_nothing. Qed.
Print Assumptions C33_openssl_verify_partial.

Example C33_case : exists log, ossl_verify cfg_full demo_ossl (-7) toy_key NULL_UBUF (zeros 32) (zeros 64) = (log, Ret T_SUCCESS) /\
  log <> [] /\ released log.
Proof. eexists. split; [vm_compute; reflexivity|]. split; [discriminate|reflexivity]. Qed.

(** A failing ECDSA_SIG_set0. *)
Definition failing_ossl : ossl := {|
  ev_bits := fun _ => 256; ev_size := fun _ => 64;
  d2i_sig := read_signature; bn_ok := fun _ _ => true; sig_new := true; sig_set0 := fun _ _ => false;
  i2d_sig := fun r s => Some (der_signature r s);
  ctx_new := fun _ => true; ctx_init := fun _ => true; ctx_set := fun _ _ => true;
  pkey_sign := fun _ _ _ => None; pkey_verify := fun _ _ _ => 0%Z;
  md_known := fun _ => true; md_new := true; md_init := fun _ => true;
  md_update := fun _ _ _ => true; md_final := fun md data => Some (demo_hash md data);
  dsign_init := fun _ => true; dsign := fun _ _ _ => None;
  dverify_init := fun _ => true; dverify := fun _ _ _ => 0%Z |}.

(** A library with P-521 keys. *)
Definition p521_ossl : ossl := {|
  ev_bits := fun _ => 521; ev_size := fun _ => 139;
  d2i_sig := read_signature; bn_ok := fun _ _ => true; sig_new := true; sig_set0 := fun _ _ => true;
  i2d_sig := fun r s => Some (der_signature r s);
  ctx_new := fun _ => true; ctx_init := fun _ => true; ctx_set := fun _ _ => true;
  pkey_sign := fun _ _ _ => None; pkey_verify := fun _ _ _ => 0%Z;
  md_known := fun _ => true; md_new := true; md_init := fun _ => true;
  md_update := fun _ _ _ => true; md_final := fun md data => Some (demo_hash md data);
  dsign_init := fun _ => true; dsign := fun _ _ _ => None;
  dverify_init := fun _ => true; dverify := fun _ _ _ => 0%Z |}.

(** A build without ES512. *)
Definition no_es512 : cfg :=
  {| dis_short_circuit := false; dis_content_type := false; dis_es384 := false; dis_es512 := true;
     dis_eddsa := false; dis_ps256 := false; dis_ps384 := false; dis_ps512 := false |}.

Theorem C33_verify_leak_refuted :
  (exists log err, ossl_verify cfg_full failing_ossl (-7) toy_key NULL_UBUF (zeros 32) (zeros 64) = (log, Ret err) /\
     live [] log = Some [RSig]) /\
  (exists sig log err, ossl_verify no_es512 p521_ossl (-7) toy_key NULL_UBUF (zeros 32) sig = (log, Ret err) /\
     live [] log = Some [RDer]).
Proof.
  split; [do 2 eexists; split; vm_compute; reflexivity|].
  exists (repeat x01 132). do 2 eexists. split; vm_compute; reflexivity.
Qed.
Print Assumptions C33_verify_leak_refuted.

(** With a PSA library that leaves aborting to the caller, a failing update leaks
    the operation. *)
Definition failing_psa : psa := {|
  psa_verify_hash := fun _ _ _ _ => (-149)%Z; psa_sign_hash := fun _ _ _ _ => ((-138)%Z, []);
  psa_key := fun _ => (0%Z, PKEcc, 256); psa_hash_setup := fun _ => 0%Z;
  psa_hash_update := fun _ _ _ => (-141)%Z; psa_hash_finish := fun _ _ _ => ((-137)%Z, []); psa_aborts := false |}.
Theorem C33_psa_leak_refuted : exists log h log1 h' log2 res,
  psa_start cfg_full failing_psa (-16) = (log, Ret (T_SUCCESS, h)) /\ psa_updates failing_psa h [UBuf [x01]] = (log1, Ret h') /\
  psa_finish failing_psa h' 32 = (log2, Ret res) /\ live [] (log ++ log1 ++ log2) = Some [RMdCtx].
Proof. do 6 eexists. repeat split; vm_compute; reflexivity. Qed.
Print Assumptions C33_psa_leak_refuted.

(** ** C34: supported algorithms *)

(** What t_cose_is_algorithm_supported says. *)
Theorem C34_reported : forall c lib lib' junk wraps alg,
  (t_cose_is_algorithm_supported (openssl c lib) alg = true <-> enabled c alg \/ is_hash_id alg) /\
  (t_cose_is_algorithm_supported (psa_crypto c lib') alg = true <-> (enabled c alg /\ alg <> (-8)%Z) \/ is_hash_id alg) /\
  (t_cose_is_algorithm_supported (test_crypto wraps junk c) alg = true <-> alg = (-16)%Z).
Proof. intros. split; [apply ossl_reports|]. split; [apply psa_reports|apply test_reports]. Qed.
Print Assumptions C34_reported.

(** Signing algorithms: reported as supported, accepted by core and adapter. *)
Theorem C34_openssl_signing : forall c lib alg,
  (enabled c alg -> signature_algorithm_id_is_supported c alg = true /\ never_refuses (openssl c lib) alg) /\
  (~ enabled c alg -> signature_algorithm_id_is_supported c alg = false /\ always_refuses (openssl c lib) alg).
Proof. exact ossl_consistent. Qed.
Print Assumptions C34_openssl_signing.

Theorem C34_psa_signing : forall c lib alg, psa_complete lib ->
  (enabled c alg /\ alg <> (-8)%Z -> signature_algorithm_id_is_supported c alg = true /\ never_refuses (psa_crypto c lib) alg) /\
  (~ (enabled c alg /\ alg <> (-8)%Z) -> always_refuses (psa_crypto c lib) alg).
Proof. exact psa_consistent. Qed.
Print Assumptions C34_psa_signing.

Theorem C34_psa_no_eddsa : forall c lib,
  psa_is_supported c (-8) = false /\
  (forall k t room, cr_sign_eddsa (psa_crypto c lib) k t room = Ret (ERR_UNSUPPORTED_SIGNING_ALG, [])) /\
  (forall k kid t sig, cr_verify_eddsa (psa_crypto c lib) k kid t sig = Ret ERR_UNSUPPORTED_SIGNING_ALG).
Proof. exact psa_no_eddsa. Qed.
Print Assumptions C34_psa_no_eddsa.

(** The test adapter reports no signing algorithm, and takes none. With it only
    short-circuit signatures with SHA-256 are made, and accepted if allowed. *)
Theorem C34_test_adapter : forall wraps junk c alg,
  always_refuses (test_crypto wraps junk c) alg /\
  (forall k t room, exists b, cr_sign_eddsa (test_crypto wraps junk c) k t room = Ret (ERR_UNSUPPORTED_SIGNING_ALG, b)) /\
  (forall k kid t sig, cr_verify_eddsa (test_crypto wraps junk c) k kid t sig = Ret ERR_UNSUPPORTED_SIGNING_ALG) /\
  (fst (cr_hash_start (test_crypto wraps junk c) alg) = T_SUCCESS <-> alg = (-16)%Z).
Proof. exact test_refuses. Qed.
Print Assumptions C34_test_adapter.

Theorem C34_test_adapter_verification : forall wraps junk c junk' me msg aad payload want dc log w ad gv,
  length (v_tags me) = 4%nat -> holds aad ad -> detached_arg dc payload gv ->
  verify_internal c (test_crypto wraps junk c) junk' me msg aad payload want dc = (log, Ret w) -> w_err w = T_SUCCESS ->
  decode_only (v_flags me) = false ->
  exists g pm p pl, message msg g pm /\ acceptable c (v_flags me) dc gv g pm p pl /\
    u_data (p_kid p) = reserved_kid /\ allows_short_circuit (v_flags me) = true /\ hash_for (p_alg p) = Some (-16)%Z.
Proof. exact test_verifies_short_circuit_only. Qed.
Print Assumptions C34_test_adapter_verification.

Theorem C34_test_adapter_signing : forall wraps junk c q me det payload aad pl ad n log me' r,
  configured q me -> holds payload pl -> holds aad ad ->
  sign_aad_internal c (test_crypto wraps junk c) me det payload aad {| wb_null := false; wb_len := n |} = (log, Ret (T_SUCCESS, me', r)) ->
  wants_short_circuit (q_flags q) = true /\ hash_for (q_alg q) = Some (-16)%Z.
Proof. exact test_signs_short_circuit_only. Qed.
Print Assumptions C34_test_adapter_signing.

Example C34_test_adapter_case : exists log log' me' w b,
  sign_aad_internal cfg_full (test_crypto true (zeros 64) cfg_full) (sign_init 1 (-7)) false (UBuf toy_payload) (UBuf toy_aad) (out_buf 200)
    = (log, Ret (T_SUCCESS, me', Some (UBuf b))) /\
  verify_internal cfg_full (test_crypto true (zeros 64) cfg_full) NULL_UBUF (verify_init 1) b (UBuf toy_aad) None false false = (log', Ret w) /\
  w_err w = T_SUCCESS.
Proof. do 5 eexists. split; [vm_compute; reflexivity|]. split; [vm_compute; reflexivity|]. vm_compute. reflexivity. Qed.

(** Hashes: offered exactly when an enabled algorithm uses them. *)
Theorem C34_hashes_offered : forall c lib halg, (forall md, md_known lib md = true) ->
  (hash_used c halg <-> fst (cr_hash_start (openssl c lib) halg) <> ERR_UNSUPPORTED_HASH).
Proof. exact ossl_hash_offered. Qed.
Print Assumptions C34_hashes_offered.

Theorem C34_psa_hashes_offered : forall c lib halg,
  psa_hash_setup lib PUint16Max = (-134)%Z \/ psa_hash_setup lib PUint16Max = (-135)%Z ->
  (forall halg, is_hash_id halg -> psa_hash_setup lib (PHash halg) <> (-134)%Z /\ psa_hash_setup lib (PHash halg) <> (-135)%Z) ->
  (hash_used c halg <-> fst (cr_hash_start (psa_crypto c lib) halg) <> ERR_UNSUPPORTED_HASH).
Proof. exact psa_hash_offered. Qed.
Print Assumptions C34_psa_hashes_offered.

Definition minimal : cfg :=
  {| dis_short_circuit := false; dis_content_type := false; dis_es384 := true; dis_es512 := true;
     dis_eddsa := true; dis_ps256 := true; dis_ps384 := true; dis_ps512 := true |}.

Example C34_case : enabled cfg_full (-36) /\ ~ enabled minimal (-36) /\ hash_used cfg_full (-43) /\ ~ hash_used minimal (-43) /\
  psa_complete demo_psa.
Proof.
  split; [unfold enabled; cbn; tauto|]. split; [unfold enabled; cbn; lia|].
  split; [exists (-35)%Z; split; [unfold enabled; cbn; tauto|reflexivity]|].
  split.
  - intros (alg & E & H). unfold enabled in E. cbn in E. assert (alg = (-7)%Z) as -> by lia. discriminate.
  - split; [|split]; cbn; intros; [destruct (64 <=? room); discriminate|destruct (bytes_eqb _ _); discriminate|discriminate].
Qed.

(** SHA-384 and SHA-512 are reported as supported in a build in which starting
    them is always refused; the size of an EdDSA signature is given in a build
    without EdDSA; the test adapter gives a size for any algorithm. *)
Theorem C34_consistency_refuted :
  (exists c halg, (forall lib, t_cose_is_algorithm_supported (openssl c lib) halg = true /\
                     fst (cr_hash_start (openssl c lib) halg) = ERR_UNSUPPORTED_HASH) /\
                  (forall lib, psa_hash_setup lib PUint16Max = (-134)%Z ->
                     t_cose_is_algorithm_supported (psa_crypto c lib) halg = true /\
                     fst (cr_hash_start (psa_crypto c lib) halg) = ERR_UNSUPPORTED_HASH)) /\
  (exists c alg k, forall lib, t_cose_is_algorithm_supported (openssl c lib) alg = false /\
                   fst (cr_sig_size (openssl c lib) alg k) = T_SUCCESS) /\
  (exists c alg k, t_cose_is_algorithm_supported (test_crypto true (zeros 64) c) alg = false /\
                   fst (cr_sig_size (test_crypto true (zeros 64) c) alg k) = T_SUCCESS).
Proof.
  split; [exists minimal, (-43)%Z|split; [exists minimal, (-8)%Z, toy_key|exists cfg_full, (-7)%Z, toy_key]].
  - split; [intro lib; split; reflexivity|]. intros lib E. split; [reflexivity|].
    cbn [cr_hash_start psa_crypto]. unfold psa_start. change (cose_hash_alg_id_to_psa minimal (-43)) with PUint16Max. rewrite E. reflexivity.
  - intro lib. split; reflexivity.
  - split; reflexivity.
Qed.
Print Assumptions C34_consistency_refuted.

(** ** C35: fixed buffers *)

Theorem C35_hash_buffer : forall c alg halg, enabled c alg -> hash_for alg = Some halg -> digest_length halg <= max_hash_size c.
Proof. exact digest_fits_buffer. Qed.
Print Assumptions C35_hash_buffer.

(** The hash computed into the buffer is the one that goes with the algorithm. *)
Theorem C35_hash_of_algorithm : forall c alg, enabled c alg -> alg <> (-8)%Z -> hash_for alg = Some (hash_alg_id_from_sig_alg_id c alg).
Proof. exact core_hash. Qed.
Print Assumptions C35_hash_of_algorithm.

Theorem C35_signature_buffer : forall c alg, ecdsa_enabled c alg ->
  2 * curve_coordinate alg = ecdsa_sig_size alg /\ 2 * curve_coordinate alg <= max_ecdsa_sig_size c.
Proof. exact ecdsa_fits_buffer. Qed.
Print Assumptions C35_signature_buffer.

Theorem C35_der_buffer : forall c alg r s, ecdsa_enabled c alg -> r < 256 ^ curve_coordinate alg -> s < 256 ^ curve_coordinate alg ->
  0 < blen (der_signature r s) <= der_buffer_size c.
Proof. exact der_fits_buffer. Qed.
Print Assumptions C35_der_buffer.

Example C35_case : enabled cfg_full (-36) /\ hash_for (-36) = Some (-44)%Z /\ max_hash_size cfg_full = 64 /\
  max_hash_size minimal = 32 /\ max_ecdsa_sig_size cfg_full = 132 /\ max_ecdsa_sig_size minimal = 64 /\
  blen (der_signature (256 ^ 66 - 1) (256 ^ 66 - 1)) = 141 /\ der_buffer_size cfg_full = 148.
Proof. split; [unfold enabled; cbn; tauto|]. repeat split; vm_compute; reflexivity. Qed.

(** ** The properties of the library with its adapters *)

(** C05, C06 with OpenSSL, from what OpenSSL does. *)
Theorem C05_round_trip_openssl : forall c lib H q me (det : bool) payload aad pl ad n log me' m vme junk aad' payload' want,
  openssl_works lib H -> ossl_key (v_key vme) ->
  key_pair lib (q_alg q) (k_handle (q_key q)) (k_handle (v_key vme)) -> on_curve lib (q_alg q) (k_handle (v_key vme)) ->
  configured q me -> holds payload pl -> holds aad ad -> n < 2 ^ 64 ->
  sign_aad_internal c (openssl c lib) me det payload aad {| wb_null := false; wb_len := n |} = (log, Ret (T_SUCCESS, me', Some (UBuf m))) ->
  length (v_tags vme) = 4%nat -> holds aad' ad -> detached_arg det payload' pl -> demands_met q (v_flags vme) ->
  wants_short_circuit (q_flags q) = false -> q_kid q <> reserved_kid \/ dis_short_circuit c = true ->
  (q_alg q = (-8)%Z -> wb_null (v_aux vme) = false /\ blen (requested_tbs q ad pl) <= wb_len (v_aux vme)) ->
  exists log' w, verify_internal c (openssl c lib) junk vme m aad' payload' want det = (log', Ret w) /\
    delivered vme payload' want det (asked_params c q) pl w.
Proof. exact ossl_round_trip. Qed.
Print Assumptions C05_round_trip_openssl.

Theorem C05_round_trip_psa : forall c lib H q me (det : bool) payload aad pl ad n log me' m vme junk aad' payload' want,
  psa_hash_library lib H -> psa_within_room lib -> psa_key_pair lib (k_handle (q_key q)) (k_handle (v_key vme)) ->
  configured q me -> holds payload pl -> holds aad ad -> n < 2 ^ 64 ->
  sign_aad_internal c (psa_crypto c lib) me det payload aad {| wb_null := false; wb_len := n |} = (log, Ret (T_SUCCESS, me', Some (UBuf m))) ->
  length (v_tags vme) = 4%nat -> holds aad' ad -> detached_arg det payload' pl -> demands_met q (v_flags vme) ->
  wants_short_circuit (q_flags q) = false -> q_kid q <> reserved_kid \/ dis_short_circuit c = true ->
  exists log' w, verify_internal c (psa_crypto c lib) junk vme m aad' payload' want det = (log', Ret w) /\
    delivered vme payload' want det (asked_params c q) pl w.
Proof. exact psa_round_trip. Qed.
Print Assumptions C05_round_trip_psa.

(** PS256 and ES256 with the demonstration libraries. *)
Definition demo_trip (cr : crypto) (alg : Z) : option terr :=
  match sign cfg_full cr (toy_signer alg 0) (UBuf toy_payload) (out_buf 200) with
  | (_, Ret (_, _, Some (UBuf m))) =>
      match verify cfg_full cr NULL_UBUF (toy_verifier 0) m (Some NULL_UBUF) true with (_, Ret w) => Some (w_err w) | _ => None end
  | _ => None
  end.
Example C05_adapter_case : openssl_works demo_ossl demo_hash /\ key_pair demo_ossl (-37) 7 7 /\ on_curve demo_ossl (-7) 7 /\
  ossl_key toy_key /\ psa_hash_library demo_psa demo_hash /\ psa_key_pair demo_psa 7 7 /\
  map (demo_trip (openssl cfg_full demo_ossl)) [-7; -37; -8]%Z = [Some T_SUCCESS; Some T_SUCCESS; Some T_SUCCESS] /\
  map (demo_trip (psa_crypto cfg_full demo_psa)) [-7; -37]%Z = [Some T_SUCCESS; Some T_SUCCESS].
Proof.
  split; [exact demo_works|]. split; [apply demo_pair|]. split; [apply demo_curve|]. split; [split; [reflexivity|discriminate]|].
  split; [exact demo_psa_hash|]. split; [apply demo_psa_pair|]. split; vm_compute; reflexivity.
Qed.

(** C09 with the test adapter: the signature is the SHA-256 digest of the
    Sig_structure, twice, and verification accepts it. *)
Theorem C09_test_adapter : forall c junk q me (det : bool) payload aad pl ad n log me' r vme vjunk aad' payload' want,
  length junk = 64%nat -> configured q me -> holds payload pl -> holds aad ad -> n < 2 ^ 64 -> blen pl < 2 ^ 32 -> blen ad < 2 ^ 32 ->
  sign_aad_internal c (test_crypto true junk c) me det payload aad {| wb_null := false; wb_len := n |} = (log, Ret (T_SUCCESS, me', r)) ->
  let d := sha256 (requested_tbs q ad pl) in
  (wants_short_circuit (q_flags q) = true /\ (q_alg q = (-7)%Z \/ q_alg q = (-37)%Z) /\
   exists m, r = Some (UBuf m) /\ m = requested_message c q (if det then None else Some pl) (repeat_to d (ecdsa_sig_size (q_alg q))) /\
   (q_alg q = (-7)%Z -> m = requested_message c q (if det then None else Some pl) (d ++ d)) /\
   (q_alg q = (-7)%Z -> requested_kid q = reserved_kid -> length (v_tags vme) = 4%nat -> holds aad' ad -> detached_arg det payload' pl ->
    demands_met q (v_flags vme) -> allows_short_circuit (v_flags vme) = true ->
    exists log' w, verify_internal c (test_crypto true junk c) vjunk vme m aad' payload' want det = (log', Ret w) /\
      delivered vme payload' want det (asked_params c q) pl w)).
Proof. exact test_short_circuit. Qed.
Print Assumptions C09_test_adapter.

Definition short_signer : sctx := sign_init 1 (-7).
Definition short_request : request :=
  {| q_alg := -7; q_flags := 1; q_key := {| k_lib := 0; k_handle := 0 |}; q_kid := []; q_ct_uint := None; q_ct_text := None;
     q_aux := c_aux short_signer |}.
Example C09_test_adapter_case : configured short_request short_signer /\ requested_kid short_request = reserved_kid /\
  exists log me m, sign cfg_full (test_crypto true (zeros 64) cfg_full) short_signer (UBuf toy_payload) (out_buf 200)
    = (log, Ret (T_SUCCESS, me, Some (UBuf m))).
Proof.
  split; [repeat split; right; split; reflexivity|]. split; [reflexivity|]. do 3 eexists. vm_compute. reflexivity.
Qed.

(** C42 with OpenSSL, PSA and the test adapter, whatever the message. *)
Theorem C42_openssl : forall c lib junk me msg aad payload want dc ad gv,
  digests_sized lib -> length (v_tags me) = 4%nat -> holds aad ad -> detached_arg dc payload gv ->
  exists log w, verify_internal c (openssl c lib) junk me msg aad payload want dc = (log, Ret w).
Proof. exact ossl_verification_safe. Qed.
Print Assumptions C42_openssl.

Theorem C42_psa : forall c lib junk me msg aad payload want dc ad gv,
  psa_within_room lib -> length (v_tags me) = 4%nat -> holds aad ad -> detached_arg dc payload gv ->
  exists log w, verify_internal c (psa_crypto c lib) junk me msg aad payload want dc = (log, Ret w).
Proof. exact psa_verification_safe. Qed.
Print Assumptions C42_psa.

Example C42_adapter_case : digests_sized demo_ossl /\ psa_within_room demo_psa.
Proof. split; [exact (works_sized _ _ (proj2 (proj2 (proj2 (proj2 (proj2 demo_works))))))|exact demo_psa_room]. Qed.

(** C10, C11 with OpenSSL: its adapter meets what those theorems ask for. *)
Theorem C10_openssl_contract : forall c lib H q parts,
  openssl_works lib H -> size_reported lib (k_handle (q_key q)) -> room_no_matter lib (k_handle (q_key q)) ->
  hash_reliable c (openssl c lib) parts /\ sizes_agree (openssl c lib) q /\ room_irrelevant (openssl c lib) q /\ null_is_empty (openssl c lib) /\
  hash_is (openssl c lib) H.
Proof. exact ossl_contract. Qed.
Print Assumptions C10_openssl_contract.

Theorem C10_psa_contract : forall c lib H q parts,
  psa_hash_library lib H -> psa_within_room lib -> psa_size_reported lib (k_handle (q_key q)) -> psa_room_no_matter lib (k_handle (q_key q)) ->
  hash_reliable c (psa_crypto c lib) parts /\ sizes_agree (psa_crypto c lib) q /\ room_irrelevant (psa_crypto c lib) q /\
  null_is_empty (psa_crypto c lib) /\ hash_is (psa_crypto c lib) H.
Proof. exact psa_contract. Qed.
Print Assumptions C10_psa_contract.

Example C10_adapter_case : size_reported demo_ossl 7 /\ room_no_matter demo_ossl 7 /\ psa_size_reported demo_psa 7 /\ psa_room_no_matter demo_psa 7.
Proof. split; [apply demo_sizes|]. split; [apply demo_rooms|]. split; [apply demo_psa_sizes|apply demo_psa_rooms]. Qed.
