(** Properties of verification. Each theorem is followed by a concrete case that
    meets its hypotheses, or is itself a counterexample ([_refuted]). *)
From Verif Require Import Base Const QEnc QDec Crypto Util ShortCircuit Params Verify Sign Spec SignSpec Toy.
From Verif Require Import BaseFacts UtilFacts SignFacts SignProofs SignMore SignMore3.
From Verif Require Import DecSpec VerifySafe VerifyFacts VerifyCheck Unique Parts VerifyTop VerifyMore VerifyMore2 VerifyMore3 VerifyMore4 RoundTrip VerifySpec.
From Coq Require Import Lia.
Open Scope N_scope. Open Scope list_scope.

Definition sign_toy (alg : Z) (flags : N) : M (terr * sctx * option ubufc) :=
  sign cfg_full toy (toy_signer alg flags) (UBuf toy_payload) (out_buf 200).

(** A signer without kid of its own. *)
Definition bare_signer (alg : Z) (flags : N) : sctx := set_signing_key (sign_init flags alg) toy_key NULL_UBUF.
Definition bare_request (alg : Z) (flags : N) : request :=
  {| q_alg := alg; q_flags := flags; q_key := toy_key; q_kid := []; q_ct_uint := None;
     q_ct_text := None; q_aux := {| wb_null := true; wb_len := SIZE_MAX |} |}.
Lemma bare_configured alg flags : configured (bare_request alg flags) (bare_signer alg flags).
Proof. repeat split. right. auto. Qed.

(** The message used most: ES256, tagged 18, kid "AB" and an unknown parameter 99. *)
Definition plain_msg : bytes := toy_built [18] es256_prot [(CUInt 4, CBytes [x41; x42]); (CUInt 99, CUInt 0)] [].
Definition plain_params : params :=
  {| p_alg := -7; p_kid := UBuf [x41; x42]; p_iv := UNull 0; p_partial_iv := UNull 0; p_ct_tstr := UNull 0; p_ct_uint := 65536 |}.

(** It verifies, so the hypotheses common to the theorems below are met. *)
Example plain_case : exists g pm log w,
  call_ok (toy_verifier 0) (UBuf toy_aad) toy_aad false (Some NULL_UBUF) [] /\ message plain_msg g pm /\
  succeeds cfg_full toy (toy_verifier 0) plain_msg (UBuf toy_aad) (Some NULL_UBUF) true false log w /\
  w_payload w = Some (UBuf toy_payload) /\ w_params w = Some plain_params.
Proof.
  assert (X : exists log w, succeeds cfg_full toy (toy_verifier 0) plain_msg (UBuf toy_aad) (Some NULL_UBUF) true false log w /\
              w_payload w = Some (UBuf toy_payload) /\ w_params w = Some plain_params).
  { do 2 eexists. split; [apply (succeeds_run _ _ NULL_UBUF); vm_compute; reflexivity|split; vm_compute; reflexivity]. }
  destruct X as (log & w & S & R). destruct (success_message _ _ _ _ _ _ _ _ _ _ _ _ (toy_call 0) S) as (g & pm & M).
  exists g, pm, log, w. split; [exact (toy_call 0)|]. auto.
Qed.

(** ** C01, C13: what is verified *)

(** Every adapter call made while verifying, whatever the outcome, concerns the
    algorithm of the message, the caller's key and the Sig_structure over the
    protected header in the message, the caller's AAD and the payload. *)
Theorem C01_verification_covers_sig_structure : forall c cr junk me msg aad payload want dc log r ad gv,
  length (v_tags me) = 4%nat -> holds aad ad -> detached_arg dc payload gv ->
  verify_internal c cr junk me msg aad payload want dc = (log, r) ->
  log = [] \/
  decode_only (v_flags me) = false /\
  exists g pm p pl, message msg g pm /\ acceptable c (v_flags me) dc gv g pm p pl /\
    (short_circuit_kid c p = true -> allows_short_circuit (v_flags me) = true) /\
    (forall e, In e log -> verify_event_ok cr (v_key me) p (sig_structure (g_prot g) ad pl) (g_sig g) e) /\
    (In EvHashFinish log -> hashed log = sig_structure (g_prot g) ad pl).
Proof. exact verify_calls. Qed.
Print Assumptions C01_verification_covers_sig_structure.

Example C01_verification_case : exists log w, toy_verify 0 plain_msg = (log, Ret w) /\
  In EvHashFinish log /\ hashed log = sig_structure es256_prot toy_aad toy_payload.
Proof. do 2 eexists. split; [vm_compute; reflexivity|]. split; [vm_compute; tauto|vm_compute; reflexivity]. Qed.

Theorem C13_verification_sound : forall c cr junk me msg aad payload want dc log w ad gv,
  length (v_tags me) = 4%nat -> holds aad ad -> detached_arg dc payload gv ->
  verify_internal c cr junk me msg aad payload want dc = (log, Ret w) -> w_err w = T_SUCCESS ->
  decode_only (v_flags me) = false ->
  exists g pm p pl, message msg g pm /\ acceptable c (v_flags me) dc gv g pm p pl /\ delivered me payload want dc p pl w /\
  let tbs := sig_structure (g_prot g) ad pl in
  if short_circuit_kid c p then
    allows_short_circuit (v_flags me) = true /\ hashed log = tbs /\
    exists halg d rest, hash_for (p_alg p) = Some halg /\ enabled c (p_alg p) /\ digest_of cr halg tbs d /\ g_sig g = d ++ rest
  else if uses_eddsa c p then
    log = [EvVerifyEddsa (v_key me) (p_kid p) tbs (g_sig g)] /\
    cr_verify_eddsa cr (v_key me) (p_kid p) tbs (g_sig g) = Ret T_SUCCESS
  else
    hashed log = tbs /\
    exists halg d, hash_for (p_alg p) = Some halg /\ enabled c (p_alg p) /\ digest_of cr halg tbs d /\
      In (EvVerify (p_alg p) (v_key me) (p_kid p) d (g_sig g)) log /\
      cr_verify cr (p_alg p) (v_key me) (p_kid p) d (g_sig g) = Ret T_SUCCESS.
Proof. exact verify_asked. Qed.
Print Assumptions C13_verification_sound.

(** Exactly the messages described are accepted. *)
Theorem C13_accepted_messages_exact : forall c cr junk me msg aad payload want dc ad gv,
  length (v_tags me) = 4%nat -> holds aad ad -> detached_arg dc payload gv -> one_digest cr -> hash_reliable c cr [msg; ad; gv] ->
  (exists log w, verify_internal c cr junk me msg aad payload want dc = (log, Ret w) /\ w_err w = T_SUCCESS) <->
  (exists g pm p pl, message msg g pm /\ acceptable c (v_flags me) dc gv g pm p pl /\
    (decode_only (v_flags me) = false ->
     accepted c cr (v_flags me) (v_key me) p (sig_structure (g_prot g) ad pl) (g_sig g)) /\
    aux_enough c me p (sig_structure (g_prot g) ad pl)).
Proof. exact verify_iff. Qed.
Print Assumptions C13_accepted_messages_exact.

(** The functions of the API: the additional authenticated data is none, or what the
    caller gives; the payload is in the message, or what the caller gives. *)
Theorem C13_entry_points_exact : forall c cr junk me msg,
  length (v_tags me) = 4%nat -> one_digest cr ->
  let accepts ad dc gv := exists g pm p pl, message msg g pm /\ acceptable c (v_flags me) dc gv g pm p pl /\
    (decode_only (v_flags me) = false ->
     accepted c cr (v_flags me) (v_key me) p (sig_structure (g_prot g) ad pl) (g_sig g)) /\
    aux_enough c me p (sig_structure (g_prot g) ad pl) in
  (forall out want, hash_reliable c cr [msg; []; []] ->
     (exists log w, verify c cr junk me msg out want = (log, Ret w) /\ w_err w = T_SUCCESS) <-> accepts [] false []) /\
  (forall aad ad out want, holds aad ad -> hash_reliable c cr [msg; ad; []] ->
     (exists log w, verify_aad c cr junk me msg aad out want = (log, Ret w) /\ w_err w = T_SUCCESS) <-> accepts ad false []) /\
  (forall aad ad payload pl want, holds aad ad -> holds payload pl -> hash_reliable c cr [msg; ad; pl] ->
     (exists log w, verify_detached c cr junk me msg aad payload want = (log, Ret w) /\ w_err w = T_SUCCESS) <-> accepts ad true pl).
Proof.
  intros c cr junk me msg L OD accepts. split; [|split].
  - intros out want HR. apply (verify_iff _ _ _ _ _ NULL_UBUF out want false [] []); auto; [now right|discriminate].
  - intros aad ad out want A HR. apply (verify_iff _ _ _ _ _ aad out want false ad []); auto. discriminate.
  - intros aad ad payload pl want A P HR. apply (verify_iff _ _ _ _ _ aad (Some payload) want true ad pl); auto. intros _. eauto.
Qed.
Print Assumptions C13_entry_points_exact.

Example C13_case : one_digest toy /\ hash_reliable cfg_full toy [plain_msg; toy_aad; []] /\
  toy_result (toy_verify 0 plain_msg) = Some (T_SUCCESS, Some (UBuf toy_payload), Some plain_params) /\
  toy_result (toy_verify 0 (removelast plain_msg ++ [x01])) = Some (ERR_SIG_VERIFY, None, None).
Proof. split; [exact toy_one_digest|]. split; [exact (toy_reliable _ _)|]. split; vm_compute; reflexivity. Qed.

(** ** C05, C06, C08, C09: round trips *)

Theorem C05_round_trip_inline : forall c cr q me payload pl n log me' m vme junk out want,
  configured q me -> holds payload pl -> n < 2 ^ 64 ->
  sign c cr me payload {| wb_null := false; wb_len := n |} = (log, Ret (T_SUCCESS, me', Some (UBuf m))) ->
  length (v_tags vme) = 4%nat -> demands_met q (v_flags vme) ->
  keys_match cr (q_alg q) (q_key q) (v_key vme) -> one_digest cr -> hash_reliable c cr [pl] ->
  wants_short_circuit (q_flags q) = false -> q_kid q <> reserved_kid \/ dis_short_circuit c = true ->
  (q_alg q = (-8)%Z -> wb_null (v_aux vme) = false /\ blen (requested_tbs q [] pl) <= wb_len (v_aux vme)) ->
  exists log' w, verify c cr junk vme m out want = (log', Ret w) /\
    w_err w = T_SUCCESS /\
    w_params w = (if want then Some (asked_params c q) else None) /\
    w_payload w = match out with Some _ => Some (UBuf pl) | None => None end.
Proof. exact inline_round_trip. Qed.
Print Assumptions C05_round_trip_inline.

Example C05_case : exists log me m log' w, sign_toy (-7) 0 = (log, Ret (T_SUCCESS, me, Some (UBuf m))) /\
  demands_met (toy_request (-7) 0) 6 /\ keys_match toy (-7) toy_key toy_key /\
  verify cfg_full toy NULL_UBUF (toy_verifier 6) m (Some NULL_UBUF) true = (log', Ret w) /\
  w_err w = T_SUCCESS /\ w_payload w = Some (UBuf toy_payload).
Proof.
  do 5 eexists. split; [vm_compute; reflexivity|]. split; [repeat split; intros; vm_compute in *; congruence|].
  split; [apply toy_keys|]. split; [vm_compute; reflexivity|]. split; vm_compute; reflexivity.
Qed.

(** What the caller gave to the signer is what the caller of verify gets. *)
Theorem C05_reported_is_requested : forall c q,
  p_alg (asked_params c q) = q_alg q /\
  u_data (p_kid (asked_params c q)) = requested_kid q /\
  (q_kid q <> [] -> requested_kid q = q_kid q) /\
  (dis_content_type c = false -> forall n, q_ct_uint q = Some n -> q_ct_text q = None -> p_ct_uint (asked_params c q) = n) /\
  (dis_content_type c = false -> forall s, q_ct_text q = Some s -> q_ct_uint q = None -> p_ct_tstr (asked_params c q) = UBuf s).
Proof. exact asked_params_spec. Qed.
Print Assumptions C05_reported_is_requested.

Theorem C06_round_trip_detached : forall c cr q me payload aad pl ad n log me' m vme junk aad' payload' want,
  configured q me -> holds payload pl -> holds aad ad -> n < 2 ^ 64 ->
  sign_detached c cr me aad payload {| wb_null := false; wb_len := n |} = (log, Ret (T_SUCCESS, me', Some (UBuf m))) ->
  length (v_tags vme) = 4%nat -> holds aad' ad -> holds payload' pl -> demands_met q (v_flags vme) ->
  keys_match cr (q_alg q) (q_key q) (v_key vme) -> one_digest cr -> hash_reliable c cr [ad; pl] ->
  wants_short_circuit (q_flags q) = false -> q_kid q <> reserved_kid \/ dis_short_circuit c = true ->
  (q_alg q = (-8)%Z -> wb_null (v_aux vme) = false /\ blen (requested_tbs q ad pl) <= wb_len (v_aux vme)) ->
  exists log' w, verify_detached c cr junk vme m aad' payload' want = (log', Ret w) /\
    w_err w = T_SUCCESS /\
    w_params w = (if want then Some (asked_params c q) else None) /\ w_payload w = None.
Proof. exact detached_round_trip. Qed.
Print Assumptions C06_round_trip_detached.

Example C06_case : exists log me m log' w,
  sign_detached cfg_full toy (toy_signer (-8) 0) (UBuf toy_aad) (UBuf toy_payload) (out_buf 200)
    = (log, Ret (T_SUCCESS, me, Some (UBuf m))) /\
  verify_detached cfg_full toy NULL_UBUF (toy_verifier 0) m (UBuf toy_aad) (UBuf toy_payload) true = (log', Ret w) /\
  w_err w = T_SUCCESS.
Proof. do 5 eexists. split; [vm_compute; reflexivity|]. split; vm_compute; reflexivity. Qed.

(** EdDSA: the auxiliary buffer needed is exactly the Sig_structure. *)
Theorem C08_eddsa_auxiliary_buffer_verification : forall c cr junk me msg aad payload want dc gv g pm p pl ad,
  length (v_tags me) = 4%nat -> holds aad ad -> detached_arg dc payload gv -> message msg g pm ->
  acceptable c (v_flags me) dc gv g pm p pl -> short_circuit_kid c p = false -> uses_eddsa c p = true ->
  exists w log, verify_internal c cr junk me msg aad payload want dc = (log, w) /\
  let tbs := sig_structure (g_prot g) ad pl in
  if wb_len (v_aux me) <? blen tbs then
    log = [] /\ exists w', w = Ret w' /\ w_err w' = ERR_AUXILIARY_BUFFER_SIZE /\
      verify_auxiliary_buffer_size c (w_ctx w') = verify_auxiliary_buffer_size c me
  else if decode_only (v_flags me) then
    log = [] /\ exists w', w = Ret w' /\ w_err w' = T_SUCCESS /\ verify_auxiliary_buffer_size c (w_ctx w') = blen tbs
  else if wb_null (v_aux me) then
    log = [] /\ exists w', w = Ret w' /\ w_err w' = ERR_NEED_AUXILIARY_BUFFER /\ verify_auxiliary_buffer_size c (w_ctx w') = blen tbs
  else
    log = [EvVerifyEddsa (v_key me) (p_kid p) tbs (g_sig g)] /\
    match cr_verify_eddsa cr (v_key me) (p_kid p) tbs (g_sig g) with
    | Ret e => exists w', w = Ret w' /\ w_err w' = e /\ verify_auxiliary_buffer_size c (w_ctx w') = blen tbs
    | UB u => w = UB u
    end.
Proof. exact verify_eddsa_aux. Qed.
Print Assumptions C08_eddsa_auxiliary_buffer_verification.

Definition eddsa_msg : bytes :=
  let prot := protected_header (-8) in
  encode (CArray [CBytes prot; CMap []; CBytes toy_payload; CBytes (toy_sig (sig_structure prot toy_aad toy_payload))]).
Definition verify_with_aux (null : bool) (n : N) : option terr :=
  match verify_aad cfg_full toy NULL_UBUF (verify_set_auxiliary_buffer (toy_verifier 0) {| wb_null := null; wb_len := n |})
          eddsa_msg (UBuf toy_aad) None false with
  | (_, Ret w) => Some (w_err w)
  | _ => None
  end.
Example C08_verification_case : blen (sig_structure (protected_header (-8)) toy_aad toy_payload) = 23 /\
  verify_with_aux false 23 = Some T_SUCCESS /\ verify_with_aux false 22 = Some ERR_AUXILIARY_BUFFER_SIZE /\
  verify_with_aux true 23 = Some ERR_NEED_AUXILIARY_BUFFER.
Proof. repeat split; vm_compute; reflexivity. Qed.

(** C08 is false in one point: when the buffer is too small the size needed is
    not reported; a fresh context still says 0. *)
Theorem C08_size_not_reported_refuted : exists c cr me msg aad log w,
  verify_aad c cr NULL_UBUF me msg aad None false = (log, Ret w) /\
  w_err w = ERR_AUXILIARY_BUFFER_SIZE /\ verify_auxiliary_buffer_size c (w_ctx w) = 0.
Proof.
  exists cfg_full, toy, (verify_set_auxiliary_buffer (toy_verifier 0) {| wb_null := false; wb_len := 22 |}), eddsa_msg, (UBuf toy_aad).
  do 2 eexists. split; [vm_compute; reflexivity|]. split; vm_compute; reflexivity.
Qed.
Print Assumptions C08_size_not_reported_refuted.

(** Short-circuit messages verify when the signer has no kid of its own and the
    digest fits the signature size of the algorithm. *)
Theorem C09_short_circuit_round_trip : forall c cr q me (det : bool) payload aad pl ad n log me' m vme junk aad' payload' want,
  configured q me -> holds payload pl -> holds aad ad -> n < 2 ^ 64 ->
  sign_aad_internal c cr me det payload aad {| wb_null := false; wb_len := n |} = (log, Ret (T_SUCCESS, me', Some (UBuf m))) ->
  wants_short_circuit (q_flags q) = true -> requested_kid q = reserved_kid ->
  (forall halg data d, hash_for (q_alg q) = Some halg -> digest_of cr halg data d -> d <> [] /\ blen d <= ecdsa_sig_size (q_alg q)) ->
  length (v_tags vme) = 4%nat -> holds aad' ad -> detached_arg det payload' pl -> demands_met q (v_flags vme) ->
  allows_short_circuit (v_flags vme) = true -> one_digest cr -> hash_reliable c cr [ad; pl] ->
  exists log' w, verify_internal c cr junk vme m aad' payload' want det = (log', Ret w) /\
    delivered vme payload' want det (asked_params c q) pl w.
Proof. exact sc_round_trip. Qed.
Print Assumptions C09_short_circuit_round_trip.

Definition sc_run (alg : Z) := sign cfg_full toy (bare_signer alg 1) (UBuf toy_payload) (out_buf 200).
Definition sc_verify (m : bytes) := toy_result (verify cfg_full toy NULL_UBUF (toy_verifier 1) m None false).

Example C09_case : exists log me m, sc_run (-7) = (log, Ret (T_SUCCESS, me, Some (UBuf m))) /\
  requested_kid (bare_request (-7) 1) = reserved_kid /\
  (forall halg data d, hash_for (-7) = Some halg -> digest_of toy halg data d -> d <> [] /\ blen d <= ecdsa_sig_size (-7)) /\
  sc_verify m = Some (T_SUCCESS, None, None).
Proof.
  do 3 eexists. split; [vm_compute; reflexivity|]. split; [reflexivity|]. split; [|vm_compute; reflexivity].
  intros halg data d _ D. split; [exact (toy_digest_nonempty _ _ _ D)|]. rewrite (toy_hash_is _ _ _ D).
  unfold blen. rewrite toy_digest_len. vm_compute. discriminate.
Qed.

(** For PS256 the option gives a message with an empty signature that does not
    verify. *)
Theorem C09_short_circuit_rsa_refuted : exists c cr q me payload pl log me' m vme log' w,
  configured q me /\ wants_short_circuit (q_flags q) = true /\ q_alg q = (-37)%Z /\ holds payload pl /\
  sign c cr me payload (out_buf 200) = (log, Ret (T_SUCCESS, me', Some (UBuf m))) /\
  m = requested_message c q (Some pl) [] /\
  allows_short_circuit (v_flags vme) = true /\
  verify c cr NULL_UBUF vme m None false = (log', Ret w) /\ w_err w = ERR_SIG_VERIFY.
Proof.
  exists cfg_full, toy, (bare_request (-37) 1), (bare_signer (-37) 1), (UBuf toy_payload), toy_payload.
  do 3 eexists. exists (toy_verifier 1). do 2 eexists.
  split; [apply bare_configured|]. split; [reflexivity|]. split; [reflexivity|]. split; [now left|].
  split; [vm_compute; reflexivity|]. split; [vm_compute; reflexivity|]. split; [reflexivity|].
  split; vm_compute; reflexivity.
Qed.
Print Assumptions C09_short_circuit_rsa_refuted.

(** With a kid of its own a signer makes short-circuit messages that nobody
    takes for such: they go to the adapter. *)
Theorem C09_short_circuit_own_kid_refuted : exists c cr q me payload pl log me' m vme log' w,
  configured q me /\ wants_short_circuit (q_flags q) = true /\ q_alg q = (-7)%Z /\ holds payload pl /\
  sign c cr me payload (out_buf 200) = (log, Ret (T_SUCCESS, me', Some (UBuf m))) /\
  allows_short_circuit (v_flags vme) = true /\
  verify c cr NULL_UBUF vme m None false = (log', Ret w) /\ w_err w = ERR_SIG_VERIFY.
Proof.
  exists cfg_full, toy, (toy_request (-7) 1), (toy_signer (-7) 1), (UBuf toy_payload), toy_payload.
  do 3 eexists. exists (toy_verifier 1). do 2 eexists.
  split; [apply toy_configured|]. split; [reflexivity|]. split; [reflexivity|]. split; [now left|].
  split; [vm_compute; reflexivity|]. split; [reflexivity|].
  split; vm_compute; reflexivity.
Qed.
Print Assumptions C09_short_circuit_own_kid_refuted.

(** A signer who signs with a real key but whose kid is the reserved one makes
    messages that verification refuses as short-circuit ones. *)
Theorem C05_reserved_kid_refuted : exists c cr q me payload pl log me' m vme log' w,
  configured q me /\ wants_short_circuit (q_flags q) = false /\ holds payload pl /\
  sign c cr me payload (out_buf 200) = (log, Ret (T_SUCCESS, me', Some (UBuf m))) /\
  keys_match cr (q_alg q) (q_key q) (v_key vme) /\
  verify c cr NULL_UBUF vme m None false = (log', Ret w) /\ w_err w = ERR_SHORT_CIRCUIT_SIG.
Proof.
  exists cfg_full, toy, {| q_alg := -7; q_flags := 0; q_key := toy_key; q_kid := reserved_kid; q_ct_uint := None;
     q_ct_text := None; q_aux := {| wb_null := true; wb_len := SIZE_MAX |} |},
    (set_signing_key (sign_init 0 (-7)) toy_key (UBuf reserved_kid)), (UBuf toy_payload), toy_payload.
  do 3 eexists. exists (toy_verifier 0). do 2 eexists.
  split; [repeat split; now left|]. split; [reflexivity|]. split; [now left|].
  split; [vm_compute; reflexivity|]. split; [apply toy_keys|].
  split; vm_compute; reflexivity.
Qed.
Print Assumptions C05_reserved_kid_refuted.

(** ** C14: short-circuit messages *)

Theorem C14_short_circuit_needs_permission : forall c cr me msg aad payload want dc ad gv,
  call_ok me aad ad dc payload gv -> allows_short_circuit (v_flags me) = false -> decode_only (v_flags me) = false ->
  forall g pm v b, message msg g pm -> In v (values 4 (all_params g pm)) -> body v = CBytes b -> b = reserved_kid -> dis_short_circuit c = false ->
  forall junk log r, verify_internal c cr junk me msg aad payload want dc = (log, r) ->
  log = [] /\ (forall w, r = Ret w -> w_err w <> T_SUCCESS).
Proof. exact short_circuit_refused. Qed.
Print Assumptions C14_short_circuit_needs_permission.

(** An otherwise acceptable message gets the documented error. *)
Theorem C14_short_circuit_error : forall c cr junk me msg aad payload want dc gv g pm p pl,
  length (v_tags me) = 4%nat -> detached_arg dc payload gv -> message msg g pm ->
  acceptable c (v_flags me) dc gv g pm p pl -> short_circuit_kid c p = true ->
  allows_short_circuit (v_flags me) = false -> decode_only (v_flags me) = false ->
  exists w, verify_internal c cr junk me msg aad payload want dc = ([], Ret w) /\ w_err w = ERR_SHORT_CIRCUIT_SIG.
Proof. exact verify_sc_refused. Qed.
Print Assumptions C14_short_circuit_error.

Example C14_case : exists log me m, sc_run (-7) = (log, Ret (T_SUCCESS, me, Some (UBuf m))) /\
  sc_verify m = Some (T_SUCCESS, None, None) /\
  exists w, verify cfg_full toy NULL_UBUF (toy_verifier 0) m None false = ([], Ret w) /\ w_err w = ERR_SHORT_CIRCUIT_SIG.
Proof.
  do 3 eexists. split; [vm_compute; reflexivity|]. split; [vm_compute; reflexivity|].
  eexists. split; vm_compute; reflexivity.
Qed.

(** ** C15: decode-only *)

Theorem C15_decode_only_no_crypto : forall c cr cr2 junk me me2 msg aad payload want dc,
  v_flags me = v_flags me2 -> v_aux me = v_aux me2 -> length (v_tags me) = length (v_tags me2) ->
  decode_only (v_flags me) = true ->
  seen (verify_internal c cr junk me msg aad payload want dc) =
  seen (verify_internal c cr2 junk me2 msg aad payload want dc) /\
  fst (verify_internal c cr junk me msg aad payload want dc) = [].
Proof. exact decode_only_independent. Qed.
Print Assumptions C15_decode_only_no_crypto.

Theorem C15_decode_only_same_outputs : forall c cr cr2 junk me me2 msg aad payload want dc log w ad gv,
  length (v_tags me) = 4%nat -> length (v_tags me2) = 4%nat -> holds aad ad -> detached_arg dc payload gv ->
  v_aux me = v_aux me2 -> v_flags me2 = N.lor (v_flags me) 8 ->
  verify_internal c cr junk me msg aad payload want dc = (log, Ret w) -> w_err w = T_SUCCESS ->
  exists w2, verify_internal c cr2 junk me2 msg aad payload want dc = ([], Ret w2) /\
    w_err w2 = T_SUCCESS /\ w_payload w2 = w_payload w /\ w_params w2 = w_params w.
Proof. exact decode_only_same. Qed.
Print Assumptions C15_decode_only_same_outputs.

Example C15_case :
  toy_result (toy_verify 8 plain_msg) = Some (T_SUCCESS, Some (UBuf toy_payload), Some plain_params) /\
  toy_result (toy_verify 8 (removelast plain_msg ++ [x01])) = Some (T_SUCCESS, Some (UBuf toy_payload), Some plain_params) /\
  fst (toy_verify 8 plain_msg) = [] /\ fst (toy_verify 0 plain_msg) <> [].
Proof. split; [vm_compute; reflexivity|]. split; [vm_compute; reflexivity|]. split; [vm_compute; reflexivity|vm_compute; discriminate]. Qed.

(** ** C16: outputs *)

(** [None]: the caller's variable is not written. *)
Theorem C16_verify_outputs_on_success_only : forall c cr junk me msg aad payload want dc log w,
  verify_internal c cr junk me msg aad payload want dc = (log, Ret w) ->
  (w_err w <> T_SUCCESS -> w_payload w = None /\ w_params w = None) /\ (dc = true -> w_payload w = None).
Proof. exact outputs_on_success. Qed.
Print Assumptions C16_verify_outputs_on_success_only.

Theorem C16_sign_output_on_success_only : forall c cr me det payload aad buf log err me' r,
  sign_aad_internal c cr me det payload aad buf = (log, Ret (err, me', r)) -> err <> T_SUCCESS -> r = None.
Proof. exact sign_output_on_success. Qed.
Print Assumptions C16_sign_output_on_success_only.

Example C16_case : (exists log w, toy_verify 0 (removelast plain_msg) = (log, Ret w) /\ w_err w <> T_SUCCESS) /\
  exists log me r, sign cfg_full toy (toy_signer (-7) 0) (UBuf toy_payload) (out_buf 20) = (log, Ret (ERR_SIG_BUFFER_SIZE, me, r)).
Proof. split; do 2 eexists; [split; [vm_compute; reflexivity|vm_compute; discriminate]|eexists; vm_compute; reflexivity]. Qed.

(** ** C17-C21: header parameters *)

Theorem C17_alg_and_crit_protected : forall c cr me msg aad payload want dc log w ad gv g pm,
  call_ok me aad ad dc payload gv -> message msg g pm -> succeeds c cr me msg aad payload want dc log w ->
  values 1 (g_unprot g) = [] /\ values 2 (g_unprot g) = [].
Proof. exact protected_only. Qed.
Print Assumptions C17_alg_and_crit_protected.

Definition err_of (flags : N) (m : bytes) : option terr :=
  match toy_verify flags m with (_, Ret w) => Some (w_err w) | _ => None end.
Definition es256 : list (cbor * cbor) := [(CUInt 1, CNInt 6)].

Example C17_case :
  err_of 0 (toy_built [] (prot_of es256) [] []) = Some T_SUCCESS /\
  err_of 0 (toy_built [] (prot_of []) es256 []) = Some ERR_PARAMETER_NOT_PROTECTED /\
  err_of 0 (toy_built [] (prot_of es256) [(CUInt 2, CArray [CUInt 4])] []) = Some ERR_PARAMETER_NOT_PROTECTED.
Proof. repeat split; vm_compute; reflexivity. Qed.

Theorem C18_unknown_critical_rejected : forall c cr me msg aad payload want dc log w ad gv g pm v xs,
  call_ok me aad ad dc payload gv -> message msg g pm -> succeeds c cr me msg aad payload want dc log w ->
  allows_unknown_crit (v_flags me) = false ->
  In v (values 2 pm) -> body v = CArray xs ->
  (forall s, In s (listed_texts xs) -> ~ In s (text_labels (all_params g pm))) /\
  (forall z, In z (upto0 (listed_ints xs)) -> ~ In z (int_labels (all_params g pm))) /\
  (~ In 0%Z (listed_ints xs) -> forall z, In z (listed_ints xs) -> ~ In z (int_labels (all_params g pm))).
Proof. exact unknown_critical. Qed.
Print Assumptions C18_unknown_critical_rejected.

Example C18_case :
  let m crit := toy_built [] (prot_of (es256 ++ [(CUInt 2, CArray crit); (CUInt 99, CUInt 0)])) [] [] in
  err_of 0 (m [CUInt 4; CUInt 98]) = Some T_SUCCESS /\
  err_of 0 (m [CUInt 4; CUInt 99]) = Some ERR_UNKNOWN_CRITICAL_PARAMETER /\
  err_of 32 (m [CUInt 4; CUInt 99]) = Some T_SUCCESS.
Proof. repeat split; vm_compute; reflexivity. Qed.

(** The property is false when the label 0 is listed before: parameter 99 is
    present, critical and unknown, and the message is accepted. *)
Theorem C18_unknown_critical_refuted : exists pm log w,
  In (CUInt 2, CArray [CUInt 0; CUInt 99; CText [x61]]) pm /\ In (CUInt 99, CUInt 0) pm /\
  toy_verify 0 (toy_built [] (prot_of pm) [] []) = (log, Ret w) /\ w_err w = T_SUCCESS.
Proof.
  exists (es256 ++ [(CUInt 2, CArray [CUInt 0; CUInt 99; CText [x61]]); (CUInt 99, CUInt 0)]).
  do 2 eexists. split; [cbn; auto|]. split; [cbn; auto|]. split; vm_compute; reflexivity.
Qed.
Print Assumptions C18_unknown_critical_refuted.

(** Nor is an unknown critical parameter with label 0 noticed. *)
Theorem C18_label_zero_refuted : exists pm log w,
  In (CUInt 2, CArray [CUInt 4; CUInt 0]) pm /\ In (CUInt 0, CUInt 0) pm /\
  toy_verify 0 (toy_built [] (prot_of pm) [] []) = (log, Ret w) /\ w_err w = T_SUCCESS.
Proof.
  exists (es256 ++ [(CUInt 2, CArray [CUInt 4; CUInt 0]); (CUInt 0, CUInt 0)]).
  do 2 eexists. split; [cbn; auto|]. split; [cbn; auto|]. split; vm_compute; reflexivity.
Qed.
Print Assumptions C18_label_zero_refuted.

Theorem C19_algorithm_exact : forall c cr me msg aad payload want dc log w ad gv g pm v,
  call_ok me aad ad dc payload gv -> message msg g pm -> succeeds c cr me msg aad payload want dc log w ->
  In v (values 1 (all_params g pm)) ->
  exists z, int_value v = Some z /\ (z <= 2147483647)%Z /\ z <> 0%Z /\
    ((-2147483648 <= z)%Z ->
      (forall p, w_params w = Some p -> p_alg p = z) /\
      (forall a k kid h s, In (EvVerify a k kid h s) log -> a = z)).
Proof. exact alg_exact. Qed.
Print Assumptions C19_algorithm_exact.

Example C19_case :
  err_of 8 (toy_built [] (prot_of [(CUInt 1, CUInt 2147483647)]) [] []) = Some T_SUCCESS /\
  err_of 8 (toy_built [] (prot_of [(CUInt 1, CUInt 2147483648)]) [] []) = Some ERR_NON_INTEGER_ALG_ID.
Proof. repeat split; vm_compute; reflexivity. Qed.

(** Below the range of int32_t the property is false: -7 - 2^32 counts as ES256. *)
Theorem C19_algorithm_truncated_refuted : exists z v log w p,
  int_value v = Some z /\ (z < -2147483648)%Z /\
  toy_verify 0 (toy_built [] (prot_of [(CUInt 1, v)]) [] []) = (log, Ret w) /\ w_err w = T_SUCCESS /\
  w_params w = Some p /\ p_alg p = (-7)%Z.
Proof.
  exists (-4294967303)%Z, (CNInt 4294967302). do 3 eexists. split; [reflexivity|]. split; [reflexivity|].
  split; [vm_compute; reflexivity|]. split; [reflexivity|]. split; reflexivity.
Qed.
Print Assumptions C19_algorithm_truncated_refuted.

Theorem C20_no_duplicate_parameters : forall c cr me msg aad payload want dc log w ad gv g pm,
  call_ok me aad ad dc payload gv -> message msg g pm -> succeeds c cr me msg aad payload want dc log w ->
  (forall z, In z [1; 2; 4; 5; 6]%Z -> (length (values z (all_params g pm)) <= 1)%nat) /\
  (length (values 3 pm) <= 1)%nat /\ (length (values 3 (g_unprot g)) <= 1)%nat /\
  (dis_content_type c = false -> forall v v', In v (values 3 pm) -> In v' (values 3 (g_unprot g)) ->
     (exists s n, body v = CText s /\ body v' = CUInt n) \/ (exists s n, body v = CUInt n /\ body v' = CText s) \/
     (exists s, body v = CText [] /\ body v' = CText s)).
Proof. exact no_duplicates. Qed.
Print Assumptions C20_no_duplicate_parameters.

Example C20_case :
  let kid := (CUInt 4, CBytes [x41]) in
  err_of 0 (toy_built [] (prot_of (es256 ++ [kid])) [] []) = Some T_SUCCESS /\
  err_of 0 (toy_built [] (prot_of (es256 ++ [kid])) [kid] []) = Some ERR_DUPLICATE_PARAMETER /\
  err_of 0 (toy_built [] (prot_of es256) [kid; kid] []) = Some ERR_PARAMETER_CBOR.
Proof. repeat split; vm_compute; reflexivity. Qed.

(** Two content types are accepted when one is text and the other an integer. *)
Theorem C20_two_content_types_refuted : exists pm um log w p,
  In (CUInt 3, CUInt 1) pm /\ In (CUInt 3, CText [x61]) um /\
  toy_verify 0 (toy_built [] (prot_of pm) um []) = (log, Ret w) /\ w_err w = T_SUCCESS /\
  w_params w = Some p /\ p_ct_uint p = 1 /\ p_ct_tstr p = UBuf [x61].
Proof.
  exists (es256 ++ [(CUInt 3, CUInt 1)]), [(CUInt 3, CText [x61])]. do 3 eexists. split; [cbn; auto|]. split; [cbn; auto|].
  split; [vm_compute; reflexivity|]. split; [reflexivity|]. split; [reflexivity|]. split; reflexivity.
Qed.
Print Assumptions C20_two_content_types_refuted.

(** Or when the protected one is the empty text: the unprotected one wins. *)
Theorem C20_empty_content_type_refuted : exists pm um log w p,
  In (CUInt 3, CText []) pm /\ In (CUInt 3, CText [x61]) um /\
  toy_verify 0 (toy_built [] (prot_of pm) um []) = (log, Ret w) /\ w_err w = T_SUCCESS /\
  w_params w = Some p /\ p_ct_tstr p = UBuf [x61].
Proof.
  exists (es256 ++ [(CUInt 3, CText [])]), [(CUInt 3, CText [x61])]. do 3 eexists. split; [cbn; auto|]. split; [cbn; auto|].
  split; [vm_compute; reflexivity|]. split; [reflexivity|]. split; reflexivity.
Qed.
Print Assumptions C20_empty_content_type_refuted.

Theorem C21_content_type : forall c cr me msg aad payload want dc log w ad gv g pm p,
  call_ok me aad ad dc payload gv -> message msg g pm -> succeeds c cr me msg aad payload want dc log w ->
  w_params w = Some p -> dis_content_type c = false ->
  let vs := values 3 (all_params g pm) in
  (forall v, In v vs -> (exists n, body v = CUInt n /\ n < 65536 /\ p_ct_uint p = n) \/ exists s, body v = CText s) /\
  (p_ct_uint p = 65536 \/ p_ct_uint p < 65536 /\ exists v, In v vs /\ body v = CUInt (p_ct_uint p)) /\
  (p_ct_tstr p = UNull 0 \/ exists v s, In v vs /\ body v = CText s /\ p_ct_tstr p = UBuf s) /\
  (forall v s, In v vs -> body v = CText s -> s <> [] -> p_ct_tstr p = UBuf s) /\
  (vs = [] -> p_ct_tstr p = UNull 0 /\ p_ct_uint p = 65536).
Proof. exact content_type_exact. Qed.
Print Assumptions C21_content_type.

Example C21_case :
  let m v := toy_built [] (prot_of es256) [(CUInt 3, v)] [] in
  err_of 0 (m (CUInt 65535)) = Some T_SUCCESS /\ err_of 0 (m (CUInt 65536)) = Some ERR_BAD_CONTENT_TYPE /\
  err_of 0 (m (CNInt 0)) = Some ERR_BAD_CONTENT_TYPE /\ err_of 0 (m (CBytes [])) = Some ERR_BAD_CONTENT_TYPE /\
  err_of 0 (m (CText [x61])) = Some T_SUCCESS.
Proof. repeat split; vm_compute; reflexivity. Qed.

(** ** C22, C23: tags *)

(** The tag flags matter for nothing else: a context that differs in them only
    accepts a message iff the tag is as it wants. *)
Theorem C22_tag_policy : forall c cr me me2 msg aad payload want dc log w ad gv g pm,
  call_ok me aad ad dc payload gv -> message msg g pm -> succeeds c cr me msg aad payload want dc log w ->
  v_key me2 = v_key me -> v_aux me2 = v_aux me -> length (v_tags me2) = 4%nat ->
  (forall n, n <> 2 -> n <> 4 -> N.testbit (v_flags me2) n = N.testbit (v_flags me) n) ->
  tag_accepted (v_flags me) g /\
  ((exists w2, succeeds c cr me2 msg aad payload want dc log w2 /\ w_payload w2 = w_payload w /\ w_params w2 = w_params w)
     <-> tag_accepted (v_flags me2) g).
Proof. exact tag_policy. Qed.
Print Assumptions C22_tag_policy.

Example C22_case :
  let m tags := toy_built tags es256_prot [] [] in
  err_of 0 (m []) = Some T_SUCCESS /\ err_of 0 (m [18]) = Some T_SUCCESS /\ err_of 0 (m [18; 61]) = Some T_SUCCESS /\
  err_of 4 (m []) = Some ERR_INCORRECTLY_TAGGED /\ err_of 4 (m [18; 61]) = Some T_SUCCESS /\ err_of 4 (m [61; 18]) = Some ERR_INCORRECTLY_TAGGED /\
  err_of 16 (m []) = Some T_SUCCESS /\ err_of 16 (m [18]) = Some ERR_INCORRECTLY_TAGGED /\ err_of 16 (m [61; 18]) = Some T_SUCCESS.
Proof. repeat split; vm_compute; reflexivity. Qed.

Theorem C23_tags_returned : forall c cr junk me msg aad payload want dc log w ad gv g pm n,
  length (v_tags me) = 4%nat -> holds aad ad -> detached_arg dc payload gv -> message msg g pm ->
  verify_internal c cr junk me msg aad payload want dc = (log, Ret w) -> w_err w = T_SUCCESS ->
  ~ In (2 ^ 64 - 1) (g_tags g) -> n <> 4 ->
  get_nth_tag (w_ctx w) n = Ret (nth (N.to_nat n) (outer_tags g) (2 ^ 64 - 1)).
Proof. exact tags_returned. Qed.
Print Assumptions C23_tags_returned.

Definition tag_of (m : bytes) (n : N) : option (out N) :=
  match toy_verify 0 m with (_, Ret w) => Some (get_nth_tag (w_ctx w) n) | _ => None end.

Example C23_case : let m := toy_built [18; 61; 7] es256_prot [] [] in
  tag_of m 0 = Some (Ret 61) /\ tag_of m 1 = Some (Ret 7) /\ tag_of m 2 = Some (Ret (2 ^ 64 - 1)) /\ tag_of m 5 = Some (Ret (2 ^ 64 - 1)).
Proof. repeat split; vm_compute; reflexivity. Qed.

(** Reading tag 4 always reads outside the array. *)
Theorem C23_tag_four_out_of_bounds : forall c cr junk me msg aad payload want dc log w ad gv,
  length (v_tags me) = 4%nat -> holds aad ad -> detached_arg dc payload gv -> adapter_safe c cr [msg; ad; gv] ->
  verify_internal c cr junk me msg aad payload want dc = (log, Ret w) ->
  get_nth_tag (w_ctx w) 4 = UB OOBRead /\ (forall n, n <> 4 -> is_ret (get_nth_tag (w_ctx w) n)).
Proof. exact tag_index_four. Qed.
Print Assumptions C23_tag_four_out_of_bounds.

(** The documented loop, reading tags until it gets the invalid one, goes there
    for a message with four tags. *)
Theorem C23_get_nth_tag_refuted : exists msg log w,
  toy_verify 0 msg = (log, Ret w) /\ w_err w = T_SUCCESS /\
  (forall n, n < 4 -> exists t, get_nth_tag (w_ctx w) n = Ret t /\ t <> 2 ^ 64 - 1) /\
  get_nth_tag (w_ctx w) 4 = UB OOBRead.
Proof.
  exists (toy_built [61; 62; 63; 64] es256_prot [] []). do 2 eexists. split; [vm_compute; reflexivity|]. split; [reflexivity|].
  split; [|vm_compute; reflexivity]. intros n L.
  assert (E : n = 0 \/ n = 1 \/ n = 2 \/ n = 3) by (clear - L; lia).
  destruct E as [->|[->|[->| ->]]]; eexists; (split; [vm_compute; reflexivity|discriminate]).
Qed.
Print Assumptions C23_get_nth_tag_refuted.

(** A tag numbered 2^64-1 hides the ones around it. *)
Theorem C23_tag_hidden_refuted : exists msg log w,
  msg = toy_built [18; 2 ^ 64 - 1; 61] es256_prot [] [] /\
  toy_verify 0 msg = (log, Ret w) /\ w_err w = T_SUCCESS /\ get_nth_tag (w_ctx w) 1 = Ret (2 ^ 64 - 1).
Proof. do 3 eexists. split; [reflexivity|]. split; [vm_compute; reflexivity|]. split; reflexivity. Qed.
Print Assumptions C23_tag_hidden_refuted.

(** Before the first verification there is no tag, yet tag 0 is reported. *)
Theorem C23_fresh_context_reports_tag_zero : forall flags n, n < 4 -> get_nth_tag (verify_init flags) n = Ret 0.
Proof. exact fresh_tags. Qed.
Print Assumptions C23_fresh_context_reports_tag_zero.

(** ** C24, C42: safety *)

Theorem C24_decoding_safe : forall c junk me msg payload is_dc,
  length (v_tags me) = 4%nat -> (is_dc = true -> payload <> None) ->
  exists r me', verify_decode c junk me msg payload is_dc = Ret (r, me') /\ length (v_tags me') = 4%nat.
Proof. exact decoding_safe. Qed.
Print Assumptions C24_decoding_safe.

Example C24_case : length (v_tags (verify_init 0)) = 4%nat /\
  exists e me, verify_decode cfg_full NULL_UBUF (verify_init 0) (toy_built [1; 2; 3; 4; 5] es256_prot [] []) None false = Ret (DErr e, me).
Proof. split; [reflexivity|]. do 2 eexists. vm_compute. reflexivity. Qed.

(** Verification returns, without undefined behaviour, for every byte string;
    the context keeps its invariant, so the theorems apply to the next call. *)
Theorem C42_verification_safe : forall c cr junk me msg aad payload want dc ad gv,
  length (v_tags me) = 4%nat -> holds aad ad -> detached_arg dc payload gv -> adapter_safe c cr [msg; ad; gv] ->
  exists log w, verify_internal c cr junk me msg aad payload want dc = (log, Ret w) /\
    length (v_tags (w_ctx w)) = 4%nat /\ v_key (w_ctx w) = v_key me /\ v_flags (w_ctx w) = v_flags me /\ v_aux (w_ctx w) = v_aux me.
Proof. exact verify_safe. Qed.
Print Assumptions C42_verification_safe.

Theorem C42_uninitialised_variable_irrelevant : forall c cr junk junk' me msg aad payload want dc,
  verify_internal c cr junk me msg aad payload want dc = verify_internal c cr junk' me msg aad payload want dc.
Proof. exact verify_junk. Qed.
Print Assumptions C42_uninitialised_variable_irrelevant.

Example C42_case : adapter_safe cfg_full toy [[xff]; []; []] /\ length (v_tags (toy_verifier 0)) = 4%nat /\
  err_of 0 [] = Some ERR_SIGN1_FORMAT /\ err_of 0 [xff] = Some ERR_CBOR_NOT_WELL_FORMED.
Proof. split; [exact (toy_safe _ _)|]. repeat split; vm_compute; reflexivity. Qed.

(** ** C25: limits *)

Theorem C25_limits_enforced : forall c cr me msg aad payload want dc log w ad gv g pm,
  call_ok me aad ad dc payload gv -> message msg g pm -> succeeds c cr me msg aad payload want dc log w ->
  (length (nonzero (int_labels (all_params g pm))) <= 10)%nat /\ (length (text_labels (all_params g pm)) <= 10)%nat /\
  (forall v xs, In v (values 2 pm) -> body v = CArray xs ->
     (length (listed_ints xs) <= 10)%nat /\ (length (listed_texts xs) <= 10)%nat).
Proof. exact limits. Qed.
Print Assumptions C25_limits_enforced.

(** Within the limits parameters are no obstacle: decoding succeeds. *)
Theorem C25_limits_suffice : forall c cr me msg aad payload want dc ad gv g pm p pl ci ct,
  call_ok me aad ad dc payload gv -> message msg g pm ->
  decode_only (v_flags me) = true -> uses_eddsa c p = false ->
  tag_accepted (v_flags me) g -> reported c g pm p -> kid_ok (v_flags me) p -> payload_is g dc gv pl ->
  values 2 (g_unprot g) = [] ->
  (values 2 pm = [] /\ ci = [] /\ ct = [] \/
   exists v xs, values 2 pm = [v] /\ readable v /\ body v = CArray xs /\ Forall label_item xs /\ ci = listed_ints xs /\ ct = listed_texts xs /\
     (hd 0%Z ci <> 0%Z \/ hd [] ct <> [])) ->
  (length ci <= 10)%nat -> (length ct <= 10)%nat -> crit_ok (v_flags me) ci ct (all_params g pm) ->
  Forall (fun kv => understood (fst kv) = false -> odd_label (fst kv) = false) (all_params g pm) ->
  ~ In 0%Z (int_labels (all_params g pm)) ->
  (length (int_labels (all_params g pm)) <= 10)%nat -> (length (text_labels (all_params g pm)) <= 10)%nat ->
  exists w, succeeds c cr me msg aad payload want dc [] w.
Proof. exact limits_suffice. Qed.
Print Assumptions C25_limits_suffice.

Definition unknown_ints (n : nat) : list (cbor * cbor) := map (fun k => (CUInt (N.of_nat k), CUInt 0)) (seq 50 n).
Definition unknown_texts (n : nat) : list (cbor * cbor) := map (fun k => (CText (repeat x61 k), CUInt 0)) (seq 1 n).
Definition crit_of (n : nat) : list (cbor * cbor) := [(CUInt 2, CArray (map (fun k => CUInt (N.of_nat k)) (seq 100 n)))].
Example C25_case :
  err_of 0 (toy_built [] (prot_of (es256 ++ unknown_ints 10)) (unknown_texts 10) []) = Some T_SUCCESS /\
  err_of 0 (toy_built [] (prot_of (es256 ++ unknown_ints 11)) [] []) = Some ERR_TOO_MANY_PARAMETERS /\
  err_of 0 (toy_built [] (prot_of es256) (unknown_texts 11) []) = Some ERR_TOO_MANY_PARAMETERS /\
  err_of 0 (toy_built [] (prot_of (es256 ++ crit_of 10)) [] []) = Some T_SUCCESS /\
  err_of 0 (toy_built [] (prot_of (es256 ++ crit_of 11)) [] []) = Some ERR_CRIT_PARAMETER.
Proof. repeat split; vm_compute; reflexivity. Qed.

(** Labels 0 are not counted, so more than ten integer labels may be accepted. *)
Theorem C25_label_zero_refuted : exists um log w,
  length (int_labels um) = 11%nat /\
  toy_verify 0 (toy_built [] es256_prot um []) = (log, Ret w) /\ w_err w = T_SUCCESS.
Proof.
  exists ((CUInt 0, CUInt 0) :: unknown_ints 10). do 2 eexists. split; [reflexivity|]. split; vm_compute; reflexivity.
Qed.
Print Assumptions C25_label_zero_refuted.

(** ** C26: REQUIRE_KID *)

Theorem C26_require_kid : forall c cr me msg aad payload want dc log w ad gv g pm,
  call_ok me aad ad dc payload gv -> message msg g pm -> succeeds c cr me msg aad payload want dc log w ->
  requires_kid (v_flags me) = true -> exists v b, values 4 (all_params g pm) = [v] /\ body v = CBytes b.
Proof. exact require_kid. Qed.
Print Assumptions C26_require_kid.

(** The flag has no other effect. *)
Theorem C26_require_kid_only : forall c cr me me2 msg aad payload want dc log w ad gv g pm,
  call_ok me aad ad dc payload gv -> message msg g pm -> succeeds c cr me msg aad payload want dc log w ->
  v_key me2 = v_key me -> v_aux me2 = v_aux me -> length (v_tags me2) = 4%nat ->
  (forall n, n <> 1 -> N.testbit (v_flags me2) n = N.testbit (v_flags me) n) ->
  requires_kid (v_flags me2) = false \/ values 4 (all_params g pm) <> [] ->
  exists w2, succeeds c cr me2 msg aad payload want dc log w2 /\ w_payload w2 = w_payload w /\ w_params w2 = w_params w.
Proof. exact require_kid_only. Qed.
Print Assumptions C26_require_kid_only.

Example C26_case :
  let kid := [(CUInt 4, CBytes [x41])] in
  err_of 2 (toy_built [] es256_prot [] []) = Some ERR_NO_KID /\ err_of 10 (toy_built [] es256_prot [] []) = Some ERR_NO_KID /\
  err_of 0 (toy_built [] es256_prot [] []) = Some T_SUCCESS /\
  err_of 2 (toy_built [] es256_prot kid []) = Some T_SUCCESS /\ err_of 0 (toy_built [] es256_prot kid []) = Some T_SUCCESS.
Proof. repeat split; vm_compute; reflexivity. Qed.

(** ** C27: auxiliary buffer size *)

Theorem C27_auxiliary_size : forall c cr me msg aad payload want dc log w ad gv g pm p,
  call_ok me aad ad dc payload gv -> message msg g pm -> succeeds c cr me msg aad payload want dc log w ->
  reported c g pm p ->
  exists pl, payload_is g dc gv pl /\
  verify_auxiliary_buffer_size c (w_ctx w) =
    if negb (short_circuit_kid c p) && uses_eddsa c p then blen (sig_structure (g_prot g) ad pl)
    else verify_auxiliary_buffer_size c me.
Proof. exact aux_size_reported. Qed.
Print Assumptions C27_auxiliary_size.

(** As claimed for the first message of a context, in every build. *)
Theorem C27_first_message : forall c cr flags k aux msg aad payload want dc log w ad gv g pm p,
  let me := verify_set_auxiliary_buffer (set_verification_key (verify_init flags) k) aux in
  call_ok me aad ad dc payload gv -> message msg g pm -> succeeds c cr me msg aad payload want dc log w ->
  reported c g pm p ->
  exists pl, payload_is g dc gv pl /\
  verify_auxiliary_buffer_size c (w_ctx w) =
    if negb (short_circuit_kid c p) && uses_eddsa c p then blen (sig_structure (g_prot g) ad pl) else 0.
Proof. exact aux_size_first. Qed.
Print Assumptions C27_first_message.

Definition cfg_no_eddsa : cfg :=
  {| dis_es384 := false; dis_es512 := false; dis_ps256 := false; dis_ps384 := false; dis_ps512 := false; dis_eddsa := true;
     dis_short_circuit := false; dis_content_type := false |}.
Definition size_after (c : cfg) (m : bytes) : option (terr * N) :=
  match verify_aad c toy NULL_UBUF (toy_verifier 0) m (UBuf toy_aad) None false with
  | (_, Ret w) => Some (w_err w, verify_auxiliary_buffer_size c (w_ctx w)) | _ => None end.
Example C27_first_message_case : size_after cfg_full eddsa_msg = Some (T_SUCCESS, 23) /\
  size_after cfg_full plain_msg = Some (T_SUCCESS, 0) /\ size_after cfg_no_eddsa plain_msg = Some (T_SUCCESS, 0).
Proof. repeat split; vm_compute; reflexivity. Qed.

(** Reusing a context, the size of an earlier message stays. *)
Theorem C27_auxiliary_size_refuted : exists me msg1 msg2 log1 w1 log2 w2,
  v_aux_size me = 0 /\
  verify_aad cfg_full toy NULL_UBUF me msg1 (UBuf toy_aad) None false = (log1, Ret w1) /\ w_err w1 = T_SUCCESS /\
  verify_aad cfg_full toy NULL_UBUF (w_ctx w1) msg2 (UBuf toy_aad) None true = (log2, Ret w2) /\ w_err w2 = T_SUCCESS /\
  option_map p_alg (w_params w2) = Some (-7)%Z /\ verify_auxiliary_buffer_size cfg_full (w_ctx w2) = 23.
Proof.
  exists (toy_verifier 0), eddsa_msg, plain_msg. do 4 eexists. split; [reflexivity|]. split; [vm_compute; reflexivity|].
  split; [reflexivity|]. split; [vm_compute; reflexivity|]. split; [reflexivity|]. split; reflexivity.
Qed.
Print Assumptions C27_auxiliary_size_refuted.

(** ** C37: shape of the message *)

Theorem C37_nothing_follows : forall c cr junk me msg x t aad payload want dc log w ad gv,
  length (v_tags me) = 4%nat -> holds aad ad -> detached_arg dc payload gv ->
  reads 0 t msg -> x <> [] ->
  verify_internal c cr junk me (msg ++ x) aad payload want dc = (log, Ret w) -> w_err w <> T_SUCCESS.
Proof. exact no_trailing. Qed.
Print Assumptions C37_nothing_follows.

Theorem C37_at_least_four_elements : forall c cr junk me msg t aad payload want dc log w ad gv,
  length (v_tags me) = 4%nat -> holds aad ad -> detached_arg dc payload gv ->
  reads 0 t msg ->
  verify_internal c cr junk me msg aad payload want dc = (log, Ret w) -> w_err w = T_SUCCESS ->
  exists prot u pay sig extra, body t = CArray (CBytes prot :: u :: pay :: CBytes sig :: extra).
Proof. exact four_elements. Qed.
Print Assumptions C37_at_least_four_elements.

Example C37_case : err_of 0 plain_msg = Some T_SUCCESS /\ err_of 0 (plain_msg ++ [x00]) = Some ERR_CBOR_NOT_WELL_FORMED.
Proof. repeat split; vm_compute; reflexivity. Qed.

(** More than four elements are accepted. *)
Theorem C37_extra_elements_refuted : exists log w,
  toy_verify 0 (toy_built [18] es256_prot [] [CUInt 1; CText [x61]]) = (log, Ret w) /\ w_err w = T_SUCCESS.
Proof. do 2 eexists. split; vm_compute; reflexivity. Qed.
Print Assumptions C37_extra_elements_refuted.

(** So is anything after the map in the protected byte string, even if it is
    not CBOR. *)
Theorem C37_trailing_protected_refuted : exists log w,
  toy_verify 0 (toy_built [18] (es256_prot ++ [xff; x1c]) [] []) = (log, Ret w) /\ w_err w = T_SUCCESS.
Proof. do 2 eexists. split; vm_compute; reflexivity. Qed.
Print Assumptions C37_trailing_protected_refuted.

(** ** C38: history *)

Theorem C38_history_irrelevant : forall c cr junk me me2 msg aad payload want dc,
  v_key me = v_key me2 -> v_flags me = v_flags me2 -> v_aux me = v_aux me2 ->
  length (v_tags me) = length (v_tags me2) ->
  seen (verify_internal c cr junk me msg aad payload want dc) =
  seen (verify_internal c cr junk me2 msg aad payload want dc).
Proof. exact verify_history. Qed.
Print Assumptions C38_history_irrelevant.

Example C38_case : exists log w, toy_verify 0 (toy_built [18; 61] (protected_header (-8)) [] []) = (log, Ret w) /\
  v_tags (w_ctx w) <> v_tags (toy_verifier 0) /\
  verify_aad cfg_full toy NULL_UBUF (w_ctx w) plain_msg (UBuf toy_aad) None false <> verify_aad cfg_full toy NULL_UBUF (toy_verifier 0) plain_msg (UBuf toy_aad) None false /\
  seen (verify_aad cfg_full toy NULL_UBUF (w_ctx w) plain_msg (UBuf toy_aad) None false) =
  seen (verify_aad cfg_full toy NULL_UBUF (toy_verifier 0) plain_msg (UBuf toy_aad) None false).
Proof.
  do 2 eexists. split; [vm_compute; reflexivity|]. split; [discriminate|]. split; [vm_compute; discriminate|vm_compute; reflexivity].
Qed.

(** ** C39: NULL and empty *)

Theorem C39_null_aad_verification : forall c cr junk me msg aad aad' payload want dc,
  null_is_empty cr -> nullish aad aad' ->
  snd (verify_internal c cr junk me msg aad payload want dc) = snd (verify_internal c cr junk me msg aad' payload want dc).
Proof. exact verify_null_aad. Qed.
Print Assumptions C39_null_aad_verification.

Theorem C39_null_detached_payload_verification : forall c cr junk me msg aad y y' want,
  null_is_empty cr -> nullish y y' ->
  snd (verify_internal c cr junk me msg aad (Some y) want true) = snd (verify_internal c cr junk me msg aad (Some y') want true).
Proof. exact verify_null_payload. Qed.
Print Assumptions C39_null_detached_payload_verification.

Example C39_verification_case : null_is_empty toy /\ nullish NULL_UBUF (UBuf []) /\
  exists log me m w, sign_toy (-7) 0 = (log, Ret (T_SUCCESS, me, Some (UBuf m))) /\
    snd (verify_aad cfg_full toy NULL_UBUF (toy_verifier 0) m (UBuf []) None false) = Ret w /\ w_err w = T_SUCCESS.
Proof.
  split; [exact toy_null|]. split; [right; left; split; reflexivity|]. do 4 eexists. split; [vm_compute; reflexivity|]. split; vm_compute; reflexivity.
Qed.

(** ** C40: tampering *)

(** One signature accepted for two different contents: the hash collides, or the
    adapter accepts it for two different hashes (for EdDSA: inputs). *)
Theorem C40_no_substitution : forall c cr H size me me2 key p p2 (pr ad pl pr2 ad2 pl2 : bytes) sig,
  hash_is cr H -> (forall halg data, length (H halg data) = size halg) ->
  blen pr < 2 ^ 64 -> blen ad < 2 ^ 64 -> blen pl < 2 ^ 64 ->
  blen pr2 < 2 ^ 64 -> blen ad2 < 2 ^ 64 -> blen pl2 < 2 ^ 64 ->
  p_alg p = p_alg p2 -> short_circuit_kid c p = short_circuit_kid c p2 ->
  accepted c cr me key p (sig_structure pr ad pl) sig ->
  accepted c cr me2 key p2 (sig_structure pr2 ad2 pl2) sig ->
  (pr = pr2 /\ ad = ad2 /\ pl = pl2) \/
  (exists halg x y, hash_for (p_alg p) = Some halg /\ x <> y /\ H halg x = H halg y) \/
  (exists d d2, d <> d2 /\ cr_verify cr (p_alg p) key (p_kid p) d sig = Ret T_SUCCESS /\
     cr_verify cr (p_alg p) key (p_kid p2) d2 sig = Ret T_SUCCESS) \/
  (exists t t2, t <> t2 /\ cr_verify_eddsa cr key (p_kid p) t sig = Ret T_SUCCESS /\
     cr_verify_eddsa cr key (p_kid p2) t2 sig = Ret T_SUCCESS).
Proof. exact no_substitution. Qed.
Print Assumptions C40_no_substitution.

Theorem C40_short_circuit_tamper : forall c cr H size me me2 msg msg2 aad aad2 payload payload2 want want2 dc dc2 log log2 w w2 ad ad2 gv gv2 g g2 pm pm2 p p2,
  hash_is cr H -> (forall halg data, length (H halg data) = size halg) ->
  call_ok me aad ad dc payload gv -> call_ok me2 aad2 ad2 dc2 payload2 gv2 ->
  message msg g pm -> message msg2 g2 pm2 -> reported c g pm p -> reported c g2 pm2 p2 ->
  short_circuit_kid c p = true -> short_circuit_kid c p2 = true -> p_alg p = p_alg p2 ->
  decode_only (v_flags me) = false -> decode_only (v_flags me2) = false ->
  succeeds c cr me msg aad payload want dc log w -> succeeds c cr me2 msg2 aad2 payload2 want2 dc2 log2 w2 ->
  blen msg < 2 ^ 64 -> blen ad < 2 ^ 64 -> blen gv < 2 ^ 64 -> blen msg2 < 2 ^ 64 -> blen ad2 < 2 ^ 64 -> blen gv2 < 2 ^ 64 ->
  (forall halg, hash_for (p_alg p) = Some halg -> firstn (size halg) (g_sig g) = firstn (size halg) (g_sig g2)) ->
  exists pl pl2, payload_is g dc gv pl /\ payload_is g2 dc2 gv2 pl2 /\
  ((g_prot g = g_prot g2 /\ ad = ad2 /\ pl = pl2) \/
   exists halg x y, hash_for (p_alg p) = Some halg /\ x <> y /\ H halg x = H halg y).
Proof. exact sc_tamper. Qed.
Print Assumptions C40_short_circuit_tamper.

Example C40_case : hash_is toy (fun _ => toy_digest) /\ (forall halg data, length ((fun _ : Z => toy_digest) halg data) = 32%nat) /\
  accepted cfg_full toy 0 toy_key plain_params (sig_structure es256_prot toy_aad toy_payload)
    (toy_sig (toy_digest (sig_structure es256_prot toy_aad toy_payload))).
Proof.
  split; [exact toy_hash_is|]. split; [intros; apply toy_digest_len|].
  unfold accepted. replace (short_circuit_kid cfg_full plain_params) with false by reflexivity.
  replace (uses_eddsa cfg_full plain_params) with false by reflexivity.
  exists (-16)%Z, (toy_digest (sig_structure es256_prot toy_aad toy_payload)). split; [reflexivity|]. split; [unfold enabled; auto 10|].
  split; [|vm_compute; reflexivity].
  exists ([] : bytes), (sig_structure es256_prot toy_aad toy_payload), 32. split; [reflexivity|]. split; [|reflexivity].
  rewrite <- (app_nil_r (sig_structure es256_prot toy_aad toy_payload)) at 1.
  eapply fed_cons with (u := UBuf (sig_structure es256_prot toy_aad toy_payload)); [now left|reflexivity|apply fed_nil].
Qed.

(** ** C41: returned buffers *)

Theorem C41_returned_buffers_in_message : forall c cr junk me msg aad payload want dc log w ad gv,
  length (v_tags me) = 4%nat -> holds aad ad -> detached_arg dc payload gv ->
  verify_internal c cr junk me msg aad payload want dc = (log, Ret w) -> w_err w = T_SUCCESS ->
  (forall b, w_payload w = Some (UBuf b) -> part b msg) /\
  (forall p b, w_params w = Some p -> In (UBuf b) [p_kid p; p_iv p; p_partial_iv p; p_ct_tstr p] -> part b msg).
Proof. exact returned_parts. Qed.
Print Assumptions C41_returned_buffers_in_message.

Example C41_case : exists log w p, toy_verify 0 plain_msg = (log, Ret w) /\ w_payload w = Some (UBuf toy_payload) /\
  w_params w = Some p /\ p_kid p = UBuf [x41; x42].
Proof. do 3 eexists. split; [vm_compute; reflexivity|]. repeat split. Qed.

(** ** C44: representation *)

(** [reads 0 t msg]: the decoder's CBOR grammar, with definite and indefinite
    lengths and heads of any size, takes [msg] as the data item [t]. *)
Theorem C44_representation_irrelevant : forall c cr junk junk' me t msg msg' aad payload want dc,
  reads 0 t msg -> reads 0 t msg' ->
  verify_internal c cr junk me msg aad payload want dc = verify_internal c cr junk' me msg' aad payload want dc.
Proof. exact verify_same_item. Qed.
Print Assumptions C44_representation_irrelevant.

Definition four_items : list cbor := [CBytes es256_prot; CMap []; CBytes toy_payload;
  CBytes (toy_sig (toy_digest (sig_structure es256_prot toy_aad toy_payload)))].
Example C44_case :
  let definite := encode (CArray four_items) in let indefinite := [x9f] ++ flat_map encode four_items ++ [xff] in
  reads 0 (CArray four_items) definite /\ reads 0 (CArray four_items) indefinite /\ definite <> indefinite /\
  err_of 0 indefinite = Some T_SUCCESS.
Proof.
  assert (F : Forall (fun x => reads 1 x (encode x)) four_items).
  { repeat apply Forall_cons; try (apply reads_bytes; reflexivity); [|apply Forall_nil].
    apply reads_map; [unfold max_nesting; lia|discriminate|apply Forall_nil]. }
  split; [apply reads_array; [unfold max_nesting; lia|discriminate|exact F]|].
  split; [|split; [discriminate|vm_compute; reflexivity]].
  apply (rd_array_indef 0 four_items (flat_map encode four_items)); [unfold max_nesting; lia|]. now apply reads_all_map.
Qed.
