(** C61: signing succeeds when it can. *)
From Verif Require Import Base Const QEnc Crypto OpenSSL Psa AdapterSpec Sign Spec SignSpec SignErrorSpec Toy Demo LiveSpec LiveFacts LiveAdapter LiveDemo.
Open Scope N_scope. Open Scope list_scope.

(** A request without faults, an adapter that works, and buffers of the size the
    message and EdDSA need: the message asked for is made, of the size known
    beforehand. *)
Theorem C61_signing_succeeds : forall c cr q me (det : bool) payload aad pl ad n room,
  configured q me -> holds payload pl -> holds aad ad -> (det = true -> u_is_null payload = false) ->
  faultless c q -> signer_works c cr q [ad; pl] n ->
  (plain_eddsa q -> wb_null (q_aux q) = false /\ blen (requested_tbs q ad pl) <= wb_len (q_aux q)) ->
  let op := if det then None else Some pl in
  blen (requested_message c q op []) <= MAX_OFFSET -> message_size c q op n <= room ->
  exists log me' sig, sign_aad_internal c cr me det payload aad {| wb_null := false; wb_len := room |}
    = (log, Ret (T_SUCCESS, me', Some (UBuf (requested_message c q op sig)))) /\
    blen (requested_message c q op sig) = message_size c q op n.
Proof. exact signing_succeeds. Qed.
Print Assumptions C61_signing_succeeds.

(** With no output buffer that size is given, and the size of the auxiliary buffer
    that EdDSA needs; the context can be used again. *)
Theorem C61_measuring_succeeds : forall c cr q me (det : bool) payload aad (pl ad : bytes) n room,
  configured q me -> u_len payload = blen pl -> u_len aad = blen ad -> (det = true -> u_is_null payload = false) ->
  faultless c q -> signer_works c cr q [ad; pl] n ->
  (plain_eddsa q -> blen (requested_tbs q ad pl) <= wb_len (q_aux q)) ->
  let op := if det then None else Some pl in
  blen (requested_message c q op []) <= MAX_OFFSET -> message_size c q op n <= room ->
  exists log me', sign_aad_internal c cr me det payload aad {| wb_null := true; wb_len := room |}
    = (log, Ret (T_SUCCESS, me', Some (UNull (message_size c q op n)))) /\ configured q me' /\
    (plain_eddsa q -> sign_auxiliary_buffer_size c me' = blen (requested_tbs q ad pl)).
Proof. exact measuring_succeeds. Qed.
Print Assumptions C61_measuring_succeeds.

(** So measuring, making buffers of just these sizes and signing succeeds. *)
Theorem C61_measured_is_enough : forall c cr q me (det : bool) payload aad pl ad n,
  configured q me -> holds payload pl -> holds aad ad -> (det = true -> u_is_null payload = false) ->
  faultless c q -> signer_works c cr q [ad; pl] n ->
  q_aux q = {| wb_null := true; wb_len := SIZE_MAX |} -> blen (requested_tbs q ad pl) <= SIZE_MAX ->
  let op := if det then None else Some pl in
  blen (requested_message c q op []) <= MAX_OFFSET -> message_size c q op n <= SIZE_MAX ->
  exists log me1 size,
    sign_aad_internal c cr me det payload aad {| wb_null := true; wb_len := SIZE_MAX |} = (log, Ret (T_SUCCESS, me1, Some (UNull size))) /\
    let me2 := sign_set_auxiliary_buffer me1 {| wb_null := false; wb_len := sign_auxiliary_buffer_size c me1 |} in
    exists log' me3 m,
      sign_aad_internal c cr me2 det payload aad {| wb_null := false; wb_len := size |} = (log', Ret (T_SUCCESS, me3, Some (UBuf m))) /\
      blen m = size.
Proof. exact measured_is_enough. Qed.
Print Assumptions C61_measured_is_enough.

(** With OpenSSL, for a key handed over as its documentation says. *)
Theorem C61_openssl : forall c lib H q me (det : bool) payload aad pl ad room,
  openssl_works lib H -> ossl_can_hash lib ->
  (wants_short_circuit (q_flags q) = false ->
   ossl_key (q_key q) /\ on_curve lib (q_alg q) (k_handle (q_key q)) /\ ossl_can_sign lib (q_alg q) (k_handle (q_key q))) ->
  let n := if wants_short_circuit (q_flags q) then ecdsa_sig_size (q_alg q) else ossl_signature_size lib (q_alg q) (k_handle (q_key q)) in
  configured q me -> holds payload pl -> holds aad ad -> (det = true -> u_is_null payload = false) -> faultless c q ->
  (plain_eddsa q -> wb_null (q_aux q) = false /\ blen (requested_tbs q ad pl) <= wb_len (q_aux q)) ->
  let op := if det then None else Some pl in
  blen (requested_message c q op []) <= MAX_OFFSET -> message_size c q op n <= room ->
  exists log me' sig, sign_aad_internal c (openssl c lib) me det payload aad {| wb_null := false; wb_len := room |}
    = (log, Ret (T_SUCCESS, me', Some (UBuf (requested_message c q op sig)))) /\
    blen (requested_message c q op sig) = message_size c q op n.
Proof. exact ossl_signing_succeeds. Qed.
Print Assumptions C61_openssl.

(** With PSA, all algorithms but EdDSA. *)
Theorem C61_psa : forall c lib H q me (det : bool) payload aad pl ad n room,
  psa_hash_library lib H -> psa_within_room lib -> psa_can_hash lib ->
  (if wants_short_circuit (q_flags q) then n = ecdsa_sig_size (q_alg q)
   else q_alg q <> (-8)%Z /\ psa_can_sign lib (q_alg q) (k_handle (q_key q)) n) ->
  configured q me -> holds payload pl -> holds aad ad -> (det = true -> u_is_null payload = false) -> faultless c q ->
  let op := if det then None else Some pl in
  blen (requested_message c q op []) <= MAX_OFFSET -> message_size c q op n <= room ->
  exists log me' sig, sign_aad_internal c (psa_crypto c lib) me det payload aad {| wb_null := false; wb_len := room |}
    = (log, Ret (T_SUCCESS, me', Some (UBuf (requested_message c q op sig)))) /\
    blen (requested_message c q op sig) = message_size c q op n.
Proof. exact psa_signing_succeeds. Qed.
Print Assumptions C61_psa.

(** Cases: the toy adapter with ES256 and EdDSA (84 bytes for both), and one byte
    less; the demonstration libraries. *)
Definition live_code {A B} (x : M (terr * A * B)) : option terr := match snd x with Ret (e, _, _) => Some e | UB _ => None end.
Example C61_case :
  configured (toy_request (-7) 0) (toy_signer (-7) 0) /\ faultless cfg_full (toy_request (-7) 0) /\
  signer_works cfg_full toy (toy_request (-7) 0) [toy_aad; toy_payload] 64 /\
  configured (toy_request (-8) 0) (toy_signer (-8) 0) /\ faultless cfg_full (toy_request (-8) 0) /\
  signer_works cfg_full toy (toy_request (-8) 0) [toy_aad; toy_payload] 64 /\
  plain_eddsa (toy_request (-8) 0) /\ blen (requested_tbs (toy_request (-8) 0) toy_aad toy_payload) <= 200 /\
  message_size cfg_full (toy_request (-7) 0) (Some toy_payload) 64 = 84 /\
  let s alg n := sign_aad_internal cfg_full toy (toy_signer alg 0) false (UBuf toy_payload) (UBuf toy_aad) (out_buf n) in
  map (fun n => live_code (s (-7)%Z n)) [84; 83] = [Some T_SUCCESS; Some ERR_TOO_SMALL] /\
  map (fun n => live_code (s (-8)%Z n)) [84; 83] = [Some T_SUCCESS; Some ERR_TOO_SMALL].
Proof.
  assert (F : forall alg, enabled cfg_full alg -> faultless cfg_full (toy_request alg 0)).
  { intros alg E. split; [exact E|]. split; [intros [X _]; discriminate|]. split; [intros (_ & _ & X); now apply X|intros [X _]; discriminate]. }
  split; [apply toy_configured|]. split; [apply F; now left|]. split; [now apply toy_works|].
  split; [apply toy_configured|]. split; [apply F; unfold enabled; auto 10|]. split; [now apply toy_works|].
  split; [split; reflexivity|]. split; [vm_compute; discriminate|]. split; [vm_compute; reflexivity|].
  split; vm_compute; reflexivity.
Qed.
Example C61_openssl_case :
  openssl_works demo_ossl demo_hash /\ ossl_can_hash demo_ossl /\ ossl_key toy_key /\ on_curve demo_ossl (-7) 7 /\
  ossl_can_sign demo_ossl (-7) 7 /\ ossl_can_sign demo_ossl (-37) 7 /\ ossl_can_sign demo_ossl (-8) 7 /\
  live_code (sign_aad_internal cfg_full (openssl cfg_full demo_ossl) (toy_signer (-7) 0) false (UBuf toy_payload) (UBuf toy_aad) (out_buf 84)) = Some T_SUCCESS.
Proof.
  split; [apply demo_works|]. split; [apply demo_can_hash|]. split; [split; [reflexivity|discriminate]|]. split; [apply demo_curve|].
  split; [apply demo_can_sign|]. split; [apply demo_can_sign|]. split; [apply demo_can_sign|]. vm_compute. reflexivity.
Qed.
Example C61_psa_case :
  psa_hash_library demo_psa demo_hash /\ psa_within_room demo_psa /\ psa_can_hash demo_psa /\ psa_can_sign demo_psa (-7) 7 64 /\
  live_code (sign_aad_internal cfg_full (psa_crypto cfg_full demo_psa) (toy_signer (-7) 0) false (UBuf toy_payload) (UBuf toy_aad) (out_buf 84)) = Some T_SUCCESS.
Proof.
  split; [apply demo_psa_hash|]. split; [apply demo_psa_room|]. split; [apply demo_psa_can_hash|]. split; [now apply demo_psa_can_sign|].
  vm_compute. reflexivity.
Qed.
