(** C71: short-circuit signatures need no key and no public-key cryptography. *)
From Verif Require Import Base Const QEnc Crypto Sign Verify Spec SignSpec SignMore2 Toy DecSpec VerifyMore VerifyTop RoundTrip ShortSpec ShortFacts VerifySpec.
Open Scope N_scope. Open Scope list_scope.

(** With the short-circuit option signing gives the same for every key and whatever
    the public-key functions of the adapter are; only hash functions are called. *)
Theorem C71_sign : forall c cr pk k k' me kid det payload aad buf,
  wants_short_circuit (c_flags me) = true ->
  mmap res_only (sign_aad_internal c (with_public_key cr pk) (set_signing_key me k' kid) det payload aad buf) =
  mmap res_only (sign_aad_internal c cr (set_signing_key me k kid) det payload aad buf) /\
  forall e, In e (fst (sign_aad_internal c cr (set_signing_key me k kid) det payload aad buf)) -> hash_call e.
Proof. exact sign_short_circuit. Qed.
Print Assumptions C71_sign.

(** The same in two steps. *)
Theorem C71_sign_parts : forall c cr pk k k' me kid aad e,
  wants_short_circuit (c_flags me) = true -> dis_short_circuit c = false ->
  mmap sig_only3 (encode_signature_aad c (with_public_key cr pk) (set_signing_key me k' kid) aad e) =
  mmap sig_only3 (encode_signature_aad c cr (set_signing_key me k kid) aad e) /\
  forall ev, In ev (fst (encode_signature_aad c cr (set_signing_key me k kid) aad e)) -> hash_call ev.
Proof. exact sign_short_circuit_parts. Qed.
Print Assumptions C71_sign_parts.

(** A message with the reserved kid gets the same verdict with every key and whatever
    the public-key functions are; only hash functions are called. *)
Theorem C71_verify : forall c cr pk k me msg aad payload want dc g pm v junk,
  length (v_tags me) = 4%nat -> dis_short_circuit c = false ->
  message msg g pm -> In v (values 4 (all_params g pm)) -> body v = CBytes reserved_kid ->
  seen (verify_internal c (with_public_key cr pk) junk (set_verification_key me k) msg aad payload want dc) =
  seen (verify_internal c cr junk me msg aad payload want dc) /\
  forall e, In e (fst (verify_internal c cr junk me msg aad payload want dc)) -> hash_call e.
Proof. exact verify_short_circuit. Qed.
Print Assumptions C71_verify.

(** A short-circuit message with a kid of the signer's own is not verified as such: for
    success the adapter must take the repeated hash for a signature by the key. *)
Theorem C71_own_kid : forall c cr q me (det : bool) payload aad pl ad n log me' m junk vme aad' ad' payload' given want log' w,
  configured q me -> holds payload pl -> holds aad ad -> n < 2 ^ 64 ->
  sign_aad_internal c cr me det payload aad {| wb_null := false; wb_len := n |} = (log, Ret (T_SUCCESS, me', Some (UBuf m))) ->
  wants_short_circuit (q_flags q) = true -> q_kid q <> [] -> q_kid q <> reserved_kid ->
  length (v_tags vme) = 4%nat -> holds aad' ad' -> detached_arg det payload' given -> decode_only (v_flags vme) = false ->
  verify_internal c cr junk vme m aad' payload' want det = (log', Ret w) -> w_err w = T_SUCCESS ->
  exists halg d d', hash_for (q_alg q) = Some halg /\
    digest_of cr halg (requested_tbs q ad pl) d /\ digest_of cr halg (requested_tbs q ad' (if det then given else pl)) d' /\
    cr_verify cr (q_alg q) (v_key vme) (UBuf (q_kid q)) d' (repeat_to d (ecdsa_sig_size (q_alg q))) = Ret T_SUCCESS.
Proof. exact own_kid. Qed.
Print Assumptions C71_own_kid.

(** Cases: a signer and a verifier without key and without public-key functions. *)
Definition keyless_request : request :=
  {| q_alg := -7; q_flags := 1; q_key := {| k_lib := 0; k_handle := 0 |}; q_kid := []; q_ct_uint := None; q_ct_text := None;
     q_aux := {| wb_null := true; wb_len := SIZE_MAX |} |}.
Definition keyless_message : bytes :=
  requested_message cfg_full keyless_request (Some toy_payload) (repeat_to (toy_digest (requested_tbs keyless_request [] toy_payload)) 64).
Definition hashes_only : crypto := with_public_key toy not_connected.
Definition all_hashes (l : list event) : bool :=
  forallb (fun e => match e with EvHashStart _ | EvHashUpdate _ | EvHashFinish => true | _ => false end) l.

Example C71_sign_case : exists log me,
  sign cfg_full hashes_only (sign_init 1 (-7)) (UBuf toy_payload) (out_buf 200) = (log, Ret (T_SUCCESS, me, Some (UBuf keyless_message))) /\
  length log = 9%nat /\ all_hashes log = true /\
  snd (sign cfg_full hashes_only (sign_init 0 (-7)) (UBuf toy_payload) (out_buf 200)) = UB NullDeref.
Proof. do 2 eexists. split; [vm_compute; reflexivity|]. split; [reflexivity|]. split; [reflexivity|]. vm_compute. reflexivity. Qed.

Example C71_verify_case :
  message keyless_message (asked cfg_full keyless_request (Some toy_payload) (repeat_to (toy_digest (requested_tbs keyless_request [] toy_payload)) 64))
    (asked_prot keyless_request) /\
  values 4 (all_params (asked cfg_full keyless_request (Some toy_payload) (repeat_to (toy_digest (requested_tbs keyless_request [] toy_payload)) 64))
    (asked_prot keyless_request)) = [CBytes reserved_kid] /\
  exists log w, verify cfg_full hashes_only NULL_UBUF (verify_init 1) keyless_message (Some NULL_UBUF) false = (log, Ret w) /\
    w_err w = T_SUCCESS /\ w_payload w = Some (UBuf toy_payload) /\ length log = 9%nat /\ all_hashes log = true.
Proof.
  split. { apply asked_message; [now left|exact I|vm_compute; reflexivity]. }
  split; [vm_compute; reflexivity|]. do 2 eexists. split; [vm_compute; reflexivity|]. repeat split.
Qed.

(** With kid AB the toy adapter refuses the same hash, an adapter that accepts anything
    does not. *)
Definition trusting : crypto := with_public_key toy
  {| pk_sig_size := cr_sig_size toy; pk_sign := cr_sign toy; pk_verify := fun _ _ _ _ _ => Ret T_SUCCESS; pk_sign_eddsa := cr_sign_eddsa toy;
     pk_verify_eddsa := fun _ _ _ _ => Ret T_SUCCESS; pk_is_supported := fun _ => true |}.
Example C71_own_kid_case : exists log me m,
  sign cfg_full trusting (toy_signer (-7) 1) (UBuf toy_payload) (out_buf 200) = (log, Ret (T_SUCCESS, me, Some (UBuf m))) /\
  wants_short_circuit (q_flags (toy_request (-7) 1)) = true /\ q_kid (toy_request (-7) 1) <> [] /\ q_kid (toy_request (-7) 1) <> reserved_kid /\
  let v cr := match snd (verify cfg_full cr NULL_UBUF (toy_verifier 1) m None false) with Ret w => Some (w_err w) | UB _ => None end in
  v toy = Some ERR_SIG_VERIFY /\ v trusting = Some T_SUCCESS.
Proof. do 3 eexists. split; [vm_compute; reflexivity|]. repeat split; try discriminate; vm_compute; reflexivity. Qed.

(** The documentation of t_cose_sign1_set_verification_key() says that the mode works
    whatever the adapter does, as it is never called. The hash functions are called: with
    an adapter that has none the message is refused. *)
Definition no_hashes : crypto :=
  {| cr_hctx := bytes; cr_hash_start := fun _ => (ERR_UNSUPPORTED_HASH, []); cr_hash_update := fun h _ => Ret h;
     cr_hash_finish := fun _ _ => Ret (ERR_HASH_GENERAL_FAIL, []); cr_sig_size := cr_sig_size toy; cr_sign := cr_sign toy; cr_verify := cr_verify toy;
     cr_sign_eddsa := cr_sign_eddsa toy; cr_verify_eddsa := cr_verify_eddsa toy; cr_is_supported := cr_is_supported toy |}.
Theorem C71_never_called_refuted : exists log w log2 w2,
  verify cfg_full toy NULL_UBUF (verify_init 1) keyless_message None false = (log, Ret w) /\ w_err w = T_SUCCESS /\ log <> [] /\
  verify cfg_full no_hashes NULL_UBUF (verify_init 1) keyless_message None false = (log2, Ret w2) /\ w_err w2 = ERR_UNSUPPORTED_HASH.
Proof. do 4 eexists. split; [vm_compute; reflexivity|]. split; [reflexivity|]. split; [discriminate|]. split; [vm_compute; reflexivity|reflexivity]. Qed.
Print Assumptions C71_never_called_refuted.
