(** Properties of contexts made, configured and used through the API. Each
    theorem is followed by a concrete case that meets its hypotheses. *)
From Verif Require Import Base Const QEnc QDec Crypto Util ShortCircuit Params Verify Sign Spec SignSpec ApiSpec Toy.
From Verif Require Import SignProofs SignMore SignMore2 VerifyMore VerifyMore4 VerifyTop VerifySafe RoundTrip ApiFacts VerifySpec.
From Coq Require Import Lia.
Open Scope N_scope. Open Scope list_scope.
Local Strategy 100 [sign_aad_internal verify_internal].

(** A signing context with a history: another key, kid and content type first,
    a failed call, then the settings of [toy_request] and a successful call. *)
Definition used_ops : list sop :=
  [SetKey {| k_lib := 3; k_handle := 9 |} [x58]; SetContentUint 7; SetContentUint 42; Signing;
   SetAux toy_aux; SetKey toy_key [x41; x42]; Signing].
Definition after {A B} (x : M (A * sctx * B)) (d : sctx) : sctx := match x with (_, Ret (_, me, _)) => me | _ => d end.
Definition used_before : sctx :=
  set_content_type_uint (set_content_type_uint (set_signing_key (sign_init 0 (-8)) {| k_lib := 3; k_handle := 9 |} (UBuf [x58])) 7) 42.
Definition failed_sign := sign_aad_internal cfg_full toy used_before false (UBuf toy_payload) NULL_UBUF (out_buf 200).
Definition used_set : sctx := set_signing_key (sign_set_auxiliary_buffer (after failed_sign used_before) toy_aux) toy_key (UBuf [x41; x42]).
Definition good_sign := sign_aad_internal cfg_full toy used_set false (UBuf toy_payload) NULL_UBUF (out_buf 200).
Definition used_signer : sctx := after good_sign used_set.

Lemma failed_sign_is : exists log, failed_sign = (log, Ret (ERR_NEED_AUXILIARY_BUFFER, after failed_sign used_before, None)).
Proof. eexists. vm_compute. reflexivity. Qed.
Lemma good_sign_is : exists log m, good_sign = (log, Ret (T_SUCCESS, used_signer, Some (UBuf m))).
Proof. do 2 eexists. vm_compute. reflexivity. Qed.
Lemma used_before_history : signing_history cfg_full 0 (-8) (firstn 3 used_ops) used_before.
Proof.
  refine (sh_uint _ _ _ [_; _] _ _ _ _); [|reflexivity]. refine (sh_uint _ _ _ [_] _ _ _ _); [|reflexivity].
  exact (sh_key _ _ _ [] _ _ _ _ (sh_init _ _ _) (or_introl eq_refl)).
Qed.
Lemma used_signer_history : signing_history cfg_full 0 (-8) used_ops used_signer.
Proof.
  destruct failed_sign_is as (l1 & E1). destruct good_sign_is as (l2 & m & E2). unfold failed_sign at 1 in E1. unfold good_sign in E2.
  apply (sh_sign _ _ _ _ _ _ _ _ _ _ _ _ _ _ used_before_history) in E1.
  apply (sh_aux _ _ _ _ _ toy_aux) in E1. apply (sh_key _ _ _ _ _ toy_key (UBuf [x41; x42]) [x41; x42]) in E1; [|now left].
  exact (sh_sign _ _ _ _ _ _ _ _ _ _ _ _ _ _ E1 E2).
Qed.

(** A verification context that has already verified something else. *)
Definition used_verify :=
  verify_internal cfg_full toy NULL_UBUF (toy_verifier 0) (toy_built [18; 61] es256_prot [] []) NULL_UBUF None false false.
Definition used_verifier : vctx := match used_verify with (_, Ret w) => w_ctx w | _ => toy_verifier 0 end.
Definition used_vops : list vop := [VSetKey toy_key; VSetAux toy_aux; Verifying].
Lemma used_verifier_history : verifying_history cfg_full 0 used_vops used_verifier.
Proof.
  assert (E : exists log w, used_verify = (log, Ret w)) by (do 2 eexists; vm_compute; reflexivity).
  unfold used_verifier. destruct E as (log & w & E). rewrite E. unfold used_verify in E.
  refine (vh_verify _ _ (firstn 2 used_vops) _ _ _ _ _ _ _ _ _ _ _ _ E); [|discriminate].
  exact (vh_aux _ _ [_] _ _ (vh_key _ _ [] _ _ (vh_init _ _))).
Qed.

(** ** C49: signing contexts *)

Theorem C49_settings_last_given : forall c flags alg h me,
  signing_history c flags alg h me -> configured (asked_for flags alg h) me.
Proof. exact history_configured. Qed.
Print Assumptions C49_settings_last_given.

Example C49_case : signing_history cfg_full 0 (-8) used_ops used_signer /\
  asked_for 0 (-8) used_ops = toy_request (-8) 0 /\ used_signer <> toy_signer (-8) 0.
Proof. split; [exact used_signer_history|]. split; [reflexivity|vm_compute; discriminate]. Qed.

(** What the order of the settings was does not matter, nor what was signed in
    between. *)
Theorem C49_message_of_history : forall c cr flags alg h me det payload aad pl ad n log me' r,
  signing_history c flags alg h me -> holds payload pl -> holds aad ad ->
  sign_aad_internal c cr me det payload aad {| wb_null := false; wb_len := n |} = (log, Ret (T_SUCCESS, me', r)) ->
  exists sig room,
    let m := requested_message c (asked_for flags alg h) (if det then None else Some pl) sig in
    r = Some (UBuf m) /\ blen m <= n /\ room <= n /\
    signature_of cr (asked_for flags alg h) (requested_tbs (asked_for flags alg h) ad pl) room sig /\
    enabled c (q_alg (asked_for flags alg h)).
Proof.
  intros c cr flags alg h me det payload aad pl ad n log me' r H.
  exact (sign_success_spec c cr _ me det payload aad pl ad n log me' r (history_configured _ _ _ _ _ H)).
Qed.
Print Assumptions C49_message_of_history.

Example C49_message_case : exists log me' m,
  sign_aad_internal cfg_full toy used_signer false (UBuf toy_payload) NULL_UBUF {| wb_null := false; wb_len := 200 |} = (log, Ret (T_SUCCESS, me', Some (UBuf m))) /\
  exists sig, m = requested_message cfg_full (toy_request (-8) 0) (Some toy_payload) sig.
Proof.
  assert (E : exists log me' m, sign_aad_internal cfg_full toy used_signer false (UBuf toy_payload) NULL_UBUF {| wb_null := false; wb_len := 200 |} = (log, Ret (T_SUCCESS, me', Some (UBuf m))))
    by (do 3 eexists; vm_compute; reflexivity).
  destruct E as (log & me' & m & E). exists log, me', m. split; [exact E|].
  pose proof (C49_message_of_history _ _ _ _ _ _ _ _ _ toy_payload [] _ _ _ _ used_signer_history
    (or_introl eq_refl) (or_intror (conj eq_refl eq_refl)) E) as (sig & room & R & _).
  exists sig. assert (Q : m = requested_message cfg_full (asked_for 0 (-8) used_ops) (Some toy_payload) sig) by (clear E; congruence).
  rewrite Q. f_equal.
Qed.

(** ** C43: history *)

Theorem C43_any_history : forall c flags alg h h2 me me2 cr det payload aad buf,
  signing_history c flags alg h me -> signing_history c flags alg h2 me2 ->
  asked_for flags alg h = asked_for flags alg h2 ->
  mmap res_only (sign_aad_internal c cr me det payload aad buf)
  = mmap res_only (sign_aad_internal c cr me2 det payload aad buf).
Proof. exact history_sign. Qed.
Print Assumptions C43_any_history.

Theorem C43_any_history_parameters : forall c flags alg h h2 me me2 det e,
  signing_history c flags alg h me -> signing_history c flags alg h2 me2 ->
  asked_for flags alg h = asked_for flags alg h2 ->
  exists err me' me2' e', encode_parameters_internal c me det e = (err, me', e') /\
    encode_parameters_internal c me2 det e = (err, me2', e').
Proof. exact history_params. Qed.
Print Assumptions C43_any_history_parameters.

Example C43_any_history_case :
  signing_history cfg_full 0 (-8) used_ops used_signer /\
  signing_history cfg_full 0 (-8) [SetKey toy_key [x41; x42]; SetAux toy_aux; SetContentUint 42] (toy_signer (-8) 0) /\
  asked_for 0 (-8) used_ops = asked_for 0 (-8) [SetKey toy_key [x41; x42]; SetAux toy_aux; SetContentUint 42].
Proof.
  split; [exact used_signer_history|]. split; [|reflexivity].
  refine (sh_uint _ _ _ [_; _] _ _ _ _); [|reflexivity].
  exact (sh_aux _ _ _ [_] _ _ (sh_key _ _ _ [] _ _ _ _ (sh_init _ _ _) (or_introl eq_refl))).
Qed.

(** ** C50: verification contexts *)

Theorem C50_settings_last_given : forall c flags h me,
  verifying_history c flags h me ->
  length (v_tags me) = 4%nat /\ v_flags me = flags /\ (v_key me, v_aux me) = verify_settings h.
Proof. exact history_verify_settings. Qed.
Print Assumptions C50_settings_last_given.

Example C50_case : verifying_history cfg_full 0 used_vops used_verifier /\
  verify_settings used_vops = (toy_key, toy_aux) /\ used_verifier <> toy_verifier 0.
Proof. split; [exact used_verifier_history|]. split; [reflexivity|vm_compute; discriminate]. Qed.

(** ** C38: history *)

Theorem C38_any_history : forall c flags h h2 me me2 cr junk msg aad payload want dc,
  verifying_history c flags h me -> verifying_history c flags h2 me2 ->
  verify_settings h = verify_settings h2 ->
  seen (verify_internal c cr junk me msg aad payload want dc) =
  seen (verify_internal c cr junk me2 msg aad payload want dc).
Proof. exact history_verify. Qed.
Print Assumptions C38_any_history.

Example C38_any_history_case :
  verifying_history cfg_full 0 used_vops used_verifier /\ verifying_history cfg_full 0 [VSetAux toy_aux; VSetKey toy_key]
    (set_verification_key (verify_set_auxiliary_buffer (verify_init 0) toy_aux) toy_key) /\
  verify_settings used_vops = verify_settings [VSetAux toy_aux; VSetKey toy_key].
Proof.
  split; [exact used_verifier_history|]. split; [|reflexivity].
  exact (vh_key _ _ [_] _ _ (vh_aux _ _ [] _ _ (vh_init _ _))).
Qed.

(** ** C42: no undefined behaviour, for every context the API can make *)

Theorem C42_any_history : forall c flags h me cr junk msg aad payload want dc ad gv,
  verifying_history c flags h me -> holds aad ad -> detached_arg dc payload gv -> adapter_safe c cr [msg; ad; gv] ->
  exists log w, verify_internal c cr junk me msg aad payload want dc = (log, Ret w) /\
    verifying_history c flags (h ++ [Verifying]) (w_ctx w).
Proof.
  intros c flags h me cr junk msg aad payload want dc ad gv H A D S.
  destruct (history_verify_settings _ _ _ _ H) as (L & _).
  destruct (verify_safe c cr junk me msg aad payload want dc ad gv L A D S) as (log & w & E & _).
  exists log, w. split; [exact E|]. refine (vh_verify _ _ _ _ _ _ _ _ _ _ _ _ _ H _ E).
  intros X N. destruct (D X) as (u & Y & _). congruence.
Qed.
Print Assumptions C42_any_history.

Example C42_any_history_case : verifying_history cfg_full 0 used_vops used_verifier /\ adapter_safe cfg_full toy [[xff]; []; []].
Proof. split; [exact used_verifier_history|exact (toy_safe _ _)]. Qed.

(** ** C05: round trip, for every pair of contexts the API can make *)

Theorem C05_round_trip_any_history : forall c cr flags alg h me payload pl n log me' m vflags vh vme junk o want,
  signing_history c flags alg h me -> verifying_history c vflags vh vme -> holds payload pl -> n < 2 ^ 64 ->
  let q := asked_for flags alg h in
  let (vkey, vaux) := verify_settings vh in
  sign c cr me payload {| wb_null := false; wb_len := n |} = (log, Ret (T_SUCCESS, me', Some (UBuf m))) ->
  demands_met q vflags -> keys_match cr alg (q_key q) vkey -> one_digest cr -> hash_reliable c cr [pl] ->
  wants_short_circuit flags = false -> q_kid q <> reserved_kid \/ dis_short_circuit c = true ->
  (alg = (-8)%Z -> wb_null vaux = false /\ blen (requested_tbs q [] pl) <= wb_len vaux) ->
  exists log' w, verify c cr junk vme m o want = (log', Ret w) /\
    w_err w = T_SUCCESS /\
    w_params w = (if want then Some (asked_params c q) else None) /\
    w_payload w = match o with Some _ => Some (UBuf pl) | None => None end.
Proof. exact history_round_trip. Qed.
Print Assumptions C05_round_trip_any_history.

Example C05_any_history_case : exists log me' m log' w,
  sign cfg_full toy used_signer (UBuf toy_payload) (out_buf 200) = (log, Ret (T_SUCCESS, me', Some (UBuf m))) /\
  demands_met (asked_for 0 (-8) used_ops) 0 /\ keys_match toy (-8) toy_key toy_key /\
  verify cfg_full toy NULL_UBUF used_verifier m (Some NULL_UBUF) true = (log', Ret w) /\
  w_err w = T_SUCCESS /\ w_payload w = Some (UBuf toy_payload).
Proof.
  do 5 eexists. split; [vm_compute; reflexivity|]. split; [repeat split; intros; vm_compute in *; congruence|].
  split; [apply toy_keys|]. split; [vm_compute; reflexivity|]. split; vm_compute; reflexivity.
Qed.

(** ** C06: the same for detached payloads *)

Theorem C06_round_trip_any_history : forall c cr flags alg h me payload aad pl ad n log me' m vflags vh vme junk aad' payload' want,
  signing_history c flags alg h me -> verifying_history c vflags vh vme -> holds payload pl -> holds aad ad -> n < 2 ^ 64 ->
  let q := asked_for flags alg h in
  let (vkey, vaux) := verify_settings vh in
  sign_detached c cr me aad payload {| wb_null := false; wb_len := n |} = (log, Ret (T_SUCCESS, me', Some (UBuf m))) ->
  holds aad' ad -> holds payload' pl ->
  demands_met q vflags -> keys_match cr alg (q_key q) vkey -> one_digest cr -> hash_reliable c cr [ad; pl] ->
  wants_short_circuit flags = false -> q_kid q <> reserved_kid \/ dis_short_circuit c = true ->
  (alg = (-8)%Z -> wb_null vaux = false /\ blen (requested_tbs q ad pl) <= wb_len vaux) ->
  exists log' w, verify_detached c cr junk vme m aad' payload' want = (log', Ret w) /\
    w_err w = T_SUCCESS /\
    w_params w = (if want then Some (asked_params c q) else None) /\ w_payload w = None.
Proof. exact history_round_trip_detached. Qed.
Print Assumptions C06_round_trip_any_history.

Example C06_any_history_case : exists log me' m log' w,
  sign_detached cfg_full toy used_signer (UBuf toy_aad) (UBuf toy_payload) (out_buf 200) = (log, Ret (T_SUCCESS, me', Some (UBuf m))) /\
  verify_detached cfg_full toy NULL_UBUF used_verifier m (UBuf toy_aad) (UBuf toy_payload) true = (log', Ret w) /\
  w_err w = T_SUCCESS /\ w_payload w = None.
Proof. do 5 eexists. split; [vm_compute; reflexivity|]. split; [vm_compute; reflexivity|]. split; vm_compute; reflexivity. Qed.

(** ** C48: signing has no undefined behaviour, for every context the API can make *)

Theorem C48_any_history : forall c cr flags alg h me (det : bool) payload aad pl ad buf,
  signing_history c flags alg h me -> holds payload pl -> holds aad ad ->
  let q := asked_for flags alg h in
  hashing_safe c cr [ad; pl] ->
  (wants_short_circuit flags = true -> forall halg data d, digest_of cr halg data d -> d <> []) ->
  (wb_null buf = false -> wants_short_circuit flags = false ->
     forall room, blen (requested_message c q (if det then None else Some pl) []) + room = wb_len buf + 2 -> 0 < room ->
     (alg <> (-8)%Z -> forall d, is_ret (cr_sign cr alg (q_key q) d room)) /\
     (alg = (-8)%Z -> forall t, is_ret (cr_sign_eddsa cr (q_key q) t room))) ->
  exists log err me' r, sign_aad_internal c cr me det payload aad buf = (log, Ret (err, me', r)) /\
    signing_history c flags alg (h ++ [Signing]) me'.
Proof. exact history_sign_safe. Qed.
Print Assumptions C48_any_history.

Example C48_any_history_case : signing_history cfg_full 0 (-8) used_ops used_signer /\
  hashing_safe cfg_full toy [toy_aad; toy_payload] /\ (forall t, is_ret (cr_sign_eddsa toy toy_key t 64)).
Proof. split; [exact used_signer_history|]. split; [exact (proj1 (toy_safe _ _))|]. intros t. vm_compute. exact I. Qed.
