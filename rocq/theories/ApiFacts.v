(** What calls of the API leave in a context. *)
From Verif Require Import Base Const QEnc QDec Crypto Util ShortCircuit Sign Params Verify Spec SignSpec ApiSpec.
From Verif Require Import BaseFacts SignFacts SignProofs SignMore SignMore2 VerifyDec VerifySafe VerifyMore VerifyMore4 RoundTrip SignSafe VerifySpec.
Open Scope N_scope. Open Scope list_scope.
Local Open Scope mon_scope.
Local Strategy 100 [create_tbs create_tbs_hash verify_decode].

(** ** Signing *)

Lemma same_config_refl me : same_config me me.
Proof. repeat split. now left. Qed.

(** [me'] is [me] with the fields that signing itself writes. *)
Definition used (me me' : sctx) : Prop := exists p n, me' = sc_set_aux_size (sc_set_prot me p) n.

Lemma used_refl me : used me me.
Proof. exists (c_prot me), (c_aux_size me). destruct me. reflexivity. Qed.
Lemma used_trans a b d : used a b -> used b d -> used a d.
Proof. intros (p & n & ->) (p' & n' & ->). exists p', n'. reflexivity. Qed.
Lemma used_prot me p : used me (sc_set_prot me p).
Proof. exists p, (c_aux_size me). reflexivity. Qed.
Lemma used_size me n : used me (sc_set_aux_size me n).
Proof. exists (c_prot me), n. reflexivity. Qed.

Lemma params_used c me det e err me' e' :
  encode_parameters_internal c me det e = (err, me', e') -> used me me'.
Proof.
  unfold encode_parameters_internal. destruct (negb _).
  { intro H. injection H as <- <- <-. apply used_refl. }
  destruct (encode_protected_parameters _ _) as [e1 p]. destruct (_ && dis_short_circuit c).
  { intro H. injection H as <- <- <-. apply used_prot. }
  destruct (add_unprotected_parameters _ _ _ _) as [er e2].
  destruct (negb _); intro H; injection H as <- <- <-; apply used_prot.
Qed.

Lemma core_used c cr me prot aad pl buf log err me' n w :
  sign_core c cr me prot aad pl buf = (log, Ret (err, me', n, w)) -> used me me'.
Proof.
  unfold sign_core. destruct (_ && _); [|destruct (_ && _)].
  - unfold sign1_sign_short_circuit. intro H. apply mbind_ret_inv in H as (l1 & [er h] & l2 & _ & H & _).
    destruct (negb _); [unfold mret in H; injection H as <- <- <- <- <-; apply used_refl|].
    destruct (wb_null buf).
    + destruct (short_circuit_sig_size _). unfold mret in H. injection H as <- <- <- <- <-. apply used_refl.
    + apply mbind_ret_inv in H as (l3 & [er2 s] & l4 & _ & H & _). unfold mret in H.
      injection H as <- <- <- <- <-. apply used_refl.
  - unfold sign1_sign_eddsa. destruct (create_tbs _ _ _ _) as [er tbs]. destruct (negb _).
    { unfold mret. intro H. injection H as <- <- <- <- <-. apply used_refl. }
    destruct tbs; [|discriminate]. destruct (wb_null buf).
    + intro H. apply mbind_ret_inv in H as (l3 & [er2 s] & l4 & _ & H & _). unfold mret in H.
      injection H as <- <- <- <- <-. apply used_size.
    + destruct (wb_null (c_aux _)).
      { unfold mret. intro H. injection H as <- <- <- <- <-. apply used_size. }
      intro H. apply mbind_ret_inv in H as (l3 & [er2 s] & l4 & _ & H & _). unfold mret in H.
      injection H as <- <- <- <- <-. apply used_size.
  - unfold sign1_sign_default. intro H. apply mbind_ret_inv in H as (l1 & [er h] & l2 & _ & H & _).
    destruct (negb _); [unfold mret in H; injection H as <- <- <- <- <-; apply used_refl|].
    destruct (wb_null buf); apply mbind_ret_inv in H as (l3 & [er2 s] & l4 & _ & H & _); unfold mret in H;
      injection H as <- <- <- <- <-; apply used_refl.
Qed.

Lemma signature_used c cr me aad dp e log err me' e' :
  encode_signature_aad_internal c cr me aad dp e = (log, Ret (err, me', e')) -> used me me'.
Proof.
  unfold encode_signature_aad_internal.
  destruct (if u_is_null dp then _ else _) as [e1 sp]. destruct (negb _).
  { unfold mret. intro H. injection H as <- <- <- <-. apply used_refl. }
  destruct (enc_open_bytes e1) as [e2 buf]. fold (sc_on me). intro H.
  apply mbind_ret_inv in H as (l1 & [[[er m2] k] w] & l2 & C & H & _).
  apply (core_used c cr me _ aad sp buf l1 er m2 k w) in C.
  destruct (negb _); unfold mret in H; injection H as <- <- <- <-; exact C.
Qed.

Lemma sign_used c cr me det payload aad buf log err me' r :
  sign_aad_internal c cr me det payload aad buf = (log, Ret (err, me', r)) -> used me me'.
Proof.
  unfold sign_aad_internal.
  destruct (encode_parameters_internal c me det (enc_init buf)) as [[er m1] e1] eqn:P.
  apply params_used in P. destruct (negb _).
  { unfold mret. intro H. injection H as <- <- <- <-. exact P. }
  intro H. apply mbind_ret_inv in H as (l1 & [[er2 m2] e2] & l2 & C & H & _).
  apply signature_used in C. pose proof (used_trans _ _ _ P C) as U.
  destruct (negb _); [unfold mret in H; injection H as <- <- <- <-; exact U|].
  destruct (negb _); [unfold mret in H; injection H as <- <- <- <-; exact U|].
  destruct (enc_finish e2) as [[] x]; unfold mret in H; injection H as <- <- <- <-; exact U.
Qed.

Lemma used_configured q me me' : used me me' -> configured q me -> configured q me'.
Proof. intros (p & n & ->) C. exact C. Qed.

(** Whatever was done with a context, it carries for each setting the value
    last given. *)
Theorem history_configured c flags alg h me :
  signing_history c flags alg h me -> configured (asked_for flags alg h) me.
Proof.
  unfold asked_for. induction 1 as [|h me k kid b _ IH K|h me b _ IH|h me n _ IH N|h me s _ IH
    |h me cr det payload aad buf log err me' r _ IH E|h me det e err me' e' _ IH E|h me cr aad payload e log err me' e' _ IH E];
    try (rewrite fold_left_app; cbn [fold_left then_asked]; destruct IH as (A & F & Ke & Ki & U & T & X)).
  - repeat split. right. split; reflexivity.
  - repeat split; assumption.
  - repeat split; assumption.
  - repeat split; assumption.
  - repeat split; assumption.
  - apply (used_configured _ me); [exact (sign_used _ _ _ _ _ _ _ _ _ _ _ E)|]. repeat split; assumption.
  - apply (used_configured _ me); [exact (params_used _ _ _ _ _ _ _ E)|]. repeat split; assumption.
  - apply (used_configured _ me); [exact (signature_used _ _ _ _ _ _ _ _ _ _ E)|]. repeat split; assumption.
Qed.

Lemma configured_same q me me2 : configured q me -> configured q me2 -> same_config me me2.
Proof.
  intros (A & F & K & I & U & T & X) (A' & F' & K' & I' & U' & T' & X').
  assert (same_kid (c_kid me) (c_kid me2)).
  { unfold same_kid. destruct I as [->|[-> Z]], I' as [->|[-> Z']]; try rewrite Z; try rewrite Z'; auto. }
  assert (c_ct_uint me = c_ct_uint me2).
  { destruct (q_ct_uint q); [destruct U as [_ ->], U' as [_ ->]|rewrite U, U']; reflexivity. }
  repeat split; congruence || assumption.
Qed.

(** What a signing call returns depends on the settings only. *)
Theorem history_sign c flags alg h h2 me me2 cr det payload aad buf :
  signing_history c flags alg h me -> signing_history c flags alg h2 me2 ->
  asked_for flags alg h = asked_for flags alg h2 ->
  mmap res_only (sign_aad_internal c cr me det payload aad buf)
  = mmap res_only (sign_aad_internal c cr me2 det payload aad buf).
Proof.
  intros H H2 E. apply sign_history. apply (configured_same (asked_for flags alg h)).
  - exact (history_configured _ _ _ _ _ H).
  - rewrite E. exact (history_configured _ _ _ _ _ H2).
Qed.

Theorem history_params c flags alg h h2 me me2 det e :
  signing_history c flags alg h me -> signing_history c flags alg h2 me2 ->
  asked_for flags alg h = asked_for flags alg h2 ->
  exists err me' me2' e', encode_parameters_internal c me det e = (err, me', e') /\
    encode_parameters_internal c me2 det e = (err, me2', e').
Proof.
  intros H H2 E. destruct (params_history c me me2 det e) as (err & a & b & e' & X & Y & _); [|eauto 8].
  apply (configured_same (asked_for flags alg h)).
  - exact (history_configured _ _ _ _ _ H).
  - rewrite E. exact (history_configured _ _ _ _ _ H2).
Qed.

(** ** Verification *)

Lemma verify_check_keeps c cr me m aad log err me' :
  verify_check c cr me m aad = (log, Ret (err, me')) ->
  v_tags me' = v_tags me /\ v_key me' = v_key me /\ v_flags me' = v_flags me /\ v_aux me' = v_aux me.
Proof.
  unfold verify_check. destruct (_ && _).
  { unfold mret. intro H. injection H as <- <- <-. auto. }
  intro H. apply mbind_ret_inv in H as (l1 & er & l2 & _ & H & _).
  destruct (negb _); [unfold mret in H; injection H as <- <- <-; auto|].
  apply mbind_ret_inv in H as (l3 & sc & l4 & _ & H & _). destruct sc.
  { apply mbind_ret_inv in H as (l5 & er2 & l6 & _ & H & _). unfold mret in H. injection H as <- <- <-. auto. }
  destruct (_ && _).
  - unfold sign1_verify_eddsa in H.
    destruct (create_tbs _ _ _ _) as [er2 tbs]. destruct (negb _).
    { unfold mret in H. injection H as <- <- <-. auto. }
    destruct tbs; [|discriminate].
    repeat match type of H with
    | (if ?b then _ else _) = _ => destruct b
    end; try (unfold mret in H; injection H as <- <- <-; cbn; auto).
    all: apply mbind_ret_inv in H as (l5 & er3 & l6 & _ & H & _); unfold mret in H; injection H as <- <- <-; cbn; auto.
  - apply mbind_ret_inv in H as (l5 & er2 & l6 & _ & H & _). unfold mret in H. injection H as <- <- <-. auto.
Qed.

Lemma verify_keeps c cr junk me msg aad payload want dc log w :
  length (v_tags me) = 4%nat -> (dc = true -> payload <> None) ->
  verify_internal c cr junk me msg aad payload want dc = (log, Ret w) ->
  length (v_tags (w_ctx w)) = 4%nat /\ v_key (w_ctx w) = v_key me /\ v_flags (w_ctx w) = v_flags me /\ v_aux (w_ctx w) = v_aux me.
Proof.
  intros L P H. unfold verify_internal in H. apply mbind_ret_inv in H as (l1 & [r me1] & l2 & D & H & _).
  assert (K : ctx_kept me me1).
  { unfold mlift in D. injection D as _ D. destruct (decode_ret c junk me msg payload dc L P) as (r' & m' & E & K).
    rewrite D in E. injection E as <- <-. exact K. }
  destruct K as (K1 & K2 & K3 & K4 & _). destruct r as [e|m].
  - unfold mret in H. injection H as <- <-. auto.
  - apply mbind_ret_inv in H as (l3 & [er me2] & l4 & C & H & _). apply verify_check_keeps in C as (C1 & C2 & C3 & C4).
    assert (w_ctx w = me2) as -> by (destruct (terr_eqb er T_SUCCESS); unfold mret in H; injection H as <- <-; reflexivity).
    rewrite C1, C2, C3, C4. auto.
Qed.

Theorem history_verify_settings c flags h me :
  verifying_history c flags h me ->
  length (v_tags me) = 4%nat /\ v_flags me = flags /\ (v_key me, v_aux me) = verify_settings h.
Proof.
  unfold verify_settings. induction 1 as [|h me k _ IH|h me b _ IH|h me cr junk msg aad payload want dc log w _ IH P E];
    try (rewrite fold_left_app; cbn [fold_left]; destruct IH as (L & F & S); rewrite <- S; cbn [fst snd]).
  - repeat split.
  - repeat split; assumption.
  - repeat split; assumption.
  - destruct (verify_keeps _ _ _ _ _ _ _ _ _ _ _ L P E) as (A & B & C & D). rewrite B, C, D. auto.
Qed.

(** What a verification call returns depends on the settings only. *)
Theorem history_verify c flags h h2 me me2 cr junk msg aad payload want dc :
  verifying_history c flags h me -> verifying_history c flags h2 me2 ->
  verify_settings h = verify_settings h2 ->
  VerifyMore.seen (verify_internal c cr junk me msg aad payload want dc)
  = VerifyMore.seen (verify_internal c cr junk me2 msg aad payload want dc).
Proof.
  intros H H2 E. apply history_verify_settings in H as (L & F & S). apply history_verify_settings in H2 as (L2 & F2 & S2).
  rewrite <- S, <- S2 in E. injection E as K X.
  apply VerifyMore.verify_history; congruence.
Qed.

(** ** Both *)

(** Signing with one context and verifying with another, each however used
    before. *)
Theorem history_round_trip c cr flags alg h me payload pl n log me' m vflags vh vme junk o want :
  signing_history c flags alg h me -> verifying_history c vflags vh vme -> holds payload pl -> n < 2 ^ 64 ->
  let q := asked_for flags alg h in
  let (vkey, vaux) := verify_settings vh in
  sign c cr me payload {| wb_null := false; wb_len := n |} = (log, Ret (T_SUCCESS, me', Some (UBuf m))) ->
  demands_met q vflags -> keys_match cr alg (q_key q) vkey -> one_digest cr -> hash_reliable c cr [pl] ->
  wants_short_circuit flags = false -> q_kid q <> reserved_kid \/ dis_short_circuit c = true ->
  (alg = (-8)%Z -> wb_null vaux = false /\ blen (requested_tbs q [] pl) <= wb_len vaux) ->
  exists log' w, verify c cr junk vme m o want = (log', Ret w) /\
    w_err w = T_SUCCESS /\
    w_params w = (if want then Some (asked_params c q) else None) /\
    w_payload w = match o with Some _ => Some (UBuf pl) | None => None end.
Proof.
  intros H V P N q. apply history_configured in H. fold q in H. apply history_verify_settings in V as (L & F & S).
  assert (QA : q_alg q = alg /\ q_flags q = flags).
  { unfold q, asked_for. clear. set (q0 := {| q_alg := alg |}). assert (I : q_alg q0 = alg /\ q_flags q0 = flags) by (split; reflexivity).
    clearbody q0. revert q0 I. induction h as [|o h IH]; intros q0 I; [exact I|]. apply IH. destruct o; exact I. }
  destruct QA as [QA QF]. rewrite <- S. intros SI D K O R W Z X.
  apply (inline_round_trip c cr q me payload pl n log me' m vme junk o want H P N SI L); rewrite ?F, ?QA, ?QF; assumption.
Qed.

Lemma asked_for_fixed flags alg h : q_alg (asked_for flags alg h) = alg /\ q_flags (asked_for flags alg h) = flags.
Proof.
  unfold asked_for. set (q0 := {| q_alg := alg |}). assert (I : q_alg q0 = alg /\ q_flags q0 = flags) by (split; reflexivity).
  clearbody q0. revert q0 I. induction h as [|o h IH]; intros q0 I; [exact I|]. apply IH. destruct o; exact I.
Qed.

Theorem history_round_trip_detached c cr flags alg h me payload aad pl ad n log me' m vflags vh vme junk aad' payload' want :
  signing_history c flags alg h me -> verifying_history c vflags vh vme -> holds payload pl -> holds aad ad -> n < 2 ^ 64 ->
  let q := asked_for flags alg h in
  let (vkey, vaux) := verify_settings vh in
  sign_detached c cr me aad payload {| wb_null := false; wb_len := n |} = (log, Ret (T_SUCCESS, me', Some (UBuf m))) ->
  holds aad' ad -> holds payload' pl ->
  demands_met q vflags -> keys_match cr alg (q_key q) vkey -> one_digest cr -> hash_reliable c cr [ad; pl] ->
  wants_short_circuit flags = false -> q_kid q <> reserved_kid \/ dis_short_circuit c = true ->
  (alg = (-8)%Z -> wb_null vaux = false /\ blen (requested_tbs q ad pl) <= wb_len vaux) ->
  exists log' w, verify_detached c cr junk vme m aad' payload' want = (log', Ret w) /\
    w_err w = T_SUCCESS /\
    w_params w = (if want then Some (asked_params c q) else None) /\ w_payload w = None.
Proof.
  intros H V P A N q. apply history_configured in H. fold q in H. apply history_verify_settings in V as (L & F & S).
  destruct (asked_for_fixed flags alg h) as [QA QF]. fold q in QA, QF.
  rewrite <- S. intros SI A' P' D K O R W Z X.
  apply (detached_round_trip c cr q me payload aad pl ad n log me' m vme junk aad' payload' want H P A N SI L A' P'); rewrite ?F, ?QA, ?QF; assumption.
Qed.

Theorem history_sign_safe c cr flags alg h me (det : bool) payload aad pl ad buf :
  signing_history c flags alg h me -> holds payload pl -> holds aad ad ->
  let q := asked_for flags alg h in
  hashing_safe c cr [ad; pl] ->
  (wants_short_circuit flags = true -> forall halg data d, digest_of cr halg data d -> d <> []) ->
  (wb_null buf = false -> wants_short_circuit flags = false ->
     forall room, blen (requested_message c q (if det then None else Some pl) []) + room = wb_len buf + 2 -> 0 < room ->
     (alg <> (-8)%Z -> forall d, is_ret (cr_sign cr alg (q_key q) d room)) /\
     (alg = (-8)%Z -> forall t, is_ret (cr_sign_eddsa cr (q_key q) t room))) ->
  exists log err me' r, sign_aad_internal c cr me det payload aad buf = (log, Ret (err, me', r)) /\
    signing_history c flags alg (h ++ [Signing]) me'.
Proof.
  intros H P A q HS NE SG. pose proof (history_configured _ _ _ _ _ H) as C. fold q in C.
  destruct (asked_for_fixed flags alg h) as [QA QF]. fold q in QA, QF.
  assert (R : is_ret (snd (sign_aad_internal c cr me det payload aad buf))).
  { apply (sign_safe c cr q me det payload aad pl ad buf C P A HS); rewrite ?QA, ?QF; assumption. }
  destruct (sign_aad_internal c cr me det payload aad buf) as [log [[[err me'] r]|u]] eqn:E; [|destruct R].
  exists log, err, me', r. split; [reflexivity|]. exact (sh_sign _ _ _ _ _ _ _ _ _ _ _ _ _ _ H E).
Qed.
