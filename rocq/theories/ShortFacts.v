(** C71: short-circuit signing and verifying need no key. *)
From Verif Require Import Base Const QEnc QDec Crypto Util ShortCircuit Params Sign Verify Spec SignSpec.
From Verif Require Import BaseFacts UtilFacts SignFacts SignProofs SignMore SignMore2 DecSpec LabelFacts VerifySafe VerifyFacts VerifyCheck Parts Unique VerifyTop RoundTrip VerifyMore VerifySpec ShortSpec.
Open Scope N_scope. Open Scope list_scope. Open Scope mon_scope.
Local Strategy 100 [create_tbs create_tbs_hash verify_decode].

Lemma hash_pk c cr pk alg prot aad payload n :
  create_tbs_hash c (with_public_key cr pk) alg prot aad payload n = create_tbs_hash c cr alg prot aad payload n.
Proof. reflexivity. Qed.

(** ** Signing *)

Definition wk (k : tkey) (me : sctx) : sctx := set_signing_key me k (c_kid me).

Lemma params_key c me k det e : 
  encode_parameters_internal c (wk k me) det e = let '(err, me', e') := encode_parameters_internal c me det e in (err, wk k me', e').
Proof.
  unfold encode_parameters_internal. cbn [wk set_signing_key c_alg c_flags].
  destruct (negb _); [reflexivity|]. destruct (encode_protected_parameters _ _) as [e1 p].
  cbn [sc_set_prot c_flags c_kid]. destruct (has_flag _ _ && dis_short_circuit c); [reflexivity|].
  set (kid := if _ && _ then _ else _).
  change (add_unprotected_parameters c (sc_set_prot (wk k me) p) kid e1) with (add_unprotected_parameters c (sc_set_prot me p) kid e1).
  destruct (add_unprotected_parameters c (sc_set_prot me p) kid e1) as [err e2]. destruct (negb _); reflexivity.
Qed.

Lemma params_flags c me det e err me' e' : encode_parameters_internal c me det e = (err, me', e') ->
  c_flags me' = c_flags me /\ (has_flag (c_flags me) OPT_SHORT_CIRCUIT_SIG = true -> err = T_SUCCESS -> dis_short_circuit c = false).
Proof.
  unfold encode_parameters_internal. destruct (negb _); [intro H; injection H as <- <- <-; split; [reflexivity|discriminate]|].
  destruct (encode_protected_parameters _ _) as [e1 p]. cbn [sc_set_prot c_flags c_kid].
  destruct (has_flag _ _) eqn:F, (dis_short_circuit c); cbn [andb];
    try (intro H; injection H as <- <- <-; split; [reflexivity|discriminate]);
    (destruct (add_unprotected_parameters _ _ _ _) as [er e2]; destruct (negb _); intro H; injection H as <- <- <-; split; auto; discriminate).
Qed.


Lemma core_key c cr pk k me prot aad payload buf :
  sign1_sign_short_circuit c (with_public_key cr pk) (wk k me) prot aad payload buf =
  mmap (fun '(err, m, n, s) => (err, wk k m, n, s)) (sign1_sign_short_circuit c cr me prot aad payload buf).
Proof.
  unfold sign1_sign_short_circuit. rewrite hash_pk, mmap_bind. cbn [wk set_signing_key c_alg]. apply mbind_ext. intros [err hash].
  destruct (negb _); [reflexivity|]. destruct (wb_null buf).
  - destruct (short_circuit_sig_size (c_alg me)); reflexivity.
  - rewrite mmap_bind. apply mbind_ext. intros [er sg]. reflexivity.
Qed.

Definition wk3 {A} (k : tkey) (x : terr * sctx * A) : terr * sctx * A := let '(err, me, a) := x in (err, wk k me, a).

Lemma signature_key c cr pk k me aad dp e :
  has_flag (c_flags me) OPT_SHORT_CIRCUIT_SIG = true -> dis_short_circuit c = false ->
  encode_signature_aad_internal c (with_public_key cr pk) (wk k me) aad dp e = mmap (wk3 k) (encode_signature_aad_internal c cr me aad dp e).
Proof.
  intros F D. unfold encode_signature_aad_internal. destruct (if u_is_null dp then _ else _) as [e1 sp].
  destruct (negb _); [reflexivity|]. change (c_prot (wk k me)) with (c_prot me). change (c_flags (wk k me)) with (c_flags me).
  destruct (enc_open_bytes e1) as [e2 buf]. rewrite F, D. cbn [negb andb]. rewrite core_key, mbind_mmap, mmap_bind.
  apply mbind_ext. intros [[[er m] n] w]. destruct (negb _); reflexivity.
Qed.

Theorem signing_key_unused c cr pk k me det payload aad buf :
  wants_short_circuit (c_flags me) = true ->
  sign_aad_internal c (with_public_key cr pk) (wk k me) det payload aad buf = mmap (wk3 k) (sign_aad_internal c cr me det payload aad buf).
Proof.
  intros F. assert (F' : has_flag (c_flags me) OPT_SHORT_CIRCUIT_SIG = true) by (change OPT_SHORT_CIRCUIT_SIG with (2 ^ 0); now rewrite flag_bit).
  unfold sign_aad_internal. rewrite params_key.
  destruct (encode_parameters_internal c me det (enc_init buf)) as [[err m1] e1] eqn:P.
  destruct (params_flags _ _ _ _ _ _ _ P) as [F1 D]. specialize (D F').
  destruct (terr_eqb err T_SUCCESS) eqn:T; cbn [negb]; [|reflexivity]. apply terr_eqb_eq in T. specialize (D T).
  rewrite signature_key by congruence. rewrite mbind_mmap, mmap_bind. apply mbind_ext. intros [[er m2] e2]. cbn [wk3].
  destruct (negb _); [reflexivity|]. destruct (negb _); [reflexivity|]. destruct (enc_finish e2) as [[] r]; reflexivity.
Qed.

(** Only hash functions are called. *)
Definition quiet {A} (x : M A) : Prop := forall e, In e (fst x) -> hash_call e.

Lemma quiet_ret {A} (a : A) : quiet (mret a).
Proof. intros e []. Qed.
Lemma quiet_lift {A} (a : out A) : quiet (mlift a).
Proof. intros e []. Qed.
Lemma quiet_bind {A B} (x : M A) (f : A -> M B) : quiet x -> (forall a, quiet (f a)) -> quiet (mbind x f).
Proof.
  intros X F e I. destruct (mbind x f) as [l r] eqn:E. destruct (mbind_in _ _ _ _ _ E I) as [J|(a & l1 & l2 & _ & Fa & _ & J)]; [now apply X|].
  apply (F a). now rewrite Fa.
Qed.
Lemma quiet_hash c cr alg prot aad payload n : quiet (create_tbs_hash c cr alg prot aad payload n).
Proof.
  intros e I. destruct (create_tbs_hash c cr alg prot aad payload n) as [l r] eqn:E.
  apply create_tbs_hash_events in E as (H & _). exact (H e I).
Qed.

Lemma quiet_signature c cr me aad dp e :
  has_flag (c_flags me) OPT_SHORT_CIRCUIT_SIG = true -> dis_short_circuit c = false ->
  quiet (encode_signature_aad_internal c cr me aad dp e).
Proof.
  intros F D. unfold encode_signature_aad_internal. destruct (if u_is_null dp then _ else _) as [e1 sp].
  destruct (negb _); [apply quiet_ret|]. destruct (enc_open_bytes e1) as [e2 buf]. rewrite F, D. cbn [negb andb].
  apply quiet_bind; [|intros [[[er m] n] w]; destruct (negb _); apply quiet_ret].
  unfold sign1_sign_short_circuit. apply quiet_bind; [apply quiet_hash|]. intros [err hash]. destruct (negb _); [apply quiet_ret|].
  destruct (wb_null buf); [destruct (short_circuit_sig_size _); apply quiet_ret|].
  apply quiet_bind; [apply quiet_lift|]. intros [er sg]. apply quiet_ret.
Qed.

Theorem quiet_sign c cr me det payload aad buf :
  wants_short_circuit (c_flags me) = true -> quiet (sign_aad_internal c cr me det payload aad buf).
Proof.
  intros F. assert (F' : has_flag (c_flags me) OPT_SHORT_CIRCUIT_SIG = true) by (change OPT_SHORT_CIRCUIT_SIG with (2 ^ 0); now rewrite flag_bit).
  unfold sign_aad_internal.
  destruct (encode_parameters_internal c me det (enc_init buf)) as [[err m1] e1] eqn:P.
  destruct (params_flags _ _ _ _ _ _ _ P) as [F1 D]. specialize (D F').
  destruct (terr_eqb err T_SUCCESS) eqn:T; cbn [negb]; [|apply quiet_ret]. apply terr_eqb_eq in T. specialize (D T).
  apply quiet_bind; [apply quiet_signature; congruence|]. intros [[er m2] e2].
  destruct (negb _); [apply quiet_ret|]. destruct (negb _); [apply quiet_ret|]. destruct (enc_finish e2) as [[] r]; apply quiet_ret.
Qed.

Lemma sign_short_circuit c cr pk k k' me kid det payload aad buf :
  wants_short_circuit (c_flags me) = true ->
  mmap res_only (sign_aad_internal c (with_public_key cr pk) (set_signing_key me k' kid) det payload aad buf) =
  mmap res_only (sign_aad_internal c cr (set_signing_key me k kid) det payload aad buf) /\
  forall e, In e (fst (sign_aad_internal c cr (set_signing_key me k kid) det payload aad buf)) -> hash_call e.
Proof.
  intros F. split; [|now apply quiet_sign].
  change (set_signing_key me k' kid) with (wk k' (set_signing_key me k kid)). rewrite signing_key_unused by exact F.
  unfold mmap at 1. rewrite mbind_mmap. apply mbind_ext. intros [[er m] r]. reflexivity.
Qed.

(** In two steps. *)
Lemma sign_short_circuit_parts c cr pk k k' me kid aad e :
  wants_short_circuit (c_flags me) = true -> dis_short_circuit c = false ->
  mmap sig_only3 (encode_signature_aad c (with_public_key cr pk) (set_signing_key me k' kid) aad e) =
  mmap sig_only3 (encode_signature_aad c cr (set_signing_key me k kid) aad e) /\
  forall ev, In ev (fst (encode_signature_aad c cr (set_signing_key me k kid) aad e)) -> hash_call ev.
Proof.
  intros F D. assert (F' : has_flag (c_flags me) OPT_SHORT_CIRCUIT_SIG = true) by (change OPT_SHORT_CIRCUIT_SIG with (2 ^ 0); now rewrite flag_bit).
  split; [|now apply quiet_signature]. unfold encode_signature_aad.
  change (set_signing_key me k' kid) with (wk k' (set_signing_key me k kid)). rewrite signature_key by assumption.
  unfold mmap at 1. rewrite mbind_mmap. apply mbind_ext. intros [[er m] r]. reflexivity.
Qed.

(** ** Verifying *)

Lemma check_short c cr pk me me2 m aad : v_flags me = v_flags me2 -> dis_short_circuit c = false ->
  u_equal (p_kid (m_params m)) get_short_circuit_kid = Ret true ->
  strip (verify_check c (with_public_key cr pk) me2 m aad) = strip (verify_check c cr me m aad) /\
  quiet (verify_check c cr me m aad).
Proof.
  intros F D K. unfold verify_check. cbv zeta. rewrite <- F. destruct (_ && _); [split; [reflexivity|apply quiet_ret]|].
  rewrite D, K. change (mlift (Ret true)) with (mret true). split.
  - unfold strip. rewrite !mbind_assoc. apply mbind_ext. intro e. destruct (negb _); [reflexivity|].
    rewrite !mbind_ret_l, !mbind_assoc. unfold sign1_verify_short_circuit. rewrite <- F, hash_pk. reflexivity.
  - apply quiet_bind; [destruct (negb _); [apply quiet_lift|apply quiet_ret]|]. intro e. destruct (negb _); [apply quiet_ret|].
    rewrite mbind_ret_l. apply quiet_bind; [|intro; apply quiet_ret]. unfold sign1_verify_short_circuit.
    destruct (has_flag _ _); [apply quiet_ret|]. destruct (negb _); [apply quiet_ret|].
    apply quiet_bind; [apply quiet_hash|]. intros [err h]. destruct (negb _); [apply quiet_ret|apply quiet_lift].
Qed.

Definition vfinish (payload : option ubufc) (want dc : bool) (m : decoded) (e : terr) : terr * option ubufc * option params :=
  (e, if terr_eqb e T_SUCCESS then match payload with Some _ => if dc then None else Some (m_payload m) | None => None end else None,
      if terr_eqb e T_SUCCESS then if want then Some (m_params m) else None else None).

Lemma seen_eq c cr junk me msg aad payload want dc :
  seen (verify_internal c cr junk me msg aad payload want dc) =
  match verify_decode c junk me msg payload dc with
  | Ret (DErr e, _) => mret (e, None, None)
  | Ret (DOk m, me1) => mmap (vfinish payload want dc m) (strip (verify_check c cr me1 m aad))
  | UB u => mub u
  end.
Proof.
  unfold verify_internal, seen. destruct (verify_decode c junk me msg payload dc) as [[[e|m] me1]|u]; [reflexivity| |reflexivity].
  unfold mlift. cbn [mbind app].
  destruct (verify_check c cr me1 m aad) as [l [[e y]|u]]; [|reflexivity]. unfold mmap, strip, vfinish. cbn [mbind mret].
  destruct (terr_eqb e T_SUCCESS); cbn; rewrite ?app_nil_r; reflexivity.
Qed.

Theorem verify_short_circuit c cr pk k me msg aad payload want dc g pm v junk :
  length (v_tags me) = 4%nat -> dis_short_circuit c = false ->
  message msg g pm -> In v (values 4 (all_params g pm)) -> body v = CBytes reserved_kid ->
  seen (verify_internal c (with_public_key cr pk) junk (set_verification_key me k) msg aad payload want dc) =
  seen (verify_internal c cr junk me msg aad payload want dc) /\
  forall e, In e (fst (verify_internal c cr junk me msg aad payload want dc)) -> hash_call e.
Proof.
  intros L D M I B. pose proof (decode_ext c junk me (set_verification_key me k) msg payload dc eq_refl eq_refl) as X.
  assert (Y : forall m x, verify_decode c junk me msg payload dc = Ret (DOk m, x) -> u_equal (p_kid (m_params m)) get_short_circuit_kid = Ret true).
  { intros m x V. apply decode_iff in V as (g' & pm' & M' & Hd); [|exact L]. destruct (message_unique _ _ _ _ _ M M') as [<- <-].
    destruct (rp_kid _ _ _ _ (dc_params _ _ _ _ _ _ _ _ Hd)) as [[E _]|(v' & b' & E & _ & B' & ->)]; rewrite E in I; [destruct I|]; destruct I as [->|[]].
    rewrite B in B'. injection B' as <-. rewrite (kid_test (UBuf reserved_kid)) by now left. reflexivity. }
  assert (Q : seen (verify_internal c (with_public_key cr pk) junk (set_verification_key me k) msg aad payload want dc) =
      seen (verify_internal c cr junk me msg aad payload want dc)).
  { rewrite !seen_eq.
    destruct (verify_decode c junk me msg payload dc) as [[r x]|a], (verify_decode c junk (set_verification_key me k) msg payload dc) as [[r2 x2]|b];
      try contradiction; [|now subst]. destruct X as [<- X]. destruct r as [e|m]; [reflexivity|].
    assert (F : v_flags x = v_flags x2) by (destruct X as [[-> ->]|(ts & -> & ->)]; reflexivity).
    destruct (check_short c cr pk x x2 m aad F D (Y _ _ eq_refl)) as [-> _]. reflexivity. }
  split; [exact Q|].
  unfold verify_internal. destruct (verify_decode c junk me msg payload dc) as [[[e|m] x]|a]; [intros ? []| |intros ? []].
  destruct (check_short c cr pk x x m aad eq_refl D (Y _ _ eq_refl)) as [_ Z]. unfold mlift. cbn [mbind app]. unfold quiet in Z.
  destruct (verify_check c cr x m aad) as [l [[e y]|u]]; cbn [mbind fst] in *; [|exact Z].
  destruct (terr_eqb e T_SUCCESS); cbn [mret fst]; rewrite app_nil_r; exact Z.
Qed.

(** ** A kid of the signer's own *)

(** A short-circuit message with another kid than the reserved one is verified only
    if the public-key functions take the repeated hash for a signature. *)
Theorem own_kid c cr q me (det : bool) payload aad pl ad n log me' m junk vme aad' ad' payload' given want log' w :
  configured q me -> holds payload pl -> holds aad ad -> n < 2 ^ 64 ->
  sign_aad_internal c cr me det payload aad {| wb_null := false; wb_len := n |} = (log, Ret (T_SUCCESS, me', Some (UBuf m))) ->
  wants_short_circuit (q_flags q) = true -> q_kid q <> [] -> q_kid q <> reserved_kid ->
  length (v_tags vme) = 4%nat -> holds aad' ad' -> detached_arg det payload' given -> decode_only (v_flags vme) = false ->
  verify_internal c cr junk vme m aad' payload' want det = (log', Ret w) -> w_err w = T_SUCCESS ->
  exists halg d d', hash_for (q_alg q) = Some halg /\
    digest_of cr halg (requested_tbs q ad pl) d /\ digest_of cr halg (requested_tbs q ad' (if det then given else pl)) d' /\
    cr_verify cr (q_alg q) (v_key vme) (UBuf (q_kid q)) d' (repeat_to d (ecdsa_sig_size (q_alg q))) = Ret T_SUCCESS.
Proof.
  intros C P A N S W K1 K2 V A' G DO H T.
  destruct (sign_success_spec c cr q me det payload aad pl ad n log me' (Some (UBuf m)) C P A S) as (sg & room & Em & Lm & _ & Hs & En).
  injection Em as ->.
  assert (Hct : match q_ct_uint q with Some n => n < 65536 | None => True end).
  { destruct C as (_ & _ & _ & _ & U & _). destruct (q_ct_uint q); [exact (proj1 U)|exact I]. }
  set (po := if det then None else Some pl) in *.
  assert (M : message (requested_message c q po sg) (asked c q po sg) (asked_prot q)).
  { apply asked_message; auto. apply (N.le_lt_trans _ n); assumption. }
  destruct (verify_sound_message _ _ _ _ _ _ _ _ _ _ _ _ _ _ _ V A' G M H T) as (p & pl2 & Ac & _ & Acc). specialize (Acc DO).
  assert (AQ : acceptable c 0 det given (asked c q po sg) (asked_prot q) (asked_params c q) (if det then given else pl)).
  { apply asked_acceptable; auto; try discriminate. unfold po. destruct det; auto. }
  pose proof (reported_det _ _ _ _ _ (ac_params _ _ _ _ _ _ _ _ Ac) (ac_params _ _ _ _ _ _ _ _ AQ)) as ->.
  assert (PL : pl2 = if det then given else pl).
  { pose proof (ac_payload _ _ _ _ _ _ _ _ Ac) as X. unfold payload_is, po in X. destruct det; [now destruct X as (_ & _ & ->)|].
    cbn [asked g_payload] in X. injection X as ->. reflexivity. }
  assert (RK : requested_kid q = q_kid q) by (unfold requested_kid; destruct (q_kid q); [contradiction|reflexivity]).
  assert (SK : short_circuit_kid c (asked_params c q) = false).
  { unfold short_circuit_kid. cbn [asked_params p_kid]. rewrite RK. destruct (q_kid q) as [|b k] eqn:E; [contradiction|]. cbn [u_data].
    destruct (bytes_eqb (b :: k) reserved_kid) eqn:B; [|apply andb_false_r]. apply bytes_eqb_eq in B. contradiction. }
  unfold signature_of in Hs. rewrite W in Hs. destruct Hs as (halg & d & HF & HD & ->).
  unfold accepted in Acc. rewrite SK in Acc. unfold uses_eddsa in Acc. cbn [asked_params p_alg asked g_prot g_sig] in Acc.
  assert (N8 : (q_alg q =? -8)%Z = false).
  { destruct (Z.eqb_spec (q_alg q) (-8)) as [E|E]; [|reflexivity]. rewrite E in HF. discriminate. }
  rewrite N8, andb_false_r in Acc. destruct Acc as (halg' & d' & HF' & _ & HD' & VF).
  rewrite HF in HF'. injection HF' as <-. exists halg, d, d'. split; [exact HF|]. split; [exact HD|]. subst pl2. split; [exact HD'|].
  cbn [asked_params p_kid] in VF. rewrite RK in VF. destruct (q_kid q); [contradiction|]. exact VF.
Qed.
