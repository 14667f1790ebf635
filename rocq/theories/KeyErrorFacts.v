(** What becomes of keys that cannot be used (C74). *)
From Verif Require Import Base Const QEnc Crypto Algs OpenSSL Psa Sign Verify BaseFacts Spec SignSpec DecSpec VerifySpec AdapterSpec LibrarySpec FaultSpec OpenSSLFacts OpenSSLFacts2 AdapterFacts PsaFacts PassSpec SignErrorSpec SignErrorFacts ErrorSpec ErrorTop FaultFacts KeyErrorSpec.
From Coq Require Import Lia ZifyBool ZifyNat ZifyN.
Open Scope N_scope. Open Scope list_scope. Open Scope lmon_scope.

Lemma psa_alg_enabled c alg a : psa_alg_of c alg a -> ecdsa_enabled c alg \/ pss_enabled c alg.
Proof. intros (? & _ & [(H & _)|(H & _)]); auto. Qed.

Lemma ossl_call_codes c lib ev e : ossl_call_fault c lib ev e -> In e
  [ERR_UNSUPPORTED_SIGNING_ALG; ERR_INCORRECT_KEY_FOR_LIB; ERR_EMPTY_KEY; ERR_INSUFFICIENT_MEMORY; ERR_SIG_FAIL; ERR_SIG_VERIFY;
   ERR_UNSUPPORTED_HASH; ERR_HASH_GENERAL_FAIL].
Proof.
  destruct ev; cbn [ossl_call_fault];
    unfold ossl_start_fault, ossl_size_fault, ossl_sign_fault, ossl_verify_fault, ossl_sign_eddsa_fault, ossl_verify_eddsa_fault,
      alg_fault, key_fault, new_fault, setup_fault, sign_fault, convert_fault, answer_fault; intros H;
    repeat match goal with
           | H : _ \/ _ |- _ => destruct H
           | H : _ /\ _ |- _ => destruct H
           | H : exists _, _ |- _ => destruct H
           | H : let _ := _ in _ |- _ => cbv zeta in H
           end; subst; cbn [In]; tauto.
Qed.

Lemma psa_call_codes c lib ev e : psa_call_fault c lib ev e -> In e
  [ERR_UNSUPPORTED_SIGNING_ALG; ERR_INSUFFICIENT_MEMORY; ERR_SIG_FAIL; ERR_SIG_VERIFY; ERR_TAMPERING_DETECTED;
   ERR_UNSUPPORTED_HASH; ERR_HASH_BUFFER_SIZE; ERR_HASH_GENERAL_FAIL].
Proof.
  destruct ev; cbn [psa_call_fault];
    unfold psa_start_fault, psa_size_fault, psa_sign_fault, psa_verify_fault, alg_fault; intros H;
    repeat match goal with
           | H : _ \/ _ |- _ => destruct H
           | H : _ /\ _ |- _ => destruct H
           | H : exists _, _ |- _ => destruct H
           | H : In _ _ |- _ => cbn [In] in H
           | H : False |- _ => destruct H
           end; subst; cbn [In]; try tauto;
    match goal with
    | H : status_means _ ?e |- _ => destruct e; cbn [status_means] in H; tauto
    | H : hash_status_means _ ?e |- _ => destruct e; cbn [hash_status_means] in H; tauto
    end.
Qed.

Theorem ossl_answer_codes c lib ev e : answers (openssl c lib) ev e -> e <> T_SUCCESS -> In e
  [ERR_UNSUPPORTED_SIGNING_ALG; ERR_INCORRECT_KEY_FOR_LIB; ERR_EMPTY_KEY; ERR_INSUFFICIENT_MEMORY; ERR_SIG_FAIL; ERR_SIG_VERIFY;
   ERR_UNSUPPORTED_HASH; ERR_HASH_GENERAL_FAIL].
Proof. intros A N. eapply ossl_call_codes, ossl_calls; eassumption. Qed.
Theorem psa_answer_codes c lib ev e : answers (psa_crypto c lib) ev e -> e <> T_SUCCESS -> In e
  [ERR_UNSUPPORTED_SIGNING_ALG; ERR_INSUFFICIENT_MEMORY; ERR_SIG_FAIL; ERR_SIG_VERIFY; ERR_TAMPERING_DETECTED;
   ERR_UNSUPPORTED_HASH; ERR_HASH_BUFFER_SIZE; ERR_HASH_GENERAL_FAIL].
Proof. intros A N. eapply psa_call_codes, psa_calls; eassumption. Qed.

Lemma own_codes c cr ev e : own_adapter c cr -> answers cr ev e -> ~ In e [ERR_UNKNOWN_KEY; ERR_WRONG_TYPE_OF_KEY; ERR_SIG_BUFFER_SIZE].
Proof.
  intros O A X.
  assert (N : e <> T_SUCCESS) by (cbn [In] in X; intuition congruence).
  destruct O as [(lib & ->)|(lib & ->)]; [apply ossl_answer_codes in A|apply psa_answer_codes in A]; try exact N;
    cbn [In] in A, X; intuition congruence.
Qed.

Theorem signing_key_codes c cr q me (det : bool) payload aad pl ad buf log err me' r :
  own_adapter c cr ->
  configured q me -> holds payload pl -> holds aad ad -> (det = true -> u_is_null payload = false) ->
  let op := if det then None else Some pl in
  blen (requested_message c q op []) <= MAX_OFFSET ->
  sign_aad_internal c cr me det payload aad buf = (log, Ret (err, me', r)) ->
  ~ In err key_codes /\ (err = ERR_SIG_BUFFER_SIZE -> wants_short_circuit (q_flags q) = true).
Proof.
  intros O C P A D op B H.
  assert (T : err = T_SUCCESS \/ err <> T_SUCCESS) by (destruct err; (left; reflexivity) || (right; discriminate)).
  destruct T as [->|N]; [split; [cbn; intuition congruence|discriminate]|].
  destruct (signing_errors _ _ _ _ _ _ _ _ _ _ _ _ _ _ C P A D B H N) as [F|(before & ev & _ & E)].
  - split.
    + intros X. unfold key_codes in X. cbn [In] in X. destruct X as [<-|[<-|[]]]; exact F.
    + intros ->. apply F.
  - apply (own_codes c) in E; [|exact O]. cbn [In] in E. unfold key_codes. cbn [In]. split; [tauto|].
    intros ->. exfalso. tauto.
Qed.

Theorem verification_key_codes c cr junk me msg aad payload want dc log w ad gv :
  own_adapter c cr ->
  length (v_tags me) = 4%nat -> holds aad ad -> detached_arg dc payload gv ->
  verify_internal c cr junk me msg aad payload want dc = (log, Ret w) -> ~ In (w_err w) key_codes.
Proof.
  intros O T A G H X.
  assert (N : w_err w <> T_SUCCESS) by (unfold key_codes in X; cbn [In] in X; intuition congruence).
  destruct (verify_error _ _ _ _ _ _ _ _ _ _ _ _ _ T A G H N) as [(_ & F & _)|(g & pm & _ & [(_ & F)|(p & pl & _ & F)])].
  - unfold format_errors, key_codes in *. cbn [In] in X, F. intuition congruence.
  - unfold key_codes in X. cbn [In] in X. destruct X as [X|[X|[]]]; rewrite <- X in F; exact F.
  - unfold key_codes in X. cbn [In] in X.
    destruct F as [(_ & [F|[F|[F|[F|(before & ev & _ & F)]]]])|F]; try (intuition congruence).
    apply (own_codes c) in F; [|exact O]. cbn [In] in F. intuition congruence.
Qed.

(** PSA *)
Lemma psa_statuses s : psa_no_key s \/ psa_wrong_key s \/ psa_small_buffer s -> psa_status_to_t_cose_error_signing s = ERR_SIG_FAIL.
Proof. intros [[->| ->]|[[->| ->]| ->]]; reflexivity. Qed.

Lemma psa_signing_alg c alg : ecdsa_enabled c alg \/ pss_enabled c alg -> is_signing_alg (cose_alg_id_to_psa_alg_id c alg) = true.
Proof.
  intros E. unfold cose_alg_id_to_psa_alg_id.
  destruct E as [[->|[(-> & ->)|(-> & ->)]]|[(-> & ->)|[(-> & ->)|(-> & ->)]]];
    destruct (dis_es384 c), (dis_es512 c), (dis_ps256 c), (dis_ps384 c); reflexivity.
Qed.

Theorem psa_key_errors c lib alg k a : psa_alg_of c alg a ->
  (forall hash room status sig, psa_sign_hash lib (k_handle k) a hash room = (status, sig) -> blen sig <= room ->
     psa_no_key status \/ psa_wrong_key status \/ psa_small_buffer status ->
     cr_sign (psa_crypto c lib) alg k hash room = Ret (ERR_SIG_FAIL, [])) /\
  (forall kid hash sig, psa_no_key (psa_verify_hash lib (k_handle k) a hash sig) \/ psa_wrong_key (psa_verify_hash lib (k_handle k) a hash sig) ->
     cr_verify (psa_crypto c lib) alg k kid hash sig = Ret ERR_SIG_FAIL) /\
  (psa_no_key (fst (fst (psa_key lib (k_handle k)))) -> cr_sig_size (psa_crypto c lib) alg k = (ERR_SIG_FAIL, 0)).
Proof.
  intros PA. pose proof (psa_alg_enabled _ _ _ PA) as En. pose proof (psa_signing_alg _ _ En) as SA.
  assert (AE : cose_alg_id_to_psa_alg_id c alg = a).
  { destruct PA as (halg & HF & PA). unfold cose_alg_id_to_psa_alg_id.
    destruct PA as [([->|[(-> & ->)|(-> & ->)]] & ->)|([(-> & ->)|[(-> & ->)|(-> & ->)]] & ->)]; cbn in HF; injection HF as <-;
      destruct (dis_es384 c), (dis_es512 c), (dis_ps256 c), (dis_ps384 c); reflexivity. }
  cbn [cr_sign cr_verify cr_sig_size psa_crypto]. unfold psa_sign, psa_verify, psa_sig_size. rewrite SA, AE. cbn [negb].
  split; [|split].
  - intros hash room status sig E L S. rewrite E, (psa_statuses _ S).
    destruct (N.ltb_spec room (blen sig)); [lia|]. reflexivity.
  - intros kid hash sig S. rewrite psa_statuses; [reflexivity|tauto].
  - destruct (psa_key lib (k_handle k)) as [[st ty] bits]. cbn [fst]. intros S. rewrite psa_statuses; [reflexivity|tauto].
Qed.

(** OpenSSL *)
Lemma configure_wrong c lib key verify alg l : settings c alg l ->
  ctx_init lib {| px_key := key; px_verify := verify; px_params := [] |} = true ->
  ossl_wrong_key lib verify key l ->
  exists x, configure_pkey_context c lib {| px_key := key; px_verify := verify; px_params := [] |} alg = (ERR_SIG_FAIL, x).
Proof.
  intros S I [X|(before & p & after & E & F)]; [congruence|]. destruct S as [(_ & ->)|(P & ->)].
  { destruct before; discriminate E. }
  unfold configure_pkey_context.
  destruct (t_cose_algorithm_is_ecdsa c alg) eqn:EC; [apply is_ecdsa_spec in EC; destruct (not_both _ _ EC P)|].
  rewrite (proj2 (is_pss_spec c alg) P).
  assert (M : (if (alg =? PS256)%Z then Some SHA_256 else if (alg =? PS384)%Z then Some SHA_384 else if (alg =? PS512)%Z then Some SHA_512 else None)
              = Some (pss_hash alg)).
  { destruct P as [[-> _]|[[-> _]|[-> _]]]; reflexivity. }
  rewrite M. unfold set_param. cbn [px_key px_verify px_params app]. unfold pss_settings in E.
  destruct (ctx_set lib _ PadPSS) eqn:E1; [|eauto]. cbn [px_key px_verify px_params app].
  destruct (ctx_set lib _ (SigMd (pss_hash alg))) eqn:E2; [|eauto]. cbn [px_key px_verify px_params app].
  destruct (ctx_set lib _ (Mgf1Md (pss_hash alg))) eqn:E3; [|eauto]. cbn [px_key px_verify px_params app].
  destruct (ctx_set lib _ SaltlenDigest) eqn:E4; [|eauto]. exfalso.
  destruct before as [|b1 [|b2 [|b3 [|b4 before]]]]; cbn [app] in E; injection E; intros; subst; try congruence.
  destruct before; discriminate.
Qed.

Lemma settings_enabled c alg l : settings c alg l -> ecdsa_enabled c alg \/ pss_enabled c alg.
Proof. intros [[H _]|[H _]]; auto. Qed.

Theorem ossl_wrong_key_sign c lib alg k l hash room : settings c alg l -> ossl_key k -> ctx_new lib (k_handle k) = true ->
  ossl_wrong_key lib false (k_handle k) l ->
  cr_sign (openssl c lib) alg k hash room = Ret (ERR_SIG_FAIL, []).
Proof.
  intros S K CN W. cbn [cr_sign openssl]. unfold ossl_sign. pose proof (settings_enabled _ _ _ S) as En.
  assert (B : negb (t_cose_algorithm_is_ecdsa c alg) && negb (t_cose_algorithm_is_rsassa_pss c alg) = false).
  { destruct En as [En|En]; [apply is_ecdsa_spec in En|apply is_pss_spec in En]; rewrite En; [reflexivity|apply andb_false_r]. }
  rewrite B. apply key_convert_spec in K. rewrite K, CN. cbn [terr_eqb negb lbind alloc snd].
  destruct (ctx_init lib _) eqn:I; cbn [negb]; [|reflexivity].
  destruct (configure_wrong _ _ _ _ _ _ S I W) as (x & ->). reflexivity.
Qed.

Theorem ossl_wrong_key_verify c lib alg k kid l hash sig : settings c alg l -> ossl_key k ->
  ossl_wrong_key lib true (k_handle k) l ->
  exists e, cr_verify (openssl c lib) alg k kid hash sig = Ret e /\ In e [ERR_SIG_FAIL; ERR_SIG_VERIFY; ERR_INSUFFICIENT_MEMORY].
Proof.
  intros S K W. cbn [cr_verify openssl]. unfold ossl_verify. pose proof (settings_enabled _ _ _ S) as En.
  assert (B : negb (t_cose_algorithm_is_ecdsa c alg) && negb (t_cose_algorithm_is_rsassa_pss c alg) = false).
  { destruct En as [En|En]; [apply is_ecdsa_spec in En|apply is_pss_spec in En]; rewrite En; [reflexivity|apply andb_false_r]. }
  rewrite B. apply key_convert_spec in K. rewrite K. cbn [terr_eqb negb].
  match goal with |- exists _, snd (lbind ?m _) = _ /\ _ => set (conv := m) end.
  assert (CV : exists lg e der, conv = (lg, Ret (e, der)) /\ In e [T_SUCCESS; ERR_SIG_FAIL; ERR_SIG_VERIFY; ERR_INSUFFICIENT_MEMORY]).
  { subst conv. destruct (t_cose_algorithm_is_ecdsa c alg) eqn:EC.
    - unfold ecdsa_signature_cose_to_der.
      repeat match goal with
             | |- context [if negb ?b then _ else _] => destruct b; cbn [negb]
             | |- context [match i2d_sig ?a ?b ?d with _ => _ end] => destruct (i2d_sig a b d)
             | |- context [if ?b || ?d then _ else _] => destruct (b || d)
             end; cbn [lbind alloc free lret app]; do 3 eexists; (split; [reflexivity|cbn [In]; tauto]).
    - destruct (t_cose_algorithm_is_rsassa_pss c alg); [|discriminate B].
      do 3 eexists. split; [reflexivity|cbn [In]; tauto]. }
  destruct CV as (lg & e & der & -> & IE). cbn [lbind].
  destruct (terr_eqb e T_SUCCESS) eqn:T; cbn [negb].
  2:{ exists e. split; [reflexivity|]. cbn [In] in IE |- *. destruct IE as [<-|IE]; [discriminate T|tauto]. }
  destruct (ctx_new lib (k_handle k)); cbn [negb]; [|exists ERR_INSUFFICIENT_MEMORY; split; [reflexivity|cbn; tauto]].
  cbn [lbind alloc snd]. exists ERR_SIG_FAIL. split; [|cbn; tauto].
  destruct (ctx_init lib _) eqn:I; cbn [negb]; [|reflexivity].
  destruct (configure_wrong _ _ _ _ _ _ S I W) as (x & ->). reflexivity.
Qed.
