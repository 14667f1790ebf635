(** Errors of the adapter reach the caller. *)
From Verif Require Import Base Const QEnc Crypto Util ShortCircuit Sign Params Verify TestCrypto PassSpec.
From Verif Require Import BaseFacts.
Open Scope N_scope. Open Scope list_scope.

Lemma passed_app cr l1 l2 e1 e :
  errors_passed_on cr l1 e1 -> errors_passed_on cr l2 e -> (e1 <> T_SUCCESS -> l2 = [] /\ e = e1) ->
  errors_passed_on cr (l1 ++ l2) e.
Proof.
  intros P Q S before ev later H.
  apply app_eq_app in H as (l & [[H1 H2]|[H1 H2]]).
  - destruct l as [|x l].
    + cbn in H2. rewrite app_nil_r in H1. destruct (Q [] ev later (eq_sym H2)) as (a & A & B). eauto.
    + cbn in H2. injection H2 as -> ->. destruct (P before x l H1) as (a & A & B). exists a. split; [exact A|].
      intro N. destruct (B N) as (-> & ->). destruct (S N) as (-> & ->). auto.
  - destruct (Q l ev later H2) as (a & A & B). eauto.
Qed.

Definition pass {A} (cr : crypto) (e : A -> terr) (x : M A) : Prop :=
  forall log r, x = (log, Ret r) -> errors_passed_on cr log (e r).

Lemma passed_nil cr e : errors_passed_on cr [] e.
Proof. intros [|? ?] ev later H; discriminate. Qed.
Lemma passed_one cr ev a : answers cr ev a -> errors_passed_on cr [ev] a.
Proof.
  intros A before ev' later H. destruct before as [|? [|? ?]]; [|discriminate|discriminate].
  injection H as <- <-. exists a. auto.
Qed.
Lemma pass_ret {A} cr e (a : A) : pass cr e (mret a).
Proof. intros log r H. injection H as <- _. apply passed_nil. Qed.
Lemma pass_ub {A} cr e w : pass cr e (@mub A w).
Proof. intros log r H. discriminate. Qed.
Lemma pass_lift {A} cr e (x : out A) : pass cr e (mlift x).
Proof. intros log r H. injection H as <- _. apply passed_nil. Qed.
Lemma pass_log {A} cr e ev (x : out A) : (forall r, x = Ret r -> answers cr ev (e r)) -> pass cr e (mlog ev x).
Proof. intros E log r H. injection H as <- H. apply passed_one, E, H. Qed.
Lemma pass_bind {A B} cr e1 e (x : M A) (f : A -> M B) : pass cr e1 x ->
  (forall a, pass cr e (f a)) ->
  (forall a, e1 a <> T_SUCCESS -> forall log b, f a = (log, Ret b) -> log = [] /\ e b = e1 a) ->
  pass cr e (mbind x f).
Proof.
  intros X F N log r H. destruct x as [l [a|w]]; cbn [mbind] in H; [|discriminate].
  destruct (f a) as [l' r'] eqn:E. injection H as <- ->.
  exact (passed_app _ _ _ _ _ (X _ _ eq_refl) (F a _ _ E) (fun n => N a n _ _ E)).
Qed.

Lemma terr_ne e : e <> T_SUCCESS -> terr_eqb e T_SUCCESS = false.
Proof. destruct e; (reflexivity || congruence). Qed.

(** After an error the rest only hands it on. *)
Ltac hand := let N := fresh "N" in let X := fresh "X" in intros [? ?]; cbn [fst]; intros N ? ? X;
  rewrite (terr_ne _ N) in X; cbn [negb] in X; injection X as <- <-; split; reflexivity.

Lemma pass_update cr h u : pass cr (fun _ => T_SUCCESS) (m_hash_update cr h u).
Proof. apply pass_log. reflexivity. Qed.
Lemma pass_hash_bstr cr h u : pass cr (fun _ => T_SUCCESS) (hash_bstr cr h u).
Proof.
  apply (pass_bind _ (fun _ => T_SUCCESS)); [apply pass_update|intro; apply pass_update|intros ? N; now elim N].
Qed.

Lemma pass_hash c cr alg prot aad payload n : pass cr fst (create_tbs_hash c cr alg prot aad payload n).
Proof.
  unfold create_tbs_hash. cbv zeta. destruct (_ =? _)%Z; [apply pass_ret|].
  apply (pass_bind _ fst); [apply pass_log; intros [err h] H; injection H as H; exists h; exact H| |hand].
  intros [err h]. destruct (negb _); [apply pass_ret|].
  repeat (apply (pass_bind _ (fun _ => T_SUCCESS)); [first [apply pass_update|apply pass_hash_bstr]|intro|intros ? N; now elim N]).
  apply pass_log. intros [e d] H. cbn. eauto.
Qed.

Lemma pass_size cr alg k : pass cr fst (m_sig_size cr alg k).
Proof. apply pass_log. intros [e n] H. injection H as H. exists n. exact H. Qed.

Definition serr (x : sigres) : terr := fst (fst (fst x)).
Ltac give := let X := fresh "X" in intros [? ?] _ ? ? X; injection X as <- <-; split; reflexivity.

Lemma pass_sign c cr me prot aad payload buf :
  pass cr serr (sign1_sign_short_circuit c cr me prot aad payload buf) /\
  pass cr serr (sign1_sign_eddsa cr me prot aad payload buf) /\
  pass cr serr (sign1_sign_default c cr me prot aad payload buf).
Proof.
  split; [|split].
  - unfold sign1_sign_short_circuit. apply (pass_bind _ fst); [apply pass_hash| |hand].
    intros [err h]. destruct (negb _); [apply pass_ret|]. destruct (wb_null buf).
    + destruct (short_circuit_sig_size _). apply pass_ret.
    + apply (pass_bind _ (fun _ => T_SUCCESS)); [apply pass_lift|intros []; apply pass_ret|intros ? N; now elim N].
  - unfold sign1_sign_eddsa. destruct (create_tbs _ _ _ _) as [err [tbs|]]; cbv zeta;
      (destruct (negb _); [apply pass_ret|]); [|apply pass_ub].
    destruct (wb_null buf).
    + apply (pass_bind _ fst); [apply pass_size|intros []; apply pass_ret|give].
    + destruct (wb_null _); [apply pass_ret|].
      apply (pass_bind _ fst); [apply pass_log; intros [e s] H; cbn; eauto|intros []; apply pass_ret|give].
  - unfold sign1_sign_default. apply (pass_bind _ fst); [apply pass_hash| |hand].
    intros [err h]. destruct (negb _); [apply pass_ret|]. destruct (wb_null buf).
    + apply (pass_bind _ fst); [apply pass_size|intros []; apply pass_ret|give].
    + apply (pass_bind _ fst); [apply pass_log; intros [e s] H; cbn; eauto|intros []; apply pass_ret|give].
Qed.

Definition err3 {A B} (x : terr * A * B) : terr := fst (fst x).

Theorem encode_signature_passes c cr me aad payload e log err me' e' :
  encode_signature_aad_internal c cr me aad payload e = (log, Ret (err, me', e')) -> errors_passed_on cr log err.
Proof.
  intro H. refine ((_ : pass cr err3 (encode_signature_aad_internal c cr me aad payload e)) log (err, me', e') H). clear H.
  unfold encode_signature_aad_internal. destruct (if u_is_null payload then _ else _) as [e1 sp]. cbv zeta.
  destruct (negb _); [apply pass_ret|]. destruct (enc_open_bytes e1) as [e2 buf].
  destruct (pass_sign c cr me (resolve e1 (c_prot me)) aad sp buf) as (P1 & P2 & P3).
  apply (pass_bind _ serr).
  - destruct (_ && _); [exact P1|]. destruct (_ && _); [exact P2|exact P3].
  - intros [[[er m] n] s]. destruct (negb _); apply pass_ret.
  - intros [[[er m] n] s]. unfold serr. cbn [fst]. intros N ? ? H. rewrite (terr_ne _ N) in H. cbn [negb] in H.
    injection H as <- <-. split; reflexivity.
Qed.

Theorem sign_passes c cr me (det : bool) payload aad buf log err me' r :
  sign_aad_internal c cr me det payload aad buf = (log, Ret (err, me', r)) -> errors_passed_on cr log err.
Proof.
  intro H. refine ((_ : pass cr err3 (sign_aad_internal c cr me det payload aad buf)) log (err, me', r) H). clear H.
  unfold sign_aad_internal. cbv zeta. destruct (encode_parameters_internal _ _ _ _) as [[er m] e].
  destruct (negb _); [apply pass_ret|].
  apply (pass_bind _ err3).
  - intros log0 [[er' m'] e'] H. exact (encode_signature_passes _ _ _ _ _ _ _ _ _ _ H).
  - intros [[er' m'] e']. destruct (negb _); [apply pass_ret|]. destruct (negb _); [apply pass_ret|].
    destruct (enc_finish e') as [[] ?]; apply pass_ret.
  - intros [[er' m'] e']. unfold err3. cbn [fst]. intros N ? ? H. rewrite (terr_ne _ N) in H. cbn [negb] in H.
    injection H as <- <-. split; reflexivity.
Qed.

Lemma pass_check c cr me m aad : pass cr fst (verify_check c cr me m aad).
Proof.
  unfold verify_check. cbv zeta. destruct (_ && _); [apply pass_ret|].
  apply (pass_bind _ (fun _ => T_SUCCESS)); [destruct (negb _); [apply pass_lift|apply pass_ret]| |intros ? N; now elim N].
  intro er. destruct (negb _); [apply pass_ret|].
  apply (pass_bind _ (fun _ => T_SUCCESS)); [destruct (dis_short_circuit c); [apply pass_ret|apply pass_lift]| |intros ? N; now elim N].
  intros sc. destruct sc; [|destruct (_ && _)].
  - apply (pass_bind _ (fun x => x)); [|intro; apply pass_ret|intros a N ? ? H; cbn in H; injection H as <- <-; split; reflexivity].
    unfold sign1_verify_short_circuit. destruct (has_flag _ _); [apply pass_ret|]. destruct (negb _); [apply pass_ret|].
    apply (pass_bind _ fst); [apply pass_hash| |hand].
    intros [e h]. destruct (negb _); [apply pass_ret|apply pass_lift].
  - unfold sign1_verify_eddsa. destruct (create_tbs _ _ _ _) as [err [tbs|]]; cbv zeta;
      (destruct (negb _); [apply pass_ret|]); [|apply pass_ub].
    destruct (has_flag _ _); [apply pass_ret|]. destruct (wb_null _); [apply pass_ret|].
    apply (pass_bind _ (fun x => x)); [apply pass_log; intros r H; exact H|intro; apply pass_ret|intros a N ? ? H; cbn in H; injection H as <- <-; split; reflexivity].
  - apply (pass_bind _ (fun x => x)); [|intro; apply pass_ret|intros a N ? ? H; cbn in H; injection H as <- <-; split; reflexivity].
    unfold sign1_verify_default. destruct (has_flag _ _); [apply pass_ret|].
    apply (pass_bind _ fst); [apply pass_hash| |hand].
    intros [e h]. destruct (negb _); [apply pass_ret|]. apply pass_log. intros r H. exact H.
Qed.

Theorem verify_passes c cr junk me msg aad payload want dc log w :
  verify_internal c cr junk me msg aad payload want dc = (log, Ret w) -> errors_passed_on cr log (w_err w).
Proof.
  revert log w. change (pass cr w_err (verify_internal c cr junk me msg aad payload want dc)).
  unfold verify_internal.
  apply (pass_bind _ (fun _ => T_SUCCESS)); [apply pass_lift| |intros ? N; now elim N].
  intros [[e|m] me1]; [apply pass_ret|].
  apply (pass_bind _ fst); [apply pass_check| |].
  - intros [er me2]. destruct (terr_eqb er T_SUCCESS); apply pass_ret.
  - intros [er me2]. cbn [fst]. intros N ? ? H. rewrite (terr_ne _ N) in H. injection H as <- <-. split; reflexivity.
Qed.

(** ** The test adapter told to fail *)

Lemma failing_start wraps junk c log err halg :
  errors_passed_on (test_crypto_failing 1 wraps junk c) log err -> In (EvHashStart halg) log -> err = ERR_HASH_GENERAL_FAIL.
Proof.
  intros P H. apply in_split in H as (l1 & l2 & H). destruct (P _ _ _ H) as (a & (h & A) & B).
  injection A as <- _. apply B. discriminate.
Qed.
Lemma failing_finish wraps junk c log err :
  errors_passed_on (test_crypto_failing 2 wraps junk c) log err -> In EvHashFinish log -> err = ERR_HASH_GENERAL_FAIL.
Proof.
  intros P H. apply in_split in H as (l1 & l2 & H). destruct (P _ _ _ H) as (a & (h & n & d & A) & B).
  injection A as <- _. apply B. discriminate.
Qed.
Lemma failing_off mode wraps junk c : mode <> 1%Z -> mode <> 2%Z -> test_crypto_failing mode wraps junk c = test_crypto wraps junk c.
Proof. intros A B. unfold test_crypto_failing. apply Z.eqb_neq in A, B. rewrite A, B. reflexivity. Qed.
