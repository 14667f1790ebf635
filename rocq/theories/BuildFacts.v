(** Build switches of algorithms affect these algorithms only. *)
From Verif Require Import Base Const QEnc QDec Crypto Util ShortCircuit Sign Params Verify SignSpec BuildSpec.
From Verif Require Import BaseFacts SignProofs VerifyCheck VerifySpec.
From Coq Require Import Lia.
Open Scope N_scope. Open Scope list_scope.

Ltac by_algorithm :=
  unfold in_both, enabled in *;
  repeat match goal with
         | H : _ \/ _ |- _ => destruct H
         | H : _ /\ _ |- _ => destruct H
         end; subst; try discriminate;
  repeat match goal with H : ?x = false |- _ => rewrite !H; clear H end;
  cbn; rewrite ?andb_false_r, ?orb_true_r; auto.

Lemma supported_enabled c alg : enabled c alg -> signature_algorithm_id_is_supported c alg = true.
Proof. intro A. unfold signature_algorithm_id_is_supported. by_algorithm. Qed.

Lemma hash_both c c2 alg : in_both c c2 alg -> hash_alg_id_from_sig_alg_id c alg = hash_alg_id_from_sig_alg_id c2 alg.
Proof. intro A. unfold hash_alg_id_from_sig_alg_id. by_algorithm. Qed.

Lemma eddsa_both c c2 alg : in_both c c2 alg -> negb (dis_eddsa c) && (alg =? EDDSA)%Z = negb (dis_eddsa c2) && (alg =? EDDSA)%Z.
Proof. intro A. by_algorithm. Qed.

(** Equal continuations. *)
Lemma mbind_ext {A B} (x y : M A) (f g : A -> M B) : x = y -> (forall a, f a = g a) -> mbind x f = mbind y g.
Proof. intros -> F. destruct y as [l [a|w]]; cbn [mbind]; [now rewrite F|reflexivity]. Qed.

(** A computation that gives related hash contexts. *)
Definition both {A B} (R : A -> B -> Prop) (x : M A) (y : M B) : Prop :=
  fst x = fst y /\ match snd x, snd y with Ret a, Ret b => R a b | UB v, UB w => v = w | _, _ => False end.

Lemma bind_both {A B C} (R : A -> B -> Prop) (x : M A) (y : M B) (f : A -> M C) (g : B -> M C) :
  both R x y -> (forall a b, R a b -> f a = g b) -> mbind x f = mbind y g.
Proof.
  destruct x as [l [a|v]], y as [l2 [b|w]]; intros [E H] F; cbn [fst snd] in E, H; subst; cbn [mbind]; try contradiction; [|reflexivity].
  now rewrite (F a b H).
Qed.

Lemma bind_both2 {A B A' B'} (R : A -> B -> Prop) (Q : A' -> B' -> Prop) (x : M A) (y : M B) (f : A -> M A') (g : B -> M B') :
  both R x y -> (forall a b, R a b -> both Q (f a) (g b)) -> both Q (mbind x f) (mbind y g).
Proof.
  destruct x as [l [a|v]], y as [l2 [b|w]]; intros [E H] F; cbn [fst snd] in E, H; subst; cbn [mbind]; try contradiction.
  - destruct (F a b H) as [E2 G]. destruct (f a) as [l3 r], (g b) as [l4 r2]. cbn [fst snd] in E2, G. subst. split; [reflexivity|exact G].
  - split; reflexivity.
Qed.

Lemma tbs_hash_both c c2 cr cr2 alg k prot aad payload : in_both c c2 alg -> adapters_alike c cr c2 cr2 alg k ->
  create_tbs_hash c cr alg prot aad payload (max_hash_size c) = create_tbs_hash c2 cr2 alg prot aad payload (max_hash_size c2).
Proof.
  intros A (R & St & Up & Fi & _). unfold create_tbs_hash. rewrite <- (hash_both c c2 alg A). cbv zeta.
  destruct (Z.eqb_spec (hash_alg_id_from_sig_alg_id c alg) INVALID_ALGORITHM_ID) as [I|I]; [reflexivity|].
  destruct (hash_alg_spec c alg _ eq_refl I) as [HF _]. set (halg := hash_alg_id_from_sig_alg_id c alg) in *.
  destruct (St _ HF) as [E T]. destruct (cr_hash_start cr halg) as [e h], (cr_hash_start cr2 halg) as [e2 h2].
  cbn [fst snd] in E, T. subst e2. cbn [mlog mbind]. destruct (negb (terr_eqb e T_SUCCESS)) eqn:Q; [reflexivity|].
  assert (e = T_SUCCESS) by (destruct e; (reflexivity || discriminate Q)). specialize (T H). clear Q H St HF I.
  assert (U : forall x y u, R x y -> both R (m_hash_update cr x u) (m_hash_update cr2 y u)).
  { intros x y u r. specialize (Up x y u r). unfold m_hash_update, mlog, both. cbn [fst snd]. split; [reflexivity|exact Up]. }
  assert (V : forall x y u, R x y -> both R (hash_bstr cr x u) (hash_bstr cr2 y u)).
  { intros x y u r. unfold hash_bstr. apply (bind_both2 R R); [now apply U|]. intros. now apply U. }
  match goal with |- (let (_, _) := ?x in _) = (let (_, _) := ?y in _) => replace x with y; [reflexivity|] end. symmetry.
  apply (bind_both R); [now apply U|]. intros. apply (bind_both R); [now apply V|]. intros. apply (bind_both R); [now apply V|]. intros.
  apply (bind_both R); [now apply V|]. intros x y r. unfold mlog. now rewrite (Fi x y r).
Qed.

Lemma parameters_both c c2 me det e : same_features c c2 -> in_both c c2 (c_alg me) ->
  encode_parameters_internal c me det e = encode_parameters_internal c2 me det e.
Proof.
  intros [S T] A. pose proof (supported_enabled _ _ (proj1 A)) as U. pose proof (supported_enabled _ _ (proj2 A)) as V. unfold encode_parameters_internal, add_unprotected_parameters.
  rewrite U, V, S, T. reflexivity.
Qed.

Lemma parameters_alg c me det e er me' e' : encode_parameters_internal c me det e = (er, me', e') ->
  c_alg me' = c_alg me /\ c_key me' = c_key me.
Proof.
  unfold encode_parameters_internal. destruct (negb _); [intro H; injection H as _ <- _; auto|]. cbv zeta.
  destruct (encode_protected_parameters _ _) as [e1 p]. destruct (_ && _); [intro H; injection H as _ <- _; auto|].
  destruct (add_unprotected_parameters _ _ _ _) as [er1 e2]. destruct (negb _); intro H; injection H as _ <- _; auto.
Qed.

Lemma signature_both c c2 cr cr2 me aad payload e : same_features c c2 -> in_both c c2 (c_alg me) ->
  adapters_alike c cr c2 cr2 (c_alg me) (c_key me) ->
  encode_signature_aad_internal c cr me aad payload e = encode_signature_aad_internal c2 cr2 me aad payload e.
Proof.
  intros [S T] A F. unfold encode_signature_aad_internal. destruct (if u_is_null payload then _ else _) as [e1 sp]. cbv zeta.
  destruct (negb _); [reflexivity|]. destruct (enc_open_bytes e1) as [e2 buf]. apply mbind_ext; [|reflexivity].
  rewrite S. pose proof (eddsa_both c c2 _ A) as E. rewrite (andb_comm (negb (dis_eddsa c))), (andb_comm (negb (dis_eddsa c2))) in E. rewrite E.
  unfold sign1_sign_short_circuit, sign1_sign_default, sign1_sign_eddsa, m_sig_size. rewrite !(tbs_hash_both c c2 cr cr2 _ (c_key me)) by assumption.
  destruct F as (R & _ & _ & _ & Sz & Sg & _ & Ed). clear E.
  destruct (has_flag (c_flags me) OPT_SHORT_CIRCUIT_SIG && negb (dis_short_circuit c2)); [reflexivity|].
  destruct ((c_alg me =? EDDSA)%Z) eqn:Q; cbn [andb]; [destruct (negb (dis_eddsa c2))|].
  - apply Z.eqb_eq in Q. destruct (Ed Q) as [Es _]. destruct (create_tbs _ _ _ _) as [er tbs]. destruct (negb _); [reflexivity|].
    destruct tbs; [|reflexivity]. cbn [c_alg c_key sc_set_aux_size]. rewrite Sz. destruct (wb_null buf); [reflexivity|]. destruct (wb_null _); [reflexivity|]. now rewrite Es.
  - apply mbind_ext; [reflexivity|]. intros [er h]. destruct (negb _); [reflexivity|]. rewrite Sz, Sg. reflexivity.
  - apply mbind_ext; [reflexivity|]. intros [er h]. destruct (negb _); [reflexivity|]. rewrite Sz, Sg. reflexivity.
Qed.

Theorem sign_both c c2 cr cr2 q me (det : bool) payload aad buf :
  configured q me -> same_features c c2 -> in_both c c2 (q_alg q) -> adapters_alike c cr c2 cr2 (q_alg q) (q_key q) ->
  sign_aad_internal c cr me det payload aad buf = sign_aad_internal c2 cr2 me det payload aad buf.
Proof.
  intros C S A F. assert (E : c_alg me = q_alg q) by (destruct C; assumption). assert (K : c_key me = q_key q) by (destruct C; tauto).
  rewrite <- E in A, F. rewrite <- K in F.
  unfold sign_aad_internal. cbv zeta. rewrite (parameters_both c c2) by assumption.
  destruct (encode_parameters_internal c2 me det (enc_init buf)) as [[er m] e] eqn:P. destruct (negb _); [reflexivity|].
  apply parameters_alg in P as [P P2]. rewrite (signature_both c c2 cr cr2) by (rewrite ?P, ?P2; assumption). reflexivity.
Qed.

(** ** Verification *)

Lemma decode_both c c2 junk me msg payload dc : dis_content_type c = dis_content_type c2 ->
  verify_decode c junk me msg payload dc = verify_decode c2 junk me msg payload dc.
Proof.
  intro T. unfold verify_decode, parse_cose_header_parameters, take_all, take_content_type. rewrite T. reflexivity.
Qed.

Lemma default_enabled c cr alg prot aad payload n log d :
  create_tbs_hash c cr alg prot aad payload n = (log, Ret (T_SUCCESS, d)) -> enabled c alg.
Proof.
  unfold create_tbs_hash. cbv zeta. destruct (Z.eqb_spec (hash_alg_id_from_sig_alg_id c alg) INVALID_ALGORITHM_ID) as [E|E]; [discriminate|].
  intros _. exact (proj2 (hash_alg_spec c alg _ eq_refl E)).
Qed.

Lemma check_both c c2 cr cr2 me m aad : same_features c c2 -> in_both c c2 (p_alg (m_params m)) ->
  adapters_alike c cr c2 cr2 (p_alg (m_params m)) (v_key me) ->
  verify_check c cr me m aad = verify_check c2 cr2 me m aad.
Proof.
  intros [S _] A F. unfold verify_check. cbv zeta. destruct (_ && _); [reflexivity|]. apply mbind_ext; [reflexivity|]. intro er.
  destruct (negb (terr_eqb er T_SUCCESS)); [reflexivity|]. rewrite S. apply mbind_ext; [reflexivity|]. intro sc.
  rewrite (eddsa_both c c2 _ A). unfold sign1_verify_short_circuit, sign1_verify_default, sign1_verify_eddsa.
  rewrite (tbs_hash_both c c2 cr cr2 _ (v_key me)) by assumption. destruct sc; [reflexivity|].
  destruct F as (R & _ & _ & _ & _ & _ & Vf & Ed). destruct (negb (dis_eddsa c2) && _) eqn:Q.
  - apply andb_prop in Q as [_ Q]. apply Z.eqb_eq in Q. destruct (Ed Q) as [_ Ev]. destruct (create_tbs _ _ _ _) as [e t].
    destruct (negb _); [reflexivity|]. destruct t; [|reflexivity]. cbn [v_key v_set_aux_size]. now rewrite Ev.
  - apply mbind_ext; [|reflexivity]. destruct (has_flag _ _); [reflexivity|]. apply mbind_ext; [reflexivity|]. intros [e h].
    destruct (negb (terr_eqb e T_SUCCESS)); [reflexivity|]. now rewrite Vf.
Qed.

Lemma bind_ret {A B} (x : M A) (f : A -> M B) log b : mbind x f = (log, Ret b) ->
  exists l1 a l2, x = (l1, Ret a) /\ f a = (l2, Ret b) /\ log = l1 ++ l2.
Proof.
  destruct x as [l [a|w]]; cbn [mbind]; [|discriminate]. destruct (f a) as [l2 r] eqn:E. intro H. injection H as <- ->. eauto 6.
Qed.

Lemma hash_ok_enabled c cr alg prot aad payload n log d : create_tbs_hash c cr alg prot aad payload n = (log, Ret (T_SUCCESS, d)) -> enabled c alg.
Proof. exact (default_enabled c cr alg prot aad payload n log d). Qed.

Lemma check_enabled c cr me m aad log me' : decode_only (v_flags me) = false ->
  verify_check c cr me m aad = (log, Ret (T_SUCCESS, me')) -> enabled c (p_alg (m_params m)).
Proof.
  intros D H. unfold verify_check in H. cbv zeta in H. destruct (_ && _); [discriminate|].
  apply bind_ret in H as (l1 & er & l2 & _ & H & _). destruct (negb (terr_eqb er T_SUCCESS)) eqn:E.
  { injection H as _ X _. subst er. discriminate. }
  apply bind_ret in H as (l3 & sc & l4 & _ & H & _). destruct sc.
  - apply bind_ret in H as (l5 & e & l6 & H & R & _). injection R as _ -> _. unfold sign1_verify_short_circuit in H.
    rewrite flag_do, D in H. cbn [negb] in H.
    destruct (negb (has_flag (v_flags me) OPT_ALLOW_SHORT_CIRCUIT)); [discriminate|].
    apply bind_ret in H as (l7 & [e d] & l8 & H & R & _). destruct (terr_eqb e T_SUCCESS) eqn:T; cbn [negb] in R.
    + assert (e = T_SUCCESS) by (destruct e; (reflexivity || discriminate T)). subst e. exact (hash_ok_enabled _ _ _ _ _ _ _ _ _ H).
    + injection R as _ ->. discriminate T.
  - destruct (negb (dis_eddsa c) && (p_alg (m_params m) =? EDDSA)%Z) eqn:Q.
    + apply andb_prop in Q as [Q1 Q2]. apply Z.eqb_eq in Q2. apply negb_true_iff in Q1. unfold enabled. rewrite Q2. tauto.
    + apply bind_ret in H as (l5 & e & l6 & H & R & _). injection R as _ -> _. unfold sign1_verify_default in H.
      rewrite flag_do, D in H. apply bind_ret in H as (l7 & [e d] & l8 & H & R & _). destruct (terr_eqb e T_SUCCESS) eqn:T; cbn [negb] in R.
      * assert (e = T_SUCCESS) by (destruct e; (reflexivity || discriminate T)). subst e. exact (hash_ok_enabled _ _ _ _ _ _ _ _ _ H).
      * injection R as _ ->. discriminate T.
Qed.

(** What the decoding does not change. *)
Lemma decode_flags c junk me msg payload dc r me' : verify_decode c junk me msg payload dc = Ret (r, me') -> v_flags me' = v_flags me /\ v_key me' = v_key me.
Proof.
  unfold verify_decode. cbv zeta. destruct (negb _); [intro H; injection H as _ <-; auto|].
  destruct (process_tags me _) as [[er m1]|w] eqn:P; [|discriminate]. cbn [obind].
  assert (Q : v_flags m1 = v_flags me /\ v_key m1 = v_key me).
  { revert P. unfold process_tags. cbv zeta. destruct (_ && _); [intro H; injection H as _ <-; auto|].
    destruct (_ && _); [intro H; injection H as _ <-; auto|].
    match goal with |- obind ?x _ = _ -> _ => destruct x as [[ix tg]|] end; [|discriminate]. cbn [obind].
    destruct (tags_loop _ _ _ _ _) as [[e2 tg2]|]; [|discriminate]. intro H. injection H as _ <-. auto. }
  destruct Q as [<- <-]. clear.
  repeat match goal with
         | |- Ret (_, m1) = Ret _ -> _ => intro H; injection H as _ <-; auto
         | |- UB _ = _ -> _ => discriminate
         | |- obind ?x _ = _ -> _ => destruct x; cbn [obind]
         | |- (let (_, _) := ?x in _) = _ -> _ => destruct x
         | |- (if ?b then _ else _) = _ -> _ => destruct b
         | |- match ?x with _ => _ end = _ -> _ => destruct x
         end.
Qed.

(** A message accepted by one build is accepted with the same outputs and adapter
    calls by a build that has more algorithms. *)
Theorem verify_more c c2 cr cr2 junk me msg aad payload want dc log w :
  same_features c c2 -> more_algorithms c c2 -> (forall alg, enabled c alg -> adapters_alike c cr c2 cr2 alg (v_key me)) ->
  decode_only (v_flags me) = false ->
  verify_internal c cr junk me msg aad payload want dc = (log, Ret w) -> w_err w = T_SUCCESS ->
  verify_internal c2 cr2 junk me msg aad payload want dc = (log, Ret w).
Proof.
  intros S M F D H E. rewrite <- H. unfold verify_internal in *. rewrite <- (decode_both c c2) by apply S.
  destruct (verify_decode c junk me msg payload dc) as [[r me1]|u] eqn:V; [|reflexivity].
  unfold mlift in *. cbn [mbind] in *. destruct r as [e|m]; [reflexivity|].
  destruct (mbind (verify_check c cr me1 m aad) _) as [l r] eqn:B in H. injection H as _ ->.
  apply bind_ret in B as (l1 & [er me2] & l2 & C & R & _).
  assert (er = T_SUCCESS). { destruct (terr_eqb er T_SUCCESS) eqn:T; injection R as _ <-; exact E. }
  subst er. apply decode_flags in V as [V1 V2]. assert (A : enabled c (p_alg (m_params m))).
  { apply (check_enabled c cr me1 m aad l1 me2); [|exact C]. now rewrite V1. }
  rewrite <- (check_both c c2 cr cr2); [reflexivity|exact S|exact (conj A (M _ A))|]. rewrite V2. exact (F _ A).
Qed.
