(** The checks and the signature verification made on a decoded message, and
    the whole of a verification call. *)
From Verif Require Import Base Const QEnc QDec Crypto Util ShortCircuit Params Verify Spec SignSpec.
From Verif Require Import BaseFacts UtilFacts SignProofs SignMore SignMore3.
From Verif Require Import DecSpec VerifySpec LabelFacts VerifySafe VerifyFacts.
From Coq Require Import Lia ZifyBool ZifyNat ZifyN.
Ltac Zify.zify_post_hook ::= Z.div_mod_to_equations.
Open Scope N_scope. Open Scope list_scope.
Local Strategy 100 [create_tbs create_tbs_hash].

(** ** Flags and the short-circuit kid *)

Lemma flag_sc f : has_flag f OPT_ALLOW_SHORT_CIRCUIT = allows_short_circuit f.
Proof. apply (flag_bit f 0). Qed.
Lemma flag_kid f : has_flag f OPT_REQUIRE_KID = requires_kid f.
Proof. apply (flag_bit f 1). Qed.
Lemma flag_do f : has_flag f OPT_DECODE_ONLY = decode_only f.
Proof. apply (flag_bit f 3). Qed.
Lemma flag_crit f : has_flag f OPT_UNKNOWN_CRIT_ALLOWED = allows_unknown_crit f.
Proof. apply (flag_bit f 5). Qed.

Lemma bytes_from_holds vs u : bytes_from vs u -> holds u (u_data u).
Proof. intros [[_ ->]|(v & b & _ & _ & _ & ->)]; [right; auto|left; reflexivity]. Qed.

Lemma kid_test u : holds u (u_data u) -> u_equal u get_short_circuit_kid = Ret (bytes_eqb (u_data u) reserved_kid).
Proof.
  intros [->|[-> _]]; [|reflexivity]. cbn [u_data]. exact (u_equal_bufs _ reserved_kid).
Qed.

(** ** Everything after the crit check *)

Definition check_core (c : cfg) (cr : crypto) (me : vctx) (p : params) (sig : bytes) (prot aad pay : ubufc) : M (terr * vctx) :=
  if short_circuit_kid c p then
    mbind (sign1_verify_short_circuit c cr me p sig prot aad pay) (fun err => mret (err, me))
  else if uses_eddsa c p then sign1_verify_eddsa cr me p sig prot aad pay
  else mbind (sign1_verify_default c cr me p sig prot aad pay) (fun err => mret (err, me)).

(** crit names a parameter that is present and not understood. *)
Definition crit_hit (ci : list Z) (ct : list bytes) (m : params_map) : bool :=
  existsb (fun u => existsb (fun c => (c =? u)%Z) (upto0 ci)) (nonzero (int_labels m))
  || existsb (fun u => existsb (fun c => bytes_eqb c u) ct) (text_labels m).

Lemma upto0_nz z zs : In z (upto0 zs) -> z <> 0%Z.
Proof.
  induction zs as [|y zs IH]; cbn [upto0]; [intros []|]. destruct (Z.eqb_spec y 0) as [E|E]; [intros []|].
  intros [<-|H]; auto.
Qed.

Lemma crit_hit_iff ci ct m :
  crit_hit ci ct m = false <->
  (forall z, In z (upto0 ci) -> ~ In z (int_labels m)) /\ (forall s, In s ct -> ~ In s (text_labels m)).
Proof.
  unfold crit_hit. rewrite orb_false_iff. split; intros [A B]; split.
  - intros z H I. assert (X : existsb (fun u => existsb (fun c => (c =? u)%Z) (upto0 ci)) (nonzero (int_labels m)) = true); [|congruence].
    apply existsb_exists. exists z. split.
    + apply filter_In. split; [exact I|]. apply upto0_nz in H. now destruct (Z.eqb_spec z 0).
    + apply existsb_exists. exists z. split; [exact H|apply Z.eqb_refl].
  - intros s H I. assert (X : existsb (fun u => existsb (fun c => bytes_eqb c u) ct) (text_labels m) = true); [|congruence].
    apply existsb_exists. exists s. split; [exact I|]. apply existsb_exists. exists s. split; [exact H|apply bytes_eqb_refl].
  - apply not_true_is_false. intro X. apply existsb_exists in X as (z & I & X). apply existsb_exists in X as (y & H & E).
    apply Z.eqb_eq in E. subst y. apply filter_In in I as [I _]. exact (A z H I).
  - apply not_true_is_false. intro X. apply existsb_exists in X as (s & I & X). apply existsb_exists in X as (y & H & E).
    apply bytes_eqb_eq in E. subst y. exact (B s H I).
Qed.

Lemma crit_from_len vs ci ct : crit_from vs ci ct -> (length ci <= 10)%nat /\ (length ct <= 10)%nat.
Proof. intros [(_ & -> & ->)|(v & xs & H)]; [cbn; lia|tauto]. Qed.

Lemma fit_len n zs : ints_fit n zs -> zs = [] \/ (n + length (nonzero zs) <= 10)%nat.
Proof.
  revert n. induction zs as [|z zs IH]; intros n H; [auto|]. right. cbn [ints_fit] in H. destruct H as [H1 H2].
  replace (nonzero (z :: zs)) with (nonzero [z] ++ nonzero zs) by (symmetry; apply (nonzero_app [z] zs)).
  rewrite app_length. destruct (IH _ H2) as [->|H3]; [|lia].
  cbn [nonzero filter]. destruct (negb (z =? 0)%Z); cbn [length]; lia.
Qed.

Lemma labels_len m : labels_ok m -> (length (nonzero (int_labels m)) <= 10)%nat /\ (length (text_labels m) <= 10)%nat.
Proof.
  intros (_ & H1 & H2). split; [|exact H2]. apply fit_len in H1 as [->|H1]; [cbn; lia|lia].
Qed.

(** The checks, given the decoded message. *)
Theorem check_eq c cr me g pm m aad ci ct :
  reported c g pm (m_params m) -> crit_from (values 2 pm) ci ct -> m_crit m = ll_of ci ct ->
  labels_ok (all_params g pm) ->
  m_unknown m = ll_of (nonzero (int_labels (all_params g pm))) (text_labels (all_params g pm)) ->
  verify_check c cr me m aad =
    if requires_kid (v_flags me) && u_is_null (p_kid (m_params m)) then mret (ERR_NO_KID, me)
    else if negb (allows_unknown_crit (v_flags me)) && crit_hit ci ct (all_params g pm)
    then mret (ERR_UNKNOWN_CRITICAL_PARAMETER, me)
    else check_core c cr me (m_params m) (m_sig m) (m_prot m) aad (m_payload m).
Proof.
  intros R C Ec L Eu. unfold verify_check. cbv zeta. rewrite flag_kid, flag_crit.
  destruct (requires_kid (v_flags me) && _); [reflexivity|].
  rewrite Ec, Eu. destruct (crit_from_len _ _ _ C), (labels_len _ L). rewrite check_critical_of by assumption.
  assert (N : Forall (fun z => z <> 0%Z) (nonzero (int_labels (all_params g pm)))).
  { apply Forall_forall. intros z H'. apply filter_In in H' as [_ H']. now destruct (Z.eqb_spec z 0). }
  rewrite (upto0_nonzero _ N). fold (crit_hit ci ct (all_params g pm)).
  assert (K : holds (p_kid (m_params m)) (u_data (p_kid (m_params m)))) by (eapply bytes_from_holds, rp_kid, R).
  rewrite (kid_test _ K).
  assert (S : mbind (if dis_short_circuit c then mret false else mlift (Ret (bytes_eqb (u_data (p_kid (m_params m))) reserved_kid)))
      (fun sc : bool => if sc
       then mbind (sign1_verify_short_circuit c cr me (m_params m) (m_sig m) (m_prot m) aad (m_payload m)) (fun err => mret (err, me))
       else if negb (dis_eddsa c) && (p_alg (m_params m) =? EDDSA)%Z
            then sign1_verify_eddsa cr me (m_params m) (m_sig m) (m_prot m) aad (m_payload m)
            else mbind (sign1_verify_default c cr me (m_params m) (m_sig m) (m_prot m) aad (m_payload m)) (fun err => mret (err, me)))
    = check_core c cr me (m_params m) (m_sig m) (m_prot m) aad (m_payload m)).
  { unfold check_core, short_circuit_kid, uses_eddsa. destruct (dis_short_circuit c); cbn [negb andb].
    - rewrite mbind_ret_l. reflexivity.
    - change (mlift (Ret ?b)) with (mret b). rewrite mbind_ret_l. destruct (bytes_eqb _ _); reflexivity. }
  destruct (allows_unknown_crit (v_flags me)); cbn [negb andb].
  - rewrite mbind_ret_l, terr_eqb_refl. cbn [negb]. exact S.
  - change (mlift (Ret ?b)) with (mret b). rewrite mbind_ret_l. destruct (crit_hit ci ct (all_params g pm)).
    + reflexivity.
    + rewrite terr_eqb_refl. cbn [negb]. exact S.
Qed.

(** ** The signature *)

Lemma create_tbs_holds prot aad pay p a m buf :
  holds prot p -> holds aad a -> holds pay m ->
  create_tbs prot aad pay buf =
  let s := sig_structure p a m in
  if blen s <=? wb_len buf then (T_SUCCESS, Some (if wb_null buf then UNull (blen s) else UBuf s)) else (ERR_TOO_SMALL, None).
Proof. intros P A Y. rewrite create_tbs_spec, (holds_src _ _ P), (holds_src _ _ A), (holds_src _ _ Y). reflexivity. Qed.

Lemma hash_enabled c cr alg prot aad pay n ev h :
  create_tbs_hash c cr alg prot aad pay n = (ev, Ret (T_SUCCESS, h)) -> enabled c alg.
Proof.
  intro H. apply create_tbs_hash_log in H as (halg & ctx & ctx' & E & NI & _).
  apply hash_alg_spec in E as [_ E]; assumption.
Qed.

Lemma prefix_firstn (d s : bytes) : firstn (length d) s = d -> exists r, s = d ++ r.
Proof. intro H. exists (skipn (length d) s). rewrite <- H at 1. symmetry. apply firstn_skipn. Qed.

(** The short-circuit comparison: the signature starts with the hash. *)
Lemma sc_verify_eq d sig :
  short_circuit_verify d (UBuf sig) =
  Ret (if (blen d <=? blen sig) && bytes_eqb (firstn (length d) sig) d then T_SUCCESS else ERR_SIG_VERIFY).
Proof.
  unfold short_circuit_verify, u_head. cbn [u_len]. destruct (N.ltb_spec (blen sig) (blen d)) as [L|L].
  - replace (blen d <=? blen sig) with false by lia. reflexivity.
  - replace (blen d <=? blen sig) with true by lia. cbn [u_is_null]. rewrite u_equal_bufs, to_nat_blen. reflexivity.
Qed.

Lemma sc_verify_iff d sig : short_circuit_verify d (UBuf sig) = Ret T_SUCCESS <-> exists r, sig = d ++ r.
Proof.
  rewrite sc_verify_eq. split.
  - destruct ((blen d <=? blen sig) && bytes_eqb (firstn (length d) sig) d) eqn:E; [|discriminate].
    intros _. apply andb_prop in E as [_ E]. apply bytes_eqb_eq in E. now apply prefix_firstn.
  - intros (r & ->). rewrite blen_app. replace (blen d <=? blen d + blen r) with true by lia.
    rewrite firstn_app, Nat.sub_diag, firstn_all, app_nil_r, bytes_eqb_refl. reflexivity.
Qed.

Section Core.
Variables (c : cfg) (cr : crypto) (me : vctx) (p : params) (sig pr ad pl : bytes) (aad pay : ubufc).
Hypothesis HA : holds aad ad.
Hypothesis HP : holds pay pl.
Let tbs := sig_structure pr ad pl.

Lemma core_success log me' :
  check_core c cr me p sig (UBuf pr) aad pay = (log, Ret (T_SUCCESS, me')) ->
  decode_only (v_flags me) = false ->
  accepted c cr (v_flags me) (v_key me) p tbs sig.
Proof.
  unfold check_core, accepted. intros H D. destruct (short_circuit_kid c p); [|destruct (uses_eddsa c p) eqn:E].
  - apply mbind_ret_inv in H as (l1 & e & l2 & H & H2 & ->). injection H2 as <- -> <-.
    unfold sign1_verify_short_circuit in H. rewrite flag_do, D, flag_sc in H.
    destruct (allows_short_circuit (v_flags me)); cbn [negb] in H; [|discriminate]. split; [reflexivity|].
    apply mbind_ret_inv in H as (l3 & [e h] & l4 & H3 & H4 & ->).
    destruct (terr_eqb e T_SUCCESS) eqn:T; cbn [negb] in H4; [|injection H4 as _ ->; discriminate].
    apply terr_eqb_eq in T. subst e. unfold mlift in H4. injection H4 as _ H4. apply sc_verify_iff in H4 as (r & ->).
    pose proof (hash_enabled _ _ _ _ _ _ _ _ _ H3) as En.
    apply (create_tbs_hash_digest _ _ _ _ _ _ pr ad pl) in H3 as (halg & Hf & Hd); auto; [|now left].
    exists halg, h, r. auto.
  - unfold sign1_verify_eddsa in H. rewrite (create_tbs_holds _ _ _ pr ad pl) in H; auto; [|now left].
    cbv zeta in H. fold tbs in H. destruct (blen tbs <=? wb_len (v_aux me)); [|discriminate].
    cbn [terr_eqb negb v_set_aux_size v_flags v_aux v_key] in H. rewrite flag_do, D in H.
    destruct (wb_null (v_aux me)); [discriminate|].
    apply mbind_ret_inv in H as (l1 & e & l2 & H & H2 & ->). injection H2 as <- -> <-.
    unfold mlog in H. injection H as _ H. exact H.
  - apply mbind_ret_inv in H as (l1 & e & l2 & H & H2 & ->). injection H2 as <- -> <-.
    unfold sign1_verify_default in H. rewrite flag_do, D in H.
    apply mbind_ret_inv in H as (l3 & [e h] & l4 & H3 & H4 & ->).
    destruct (terr_eqb e T_SUCCESS) eqn:T; cbn [negb] in H4; [|injection H4 as _ ->; discriminate].
    apply terr_eqb_eq in T. subst e. unfold mlog in H4. injection H4 as _ H4.
    pose proof (hash_enabled _ _ _ _ _ _ _ _ _ H3) as En.
    apply (create_tbs_hash_digest _ _ _ _ _ _ pr ad pl) in H3 as (halg & Hf & Hd); auto; [|now left].
    exists halg, h. auto.
Qed.

Lemma core_events log r :
  check_core c cr me p sig (UBuf pr) aad pay = (log, r) ->
  (forall e, In e log -> verify_event_ok cr (v_key me) p tbs sig e) /\
  (In EvHashFinish log -> hashed log = tbs) /\
  (decode_only (v_flags me) = true -> log = []).
Proof.
  assert (HC : flat_map u_data (tbs_chunks (UBuf pr) aad pay) = tbs).
  { rewrite chunks_data; [|apply solid_buf|eapply holds_solid, HA|eapply holds_solid, HP].
    cbn [u_data]. now rewrite (holds_data _ _ HA), (holds_data _ _ HP). }
  assert (Nil : (forall e, In e [] -> verify_event_ok cr (v_key me) p tbs sig e) /\
     (In EvHashFinish [] -> hashed [] = tbs) /\ (decode_only (v_flags me) = true -> @nil event = [])).
  { repeat split; intros; contradiction. }
  assert (HE : forall l r n, create_tbs_hash c cr (p_alg p) (UBuf pr) aad pay n = (l, r) ->
     (forall e, In e l -> verify_event_ok cr (v_key me) p tbs sig e) /\ (In EvHashFinish l -> hashed l = tbs)).
  { intros l r0 n E. apply create_tbs_hash_events in E as (E1 & E2 & E3). rewrite HC in E3. split; [|exact E3].
    intros e I. specialize (E1 e I). destruct e; cbn in E1 |- *; try contradiction; auto. }
  unfold check_core. intro H. destruct (short_circuit_kid c p); [|destruct (uses_eddsa c p) eqn:E].
  - destruct (sign1_verify_short_circuit c cr me p sig (UBuf pr) aad pay) as [l o] eqn:S.
    assert (l = log).
    { unfold mbind, mret in H. destruct o; injection H as <- _; now rewrite ?app_nil_r. }
    subst l. clear H. unfold sign1_verify_short_circuit in S. rewrite flag_do in S.
    destruct (decode_only (v_flags me)); [injection S as <- _; exact Nil|].
    destruct (negb _); [injection S as <- _; exact Nil|].
    destruct (create_tbs_hash c cr (p_alg p) (UBuf pr) aad pay (max_hash_size c)) as [l2 o2] eqn:T.
    assert (l2 = log).
    { unfold mbind, mret, mlift in S. destruct o2 as [[e h]|]; [destruct (negb _)|]; injection S as <- _; now rewrite ?app_nil_r. }
    subst l2. destruct (HE _ _ _ T) as [H1 H2]. repeat split; auto. discriminate.
  - unfold sign1_verify_eddsa in H. rewrite (create_tbs_holds _ _ _ pr ad pl) in H; auto; [|now left].
    cbv zeta in H. fold tbs in H. destruct (blen tbs <=? wb_len (v_aux me)); [|injection H as <- _; exact Nil].
    cbn [terr_eqb negb v_set_aux_size v_flags v_aux v_key] in H. rewrite flag_do in H.
    destruct (decode_only (v_flags me)); [injection H as <- _; exact Nil|].
    destruct (wb_null (v_aux me)); [injection H as <- _; exact Nil|].
    cbn [u_data] in H.
    assert (L : log = [EvVerifyEddsa (v_key me) (p_kid p) tbs sig]).
    { unfold mbind, mlog, mret in H. destruct (cr_verify_eddsa _ _ _ _ _); injection H as <- _; reflexivity. }
    subst log. repeat split; [|intros [I|[]]; discriminate|discriminate].
    intros e [<-|[]]. cbn. unfold uses_eddsa in E. apply andb_prop in E as [_ E]. apply Z.eqb_eq in E. auto.
  - destruct (sign1_verify_default c cr me p sig (UBuf pr) aad pay) as [l o] eqn:S.
    assert (l = log).
    { unfold mbind, mret in H. destruct o; injection H as <- _; now rewrite ?app_nil_r. }
    subst l. clear H. unfold sign1_verify_default in S. rewrite flag_do in S.
    destruct (decode_only (v_flags me)); [injection S as <- _; exact Nil|].
    destruct (create_tbs_hash c cr (p_alg p) (UBuf pr) aad pay (max_hash_size c)) as [l2 o2] eqn:T.
    destruct (HE _ _ _ T) as [H1 H2].
    destruct o2 as [[e h]|w]; cbn [mbind] in S; [|injection S as <- _; repeat split; auto; discriminate].
    destruct (terr_eqb e T_SUCCESS) eqn:Te; cbn [negb] in S.
    + apply terr_eqb_eq in Te. subst e. unfold mlog in S. injection S as <- _.
      assert (V : verify_event_ok cr (v_key me) p tbs sig (EvVerify (p_alg p) (v_key me) (p_kid p) h sig)).
      { cbn. repeat split; auto. eapply create_tbs_hash_digest; [left; reflexivity|exact HA|exact HP|exact T]. }
      repeat split; [| |discriminate].
      * intros e I. apply in_app_or in I as [I|[<-|[]]]; auto.
      * intro I. rewrite hashed_app. cbn [hashed flat_map]. rewrite app_nil_r. apply H2.
        apply in_app_or in I as [I|[I|[]]]; [exact I|discriminate].
    + unfold mret in S. injection S as <- _. rewrite app_nil_r. repeat split; auto. discriminate.
Qed.

(** What the context holds afterwards. *)
Definition core_ctx (me' : vctx) : Prop :=
  me' = if negb (short_circuit_kid c p) && uses_eddsa c p && (blen tbs <=? wb_len (v_aux me))
        then v_set_aux_size me (blen tbs) else me.

Lemma core_after log err me' :
  check_core c cr me p sig (UBuf pr) aad pay = (log, Ret (err, me')) -> core_ctx me'.
Proof.
  unfold check_core, core_ctx. intro H. destruct (short_circuit_kid c p); cbn [negb andb]; [|destruct (uses_eddsa c p) eqn:E; cbn [andb]].
  - apply mbind_ret_inv in H as (l1 & e & l2 & H & H2 & ->). now injection H2.
  - unfold sign1_verify_eddsa in H. rewrite (create_tbs_holds _ _ _ pr ad pl) in H; auto; [|now left].
    cbv zeta in H. fold tbs in H. destruct (blen tbs <=? wb_len (v_aux me)); [|now injection H].
    cbn [terr_eqb negb v_set_aux_size v_flags v_aux v_key] in H.
    assert (L : u_len (if wb_null (v_aux me) then UNull (blen tbs) else UBuf tbs) = blen tbs) by (destruct (wb_null _); reflexivity).
    rewrite L in H.
    destruct (has_flag _ _); [now injection H|].
    destruct (wb_null (v_aux me)); [now injection H|].
    apply mbind_ret_inv in H as (l1 & e & l2 & H & H2 & ->). now injection H2.
  - apply mbind_ret_inv in H as (l1 & e & l2 & H & H2 & ->). now injection H2.
Qed.

(** Decoding only. *)
Lemma core_decode_only : decode_only (v_flags me) = true ->
  exists me', check_core c cr me p sig (UBuf pr) aad pay =
    mret (if negb (short_circuit_kid c p) && uses_eddsa c p && negb (blen tbs <=? wb_len (v_aux me))
          then ERR_AUXILIARY_BUFFER_SIZE else T_SUCCESS, me') /\ core_ctx me'.
Proof.
  intro D. unfold check_core, core_ctx. destruct (short_circuit_kid c p); cbn [negb andb]; [|destruct (uses_eddsa c p) eqn:E; cbn [andb]].
  - exists me. unfold sign1_verify_short_circuit. rewrite flag_do, D, mbind_ret_l. auto.
  - unfold sign1_verify_eddsa. rewrite (create_tbs_holds _ _ _ pr ad pl); auto; [|now left].
    cbv zeta. fold tbs. destruct (blen tbs <=? wb_len (v_aux me)); cbn [negb].
    + assert (L : u_len (if wb_null (v_aux me) then UNull (blen tbs) else UBuf tbs) = blen tbs) by (destruct (wb_null _); reflexivity).
      rewrite L. cbn [terr_eqb negb v_set_aux_size v_flags]. rewrite flag_do, D. eexists. split; reflexivity.
    + exists me. split; reflexivity.
  - exists me. unfold sign1_verify_default. rewrite flag_do, D, mbind_ret_l. auto.
Qed.

Lemma tbs_hash_complete alg halg d :
  hash_for alg = Some halg -> enabled c alg -> digest_of cr halg tbs d -> one_digest cr -> hash_reliable c cr [pr; ad; pl] ->
  exists ev, create_tbs_hash c cr alg (UBuf pr) aad pay (max_hash_size c) = (ev, Ret (T_SUCCESS, d)).
Proof.
  intros Hf En Hd One HR. destruct (hash_alg_enabled _ _ _ En Hf) as [E NI].
  destruct Hd as (h & h' & n & S & F & Fi).
  assert (X : exists ev d', create_tbs_hash c cr alg (UBuf pr) aad pay (max_hash_size c) = (ev, Ret (T_SUCCESS, d'))).
  { rewrite create_tbs_hash_feed. cbv zeta. rewrite E.
    destruct (Z.eqb_spec halg INVALID_ALGORITHM_ID); [contradiction|].
    unfold mlog at 1. unfold mbind at 1. rewrite S. cbn [terr_eqb negb].
    assert (PW : pieces_within [pr; ad; pl] (tbs_chunks (UBuf pr) aad pay)).
    { apply chunks_within; rewrite ?(holds_len _ _ HA), ?(holds_len _ _ HP); apply longest_in; cbn; auto. }
    destruct (HR halg h (tbs_chunks (UBuf pr) aad pay) S PW) as (h2 & d' & U & F2).
    rewrite <- feed_update_all in U. destruct (feed cr h _) as [lf rf]. cbn [snd] in U. subst rf.
    unfold mbind, mlog. rewrite F2. eauto. }
  destruct X as (ev & d' & X). exists ev. rewrite X. do 3 f_equal.
  apply (create_tbs_hash_digest _ _ _ _ _ _ pr ad pl) in X as (halg' & Hf' & Hd'); auto; [|now left].
  assert (halg' = halg) by congruence. subst halg'. apply (One halg tbs); [exact Hd'|]. exists h, h', n. auto.
Qed.

(** Completeness: an acceptable signature is accepted. *)
Lemma core_complete :
  accepted c cr (v_flags me) (v_key me) p tbs sig -> one_digest cr -> hash_reliable c cr [pr; ad; pl] ->
  (short_circuit_kid c p = false -> uses_eddsa c p = true -> blen tbs <= wb_len (v_aux me) /\ (decode_only (v_flags me) = false -> wb_null (v_aux me) = false)) ->
  exists log me', check_core c cr me p sig (UBuf pr) aad pay = (log, Ret (T_SUCCESS, me')).
Proof.
  intros A One HR HX. destruct (decode_only (v_flags me)) eqn:D.
  { destruct (core_decode_only D) as (me' & H & _). rewrite H. exists [], me'.
    destruct (short_circuit_kid c p); [reflexivity|]. destruct (uses_eddsa c p); [|reflexivity].
    destruct (HX eq_refl eq_refl) as [L _]. replace (blen tbs <=? wb_len (v_aux me)) with true by lia. reflexivity. }
  unfold check_core, accepted in *. destruct (short_circuit_kid c p); [|destruct (uses_eddsa c p) eqn:E].
  - destruct A as (Al & halg & d & rest & Hf & En & Hd & ->).
    destruct (tbs_hash_complete _ _ _ Hf En Hd One HR) as (ev & T).
    unfold sign1_verify_short_circuit. rewrite flag_do, D, flag_sc, Al. cbn [negb]. rewrite T.
    unfold mbind. cbn [terr_eqb negb mlift]. rewrite (proj2 (sc_verify_iff d (d ++ rest))) by eauto. unfold mret. eauto.
  - destruct (HX eq_refl eq_refl) as [L W]. specialize (W eq_refl).
    unfold sign1_verify_eddsa. rewrite (create_tbs_holds _ _ _ pr ad pl); auto; [|now left].
    cbv zeta. fold tbs. replace (blen tbs <=? wb_len (v_aux me)) with true by lia.
    rewrite W. cbn [terr_eqb negb v_set_aux_size v_flags v_aux v_key u_data]. rewrite flag_do, D, W.
    unfold mbind, mlog, mret. rewrite A. eauto.
  - destruct A as (halg & d & Hf & En & Hd & V).
    destruct (tbs_hash_complete _ _ _ Hf En Hd One HR) as (ev & T).
    unfold sign1_verify_default. rewrite flag_do, D. rewrite T.
    unfold mbind, mlog, mret. cbn [terr_eqb negb]. rewrite V. eauto.
Qed.
End Core.
