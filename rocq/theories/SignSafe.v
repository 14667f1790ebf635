(** Signing has no undefined behaviour, given an adapter that has none. *)
From Verif Require Import Base Const QEnc Crypto Util ShortCircuit Params Sign Spec SignSpec.
From Verif Require Import BaseFacts EncFacts UtilFacts SignFacts SignProofs SignMore Parts VerifyTop VerifySpec.
From Verif Require Import Algs OpenSSL AdapterSpec OpenSSLFacts OpenSSLFacts2.
From Coq Require Import Lia ZifyBool ZifyNat ZifyN.
Ltac Zify.zify_post_hook ::= Z.div_mod_to_equations.
Open Scope N_scope. Open Scope list_scope.

Lemma ub_ret {A} (r : out A) : ub_of r = None <-> is_ret r.
Proof. destruct r; cbn; intuition congruence. Qed.

(** What the caller's buffers hold; when only sizes are computed, their lengths. *)
Definition given (nul : bool) (u : ubufc) (b : bytes) : Prop := if nul then u_len u = blen b else holds u b.

Lemma given_len nul u b : given nul u b -> u_len u = blen b.
Proof. destruct nul; [auto|]. apply holds_len. Qed.

Lemma core_sign_safe c cr parts me prot aad pay buf :
  hashing_safe c cr parts -> pieces_within parts (tbs_chunks prot aad pay) ->
  (wb_null buf = false -> sc_on me = true -> dis_short_circuit c = false ->
     forall ev d, create_tbs_hash c cr (c_alg me) prot aad pay (max_hash_size c) = (ev, Ret (T_SUCCESS, d)) -> d <> []) ->
  (wb_null buf = false -> sc_on me = false \/ dis_short_circuit c = true -> (c_alg me =? EDDSA)%Z && negb (dis_eddsa c) = false ->
     forall d, is_ret (cr_sign cr (c_alg me) (c_key me) d (wb_len buf))) ->
  (wb_null buf = false -> sc_on me = false \/ dis_short_circuit c = true -> c_alg me = (-8)%Z ->
     forall t, is_ret (cr_sign_eddsa cr (c_key me) t (wb_len buf))) ->
  is_ret (snd (sign_core c cr me prot aad pay buf)).
Proof.
  intros H PW NE SG SE. unfold sign_core. fold (sc_on me).
  assert (OFF : sc_on me && negb (dis_short_circuit c) = false -> sc_on me = false \/ dis_short_circuit c = true).
  { intro X. apply andb_false_iff in X as [S|S]; [auto|right]. now apply negb_false_iff in S. }
  destruct (sc_on me && negb (dis_short_circuit c)) eqn:SC; [|destruct ((c_alg me =? EDDSA)%Z && _) eqn:ED].
  - apply andb_prop in SC as [S1 S2]. apply negb_true_iff in S2.
    unfold sign1_sign_short_circuit.
    pose proof (hash_safe c cr parts (c_alg me) prot aad pay H PW) as HS.
    destruct (create_tbs_hash c cr (c_alg me) prot aad pay (max_hash_size c)) as [ev [[e d]|w]] eqn:E; [|contradiction].
    unfold mbind at 1. destruct (terr_eqb e T_SUCCESS) eqn:T; cbn [negb]; [|exact I]. apply terr_eqb_eq in T. subst e.
    destruct (wb_null buf) eqn:N; [exact I|]. unfold mlift, mbind. rewrite short_circuit_sign_spec.
    destruct (_ <? _); [exact I|]. destruct d; [destruct (NE eq_refl S1 S2 _ _ eq_refl eq_refl)|exact I].
  - apply andb_prop in ED as [ED _]. apply Z.eqb_eq in ED.
    unfold sign1_sign_eddsa. rewrite create_tbs_spec. cbv zeta. destruct (blen _ <=? _); [|exact I]. cbn [terr_eqb negb].
    cbn [sc_set_aux_size c_aux c_key c_alg].
    destruct (wb_null buf) eqn:N.
    { unfold m_sig_size, mlog, mbind. now destruct (cr_sig_size _ _ _). }
    destruct (wb_null (c_aux me)); [exact I|].
    apply bind_safe; [|intros [? ?]; exact I]. unfold mlog. cbn [snd]. apply SE; auto.
  - unfold sign1_sign_default. apply bind_safe; [eapply hash_safe; eassumption|].
    intros [e d]. destruct (negb (terr_eqb e T_SUCCESS)); [exact I|]. destruct (wb_null buf) eqn:N.
    { unfold m_sig_size, mlog, mbind. now destruct (cr_sig_size _ _ _). }
    apply bind_safe; [|intros [? ?]; exact I]. unfold mlog. cbn [snd]. apply SG; auto.
Qed.

(** Room left for the signature when everything before it is in place. *)
Lemma empty_message_len c q me (det : bool) payload pl : configured q me -> holds payload pl ->
  blen (requested_message c q (if det then None else Some pl) []) = blen (unsigned c me det payload) + 2.
Proof.
  intros C P. rewrite <- (message_spec c q me det payload pl [] C P), message_len.
  change (blen (short_head 2 (blen (@nil byte)))) with 1. rewrite blen_nil. lia.
Qed.

Theorem sign_safe c cr q me (det : bool) payload aad pl ad buf :
  configured q me -> holds payload pl -> holds aad ad ->
  hashing_safe c cr [ad; pl] ->
  (wants_short_circuit (q_flags q) = true -> forall halg data d, digest_of cr halg data d -> d <> []) ->
  (wb_null buf = false -> wants_short_circuit (q_flags q) = false ->
     forall room, blen (requested_message c q (if det then None else Some pl) []) + room = wb_len buf + 2 -> 0 < room ->
     (q_alg q <> (-8)%Z -> forall d, is_ret (cr_sign cr (q_alg q) (q_key q) d room)) /\
     (q_alg q = (-8)%Z -> forall t, is_ret (cr_sign_eddsa cr (q_key q) t room))) ->
  is_ret (snd (sign_aad_internal c cr me det payload aad buf)).
Proof.
  intros C P A H NE SG.
  destruct (sign_aad_internal c cr me det payload aad buf) as [l r] eqn:E. cbn [snd].
  apply ub_ret. apply sign_runs in E as [[_ E]|(S1 & S2 & F & r' & E & ->)]; [exact E|]. apply ub_ret.
  match type of E with ?x = _ => assert (X : is_ret (snd x)); [|rewrite E in X; exact X] end.
  assert (PL : u_len (if det then payload else inbuf (wb_null buf) (src_bytes payload)) = blen pl).
  { destruct det; [now apply holds_len|]. rewrite (holds_src _ _ P). now destruct (wb_null buf). }
  pose proof (longest_32 [ad; pl]). pose proof (longest_in [ad; pl] ad (or_introl eq_refl)).
  pose proof (longest_in [ad; pl] pl (or_intror (or_introl eq_refl))). pose proof (protected_header_len (c_alg me)).
  assert (PH : u_len (inbuf (wb_null buf) (protected_header (c_alg me))) <= 27) by now destruct (wb_null buf).
  pose proof (sc_on_spec _ _ C) as SO.
  apply (core_sign_safe c cr [ad; pl]); [exact H| | | |].
  - apply chunks_within; [lia|rewrite (holds_len _ _ A); lia|lia].
  - intros N S _ ev d D. change (sc_on me = true) in S. rewrite SO in S.
    cbn [place wb_null] in N. apply orb_false_iff in N as [N _]. rewrite N in D. cbn [inbuf] in D.
    eapply create_tbs_hash_digest in D as (halg & _ & D); [exact (NE S _ _ _ D)|now left|exact A|].
    destruct det; [exact P|]. left. now rewrite (holds_src _ _ P).
  - intros N S NA d. change (sc_on me = false \/ dis_short_circuit c = true) in S.
    assert (W : wants_short_circuit (q_flags q) = false).
    { rewrite <- SO. destruct S as [S|S]; [exact S|]. rewrite S, andb_true_r in S2. exact S2. }
    cbn [place wb_null] in N. apply orb_false_iff in N as [N N0].
    pose proof (empty_message_len c q me det payload pl C P) as U.
    destruct C as (CA & _ & CK & _). change (c_alg (with_prot me buf)) with (c_alg me) in *. change (c_key (with_prot me buf)) with (c_key me).
    rewrite CA, CK in *. cbn [place wb_len]. apply SG; [exact N|exact W|lia|lia|].
    intro X. rewrite X in S1, NA. unfold signature_algorithm_id_is_supported in S1. change (EDDSA =? EDDSA)%Z with true in NA.
    change (-8 =? EDDSA)%Z with true in *. destruct (dis_eddsa c); [|discriminate]. rewrite !orb_false_iff in S1 || idtac.
    now destruct (dis_es384 c), (dis_es512 c), (dis_ps256 c), (dis_ps384 c), (dis_ps512 c).
  - intros N S NA d. change (sc_on me = false \/ dis_short_circuit c = true) in S.
    assert (W : wants_short_circuit (q_flags q) = false).
    { rewrite <- SO. destruct S as [S|S]; [exact S|]. rewrite S, andb_true_r in S2. exact S2. }
    cbn [place wb_null] in N. apply orb_false_iff in N as [N N0].
    pose proof (empty_message_len c q me det payload pl C P) as U.
    destruct C as (CA & _ & CK & _). change (c_alg (with_prot me buf)) with (c_alg me) in *. change (c_key (with_prot me buf)) with (c_key me).
    rewrite CA, CK in *. cbn [place wb_len]. apply SG; [exact N|exact W|lia|lia|exact NA].
Qed.
