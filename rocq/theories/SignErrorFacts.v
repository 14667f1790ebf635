(** Errors of signing are true (C60). *)
From Coq Require Import Lia.
From Verif Require Import Base Const QEnc Crypto Util ShortCircuit Sign Spec SignSpec PassSpec SignErrorSpec.
From Verif Require Import BaseFacts EncFacts UtilFacts SignFacts SignProofs SignMore SignSafe PassFacts SupportFacts.
Open Scope N_scope. Open Scope list_scope. Open Scope mon_scope.

Local Strategy 100 [create_tbs create_tbs_hash].

(** [x] fails only with [own] or with the answer of its last call. *)
Definition blame {A} (cr : crypto) (e : A -> terr) (own : list event -> terr -> Prop) (x : M A) : Prop :=
  forall log r, x = (log, Ret r) -> e r <> T_SUCCESS -> own log (e r) \/ adapter_failed cr log (e r).

Lemma failed_app cr l1 l2 e : adapter_failed cr l2 e -> adapter_failed cr (l1 ++ l2) e.
Proof. intros (b & ev & -> & A). exists (l1 ++ b), ev. split; [now rewrite app_assoc|exact A]. Qed.

Lemma failed_one cr ev e : answers cr ev e -> adapter_failed cr [ev] e.
Proof. intro A. exists [], ev. auto. Qed.

Lemma hash_blame c cr alg prot aad payload n log err d :
  create_tbs_hash c cr alg prot aad payload n = (log, Ret (err, d)) -> err <> T_SUCCESS ->
  (err = ERR_UNSUPPORTED_SIGNING_ALG /\ log = [] /\ hash_alg_id_from_sig_alg_id c alg = INVALID_ALGORITHM_ID) \/
  adapter_failed cr log err.
Proof.
  intros H N. unfold create_tbs_hash in H. cbv zeta in H.
  destruct (Z.eqb_spec (hash_alg_id_from_sig_alg_id c alg) INVALID_ALGORITHM_ID) as [E|E].
  { left. unfold mret in H. injection H as <- <- _. auto. }
  right. apply mbind_ret_inv in H as (l1 & [e1 h] & l2 & H1 & H & ->).
  unfold mlog in H1. injection H1 as <- H1.
  destruct (terr_eqb e1 T_SUCCESS) eqn:E1; cbn [negb] in H.
  2:{ unfold mret in H. injection H as <- <- _. apply failed_one. exists h. exact H1. }
  apply failed_app.
  repeat (apply mbind_ret_inv in H as (? & ? & ? & _ & H & ->); apply failed_app).
  unfold mlog in H. injection H as <- H. apply failed_one. cbn. eauto.
Qed.

(** Errors of the functions that make the signature. *)
Definition core_own (c : cfg) (me : sctx) (tbs : N) (buf : wbuf) (log : list event) (e : terr) : Prop :=
  (e = ERR_UNSUPPORTED_SIGNING_ALG /\ log = [] /\ hash_alg_id_from_sig_alg_id c (c_alg me) = INVALID_ALGORITHM_ID /\
     (sc_on me = true \/ c_alg me <> (-8)%Z \/ dis_eddsa c = true)) \/
  (e = ERR_SIG_BUFFER_SIZE /\ sc_on me = true /\ wb_null buf = false /\ wb_len buf < ecdsa_sig_size (c_alg me)) \/
  (e = ERR_AUXILIARY_BUFFER_SIZE /\ log = [] /\ sc_on me && negb (dis_short_circuit c) = false /\ c_alg me = (-8)%Z /\ wb_len (c_aux me) < tbs) \/
  (e = ERR_NEED_AUXILIARY_BUFFER /\ log = [] /\ sc_on me && negb (dis_short_circuit c) = false /\ c_alg me = (-8)%Z /\ wb_null (c_aux me) = true /\ wb_null buf = false).

Lemma core_blame c cr me prot aad payload buf log err me' n w :
  sign_core c cr me prot aad payload buf = (log, Ret (err, me', n, w)) -> err <> T_SUCCESS ->
  core_own c me (blen (sig_structure (src_bytes prot) (src_bytes aad) (src_bytes payload))) buf log err \/ adapter_failed cr log err.
Proof.
  intros H N. unfold sign_core in H. fold (sc_on me) in H.
  destruct (sc_on me && negb (dis_short_circuit c)) eqn:SC.
  - apply andb_prop in SC as [SO _]. unfold sign1_sign_short_circuit in H.
    apply mbind_ret_inv in H as (l1 & [e1 h] & l2 & H1 & H & ->).
    destruct (terr_eqb e1 T_SUCCESS) eqn:E1; cbn [negb] in H.
    2:{ unfold mret in H. injection H as <- <- _ _ _. rewrite app_nil_r.
        apply hash_blame in H1; [|exact N]. destruct H1 as [(? & ? & ?)|H1]; [left; left; auto|now right]. }
    destruct (wb_null buf) eqn:NB.
    + destruct (short_circuit_sig_size (c_alg me)) as [e2 k] eqn:E2. unfold mret in H. injection H as _ <- _ _ _.
      unfold short_circuit_sig_size in E2. injection E2 as <- _. now elim N.
    + apply mbind_ret_inv in H as (l3 & [e2 s] & l4 & H3 & H & ->).
      unfold mret in H. injection H as <- <- _ _ _.
      unfold mlift in H3. injection H3 as <- H3. rewrite short_circuit_sign_spec in H3.
      destruct (N.ltb_spec (wb_len buf) (ecdsa_sig_size (c_alg me))) as [L|L].
      * injection H3 as <- _. left. right. left. auto.
      * exfalso. destruct h; [destruct (0 <? _); [discriminate|]|]; injection H3 as <- _; now elim N.
  - destruct ((c_alg me =? EDDSA)%Z && negb (dis_eddsa c)) eqn:ED.
    + apply andb_prop in ED as [EA _]. apply Z.eqb_eq in EA. change EDDSA with (-8)%Z in EA. unfold sign1_sign_eddsa in H.
      rewrite create_tbs_spec in H. cbv zeta in H. 
      set (T := sig_structure _ _ _) in *. clearbody T.
      destruct (N.leb_spec (blen T) (wb_len (c_aux me))) as [L|L]; cbn [terr_eqb negb] in H.
      * change (c_aux (sc_set_aux_size me _)) with (c_aux me) in H.
        destruct (wb_null buf) eqn:NB.
        -- apply mbind_ret_inv in H as (l3 & [e2 s] & l4 & H3 & H & ->).
           unfold mret in H. injection H as <- <- _ _ _. rewrite app_nil_r.
           unfold m_sig_size, mlog in H3. injection H3 as <- H3. right. apply failed_one. exists s. exact H3.
        -- destruct (wb_null (c_aux me)) eqn:AN.
           ++ unfold mret in H. injection H as <- <- _ _ _. left. do 3 right. auto 10.
           ++ apply mbind_ret_inv in H as (l3 & [e2 s] & l4 & H3 & H & ->).
              unfold mret in H. injection H as <- <- _ _ _. rewrite app_nil_r.
              unfold mlog in H3. injection H3 as <- H3. right. apply failed_one. cbn. eauto.
      * unfold mret in H. injection H as <- <- _ _ _. left. right. right. left. auto.
    + unfold sign1_sign_default in H.
      apply mbind_ret_inv in H as (l1 & [e1 h] & l2 & H1 & H & ->).
      destruct (terr_eqb e1 T_SUCCESS) eqn:E1; cbn [negb] in H.
      2:{ unfold mret in H. injection H as <- <- _ _ _. rewrite app_nil_r.
          apply hash_blame in H1; [|exact N]. destruct H1 as [(? & ? & ?)|H1]; [left; left|now right]. repeat (split; [assumption|]). right.
          apply andb_false_iff in ED as [ED|ED]; [left|right; now destruct (dis_eddsa c)].
          apply Z.eqb_neq in ED. exact ED. }
      right. apply failed_app.
      destruct (wb_null buf) eqn:NB.
      * apply mbind_ret_inv in H as (l3 & [e2 s] & l4 & H3 & H & ->).
        unfold mret in H. injection H as <- <- _ _ _. rewrite app_nil_r.
        unfold m_sig_size, mlog in H3. injection H3 as <- H3. apply failed_one. exists s. exact H3.
      * apply mbind_ret_inv in H as (l3 & [e2 s] & l4 & H3 & H & ->).
        unfold mret in H. injection H as <- <- _ _ _. rewrite app_nil_r.
        unfold mlog in H3. injection H3 as <- H3. apply failed_one. cbn. eauto.
Qed.

(** Without a place for the signature its size is that reported. *)
Lemma core_size_reported c cr q me prot aad payload buf log me' n w :
  configured q me -> sc_on me && dis_short_circuit c = false ->
  wb_null buf = true -> sign_core c cr me prot aad payload buf = (log, Ret (T_SUCCESS, me', n, w)) ->
  size_reported cr q n /\ w = [].
Proof.
  intros C SD NB H. unfold size_reported. rewrite <- (sc_on_spec _ _ C). destruct C as (CA & _ & CK & _).
  rewrite <- CA, <- CK. unfold sign_core in H. fold (sc_on me) in H.
  assert (SZ : forall l e (m : sctx) (k : N) (b : bytes), (let! (err, n) := m_sig_size cr (c_alg me) (c_key me) in mret ((err, m, n, []) : sigres)) = (l, Ret (T_SUCCESS, e, k, b)) ->
            cr_sig_size cr (c_alg me) (c_key me) = (T_SUCCESS, k) /\ b = []).
  { intros l e m k b X. apply mbind_ret_inv in X as (l3 & [e2 s] & l4 & H3 & X & _).
    unfold mret in X. injection X as _ -> _ -> <-. unfold m_sig_size, mlog in H3. injection H3 as _ H3. auto. }
  destruct (sc_on me) eqn:SO; cbn [andb] in H, SD.
  - rewrite SD in H. cbn [negb] in H. unfold sign1_sign_short_circuit in H.
    apply mbind_ret_inv in H as (l1 & [e1 h] & l2 & H1 & H & ->).
    destruct (terr_eqb e1 T_SUCCESS) eqn:E1; cbn [negb] in H.
    2:{ unfold mret in H. injection H as _ H _ _ _. subst e1. discriminate. }
    rewrite NB, sc_size_spec in H. unfold mret in H. injection H as _ _ <- <-. auto.
  - destruct ((c_alg me =? EDDSA)%Z && negb (dis_eddsa c)) eqn:ED.
    + unfold sign1_sign_eddsa in H. rewrite create_tbs_spec in H. cbv zeta in H.
      destruct (_ <=? _); cbn [terr_eqb negb] in H; [|discriminate].
      rewrite NB in H. exact (SZ _ _ _ _ _ H).
    + unfold sign1_sign_default in H.
      apply mbind_ret_inv in H as (l1 & [e1 h] & l2 & H1 & H & ->).
      destruct (terr_eqb e1 T_SUCCESS) eqn:E1; cbn [negb] in H.
      2:{ unfold mret in H. injection H as _ H _ _ _. subst e1. discriminate. }
      rewrite NB in H. exact (SZ _ _ _ _ _ H).
Qed.

Lemma some_bytes_len n : blen (some_bytes n) = n.
Proof. unfold some_bytes, blen. rewrite repeat_length. lia. Qed.

Lemma sigw_some n : sigw n [] = some_bytes n.
Proof. unfold sigw, some_bytes. cbn [app]. rewrite firstn_all2; [reflexivity|]. rewrite repeat_length. lia. Qed.

Lemma no_hash_alg c alg : enabled c alg -> hash_alg_id_from_sig_alg_id c alg = INVALID_ALGORITHM_ID -> alg = (-8)%Z.
Proof.
  intros E H. destruct (Z.eqb_spec alg (-8)%Z) as [|N]; [assumption|].
  pose proof (core_hash c alg E N) as X. rewrite H in X. exfalso. clear - X. unfold hash_for in X.
  destruct alg as [|p|p]; try discriminate X. do 6 (destruct p as [p|p|]; try discriminate X).
Qed.

Lemma clash_spec c q me : configured q me -> ct_clash c me = true <-> two_content_types c q.
Proof.
  intros (_ & _ & _ & _ & CU & CT & _). unfold ct_clash, two_content_types, EMPTY_UINT_CONTENT_TYPE. rewrite CT.
  destruct (dis_content_type c); cbn [negb andb]; [intuition discriminate|].
  destruct (q_ct_uint q) as [u|].
  - destruct CU as [B ->]. replace (u =? 65536) with false by lia. cbn [negb andb].
    destruct (q_ct_text q); intuition congruence.
  - rewrite CU. rewrite N.eqb_refl. cbn [negb andb]. intuition congruence.
Qed.

Lemma tbs_len p a m p' a' m' : blen p = blen p' -> blen a = blen a' -> blen m = blen m' ->
  blen (sig_structure p a m) = blen (sig_structure p' a' m').
Proof.
  intros P A M. rewrite !sig_structure_eq, !blen_cons, !blen_app, P, A, M. reflexivity.
Qed.

Lemma tbs_given_len q me (det nul : bool) payload aad pl ad : configured q me -> holds payload pl -> holds aad ad ->
  blen (sig_structure (src_bytes (inbuf nul (protected_header (c_alg me)))) (src_bytes aad)
          (src_bytes (if det then payload else inbuf nul (src_bytes payload)))) = blen (requested_tbs q ad pl).
Proof.
  intros (CA & _) P A. unfold requested_tbs. rewrite CA. apply tbs_len.
  - unfold inbuf. destruct nul; [rewrite src_bytes_len|]; reflexivity.
  - now rewrite (holds_src _ _ A).
  - destruct det; [now rewrite (holds_src _ _ P)|]. unfold inbuf.
    destruct nul; [rewrite src_bytes_len; cbn [u_len]|cbn [src_bytes]]; now rewrite (holds_src _ _ P).
Qed.

Theorem signing_errors c cr q me (det : bool) payload aad pl ad buf log err me' r :
  configured q me -> holds payload pl -> holds aad ad -> (det = true -> u_is_null payload = false) ->
  let op := if det then None else Some pl in
  blen (requested_message c q op []) <= MAX_OFFSET ->
  sign_aad_internal c cr me det payload aad buf = (log, Ret (err, me', r)) -> err <> T_SUCCESS ->
  signing_fault c cr q op (requested_tbs q ad pl) buf log err \/ adapter_failed cr log err.
Proof.
  intros C P A D op B H N.
  pose proof (empty_message_len c q me det payload pl C P) as U. fold op in U.
  pose proof (message_spec c q me det payload pl) as MS. fold op in MS.
  rewrite (sign_eq c cr me det payload aad buf D) in H; [|clear - U B; lia].
  pose proof (clash_spec c q me C) as CL.
  pose proof (sc_on_spec _ _ C) as SO.
  destruct (signature_algorithm_id_is_supported c (c_alg me)) eqn:SA; cbn [negb] in H.
  2:{ unfold mret in H. injection H as <- <- _ _. left. split; [reflexivity|]. left. intro E.
      apply supported_spec in E. destruct C as (CA & _). congruence. }
  assert (EN : enabled c (q_alg q)). { destruct C as (CA & _). rewrite <- CA. apply supported_spec, SA. }
  destruct (sc_on me && dis_short_circuit c) eqn:SD.
  { unfold mret in H. injection H as <- <- _ _. left. split; [reflexivity|]. apply andb_prop in SD as [S1 S2].
    split; [congruence|exact S2]. }
  destruct (ct_clash c me) eqn:CC.
  { unfold mret in H. injection H as <- <- _ _. left. split; [reflexivity|]. now apply CL. }
  destruct (N.ltb_spec (wb_len buf) (blen (unsigned c me det payload))) as [L|L].
  { unfold mret in H. injection H as <- <- _ _. left. left. unfold no_room. clear - L U. lia. }
  apply mbind_ret_inv in H as (l1 & [[[e1 m1] n] w] & l2 & H1 & H & ->).
  set (room := wb_len buf - blen (unsigned c me det payload)) in *.
  assert (C1 : configured q (with_prot me buf)) by exact C.
  destruct (terr_eqb e1 T_SUCCESS) eqn:E1; cbn [negb] in H.
  - apply terr_eqb_eq in E1. subst e1.
    destruct (N.leb_spec (blen (message c me det payload (sigw n w))) (wb_len buf)) as [F|F].
    { unfold mret in H. injection H as _ <- _ _. now elim N. }
    unfold mret in H. injection H as <- <- _ _. left.
    rewrite (MS (sigw n w) C P) in F.
    destruct (wb_null (place (wb_null buf) room)) eqn:NB.
    + destruct (core_size_reported c cr q (with_prot me buf) _ _ _ _ _ _ _ _ C1 SD NB H1) as [SR ->].
      rewrite sigw_some in F. right. right. exists n. split; [|split; [exact SR|exact F]].
      cbn [place wb_null] in NB. apply orb_prop in NB as [NB|NB]; [now left|]. right. unfold room in NB. apply N.eqb_eq in NB.
      clear - NB U L. lia.
    + cbn [place wb_null] in NB. apply orb_false_elim in NB as [NB NR].
      unfold place in H1. rewrite NB, NR in H1. cbn [orb] in H1.
      assert (EN1 : enabled c (c_alg (with_prot me buf))) by (apply supported_spec; exact SA).
      apply (sign_core_success c cr q _ _ _ _ (protected_header (c_alg me)) ad pl) in H1; auto.
      2:{ now left. }
      2:{ destruct det; [exact P|]. left. unfold inbuf. f_equal. apply holds_src, P. }
      destruct H1 as [-> SG]. rewrite sigw_exact in F.
      right. left. exists w, room. split; [exact NB|]. split; [|split; [|exact F]].
      * destruct C as (CA & _). rewrite CA in SG. exact SG.
      * unfold room. clear - U L. lia.
  - unfold mret in H. injection H as <- <- _ _. rewrite app_nil_r.
    apply core_blame in H1; [|exact N]. destruct H1 as [H1|H1]; [left|now right].
    pose proof (tbs_given_len q me det (wb_null buf) payload aad pl ad C P A) as TL.
    rewrite TL in H1. clear TL. unfold core_own in H1.
    change (c_alg (with_prot me buf)) with (c_alg me) in H1. change (c_aux (with_prot me buf)) with (c_aux me) in H1.
    change (sc_on (with_prot me buf)) with (sc_on me) in H1.
    assert (NSC : c_alg me = (-8)%Z -> sc_on me && negb (dis_short_circuit c) = false -> plain_eddsa q).
    { intros X Y. unfold plain_eddsa. destruct C as (CA & _). split; [|congruence]. rewrite <- SO.
      clear - SD Y. destruct (sc_on me), (dis_short_circuit c); auto; discriminate. }
    destruct C as (CA & _ & _ & _ & _ & _ & CX).
    destruct H1 as [(-> & -> & H1 & HE)|[(-> & H1 & H2 & H3)|[(-> & -> & H1 & H2 & H3)|(-> & -> & H1 & H2 & H3 & H4)]]].
    + split; [reflexivity|]. right. rewrite CA in H1. pose proof (no_hash_alg c _ EN H1) as E8.
      split; [|exact E8]. rewrite <- SO. 
      destruct HE as [HE|[HE|HE]]; [exact HE|congruence|].
      exfalso. clear - EN E8 HE. rewrite E8 in EN. unfold enabled in EN. rewrite HE in EN. intuition discriminate.
    + cbn [signing_fault]. cbn [place wb_null wb_len] in H2, H3. apply orb_false_elim in H2 as [H2 _].
      split; [congruence|]. split; [exact H2|]. rewrite <- (MS (some_bytes (ecdsa_sig_size (q_alg q))) ltac:(auto) P).
      rewrite message_len, some_bytes_len. rewrite CA in H3. unfold room in H3. clear - H3 L. lia.
    + split; [reflexivity|]. split; [auto|]. rewrite <- CX. exact H3.
    + split; [reflexivity|]. split; [auto|]. rewrite <- CX. split; [exact H3|].
      cbn [place wb_null] in H4. now apply orb_false_elim in H4 as [H4 _].
Qed.

Theorem signing_faults c cr q me (det : bool) payload aad pl ad buf :
  configured q me -> holds payload pl -> holds aad ad -> (det = true -> u_is_null payload = false) ->
  let op := if det then None else Some pl in
  let tbs := requested_tbs q ad pl in
  blen (requested_message c q op []) <= MAX_OFFSET ->
  let no := refused c cr me det payload aad buf in
  (bad_algorithm c q -> no ERR_UNSUPPORTED_SIGNING_ALG) /\
  (~ bad_algorithm c q ->
    (bad_short_circuit c q -> no ERR_SHORT_CIRCUIT_SIG_DISABLED) /\
    (~ bad_short_circuit c q ->
      (two_content_types c q -> no ERR_DUPLICATE_PARAMETER) /\
      (~ two_content_types c q ->
        (no_room c q op buf -> no ERR_TOO_SMALL) /\
        (~ no_room c q op buf ->
          (no_hash q -> no ERR_UNSUPPORTED_SIGNING_ALG) /\
          (plain_eddsa q -> wb_len (q_aux q) < blen tbs -> no ERR_AUXILIARY_BUFFER_SIZE) /\
          (plain_eddsa q -> blen tbs <= wb_len (q_aux q) -> wb_null (q_aux q) = true ->
           wb_null buf = false -> blen (requested_message c q op []) < wb_len buf + 2 -> no ERR_NEED_AUXILIARY_BUFFER))))).
Proof.
  intros C P A D op tbs B no. unfold no, refused. clear no.
  pose proof (empty_message_len c q me det payload pl C P) as U. fold op in U.
  rewrite (sign_eq c cr me det payload aad buf D); [|clear - U B; lia].
  pose proof (clash_spec c q me C) as CL. pose proof (sc_on_spec _ _ C) as SO.
  unfold bad_algorithm. pose proof (supported_spec c (c_alg me)) as SS.
  assert (CA : c_alg me = q_alg q) by apply C. rewrite CA in *.
  destruct (signature_algorithm_id_is_supported c (q_alg q)); cbn [negb].
  2:{ split; [intros _; eexists; reflexivity|]. intro X. exfalso. apply X. intro Y. apply SS in Y. discriminate. }
  assert (EN : enabled c (q_alg q)) by now apply SS.
  split; [intro X; now elim X|intros _].
  unfold bad_short_circuit. rewrite <- SO.
  destruct (sc_on me && dis_short_circuit c) eqn:SD.
  { split; [intros _; eexists; reflexivity|]. intro X. exfalso. apply X. now apply andb_prop in SD. }
  split; [intros [X Y]; rewrite X, Y in SD; discriminate|intros _].
  destruct (ct_clash c me).
  { split; [intros _; eexists; reflexivity|]. intro X. exfalso. apply X. now apply CL. }
  split; [intro X; apply CL in X; discriminate|intros _].
  unfold no_room. 
  destruct (N.ltb_spec (wb_len buf) (blen (unsigned c me det payload))) as [L|L].
  { split; [intros _; eexists; reflexivity|]. intro X. exfalso. apply X. clear - U L. lia. }
  split; [intro X; exfalso; clear - X U L; lia|intros _].
  unfold no_hash, plain_eddsa. rewrite <- SO.
  unfold sign_core. change (c_flags (with_prot me buf)) with (c_flags me). fold (sc_on me).
  change (c_alg (with_prot me buf)) with (c_alg me). rewrite CA.
  assert (E8 : q_alg q = (-8)%Z -> (q_alg q =? EDDSA)%Z && negb (dis_eddsa c) = true).
  { intro X. rewrite X in *. change (-8 =? EDDSA)%Z with true. clear - EN. unfold enabled in EN. destruct (dis_eddsa c); [|reflexivity].
    intuition discriminate. }
  pose proof (tbs_given_len q me det (wb_null buf) payload aad pl ad C P A) as TL.
  assert (CX : c_aux me = q_aux q) by apply C.
  split; [|split].
  - intros [X Y]. rewrite X in *. cbn [andb] in SD |- *. rewrite SD. cbn [negb].
    unfold sign1_sign_short_circuit, create_tbs_hash. change (c_alg (with_prot me buf)) with (c_alg me). rewrite CA, Y. cbv zeta.
    replace (hash_alg_id_from_sig_alg_id c (-8) =? INVALID_ALGORITHM_ID)%Z with true.
    + eexists. reflexivity.
    + symmetry. clear. unfold hash_alg_id_from_sig_alg_id. now destruct (dis_es384 c), (dis_es512 c), (dis_ps256 c), (dis_ps384 c), (dis_ps512 c).
  - intros [X Y] Z. rewrite X. cbn [andb]. rewrite (E8 Y). unfold sign1_sign_eddsa. rewrite create_tbs_spec. cbv zeta.
    change (c_aux (with_prot me buf)) with (c_aux me). rewrite <- CA, TL. unfold tbs in Z. rewrite <- CX in Z.
    replace (_ <=? _) with false by (clear - Z; lia). eexists. reflexivity.
  - intros [X Y] Z W V R. rewrite X. cbn [andb]. rewrite (E8 Y). unfold sign1_sign_eddsa. rewrite create_tbs_spec. cbv zeta.
    change (c_aux (with_prot me buf)) with (c_aux me). rewrite <- CA, TL. unfold tbs in Z. rewrite <- CX in Z, W.
    replace (_ <=? _) with true by (clear - Z; lia). rewrite W. cbn [terr_eqb negb sc_set_aux_size c_aux with_prot sc_set_prot].
    rewrite W. cbn [place wb_null]. rewrite V. replace (_ =? 0) with false by (clear - R U L; lia). eexists. reflexivity.
Qed.

Theorem parameters_errors c q me e err me' e' :
  configured q me -> encode_parameters c me e = (err, me', e') ->
  (bad_algorithm c q -> err = ERR_UNSUPPORTED_SIGNING_ALG) /\
  (~ bad_algorithm c q -> bad_short_circuit c q -> err = ERR_SHORT_CIRCUIT_SIG_DISABLED) /\
  (~ bad_algorithm c q -> ~ bad_short_circuit c q -> two_content_types c q -> err = ERR_DUPLICATE_PARAMETER) /\
  (~ bad_algorithm c q -> ~ bad_short_circuit c q -> ~ two_content_types c q -> err = T_SUCCESS).
Proof.
  intros C H. unfold encode_parameters, encode_parameters_internal in H.
  pose proof (clash_spec c q me C) as CL. pose proof (sc_on_spec _ _ C) as SO.
  unfold bad_algorithm, bad_short_circuit. rewrite <- SO. pose proof (supported_spec c (c_alg me)) as SS.
  assert (CA : c_alg me = q_alg q) by apply C. rewrite CA in SS, H. clear C SO CA.
  destruct (signature_algorithm_id_is_supported c (q_alg q)); cbn [negb] in H.
  2:{ injection H as <- _ _. assert (~ enabled c (q_alg q)) by (intro X; apply SS in X; discriminate). tauto. }
  assert (EN : enabled c (q_alg q)) by now apply SS.
  destruct (encode_protected_parameters _ _) as [e1 p].
  change (has_flag (c_flags (sc_set_prot me p)) OPT_SHORT_CIRCUIT_SIG) with (sc_on me) in H.
  destruct (sc_on me && dis_short_circuit c) eqn:SD.
  { injection H as <- _ _. apply andb_prop in SD. tauto. }
  assert (~ (sc_on me = true /\ dis_short_circuit c = true)) by (intros [X Y]; rewrite X, Y in SD; discriminate).
  unfold add_unprotected_parameters in H. unfold ct_clash in CL.
  change (c_ct_uint (sc_set_prot me p)) with (c_ct_uint me) in H. change (c_ct_tstr (sc_set_prot me p)) with (c_ct_tstr me) in H.
  destruct (dis_content_type c); cbn [negb andb] in CL.
  { cbn [terr_eqb negb] in H. injection H as <- _ _. intuition congruence. }
  destruct (negb (c_ct_uint me =? EMPTY_UINT_CONTENT_TYPE)), (c_ct_tstr me);
    cbn [terr_eqb negb andb] in H, CL; injection H as <- _ _; intuition congruence.
Qed.
