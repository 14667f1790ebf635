(** Signing succeeds when it can. *)
From Verif Require Import Base Const QEnc Crypto Util ShortCircuit Sign Spec SignSpec.
From Verif Require Import BaseFacts EncFacts UtilFacts SignFacts SignProofs SignMore SignMore2 SignMore3 SignSafe SignErrorSpec SignErrorFacts ApiFacts LiveSpec.
From Coq Require Import Lia ZifyBool ZifyNat ZifyN.
Open Scope N_scope. Open Scope list_scope.
Open Scope mon_scope.
Local Strategy 100 [create_tbs create_tbs_hash].

Lemma hash_ok c cr alg halg parts prot aad payload :
  enabled c alg -> hash_for alg = Some halg -> hash_works c cr alg parts -> pieces_within parts (tbs_chunks prot aad payload) ->
  exists ev d, create_tbs_hash c cr alg prot aad payload (max_hash_size c) = (ev, Ret (T_SUCCESS, d)).
Proof.
  intros EN HF [HS HR] PW. destruct (hash_alg_enabled _ _ _ EN HF) as [HA NI]. destruct (HS _ HF) as [h St].
  rewrite create_tbs_hash_feed. cbv zeta. rewrite HA.
  destruct (Z.eqb_spec halg INVALID_ALGORITHM_ID); [contradiction|].
  unfold mlog at 1. unfold mbind at 1. rewrite St. cbn [terr_eqb negb].
  destruct (HR halg h (tbs_chunks prot aad payload) St PW) as (h2 & d' & U & F).
  rewrite <- feed_update_all in U. destruct (feed cr h _) as [lf rf]. cbn [snd] in U. subst rf.
  unfold mbind, mlog. rewrite F. eauto.
Qed.

Lemma enabled_hash c q : faultless c q -> q_alg q <> (-8)%Z -> exists halg, hash_for (q_alg q) = Some halg.
Proof.
  intros (E & _) N. unfold enabled in E.
  destruct E as [E|[[E _]|[[E _]|[[E _]|[[E _]|[[E _]|[E _]]]]]]]; rewrite E in *; try (eexists; reflexivity). contradiction.
Qed.

(** Which of the three ways of signing. *)
Lemma way_sc c q me : configured q me -> faultless c q -> wants_short_circuit (q_flags q) = true ->
  sc_on me && negb (dis_short_circuit c) = true /\ q_alg q <> (-8)%Z.
Proof.
  intros C (_ & B & _ & NH) W. rewrite (sc_on_spec _ _ C), W. cbn [andb]. split.
  - destruct (dis_short_circuit c) eqn:D; [|reflexivity]. destruct B. now split.
  - intro E. apply NH. now split.
Qed.
Lemma way_plain c q me : configured q me -> wants_short_circuit (q_flags q) = false -> sc_on me && negb (dis_short_circuit c) = false.
Proof. intros C W. rewrite (sc_on_spec _ _ C), W. reflexivity. Qed.
Lemma way_eddsa c q me : configured q me -> faultless c q -> (c_alg me =? EDDSA)%Z && negb (dis_eddsa c) = (q_alg q =? -8)%Z.
Proof.
  intros (CA & _) (E & _). rewrite CA. change EDDSA with (-8)%Z. destruct (Z.eqb_spec (q_alg q) (-8)) as [X|X]; [|reflexivity].
  rewrite X in E. unfold enabled in E. destruct (dis_eddsa c); [|reflexivity]. exfalso. clear - E. intuition discriminate.
Qed.

Lemma core_works c cr q me parts prot aad payload p a m n room :
  configured q me -> faultless c q -> signer_works c cr q parts n -> pieces_within parts (tbs_chunks prot aad payload) ->
  holds prot p -> holds aad a -> holds payload m ->
  (plain_eddsa q -> wb_null (q_aux q) = false /\ blen (sig_structure p a m) <= wb_len (q_aux q)) -> n <= room ->
  exists log me' sig, sign_core c cr me prot aad payload {| wb_null := false; wb_len := room |} = (log, Ret (T_SUCCESS, me', n, sig)) /\ blen sig = n.
Proof.
  intros C F W PW HP HA HM AX L. pose proof (way_eddsa c q me C F) as WE. unfold sign_core. fold (sc_on me). unfold signer_works in W.
  assert (CA : c_alg me = q_alg q) by apply C. assert (CK : c_key me = q_key q) by apply C. assert (CX : c_aux me = q_aux q) by apply C.
  destruct (wants_short_circuit (q_flags q)) eqn:WS.
  - destruct (way_sc c q me C F WS) as [-> N8]. destruct W as (HW & NE & ->).
    destruct (enabled_hash c q F N8) as [halg HF].
    assert (EN : enabled c (c_alg me)) by (rewrite CA; apply F). rewrite <- CA in HF, HW.
    destruct (hash_ok _ _ _ _ _ prot aad payload EN HF HW PW) as (ev & d & HE).
    destruct (create_tbs_hash_digest _ _ _ _ _ _ _ _ _ _ _ _ HP HA HM HE) as (halg' & _ & HD). apply NE in HD.
    unfold sign1_sign_short_circuit. rewrite HE. cbn [mbind terr_eqb negb wb_null wb_len]. unfold mlift.
    rewrite short_circuit_sign_spec, CA. replace (room <? _) with false by lia.
    assert (RL := repeat_to_len d (ecdsa_sig_size (q_alg q)) HD).
    destruct d as [|x d]; [contradiction|]. cbn [mbind mret]. rewrite RL. do 3 eexists. split; [reflexivity|exact RL].
  - rewrite (way_plain c q me C WS), WE. destruct W as [_ W]. destruct (Z.eqb_spec (q_alg q) (-8)) as [E8|E8].
    + destruct (AX (conj WS E8)) as [A1 A2]. unfold sign1_sign_eddsa.
      rewrite create_tbs_spec. cbv zeta. rewrite (holds_src _ _ HP), (holds_src _ _ HA), (holds_src _ _ HM), CX.
      replace (_ <=? _) with true by lia. rewrite A1. cbn [terr_eqb negb wb_null wb_len u_len u_data sc_set_aux_size c_aux c_key].
      rewrite CX, A1, CK. destruct (W (sig_structure p a m) room L) as (sig & S1 & S2).
      unfold mlog. rewrite S1. cbn [mbind mret]. rewrite S2. do 3 eexists. split; [reflexivity|exact S2].
    + destruct W as [HW W]. destruct (enabled_hash c q F E8) as [halg HF].
      assert (EN : enabled c (c_alg me)) by (rewrite CA; apply F). rewrite <- CA in HW.
      pose proof HF as HF'. rewrite <- CA in HF.
      destruct (hash_ok _ _ _ _ _ prot aad payload EN HF HW PW) as (ev & d & HE).
      destruct (create_tbs_hash_digest _ _ _ _ _ _ _ _ _ _ _ _ HP HA HM HE) as (halg' & HF2 & HD).
      rewrite CA in HF2. destruct (W _ _ _ room HF2 HD L) as (sig & S1 & S2).
      unfold sign1_sign_default. rewrite HE. cbn [mbind terr_eqb negb wb_null wb_len]. rewrite CA, CK. unfold mlog. rewrite S1.
      cbn [mbind mret]. rewrite S2. do 3 eexists. split; [reflexivity|exact S2].
Qed.

(** Without a place for the signature its size is given. *)
Lemma core_measures c cr q me parts prot aad payload n room :
  configured q me -> faultless c q -> signer_works c cr q parts n -> pieces_within parts (tbs_chunks prot aad payload) ->
  let tbs := sig_structure (src_bytes prot) (src_bytes aad) (src_bytes payload) in
  (plain_eddsa q -> blen tbs <= wb_len (q_aux q)) ->
  exists log me', sign_core c cr me prot aad payload {| wb_null := true; wb_len := room |} = (log, Ret (T_SUCCESS, me', n, [])) /\
    (plain_eddsa q -> c_aux_size me' = blen tbs).
Proof.
  intros C F W PW tbs AX. pose proof (way_eddsa c q me C F) as WE. unfold sign_core. fold (sc_on me). unfold signer_works in W.
  assert (CA : c_alg me = q_alg q) by apply C. assert (CK : c_key me = q_key q) by apply C. assert (CX : c_aux me = q_aux q) by apply C.
  destruct (wants_short_circuit (q_flags q)) eqn:WS.
  - destruct (way_sc c q me C F WS) as [-> N8]. destruct W as (HW & NE & ->).
    destruct (enabled_hash c q F N8) as [halg HF].
    assert (EN : enabled c (c_alg me)) by (rewrite CA; apply F). rewrite <- CA in HF, HW.
    destruct (hash_ok _ _ _ _ _ prot aad payload EN HF HW PW) as (ev & d & HE).
    unfold sign1_sign_short_circuit. rewrite HE. cbn [mbind terr_eqb negb wb_null]. rewrite sc_size_spec, CA. cbn [mret].
    do 2 eexists. split; [reflexivity|]. intros [X _]. congruence.
  - rewrite (way_plain c q me C WS), WE. destruct W as [W0 W]. destruct (Z.eqb_spec (q_alg q) (-8)) as [E8|E8].
    + pose proof (AX (conj WS E8)) as A2. unfold sign1_sign_eddsa.
      rewrite create_tbs_spec. cbv zeta. fold tbs. rewrite CX.
      replace (_ <=? _) with true by lia. cbn [terr_eqb negb wb_null sc_set_aux_size c_alg c_key].
      unfold m_sig_size, mlog. rewrite CA, CK, W0. cbn [mbind mret].
      do 2 eexists. split; [reflexivity|]. intros _. cbn [sc_set_aux_size c_aux_size]. now destruct (wb_null (q_aux q)).
    + destruct W as [HW W]. destruct (enabled_hash c q F E8) as [halg HF].
      assert (EN : enabled c (c_alg me)) by (rewrite CA; apply F). rewrite <- CA in HF, HW.
      destruct (hash_ok _ _ _ _ _ prot aad payload EN HF HW PW) as (ev & d & HE).
      unfold sign1_sign_default. rewrite HE. cbn [mbind terr_eqb negb wb_null]. unfold m_sig_size, mlog. rewrite CA, CK, W0. cbn [mbind mret].
      do 2 eexists. split; [reflexivity|]. intros [_ X]. contradiction.
Qed.

Lemma size_len c q me (det : bool) payload pl n : configured q me -> holds payload pl ->
  message_size c q (if det then None else Some pl) n = blen (unsigned c me det payload) + 1 + blen (short_head 2 n) + n.
Proof.
  intros C P. unfold message_size. rewrite <- (message_spec c q me det payload pl _ C P), message_len, some_bytes_len. reflexivity.
Qed.

(** The checks before the signature are passed. *)
Lemma checks_passed c q me : configured q me -> faultless c q ->
  signature_algorithm_id_is_supported c (c_alg me) = true /\ sc_on me && dis_short_circuit c = false /\ ct_clash c me = false.
Proof.
  intros C (EN & B & T & _). assert (CA : c_alg me = q_alg q) by apply C. split; [apply supported_spec; congruence|]. split.
  - rewrite (sc_on_spec _ _ C). destruct (wants_short_circuit (q_flags q)) eqn:W, (dis_short_circuit c) eqn:D; try reflexivity. destruct B. now split.
  - destruct (ct_clash c me) eqn:X; [|reflexivity]. destruct T. now apply (clash_spec c q me C).
Qed.

Theorem signing_succeeds c cr q me (det : bool) payload aad pl ad n room :
  configured q me -> holds payload pl -> holds aad ad -> (det = true -> u_is_null payload = false) ->
  faultless c q -> signer_works c cr q [ad; pl] n ->
  (plain_eddsa q -> wb_null (q_aux q) = false /\ blen (requested_tbs q ad pl) <= wb_len (q_aux q)) ->
  let op := if det then None else Some pl in
  blen (requested_message c q op []) <= MAX_OFFSET -> message_size c q op n <= room ->
  exists log me' sig, sign_aad_internal c cr me det payload aad {| wb_null := false; wb_len := room |}
    = (log, Ret (T_SUCCESS, me', Some (UBuf (requested_message c q op sig)))) /\
    blen (requested_message c q op sig) = message_size c q op n.
Proof.
  intros C P A D F W AX op B L.
  pose proof (empty_message_len c q me det payload pl C P) as U. fold op in U.
  pose proof (size_len c q me det payload pl n C P) as SL. fold op in SL.
  pose proof (short_head_pos 2 n) as SP.
  destruct (checks_passed c q me C F) as (K1 & K2 & K3).
  assert (CA : c_alg me = q_alg q) by apply C.
  rewrite (sign_eq c cr me det payload aad _ D); [|clear - U B; lia]. cbn [wb_null wb_len].
  rewrite K1, K2, K3. cbn [negb]. replace (room <? _) with false by (clear - SL L; lia).
  unfold place, inbuf. cbn [orb]. replace (_ =? 0) with false by (clear - SL L SP; lia).
  rewrite (holds_src _ _ P).
  set (wme := with_prot me _). assert (C1 : configured q wme) by exact C.
  destruct (core_works c cr q wme [ad; pl] (UBuf (protected_header (c_alg me))) aad (if det then payload else UBuf pl)
              (protected_header (c_alg me)) ad pl n (room - blen (unsigned c me det payload)) C1 F W)
    as (log & me' & sig & E & SZ).
  - apply chunks_within; cbn [longest fold_right].
    + cbn [u_len]. pose proof (protected_header_len (c_alg me)). lia.
    + rewrite (holds_len _ _ A). lia.
    + destruct det; [rewrite (holds_len _ _ P)|cbn [u_len]]; lia.
  - now left.
  - exact A.
  - destruct det; [exact P|now left].
  - intro X. destruct (AX X) as [X1 X2]. split; [exact X1|]. rewrite CA. exact X2.
  - clear - SL L SP. lia.
  - rewrite E. cbn [mbind terr_eqb negb].
    assert (SG : sigw n sig = sig) by (rewrite <- SZ; apply sigw_exact).
    rewrite SG, (message_spec c q me det payload pl sig C P). fold op.
    assert (ML : blen (requested_message c q op sig) = message_size c q op n).
    { rewrite SL, <- (message_spec c q me det payload pl sig C P : _ = requested_message c q op sig), message_len, SZ. reflexivity. }
    rewrite ML. replace (_ <=? room) with true by (clear - L; lia). cbn [mret]. eauto.
Qed.

Theorem measuring_succeeds c cr q me (det : bool) payload aad (pl ad : bytes) n room :
  configured q me -> u_len payload = blen pl -> u_len aad = blen ad -> (det = true -> u_is_null payload = false) ->
  faultless c q -> signer_works c cr q [ad; pl] n ->
  (plain_eddsa q -> blen (requested_tbs q ad pl) <= wb_len (q_aux q)) ->
  let op := if det then None else Some pl in
  blen (requested_message c q op []) <= MAX_OFFSET -> message_size c q op n <= room ->
  exists log me', sign_aad_internal c cr me det payload aad {| wb_null := true; wb_len := room |}
    = (log, Ret (T_SUCCESS, me', Some (UNull (message_size c q op n)))) /\ configured q me' /\
    (plain_eddsa q -> sign_auxiliary_buffer_size c me' = blen (requested_tbs q ad pl)).
Proof.
  intros C P A D F W AX op B L.
  assert (PL : blen (src_bytes payload) = blen pl) by (rewrite src_bytes_len; exact P).
  assert (UL : blen (unsigned c me det payload) = blen (unsigned c me det (UBuf pl))) by (apply unsigned_len; exact PL).
  pose proof (empty_message_len c q me det (UBuf pl) pl C (or_introl eq_refl)) as U. fold op in U.
  pose proof (size_len c q me det (UBuf pl) pl n C (or_introl eq_refl)) as SL. fold op in SL.
  pose proof (short_head_pos 2 n) as SP.
  destruct (checks_passed c q me C F) as (K1 & K2 & K3).
  assert (CA : c_alg me = q_alg q) by apply C.
  destruct (core_measures c cr q (with_prot me {| wb_null := true; wb_len := room |}) [ad; pl]
              (UNull (blen (protected_header (c_alg me)))) aad (if det then payload else UNull (blen (src_bytes payload))) n
              (room - blen (unsigned c me det payload)) C F W)
    as (log & me' & E & SZ).
  - apply chunks_within; cbn [longest fold_right u_len].
    + pose proof (protected_header_len (c_alg me)). lia.
    + rewrite A. lia.
    + destruct det; [rewrite P|cbn [u_len]; rewrite PL]; lia.
  - intro X. specialize (AX X). unfold requested_tbs in AX. rewrite CA.
    rewrite (tbs_len _ _ _ (protected_header (q_alg q)) ad pl); [exact AX| | |].
    + rewrite src_bytes_len. reflexivity.
    + rewrite src_bytes_len. exact A.
    + destruct det; [exact PL|]. rewrite src_bytes_len. cbn [u_len]. exact PL.
  - assert (H : sign_aad_internal c cr me det payload aad {| wb_null := true; wb_len := room |}
      = (log ++ [], Ret (T_SUCCESS, me', Some (UNull (message_size c q op n))))).
    { rewrite (sign_eq c cr me det payload aad _ D); [|clear - U B UL; lia]. cbn [wb_null wb_len].
      rewrite K1, K2, K3. cbn [negb]. replace (room <? _) with false by (clear - SL L UL; lia).
      unfold place, inbuf. cbn [orb]. rewrite E. cbn [mbind terr_eqb negb].
      assert (ML : blen (message c me det payload (sigw n [])) = message_size c q op n).
      { rewrite SL, message_len, sigw_len, UL. reflexivity. }
      rewrite ML. replace (_ <=? room) with true by (clear - L; lia). reflexivity. }
    do 2 eexists. split; [exact H|]. split.
    + apply (used_configured q me me'); [|exact C]. exact (sign_used _ _ _ _ _ _ _ _ _ _ _ H).
    + intro X. unfold sign_auxiliary_buffer_size. rewrite (SZ X).
      destruct X as [_ X]. destruct F as (EN & _). rewrite X in EN. unfold enabled in EN.
      assert (DE : dis_eddsa c = false) by (clear - EN; intuition discriminate). rewrite DE.
      unfold requested_tbs. apply tbs_len.
      * rewrite src_bytes_len. cbn [u_len]. now rewrite CA.
      * rewrite src_bytes_len. exact A.
      * destruct det; [exact PL|]. rewrite src_bytes_len. cbn [u_len]. exact PL.
Qed.

(** Measuring, allocating what was measured, signing. *)
Theorem measured_is_enough c cr q me (det : bool) payload aad pl ad n :
  configured q me -> holds payload pl -> holds aad ad -> (det = true -> u_is_null payload = false) ->
  faultless c q -> signer_works c cr q [ad; pl] n ->
  q_aux q = {| wb_null := true; wb_len := SIZE_MAX |} -> blen (requested_tbs q ad pl) <= SIZE_MAX ->
  let op := if det then None else Some pl in
  blen (requested_message c q op []) <= MAX_OFFSET -> message_size c q op n <= SIZE_MAX ->
  exists log me1 size,
    sign_aad_internal c cr me det payload aad {| wb_null := true; wb_len := SIZE_MAX |} = (log, Ret (T_SUCCESS, me1, Some (UNull size))) /\
    let me2 := sign_set_auxiliary_buffer me1 {| wb_null := false; wb_len := sign_auxiliary_buffer_size c me1 |} in
    exists log' me3 m,
      sign_aad_internal c cr me2 det payload aad {| wb_null := false; wb_len := size |} = (log', Ret (T_SUCCESS, me3, Some (UBuf m))) /\
      blen m = size.
Proof.
  intros C P A D F W X T op B L.
  destruct (measuring_succeeds c cr q me det payload aad pl ad n SIZE_MAX C (holds_len _ _ P) (holds_len _ _ A) D F W) as (log & me1 & E & C1 & Z).
  { intros _. rewrite X. exact T. }
  { exact B. }
  { exact L. }
  do 3 eexists. split; [exact E|]. cbv zeta.
  set (b := {| wb_null := false; wb_len := _ |}). set (q2 := ApiSpec.then_asked q (ApiSpec.SetAux b)).
  destruct (signing_succeeds c cr q2 (sign_set_auxiliary_buffer me1 b) det payload aad pl ad n (message_size c q op n))
    as (log' & me3 & sig & E3 & S3); auto.
  - destruct C1 as (A1 & A2 & A3 & A4 & A5 & A6 & A7). repeat split; assumption.
  - intro PE. split; [reflexivity|]. cbn [b q2 ApiSpec.then_asked q_aux wb_len]. rewrite (Z PE). apply N.le_refl.
  - apply N.le_refl.
  - exists log', me3, (requested_message c q2 op sig). split; [exact E3|exact S3].
Qed.
