(** The errors of a whole verification. *)
From Verif Require Import Base Const QEnc QDec Crypto Util ShortCircuit Params Verify Spec SignSpec.
From Verif Require Import BaseFacts UtilFacts SignFacts SignProofs SignMore SignMore3.
From Verif Require Import DecSpec VerifyDec VerifySafe VerifyFacts VerifyCheck Unique Parts VerifyTop VerifyMore VerifyMore2 VerifySpec.
From Verif Require Import PassSpec ErrorSpec ErrorFacts.
From Coq Require Import Lia ZifyBool ZifyNat ZifyN.
Ltac Zify.zify_post_hook ::= Z.div_mod_to_equations.
Open Scope N_scope. Open Scope list_scope.
Local Strategy 100 [create_tbs create_tbs_hash verify_decode].

Definition last_answer (cr : crypto) (log : list event) (e : terr) : Prop :=
  exists before ev, log = before ++ [ev] /\ answers cr ev e.

Lemma hash_error c cr alg prot aad pay n log e h :
  create_tbs_hash c cr alg prot aad pay n = (log, Ret (e, h)) -> e <> T_SUCCESS ->
  e = ERR_UNSUPPORTED_SIGNING_ALG /\ (hash_for alg = None \/ ~ enabled c alg) \/ last_answer cr log e.
Proof.
  rewrite create_tbs_hash_feed. cbv zeta.
  destruct (Z.eqb_spec (hash_alg_id_from_sig_alg_id c alg) INVALID_ALGORITHM_ID) as [E|E].
  - intros H _. injection H as _ <- _. left. split; [reflexivity|].
    destruct (hash_for alg) as [ha|] eqn:F; [|auto]. right. intro En.
    destruct (hash_alg_enabled _ _ _ En F) as [X Y]. congruence.
  - unfold mbind at 1, mlog at 1. cbv beta iota.
    destruct (cr_hash_start cr _) as [err h0] eqn:St.
    destruct (terr_eqb err T_SUCCESS) eqn:T; cbn [negb].
    + destruct (feed cr h0 (tbs_chunks prot aad pay)) as [l [h'|w]] eqn:F; cbn [mbind mlog]; [|discriminate].
      intros H N. injection H as <- H. right. exists (EvHashStart (hash_alg_id_from_sig_alg_id c alg) :: l), EvHashFinish.
      split; [reflexivity|]. cbn. eauto.
    + unfold mret. intros H N. injection H as <- <- _. right. exists [], (EvHashStart (hash_alg_id_from_sig_alg_id c alg)).
      split; [reflexivity|]. cbn. eauto.
Qed.

Lemma core_error c cr me p sig pr aad ad pay pl log e me' : holds aad ad -> holds pay pl ->
  check_core c cr me p sig (UBuf pr) aad pay = (log, Ret (e, me')) -> e <> T_SUCCESS ->
  signature_fault c cr (v_flags me) (v_aux me) p (sig_structure pr ad pl) sig log e.
Proof.
  intros HA HP H N. unfold check_core in H. unfold signature_fault.
  destruct (short_circuit_kid c p) eqn:K; [|destruct (uses_eddsa c p) eqn:E].
  - apply mbind_ret_inv in H as (l1 & e1 & l2 & H & H2 & ->). injection H2 as <- <- <-. rewrite app_nil_r.
    unfold sign1_verify_short_circuit in H. rewrite flag_do, flag_sc in H.
    destruct (decode_only (v_flags me)); [injection H as _ <-; contradiction|]. left. split; [reflexivity|].
    destruct (allows_short_circuit (v_flags me)); cbn [negb] in H; [|injection H as _ <-; auto].
    apply mbind_ret_inv in H as (l3 & [e3 h] & l4 & H3 & H4 & ->).
    destruct (terr_eqb e3 T_SUCCESS) eqn:T; cbn [negb] in H4.
    + apply terr_eqb_eq in T. subst e3. unfold mlift in H4. injection H4 as <- H4. rewrite app_nil_r.
      apply (create_tbs_hash_digest _ _ _ _ _ _ pr ad pl) in H3 as (halg & Hf & Hd); auto; [|now left].
      right. left. rewrite sc_verify_eq in H4. destruct (_ && _) eqn:B in H4; injection H4 as <-; [contradiction|].
      repeat split. exists halg, h. split; [exact Hf|]. split; [exact Hd|]. intros r Er.
      assert (X : short_circuit_verify h (UBuf sig) = Ret T_SUCCESS) by (apply sc_verify_iff; eauto).
      rewrite sc_verify_eq, B in X. discriminate.
    + unfold mret in H4. injection H4 as <- <-. rewrite app_nil_r. apply hash_error in H3 as [H3|H3]; [auto 10|auto 10|exact N].
  - assert (P8 : p_alg p = (-8)%Z) by (unfold uses_eddsa in E; apply andb_prop in E as [_ E]; now apply Z.eqb_eq in E).
    unfold sign1_verify_eddsa in H. rewrite (create_tbs_holds _ _ _ pr ad pl) in H; auto; [|now left].
    cbv zeta in H. destruct (N.leb_spec (blen (sig_structure pr ad pl)) (wb_len (v_aux me))) as [L|L].
    2:{ cbn in H. injection H as _ <- _. right. auto. }
    cbn [terr_eqb negb v_set_aux_size v_flags v_aux v_key] in H. rewrite flag_do in H.
    destruct (decode_only (v_flags me)); [injection H as _ <- _; contradiction|]. left. split; [reflexivity|].
    destruct (wb_null (v_aux me)); [injection H as _ <- _; auto 10|].
    apply mbind_ret_inv in H as (l1 & e1 & l2 & H & H2 & ->). injection H2 as <- <- <-. rewrite app_nil_r.
    unfold mlog in H. injection H as <- H. right. right. right. right. exists [], (EvVerifyEddsa (v_key me) (p_kid p) (u_data (UBuf (sig_structure pr ad pl))) sig).
    split; [reflexivity|exact H].
  - apply mbind_ret_inv in H as (l1 & e1 & l2 & H & H2 & ->). injection H2 as <- <- <-. rewrite app_nil_r.
    unfold sign1_verify_default in H. rewrite flag_do in H.
    destruct (decode_only (v_flags me)); [injection H as _ <-; contradiction|]. left. split; [reflexivity|].
    apply mbind_ret_inv in H as (l3 & [e3 h] & l4 & H3 & H4 & ->).
    destruct (terr_eqb e3 T_SUCCESS) eqn:T; cbn [negb] in H4.
    + unfold mlog in H4. injection H4 as <- H4. right. right. right. right.
      exists l3, (EvVerify (p_alg p) (v_key me) (p_kid p) h sig). auto.
    + unfold mret in H4. injection H4 as <- <-. rewrite app_nil_r. apply hash_error in H3 as [H3|H3]; [auto 10|auto 10|exact N].
Qed.

Lemma upto0_in z zs : In z (upto0 zs) -> In z zs.
Proof.
  induction zs as [|y zs IH]; cbn [upto0]; [auto|]. destruct (y =? 0)%Z; [intros []|]. intros [<-|H]; [left; reflexivity|right; auto].
Qed.

Theorem verify_error c cr junk me msg aad payload want dc log w ad gv :
  length (v_tags me) = 4%nat -> holds aad ad -> detached_arg dc payload gv ->
  verify_internal c cr junk me msg aad payload want dc = (log, Ret w) -> w_err w <> T_SUCCESS ->
  error_true c cr (v_flags me) (v_aux me) msg ad dc gv log (w_err w).
Proof.
  intros Hv HA HG H Hw. unfold verify_internal in H.
  apply mbind_ret_inv in H as (l1 & [r me1] & l2 & H1 & H2 & ->). unfold mlift in H1. injection H1 as <- H1.
  destruct r as [e|m].
  { injection H2 as <- <-. cbn [w_err] in *. left. split; [reflexivity|]. split; [eapply decode_error_kind, H1|].
    intros g pm Hm. eapply decode_error; eassumption. }
  apply decode_iff in H1 as (g & pm & Hm & Hd); [|exact Hv]. right. exists g, pm. split; [exact Hm|].
  apply mbind_ret_inv in H2 as (l3 & [err me2] & l4 & H3 & H4 & ->).
  destruct (terr_eqb err T_SUCCESS) eqn:T.
  { apply terr_eqb_eq in T. injection H4 as _ <-. cbn [w_err] in Hw. contradiction. }
  injection H4 as <- <-. cbn [w_err] in *.
  destruct (decodes_payload _ _ _ _ _ _ _ _ _ Hd HG) as (pl & HP & HH & HU).
  destruct Hd as [D1 D2 D3 D4 D5 D6 D7 D8 D9].
  destruct D4 as (D4 & ci & ct & D4c & D4m).
  pose proof (check_eq c cr me1 g pm m aad ci ct D3 D4c D4m D5 D6) as CE. rewrite CE in H3. clear CE.
  assert (Fl : v_flags me1 = v_flags me /\ v_aux me1 = v_aux me) by (subst me1; split; reflexivity). destruct Fl as [Fl Fa]. rewrite Fl in H3.
  cbn [app]. rewrite app_nil_r.
  destruct (requires_kid (v_flags me) && u_is_null (p_kid (m_params m))) eqn:K.
  { left. injection H3 as <- <- _. split; [reflexivity|]. cbn [check_fault]. apply andb_prop in K as [K1 K2]. split; [exact K1|].
    destruct (rp_kid _ _ _ _ D3) as [[E _]|(v & b & _ & _ & _ & E)]; [exact E|]. rewrite E in K2. discriminate. }
  destruct (negb (allows_unknown_crit (v_flags me)) && crit_hit ci ct (all_params g pm)) eqn:C.
  { left. injection H3 as <- <- _. split; [reflexivity|]. cbn [check_fault]. apply andb_prop in C as [C1 C2].
    split; [destruct (allows_unknown_crit (v_flags me)); [discriminate|reflexivity]|]. exists ci, ct. split; [exact D4c|].
    unfold crit_hit in C2. apply orb_prop in C2 as [C2|C2]; apply existsb_exists in C2 as (x & I & X); apply existsb_exists in X as (y & J & E).
    - left. apply Z.eqb_eq in E. subst y. apply filter_In in I as [I _]. exists x. split; [now apply upto0_in|exact I].
    - right. apply bytes_eqb_eq in E. subst y. eauto. }
  right. exists (m_params m), pl. split.
  - constructor; auto.
    + exists ci, ct. split; [exact D4c|]. unfold crit_ok.
      destruct (allows_unknown_crit (v_flags me)); [now left|]. right. now apply crit_hit_iff.
    + intros R E. rewrite R, E in K. discriminate.
  - rewrite D7, D8 in H3. rewrite <- Fl, <- Fa. exact (core_error _ _ _ _ _ _ _ _ _ _ _ _ _ HA HH H3 Hw).
Qed.

(** A message with nothing wrong but the signature: no error of decoding or of
    the checks. *)
Theorem acceptable_error c cr junk me msg aad payload want dc log w ad gv g pm p pl :
  length (v_tags me) = 4%nat -> holds aad ad -> detached_arg dc payload gv ->
  message msg g pm -> acceptable c (v_flags me) dc gv g pm p pl ->
  verify_internal c cr junk me msg aad payload want dc = (log, Ret w) -> w_err w <> T_SUCCESS ->
  signature_fault c cr (v_flags me) (v_aux me) p (sig_structure (g_prot g) ad pl) (g_sig g) log (w_err w).
Proof.
  intros Hv HA HG Hm Ac H Hw.
  destruct (verify_core_eq c cr junk me msg aad payload want dc gv g pm p pl Hv HG Hm Ac) as (pay & HH & _ & E). rewrite E in H.
  apply mbind_ret_inv in H as (l1 & [e me'] & l2 & H1 & H2 & ->). injection H2 as <- <-. rewrite app_nil_r.
  destruct (terr_eqb e T_SUCCESS) eqn:T; cbn [w_err] in *.
  - apply terr_eqb_eq in T. contradiction.
  - exact (core_error _ _ _ _ _ _ _ _ _ _ _ _ _ HA HH H1 Hw).
Qed.
