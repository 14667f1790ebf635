(** C73: order of the calls of the adapter in verification. *)
From Verif Require Import Base Const QEnc QDec Crypto Util ShortCircuit Params Verify Spec SignSpec.
From Verif Require Import BaseFacts UtilFacts SignProofs SignMore SignMore3.
From Verif Require Import DecSpec VerifySpec LabelFacts VerifySafe VerifyFacts VerifyCheck Unique Parts VerifyTop ProtocolSpec ProtocolFacts.
Open Scope N_scope. Open Scope list_scope.
Local Strategy 100 [create_tbs create_tbs_hash verify_decode].

Lemma check_orderly c cr me p sig prot aad pay log r :
  check_core c cr me p sig prot aad pay = (log, Ret r) ->
  orderly c cr (p_alg p) (verifies_directly (p_alg p) (v_key me) (p_kid p) sig)
    (verifies_digest (p_alg p) (v_key me) (p_kid p) sig) log /\
  (short_circuit_kid c p = true -> orderly c cr (p_alg p) (fun _ => False) (fun _ _ => False) log).
Proof.
  unfold check_core. intro H. destruct (short_circuit_kid c p) eqn:SK.
  - apply mbind_ret_inv in H as (l1 & e & l2 & H1 & H & ->). unret H. rewrite app_nil_r.
    unfold sign1_verify_short_circuit in H1.
    destruct (has_flag (v_flags me) OPT_DECODE_ONLY). { unret H1. split; constructor. }
    destruct (has_flag (v_flags me) OPT_ALLOW_SHORT_CIRCUIT); cbn [negb] in H1. 2:{ unret H1. split; constructor. }
    apply mbind_ret_inv in H1 as (l3 & [e1 h] & l4 & H3 & H1 & ->).
    assert (l4 = []) as ->.
    { destruct (terr_eqb e1 T_SUCCESS); cbn [negb] in H1; [|unret H1; reflexivity].
      unfold mlift in H1. injection H1 as <- _. reflexivity. }
    rewrite app_nil_r. split; [|intros _]; apply (hash_orderly _ _ _ _ _ _ _ _ _ _ _ H3).
  - split; [|discriminate]. destruct (uses_eddsa c p) eqn:UE.
    + unfold uses_eddsa in UE. apply andb_prop in UE as [_ UE]. apply Z.eqb_eq in UE.
      unfold sign1_verify_eddsa in H. destruct (create_tbs prot aad pay (v_aux me)) as [err tbs]. cbv zeta in H.
      match type of H with context [negb ?b] => destruct b end; cbn [negb] in H; [|unret H; constructor].
      destruct tbs as [tbs|]; [|discriminate].
      destruct (has_flag _ _); [unret H; constructor|]. destruct (wb_null _); [unret H; constructor|].
      apply mbind_ret_inv in H as (l1 & e & l2 & H1 & H & ->). unfold mlog in H1. injection H1 as <- _. unret H.
      apply key_only. split; [exact UE|]. eexists. reflexivity.
    + apply mbind_ret_inv in H as (l1 & e & l2 & H1 & H & ->). unret H. rewrite app_nil_r.
      unfold sign1_verify_default in H1.
      destruct (has_flag (v_flags me) OPT_DECODE_ONLY). { unret H1. constructor. }
      apply mbind_ret_inv in H1 as (l3 & [e1 h] & l4 & H3 & H1 & ->).
      apply (hash_orderly _ _ _ _ _ _ _ _ _ (verifies_directly (p_alg p) (v_key me) (p_kid p) sig)
               (verifies_digest (p_alg p) (v_key me) (p_kid p) sig)) in H3 as [O K].
      destruct (terr_eqb e1 T_SUCCESS) eqn:E1; cbn [negb] in H1; [|unret H1; now rewrite app_nil_r].
      apply terr_eqb_eq in E1. unfold mlog in H1. injection H1 as <- _. apply (K E1). reflexivity.
Qed.

Theorem verify_orderly c cr junk me msg aad payload want dc log r ad gv :
  length (v_tags me) = 4%nat -> holds aad ad -> detached_arg dc payload gv ->
  verify_internal c cr junk me msg aad payload want dc = (log, Ret r) ->
  log = [] \/
  exists g pm p pl, message msg g pm /\ acceptable c (v_flags me) dc gv g pm p pl /\
    orderly c cr (p_alg p) (verifies_directly (p_alg p) (v_key me) (p_kid p) (g_sig g))
      (verifies_digest (p_alg p) (v_key me) (p_kid p) (g_sig g)) log /\
    (short_circuit_kid c p = true -> orderly c cr (p_alg p) (fun _ => False) (fun _ _ => False) log).
Proof.
  intros Hv HA HG H. unfold verify_internal in H.
  destruct (verify_decode c junk me msg payload dc) as [[[e|m] me1]|wh] eqn:HD.
  - left. unfold mlift in H. cbn [mbind] in H. unfold mret in H. now injection H as <- _.
  - apply decode_iff in HD as (g & pm & Hm & Hd); [|exact Hv].
    destruct (decodes_payload _ _ _ _ _ _ _ _ _ Hd HG) as (pl & HP & HH & HU).
    destruct (dc_crit _ _ _ _ _ _ _ _ Hd) as (D4 & ci & ct & D4c & D4m).
    pose proof (dc_params _ _ _ _ _ _ _ _ Hd) as D3. pose proof (dc_labels _ _ _ _ _ _ _ _ Hd) as D5.
    pose proof (check_eq c cr me1 g pm m aad ci ct D3 D4c D4m D5 (dc_unknown _ _ _ _ _ _ _ _ Hd)) as CE.
    rewrite (dc_prot _ _ _ _ _ _ _ _ Hd), (dc_sig _ _ _ _ _ _ _ _ Hd) in CE.
    assert (Me : v_flags me1 = v_flags me /\ v_key me1 = v_key me) by (rewrite (dc_ctx _ _ _ _ _ _ _ _ Hd); auto).
    destruct Me as [Fl Ky]. rewrite Fl in CE.
    apply mbind_ret_inv in H as (l1 & a & l2 & H1 & H & ->). unfold mlift in H1. injection H1 as <- <-.
    apply mbind_ret_inv in H as (l3 & [err me2] & l4 & H3 & H & ->).
    assert (l4 = []) as -> by (destruct (terr_eqb err T_SUCCESS); unret H; reflexivity).
    cbn [app]. rewrite app_nil_r. rewrite CE in H3.
    destruct (requires_kid (v_flags me) && _) eqn:K; [left; unret H3; reflexivity|].
    destruct (negb (allows_unknown_crit (v_flags me)) && _) eqn:C; [left; unret H3; reflexivity|].
    right. exists g, pm, (m_params m), pl. split; [exact Hm|]. split.
    + constructor; auto.
      * apply (dc_tag _ _ _ _ _ _ _ _ Hd).
      * exists ci, ct. split; [exact D4c|]. unfold crit_ok.
        destruct (allows_unknown_crit (v_flags me)); [now left|]. right. now apply crit_hit_iff.
      * intros R E. rewrite R, E in K. discriminate.
    + rewrite <- Ky. exact (check_orderly _ _ _ _ _ _ _ _ _ _ H3).
  - unfold mlift in H. discriminate.
Qed.
