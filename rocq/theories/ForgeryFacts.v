(** Only what was signed is verified, up to collisions and forgeries. *)
From Verif Require Import Base Const QEnc QDec Crypto Util ShortCircuit Params Verify Sign Spec SignSpec PieceSpec.
From Verif Require Import BaseFacts UtilFacts SignFacts SignProofs SignMore Piece SignSafe VerifyTop Parts VerifyMore VerifyMore2 ForgerySpec VerifySpec.
From Coq Require Import Lia ZifyBool ZifyNat ZifyN.
Ltac Zify.zify_post_hook ::= Z.div_mod_to_equations.
Open Scope N_scope. Open Scope list_scope.
Local Strategy 100 [create_tbs create_tbs_hash verify_decode].

Lemma run_events c cr s : signing_run c cr s ->
  forall e, In e (sg_log s) -> event_ok cr (q_alg (sg_request s)) (q_key (sg_request s)) (sg_tbs s) e.
Proof.
  intros [me det payload aad buf r C P A E|me aad f buf r C A Ep D F B L E].
  - exact (proj1 (sign_events _ _ _ _ _ _ _ _ _ _ _ _ C P A E)).
  - assert (P : holds (UBuf (forest_bytes f)) (forest_bytes f)) by now left.
    assert (L2 : blen (unsigned c me false (UBuf (forest_bytes f))) <= MAX_OFFSET).
    { pose proof (empty_message_len c (sg_request s) me false _ _ C P) as Q. cbv iota in Q. lia. }
    rewrite (piecewise_eq c cr me aad f buf D F B L2) in E. unfold sg_tbs. rewrite Ep.
    exact (proj1 (sign_events _ _ _ _ _ _ _ _ _ _ _ _ C P A E)).
Qed.

Lemma tkey_eq_dec (a b : tkey) : {a = b} + {a <> b}.
Proof. decide equality; apply N.eq_dec. Qed.
Lemma ubufc_eq_dec (a b : ubufc) : {a = b} + {a <> b}.
Proof. decide equality; try apply N.eq_dec. apply (list_eq_dec Byte.byte_eq_dec). Qed.
Lemma event_eq_dec (a b : event) : {a = b} + {a <> b}.
Proof. decide equality; try apply Z.eq_dec; try apply tkey_eq_dec; try apply ubufc_eq_dec; apply (list_eq_dec Byte.byte_eq_dec). Qed.

Lemma asked_or_not (calls : list signing) e :
  (exists s, In s calls /\ In e (sg_log s)) \/ ~ (exists s, In s calls /\ In e (sg_log s)).
Proof.
  destruct (Exists_dec (fun s => In e (sg_log s)) calls) as [X|X].
  - intro s. apply in_dec, event_eq_dec.
  - left. apply Exists_exists in X. exact X.
  - right. intro Y. apply X, Exists_exists, Y.
Qed.


Theorem only_signed_verified c c2 cr cr2 H calls sk junk me msg aad payload want dc log w ad gv :
  Forall (fun s => signing_run c cr s /\ sizes_ok s) calls -> hash_is cr H -> hash_is cr2 H ->
  length (v_tags me) = 4%nat -> holds aad ad -> detached_arg dc payload gv ->
  blen msg < 2 ^ 64 -> blen ad < 2 ^ 64 -> blen gv < 2 ^ 64 ->
  verify_internal c2 cr2 junk me msg aad payload want dc = (log, Ret w) -> w_err w = T_SUCCESS ->
  decode_only (v_flags me) = false -> allows_short_circuit (v_flags me) = false ->
  exists g pm p pl, message msg g pm /\ acceptable c2 (v_flags me) dc gv g pm p pl /\ delivered me payload want dc p pl w /\
  let tbs := sig_structure (g_prot g) ad pl in
  (exists s, In s calls /\ q_key (sg_request s) = sk /\ q_alg (sg_request s) = p_alg p /\
     g_prot g = protected_header (q_alg (sg_request s)) /\ ad = sg_aad s /\ pl = sg_payload s) \/
  (exists s halg, In s calls /\ hash_for (p_alg p) = Some halg /\ sg_tbs s <> tbs /\ H halg (sg_tbs s) = H halg tbs) \/
  (exists halg, hash_for (p_alg p) = Some halg /\ ~ signed_digest calls (p_alg p) sk (H halg tbs) /\
     cr_verify cr2 (p_alg p) (v_key me) (p_kid p) (H halg tbs) (g_sig g) = Ret T_SUCCESS) \/
  (p_alg p = (-8)%Z /\ ~ signed_input calls sk tbs /\
     cr_verify_eddsa cr2 (v_key me) (p_kid p) tbs (g_sig g) = Ret T_SUCCESS).
Proof.
  intros Hc HI HI2 V HA D L1 L2 L3 E ES DO SC.
  destruct (verify_asked _ _ _ _ _ _ _ _ _ _ _ _ _ V HA D E ES DO) as (g & pm & p & pl & Hm & Ac & De & X).
  exists g, pm, p, pl. split; [exact Hm|]. split; [exact Ac|]. split; [exact De|]. cbv zeta in X |- *.
  rewrite Forall_forall in Hc.
  destruct (message_lens _ _ _ Hm) as (M1 & _ & M2). specialize (M2 _ _ _ (ac_payload _ _ _ _ _ _ _ _ Ac)).
  assert (Same : forall s, In s calls -> sg_tbs s = sig_structure (g_prot g) ad pl ->
            g_prot g = protected_header (q_alg (sg_request s)) /\ ad = sg_aad s /\ pl = sg_payload s).
  { intros s I T. destruct (Hc _ I) as (_ & Z1 & Z2). symmetry in T. unfold sg_tbs, requested_tbs in T.
    pose proof (protected_header_len (q_alg (sg_request s))). apply sig_structure_inj in T; [exact T|lia..]. }
  destruct (short_circuit_kid c2 p); [destruct X as (X & _); congruence|].
  destruct (uses_eddsa c2 p) eqn:UE.
  - destruct X as (_ & X). unfold uses_eddsa in UE. apply Bool.andb_true_iff in UE as [_ UE]. apply Z.eqb_eq in UE.
    destruct (asked_or_not calls (EvSignEddsa sk (sig_structure (g_prot g) ad pl))) as [(s & I & Q)|Q].
    + left. exists s. destruct (Hc _ I) as (R & _). destruct (run_events _ _ _ R _ Q) as (E1 & E2 & E3).
      split; [exact I|]. split; [now symmetry|]. split; [congruence|]. apply Same; [exact I|now symmetry].
    + right; right; right. split; [exact UE|]. split; [exact Q|exact X].
  - destruct X as (_ & halg & d & Hf & _ & Hd & _ & X). rewrite (HI2 _ _ _ Hd) in X.
    destruct (asked_or_not calls (EvSign (p_alg p) sk (H halg (sig_structure (g_prot g) ad pl)))) as [(s & I & Q)|Q].
    + destruct (Hc _ I) as (R & _). destruct (run_events _ _ _ R _ Q) as (E1 & E2 & halg2 & Hf2 & Hd2).
      assert (halg2 = halg) by congruence. subst halg2. apply HI in Hd2.
      destruct (list_eq_dec Byte.byte_eq_dec (sg_tbs s) (sig_structure (g_prot g) ad pl)) as [T|T].
      * left. exists s. split; [exact I|]. split; [now symmetry|]. split; [now symmetry|]. now apply Same.
      * right; left. exists s, halg. split; [exact I|]. split; [exact Hf|]. split; [exact T|now symmetry].
    + right; right; left. exists halg. split; [exact Hf|]. split; [exact Q|exact X].
Qed.
