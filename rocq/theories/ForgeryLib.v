(** A verified message was signed, for the crypto libraries. *)
From Verif Require Import Base Const QEnc QDec Crypto Util ShortCircuit Params Verify Algs Sign OpenSSL Psa AdapterSpec Spec SignSpec PieceSpec LiveSpec.
From Verif Require Import BaseFacts VerifyTop OpenSSLFacts2 AdapterFacts PsaFacts SupportFacts AdapterTop LiveFacts ForgerySpec ForgeryFacts VerifySpec InterSpec InterFacts.
From Coq Require Import Lia ZifyBool ZifyNat ZifyN.
Open Scope N_scope. Open Scope list_scope.
Local Strategy 100 [create_tbs create_tbs_hash verify_decode].

Lemma library_forgery c c2 l l2 H V calls sk junk me msg aad payload dc log w p ad gv :
  library_works l H -> library_works l2 H -> Forall (fun s => signing_run c (adapter c l) s /\ sizes_ok s) calls ->
  length (v_tags me) = 4%nat -> holds aad ad -> detached_arg dc payload gv ->
  blen msg < 2 ^ 64 -> blen ad < 2 ^ 64 -> blen gv < 2 ^ 64 ->
  verify_internal c2 (adapter c2 l2) junk me msg aad payload true dc = (log, Ret w) -> w_err w = T_SUCCESS ->
  decode_only (v_flags me) = false -> allows_short_circuit (v_flags me) = false ->
  w_params w = Some p -> accepts l2 (p_alg p) (v_key me) V ->
  exists g pm pl, message msg g pm /\ acceptable c2 (v_flags me) dc gv g pm p pl /\ delivered me payload true dc p pl w /\
  let tbs := sig_structure (g_prot g) ad pl in
  (exists s, In s calls /\ q_key (sg_request s) = sk /\ q_alg (sg_request s) = p_alg p /\
     g_prot g = protected_header (q_alg (sg_request s)) /\ ad = sg_aad s /\ pl = sg_payload s) \/
  (exists s halg, In s calls /\ hash_for (p_alg p) = Some halg /\ sg_tbs s <> tbs /\ H halg (sg_tbs s) = H halg tbs) \/
  (exists halg, hash_for (p_alg p) = Some halg /\ ~ signed_digest calls (p_alg p) sk (H halg tbs) /\ V (H halg tbs) (g_sig g)) \/
  (p_alg p = (-8)%Z /\ ~ signed_input calls sk tbs /\ V tbs (g_sig g)).
Proof.
  intros W1 W2 FA TG HA DA LM LA LG E OK ND NS WP AC.
  destruct (only_signed_verified c c2 (adapter c l) (adapter c2 l2) H calls sk junk me msg aad payload true dc log w ad gv FA
    (library_hash_is c l H W1) (library_hash_is c2 l2 H W2) TG HA DA LM LA LG E OK ND NS)
    as (g & pm & p' & pl & MS & ACC & DL & D).
  assert (p' = p) as ->.
  { unfold delivered in DL. destruct DL as (_ & DP & _). rewrite WP in DP. cbn in DP. congruence. }
  exists g, pm, pl. split; [exact MS|]. split; [exact ACC|]. split; [exact DL|]. cbv zeta in D |- *.
  destruct D as [D|[D|[(halg & HF & NX & VF)|(A8 & NX & VF)]]].
  - now left.
  - right; now left.
  - right; right; left. exists halg. split; [exact HF|]. split; [exact NX|].
    assert (N8 : p_alg p <> (-8)%Z) by (intro X; rewrite X in HF; discriminate HF).
    refine (proj1 (verify_exact c2 l2 H (p_alg p) (v_key me) V (p_kid p) _ _ W2 AC _ N8) VF).
    destruct (signature_algorithm_id_is_supported c2 (p_alg p)) eqn:SU; [now apply core_supports|].
    assert (NE : ~ enabled c2 (p_alg p)) by (intro X; apply core_supports in X; congruence).
    exfalso. clear - VF NE. destruct l2 as [lib|lib]; cbn [adapter] in VF.
    + destruct (ossl_refuses_others c2 lib _ NE) as [_ R]. rewrite R in VF. discriminate VF.
    + assert (NE' : ~ (enabled c2 (p_alg p) /\ p_alg p <> (-8)%Z)) by tauto.
      destruct (psa_refuses_others c2 lib _ NE') as [_ R]. rewrite R in VF. discriminate VF.
  - right; right; right. split; [exact A8|]. split; [exact NX|]. rewrite A8 in AC.
    exact (proj1 (verify_eddsa_exact c2 l2 H (v_key me) V (p_kid p) _ _ W2 AC) VF).
Qed.
