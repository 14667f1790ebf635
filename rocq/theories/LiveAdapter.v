(** Libraries that can sign make adapters that work. *)
From Verif Require Import Base Const QEnc Crypto Params Algs OpenSSL Psa AdapterSpec Sign Spec SignSpec SignErrorSpec LiveSpec.
From Verif Require Import BaseFacts OpenSSLFacts OpenSSLFacts2 AdapterFacts PsaFacts SupportFacts AdapterTop LiveFacts VerifySpec.
From Coq Require Import Lia ZifyBool ZifyNat ZifyN.
Ltac Zify.zify_post_hook ::= Z.div_mod_to_equations.
Open Scope N_scope. Open Scope list_scope.

Lemma enabled_kinds c alg : enabled c alg -> alg <> (-8)%Z ->
  if is_ecdsa_id alg then ecdsa_enabled c alg else pss_enabled c alg.
Proof.
  unfold enabled, ecdsa_enabled, pss_enabled, is_ecdsa_id. intros E N.
  destruct E as [->|[[-> D]|[[-> D]|[[-> D]|[[-> D]|[[-> D]|[-> D]]]]]]]; cbn; auto; contradiction.
Qed.

Lemma hash_id alg halg : hash_for alg = Some halg -> is_hash_id halg.
Proof.
  unfold hash_for, is_hash_id. intro H.
  repeat match type of H with context [match ?x with _ => _ end] => destruct x end; try discriminate; injection H as <-; auto.
Qed.

Lemma hash_offered c alg halg : enabled c alg -> hash_for alg = Some halg ->
  (halg = (-16)%Z \/ (halg = (-43)%Z /\ (dis_es384 c = false \/ dis_ps384 c = false)) \/
   (halg = (-44)%Z /\ (dis_es512 c = false \/ dis_ps512 c = false))).
Proof.
  unfold enabled. intros E H.
  destruct E as [->|[[-> D]|[[-> D]|[[-> D]|[[-> D]|[[-> D]|[-> D]]]]]]]; cbn in H; try discriminate; injection H as <-; auto.
Qed.

Lemma long_not_empty halg (d : bytes) : is_hash_id halg -> blen d = digest_length halg -> d <> [].
Proof. intros [->|[->| ->]] L ->; discriminate L. Qed.

Section OpenSSL.
Context (c : cfg) (lib : ossl) (H : Z -> bytes -> bytes).
Let cr := openssl c lib.

Lemma ossl_hash_works alg parts : openssl_works lib H -> ossl_can_hash lib -> enabled c alg -> hash_works c cr alg parts.
Proof.
  intros (_ & _ & MN & _ & _ & HL) CH EN. split; [|exact (ossl_reliable c lib H HL parts)].
  intros halg HF. destruct (CH halg (hash_id _ _ HF)) as [K I]. pose proof (hash_offered _ _ _ EN HF) as O.
  exists {| oh_md := halg; oh_data := []; oh_ok := true |}. cbn [cr cr_hash_start openssl]. unfold ossl_hash_start, SHA_256, SHA_384, SHA_512.
  rewrite K, I, MN.
  match goal with |- context [if ?b then _ else _] => assert (B : b = true) end.
  { destruct O as [->|[[-> [-> | ->]]|[-> [-> | ->]]]]; cbn; rewrite ?orb_true_r, ?andb_true_r; reflexivity. }
  rewrite B. reflexivity.
Qed.

Lemma ossl_digest_length halg data d : openssl_works lib H -> is_hash_id halg -> digest_of cr halg data d -> blen d = digest_length halg.
Proof. intros (_ & _ & _ & _ & _ & HL) I D. rewrite (ossl_hash_is c lib H HL _ _ _ D). apply HL. exact I. Qed.

Lemma ossl_digest_id halg data d : digest_of cr halg data d -> is_hash_id halg.
Proof. intros (h & h' & n & S & _). apply ossl_start_inv in S as [_ A]. unfold is_hash_id. tauto. Qed.

Theorem ossl_signer_works q parts :
  openssl_works lib H -> ossl_can_hash lib -> enabled c (q_alg q) ->
  (wants_short_circuit (q_flags q) = false ->
   ossl_key (q_key q) /\ on_curve lib (q_alg q) (k_handle (q_key q)) /\ ossl_can_sign lib (q_alg q) (k_handle (q_key q))) ->
  signer_works c cr q parts
    (if wants_short_circuit (q_flags q) then ecdsa_sig_size (q_alg q) else ossl_signature_size lib (q_alg q) (k_handle (q_key q))).
Proof.
  intros OW CH EN KS. unfold signer_works. destruct (wants_short_circuit (q_flags q)).
  { split; [apply ossl_hash_works; assumption|]. split; [|reflexivity].
    intros halg data d D. pose proof (ossl_digest_id _ _ _ D) as I. exact (long_not_empty _ _ I (ossl_digest_length _ _ _ OW I D)). }
  destruct (KS eq_refl) as (KC & OC & CS). clear KS. apply key_convert_spec in KC.
  pose proof OW as ((CN & CI & CT) & _ & MN & (DL1 & DL2) & SL & HL).
  unfold ossl_can_sign in CS. unfold ossl_signature_size. destruct (Z.eqb_spec (q_alg q) (-8)) as [E8|N8].
  - destruct CS as [DI DS]. rewrite E8. change (is_ecdsa_id (-8)) with false. cbn iota. split.
    + cbn [cr cr_sig_size openssl]. unfold ossl_sig_size. rewrite KC. cbn [terr_eqb negb].
      assert (t_cose_algorithm_is_ecdsa c (-8) = false) as ->.
      { destruct (t_cose_algorithm_is_ecdsa c (-8)) eqn:E; [|reflexivity]. apply is_ecdsa_spec in E. unfold ecdsa_enabled in E. lia. }
      change ((-8 =? EDDSA)%Z) with true. now rewrite orb_true_r.
    + intros t room L. destruct (DS t room L) as (sig & D & SZ). exists sig. split; [|exact SZ].
      cbn [cr cr_sign_eddsa openssl]. unfold ossl_sign_eddsa. rewrite KC, MN, DI. cbn [terr_eqb negb lbind alloc]. rewrite D.
      unfold stored. replace (room <? blen sig) with false by lia. reflexivity.
  - pose proof (enabled_kinds c _ EN N8) as KI. destruct (is_ecdsa_id (q_alg q)) eqn:EC.
    + split.
      { cbn [cr cr_sig_size openssl]. unfold ossl_sig_size. rewrite KC, (proj2 (is_ecdsa_spec c _) KI), key_size_spec. cbn [terr_eqb negb]. f_equal. lia. }
      split; [apply ossl_hash_works; assumption|]. intros halg data d room HF D L.
      pose proof (ossl_digest_length _ _ _ OW (hash_id _ _ HF) D) as DL.
      assert (A : q_alg q = (-7)%Z \/ q_alg q = (-35)%Z \/ q_alg q = (-36)%Z) by (unfold is_ecdsa_id in EC; lia).
      pose proof (OC A) as OL. pose proof (ecdsa_fits_buffer c _ KI) as [_ FB].
      destruct (CS halg d (der_buffer_size c) HF DL) as (r & s & PS & Hr & Hs).
      { unfold der_buffer_size, DER_SIG_ENCODE_OVER_HEAD. lia. }
      assert (B200 : curve_coordinate (q_alg q) <= 200) by (unfold curve_coordinate; destruct (_ =? _)%Z; [lia|]; destruct (_ =? _)%Z; lia).
      assert (far : forall k n, n < 256 ^ k -> k <= 200 -> n < 256 ^ 200).
      { intros k n X Y. eapply N.lt_le_trans; [exact X|]. apply N.pow_le_mono_r; lia. }
      assert (D2 : d2i_sig lib (der_signature r s) = Some (r, s)) by (apply DL2; eapply far; eauto; lia).
      exists (cose_signature (coordinate_length (ev_bits lib (k_handle (q_key q)))) r s). split; [|apply cose_signature_length].
      cbn [cr cr_sign openssl]. unfold ossl_sign. rewrite (proj2 (is_ecdsa_spec c _) KI), KC, CN. cbn [negb andb terr_eqb lbind alloc].
      rewrite CI, configure_ecdsa by exact KI. cbn [negb terr_eqb]. rewrite PS. unfold stored.
      pose proof (proj1 SL _ _ _ _ PS) as BL. replace (_ <? _) with false by lia. cbn [lbind lret].
      rewrite (der_to_cose_ok lib _ _ room r s _ (key_size_spec _ _) D2 Hr Hs); [reflexivity|exact L].
    + assert (NE : t_cose_algorithm_is_ecdsa c (q_alg q) = false).
      { destruct (t_cose_algorithm_is_ecdsa c (q_alg q)) eqn:E; [|reflexivity]. apply is_ecdsa_spec in E. destruct (not_both _ _ E KI). }
      split.
      { cbn [cr cr_sig_size openssl]. unfold ossl_sig_size. rewrite KC, NE, (proj2 (is_pss_spec c _) KI). reflexivity. }
      split; [apply ossl_hash_works; assumption|]. intros halg data d room HF D L.
      pose proof (ossl_digest_length _ _ _ OW (hash_id _ _ HF) D) as DL. destruct (CS halg d room HF DL L) as (sig & PS & SZ).
      exists sig. split; [|exact SZ]. cbn [cr cr_sign openssl]. unfold ossl_sign.
      rewrite NE, (proj2 (is_pss_spec c _) KI), KC, CN. cbn [negb andb terr_eqb lbind alloc]. rewrite CI. cbn [negb].
      destruct (configure_works c lib {| px_key := k_handle (q_key q); px_verify := false; px_params := [] |} (q_alg q) (conj CN (conj CI CT)) KI) as (x & X).
      rewrite X. cbn [negb terr_eqb]. apply configure_pss in X; [|exact KI]. cbn [px_key px_verify px_params app] in X. subst x.
      rewrite PS. unfold stored. replace (_ <? _) with false by lia. reflexivity.
Qed.
End OpenSSL.

Section PSA.
Context (c : cfg) (lib : psa) (H : Z -> bytes -> bytes) (HL : psa_hash_library lib H) (WR : psa_within_room lib).
Let cr := psa_crypto c lib.

Lemma psa_hash_works alg parts : psa_can_hash lib -> enabled c alg -> hash_works c cr alg parts.
Proof.
  intros CH EN. split; [|exact (psa_reliable c lib H HL parts)].
  intros halg HF. pose proof (CH halg (hash_id _ _ HF)) as K. pose proof (hash_offered _ _ _ EN HF) as O.
  eexists. cbn [cr cr_hash_start psa_crypto]. unfold psa_start.
  assert (M : cose_hash_alg_id_to_psa c halg = PHash halg).
  { unfold cose_hash_alg_id_to_psa, SHA_256, SHA_384, SHA_512.
    destruct O as [->|[[-> [-> | ->]]|[-> [-> | ->]]]]; cbn; rewrite ?orb_true_r, ?andb_true_r, ?andb_false_r; reflexivity. }
  rewrite M, K. reflexivity.
Qed.

Lemma psa_digest_id halg data d : digest_of cr halg data d -> is_hash_id halg /\ blen d = digest_length halg.
Proof.
  intro D. pose proof D as (h & h' & n & S & _). destruct HL as (U & _ & _ & LN). apply psa_start_inv in S as [_ A]; [|exact U].
  assert (I : is_hash_id halg) by (unfold is_hash_id; tauto). split; [exact I|]. rewrite (psa_hash_is c lib H HL _ _ _ D). apply LN. exact I.
Qed.

Theorem psa_signer_works q parts n :
  psa_can_hash lib -> enabled c (q_alg q) ->
  (if wants_short_circuit (q_flags q) then n = ecdsa_sig_size (q_alg q)
   else q_alg q <> (-8)%Z /\ psa_can_sign lib (q_alg q) (k_handle (q_key q)) n) ->
  signer_works c cr q parts n.
Proof.
  intros CH EN KS. unfold signer_works. destruct (wants_short_circuit (q_flags q)).
  { split; [apply psa_hash_works; assumption|]. split; [|exact KS].
    intros halg data d D. apply psa_digest_id in D as [I L]. exact (long_not_empty _ _ I L). }
  destruct KS as (N8 & bits & PK & -> & CS). destruct (Z.eqb_spec (q_alg q) (-8)) as [|_]; [contradiction|].
  pose proof (enabled_kinds c _ EN N8) as KI.
  assert (Sg : is_signing_alg (cose_alg_id_to_psa_alg_id c (q_alg q)) = true).
  { destruct (psa_alg_spec c (q_alg q)) as [(E & h' & H' & ->)|[(P & h' & H' & ->)|(NE & NP & ->)]]; try reflexivity.
    destruct (is_ecdsa_id (q_alg q)); contradiction. }
  split.
  { cbn [cr cr_sig_size psa_crypto]. unfold psa_sig_size. rewrite Sg, PK. cbn [negb psa_status_to_t_cose_error_signing Z.eqb PSA_SUCCESS terr_eqb].
    destruct (is_ecdsa_id (q_alg q)); cbn [PSA_SIGN_OUTPUT_SIZE]; unfold coordinate_length; f_equal; lia. }
  split; [apply psa_hash_works; assumption|]. intros halg data d room HF D L.
  destruct (psa_digest_id _ _ _ D) as [_ DL]. destruct (CS halg d room HF DL L) as (sig & S & SZ). exists sig. split; [|exact SZ].
  cbn [cr cr_sign psa_crypto]. apply psa_sign_iff; [exact WR|]. exists halg. split; [exact HF|].
  destruct (is_ecdsa_id (q_alg q)); auto.
Qed.
End PSA.

(** ** Signing *)

Theorem ossl_signing_succeeds c lib H q me (det : bool) payload aad pl ad room :
  openssl_works lib H -> ossl_can_hash lib ->
  (wants_short_circuit (q_flags q) = false ->
   ossl_key (q_key q) /\ on_curve lib (q_alg q) (k_handle (q_key q)) /\ ossl_can_sign lib (q_alg q) (k_handle (q_key q))) ->
  let n := if wants_short_circuit (q_flags q) then ecdsa_sig_size (q_alg q) else ossl_signature_size lib (q_alg q) (k_handle (q_key q)) in
  configured q me -> holds payload pl -> holds aad ad -> (det = true -> u_is_null payload = false) -> faultless c q ->
  (plain_eddsa q -> wb_null (q_aux q) = false /\ blen (requested_tbs q ad pl) <= wb_len (q_aux q)) ->
  let op := if det then None else Some pl in
  blen (requested_message c q op []) <= MAX_OFFSET -> message_size c q op n <= room ->
  exists log me' sig, sign_aad_internal c (openssl c lib) me det payload aad {| wb_null := false; wb_len := room |}
    = (log, Ret (T_SUCCESS, me', Some (UBuf (requested_message c q op sig)))) /\
    blen (requested_message c q op sig) = message_size c q op n.
Proof.
  intros OW CH KS n C P A D F AX op B L.
  refine (signing_succeeds c _ q me det payload aad pl ad n room C P A D F _ AX B L).
  apply (ossl_signer_works c lib H); auto. apply F.
Qed.

Theorem psa_signing_succeeds c lib H q me (det : bool) payload aad pl ad n room :
  psa_hash_library lib H -> psa_within_room lib -> psa_can_hash lib ->
  (if wants_short_circuit (q_flags q) then n = ecdsa_sig_size (q_alg q)
   else q_alg q <> (-8)%Z /\ psa_can_sign lib (q_alg q) (k_handle (q_key q)) n) ->
  configured q me -> holds payload pl -> holds aad ad -> (det = true -> u_is_null payload = false) -> faultless c q ->
  let op := if det then None else Some pl in
  blen (requested_message c q op []) <= MAX_OFFSET -> message_size c q op n <= room ->
  exists log me' sig, sign_aad_internal c (psa_crypto c lib) me det payload aad {| wb_null := false; wb_len := room |}
    = (log, Ret (T_SUCCESS, me', Some (UBuf (requested_message c q op sig)))) /\
    blen (requested_message c q op sig) = message_size c q op n.
Proof.
  intros HL WR CH KS C P A D F op B L.
  refine (signing_succeeds c _ q me det payload aad pl ad n room C P A D F _ _ B L).
  - apply (psa_signer_works c lib H); auto. apply F.
  - intros [W E8]. rewrite W in KS. destruct KS as [N8 _]. contradiction.
Qed.
