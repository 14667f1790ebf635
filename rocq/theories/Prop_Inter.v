(** C64: crypto libraries and builds work together. *)
From Verif Require Import Base Const QEnc QDec Crypto Util ShortCircuit Params Sign Verify OpenSSL Psa AdapterSpec Spec SignSpec LiveSpec.
From Verif Require Import BaseFacts VerifyTop OpenSSLFacts AdapterTop Toy DemoLib Demo LiveDemo VerifySpec InterSpec InterFacts.
From Coq Require Import Lia ZifyBool ZifyNat ZifyN.
Open Scope N_scope. Open Scope list_scope.

(** A message signed with one library and build verifies with any library and
    build that has the algorithm, given the matching key: [V] is what counts as
    a signature, the signing library makes nothing else and the verifying
    library accepts exactly that. *)
Theorem C64_interoperate : forall c c2 l l2 H V q me (det : bool) payload aad pl ad n log me' m vme junk aad' payload' want,
  library_works l H -> library_works l2 H -> makes l (q_alg q) (k_handle (q_key q)) V -> accepts l2 (q_alg q) (v_key vme) V ->
  enabled c2 (q_alg q) ->
  configured q me -> holds payload pl -> holds aad ad -> n < 2 ^ 64 ->
  sign_aad_internal c (adapter c l) me det payload aad {| wb_null := false; wb_len := n |} = (log, Ret (T_SUCCESS, me', Some (UBuf m))) ->
  length (v_tags vme) = 4%nat -> holds aad' ad -> detached_arg det payload' pl -> demands_met q (v_flags vme) ->
  wants_short_circuit (q_flags q) = false -> q_kid q <> reserved_kid \/ dis_short_circuit c2 = true ->
  (q_alg q = (-8)%Z -> wb_null (v_aux vme) = false /\ blen (requested_tbs q ad pl) <= wb_len (v_aux vme)) ->
  exists log' w, verify_internal c2 (adapter c2 l2) junk vme m aad' payload' want det = (log', Ret w) /\
    delivered vme payload' want det (seen_params c c2 q) pl w.
Proof. exact interoperate. Qed.
Print Assumptions C64_interoperate.

(** Whatever the message: what verifies with one library verifies with the other,
    with the same results, if they accept the same signatures. The builds may
    enable different algorithms. *)
Theorem C64_same_verdict : forall c c2 l l2 H V junk junk2 me me2 msg aad payload dc ad gv log w p,
  library_works l H -> library_works l2 H ->
  dis_content_type c2 = dis_content_type c -> dis_short_circuit c2 = dis_short_circuit c ->
  decode_only (v_flags me) = false -> v_flags me2 = v_flags me -> v_aux me2 = v_aux me ->
  length (v_tags me) = 4%nat -> length (v_tags me2) = 4%nat ->
  holds aad ad -> detached_arg dc payload gv ->
  verify_internal c (adapter c l) junk me msg aad payload true dc = (log, Ret w) -> w_err w = T_SUCCESS -> w_params w = Some p ->
  enabled c2 (p_alg p) -> accepts l (p_alg p) (v_key me) V -> accepts l2 (p_alg p) (v_key me2) V ->
  exists log' w', verify_internal c2 (adapter c2 l2) junk2 me2 msg aad payload true dc = (log', Ret w') /\
    w_err w' = T_SUCCESS /\ w_params w' = w_params w /\ w_payload w' = w_payload w.
Proof. exact same_verdict. Qed.
Print Assumptions C64_same_verdict.

(** ** The demonstration libraries *)

Definition demo_scheme : scheme := fun h sig => sig = demo_sig h.

Lemma demo_coordinates h : cose_signature 32 (demo_r h) (demo_s h) = demo_sig h.
Proof.
  pose proof (demo_sig_len h) as L. unfold blen in L. unfold cose_signature, demo_r, demo_s. change (N.to_nat 32) with 32%nat.
  assert (A : length (firstn 32 (demo_sig h)) = 32%nat) by (rewrite firstn_length; lia).
  assert (B : length (skipn 32 (demo_sig h)) = 32%nat) by (rewrite skipn_length; lia).
  pose proof (big_endian_bin2bn (firstn 32 (demo_sig h))) as X. pose proof (big_endian_bin2bn (skipn 32 (demo_sig h))) as Y.
  rewrite A in X. rewrite B in Y. rewrite X, Y. apply firstn_skipn.
Qed.

Lemma demo_ossl_scheme alg k : ossl_key k -> makes (LOssl demo_ossl) alg (k_handle k) demo_scheme /\ accepts (LOssl demo_ossl) alg k demo_scheme.
Proof.
  intro K. unfold demo_scheme. cbn [makes accepts]. change (coordinate_length (ev_bits demo_ossl (k_handle k))) with 32. destruct (is_ecdsa_id alg).
  - split.
    + intros h room der r s P D. cbn [pkey_sign demo_ossl px_params] in P. apply made_inv in P as [-> _]. cbn [d2i_sig demo_ossl] in D. rewrite demo_read in D.
      injection D as <- <-. apply demo_coordinates.
    + split; [exact K|]. split; [apply demo_curve|]. split.
      * intros h r s Hr Hs. cbn [pkey_verify demo_ossl px_params]. destruct (demo_numbers h) as [Hr' Hs'].
        assert (E : der_signature r s = demo_der h <-> cose_signature 32 r s = demo_sig h).
        { rewrite <- demo_coordinates. split; intro E.
          - assert (X : Some (r, s) = Some (demo_r h, demo_s h)).
            { rewrite <- (read_signature_ok r s), <- (demo_read h), E; [reflexivity|apply (far 32); [assumption|lia]..]. }
            injection X as -> ->. reflexivity.
          - apply cose_signature_inj in E as [-> ->]; auto. }
        rewrite <- E. destruct (bytes_eqb (der_signature r s) (demo_der h)) eqn:B.
        -- apply bytes_eqb_eq in B. tauto.
        -- split; [discriminate|]. intro Q. apply bytes_eqb_eq in Q. congruence.
      * intros h sig ->. destruct (demo_numbers h) as [Hr Hs]. exists (demo_r h), (demo_s h). split; [exact Hr|]. split; [exact Hs|].
        symmetry. apply demo_coordinates.
  - assert (X : forall h sig, (if bytes_eqb sig (demo_sig h) then 1 else 0)%Z = 1%Z <-> sig = demo_sig h).
    { intros h sig. rewrite <- bytes_eqb_eq. destruct (bytes_eqb sig (demo_sig h)); split; (reflexivity || discriminate). }
    destruct (alg =? -8)%Z.
    + split; [intros t room sig D; cbn [pkey_sign dsign demo_ossl px_params pss_settings] in D; apply made_inv in D; tauto|]. split; [exact K|]. split; [reflexivity|]. intros t sig. apply X.
    + split; [intros h room sig D; cbn [pkey_sign dsign demo_ossl px_params pss_settings] in D; apply made_inv in D; tauto|]. split; [exact K|]. intros h sig. apply X.
Qed.

Lemma demo_psa_scheme alg k : alg <> (-8)%Z -> makes (LPsa demo_psa) alg (k_handle k) demo_scheme /\ accepts (LPsa demo_psa) alg k demo_scheme.
Proof.
  intro N8. unfold demo_scheme. split.
  - intros halg h room sig _ S. cbn [psa_sign_hash demo_psa] in S. destruct (64 <=? room); congruence.
  - split; [exact N8|]. intros halg h sig _. cbn [psa_verify_hash demo_psa].
    rewrite <- bytes_eqb_eq. destruct (bytes_eqb sig (demo_sig h)); split; (reflexivity || discriminate).
Qed.

(** Signed with one library, verified with the other; a build without content
    types does not report the content type. *)
Definition crossed (c c2 : cfg) (l l2 : library) (alg : Z) : option (terr * option ubufc * option params) :=
  match sign c (adapter c l) (toy_signer alg 0) (UBuf toy_payload) (out_buf 200) with
  | (_, Ret (_, _, Some (UBuf m))) =>
      match verify c2 (adapter c2 l2) NULL_UBUF (toy_verifier 0) m (Some NULL_UBUF) true with
      | (_, Ret w) => Some (w_err w, w_payload w, w_params w)
      | _ => None
      end
  | _ => None
  end.
Definition without_content_types : cfg :=
  {| dis_short_circuit := true; dis_content_type := true; dis_es384 := true; dis_es512 := true; dis_eddsa := true;
     dis_ps256 := false; dis_ps384 := true; dis_ps512 := true |}.

Example C64_case : library_works (LOssl demo_ossl) demo_hash /\ library_works (LPsa demo_psa) demo_hash /\
  (forall alg, makes (LOssl demo_ossl) alg 7 demo_scheme /\ accepts (LOssl demo_ossl) alg toy_key demo_scheme) /\
  makes (LPsa demo_psa) (-7) 7 demo_scheme /\ accepts (LPsa demo_psa) (-7) toy_key demo_scheme /\
  crossed cfg_full cfg_full (LOssl demo_ossl) (LPsa demo_psa) (-7) =
    Some (T_SUCCESS, Some (UBuf toy_payload), Some (seen_params cfg_full cfg_full (toy_request (-7) 0))) /\
  crossed cfg_full without_content_types (LPsa demo_psa) (LOssl demo_ossl) (-37) =
    Some (T_SUCCESS, Some (UBuf toy_payload), Some (seen_params cfg_full without_content_types (toy_request (-37) 0))) /\
  p_ct_uint (seen_params cfg_full cfg_full (toy_request (-7) 0)) = 42 /\
  p_ct_uint (seen_params cfg_full without_content_types (toy_request (-37) 0)) = 65536 /\
  p_ct_uint (seen_params without_content_types cfg_full (toy_request (-37) 0)) = 65536.
Proof.
  assert (KT : ossl_key toy_key) by (split; [reflexivity|discriminate]).
  split; [split; [exact demo_works|exact demo_can_hash]|]. split; [split; [exact demo_psa_hash|split; [exact demo_psa_room|exact demo_psa_can_hash]]|].
  split; [intro alg; exact (demo_ossl_scheme alg toy_key KT)|].
  split; [apply (demo_psa_scheme (-7) toy_key); discriminate|]. split; [apply (demo_psa_scheme (-7) toy_key); discriminate|].
  repeat split; vm_compute; reflexivity.
Qed.
