(** A message without fault is accepted or gives the error for a wrong signature. *)
From Verif Require Import Base Const QEnc QDec Crypto Util ShortCircuit Params Sign Verify OpenSSL Psa AdapterSpec Spec SignSpec LiveSpec.
From Verif Require Import BaseFacts UtilFacts SignFacts SignProofs SignMore SignMore2 SignMore3 DecSpec LabelFacts VerifySafe VerifyFacts VerifyCheck Parts Unique VerifyTop RoundTrip VerifyMore.
From Verif Require Import Sha256 Sha256Spec Sha256Facts TestCrypto.
From Verif Require Import OpenSSLFacts OpenSSLFacts2 AdapterFacts PsaFacts AdapterTop LiveFacts LiveAdapter FaultSpec FaultFacts VerifySpec InterSpec InterFacts VerdictSpec.
From Coq Require Import Lia ZifyBool ZifyNat ZifyN.
Ltac Zify.zify_post_hook ::= Z.div_mod_to_equations.
Open Scope N_scope. Open Scope list_scope.
Local Strategy 100 [create_tbs create_tbs_hash verify_decode].

(** ** Up to the signature *)

Lemma acceptable_core c cr junk me msg aad payload want dc ad gv g pm p pl :
  length (v_tags me) = 4%nat -> holds aad ad -> detached_arg dc payload gv -> message msg g pm ->
  acceptable c (v_flags me) dc gv g pm p pl ->
  exists me1 pay, v_flags me1 = v_flags me /\ v_key me1 = v_key me /\ v_aux me1 = v_aux me /\ holds pay pl /\
  forall log e me2, check_core c cr me1 p (g_sig g) (UBuf (g_prot g)) aad pay = (log, Ret (e, me2)) ->
    exists w, verify_internal c cr junk me msg aad payload want dc = (log, Ret w) /\ w_err w = e /\
      (e = T_SUCCESS -> delivered me payload want dc p pl w).
Proof.
  intros Hv HA HG Hm [A1 A2 A3 (ci & ct & A4 & A5) A6 A7 A8].
  set (me1 := v_set_tags me (pad4 (returned (g_tags g)))).
  assert (M : exists m, decodes c me payload dc g pm m me1 /\ m_params m = p /\ holds (m_payload m) pl /\ m_crit m = ll_of ci ct /\
               (dc = false -> m_payload m = UBuf pl)).
  { unfold payload_is in A7. destruct dc.
    - destruct (HG eq_refl) as (u & -> & Hu). destruct A7 as (P1 & P2 & ->).
      exists {| m_params := p; m_prot := UBuf (g_prot g); m_payload := u; m_sig := g_sig g; m_crit := ll_of ci ct;
                m_unknown := ll_of (nonzero (int_labels (all_params g pm))) (text_labels (all_params g pm)) |}.
      split; [|split; [reflexivity|split; [exact Hu|split; [reflexivity|discriminate]]]].
      constructor; auto. split; [exact A3|]. exists ci, ct. auto.
    - exists {| m_params := p; m_prot := UBuf (g_prot g); m_payload := UBuf pl; m_sig := g_sig g; m_crit := ll_of ci ct;
                m_unknown := ll_of (nonzero (int_labels (all_params g pm))) (text_labels (all_params g pm)) |}.
      split; [|split; [reflexivity|split; [now left|split; [reflexivity|auto]]]].
      constructor; auto; [|eauto]. split; [exact A3|]. exists ci, ct. auto. }
  destruct M as (m & Hd & Ep & HH & Ec & HU).
  assert (D : verify_decode c junk me msg payload dc = Ret (DOk m, me1)) by (apply decode_iff; [exact Hv|eauto]).
  assert (CE := check_eq c cr me1 g pm m aad ci ct (dc_params _ _ _ _ _ _ _ _ Hd) A4 Ec A6 (dc_unknown _ _ _ _ _ _ _ _ Hd)).
  rewrite (dc_prot _ _ _ _ _ _ _ _ Hd), (dc_sig _ _ _ _ _ _ _ _ Hd), Ep in CE. cbn [v_flags me1 v_set_tags] in CE.
  assert (K : requires_kid (v_flags me) && u_is_null (p_kid p) = false).
  { destruct (requires_kid (v_flags me)) eqn:K; [|reflexivity]. specialize (A8 K).
    destruct (u_is_null (p_kid p)) eqn:N; [|reflexivity]. exfalso. apply A8. now apply (kid_null_iff _ _ _ _ A2). }
  assert (C : negb (allows_unknown_crit (v_flags me)) && crit_hit ci ct (all_params g pm) = false).
  { destruct A5 as [->|A5]; [reflexivity|]. apply crit_hit_iff in A5. rewrite A5. apply andb_false_r. }
  rewrite K, C in CE. exists me1, (m_payload m). do 3 (split; [reflexivity|]). split; [exact HH|].
  intros log e me2 Co. rewrite Co in CE. unfold verify_internal. rewrite D. unfold mlift. cbn [mbind app]. rewrite CE. cbn [mbind].
  destruct (terr_eqb e T_SUCCESS) eqn:T; unfold mret.
  - apply terr_eqb_eq in T. subst e. eexists. split; [now rewrite app_nil_r|]. split; [reflexivity|]. intros _.
    split; [reflexivity|]. cbn [w_params w_payload]. rewrite Ep. split; [reflexivity|].
    destruct payload; [|reflexivity]. destruct dc; [reflexivity|]. now rewrite HU.
  - eexists. split; [now rewrite app_nil_r|]. split; [reflexivity|]. intros ->. rewrite terr_eqb_refl in T. discriminate.
Qed.

(** ** The library *)

Lemma verify_says c l H alg k V kid d sig : library_works l H -> accepts l alg k V -> yes_or_no l -> enabled c alg -> alg <> (-8)%Z ->
  cr_verify (adapter c l) alg k kid d sig = Ret T_SUCCESS \/ cr_verify (adapter c l) alg k kid d sig = Ret ERR_SIG_VERIFY.
Proof.
  intros LW AC YN EN N8. pose proof (enabled_kinds c alg EN N8) as KI.
  destruct l as [lib|lib]; cbn [adapter library_works accepts yes_or_no] in *.
  - destruct LW as [(SW & EM & MN & DL & SL & HL) CH]. destruct AC as [KC AC]. destruct YN as [YN _].
    destruct (ossl_verify_total c lib alg k kid d sig) as [e T].
    change (snd (ossl_verify c lib alg k kid d sig)) with (cr_verify (openssl c lib) alg k kid d sig) in T.
    destruct (terr_eqb e T_SUCCESS) eqn:Q; [apply terr_eqb_eq in Q; subst; auto|]. right.
    assert (N : e <> T_SUCCESS) by (intros ->; rewrite terr_eqb_refl in Q; discriminate).
    assert (KE : ecdsa_enabled c alg \/ pss_enabled c alg) by (destruct (is_ecdsa_id alg); auto).
    apply ossl_wrong_signature; auto.
    + destruct (is_ecdsa_id alg) eqn:EC; [apply AC|]. intro A. unfold is_ecdsa_id in EC. lia.
    + intro OA. assert (X : cr_verify (openssl c lib) alg k kid d sig = Ret T_SUCCESS); [|congruence].
      apply ossl_accepted_verifies; auto. destruct (is_ecdsa_id alg) eqn:EC; [apply AC|]. intro A. unfold is_ecdsa_id in EC. lia.
  - destruct (cr_verify (psa_crypto c lib) alg k kid d sig) as [e|u] eqn:T; [|discriminate].
    destruct (terr_eqb e T_SUCCESS) eqn:Q; [apply terr_eqb_eq in Q; subst; auto|]. right. f_equal.
    assert (N : e <> T_SUCCESS) by (intros ->; rewrite terr_eqb_refl in Q; discriminate).
    destruct (psa_verify_faults _ _ _ _ _ _ _ _ T N) as [(_ & X & Y)|(a & A & S)].
    + destruct (is_ecdsa_id alg); tauto.
    + destruct (YN (k_handle k) a d sig) as [Y|Y]; rewrite Y in S; destruct e; cbn [status_means] in S; try discriminate; try contradiction; try reflexivity;
        exfalso; apply S; cbn; auto.
Qed.

Lemma eddsa_says c l H k V kid t sig : library_works l H -> accepts l (-8) k V -> yes_or_no l ->
  cr_verify_eddsa (adapter c l) k kid t sig = Ret T_SUCCESS \/ cr_verify_eddsa (adapter c l) k kid t sig = Ret ERR_SIG_VERIFY.
Proof.
  destruct l as [lib|lib]; cbn [adapter library_works accepts yes_or_no]; [|intros _ [X _]; contradiction].
  intros [(_ & _ & MN & _) _]. change (is_ecdsa_id (-8)) with false. change ((-8 =? -8)%Z) with true. cbn iota. intros (K & DI & DV) [_ YN].
  destruct (ossl_verify_eddsa_total lib k kid t sig) as (e & T).
  change (cr_verify_eddsa (openssl c lib) k kid t sig = Ret e) in T. rewrite T.
  destruct (terr_eqb e T_SUCCESS) eqn:Q; [apply terr_eqb_eq in Q; subst; auto|]. right. f_equal.
  assert (N : e <> T_SUCCESS) by (intros ->; rewrite terr_eqb_refl in Q; discriminate).
  destruct (ossl_verify_eddsa_faults _ _ _ _ _ _ _ T N) as [[(_ & X)|(_ & _ & X)]|(_ & [(_ & X)|[(_ & X)|F]])].
  - destruct K; contradiction.
  - destruct K; contradiction.
  - congruence.
  - congruence.
  - destruct F as [[-> _]|(_ & X & Y)]; [reflexivity|]. destruct (YN (k_handle k) sig t); contradiction.
Qed.

(** ** The verdict *)

Lemma hash_of_enabled c alg : enabled c alg -> alg <> (-8)%Z -> exists halg, hash_for alg = Some halg.
Proof. intros EN N8. unfold enabled in EN. destruct EN as [->|[[-> _]|[[-> _]|[[-> _]|[[-> _]|[[-> _]|[E _]]]]]]]; cbn; eauto. contradiction. Qed.

Theorem verdict c l H V junk me msg aad payload want dc ad gv g pm p pl :
  library_works l H -> yes_or_no l -> enabled c (p_alg p) ->
  length (v_tags me) = 4%nat -> holds aad ad -> detached_arg dc payload gv -> message msg g pm ->
  acceptable c (v_flags me) dc gv g pm p pl -> decode_only (v_flags me) = false ->
  (if short_circuit_kid c p then allows_short_circuit (v_flags me) = true /\ p_alg p <> (-8)%Z else accepts l (p_alg p) (v_key me) V) ->
  (p_alg p = (-8)%Z -> wb_null (v_aux me) = false /\ blen (sig_structure (g_prot g) ad pl) <= wb_len (v_aux me)) ->
  exists log w, verify_internal c (adapter c l) junk me msg aad payload want dc = (log, Ret w) /\
    let right := right_signature c H V p (sig_structure (g_prot g) ad pl) (g_sig g) in
    (right /\ delivered me payload want dc p pl w \/ ~ right /\ w_err w = ERR_SIG_VERIFY).
Proof.
  intros LW YN EN Hv HA HG Hm Ac Dn SA AX.
  destruct (acceptable_core c (adapter c l) junk me msg aad payload want dc ad gv g pm p pl Hv HA HG Hm Ac) as (me1 & pay & Fl & Ky & Ax & HP & Go).
  set (tbs := sig_structure (g_prot g) ad pl) in *.
  pose proof (library_hash_is c l H LW) as HI.
  assert (TH : forall halg, hash_for (p_alg p) = Some halg ->
    exists ev, create_tbs_hash c (adapter c l) (p_alg p) (UBuf (g_prot g)) aad pay (max_hash_size c) = (ev, Ret (T_SUCCESS, H halg tbs))).
  { intros halg HF. apply (tbs_hash_complete c (adapter c l) (g_prot g) ad pl aad pay HA HP _ halg); auto.
    - eapply digest_exists; [exact (library_hash c l H _ _ LW EN)|exact HI|exact HF].
    - exact (one_digest_of _ H HI).
    - exact (library_reliable c l H _ LW). }
  unfold right_signature, check_core in *. destruct (short_circuit_kid c p) eqn:SK.
  - destruct SA as [AL N8]. destruct (hash_of_enabled _ _ EN N8) as (halg & HF). destruct (TH halg HF) as (ev & T).
    unfold sign1_verify_short_circuit in Go. rewrite flag_do, flag_sc, Fl, Dn, AL in Go. cbn [negb] in Go. rewrite T in Go.
    unfold mbind, mlift, mret in Go. cbn [terr_eqb negb app] in Go.
    rewrite sc_verify_eq in Go. destruct (Go _ _ _ eq_refl) as (w & Ew & Er & De).
    eexists. exists w. split; [exact Ew|]. cbv zeta.
    pose proof (sc_verify_iff (H halg tbs) (g_sig g)) as SI. rewrite sc_verify_eq in SI.
    destruct ((blen (H halg tbs) <=? blen (g_sig g)) && bytes_eqb (firstn (length (H halg tbs)) (g_sig g)) (H halg tbs)).
    + left. split; [|auto]. destruct (proj1 SI eq_refl) as (r & X). eauto.
    + right. split; [|exact Er]. intros (halg' & r & HF' & X). assert (halg' = halg) by congruence. subst halg'.
      assert (Y : Ret ERR_SIG_VERIFY = Ret T_SUCCESS) by (apply SI; eauto). discriminate.
  - unfold uses_eddsa in Go. destruct (Z.eqb_spec (p_alg p) (-8)) as [E8|N8].
    + rewrite E8 in *. rewrite (eddsa_enabled _ EN) in Go. cbn [negb andb] in Go. destruct (AX eq_refl) as [W L].
      unfold sign1_verify_eddsa in Go. rewrite (create_tbs_holds _ _ _ (g_prot g) ad pl) in Go; auto; [|now left].
      cbv zeta in Go. fold tbs in Go. rewrite Ax in Go. replace (blen tbs <=? wb_len (v_aux me)) with true in Go by lia.
      rewrite W in Go. cbn [terr_eqb negb v_set_aux_size v_flags v_aux v_key u_data] in Go. rewrite flag_do, Fl, Dn, Ax, W in Go.
      unfold mbind, mlog, mret in Go. rewrite Ky in Go.
      pose proof (verify_eddsa_exact c l H (v_key me) V (p_kid p) tbs (g_sig g) LW SA) as VX.
      destruct (eddsa_says c l H (v_key me) V (p_kid p) tbs (g_sig g) LW SA YN) as [S|S]; rewrite S in Go, VX;
        destruct (Go _ _ _ eq_refl) as (w & Ew & Er & De); eexists; exists w; (split; [exact Ew|]); cbv zeta.
      * left. split; [now apply VX|auto].
      * right. split; [|exact Er]. intro X. apply VX in X. discriminate.
    + rewrite andb_false_r in Go. destruct (hash_of_enabled _ _ EN N8) as (halg & HF). destruct (TH halg HF) as (ev & T).
      unfold sign1_verify_default in Go. rewrite flag_do, Fl, Dn in Go. rewrite T in Go.
      unfold mbind, mlog, mret in Go. cbn [terr_eqb negb app] in Go. rewrite Ky in Go.
      pose proof (verify_exact c l H (p_alg p) (v_key me) V (p_kid p) (H halg tbs) (g_sig g) LW SA EN N8) as VX.
      destruct (verify_says c l H (p_alg p) (v_key me) V (p_kid p) (H halg tbs) (g_sig g) LW SA YN EN N8) as [S|S]; rewrite S in Go, VX;
        destruct (Go _ _ _ eq_refl) as (w & Ew & Er & De); eexists; exists w; (split; [exact Ew|]); cbv zeta.
      * left. split; [exists halg; split; [exact HF|now apply VX]|auto].
      * right. split; [|exact Er]. intros (halg' & HF' & X). assert (halg' = halg) by congruence. subst halg'. apply VX in X. discriminate.
Qed.

(** ** Messages of the signer *)

Theorem signed_verdict c c2 l l2 H V V2 q me (det : bool) payload aad pl ad n log me' m vme junk aad2 payload2 want ad2 gv2 :
  library_works l H -> library_works l2 H -> yes_or_no l2 ->
  makes l (q_alg q) (k_handle (q_key q)) V -> accepts l2 (q_alg q) (v_key vme) V2 -> enabled c2 (q_alg q) ->
  configured q me -> holds payload pl -> holds aad ad -> n < 2 ^ 64 ->
  sign_aad_internal c (adapter c l) me det payload aad {| wb_null := false; wb_len := n |} = (log, Ret (T_SUCCESS, me', Some (UBuf m))) ->
  length (v_tags vme) = 4%nat -> holds aad2 ad2 -> detached_arg det payload2 gv2 -> demands_met q (v_flags vme) ->
  wants_short_circuit (q_flags q) = false -> q_kid q <> reserved_kid \/ dis_short_circuit c2 = true ->
  decode_only (v_flags vme) = false ->
  let pl2 := if det then gv2 else pl in
  (q_alg q = (-8)%Z -> wb_null (v_aux vme) = false /\ blen (requested_tbs q ad2 pl2) <= wb_len (v_aux vme)) ->
  exists sig log' w, m = requested_message c q (if det then None else Some pl) sig /\
    right_signature c2 H V (seen_params c c2 q) (requested_tbs q ad pl) sig /\
    verify_internal c2 (adapter c2 l2) junk vme m aad2 payload2 want det = (log', Ret w) /\
    let right := right_signature c2 H V2 (seen_params c c2 q) (requested_tbs q ad2 pl2) sig in
    (right /\ delivered vme payload2 want det (seen_params c c2 q) pl2 w \/ ~ right /\ w_err w = ERR_SIG_VERIFY).
Proof.
  intros LW LW2 YN MK AC E2 C P A Hn S Hv A2 HG DM W SC Dn pl2 AX.
  destruct (sign_success_spec c (adapter c l) q me det payload aad pl ad n log me' (Some (UBuf m)) C P A S)
    as (sig & room & Em & Lm & Lr & Hsig & En). injection Em as ->.
  assert (Hct : match q_ct_uint q with Some n => n < 65536 | None => True end).
  { destruct C as (_ & _ & _ & _ & U & _). destruct (q_ct_uint q); [exact (proj1 U)|exact I]. }
  set (po := if det then None else Some pl) in *.
  assert (SK : short_circuit_kid c2 (seen_params c c2 q) = false).
  { unfold short_circuit_kid. rewrite seen_kid.
    assert (RK : requested_kid q = q_kid q) by (unfold requested_kid; rewrite W; destruct (q_kid q); reflexivity).
    rewrite RK. destruct SC as [SC| ->]; [|reflexivity].
    destruct (bytes_eqb (q_kid q) reserved_kid) eqn:B; [|apply andb_false_r]. exfalso. apply SC. now apply bytes_eqb_eq. }
  assert (Ri : right_signature c2 H V (seen_params c c2 q) (requested_tbs q ad pl) sig).
  { unfold right_signature. rewrite SK, seen_alg. unfold signature_of in Hsig. rewrite W in Hsig.
    destruct (Z.eqb_spec (q_alg q) (-8)) as [E8|E8].
    - rewrite E8 in *. exact (made_eddsa c l (q_key q) V _ _ _ MK Hsig).
    - destruct Hsig as (halg & d & HF & HD & HS). rewrite (library_hash_is c l H LW _ _ _ HD) in HS. exists halg. split; [exact HF|].
      exact (made_signature c l H _ _ V _ _ _ LW MK HS). }
  destruct (verdict c2 l2 H V2 junk vme (requested_message c q po sig) aad2 payload2 want det ad2 gv2 (asked c q po sig) (asked_prot q) (seen_params c c2 q) pl2)
    as (log' & w & Ew & Vd); auto.
  - rewrite seen_alg. exact E2.
  - apply asked_message; auto. lia.
  - apply seen_acceptable; auto. unfold po, pl2. destruct det; auto.
  - rewrite SK, seen_alg. exact AC.
  - rewrite seen_alg. exact AX.
  - exists sig, log', w. split; [reflexivity|]. split; [exact Ri|]. split; [exact Ew|exact Vd].
Qed.

Theorem wrong_input c c2 l l2 H V q me (det : bool) payload aad pl ad n log me' m vme junk aad2 payload2 want ad2 gv2 :
  library_works l H -> library_works l2 H -> yes_or_no l2 ->
  makes l (q_alg q) (k_handle (q_key q)) V -> accepts l2 (q_alg q) (v_key vme) V -> enabled c2 (q_alg q) ->
  configured q me -> holds payload pl -> holds aad ad -> n < 2 ^ 64 ->
  sign_aad_internal c (adapter c l) me det payload aad {| wb_null := false; wb_len := n |} = (log, Ret (T_SUCCESS, me', Some (UBuf m))) ->
  length (v_tags vme) = 4%nat -> holds aad2 ad2 -> detached_arg det payload2 gv2 -> demands_met q (v_flags vme) ->
  wants_short_circuit (q_flags q) = false -> q_kid q <> reserved_kid \/ dis_short_circuit c2 = true ->
  decode_only (v_flags vme) = false ->
  let pl2 := if det then gv2 else pl in
  (q_alg q = (-8)%Z -> wb_null (v_aux vme) = false /\ blen (requested_tbs q ad2 pl2) <= wb_len (v_aux vme)) ->
  blen ad < 2 ^ 64 -> blen ad2 < 2 ^ 64 -> blen pl < 2 ^ 64 -> blen gv2 < 2 ^ 64 ->
  ad2 <> ad \/ (det = true /\ gv2 <> pl) ->
  exists sig log' w, m = requested_message c q (if det then None else Some pl) sig /\
    verify_internal c2 (adapter c2 l2) junk vme m aad2 payload2 want det = (log', Ret w) /\
    (w_err w = ERR_SIG_VERIFY \/ serves_twice H V (q_alg q) (requested_tbs q ad pl) (requested_tbs q ad2 pl2) sig).
Proof.
  intros LW LW2 YN MK AC E2 C P A Hn S Hv A2 HG DM W SC Dn pl2 AX L1 L2 L3 L4 Df.
  destruct (signed_verdict c c2 l l2 H V V q me det payload aad pl ad n log me' m vme junk aad2 payload2 want ad2 gv2
    LW LW2 YN MK AC E2 C P A Hn S Hv A2 HG DM W SC Dn AX) as (sig & log' & w & Em & Ri & Ew & Vd). fold pl2 in Vd.
  exists sig, log', w. split; [exact Em|]. split; [exact Ew|]. destruct Vd as [[R2 _]|[_ Er]]; [right|auto].
  split.
  { intro T. unfold requested_tbs in T. pose proof (protected_header_len (q_alg q)).
    assert (X : protected_header (q_alg q) = protected_header (q_alg q) /\ ad = ad2 /\ pl = pl2).
    { apply sig_structure_inj; auto; try lia. unfold pl2. destruct det; assumption. }
    destruct X as (_ & X1 & X2). unfold pl2 in X2. destruct Df as [Df|[-> Df]]; [|]; congruence. }
  assert (SK : short_circuit_kid c2 (seen_params c c2 q) = false).
  { unfold short_circuit_kid. rewrite seen_kid.
    assert (RK : requested_kid q = q_kid q) by (unfold requested_kid; rewrite W; destruct (q_kid q); reflexivity).
    rewrite RK. destruct SC as [SC| ->]; [|reflexivity].
    destruct (bytes_eqb (q_kid q) reserved_kid) eqn:B; [|apply andb_false_r]. exfalso. apply SC. now apply bytes_eqb_eq. }
  unfold right_signature in Ri, R2. rewrite SK, seen_alg in Ri, R2.
  destruct (q_alg q =? -8)%Z; [auto|]. destruct Ri as (halg & HF & X1), R2 as (halg' & HF' & X2). assert (halg' = halg) by congruence. subst halg'.
  exists halg. auto.
Qed.

(** ** Short-circuit signatures with the test adapter *)

Lemma test_digest junk c data : length junk = 64%nat -> digest_of (test_crypto true junk c) (-16) data (sha256 data).
Proof.
  intro J. set (cr := test_crypto true junk c).
  assert (X : forall data (h : sha_ctx) D, has_absorbed h D -> exists h', fed cr h data h').
  { clear data. induction data as [|b data IH]; intros h D A; [exists h; constructor|].
    destruct (update_spec h D [b] A) as (h1 & U & A1); [reflexivity|]. destruct (IH h1 _ A1) as (h' & F).
    exists h'. apply (fed_cons cr h (UBuf [b]) [b] h1 data h'); [now left|exact U|exact F]. }
  destruct (X data (sha256_init junk) [] (init_absorbed junk J)) as (h' & F).
  pose proof (test_fed junk c _ _ _ F [] (init_absorbed junk J)) as A. cbn [app] in A.
  exists (sha256_init junk), h', 32. split; [reflexivity|]. split; [exact F|].
  cbn [cr cr_hash_finish test_crypto]. unfold test_hash_finish. rewrite (final_spec _ data) by (auto; rewrite repeat_length; reflexivity).
  cbn [obind]. f_equal. f_equal. apply firstn_exact, sha256_length.
Qed.

Theorem test_verdict c junk0 junk me msg aad payload want dc ad gv g pm p pl :
  length junk0 = 64%nat -> enabled c (p_alg p) -> p_alg p = (-7)%Z \/ p_alg p = (-37)%Z ->
  blen (g_prot g) < 2 ^ 32 -> blen ad < 2 ^ 32 -> blen pl < 2 ^ 32 ->
  length (v_tags me) = 4%nat -> holds aad ad -> detached_arg dc payload gv -> message msg g pm ->
  acceptable c (v_flags me) dc gv g pm p pl -> decode_only (v_flags me) = false ->
  short_circuit_kid c p = true -> allows_short_circuit (v_flags me) = true ->
  exists log w, verify_internal c (test_crypto true junk0 c) junk me msg aad payload want dc = (log, Ret w) /\
    let right := exists rest, g_sig g = sha256 (sig_structure (g_prot g) ad pl) ++ rest in
    (right /\ delivered me payload want dc p pl w \/ ~ right /\ w_err w = ERR_SIG_VERIFY).
Proof.
  intros J EN AL L1 L2 L3 Hv HA HG Hm Ac Dn SK SA. set (cr := test_crypto true junk0 c).
  destruct (acceptable_core c cr junk me msg aad payload want dc ad gv g pm p pl Hv HA HG Hm Ac) as (me1 & pay & Fl & Ky & Ax & HP & Go).
  set (tbs := sig_structure (g_prot g) ad pl) in *.
  assert (HF : hash_for (p_alg p) = Some (-16)%Z) by (destruct AL as [-> | ->]; reflexivity).
  assert (TH : exists ev, create_tbs_hash c cr (p_alg p) (UBuf (g_prot g)) aad pay (max_hash_size c) = (ev, Ret (T_SUCCESS, sha256 tbs))).
  { apply (tbs_hash_complete c cr (g_prot g) ad pl aad pay HA HP _ (-16)%Z); auto.
    - apply test_digest, J.
    - exact (one_digest_of _ _ (test_hash_is junk0 c J)).
    - apply (test_reliable junk0 c J). cbn [longest fold_right]. lia. }
  destruct TH as (ev & T). unfold check_core in Go. rewrite SK in Go.
  unfold sign1_verify_short_circuit in Go. rewrite flag_do, flag_sc, Fl, Dn, SA in Go. cbn [negb] in Go. rewrite T in Go.
  unfold mbind, mlift, mret in Go. cbn [terr_eqb negb app] in Go.
  rewrite sc_verify_eq in Go. destruct (Go _ _ _ eq_refl) as (w & Ew & Er & De).
  eexists. exists w. split; [exact Ew|]. cbv zeta.
  pose proof (sc_verify_iff (sha256 tbs) (g_sig g)) as SI. rewrite sc_verify_eq in SI.
  destruct ((blen (sha256 tbs) <=? blen (g_sig g)) && bytes_eqb (firstn (length (sha256 tbs)) (g_sig g)) (sha256 tbs)).
  - left. split; [|auto]. exact (proj1 SI eq_refl).
  - right. split; [|exact Er]. intro X. assert (Y : Ret ERR_SIG_VERIFY = Ret T_SUCCESS) by (apply SI; eauto). discriminate.
Qed.

Theorem test_wrong_input c junk0 q me (det : bool) payload aad pl ad n log me' m vme junk aad2 payload2 want ad2 gv2 :
  length junk0 = 64%nat -> configured q me -> holds payload pl -> holds aad ad -> n < 2 ^ 64 ->
  blen pl < 2 ^ 32 -> blen ad < 2 ^ 32 -> blen gv2 < 2 ^ 32 -> blen ad2 < 2 ^ 32 ->
  sign_aad_internal c (test_crypto true junk0 c) me det payload aad {| wb_null := false; wb_len := n |} = (log, Ret (T_SUCCESS, me', Some (UBuf m))) ->
  q_alg q = (-7)%Z -> requested_kid q = reserved_kid -> dis_short_circuit c = false ->
  length (v_tags vme) = 4%nat -> holds aad2 ad2 -> detached_arg det payload2 gv2 -> demands_met q (v_flags vme) ->
  allows_short_circuit (v_flags vme) = true -> decode_only (v_flags vme) = false ->
  let pl2 := if det then gv2 else pl in
  ad2 <> ad \/ (det = true /\ gv2 <> pl) ->
  exists log' w, verify_internal c (test_crypto true junk0 c) junk vme m aad2 payload2 want det = (log', Ret w) /\
    (w_err w = ERR_SIG_VERIFY \/
     requested_tbs q ad pl <> requested_tbs q ad2 pl2 /\ sha256 (requested_tbs q ad pl) = sha256 (requested_tbs q ad2 pl2)).
Proof.
  intros J C P A Hn L1 L2 L3 L4 S E7 RK DSC Hv A2 HG DM SA Dn pl2 Df.
  destruct (test_short_circuit c junk0 q me det payload aad pl ad n log me' (Some (UBuf m)) vme junk aad2 payload2 want J C P A Hn L1 L2 S)
    as (W & _ & m0 & Em & _ & Es & _). injection Em as <-. specialize (Es E7).
  destruct (sign_success_spec c _ q me det payload aad pl ad n log me' (Some (UBuf m)) C P A S) as (sig0 & room & Em0 & Lm & _ & _ & En).
  assert (Hct : match q_ct_uint q with Some n => n < 65536 | None => True end).
  { destruct C as (_ & _ & _ & _ & U & _). destruct (q_ct_uint q); [exact (proj1 U)|exact I]. }
  set (po := if det then None else Some pl) in *. set (d := sha256 (requested_tbs q ad pl)) in *. subst m.
  assert (L5 : blen pl2 < 2 ^ 32) by (unfold pl2; destruct det; assumption).
  destruct (test_verdict c junk0 junk vme (requested_message c q po (d ++ d)) aad2 payload2 want det ad2 gv2 (asked c q po (d ++ d)) (asked_prot q) (asked_params c q) pl2)
    as (log' & w & Ew & Vd); auto.
  - cbn [asked_params p_alg]. pose proof (protected_header_len (q_alg q)). cbn [asked g_prot]. lia.
  - apply asked_message; auto. replace (requested_message c q po (d ++ d)) with (requested_message c q po sig0) by congruence. lia.
  - destruct DM as (T1 & T2 & K). apply asked_acceptable; auto. unfold po, pl2. destruct det; auto.
  - unfold short_circuit_kid. rewrite DSC. cbn [negb andb]. apply bytes_eqb_eq. cbn [asked_params p_kid]. rewrite <- RK. destruct (requested_kid q); reflexivity.
  - exists log', w. split; [exact Ew|]. destruct Vd as [[(rest & R) _]|[_ Er]]; [right|auto].
    cbn [asked g_prot g_sig] in R.
    assert (TN : requested_tbs q ad pl <> requested_tbs q ad2 pl2).
    { intro T. unfold requested_tbs in T. pose proof (protected_header_len (q_alg q)).
      assert (X : protected_header (q_alg q) = protected_header (q_alg q) /\ ad = ad2 /\ pl = pl2) by (apply sig_structure_inj; auto; lia).
      destruct X as (_ & X1 & X2). unfold pl2 in X2. destruct Df as [Df|[-> Df]]; congruence. }
    split; [exact TN|]. fold d. apply (f_equal (firstn 32)) in R.
    rewrite firstn_exact in R by apply sha256_length. rewrite firstn_exact in R by apply sha256_length. exact R.
Qed.
