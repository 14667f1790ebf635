(** What one library and build signs, another one verifies. *)
From Verif Require Import Base Const QEnc QDec Crypto Util ShortCircuit Params Sign Verify OpenSSL Psa AdapterSpec Spec SignSpec LiveSpec.
From Verif Require Import BaseFacts UtilFacts SignFacts SignProofs SignMore SignMore2 SignMore3 DecSpec VerifyFacts VerifyCheck Parts Unique VerifyTop RoundTrip VerifyMore.
From Verif Require Import OpenSSLFacts OpenSSLFacts2 AdapterFacts PsaFacts AdapterTop LiveFacts LiveAdapter VerifySpec InterSpec.
From Coq Require Import Lia ZifyBool ZifyNat ZifyN.
Ltac Zify.zify_post_hook ::= Z.div_mod_to_equations.
Open Scope N_scope. Open Scope list_scope.
Local Strategy 100 [create_tbs create_tbs_hash verify_decode].

(** ** Hashes *)

Lemma digest_exists c cr alg halg H data : hash_works c cr alg [data] -> hash_is cr H -> hash_for alg = Some halg ->
  digest_of cr halg data (H halg data).
Proof.
  intros [ST RL] HI HF. destruct (ST halg HF) as (h & S).
  destruct (RL halg h [UBuf data] S) as (h' & d & U & F).
  { constructor; [|constructor]. exact (longest_in [data] data (or_introl eq_refl)). }
  assert (D : digest_of cr halg data d).
  { exists h, h', (max_hash_size c). split; [exact S|]. split; [|exact F]. cbn [update_all] in U.
    destruct (cr_hash_update cr h (UBuf data)) as [h1|] eqn:E; [|discriminate]. injection U as <-.
    rewrite <- (app_nil_r data). eapply fed_cons; [now left|exact E|constructor]. }
  rewrite <- (HI _ _ _ D). exact D.
Qed.

Lemma library_hash c l H alg parts : library_works l H -> enabled c alg -> hash_works c (adapter c l) alg parts.
Proof.
  destruct l as [lib|lib]; cbn [library_works adapter].
  - intros [OW CH] E. exact (ossl_hash_works c lib H alg parts OW CH E).
  - intros (HL & WR & CH) E. exact (psa_hash_works c lib H HL alg parts CH E).
Qed.

Lemma library_hash_is c l H : library_works l H -> hash_is (adapter c l) H.
Proof.
  destruct l as [lib|lib]; cbn [library_works adapter].
  - intros [(_ & _ & _ & _ & _ & HL) _]. exact (ossl_hash_is c lib H HL).
  - intros (HL & _). exact (psa_hash_is c lib H HL).
Qed.

Lemma library_reliable c l H parts : library_works l H -> hash_reliable c (adapter c l) parts.
Proof.
  destruct l as [lib|lib]; cbn [library_works adapter].
  - intros [(_ & _ & _ & _ & _ & HL) _]. exact (ossl_reliable c lib H HL parts).
  - intros (HL & _). exact (psa_reliable c lib H HL parts).
Qed.

(** ** Signatures *)

Lemma ecdsa_id_of c alg : ecdsa_enabled c alg -> is_ecdsa_id alg = true.
Proof. unfold ecdsa_enabled, is_ecdsa_id. lia. Qed.
Lemma pss_id_of c alg : pss_enabled c alg -> is_ecdsa_id alg = false /\ (alg =? -8)%Z = false.
Proof. unfold pss_enabled, is_ecdsa_id. lia. Qed.

Lemma made_signature c l H alg k V d room sig : library_works l H -> makes l alg (k_handle k) V ->
  cr_sign (adapter c l) alg k d room = Ret (T_SUCCESS, sig) -> V d sig.
Proof.
  destruct l as [lib|lib]; cbn [library_works adapter makes].
  - intros [(_ & _ & _ & _ & SL & _) _] M S. cbn [cr_sign openssl] in S.
    apply ossl_sign_result in S as (_ & [(E & der & r & s & P & D & -> & _)|(P & S)]); [| |exact SL].
    + rewrite (ecdsa_id_of _ _ E) in M. exact (M _ _ _ _ _ P D).
    + destruct (pss_id_of _ _ P) as [X Y]. rewrite X, Y in M. exact (M _ _ _ S).
  - intros (_ & WR & _) M S. cbn [cr_sign psa_crypto] in S. apply psa_sign_iff in S as (halg & HF & S); [|exact WR].
    apply (M halg _ room _ HF). unfold psa_alg. destruct S as [[E S]|[E S]].
    + rewrite (ecdsa_id_of _ _ E). exact S.
    + rewrite (proj1 (pss_id_of _ _ E)). exact S.
Qed.

Lemma made_eddsa c l k V t room sig : makes l (-8) (k_handle k) V ->
  cr_sign_eddsa (adapter c l) k t room = Ret (T_SUCCESS, sig) -> V t sig.
Proof.
  destruct l as [lib|lib]; cbn [adapter makes]; [|discriminate].
  change (is_ecdsa_id (-8)) with false. change ((-8 =? -8)%Z) with true. cbn iota. intros M. cbn [cr_sign_eddsa openssl]. unfold ossl_sign_eddsa.
  destruct (terr_eqb (key_convert k) T_SUCCESS) eqn:K; cbn [negb]; [|intro X; exfalso; injection X as X _; rewrite X in K; discriminate].
  destruct (md_new lib); cbn [negb lret snd lbind alloc]; [|discriminate].
  destruct (dsign_init lib _); cbn [negb lret snd lbind free]; [|discriminate].
  destruct (dsign lib _ t room) as [b|] eqn:D; cbn [lret lbind snd free]; [|discriminate].
  unfold stored. destruct (room <? blen b); cbn [lret lub lbind snd free]; [discriminate|]. intro X. injection X as <-. exact (M _ _ _ D).
Qed.

Lemma verify_exact c l H alg k V kid d sig : library_works l H -> accepts l alg k V -> enabled c alg -> alg <> (-8)%Z ->
  cr_verify (adapter c l) alg k kid d sig = Ret T_SUCCESS <-> V d sig.
Proof.
  intros LW AC EN N8. pose proof (enabled_kinds c alg EN N8) as KI. apply Z.eqb_neq in N8.
  destruct l as [lib|lib]; cbn [library_works adapter accepts] in *.
  - destruct LW as [(SW & EM & MN & DL & SL & HL) CH]. destruct AC as [KC AC]. cbn [cr_verify openssl].
    destruct (is_ecdsa_id alg) eqn:EC.
    + destruct AC as (OC & VE & FM). split.
      * intro S. apply ossl_verify_sound in S as (_ & [(_ & r & s & der & Hr & Hs & -> & I2 & PV)|(P & _)]).
        -- rewrite (proj1 DL) in I2. injection I2 as <-. apply VE; assumption.
        -- apply pss_id_of in P as [P _]. congruence.
      * intro X. apply ossl_accepted_verifies; auto. left. split; [exact KI|]. destruct (FM _ _ X) as (r & s & Hr & Hs & ->).
        exists r, s, (der_signature r s). cbv zeta. split; [exact Hr|]. split; [exact Hs|]. split; [reflexivity|]. split; [apply DL|]. apply VE; assumption.
    + rewrite N8 in AC. split.
      * intro S. apply ossl_verify_sound in S as (_ & [(E & _)|(_ & PV)]); [apply ecdsa_id_of in E; congruence|]. apply AC. exact PV.
      * intro X. apply ossl_accepted_verifies; auto.
        -- intro A. unfold is_ecdsa_id in EC. lia.
        -- right. split; [exact KI|]. apply AC. exact X.
  - destruct LW as (HL & WR & CH). destruct AC as [_ AC]. cbn [cr_verify psa_crypto]. unfold psa_alg in AC. split.
    + intro S. injection S as S. apply psa_verify_iff in S as (halg & HF & [[E S]|[E S]]); apply (AC halg _ _ HF).
      * rewrite (ecdsa_id_of _ _ E). exact S.
      * rewrite (proj1 (pss_id_of _ _ E)). exact S.
    + intro X. f_equal. apply psa_verify_iff.
      assert (exists halg, hash_for alg = Some halg) as (halg & HF).
      { unfold enabled in EN. apply Z.eqb_neq in N8. destruct EN as [->|[[-> _]|[[-> _]|[[-> _]|[[-> _]|[[-> _]|[E _]]]]]]]; cbn; eauto. contradiction. }
      exists halg. split; [exact HF|]. apply (AC halg _ _ HF) in X. destruct (is_ecdsa_id alg); auto.
Qed.

Lemma verify_eddsa_exact c l H k V kid t sig : library_works l H -> accepts l (-8) k V ->
  cr_verify_eddsa (adapter c l) k kid t sig = Ret T_SUCCESS <-> V t sig.
Proof.
  destruct l as [lib|lib]; cbn [library_works adapter accepts]; [|intros _ [X _]; contradiction].
  intros [(_ & _ & MN & _) _]. change (is_ecdsa_id (-8)) with false. change ((-8 =? -8)%Z) with true. cbn iota. intros (K & DI & DV).
  cbn [cr_verify_eddsa openssl]. rewrite ossl_verify_eddsa_iff, <- DV. tauto.
Qed.

(** ** Round trip *)

Lemma reported_ct c c2 g pm p : dis_content_type c = dis_content_type c2 -> reported c g pm p -> reported c2 g pm p.
Proof. intros E [R1 R2 R3 R4 R5 R6]. rewrite E in R6. constructor; assumption. Qed.

Lemma acceptable_ct c c2 flags dc gv g pm p pl : dis_content_type c = dis_content_type c2 ->
  acceptable c flags dc gv g pm p pl -> acceptable c2 flags dc gv g pm p pl.
Proof. intros E [A1 A2 A3 A4 A5 A6 A7]. constructor; try assumption. exact (reported_ct _ _ _ _ _ E A2). Qed.

(** What a verifying build reports about the message of another one. *)
Lemma seen_acceptable c c2 q flags payload sig (dc : bool) gv pl :
  enabled c (q_alg q) -> (match q_ct_uint q with Some n => n < 65536 | None => True end) ->
  demands_met q flags -> (if dc then payload = None /\ pl = gv else payload = Some pl) ->
  acceptable c2 flags dc gv (asked c q payload sig) (asked_prot q) (seen_params c c2 q) pl.
Proof.
  intros En Hct (T1 & T2 & K) P. pose proof (asked_acceptable c q flags payload sig dc gv pl En Hct T1 T2 K P) as A.
  unfold seen_params. destruct (dis_content_type c2) eqn:D2.
  - destruct A as [A1 [R1 R2 R3 R4 R5 R6] A3 A4 A5 A6 A7]. constructor; try assumption.
    constructor; try assumption. rewrite D2. cbn [asked_params p_ct_tstr p_ct_uint]. unfold requested_ct. rewrite D2.
    destruct (asked_unprot_values c q) as (_ & U3 & _).
    destruct (asked_prot_values q (enabled_range _ _ En)) as (_ & PO & _). rewrite (PO 3%Z) by lia. cbn [asked g_unprot]. rewrite U3.
    split; [now left|]. split; [|auto]. destruct (requested_ct c q); [now left| |]; right; eexists; (split; [reflexivity|]); apply readable_plain; (reflexivity || exact I).
  - destruct (dis_content_type c) eqn:D1; [|apply (acceptable_ct c); congruence || exact A].
    destruct A as [A1 [R1 R2 R3 R4 R5 R6] A3 A4 A5 A6 A7]. constructor; try assumption.
    constructor; try assumption. rewrite D2. cbn [asked_params p_ct_tstr p_ct_uint]. unfold requested_ct. rewrite D1.
    destruct (asked_unprot_values c q) as (_ & U3 & _). unfold requested_ct in U3. rewrite D1 in U3.
    destruct (asked_prot_values q (enabled_range _ _ En)) as (_ & PO & _). exists (UNull 0, 65536). rewrite (PO 3%Z) by lia. cbn [asked g_unprot]. rewrite U3.
    split; constructor.
Qed.

Lemma seen_alg c c2 q : p_alg (seen_params c c2 q) = q_alg q.
Proof. unfold seen_params. destruct (dis_content_type c2); reflexivity. Qed.
Lemma seen_kid c c2 q : u_data (p_kid (seen_params c c2 q)) = requested_kid q.
Proof. unfold seen_params. destruct (dis_content_type c2); cbn [asked_params p_kid]; destruct (requested_kid q); reflexivity. Qed.

Lemma eddsa_enabled c : enabled c (-8) -> dis_eddsa c = false.
Proof. unfold enabled. intuition congruence. Qed.

Theorem interoperate c c2 l l2 H V q me (det : bool) payload aad pl ad n log me' m vme junk aad' payload' want :
  library_works l H -> library_works l2 H -> makes l (q_alg q) (k_handle (q_key q)) V -> accepts l2 (q_alg q) (v_key vme) V ->
  enabled c2 (q_alg q) ->
  configured q me -> holds payload pl -> holds aad ad -> n < 2 ^ 64 ->
  sign_aad_internal c (adapter c l) me det payload aad {| wb_null := false; wb_len := n |} = (log, Ret (T_SUCCESS, me', Some (UBuf m))) ->
  length (v_tags vme) = 4%nat -> holds aad' ad -> detached_arg det payload' pl -> demands_met q (v_flags vme) ->
  wants_short_circuit (q_flags q) = false -> q_kid q <> reserved_kid \/ dis_short_circuit c2 = true ->
  (q_alg q = (-8)%Z -> wb_null (v_aux vme) = false /\ blen (requested_tbs q ad pl) <= wb_len (v_aux vme)) ->
  exists log' w, verify_internal c2 (adapter c2 l2) junk vme m aad' payload' want det = (log', Ret w) /\
    delivered vme payload' want det (seen_params c c2 q) pl w.
Proof.
  intros LW LW2 MK AC E2 C P A Hn S Hv A' HG DM W SC AX.
  destruct (sign_success_spec c (adapter c l) q me det payload aad pl ad n log me' (Some (UBuf m)) C P A S)
    as (sig & room & Em & Lm & Lr & Hsig & En). injection Em as ->.
  assert (Hct : match q_ct_uint q with Some n => n < 65536 | None => True end).
  { destruct C as (_ & _ & _ & _ & U & _). destruct (q_ct_uint q); [exact (proj1 U)|exact I]. }
  set (po := if det then None else Some pl) in *.
  assert (SK : short_circuit_kid c2 (seen_params c c2 q) = false).
  { unfold short_circuit_kid. rewrite seen_kid.
    assert (RK : requested_kid q = q_kid q) by (unfold requested_kid; rewrite W; destruct (q_kid q); reflexivity).
    rewrite RK. destruct SC as [SC| ->]; [|reflexivity].
    destruct (bytes_eqb (q_kid q) reserved_kid) eqn:B; [|apply andb_false_r]. exfalso. apply SC. now apply bytes_eqb_eq. }
  eapply (verify_complete c2 (adapter c2 l2) junk vme _ aad' payload' want det ad pl (asked c q po sig) (asked_prot q) (seen_params c c2 q) pl); auto.
  - apply asked_message; auto. lia.
  - apply seen_acceptable; auto. unfold po. destruct det; auto.
  - intros _. split; [|split; [exact (one_digest_of _ H (library_hash_is c2 l2 H LW2))|exact (library_reliable c2 l2 H _ LW2)]].
    cbn [asked g_prot g_sig]. unfold accepted. rewrite SK. fold (requested_tbs q ad pl).
    unfold signature_of in Hsig. rewrite W in Hsig. unfold uses_eddsa. rewrite seen_alg.
    destruct (Z.eqb_spec (q_alg q) (-8)) as [E8|E8].
    + rewrite E8 in *. rewrite (eddsa_enabled _ E2). cbn [negb andb]. apply (verify_eddsa_exact c2 l2 H _ V); auto.
      exact (made_eddsa c l (q_key q) V _ _ _ MK Hsig).
    + rewrite andb_false_r. destruct Hsig as (halg & d & HF & HD & HS). rewrite (library_hash_is c l H LW _ _ _ HD) in HS.
      exists halg, (H halg (requested_tbs q ad pl)). split; [exact HF|]. split; [exact E2|]. split.
      * eapply digest_exists; [exact (library_hash c2 l2 H _ _ LW2 E2)|exact (library_hash_is c2 l2 H LW2)|exact HF].
      * apply (verify_exact c2 l2 H _ _ V); auto. exact (made_signature c l H _ _ V _ _ _ LW MK HS).
  - unfold aux_enough. cbn [asked g_prot]. intros _ U. unfold uses_eddsa in U. rewrite seen_alg in U.
    apply andb_true_iff in U as [_ U]. apply Z.eqb_eq in U. destruct (AX U) as [X1 X2]. split; [exact X2|intros _; exact X1].
Qed.

(** ** Any message *)

Theorem same_verdict c c2 l l2 H V junk junk2 me me2 msg aad payload dc ad gv log w p :
  library_works l H -> library_works l2 H ->
  dis_content_type c2 = dis_content_type c -> dis_short_circuit c2 = dis_short_circuit c ->
  decode_only (v_flags me) = false -> v_flags me2 = v_flags me -> v_aux me2 = v_aux me -> length (v_tags me) = 4%nat -> length (v_tags me2) = 4%nat ->
  holds aad ad -> detached_arg dc payload gv ->
  verify_internal c (adapter c l) junk me msg aad payload true dc = (log, Ret w) -> w_err w = T_SUCCESS -> w_params w = Some p ->
  enabled c2 (p_alg p) -> accepts l (p_alg p) (v_key me) V -> accepts l2 (p_alg p) (v_key me2) V ->
  exists log' w', verify_internal c2 (adapter c2 l2) junk2 me2 msg aad payload true dc = (log', Ret w') /\
    w_err w' = T_SUCCESS /\ w_params w' = w_params w /\ w_payload w' = w_payload w.
Proof.
  intros LW LW2 CT SCE DN FL AX Hv Hv2 HA HG S Er Pw E2 AC AC2.
  destruct (verify_sound_full _ _ _ _ _ _ _ _ _ _ _ _ _ Hv HA HG S Er) as (g & pm & p0 & pl & Hm & Ac & De & Co & Au & _).
  pose proof De as (_ & D2 & D3). rewrite D2 in Pw. injection Pw as ->.
  assert (SK : short_circuit_kid c2 p = short_circuit_kid c p) by (unfold short_circuit_kid; now rewrite SCE).
  assert (UE : short_circuit_kid c p = false -> decode_only (v_flags me) = false -> uses_eddsa c2 p = uses_eddsa c p).
  { intros K Dn. specialize (Co Dn). unfold accepted in Co. rewrite K in Co. unfold uses_eddsa in *.
    destruct (Z.eqb_spec (p_alg p) (-8)) as [E8|]; [|now rewrite !andb_false_r]. rewrite E8 in *.
    rewrite (eddsa_enabled _ E2). destruct (dis_eddsa c); [|reflexivity]. cbn [negb andb] in Co. destruct Co as (halg & _ & HF & _). discriminate. }
  assert (X : exists log' w', verify_internal c2 (adapter c2 l2) junk2 me2 msg aad payload true dc = (log', Ret w') /\ delivered me2 payload true dc p pl w').
  2:{ destruct X as (log' & w' & X & D1' & D2' & D3'). exists log', w'. split; [exact X|]. split; [exact D1'|]. rewrite D2, D3, D2', D3'. auto. }
  apply (verify_complete c2 (adapter c2 l2) junk2 me2 msg aad payload true dc ad gv g pm p pl); auto.
  - rewrite FL. apply (acceptable_ct c); [congruence|exact Ac].
  - rewrite FL. intro Dn. specialize (Co Dn). split; [|split; [exact (one_digest_of _ H (library_hash_is c2 l2 H LW2))|exact (library_reliable c2 l2 H _ LW2)]].
    unfold accepted in *. rewrite SK. destruct (short_circuit_kid c p) eqn:K.
    + destruct Co as (AL & halg & d & rest & HF & EN & HD & ->). split; [exact AL|]. exists halg, d, rest. split; [exact HF|]. split; [exact E2|].
      split; [|reflexivity]. rewrite (library_hash_is c l H LW _ _ _ HD).
      eapply digest_exists; [exact (library_hash c2 l2 H _ _ LW2 E2)|exact (library_hash_is c2 l2 H LW2)|exact HF].
    + rewrite (UE eq_refl Dn). destruct (uses_eddsa c p) eqn:U.
      * unfold uses_eddsa in U. apply andb_true_iff in U as [_ U]. apply Z.eqb_eq in U. rewrite U in *.
        apply (verify_eddsa_exact c2 l2 H _ V); auto. apply (verify_eddsa_exact c l H _ V) in Co; auto.
      * destruct Co as (halg & d & HF & EN & HD & HS). rewrite (library_hash_is c l H LW _ _ _ HD) in HS.
        assert (N8 : p_alg p <> (-8)%Z) by (intro E8; rewrite E8 in HF; discriminate).
        exists halg, (H halg (sig_structure (g_prot g) ad pl)). split; [exact HF|]. split; [exact E2|]. split.
        -- eapply digest_exists; [exact (library_hash c2 l2 H _ _ LW2 E2)|exact (library_hash_is c2 l2 H LW2)|exact HF].
        -- apply (verify_exact c2 l2 H _ _ V); auto. apply (verify_exact c l H _ _ V) in HS; auto.
  - unfold aux_enough in *. rewrite SK, FL, AX. intros K U. apply Au; [exact K|]. rewrite <- (UE K DN). exact U.
Qed.
