(** What a verification call does, from the message bytes on. *)
From Verif Require Import Base Const QEnc QDec Crypto Util ShortCircuit Params Verify Spec SignSpec.
From Verif Require Import BaseFacts UtilFacts SignProofs SignMore SignMore3.
From Verif Require Import DecSpec VerifySpec LabelFacts VerifySafe VerifyFacts VerifyCheck Unique Parts.
From Coq Require Import Lia ZifyBool ZifyNat ZifyN.
Ltac Zify.zify_post_hook ::= Z.div_mod_to_equations.
Open Scope N_scope. Open Scope list_scope.
Local Strategy 100 [create_tbs create_tbs_hash verify_decode].

(** The arguments of a call are as the API wants them: the context has its array
    of four tags (verify_init makes it, every call keeps it), [aad] holds [ad], and
    for detached content the payload pointer is valid and the payload is [gv]. *)
Definition call_ok (me : vctx) (aad : ubufc) (ad : bytes) (dc : bool) (payload : option ubufc) (gv : bytes) : Prop :=
  length (v_tags me) = 4%nat /\ holds aad ad /\ detached_arg dc payload gv.

(** The call returns success and [w], whatever is in uninitialised variables. *)
Definition succeeds (c : cfg) (cr : crypto) (me : vctx) (msg : bytes) (aad : ubufc) (payload : option ubufc)
           (want dc : bool) (log : list event) (w : vres) : Prop :=
  (forall junk, verify_internal c cr junk me msg aad payload want dc = (log, Ret w)) /\ w_err w = T_SUCCESS.

(** What is delivered on success. *)
Definition delivered (me : vctx) (payload : option ubufc) (want dc : bool) (p : params) (pl : bytes) (w : vres) : Prop :=
  w_err w = T_SUCCESS /\
  w_params w = (if want then Some p else None) /\
  w_payload w = match payload with Some _ => if dc then None else Some (UBuf pl) | None => None end.

Lemma kid_null_iff c g pm p : reported c g pm p -> u_is_null (p_kid p) = true <-> p_kid p = UNull 0.
Proof.
  intros [_ _ K _ _ _]. destruct K as [[_ ->]|(v & b & _ & _ & _ & ->)]; split; (reflexivity || discriminate).
Qed.

Lemma decodes_payload c me given dc g pm m me' gv :
  decodes c me given dc g pm m me' -> detached_arg dc given gv ->
  exists pl, payload_is g dc gv pl /\ holds (m_payload m) pl /\
    (dc = false -> m_payload m = UBuf pl).
Proof.
  intros [_ _ _ _ _ _ _ _ H] G. unfold payload_is. destruct dc.
  - destruct H as (H1 & H2 & H3). destruct (G eq_refl) as (u & E & Hu). exists gv. split; [auto|]. split; [congruence|discriminate].
  - destruct H as (b & H1 & H2). exists b. rewrite H2. split; [exact H1|]. split; [now left|auto].
Qed.

Lemma neq_guard e : negb (terr_eqb e T_SUCCESS) = true -> e <> T_SUCCESS.
Proof. intros H ->. discriminate. Qed.

Lemma decode_no_success c junk me msg payload dc me' :
  verify_decode c junk me msg payload dc <> Ret (DErr T_SUCCESS, me').
Proof.
  unfold verify_decode. cbv zeta. intro H.
  destruct (negb (terr_eqb (decode_error_to_terr (d_err (enter_array (dec_init msg)))) T_SUCCESS)) eqn:E0.
  { injection H as H _. now apply neq_guard in E0. }
  apply obind_ret_inv in H as ([e me1] & _ & H). destruct (negb (terr_eqb e T_SUCCESS)) eqn:E1.
  { injection H as H _. now apply neq_guard in E1. }
  destruct (enter_bstr_wrapped _) as [d1 oprot].
  apply obind_ret_inv in H as (r1 & _ & H). destruct (negb (terr_eqb (r_err r1) T_SUCCESS)) eqn:E2.
  { injection H as H _. now apply neq_guard in E2. }
  apply obind_ret_inv in H as (r2 & _ & H). destruct (negb (terr_eqb (r_err r2) T_SUCCESS)) eqn:E3.
  { injection H as H _. now apply neq_guard in E3. }
  apply obind_ret_inv in H as ([[bad d2] opay] & _ & H). destruct bad; [discriminate|].
  destruct (get_byte_string d2) as [d3 osig].
  destruct (negb (terr_eqb (decode_error_to_terr (dec_finish (exit_array d3))) T_SUCCESS)) eqn:E4.
  { injection H as H _. now apply neq_guard in E4. }
  apply obind_ret_inv in H as (pay & _ & H). apply obind_ret_inv in H as (sig & _ & H).
  apply obind_ret_inv in H as (crit & _ & H). discriminate.
Qed.

(** Splitting a successful call. *)
Lemma verify_inv c cr junk me msg aad payload want dc log w ad gv :
  length (v_tags me) = 4%nat -> holds aad ad -> detached_arg dc payload gv ->
  verify_internal c cr junk me msg aad payload want dc = (log, Ret w) -> w_err w = T_SUCCESS ->
  exists g pm m me1 pl, message msg g pm /\ decodes c me payload dc g pm m me1 /\ payload_is g dc gv pl /\
    holds (m_payload m) pl /\ acceptable c (v_flags me) dc gv g pm (m_params m) pl /\
    delivered me payload want dc (m_params m) pl w /\
    check_core c cr me1 (m_params m) (g_sig g) (UBuf (g_prot g)) aad (m_payload m) = (log, Ret (T_SUCCESS, w_ctx w)).
Proof.
  intros Hv HA HG H Hw. unfold verify_internal in H.
  apply mbind_ret_inv in H as (l1 & [r me1] & l2 & H1 & H2 & ->). unfold mlift in H1. injection H1 as <- H1.
  destruct r as [e|m]; [injection H2 as <- <-; cbn [w_err] in Hw; subst e|].
  { exfalso. clear - H1. now apply decode_no_success in H1. }
  apply decode_iff in H1 as (g & pm & Hm & Hd); [|exact Hv].
  apply mbind_ret_inv in H2 as (l3 & [err me2] & l4 & H3 & H4 & ->).
  destruct (decodes_payload _ _ _ _ _ _ _ _ _ Hd HG) as (pl & HP & HH & HU).
  destruct Hd as [D1 D2 D3 D4 D5 D6 D7 D8 D9] eqn:EHd. clear EHd.
  destruct D4 as (D4 & ci & ct & D4c & D4m).
  pose proof (check_eq c cr me1 g pm m aad ci ct D3 D4c D4m D5 D6) as CE. rewrite CE in H3.
  assert (Fl : v_flags me1 = v_flags me) by (subst me1; reflexivity). rewrite Fl in H3.
  destruct (terr_eqb err T_SUCCESS) eqn:T; [|injection H4 as <- <-; cbn [w_err] in Hw; subst err; discriminate].
  apply terr_eqb_eq in T. subst err. injection H4 as <- <-.
  destruct (requires_kid (v_flags me) && u_is_null (p_kid (m_params m))) eqn:K; [discriminate|].
  destruct (negb (allows_unknown_crit (v_flags me)) && crit_hit ci ct (all_params g pm)) eqn:C; [discriminate|].
  exists g, pm, m, me1, pl. split; [exact Hm|]. split; [exact Hd|]. split; [exact HP|]. split; [exact HH|].
  split; [|split].
  - constructor; auto.
    + exists ci, ct. split; [exact D4c|]. unfold crit_ok.
      destruct (allows_unknown_crit (v_flags me)); [now left|]. right. now apply crit_hit_iff.
    + intros R E. rewrite R, E in K. discriminate.
  - split; [reflexivity|]. split; [reflexivity|]. cbn [w_payload]. destruct payload; [|reflexivity]. destruct dc; [reflexivity|].
    now rewrite HU.
  - cbn [w_ctx app]. rewrite app_nil_r. rewrite <- D7, <- D8. exact H3.
Qed.

(** ** Soundness *)

Theorem verify_sound c cr junk me msg aad payload want dc log w ad gv :
  length (v_tags me) = 4%nat -> holds aad ad -> detached_arg dc payload gv ->
  verify_internal c cr junk me msg aad payload want dc = (log, Ret w) -> w_err w = T_SUCCESS ->
  exists g pm p pl, message msg g pm /\ acceptable c (v_flags me) dc gv g pm p pl /\
    delivered me payload want dc p pl w /\
    (decode_only (v_flags me) = false ->
     accepted c cr (v_flags me) (v_key me) p (sig_structure (g_prot g) ad pl) (g_sig g)).
Proof.
  intros Hv HA HG H Hw.
  destruct (verify_inv _ _ _ _ _ _ _ _ _ _ _ _ _ Hv HA HG H Hw) as (g & pm & m & me1 & pl & Hm & Hd & HP & HH & Ac & De & Co).
  exists g, pm, (m_params m), pl. split; [exact Hm|]. split; [exact Ac|]. split; [exact De|]. intro Dn.
  rewrite (dc_ctx _ _ _ _ _ _ _ _ Hd) in Co.
  apply (core_success _ _ _ _ _ _ ad pl aad _ HA HH) in Co; [|exact Dn]. exact Co.
Qed.

(** Everything asked of the adapter concerns this message, whether or not it
    verifies. *)
Theorem verify_calls c cr junk me msg aad payload want dc log r ad gv :
  length (v_tags me) = 4%nat -> holds aad ad -> detached_arg dc payload gv ->
  verify_internal c cr junk me msg aad payload want dc = (log, r) ->
  log = [] \/
  decode_only (v_flags me) = false /\
  exists g pm p pl, message msg g pm /\ acceptable c (v_flags me) dc gv g pm p pl /\
    (short_circuit_kid c p = true -> allows_short_circuit (v_flags me) = true) /\
    (forall e, In e log -> verify_event_ok cr (v_key me) p (sig_structure (g_prot g) ad pl) (g_sig g) e) /\
    (In EvHashFinish log -> hashed log = sig_structure (g_prot g) ad pl).
Proof.
  intros Hv HA HG H. unfold verify_internal in H.
  destruct (verify_decode c junk me msg payload dc) as [[[e|m] me1]|wh] eqn:HD.
  - left. injection H as <- _. reflexivity.
  - apply decode_iff in HD as (g & pm & Hm & Hd); [|exact Hv].
    destruct (decodes_payload _ _ _ _ _ _ _ _ _ Hd HG) as (pl & HP & HH & HU).
    destruct (dc_crit _ _ _ _ _ _ _ _ Hd) as (D4 & ci & ct & D4c & D4m).
    pose proof (dc_params _ _ _ _ _ _ _ _ Hd) as D3. pose proof (dc_labels _ _ _ _ _ _ _ _ Hd) as D5.
    pose proof (check_eq c cr me1 g pm m aad ci ct D3 D4c D4m D5 (dc_unknown _ _ _ _ _ _ _ _ Hd)) as CE.
    rewrite (dc_prot _ _ _ _ _ _ _ _ Hd), (dc_sig _ _ _ _ _ _ _ _ Hd) in CE.
    assert (Me : v_flags me1 = v_flags me /\ v_key me1 = v_key me) by (rewrite (dc_ctx _ _ _ _ _ _ _ _ Hd); auto).
    destruct Me as [Fl Ky]. rewrite Fl in CE.
    assert (L : log = fst (verify_check c cr me1 m aad)).
    { cbn [mbind mlift] in H. unfold mbind at 1 in H. cbn [app] in H.
      destruct (verify_check c cr me1 m aad) as [l [[err me2]|]]; cbn [mbind fst] in *.
      - destruct (terr_eqb err T_SUCCESS); unfold mret in H; injection H as <- _; now rewrite app_nil_r.
      - now injection H. }
    rewrite CE in L.
    destruct (requires_kid (v_flags me) && _) eqn:K; [now left|].
    destruct (negb (allows_unknown_crit (v_flags me)) && _) eqn:C; [now left|].
    destruct (check_core _ _ _ _ _ _ _ _) as [l r1] eqn:Co. cbn [fst] in L. subst l.
    destruct log as [|e0 log0]; [now left|]. right.
    pose proof (core_events _ _ _ _ _ _ ad pl aad _ HA HH _ _ Co) as (E1 & E2 & E3). rewrite Fl in E3. rewrite Ky in E1.
    split; [destruct (decode_only (v_flags me)); [now specialize (E3 eq_refl)|reflexivity]|].
    exists g, pm, (m_params m), pl. split; [exact Hm|]. split; [|split; [|split; assumption]].
    + constructor; auto.
      * apply (dc_tag _ _ _ _ _ _ _ _ Hd).
      * exists ci, ct. split; [exact D4c|]. unfold crit_ok.
        destruct (allows_unknown_crit (v_flags me)); [now left|]. right. now apply crit_hit_iff.
      * intros R E. rewrite R, E in K. discriminate.
    + intro Sk. unfold check_core in Co. rewrite Sk in Co. unfold sign1_verify_short_circuit in Co.
      rewrite flag_do, flag_sc, Fl in Co. destruct (decode_only (v_flags me)); [discriminate|].
      destruct (allows_short_circuit (v_flags me)); [reflexivity|discriminate].
  - left. injection H as <- _. reflexivity.
Qed.

(** The message is accepted exactly on its own terms. *)
Theorem verify_sound_message c cr junk me msg aad payload want dc log w ad gv g pm :
  length (v_tags me) = 4%nat -> holds aad ad -> detached_arg dc payload gv -> message msg g pm ->
  verify_internal c cr junk me msg aad payload want dc = (log, Ret w) -> w_err w = T_SUCCESS ->
  exists p pl, acceptable c (v_flags me) dc gv g pm p pl /\ delivered me payload want dc p pl w /\
    (decode_only (v_flags me) = false ->
     accepted c cr (v_flags me) (v_key me) p (sig_structure (g_prot g) ad pl) (g_sig g)).
Proof.
  intros Hv HA HG Hm H Hw. destruct (verify_sound _ _ _ _ _ _ _ _ _ _ _ _ _ Hv HA HG H Hw) as (g' & pm' & p & pl & Hm' & R).
  destruct (message_unique _ _ _ _ _ Hm Hm') as [<- <-]. eauto.
Qed.

(** ** Completeness *)

(** Enough auxiliary buffer for a message that needs one. *)
Definition aux_enough (c : cfg) (me : vctx) (p : params) (tbs : bytes) : Prop :=
  short_circuit_kid c p = false -> uses_eddsa c p = true ->
  blen tbs <= wb_len (v_aux me) /\ (decode_only (v_flags me) = false -> wb_null (v_aux me) = false).

Theorem verify_complete c cr junk me msg aad payload want dc ad gv g pm p pl :
  length (v_tags me) = 4%nat -> holds aad ad -> detached_arg dc payload gv -> message msg g pm ->
  acceptable c (v_flags me) dc gv g pm p pl ->
  (decode_only (v_flags me) = false ->
   accepted c cr (v_flags me) (v_key me) p (sig_structure (g_prot g) ad pl) (g_sig g) /\ one_digest cr /\ hash_reliable c cr [g_prot g; ad; pl]) ->
  aux_enough c me p (sig_structure (g_prot g) ad pl) ->
  exists log w, verify_internal c cr junk me msg aad payload want dc = (log, Ret w) /\
    delivered me payload want dc p pl w.
Proof.
  intros Hv HA HG Hm [A1 A2 A3 (ci & ct & A4 & A5) A6 A7 A8] HC HX.
  set (me1 := v_set_tags me (pad4 (returned (g_tags g)))).
  assert (M : exists m, decodes c me payload dc g pm m me1 /\ m_params m = p /\ holds (m_payload m) pl /\ m_crit m = ll_of ci ct /\
               (dc = false -> m_payload m = UBuf pl)).
  { unfold payload_is in A7. destruct dc.
    - destruct (HG eq_refl) as (u & -> & Hu). destruct A7 as (P1 & P2 & ->).
      exists {| m_params := p; m_prot := UBuf (g_prot g); m_payload := u; m_sig := g_sig g; m_crit := ll_of ci ct;
                m_unknown := ll_of (nonzero (int_labels (all_params g pm))) (text_labels (all_params g pm)) |}.
      split; [|split; [reflexivity|split; [exact Hu|split; [reflexivity|discriminate]]]].
      constructor; auto. split; [exact A3|]. exists ci, ct. auto.
    - exists {| m_params := p; m_prot := UBuf (g_prot g); m_payload := UBuf pl; m_sig := g_sig g; m_crit := ll_of ci ct;
                m_unknown := ll_of (nonzero (int_labels (all_params g pm))) (text_labels (all_params g pm)) |}.
      split; [|split; [reflexivity|split; [now left|split; [reflexivity|auto]]]].
      constructor; auto; [|eauto]. split; [exact A3|]. exists ci, ct. auto. }
  destruct M as (m & Hd & Ep & HH & Ec & HU).
  assert (D : verify_decode c junk me msg payload dc = Ret (DOk m, me1)) by (apply decode_iff; [exact Hv|eauto]).
  assert (CE := check_eq c cr me1 g pm m aad ci ct (dc_params _ _ _ _ _ _ _ _ Hd) A4 Ec A6 (dc_unknown _ _ _ _ _ _ _ _ Hd)).
  rewrite (dc_prot _ _ _ _ _ _ _ _ Hd), (dc_sig _ _ _ _ _ _ _ _ Hd), Ep in CE. cbn [v_flags me1 v_set_tags] in CE.
  assert (K : requires_kid (v_flags me) && u_is_null (p_kid p) = false).
  { destruct (requires_kid (v_flags me)) eqn:K; [|reflexivity]. specialize (A8 K).
    destruct (u_is_null (p_kid p)) eqn:N; [|reflexivity]. exfalso. apply A8. now apply (kid_null_iff _ _ _ _ A2). }
  assert (C : negb (allows_unknown_crit (v_flags me)) && crit_hit ci ct (all_params g pm) = false).
  { destruct A5 as [->|A5]; [reflexivity|]. apply crit_hit_iff in A5. rewrite A5. apply andb_false_r. }
  rewrite K, C in CE.
  assert (Co : exists log me', check_core c cr me1 p (g_sig g) (UBuf (g_prot g)) aad (m_payload m) = (log, Ret (T_SUCCESS, me'))).
  { destruct (decode_only (v_flags me)) eqn:Dn.
    - destruct (core_decode_only c cr me1 p (g_sig g) (g_prot g) ad pl aad (m_payload m) HA HH Dn) as (me' & X & _).
      rewrite X. exists [], me'. unfold mret. do 3 f_equal.
      destruct (short_circuit_kid c p) eqn:Sk; [reflexivity|]. destruct (uses_eddsa c p) eqn:Ed; [|reflexivity].
      destruct (HX Sk Ed) as [L _]. cbn [negb andb]. replace (_ <=? _) with true by (symmetry; apply N.leb_le; exact L). reflexivity.
    - destruct (HC eq_refl) as (Ac & One & HR).
      apply (core_complete c cr me1 p (g_sig g) (g_prot g) ad pl aad (m_payload m) HA HH Ac One HR).
      intros S E. destruct (HX S E) as [L W]. split; [exact L|]. intros _. apply W, Dn. }
  destruct Co as (log & me' & Co). rewrite Co in CE.
  unfold verify_internal. rewrite D. unfold mlift. cbn [mbind app]. rewrite CE. cbn [mbind]. rewrite terr_eqb_refl.
  unfold mret. do 2 eexists. split; [reflexivity|]. split; [reflexivity|]. cbn [w_params w_payload]. rewrite Ep. split; [reflexivity|].
  destruct payload; [|reflexivity]. destruct dc; [reflexivity|]. now rewrite HU.
Qed.

(** ** No undefined behaviour *)

Lemma feed_safe c cr parts halg h l : hashing_safe c cr parts -> cr_hash_start cr halg = (T_SUCCESS, h) -> pieces_within parts l ->
  exists ev h', feed cr h l = (ev, Ret h') /\ is_ret (cr_hash_finish cr h' (max_hash_size c)).
Proof.
  intros A S PW. destruct (A halg h l S PW) as (h' & U & F). pose proof (feed_update_all cr h l) as X. rewrite U in X.
  destruct (feed cr h l) as [ev r]. cbn [snd] in X. subst r. eauto.
Qed.

Lemma hash_safe c cr parts alg prot aad pay : hashing_safe c cr parts -> pieces_within parts (tbs_chunks prot aad pay) ->
  is_ret (snd (create_tbs_hash c cr alg prot aad pay (max_hash_size c))).
Proof.
  intros A PW. rewrite create_tbs_hash_feed. cbv zeta. destruct (_ =? _)%Z; [exact I|].
  unfold mlog at 1. unfold mbind at 1. destruct (cr_hash_start cr _) as [err h] eqn:S.
  destruct (terr_eqb err T_SUCCESS) eqn:T; cbn [negb]; [|exact I]. apply terr_eqb_eq in T. subst err.
  destruct (feed_safe c cr parts _ h (tbs_chunks prot aad pay) A S PW) as (ev & h' & -> & F).
  cbn [mbind]. unfold mlog. cbn [snd]. apply F.
Qed.

Lemma bind_safe {A B} (x : M A) (f : A -> M B) :
  is_ret (snd x) -> (forall a, is_ret (snd (f a))) -> is_ret (snd (mbind x f)).
Proof.
  destruct x as [l [a|w]]; cbn [snd mbind]; [|contradiction]. intros _ H. specialize (H a). destruct (f a). exact H.
Qed.

Lemma core_safe c cr parts me p sig pr aad ad pay pl :
  adapter_safe c cr parts -> blen pr <= longest parts -> blen ad <= longest parts -> blen pl <= longest parts ->
  holds aad ad -> holds pay pl -> is_ret (snd (check_core c cr me p sig (UBuf pr) aad pay)).
Proof.
  intros A L1 L2 L3 HA HP.
  assert (PW : pieces_within parts (tbs_chunks (UBuf pr) aad pay)).
  { apply chunks_within; rewrite ?(holds_len _ _ HA), ?(holds_len _ _ HP); assumption. }
  unfold check_core. destruct (short_circuit_kid c p); [|destruct (uses_eddsa c p)].
  - apply bind_safe; [|intro; exact I]. unfold sign1_verify_short_circuit. destruct (has_flag _ _); [exact I|].
    destruct (negb _); [exact I|]. apply bind_safe; [eapply hash_safe; [apply A|exact PW]|]. intros [e h]. destruct (negb _); [exact I|].
    unfold mlift. cbn [snd]. rewrite sc_verify_eq. exact I.
  - unfold sign1_verify_eddsa. rewrite (create_tbs_holds _ _ _ pr ad pl); auto; [|now left]. cbv zeta.
    destruct (_ <=? _); [|exact I]. cbn [terr_eqb negb]. destruct (has_flag _ _); [exact I|].
    cbn [v_set_aux_size v_aux]. destruct (wb_null (v_aux me)); [exact I|].
    apply bind_safe; [|intro; exact I]. apply A.
  - apply bind_safe; [|intro; exact I]. unfold sign1_verify_default. destruct (has_flag _ _); [exact I|].
    apply bind_safe; [eapply hash_safe; [apply A|exact PW]|]. intros [e h]. destruct (negb _); [exact I|]. apply A.
Qed.

Theorem verify_safe c cr junk me msg aad payload want dc ad gv :
  length (v_tags me) = 4%nat -> holds aad ad -> detached_arg dc payload gv -> adapter_safe c cr [msg; ad; gv] ->
  exists log w, verify_internal c cr junk me msg aad payload want dc = (log, Ret w) /\
    length (v_tags (w_ctx w)) = 4%nat /\ v_key (w_ctx w) = v_key me /\ v_flags (w_ctx w) = v_flags me /\ v_aux (w_ctx w) = v_aux me.
Proof.
  intros Hv HA HG A.
  destruct (decode_ret c junk me msg payload dc Hv) as (r & me1 & D & K).
  { intros E N. destruct (HG E) as (u & X & _). congruence. }
  unfold verify_internal. rewrite D. unfold mlift. cbn [mbind app].
  destruct K as (K1 & K2 & K3 & K4 & _).
  destruct r as [e|m]; [do 2 eexists; split; [reflexivity|]; cbn [w_ctx]; auto|].
  apply decode_iff in D as (g & pm & Hm & Hd); [|exact Hv].
  destruct (decodes_payload _ _ _ _ _ _ _ _ _ Hd HG) as (pl & HP & HH & _).
  destruct (dc_crit _ _ _ _ _ _ _ _ Hd) as (D4 & ci & ct & D4c & D4m).
  assert (CE := check_eq c cr me1 g pm m aad ci ct (dc_params _ _ _ _ _ _ _ _ Hd) D4c D4m (dc_labels _ _ _ _ _ _ _ _ Hd) (dc_unknown _ _ _ _ _ _ _ _ Hd)).
  rewrite (dc_prot _ _ _ _ _ _ _ _ Hd) in CE.
  assert (X : exists l err me2, verify_check c cr me1 m aad = (l, Ret (err, me2)) /\
     length (v_tags me2) = 4%nat /\ v_key me2 = v_key me /\ v_flags me2 = v_flags me /\ v_aux me2 = v_aux me).
  { rewrite CE. destruct (_ && _); [do 3 eexists; split; [reflexivity|]; auto|].
    destruct (_ && _); [do 3 eexists; split; [reflexivity|]; auto|].
    destruct (message_lens _ _ _ Hm) as (M1 & _ & M2). specialize (M2 _ _ _ HP).
    pose proof (longest_in [msg; ad; gv] msg (or_introl eq_refl)) as B1.
    pose proof (longest_in [msg; ad; gv] ad (or_intror (or_introl eq_refl))) as B2.
    pose proof (longest_in [msg; ad; gv] gv (or_intror (or_intror (or_introl eq_refl)))) as B3.
    pose proof (core_safe c cr _ me1 (m_params m) (m_sig m) (g_prot g) aad ad (m_payload m) pl A
      (N.le_trans _ _ _ M1 B1) B2 (N.le_trans _ _ _ M2 (N.max_lub _ _ _ B1 B3)) HA HH) as S.
    destruct (check_core _ _ _ _ _ _ _ _) as [l [[err me2]|w]] eqn:Co; [|contradiction].
    do 3 eexists. split; [reflexivity|].
    apply (core_after _ _ _ _ _ _ ad pl aad _ HA HH) in Co. unfold core_ctx in Co. rewrite Co.
    destruct (_ && _); cbn [v_set_aux_size v_tags v_key v_flags v_aux]; auto. }
  destruct X as (l & err & me2 & -> & X). cbn [mbind]. destruct (terr_eqb err T_SUCCESS); unfold mret; do 2 eexists; (split; [reflexivity|exact X]).
Qed.

(** ** Only the data item and the configuration matter *)

Theorem verify_same_item c cr junk junk' me t msg msg' aad payload want dc :
  reads 0 t msg -> reads 0 t msg' ->
  verify_internal c cr junk me msg aad payload want dc = verify_internal c cr junk' me msg' aad payload want dc.
Proof.
  intros H H'. unfold verify_internal. rewrite (VerifyDec.decode_reads _ _ _ t) by exact H.
  rewrite (VerifyDec.decode_reads _ _ _ t) by exact H'. reflexivity.
Qed.
