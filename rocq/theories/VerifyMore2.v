(** More consequences: exact results for acceptable messages, uninitialised
    variables, NULL buffers, returned buffers, message ends, tags, collisions. *)
From Verif Require Import Base Const QEnc QDec Crypto Util ShortCircuit Params Verify Spec SignSpec.
From Verif Require Import BaseFacts UtilFacts SignFacts SignProofs SignMore SignMore3.
From Verif Require Import DecSpec DecFacts DecSkip DecCtx ParamFacts DecSim VerifyDec BucketFacts LabelFacts VerifySafe VerifyFacts VerifyCheck Unique VerifyTop VerifyMore VerifySpec.
From Coq Require Import Lia ZifyBool ZifyNat ZifyN.
Ltac Zify.zify_post_hook ::= Z.div_mod_to_equations.
Open Scope N_scope. Open Scope list_scope.
Local Strategy 100 [create_tbs create_tbs_hash verify_decode].

(** ** An acceptable message: only the signature is left to decide *)

Theorem verify_core_eq c cr junk me msg aad payload want dc gv g pm p pl :
  length (v_tags me) = 4%nat -> detached_arg dc payload gv -> message msg g pm ->
  acceptable c (v_flags me) dc gv g pm p pl ->
  exists pay, holds pay pl /\ (dc = false -> pay = UBuf pl) /\
    verify_internal c cr junk me msg aad payload want dc =
    mbind (check_core c cr (v_set_tags me (pad4 (returned (g_tags g)))) p (g_sig g) (UBuf (g_prot g)) aad pay)
      (fun '(err, me') =>
         mret (if terr_eqb err T_SUCCESS
               then {| w_err := err; w_ctx := me';
                       w_payload := match payload with Some _ => if dc then None else Some (UBuf pl) | None => None end;
                       w_params := if want then Some p else None |}
               else {| w_err := err; w_ctx := me'; w_payload := None; w_params := None |})).
Proof.
  intros Hv HG Hm [A1 A2 A3 (ci & ct & A4 & A5) A6 A7 A8].
  set (me1 := v_set_tags me (pad4 (returned (g_tags g)))).
  assert (M : exists m, decodes c me payload dc g pm m me1 /\ m_params m = p /\ holds (m_payload m) pl /\ m_crit m = ll_of ci ct /\
               (dc = false -> m_payload m = UBuf pl)).
  { unfold payload_is in A7. destruct dc.
    - destruct (HG eq_refl) as (u & -> & Hu). destruct A7 as (P1 & P2 & ->).
      exists {| m_params := p; m_prot := UBuf (g_prot g); m_payload := u; m_sig := g_sig g; m_crit := ll_of ci ct;
                m_unknown := ll_of (nonzero (int_labels (all_params g pm))) (text_labels (all_params g pm)) |}.
      split; [|split; [reflexivity|split; [exact Hu|split; [reflexivity|discriminate]]]].
      constructor; auto. split; [exact A3|]. exists ci, ct. auto.
    - exists {| m_params := p; m_prot := UBuf (g_prot g); m_payload := UBuf pl; m_sig := g_sig g; m_crit := ll_of ci ct;
                m_unknown := ll_of (nonzero (int_labels (all_params g pm))) (text_labels (all_params g pm)) |}.
      split; [|split; [reflexivity|split; [now left|split; [reflexivity|auto]]]].
      constructor; auto; [|eauto]. split; [exact A3|]. exists ci, ct. auto. }
  destruct M as (m & Hd & Ep & HH & Ec & HU).
  assert (D : verify_decode c junk me msg payload dc = Ret (DOk m, me1)) by (apply decode_iff; [exact Hv|eauto]).
  assert (CE := check_eq c cr me1 g pm m aad ci ct (dc_params _ _ _ _ _ _ _ _ Hd) A4 Ec A6 (dc_unknown _ _ _ _ _ _ _ _ Hd)).
  rewrite (dc_prot _ _ _ _ _ _ _ _ Hd), (dc_sig _ _ _ _ _ _ _ _ Hd), Ep in CE. change (v_flags me1) with (v_flags me) in CE.
  assert (K : requires_kid (v_flags me) && u_is_null (p_kid p) = false).
  { destruct (requires_kid (v_flags me)) eqn:K; [|reflexivity]. specialize (A8 K).
    destruct (u_is_null (p_kid p)) eqn:N; [|reflexivity]. exfalso. apply A8. now apply (kid_null_iff _ _ _ _ A2). }
  assert (C : negb (allows_unknown_crit (v_flags me)) && crit_hit ci ct (all_params g pm) = false).
  { destruct A5 as [->|A5]; [reflexivity|]. apply crit_hit_iff in A5. rewrite A5. apply andb_false_r. }
  rewrite K, C in CE.
  exists (m_payload m). split; [exact HH|]. split; [exact HU|].
  unfold verify_internal. rewrite D. unfold mlift. cbn [mbind app]. rewrite CE, Ep.
  destruct (check_core c cr me1 p (g_sig g) (UBuf (g_prot g)) aad (m_payload m)) as [l [[err me2]|w]]; cbn [mbind]; [|reflexivity].
  destruct (terr_eqb err T_SUCCESS); unfold mret; [|reflexivity]. do 3 f_equal.
  destruct payload; [|reflexivity]. destruct dc; [reflexivity|]. now rewrite HU.
Qed.

(** The auxiliary buffer for EdDSA. *)
Theorem verify_eddsa_aux c cr junk me msg aad payload want dc gv g pm p pl ad :
  length (v_tags me) = 4%nat -> holds aad ad -> detached_arg dc payload gv -> message msg g pm ->
  acceptable c (v_flags me) dc gv g pm p pl -> short_circuit_kid c p = false -> uses_eddsa c p = true ->
  exists w log, verify_internal c cr junk me msg aad payload want dc = (log, w) /\
  let tbs := sig_structure (g_prot g) ad pl in
  if wb_len (v_aux me) <? blen tbs then
    log = [] /\ exists w', w = Ret w' /\ w_err w' = ERR_AUXILIARY_BUFFER_SIZE /\
      verify_auxiliary_buffer_size c (w_ctx w') = verify_auxiliary_buffer_size c me
  else if decode_only (v_flags me) then
    log = [] /\ exists w', w = Ret w' /\ w_err w' = T_SUCCESS /\ verify_auxiliary_buffer_size c (w_ctx w') = blen tbs
  else if wb_null (v_aux me) then
    log = [] /\ exists w', w = Ret w' /\ w_err w' = ERR_NEED_AUXILIARY_BUFFER /\ verify_auxiliary_buffer_size c (w_ctx w') = blen tbs
  else
    log = [EvVerifyEddsa (v_key me) (p_kid p) tbs (g_sig g)] /\
    match cr_verify_eddsa cr (v_key me) (p_kid p) tbs (g_sig g) with
    | Ret e => exists w', w = Ret w' /\ w_err w' = e /\ verify_auxiliary_buffer_size c (w_ctx w') = blen tbs
    | UB u => w = UB u
    end.
Proof.
  intros Hv HA HG Hm Ac S U.
  destruct (verify_core_eq c cr junk me msg aad payload want dc gv g pm p pl Hv HG Hm Ac) as (pay & HH & _ & E).
  rewrite E. unfold check_core. rewrite S, U.
  assert (DE : dis_eddsa c = false) by (unfold uses_eddsa in U; destruct (dis_eddsa c); [discriminate|reflexivity]).
  unfold verify_auxiliary_buffer_size. rewrite DE.
  unfold sign1_verify_eddsa. rewrite (create_tbs_holds _ _ _ (g_prot g) ad pl); auto; [|now left].
  cbv zeta. cbn [v_set_tags v_aux]. set (tbs := sig_structure (g_prot g) ad pl).
  do 2 eexists. split; [apply surjective_pairing|].
  destruct (N.ltb_spec (wb_len (v_aux me)) (blen tbs)) as [L|L].
  { replace (blen tbs <=? wb_len (v_aux me)) with false by lia. split; [reflexivity|]. eexists. split; [reflexivity|]. split; reflexivity. }
  replace (blen tbs <=? wb_len (v_aux me)) with true by lia. cbn [terr_eqb negb v_set_aux_size v_flags v_aux v_key v_set_tags].
  rewrite flag_do.
  assert (UL : u_len (if wb_null (v_aux me) then UNull (blen tbs) else UBuf tbs) = blen tbs) by (destruct (wb_null _); reflexivity).
  rewrite UL.
  destruct (decode_only (v_flags me)).
  { split; [reflexivity|]. eexists. split; [reflexivity|]. split; reflexivity. }
  destruct (wb_null (v_aux me)).
  { split; [reflexivity|]. eexists. split; [reflexivity|]. split; reflexivity. }
  cbn [u_data]. unfold mlog. destruct (cr_verify_eddsa cr (v_key me) (p_kid p) tbs (g_sig g)) as [e|u]; cbn [mbind mret app fst snd].
  - split; [reflexivity|]. eexists. split; [reflexivity|]. destruct (terr_eqb e T_SUCCESS); split; reflexivity.
  - split; reflexivity.
Qed.

(** Short-circuit messages where they are not allowed. *)
Theorem verify_sc_refused c cr junk me msg aad payload want dc gv g pm p pl :
  length (v_tags me) = 4%nat -> detached_arg dc payload gv -> message msg g pm ->
  acceptable c (v_flags me) dc gv g pm p pl -> short_circuit_kid c p = true ->
  allows_short_circuit (v_flags me) = false -> decode_only (v_flags me) = false ->
  exists w, verify_internal c cr junk me msg aad payload want dc = ([], Ret w) /\ w_err w = ERR_SHORT_CIRCUIT_SIG.
Proof.
  intros Hv HG Hm Ac S N D.
  destruct (verify_core_eq c cr junk me msg aad payload want dc gv g pm p pl Hv HG Hm Ac) as (pay & HH & _ & E).
  rewrite E. unfold check_core. rewrite S. unfold sign1_verify_short_circuit. cbn [v_set_tags v_flags]. rewrite flag_do, flag_sc, D, N.
  eexists. split; reflexivity.
Qed.

(** On success the back end was asked, and said yes. *)
Theorem verify_asked c cr junk me msg aad payload want dc log w ad gv :
  length (v_tags me) = 4%nat -> holds aad ad -> detached_arg dc payload gv ->
  verify_internal c cr junk me msg aad payload want dc = (log, Ret w) -> w_err w = T_SUCCESS ->
  decode_only (v_flags me) = false ->
  exists g pm p pl, message msg g pm /\ acceptable c (v_flags me) dc gv g pm p pl /\ delivered me payload want dc p pl w /\
  let tbs := sig_structure (g_prot g) ad pl in
  if short_circuit_kid c p then
    allows_short_circuit (v_flags me) = true /\ hashed log = tbs /\
    exists halg d rest, hash_for (p_alg p) = Some halg /\ enabled c (p_alg p) /\ digest_of cr halg tbs d /\ g_sig g = d ++ rest
  else if uses_eddsa c p then
    log = [EvVerifyEddsa (v_key me) (p_kid p) tbs (g_sig g)] /\
    cr_verify_eddsa cr (v_key me) (p_kid p) tbs (g_sig g) = Ret T_SUCCESS
  else
    hashed log = tbs /\
    exists halg d, hash_for (p_alg p) = Some halg /\ enabled c (p_alg p) /\ digest_of cr halg tbs d /\
      In (EvVerify (p_alg p) (v_key me) (p_kid p) d (g_sig g)) log /\
      cr_verify cr (p_alg p) (v_key me) (p_kid p) d (g_sig g) = Ret T_SUCCESS.
Proof.
  intros Hv HA HG H Hw D.
  destruct (verify_inv _ _ _ _ _ _ _ _ _ _ _ _ _ Hv HA HG H Hw) as (g & pm & m & me1 & pl & Hm & Hd & HP & HH & Ac & De & Co).
  exists g, pm, (m_params m), pl. split; [exact Hm|]. split; [exact Ac|]. split; [exact De|]. cbv zeta.
  rewrite (dc_ctx _ _ _ _ _ _ _ _ Hd) in Co. set (me2 := v_set_tags me _) in Co. set (p := m_params m) in *.
  pose proof (core_success _ _ _ _ _ _ ad pl aad _ HA HH _ _ Co D) as Acc.
  pose proof (core_events _ _ _ _ _ _ ad pl aad _ HA HH _ _ Co) as (_ & Ev & _).
  unfold accepted in Acc. unfold check_core in Co.
  destruct (short_circuit_kid c p); [|destruct (uses_eddsa c p)].
  - destruct Acc as (A1 & A2). change (allows_short_circuit (v_flags me) = true) in A1. split; [exact A1|]. split; [|exact A2]. apply Ev.
    apply mbind_ret_inv in Co as (l1 & e & l2 & Co & H2 & ->). injection H2 as <- -> _.
    unfold sign1_verify_short_circuit in Co. change (v_flags me2) with (v_flags me) in Co. rewrite flag_do, D, flag_sc, A1 in Co. cbn [negb] in Co.
    apply mbind_ret_inv in Co as (l3 & [e h] & l4 & H3 & H4 & ->).
    destruct (terr_eqb e T_SUCCESS) eqn:T; cbn [negb] in H4; [|injection H4 as _ ->; discriminate].
    apply terr_eqb_eq in T. subst e. apply create_tbs_hash_log in H3 as (halg & h0 & h1 & _ & _ & _ & _ & _ & ->).
    rewrite !in_app_iff. left. left. right. apply in_or_app. right. left. reflexivity.
  - split; [|exact Acc].
    unfold sign1_verify_eddsa in Co. rewrite (create_tbs_holds _ _ _ (g_prot g) ad pl) in Co; auto; [|now left].
    cbv zeta in Co. destruct (blen _ <=? wb_len (v_aux me2)); [|discriminate].
    cbn [terr_eqb negb me2 v_set_tags v_set_aux_size v_flags v_aux v_key] in Co. rewrite flag_do, D in Co.
    destruct (wb_null (v_aux me)); [discriminate|]. cbn [u_data] in Co. unfold mbind, mlog, mret in Co.
    destruct (cr_verify_eddsa _ _ _ _ _); [|discriminate]. injection Co as <- _ _. reflexivity.
  - apply mbind_ret_inv in Co as (l1 & e & l2 & Co & H2 & ->). injection H2 as <- -> _.
    unfold sign1_verify_default in Co. change (v_flags me2) with (v_flags me) in Co. change (v_key me2) with (v_key me) in Co. rewrite flag_do, D in Co.
    apply mbind_ret_inv in Co as (l3 & [e h] & l4 & H3 & H4 & ->).
    destruct (terr_eqb e T_SUCCESS) eqn:T; cbn [negb] in H4; [|injection H4 as _ ->; discriminate].
    apply terr_eqb_eq in T. subst e. unfold mlog in H4. injection H4 as <- H4.
    pose proof (hash_enabled _ _ _ _ _ _ _ _ _ H3) as En. pose proof H3 as H3'.
    apply (create_tbs_hash_digest _ _ _ _ _ _ (g_prot g) ad pl) in H3 as (halg & Hf & Hdg); auto; [|now left].
    split.
    + apply Ev. apply create_tbs_hash_log in H3' as (halg' & h0 & h1 & _ & _ & _ & _ & _ & ->).
      rewrite !in_app_iff. left. left. right. apply in_or_app. right. left. reflexivity.
    + exists halg, h. repeat split; auto. rewrite !in_app_iff. left. right. left. reflexivity.
Qed.

(** ** The uninitialised protected_parameters variable does not matter *)

Lemma parse_failed c d : d_err d <> QD_SUCCESS -> d_err d <> QD_CALLBACK_FAIL ->
  exists e, e <> T_SUCCESS /\
  forall p crit unk, exists r, parse_cose_header_parameters c d p crit unk = Ret r /\ r_err r = e.
Proof.
  intros N C. exists (if is_not_wf (d_err d) then ERR_CBOR_NOT_WELL_FORMED else ERR_PARAMETER_CBOR).
  split; [destruct (is_not_wf _); discriminate|]. intros p' crit' unk'.
  assert (M : enter_map d = d) by (unfold enter_map, enter_agg; destruct (d_err d); try contradiction; reflexivity).
  assert (G : get_items_in_map header_parameter_callback d header_slots (unk', T_SUCCESS) = Ret (d, header_slots, (unk', T_SUCCESS))).
  { unfold get_items_in_map. destruct (d_err d); try contradiction; reflexivity. }
  unfold parse_cose_header_parameters. rewrite M, G. cbn [obind]. destruct (d_err d); try contradiction; eexists; split; reflexivity.
Qed.

Theorem decode_junk c junk junk' me msg payload dc :
  verify_decode c junk me msg payload dc = verify_decode c junk' me msg payload dc.
Proof.
  unfold verify_decode, enter_array. cbv zeta. change (dec_init msg) with (mkd msg [] []).
  destruct (negb (terr_eqb (decode_error_to_terr (d_err (enter_agg false (mkd msg [] [])))) T_SUCCESS)) eqn:T0; [reflexivity|].
  assert (E0 : d_err (enter_agg false (mkd msg [] [])) = QD_SUCCESS).
  { apply terr_success. apply terr_eqb_eq. now destruct (terr_eqb _ _). }
  destruct (enter_agg_inv false [] msg [] eq_refl E0) as (hb & ts & cnt & s & -> & Hh & Ha & Hb & Hd & Ht & ->).
  cbn [dec_level]. destruct (process_tags _ _) as [[err me1]|w]; cbn [obind]; [|reflexivity].
  destruct (negb (terr_eqb err T_SUCCESS)); [reflexivity|].
  assert (H0 : outer cnt s (mkd s [LvAgg false cnt cnt s] (rev ts))) by (unfold outer; eauto).
  pose proof (enter_bstr_err _ _ _ H0) as CF.
  pose proof (enter_bstr_outer _ _ _ H0) as OK.
  destruct (enter_bstr_wrapped _) as [d1 [u|]]; [reflexivity|]. cbn [fst] in CF, OK.
  assert (NS : d_err d1 <> QD_SUCCESS).
  { intro X. destruct (OK X) as (? & ? & ? & ? & X2). discriminate. }
  destruct (parse_failed c d1 NS CF) as (e & Ne & PF).
  assert (EX : exit_bstr_wrapped d1 = d1) by (unfold exit_bstr_wrapped; destruct (d_err d1); try contradiction; reflexivity).
  assert (All : forall j : ubufc, obind (if negb (u_len j =? 0)
        then parse_cose_header_parameters c d1 clear_params (Some clear_label_list) clear_label_list
        else Ret {| r_err := T_SUCCESS; r_d := d1; r_params := clear_params; r_crit := Some clear_label_list; r_unknown := clear_label_list |})
      (fun r1 => if negb (terr_eqb (r_err r1) T_SUCCESS) then Ret (DErr (r_err r1), me1)
        else obind (parse_cose_header_parameters c (exit_bstr_wrapped (r_d r1)) (r_params r1) None (r_unknown r1))
          (fun r2 => if negb (terr_eqb (r_err r2) T_SUCCESS) then Ret (DErr (r_err r2), me1)
             else obind
               (if dc then match payload with None => UB NullDeref | Some pl =>
                   match get_next (r_d r2) with (_, it, d') => Ret (match i_val it with VNullV => false | _ => true end, d', Some pl) end end
                else let (d', o) := get_byte_string (r_d r2) in Ret (false, d', o))
               (fun '(bad, d, opay) => if bad : bool then Ret (DErr ERR_CBOR_FORMATTING, me1)
                  else let (d, osig) := get_byte_string d in
                    if negb (terr_eqb (decode_error_to_terr (dec_finish (exit_array d))) T_SUCCESS)
                    then Ret (DErr (decode_error_to_terr (dec_finish (exit_array d))), me1)
                    else obind (need opay) (fun pay => obind (need osig) (fun sig => obind (need (r_crit r1)) (fun crit =>
                       Ret (DOk {| m_params := r_params r2; m_prot := j; m_payload := pay; m_sig := u_data sig; m_crit := crit; m_unknown := r_unknown r2 |}, me1)))))))
    = Ret (DErr e, me1)).
  { intro j. assert (Te : negb (terr_eqb e T_SUCCESS) = true) by (destruct e; try contradiction; reflexivity).
    destruct (negb (u_len j =? 0)).
    - destruct (PF clear_params (Some clear_label_list) clear_label_list) as (r & -> & <-). cbn [obind]. rewrite Te. reflexivity.
    - cbn [obind r_err terr_eqb negb r_d r_params r_unknown]. rewrite EX.
      destruct (PF clear_params None clear_label_list) as (r & -> & <-). cbn [obind]. rewrite Te. reflexivity. }
  transitivity (@Ret (dres * vctx) (DErr e, me1)); [|symmetry]; [exact (All junk)|exact (All junk')].
Qed.

Theorem verify_junk c cr junk junk' me msg aad payload want dc :
  verify_internal c cr junk me msg aad payload want dc = verify_internal c cr junk' me msg aad payload want dc.
Proof. unfold verify_internal. now rewrite (decode_junk c junk junk'). Qed.
