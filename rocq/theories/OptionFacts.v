(** Options of verification. *)
From Verif Require Import Base Const QEnc QDec Crypto Util ShortCircuit Params Sign Verify.
From Verif Require Import BaseFacts EncFacts VerifyFacts VerifyCheck VerifyTop VerifySpec OptionSpec.
Open Scope N_scope. Open Scope list_scope.
Local Open Scope mon_scope.
Local Strategy 100 [create_tbs create_tbs_hash verify_decode enter_array dec_init process_tags parse_cose_header_parameters].

Lemma flag_tr f : has_flag f OPT_TAG_REQUIRED = requires_tag f.
Proof. exact (flag_bit f 2). Qed.
Lemma flag_tp f : has_flag f OPT_TAG_PROHIBITED = prohibits_tag f.
Proof. exact (flag_bit f 4). Qed.

Lemma has_less (a b x : bool) : (b = true -> a = true) -> a && x = false -> b && x = false.
Proof. destruct a, b, x; auto; try discriminate. intro H. discriminate (H eq_refl). Qed.

Lemma tags_widen f f' me d me1 : no_stricter f f' -> process_tags (with_options me f) d = Ret (T_SUCCESS, me1) ->
  process_tags (with_options me f') d = Ret (T_SUCCESS, with_options me1 f') /\ v_flags me1 = f /\ v_key me1 = v_key me /\ v_aux me1 = v_aux me /\ v_aux_size me1 = v_aux_size me.
Proof.
  intros (_ & TR & TP & _). unfold process_tags. cbv zeta. cbn [with_options v_flags v_tags].
  rewrite !flag_tr, !flag_tp. set (t := get_nth_tag_of_last d 0).
  destruct (requires_tag f && _) eqn:E1; [discriminate|]. rewrite (has_less _ _ _ TR E1).
  destruct (prohibits_tag f && _) eqn:E2; [discriminate|]. rewrite (has_less _ _ _ TP E2).
  destruct (if negb (t =? TAG_COSE_SIGN1) then _ else _) as [[r tg]|u]; cbn [obind]; [|discriminate].
  destruct (tags_loop _ _ _ _ _) as [[e tg']|u]; cbn [obind]; [|discriminate].
  intro H. injection H as -> <-. repeat split.
Qed.

Lemma decode_widen c junk f f' me msg payload dc m me1 : no_stricter f f' ->
  verify_decode c junk (with_options me f) msg payload dc = Ret (DOk m, me1) ->
  verify_decode c junk (with_options me f') msg payload dc = Ret (DOk m, with_options me1 f') /\
  v_flags me1 = f /\ v_key me1 = v_key me /\ v_aux me1 = v_aux me /\ v_aux_size me1 = v_aux_size me.
Proof.
  intros NS H. unfold verify_decode in *. cbv zeta in *.
  destruct (negb (terr_eqb (decode_error_to_terr (d_err (enter_array (dec_init msg)))) T_SUCCESS)); [discriminate|].
  destruct (process_tags (with_options me f) (enter_array (dec_init msg))) as [[e me2]|u] eqn:PT; cbn [obind] in H; [|discriminate].
  destruct (negb (terr_eqb e T_SUCCESS)) eqn:E; [discriminate|].
  assert (e = T_SUCCESS) as -> by (destruct e; discriminate || reflexivity).
  destruct (tags_widen _ _ _ _ _ NS PT) as (PT' & A). rewrite PT'. cbn [obind terr_eqb negb].
  destruct (enter_bstr_wrapped _) as [d o].
  destruct (if negb (u_len _ =? 0) then _ else _) as [r1|u]; cbn [obind] in *; [|discriminate].
  destruct (negb (terr_eqb (r_err r1) T_SUCCESS)); [discriminate|].
  destruct (parse_cose_header_parameters _ _ _ None _) as [r2|u]; cbn [obind] in *; [|discriminate].
  destruct (negb (terr_eqb (r_err r2) T_SUCCESS)); [discriminate|].
  destruct (if dc then _ else _) as [[[bad d2] opay]|u]; cbn [obind] in *; [|discriminate].
  destruct bad; [discriminate|]. destruct (get_byte_string d2) as [d3 osig].
  destruct (negb (terr_eqb (decode_error_to_terr (dec_finish (exit_array d3))) T_SUCCESS)); [discriminate|].
  destruct opay, osig, (r_crit r1); cbn [need obind] in *; try discriminate.
  injection H as <- <-. split; [reflexivity|exact A].
Qed.

Lemma mbind_ok {A B} (x : M A) (f : A -> M B) l b : mbind x f = (l, Ret b) -> exists l1 a l2, x = (l1, Ret a) /\ f a = (l2, Ret b) /\ l = l1 ++ l2.
Proof. destruct x as [l1 [a|u]]; cbn; [|discriminate]. destruct (f a) as [l2 o] eqn:E. intro H. injection H as <- ->. eauto 6. Qed.

Lemma check_widen c cr f f' me m aad log me1 : no_stricter f f' -> v_flags me = f ->
  verify_check c cr me m aad = (log, Ret (T_SUCCESS, me1)) ->
  verify_check c cr (with_options me f') m aad = (if decode_only f' then [] else log, Ret (T_SUCCESS, with_options me1 f')) /\
  v_tags me1 = v_tags me /\ v_flags me1 = f /\ (decode_only f = true -> log = []).
Proof.
  intros (RK & _ & _ & UC & SC & DO) VF H. unfold verify_check in *. cbv zeta in *. cbn [with_options v_flags].
  rewrite flag_kid, flag_crit, VF in H. rewrite flag_kid, flag_crit.
  destruct (requires_kid f && _) eqn:E1; [discriminate|]. rewrite (has_less _ _ _ RK E1).
  apply mbind_ok in H as (l1 & e & l2 & H1 & H & ->).
  destruct (negb (terr_eqb e T_SUCCESS)) eqn:E2; [injection H as _ -> _; discriminate|].
  assert (e = T_SUCCESS) as -> by (destruct e; discriminate || reflexivity).
  assert (L1 : l1 = [] /\ (if negb (allows_unknown_crit f') then mlift (check_critical_labels (m_crit m) (m_unknown m)) else mret T_SUCCESS) = ([], Ret T_SUCCESS)).
  { destruct (allows_unknown_crit f); cbn [negb] in H1.
    - rewrite (UC eq_refl). cbn [negb]. injection H1 as <-. auto.
    - unfold mlift in H1 |- *. injection H1 as <- H1. rewrite H1. split; [reflexivity|]. destruct (allows_unknown_crit f'); reflexivity. }
  destruct L1 as [-> L1]. rewrite L1. cbn [mbind terr_eqb negb app].
  apply mbind_ok in H as (l3 & sc & l4 & H3 & H & ->).
  assert (l3 = []) as -> by (destruct (dis_short_circuit c); injection H3; auto).
  rewrite H3. cbn [mbind app]. clear L1 E1 E2.
  destruct sc.
  - apply mbind_ok in H as (l5 & e & l6 & H5 & H6 & ->). injection H6 as <- -> <-. rewrite app_nil_r.
    unfold sign1_verify_short_circuit in *. cbn [with_options v_flags]. rewrite flag_do, flag_sc, VF in H5. rewrite flag_do, flag_sc.
    destruct (decode_only f') eqn:D'.
    + split; [reflexivity|]. split; [reflexivity|]. split; [exact VF|]. intro D. rewrite D in H5. now injection H5 as <-.
    + destruct (decode_only f) eqn:D; [discriminate (DO eq_refl)|].
      destruct (allows_short_circuit f) eqn:S; cbn [negb] in H5; [|discriminate]. rewrite (SC eq_refl). cbn [negb].
      rewrite H5. cbn [mbind mret]. rewrite app_nil_r. split; [reflexivity|]. split; [reflexivity|]. split; [exact VF|discriminate].
  - destruct (negb (dis_eddsa c) && _).
    + unfold sign1_verify_eddsa in *. cbn [with_options v_aux] in *. destruct (create_tbs _ _ _ _) as [e tbs].
      destruct (negb (terr_eqb (if terr_eqb e ERR_TOO_SMALL then ERR_AUXILIARY_BUFFER_SIZE else e) T_SUCCESS)) eqn:E; [injection H as _ X _; rewrite X in E; discriminate|].
      destruct tbs as [t|]; [|discriminate].
      cbv zeta in *. cbn [v_set_aux_size v_flags v_aux v_key] in H. cbn [v_set_aux_size with_options v_flags v_aux v_key v_tags v_aux_size]. rewrite flag_do, VF in H. rewrite flag_do.
      destruct (decode_only f') eqn:D'.
      * destruct (decode_only f) eqn:D.
        -- injection H as <- <-. split; [reflexivity|]. split; [reflexivity|]. split; [exact VF|reflexivity].
        -- destruct (wb_null (v_aux me)); [discriminate|]. apply mbind_ok in H as (l5 & e5 & l6 & H5 & H6 & ->).
           injection H6 as <- -> <-. split; [reflexivity|]. split; [reflexivity|]. split; [exact VF|discriminate].
      * destruct (decode_only f) eqn:D; [discriminate (DO eq_refl)|].
        destruct (wb_null (v_aux me)); [discriminate|]. apply mbind_ok in H as (l5 & e5 & l6 & H5 & H6 & ->).
        injection H6 as <- -> <-. rewrite H5. cbn [mbind mret]. split; [reflexivity|]. split; [reflexivity|]. split; [exact VF|discriminate].
    + apply mbind_ok in H as (l5 & e & l6 & H5 & H6 & ->). injection H6 as <- -> <-. rewrite app_nil_r.
      unfold sign1_verify_default in *. cbn [with_options v_flags v_key]. rewrite flag_do, VF in H5. rewrite flag_do.
      destruct (decode_only f') eqn:D'.
      * split; [reflexivity|]. split; [reflexivity|]. split; [exact VF|]. intro D. rewrite D in H5. now injection H5 as <-.
      * destruct (decode_only f) eqn:D; [discriminate (DO eq_refl)|].
        rewrite H5. cbn [mbind mret]. rewrite app_nil_r. split; [reflexivity|]. split; [reflexivity|]. split; [exact VF|discriminate].
Qed.

Theorem options_widen c cr junk me f f' msg aad payload want dc log w :
  no_stricter f f' ->
  verify_internal c cr junk (with_options me f) msg aad payload want dc = (log, Ret w) -> w_err w = T_SUCCESS ->
  exists w', verify_internal c cr junk (with_options me f') msg aad payload want dc = (if decode_only f' then [] else log, Ret w') /\
    same_outcome w w' /\ (decode_only f = true -> log = []).
Proof.
  intros NS H W. unfold verify_internal in *. apply mbind_ok in H as (l1 & [r me1] & l2 & H1 & H & ->).
  unfold mlift in H1. injection H1 as <- H1. destruct r as [e|m].
  { injection H as _ <-. cbn [w_err] in W. subst e.
    exfalso. exact (VerifyTop.decode_no_success _ _ _ _ _ _ _ H1). }
  destruct (decode_widen _ _ _ _ _ _ _ _ _ _ NS H1) as (D & VF & VK & VA & VS).
  apply mbind_ok in H as (l3 & [e me2] & l4 & H3 & H & ->).
  destruct (terr_eqb e T_SUCCESS) eqn:E.
  2:{ injection H as _ <-. cbn [w_err] in W. subst e. discriminate. }
  assert (e = T_SUCCESS) as -> by (destruct e; discriminate || reflexivity). injection H as <- <-. clear W.
  destruct (check_widen _ _ _ _ _ _ _ _ _ NS VF H3) as (C & VT & VF2 & LG).
  rewrite D. unfold mlift. cbn [mbind]. rewrite C. cbn [mbind terr_eqb mret]. rewrite !app_nil_r. cbn [app].
  eexists. split; [reflexivity|]. split; [|exact LG].
  split; [reflexivity|]. split; [reflexivity|]. split; [reflexivity|]. cbn [w_ctx]. reflexivity.
Qed.

(** ** Bits that are no options *)

Definition opt_ctx {A} (f : N) (x : A * vctx) : A * vctx := (fst x, with_options (snd x) f).
Definition omap {A B} (g : A -> B) (x : out A) : out B := match x with Ret a => Ret (g a) | UB u => UB u end.
Definition mapr {A B} (g : A -> B) (x : M A) : M B := (fst x, omap g (snd x)).

Lemma mapr_bind {A A' B B'} (g : A -> A') (h : B -> B') (x : M A) (y : M A') k k' :
  y = mapr g x -> (forall a, k' (g a) = mapr h (k a)) -> mbind y k' = mapr h (mbind x k).
Proof.
  intros -> E. destruct x as [l [a|u]]; [|reflexivity]. unfold mapr at 1. cbn [fst snd omap mbind]. rewrite E.
  destruct (k a) as [l2 [b|u]]; reflexivity.
Qed.

Section Same.
Context (f f' : N) (S : same_options f f').
Lemma same_bits : requires_kid f' = requires_kid f /\ requires_tag f' = requires_tag f /\ prohibits_tag f' = prohibits_tag f /\
  allows_unknown_crit f' = allows_unknown_crit f /\ allows_short_circuit f' = allows_short_circuit f /\ decode_only f' = decode_only f.
Proof. repeat split; symmetry; apply S; reflexivity. Qed.

Lemma tags_same me d : process_tags (with_options me f') d = omap (opt_ctx f') (process_tags (with_options me f) d).
Proof.
  destruct same_bits as (_ & E1 & E2 & _). unfold process_tags. cbv zeta. cbn [with_options v_flags v_tags].
  rewrite !flag_tr, !flag_tp, E1, E2.
  destruct (requires_tag f && _); [reflexivity|]. destruct (prohibits_tag f && _); [reflexivity|].
  destruct (if negb (get_nth_tag_of_last d 0 =? TAG_COSE_SIGN1) then _ else _) as [[r tg]|u]; cbn [obind]; [|reflexivity].
  destruct (tags_loop _ _ _ _ _) as [[e tg']|u]; reflexivity.
Qed.

Lemma decode_same c junk me msg payload dc :
  verify_decode c junk (with_options me f') msg payload dc = omap (opt_ctx f') (verify_decode c junk (with_options me f) msg payload dc).
Proof.
  unfold verify_decode. cbv zeta.
  destruct (negb (terr_eqb (decode_error_to_terr (d_err (enter_array (dec_init msg)))) T_SUCCESS)); [reflexivity|].
  rewrite tags_same. destruct (process_tags (with_options me f) (enter_array (dec_init msg))) as [[e me2]|u]; cbn [obind omap opt_ctx fst snd]; [|reflexivity].
  destruct (negb (terr_eqb e T_SUCCESS)); [reflexivity|].
  destruct (enter_bstr_wrapped _) as [d o].
  destruct (if negb (u_len _ =? 0) then _ else _) as [r1|u]; cbn [obind]; [|reflexivity].
  destruct (negb (terr_eqb (r_err r1) T_SUCCESS)); [reflexivity|].
  destruct (parse_cose_header_parameters _ _ _ None _) as [r2|u]; cbn [obind]; [|reflexivity].
  destruct (negb (terr_eqb (r_err r2) T_SUCCESS)); [reflexivity|].
  destruct (if dc then _ else _) as [[[bad d2] opay]|u]; cbn [obind]; [|reflexivity].
  destruct bad; [reflexivity|]. destruct (get_byte_string d2) as [d3 osig].
  destruct (negb (terr_eqb (decode_error_to_terr (dec_finish (exit_array d3))) T_SUCCESS)); [reflexivity|].
  destruct opay, osig, (r_crit r1); reflexivity.
Qed.

Lemma mapr_id {A} (x : M A) : x = mapr (fun a => a) x.
Proof. destruct x as [l [a|u]]; reflexivity. Qed.

Lemma check_same c cr me m aad : v_flags me = f ->
  verify_check c cr (with_options me f') m aad = mapr (opt_ctx f') (verify_check c cr me m aad).
Proof.
  intro VF. destruct same_bits as (E1 & _ & _ & E2 & E3 & E4). unfold verify_check. cbv zeta. cbn [with_options v_flags].
  rewrite VF, !flag_kid, !flag_crit, E1, E2. destruct (requires_kid f && _); [reflexivity|].
  apply (mapr_bind (fun a => a)); [apply mapr_id|]. intro e. destruct (negb (terr_eqb e T_SUCCESS)); [reflexivity|].
  apply (mapr_bind (fun a => a)); [apply mapr_id|]. intro sc. destruct sc.
  - apply (mapr_bind (fun a => a)); [|reflexivity]. rewrite <- mapr_id.
    unfold sign1_verify_short_circuit. cbn [with_options v_flags]. rewrite VF, !flag_do, !flag_sc, E3, E4. reflexivity.
  - destruct (negb (dis_eddsa c) && _).
    + unfold sign1_verify_eddsa. cbn [with_options v_aux]. destruct (create_tbs _ _ _ _) as [e1 tbs].
      destruct (negb (terr_eqb (if terr_eqb e1 ERR_TOO_SMALL then ERR_AUXILIARY_BUFFER_SIZE else e1) T_SUCCESS)); [reflexivity|].
      destruct tbs as [t|]; [|reflexivity]. cbv zeta. cbn [v_set_aux_size with_options v_flags v_aux v_key v_tags v_aux_size].
      rewrite VF, !flag_do, E4. destruct (decode_only f); [reflexivity|]. destruct (wb_null (v_aux me)); [reflexivity|].
      apply (mapr_bind (fun a => a)); [apply mapr_id|]. reflexivity.
    + apply (mapr_bind (fun a => a)); [|reflexivity]. rewrite <- mapr_id.
      unfold sign1_verify_default. cbn [with_options v_flags v_key]. rewrite VF, !flag_do, E4. reflexivity.
Qed.

Definition opt_res (w : vres) : vres :=
  {| w_err := w_err w; w_ctx := with_options (w_ctx w) f'; w_payload := w_payload w; w_params := w_params w |}.

Lemma decode_flags c junk me msg payload dc m me1 :
  verify_decode c junk me msg payload dc = Ret (DOk m, me1) -> v_flags me1 = v_flags me.
Proof.
  intro H. assert (M : me = with_options me (v_flags me)) by (now destruct me). rewrite M in H.
  destruct (decode_widen c junk (v_flags me) (v_flags me) me msg payload dc m me1) as (_ & E & _); auto. repeat split; auto.
Qed.

Theorem options_same c cr junk me msg aad payload want dc :
  verify_internal c cr junk (with_options me f') msg aad payload want dc
  = mapr opt_res (verify_internal c cr junk (with_options me f) msg aad payload want dc).
Proof.
  unfold verify_internal. rewrite decode_same.
  destruct (verify_decode c junk (with_options me f) msg payload dc) as [[r me1]|u] eqn:D; [|reflexivity].
  unfold mlift. cbn [omap opt_ctx fst snd mbind]. destruct r as [e|m]; [reflexivity|].
  apply decode_flags in D. cbn [with_options v_flags] in D.
  rewrite (check_same c cr me1 m aad D). destruct (verify_check c cr me1 m aad) as [l [[e me2]|u]]; [|reflexivity].
  unfold mapr at 1. cbn [fst snd omap opt_ctx mbind]. destruct (terr_eqb e T_SUCCESS); reflexivity.
Qed.
End Same.

Theorem options_ignored c cr junk me f f' msg aad payload want dc log r :
  same_options f f' -> verify_internal c cr junk (with_options me f) msg aad payload want dc = (log, r) ->
  match r with
  | UB u => verify_internal c cr junk (with_options me f') msg aad payload want dc = (log, UB u)
  | Ret w => exists w', verify_internal c cr junk (with_options me f') msg aad payload want dc = (log, Ret w') /\ same_outcome w w'
  end.
Proof.
  intros S H. rewrite (options_same f f' S), H. destruct r as [w|u]; [|reflexivity].
  exists (opt_res f' w). split; [reflexivity|]. repeat split.
Qed.

(** ** The same for signing *)

Definition sopt {A} (f : N) (x : terr * sctx * A) : terr * sctx * A := (fst (fst x), sign_with_options (snd (fst x)) f, snd x).
Definition sopt2 {A B} (f : N) (x : terr * sctx * A * B) : terr * sctx * A * B := (sopt f (fst x), snd x).

Section SameSign.
Context (f f' : N) (S : same_sign_options f f').
Lemma sign_bits : has_flag f' OPT_OMIT_CBOR_TAG = has_flag f OPT_OMIT_CBOR_TAG /\ has_flag f' OPT_SHORT_CIRCUIT_SIG = has_flag f OPT_SHORT_CIRCUIT_SIG.
Proof.
  assert (K : forall i, i < 2 -> has_flag f' (2 ^ i) = has_flag f (2 ^ i)).
  { intros i Hi. rewrite !flag_bit. symmetry. exact (S i Hi). }
  split; [exact (K 1 eq_refl)|exact (K 0 eq_refl)].
Qed.

Lemma unprot_same c me kid e : add_unprotected_parameters c (sign_with_options me f') kid e = add_unprotected_parameters c me kid e.
Proof. reflexivity. Qed.

Lemma params_same c me d e :
  encode_parameters_internal c (sign_with_options me f') d e = sopt f' (encode_parameters_internal c (sign_with_options me f) d e).
Proof.
  destruct sign_bits as [E1 E2]. unfold encode_parameters_internal. cbn [sign_with_options c_alg c_flags sc_set_prot c_kid].
  destruct (negb (signature_algorithm_id_is_supported c (c_alg me))); [reflexivity|]. rewrite E1, E2. cbv zeta.
  destruct (encode_protected_parameters _ _) as [e1 prot]. cbn [sign_with_options c_alg c_flags sc_set_prot c_kid].
  destruct (has_flag f OPT_SHORT_CIRCUIT_SIG && dis_short_circuit c); [reflexivity|].
  change (add_unprotected_parameters c (sc_set_prot (sign_with_options me f') prot)) with (add_unprotected_parameters c (sc_set_prot (sign_with_options me f) prot)).
  destruct (add_unprotected_parameters _ _ _ _) as [er e2]. destruct (negb (terr_eqb er T_SUCCESS)); reflexivity.
Qed.

Lemma signature_same c cr me aad pl e : c_flags me = f ->
  encode_signature_aad_internal c cr (sign_with_options me f') aad pl e = mapr (sopt f') (encode_signature_aad_internal c cr me aad pl e).
Proof.
  intro CF. destruct sign_bits as [E1 E2]. unfold encode_signature_aad_internal. cbv zeta.
  cbn [sign_with_options c_alg c_flags c_prot]. rewrite CF, E2.
  destruct (if u_is_null pl then _ else _) as [e1 sp]. destruct (negb (terr_eqb _ _)); [reflexivity|].
  destruct (enc_open_bytes e1) as [e2 buf].
  apply (mapr_bind (sopt2 f')).
  - destruct (has_flag f OPT_SHORT_CIRCUIT_SIG && negb (dis_short_circuit c)); [|destruct ((c_alg me =? EDDSA)%Z && negb (dis_eddsa c))].
    + unfold sign1_sign_short_circuit. cbn [sign_with_options c_alg].
      apply (mapr_bind (fun a => a)); [apply mapr_id|]. intros [er h]. destruct (negb (terr_eqb er T_SUCCESS)); [reflexivity|].
      destruct (wb_null buf); [destruct (short_circuit_sig_size _); reflexivity|].
      apply (mapr_bind (fun a => a)); [apply mapr_id|]. intros [er2 sg]. reflexivity.
    + unfold sign1_sign_eddsa. cbn [sign_with_options c_aux]. destruct (create_tbs _ _ _ _) as [er t].
      destruct (negb (terr_eqb _ _)); [reflexivity|]. destruct t as [t|]; [|reflexivity].
      cbv zeta. cbn [sc_set_aux_size sign_with_options c_alg c_key c_aux].
      destruct (wb_null buf); [|destruct (wb_null (c_aux me)); [reflexivity|]];
        (apply (mapr_bind (fun a => a)); [apply mapr_id|]; intros [er2 sg]; reflexivity).
    + unfold sign1_sign_default. cbn [sign_with_options c_alg c_key].
      apply (mapr_bind (fun a => a)); [apply mapr_id|]. intros [er h]. destruct (negb (terr_eqb er T_SUCCESS)); [reflexivity|].
      destruct (wb_null buf); (apply (mapr_bind (fun a => a)); [apply mapr_id|]; intros [er2 sg]; reflexivity).
  - intros [[[er me2] n] sg]. unfold sopt2, sopt. cbn [fst snd]. destruct (negb (terr_eqb er T_SUCCESS)); reflexivity.
Qed.

Lemma params_flags c me d e er me1 e1 : encode_parameters_internal c me d e = (er, me1, e1) -> c_flags me1 = c_flags me.
Proof.
  unfold encode_parameters_internal. destruct (negb (signature_algorithm_id_is_supported c (c_alg me))); [now intros [= _ <- _]|]. cbv zeta.
  destruct (encode_protected_parameters _ _) as [e0 prot]. destruct (has_flag _ _ && dis_short_circuit c); [now intros [= _ <- _]|].
  destruct (add_unprotected_parameters _ _ _ _) as [er2 e2]. destruct (negb (terr_eqb er2 T_SUCCESS)); now intros [= _ <- _].
Qed.

Theorem sign_same c cr me d payload aad buf :
  sign_aad_internal c cr (sign_with_options me f') d payload aad buf
  = mapr (sopt f') (sign_aad_internal c cr (sign_with_options me f) d payload aad buf).
Proof.
  unfold sign_aad_internal. cbv zeta. rewrite params_same.
  destruct (encode_parameters_internal c (sign_with_options me f) d (enc_init buf)) as [[er me1] e1] eqn:P.
  apply params_flags in P. unfold sopt at 1. cbn [fst snd]. destruct (negb (terr_eqb er T_SUCCESS)); [reflexivity|].
  apply (mapr_bind (sopt f')); [exact (signature_same _ _ _ _ _ _ P)|].
  intros [[er2 me2] e2]. unfold sopt at 1. cbn [fst snd]. destruct (negb (terr_eqb er2 T_SUCCESS)); [reflexivity|].
  destruct (negb (terr_eqb _ _)); [reflexivity|]. destruct (enc_finish e2) as [[] r]; reflexivity.
Qed.
End SameSign.

Theorem sign_options_ignored c cr me f f' d payload aad buf log r :
  same_sign_options f f' -> sign_aad_internal c cr (sign_with_options me f) d payload aad buf = (log, r) ->
  sign_aad_internal c cr (sign_with_options me f') d payload aad buf =
    (log, match r with Ret (e, me', o) => Ret (e, sign_with_options me' f', o) | UB u => UB u end).
Proof. intros S H. rewrite (sign_same f f' S), H. destruct r as [[[e me'] o]|u]; reflexivity. Qed.
