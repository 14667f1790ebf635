(** Consequences of the characterisation of verification, proved once for the
    properties in Prop_Verify.v. *)
From Verif Require Import Base Const QEnc QDec Crypto Util ShortCircuit Params Verify Spec SignSpec.
From Verif Require Import BaseFacts UtilFacts SignFacts SignProofs SignMore SignMore3.
From Verif Require Import DecSpec VerifyDec VerifySafe VerifyFacts VerifyCheck Unique Parts VerifyTop VerifySpec.
From Coq Require Import Lia ZifyBool ZifyNat ZifyN.
Ltac Zify.zify_post_hook ::= Z.div_mod_to_equations.
Open Scope N_scope. Open Scope list_scope.
Local Strategy 100 [create_tbs create_tbs_hash verify_decode].

(** ** What is reported is determined by the message *)

Lemma bytes_from_det vs u u' : bytes_from vs u -> bytes_from vs u' -> u = u'.
Proof.
  intros [[E ->]|(v & b & E & _ & B & ->)] [[E' ->]|(v' & b' & E' & _ & B' & ->)]; congruence.
Qed.

Lemma alg_from_det vs a a' : alg_from vs a -> alg_from vs a' -> a = a'.
Proof.
  intros [[E ->]|(v & z & E & _ & B & _ & _ & ->)] [[E' ->]|(v' & z' & E' & _ & B' & _ & _ & ->)]; congruence.
Qed.

Lemma ct_step_det vs x y y' : ct_step vs x y -> ct_step vs x y' -> y = y'.
Proof.
  intro H. inversion H; subst; intro H'; inversion H'; subst; congruence.
Qed.

Lemma ct_from_det pm um x x' : ct_from pm um x -> ct_from pm um x' -> x = x'.
Proof.
  intros (y & A & B) (y' & A' & B'). pose proof (ct_step_det _ _ _ _ A A') as <-. exact (ct_step_det _ _ _ _ B B').
Qed.

Lemma reported_det c g pm p p' : reported c g pm p -> reported c g pm p' -> p = p'.
Proof.
  intros [_ A K I P C] [_ A' K' I' P' C'].
  pose proof (alg_from_det _ _ _ A A'). pose proof (bytes_from_det _ _ _ K K'). pose proof (bytes_from_det _ _ _ I I').
  pose proof (bytes_from_det _ _ _ P P').
  assert (p_ct_tstr p = p_ct_tstr p' /\ p_ct_uint p = p_ct_uint p').
  { destruct (dis_content_type c).
    - destruct C as (_ & _ & ? & ?), C' as (_ & _ & ? & ?). split; congruence.
    - pose proof (ct_from_det _ _ _ _ C C') as X. injection X. auto. }
  destruct p, p'; cbn in *. intuition congruence.
Qed.

Lemma crit_from_det vs ci ct ci' ct' : crit_from vs ci ct -> crit_from vs ci' ct' -> ci = ci' /\ ct = ct'.
Proof.
  intros [(E & -> & ->)|(v & xs & E & _ & B & _ & -> & -> & _)] [(E' & -> & ->)|(v' & xs' & E' & _ & B' & _ & -> & -> & _)]; split; congruence.
Qed.

Lemma payload_det g dc gv pl pl' : payload_is g dc gv pl -> payload_is g dc gv pl' -> pl = pl'.
Proof. unfold payload_is. destruct dc; [intuition congruence|congruence]. Qed.

(** ** Dependence on the context *)

(** What the caller sees apart from the context: return code, payload,
    parameters. *)
Definition seen (x : M vres) : M (terr * option ubufc * option params) :=
  mbind x (fun w => mret (w_err w, w_payload w, w_params w)).

Definition strip (x : M (terr * vctx)) : M terr := mbind x (fun '(e, _) => mret e).

Lemma mbind_assoc {A B C} (x : M A) (f : A -> M B) (g : B -> M C) :
  mbind (mbind x f) g = mbind x (fun a => mbind (f a) g).
Proof.
  destruct x as [l [a|u]]; cbn [mbind]; [|reflexivity]. destruct (f a) as [l2 [b|u2]]; cbn [mbind]; [|reflexivity].
  destruct (g b) as [l3 r3]. now rewrite app_assoc.
Qed.

Lemma mbind_ext {A B} (x : M A) (f g : A -> M B) : (forall a, f a = g a) -> mbind x f = mbind x g.
Proof. intro H. destruct x as [l [a|u]]; cbn [mbind]; [|reflexivity]. now rewrite H. Qed.

(** Contexts alike in everything the signature check looks at. *)
Definition alike (me me2 : vctx) : Prop :=
  v_key me = v_key me2 /\ v_aux me = v_aux me2 /\
  allows_short_circuit (v_flags me) = allows_short_circuit (v_flags me2) /\
  decode_only (v_flags me) = decode_only (v_flags me2).

Lemma core_ext c cr me me2 p sig prot aad pay : alike me me2 ->
  strip (check_core c cr me p sig prot aad pay) = strip (check_core c cr me2 p sig prot aad pay).
Proof.
  intros (K & A & S & D). unfold check_core. destruct (short_circuit_kid c p); [|destruct (uses_eddsa c p)].
  - unfold strip. rewrite !mbind_assoc. unfold sign1_verify_short_circuit. rewrite !flag_do, !flag_sc, S, D. reflexivity.
  - unfold sign1_verify_eddsa. rewrite A. destruct (create_tbs prot aad pay (v_aux me2)) as [err tbs].
    destruct (negb _); [reflexivity|]. destruct tbs as [tbs|]; [|reflexivity].
    cbn [v_set_aux_size v_flags v_aux v_key]. rewrite !flag_do, D, A, K.
    destruct (decode_only (v_flags me2)); [reflexivity|]. destruct (wb_null (v_aux me2)); [reflexivity|].
    unfold strip. rewrite !mbind_assoc. reflexivity.
  - unfold strip. rewrite !mbind_assoc. unfold sign1_verify_default. rewrite !flag_do, D, K. reflexivity.
Qed.

Lemma check_ext c cr me me2 m aad : alike me me2 -> v_flags me = v_flags me2 ->
  strip (verify_check c cr me m aad) = strip (verify_check c cr me2 m aad).
Proof.
  intros (K & A & _ & _) F. unfold verify_check. cbv zeta. rewrite F.
  destruct (_ && _); [reflexivity|]. unfold strip. rewrite !mbind_assoc. apply mbind_ext. intro e.
  destruct (negb _); [reflexivity|]. rewrite !mbind_assoc. apply mbind_ext. intro sc. destruct sc; [|destruct (_ && _)].
  - rewrite !mbind_assoc. unfold sign1_verify_short_circuit. rewrite F. reflexivity.
  - unfold sign1_verify_eddsa. rewrite A. destruct (create_tbs _ aad _ (v_aux me2)) as [err tbs].
    destruct (negb _); [reflexivity|]. destruct tbs as [tbs|]; [|reflexivity].
    cbn [v_set_aux_size v_flags v_aux v_key]. rewrite F, A, K.
    destruct (has_flag _ _); [reflexivity|]. destruct (wb_null _); [reflexivity|]. rewrite !mbind_assoc. reflexivity.
  - rewrite !mbind_assoc. unfold sign1_verify_default. rewrite F, K. reflexivity.
Qed.

Lemma verify_rest_seen c cr me me2 m aad (payload : option ubufc) (want dc : bool) :
  strip (verify_check c cr me m aad) = strip (verify_check c cr me2 m aad) ->
  let rest := fun me => mbind (verify_check c cr me m aad) (fun '(err, me) =>
    if terr_eqb err T_SUCCESS then
      mret {| w_err := err; w_ctx := me;
              w_payload := match payload with Some _ => if dc then None else Some (m_payload m) | None => None end;
              w_params := if want then Some (m_params m) else None |}
    else mret {| w_err := err; w_ctx := me; w_payload := None; w_params := None |}) in
  seen (rest me) = seen (rest me2).
Proof.
  intros H rest. unfold seen, rest. rewrite !mbind_assoc.
  set (k := fun err => mret (err, if terr_eqb err T_SUCCESS then match payload with Some _ => if dc then None else Some (m_payload m) | None => None end else None,
                             if terr_eqb err T_SUCCESS then if want then Some (m_params m) else None else None)).
  transitivity (mbind (strip (verify_check c cr me m aad)) k).
  - unfold strip. rewrite mbind_assoc. apply mbind_ext. intros [e x]. unfold k. rewrite mbind_ret_l.
    destruct (terr_eqb e T_SUCCESS); rewrite mbind_ret_l; reflexivity.
  - rewrite H. unfold strip. rewrite mbind_assoc. apply mbind_ext. intros [e x]. unfold k. rewrite mbind_ret_l.
    destruct (terr_eqb e T_SUCCESS); rewrite mbind_ret_l; reflexivity.
Qed.

(** Decoding looks at the flags and the size of the tag array only. *)
Lemma process_tags_ext me me2 d :
  v_flags me = v_flags me2 -> length (v_tags me) = length (v_tags me2) ->
  match process_tags me d, process_tags me2 d with
  | Ret (e, x), Ret (e2, x2) =>
      e = e2 /\ (x = me /\ x2 = me2 \/ exists ts, x = v_set_tags me ts /\ x2 = v_set_tags me2 ts)
  | UB a, UB b => a = b
  | _, _ => False
  end.
Proof.
  intros F L. unfold process_tags. cbv zeta. rewrite F, L. destruct (_ && _); [auto|]. destruct (_ && _); [auto|].
  destruct (if negb _ then _ else _) as [[ri ts]|]; cbn [obind]; [|reflexivity].
  destruct (tags_loop _ _ _ _ _) as [[e ts2]|]; cbn [obind]; [|reflexivity]. eauto.
Qed.

Lemma decode_ext c junk me me2 msg payload dc :
  v_flags me = v_flags me2 -> length (v_tags me) = length (v_tags me2) ->
  match verify_decode c junk me msg payload dc, verify_decode c junk me2 msg payload dc with
  | Ret (r, x), Ret (r2, x2) =>
      r = r2 /\ (x = me /\ x2 = me2 \/ exists ts, x = v_set_tags me ts /\ x2 = v_set_tags me2 ts)
  | UB a, UB b => a = b
  | _, _ => False
  end.
Proof.
  intros F L. unfold verify_decode. cbv zeta.
  destruct (negb _); [auto|]. pose proof (process_tags_ext me me2 (enter_array (dec_init msg)) F L) as P.
  destruct (process_tags me _) as [[e x]|a], (process_tags me2 _) as [[e2 x2]|b]; try contradiction; [|exact P].
  destruct P as [<- P]. cbn [obind]. destruct (negb _); [auto|].
  destruct (enter_bstr_wrapped _) as [d1 oprot]. match goal with |- context [obind ?u _] => destruct u as [r1|]; cbn [obind]; [|reflexivity] end.
  destruct (negb _); [auto|]. destruct (parse_cose_header_parameters _ _ _ _ _) as [r2|]; cbn [obind]; [|reflexivity].
  destruct (negb _); [auto|]. match goal with |- context [obind ?u _] => destruct u as [[[bad d2] opay]|]; cbn [obind]; [|reflexivity] end.
  destruct bad; [auto|]. destruct (get_byte_string d2) as [d3 osig]. destruct (negb _); [auto|].
  destruct (need opay); cbn [obind]; [|reflexivity]. destruct (need osig); cbn [obind]; [|reflexivity].
  destruct (need _); cbn [obind]; [auto|reflexivity].
Qed.

(** Results do not depend on what earlier calls left in the context. *)
Theorem verify_history c cr junk me me2 msg aad payload want dc :
  v_key me = v_key me2 -> v_flags me = v_flags me2 -> v_aux me = v_aux me2 ->
  length (v_tags me) = length (v_tags me2) ->
  seen (verify_internal c cr junk me msg aad payload want dc) =
  seen (verify_internal c cr junk me2 msg aad payload want dc).
Proof.
  intros K F A L. pose proof (decode_ext c junk me me2 msg payload dc F L) as D.
  unfold verify_internal. destruct (verify_decode c junk me msg payload dc) as [[r x]|a], (verify_decode c junk me2 msg payload dc) as [[r2 x2]|b];
    try contradiction; [|now subst].
  destruct D as [<- D]. unfold mlift. cbn [mbind app]. destruct r as [e|m]; [reflexivity|].
  assert (Al : alike x x2 /\ v_flags x = v_flags x2).
  { unfold alike. destruct D as [[-> ->]|(ts & -> & ->)]; cbn; rewrite K, F, A; auto. }
  destruct Al as [Al Fx].
  pose proof (verify_rest_seen c cr x x2 m aad payload want dc (check_ext c cr x x2 m aad Al Fx)) as R. cbv zeta in R.
  match goal with |- seen ?a = seen ?b => transitivity (seen (mbind (verify_check c cr x m aad) (fun '(err, me) =>
    if terr_eqb err T_SUCCESS then
      mret {| w_err := err; w_ctx := me;
              w_payload := match payload with Some _ => if dc then None else Some (m_payload m) | None => None end;
              w_params := if want then Some (m_params m) else None |}
    else mret {| w_err := err; w_ctx := me; w_payload := None; w_params := None |}))) end.
  - f_equal. destruct (verify_check c cr x m aad) as [l [[e y]|u]]; cbn [mbind]; [|reflexivity].
    destruct (terr_eqb e T_SUCCESS); reflexivity.
  - rewrite R. f_equal. destruct (verify_check c cr x2 m aad) as [l [[e y]|u]]; cbn [mbind]; [|reflexivity].
    destruct (terr_eqb e T_SUCCESS); reflexivity.
Qed.

(** ** Decode-only *)

Lemma check_core_do c cr cr2 me me2 p sig prot aad pay :
  v_aux me = v_aux me2 -> decode_only (v_flags me) = true -> decode_only (v_flags me2) = true ->
  strip (check_core c cr me p sig prot aad pay) = strip (check_core c cr2 me2 p sig prot aad pay) /\
  fst (check_core c cr me p sig prot aad pay) = [].
Proof.
  intros A D D2. unfold check_core. destruct (short_circuit_kid c p); [|destruct (uses_eddsa c p)].
  - unfold sign1_verify_short_circuit. rewrite !flag_do, D, D2. split; reflexivity.
  - unfold sign1_verify_eddsa. rewrite A. destruct (create_tbs prot aad pay (v_aux me2)) as [err tbs].
    destruct (negb _); [split; reflexivity|]. destruct tbs as [tbs|]; [|split; reflexivity].
    cbn [v_set_aux_size v_flags v_aux v_key]. rewrite !flag_do, D, D2. split; reflexivity.
  - unfold sign1_verify_default. rewrite !flag_do, D, D2. split; reflexivity.
Qed.

Lemma check_do c cr cr2 me me2 m aad :
  v_aux me = v_aux me2 -> v_flags me = v_flags me2 -> decode_only (v_flags me) = true ->
  strip (verify_check c cr me m aad) = strip (verify_check c cr2 me2 m aad) /\ fst (verify_check c cr me m aad) = [].
Proof.
  intros A F D. assert (D2 : decode_only (v_flags me2) = true) by congruence.
  unfold verify_check. cbv zeta. rewrite <- F.
  destruct (_ && _); [split; reflexivity|].
  set (ck := if negb (has_flag (v_flags me) OPT_UNKNOWN_CRIT_ALLOWED) then mlift (check_critical_labels (m_crit m) (m_unknown m)) else mret T_SUCCESS).
  assert (LC : fst ck = []) by (unfold ck; destruct (negb _); reflexivity).
  destruct ck as [lk [e|u]]; cbn [fst] in LC; subst lk; cbn [mbind app]; [|split; reflexivity].
  destruct (negb (terr_eqb e T_SUCCESS)); [split; reflexivity|].
  set (sk := if dis_short_circuit c then mret false else mlift (u_equal (p_kid (m_params m)) get_short_circuit_kid)).
  assert (LS : fst sk = []) by (unfold sk; destruct (dis_short_circuit c); reflexivity).
  destruct sk as [ls [sc|u]]; cbn [fst] in LS; subst ls; cbn [mbind app]; [|split; reflexivity].
  destruct sc; [|destruct (_ && _)].
  - unfold sign1_verify_short_circuit. rewrite <- F, !flag_do, D. split; reflexivity.
  - unfold sign1_verify_eddsa. rewrite A. destruct (create_tbs _ aad _ (v_aux me2)) as [err tbs].
    destruct (negb _); [split; reflexivity|]. destruct tbs as [tbs|]; [|split; reflexivity].
    cbn [v_set_aux_size v_flags v_aux v_key]. rewrite <- F, !flag_do, D. split; reflexivity.
  - unfold sign1_verify_default. rewrite <- F, !flag_do, D. split; reflexivity.
Qed.

(** Neither key nor back end matters, and the back end is not called. *)
Theorem decode_only_independent c cr cr2 junk me me2 msg aad payload want dc :
  v_flags me = v_flags me2 -> v_aux me = v_aux me2 -> length (v_tags me) = length (v_tags me2) ->
  decode_only (v_flags me) = true ->
  seen (verify_internal c cr junk me msg aad payload want dc) =
  seen (verify_internal c cr2 junk me2 msg aad payload want dc) /\
  fst (verify_internal c cr junk me msg aad payload want dc) = [].
Proof.
  intros F A L Do. pose proof (decode_ext c junk me me2 msg payload dc F L) as D.
  unfold verify_internal. destruct (verify_decode c junk me msg payload dc) as [[r x]|a], (verify_decode c junk me2 msg payload dc) as [[r2 x2]|b];
    try contradiction; [|subst; split; reflexivity].
  destruct D as [<- D]. unfold mlift. cbn [mbind app]. destruct r as [e|m]; [split; reflexivity|].
  assert (Al : v_aux x = v_aux x2 /\ v_flags x = v_flags x2 /\ decode_only (v_flags x) = true).
  { destruct D as [[-> ->]|(ts & -> & ->)]; cbn; auto. }
  destruct Al as (Ax & Fx & Dx). destruct (check_do c cr cr2 x x2 m aad Ax Fx Dx) as [S N].
  unfold strip, seen in *.
  destruct (verify_check c cr x m aad) as [l [[e y]|u]], (verify_check c cr2 x2 m aad) as [l2 [[e2 y2]|u2]];
    cbn [fst mbind mret] in *; subst l; rewrite ?app_nil_r in S; try discriminate.
  - injection S as <- <-. cbn [mbind app]. destruct (terr_eqb e T_SUCCESS); split; reflexivity.
  - injection S as <- <-. split; reflexivity.
Qed.

(** ** The auxiliary buffer *)

Lemma core_aux c cr me p sig pr aad ad pay pl log me' :
  holds aad ad -> holds pay pl ->
  check_core c cr me p sig (UBuf pr) aad pay = (log, Ret (T_SUCCESS, me')) ->
  aux_enough c me p (sig_structure pr ad pl).
Proof.
  intros HA HP H S E. unfold check_core in H. rewrite S, E in H.
  unfold sign1_verify_eddsa in H. rewrite (create_tbs_holds _ _ _ pr ad pl) in H; auto; [|now left].
  cbv zeta in H. destruct (N.leb_spec (blen (sig_structure pr ad pl)) (wb_len (v_aux me))); [|discriminate].
  split; [assumption|]. cbn [terr_eqb negb v_set_aux_size v_flags v_aux v_key] in H. rewrite flag_do in H.
  destruct (decode_only (v_flags me)); [discriminate|]. intros _. destruct (wb_null (v_aux me)); [discriminate|reflexivity].
Qed.

(** Soundness including what is needed of the auxiliary buffer and what is left
    in the context. *)
Theorem verify_sound_full c cr junk me msg aad payload want dc log w ad gv :
  length (v_tags me) = 4%nat -> holds aad ad -> detached_arg dc payload gv ->
  verify_internal c cr junk me msg aad payload want dc = (log, Ret w) -> w_err w = T_SUCCESS ->
  exists g pm p pl, message msg g pm /\ acceptable c (v_flags me) dc gv g pm p pl /\
    delivered me payload want dc p pl w /\
    (decode_only (v_flags me) = false ->
     accepted c cr (v_flags me) (v_key me) p (sig_structure (g_prot g) ad pl) (g_sig g)) /\
    aux_enough c me p (sig_structure (g_prot g) ad pl) /\
    v_tags (w_ctx w) = pad4 (returned (g_tags g)) /\
    v_aux_size (w_ctx w) = (if negb (short_circuit_kid c p) && uses_eddsa c p
                            then blen (sig_structure (g_prot g) ad pl) else v_aux_size me).
Proof.
  intros Hv HA HG H Hw.
  destruct (verify_inv _ _ _ _ _ _ _ _ _ _ _ _ _ Hv HA HG H Hw) as (g & pm & m & me1 & pl & Hm & Hd & HP & HH & Ac & De & Co).
  exists g, pm, (m_params m), pl. split; [exact Hm|]. split; [exact Ac|]. split; [exact De|].
  rewrite (dc_ctx _ _ _ _ _ _ _ _ Hd) in Co.
  pose proof (core_aux _ _ _ _ _ _ _ ad _ pl _ _ HA HH Co) as X.
  pose proof (core_after _ _ _ _ _ _ ad pl aad _ HA HH _ _ _ Co) as Y. unfold core_ctx in Y.
  split; [|split; [exact X|]].
  - intro Dn. apply (core_success _ _ _ _ _ _ ad pl aad _ HA HH) in Co; [|exact Dn]. exact Co.
  - rewrite Y. clear Y. unfold aux_enough in X. cbn [v_set_tags v_aux] in *.
    destruct (short_circuit_kid c (m_params m)); cbn [negb andb]; [split; reflexivity|].
    destruct (uses_eddsa c (m_params m)); cbn [andb]; [|split; reflexivity].
    destruct (X eq_refl eq_refl) as [L _]. replace (_ <=? _) with true by lia. split; reflexivity.
Qed.

(** Acceptance, exactly. *)
Theorem verify_iff c cr junk me msg aad payload want dc ad gv :
  length (v_tags me) = 4%nat -> holds aad ad -> detached_arg dc payload gv -> one_digest cr -> hash_reliable c cr [msg; ad; gv] ->
  (exists log w, verify_internal c cr junk me msg aad payload want dc = (log, Ret w) /\ w_err w = T_SUCCESS) <->
  (exists g pm p pl, message msg g pm /\ acceptable c (v_flags me) dc gv g pm p pl /\
    (decode_only (v_flags me) = false ->
     accepted c cr (v_flags me) (v_key me) p (sig_structure (g_prot g) ad pl) (g_sig g)) /\
    aux_enough c me p (sig_structure (g_prot g) ad pl)).
Proof.
  intros Hv HA HG OD HR. split.
  - intros (log & w & H & Hw).
    destruct (verify_sound_full _ _ _ _ _ _ _ _ _ _ _ _ _ Hv HA HG H Hw) as (g & pm & p & pl & H1 & H2 & _ & H3 & H4 & _).
    exists g, pm, p, pl. auto.
  - intros (g & pm & p & pl & H1 & H2 & H3 & H4).
    destruct (verify_complete c cr junk me msg aad payload want dc ad gv g pm p pl) as (log & w & H & D); auto.
    { intro DO. split; [auto|]. split; [exact OD|]. eapply hash_reliable_mono; [|exact HR].
      destruct (message_lens _ _ _ H1) as (M1 & _ & M2). specialize (M2 _ _ _ (ac_payload _ _ _ _ _ _ _ _ H2)).
      cbn [longest fold_right]. lia. }
    exists log, w. split; [exact H|]. apply D.
Qed.

(** With decode-only added, a message that verifies gives the same results. *)
Theorem decode_only_same c cr cr2 junk me me2 msg aad payload want dc log w ad gv :
  length (v_tags me) = 4%nat -> length (v_tags me2) = 4%nat -> holds aad ad -> detached_arg dc payload gv ->
  v_aux me = v_aux me2 -> v_flags me2 = N.lor (v_flags me) 8 ->
  verify_internal c cr junk me msg aad payload want dc = (log, Ret w) -> w_err w = T_SUCCESS ->
  exists w2, verify_internal c cr2 junk me2 msg aad payload want dc = ([], Ret w2) /\
    w_err w2 = T_SUCCESS /\ w_payload w2 = w_payload w /\ w_params w2 = w_params w.
Proof.
  intros Hv Hv2 HA HG A F H Hw.
  destruct (verify_sound_full _ _ _ _ _ _ _ _ _ _ _ _ _ Hv HA HG H Hw) as (g & pm & p & pl & H1 & [A1 A2 A3 A4 A5 A6 A7] & D & _ & H4 & _).
  assert (B : forall n, n <> 3 -> N.testbit (v_flags me2) n = N.testbit (v_flags me) n).
  { intros n Hn. rewrite F, N.lor_spec. change 8 with (2 ^ 3). rewrite N.pow2_bits_false by congruence. apply orb_false_r. }
  assert (Do : decode_only (v_flags me2) = true).
  { unfold decode_only. rewrite F, N.lor_spec. change 8 with (2 ^ 3). rewrite N.pow2_bits_true. apply orb_true_r. }
  destruct (verify_complete c cr2 junk me2 msg aad payload want dc ad gv g pm p pl) as (log2 & w2 & E & D2); auto.
  - constructor; auto.
    + unfold tag_accepted, requires_tag, prohibits_tag in *. rewrite !B by lia. exact A1.
    + unfold crit_ok, allows_unknown_crit in *. rewrite B by lia. exact A4.
    + unfold kid_ok, requires_kid in *. rewrite B by lia. exact A7.
  - intro X. congruence.
  - unfold aux_enough in *. rewrite <- A. intros S U. destruct (H4 S U) as [L _]. split; [exact L|congruence].
  - exists w2.
    assert (N : log2 = []).
    { pose proof (decode_only_independent c cr2 cr2 junk me2 me2 msg aad payload want dc eq_refl eq_refl eq_refl Do) as [_ N].
      now rewrite E in N. }
    subst log2. destruct D as (_ & P1 & P2), D2 as (Q0 & Q1 & Q2). split; [exact E|]. split; [exact Q0|]. split; congruence.
Qed.

(** ** Changing flags that do not concern the signature *)

Theorem verify_transfer c cr junk me me2 msg aad payload want dc log w ad gv g pm p pl :
  length (v_tags me) = 4%nat -> length (v_tags me2) = 4%nat -> holds aad ad -> detached_arg dc payload gv ->
  alike me me2 -> message msg g pm ->
  verify_internal c cr junk me msg aad payload want dc = (log, Ret w) -> w_err w = T_SUCCESS ->
  acceptable c (v_flags me2) dc gv g pm p pl ->
  exists w2, verify_internal c cr junk me2 msg aad payload want dc = (log, Ret w2) /\
    w_err w2 = T_SUCCESS /\ w_payload w2 = w_payload w /\ w_params w2 = w_params w.
Proof.
  intros Hv Hv2 HA HG Al Hm H Hw [A1 A2 A3 (ci & ct & A4 & A5) A6 A7 A8].
  destruct (verify_inv _ _ _ _ _ _ _ _ _ _ _ _ _ Hv HA HG H Hw) as (g' & pm' & m & me1 & pl' & Hm' & Hd & HP & HH & Ac & De & Co).
  destruct (message_unique _ _ _ _ _ Hm Hm') as [<- <-]. clear Hm'.
  pose proof (reported_det _ _ _ _ _ A2 (dc_params _ _ _ _ _ _ _ _ Hd)) as ->.
  set (me3 := v_set_tags me2 (pad4 (returned (g_tags g)))).
  assert (D3 : decodes c me2 payload dc g pm m me3).
  { destruct Hd. constructor; auto. }
  assert (D : verify_decode c junk me2 msg payload dc = Ret (DOk m, me3)) by (apply decode_iff; [exact Hv2|eauto]).
  destruct (dc_crit _ _ _ _ _ _ _ _ D3) as (_ & ci' & ct' & B4 & Ec).
  destruct (crit_from_det _ _ _ _ _ A4 B4) as [<- <-].
  assert (CE := check_eq c cr me3 g pm m aad ci ct A2 A4 Ec A6 (dc_unknown _ _ _ _ _ _ _ _ D3)).
  rewrite (dc_prot _ _ _ _ _ _ _ _ D3), (dc_sig _ _ _ _ _ _ _ _ D3) in CE. change (v_flags me3) with (v_flags me2) in CE.
  replace (requires_kid (v_flags me2) && u_is_null (p_kid (m_params m))) with false in CE.
  2:{ symmetry. apply andb_false_iff. unfold kid_ok in A8. destruct (requires_kid (v_flags me2)); [right|now left].
      specialize (A8 eq_refl). apply not_true_is_false. rewrite (kid_null_iff _ _ _ _ A2). exact A8. }
  replace (negb (allows_unknown_crit (v_flags me2)) && crit_hit ci ct (all_params g pm)) with false in CE.
  2:{ symmetry. apply andb_false_iff. destruct A5 as [->|A5]; [now left|]. right. now apply crit_hit_iff. }
  assert (X : strip (check_core c cr me3 (m_params m) (g_sig g) (UBuf (g_prot g)) aad (m_payload m)) = (log, Ret T_SUCCESS)).
  { rewrite <- (core_ext c cr me1).
    - rewrite Co. unfold strip, mret. cbn [mbind]. now rewrite app_nil_r.
    - rewrite (dc_ctx _ _ _ _ _ _ _ _ Hd). exact Al. }
  unfold strip in X. destruct (check_core _ _ me3 _ _ _ _ _) as [l [[e y]|u]]; [|discriminate].
  unfold mret in X. cbn [mbind] in X. rewrite app_nil_r in X. injection X as -> ->.
  unfold verify_internal. rewrite D. unfold mlift. cbn [mbind app]. rewrite CE. cbn [mbind terr_eqb]. unfold mret. rewrite app_nil_r.
  eexists. split; [reflexivity|]. destruct De as (_ & D1 & D2). cbn [w_err w_payload w_params].
  split; [reflexivity|]. split.
  - rewrite D2. destruct payload; [|reflexivity]. destruct dc eqn:Edc; [reflexivity|]. f_equal.
    destruct (decodes_payload _ _ _ _ _ _ _ _ _ Hd HG) as (pl2 & HP2 & HH2 & HU).
    rewrite (HU eq_refl). f_equal. exact (payload_det _ _ _ _ _ HP2 HP).
  - now rewrite D1.
Qed.
