(** Errors of verification for any data item. *)
From Verif Require Import Base Const QEnc QDec Spec DecSpec BaseFacts DecFacts DecSkip DecCtx Params ParamFacts DecSim
  Crypto Util ShortCircuit Verify VerifyDec BucketFacts LabelFacts VerifySafe VerifyFacts Unique VerifyTop VerifyMore VerifyMore2 SignSpec VerifySpec PassSpec ErrorSpec ErrorFacts ErrorTop WideSpec WideFacts ItemSpec FormedFacts OpensFacts.
From Coq Require Import Lia ZifyBool ZifyNat ZifyN.
Ltac Zify.zify_post_hook ::= Z.div_mod_to_equations.
Open Scope N_scope. Open Scope list_scope.
Local Open Scope mon_scope.
Local Strategy 100 [create_tbs create_tbs_hash verify_decode parse_cose_header_parameters].

(** ** Reports *)

Lemma perr_reported x q : (q = QD_UNEXPECTED_TYPE \/ q = i_err (item_of None x)) -> reported ERR_PARAMETER_CBOR x (perr q).
Proof.
  intros [->| ->]; [left; reflexivity|]. unfold perr. destruct (is_not_wf (i_err (item_of None x))) eqn:E; [|left; reflexivity].
  right. split; [reflexivity|now apply junk_of_err].
Qed.

Lemma terr_reported x q : (q = QD_UNEXPECTED_TYPE \/ q = i_err (item_of None x)) -> q <> QD_SUCCESS ->
  reported_tags x (decode_error_to_terr q).
Proof.
  intros [->| ->] N; [left; left; reflexivity|]. pose proof (junk_of_err x) as J. pose proof (item_err_tags x) as T.
  destruct (i_err (item_of None x)); cbn [decode_error_to_terr is_not_wf] in *;
    try (left; left; reflexivity); try (left; right; split; [reflexivity|now apply J]); try contradiction.
  right. auto.
Qed.

Lemma bstr_reason x : bstr_err x = QD_UNEXPECTED_TYPE \/ bstr_err x = i_err (item_of None x).
Proof. unfold bstr_err. destruct (good x); auto. Qed.

Lemma plain_no x : plain_bytes x = None -> forall b, x <> CBytes b.
Proof. intros H b ->. discriminate. Qed.

Definition bare (b : bytes) (um : params_map) : sign1 :=
  {| g_tags := []; g_prot := b; g_unprot := um; g_payload := CBytes []; g_sig := []; g_extra := [] |}.

Lemma bare_fault c b pm um e : format_fault c 0 false (bare b um) pm e -> params_fault c pm um e.
Proof. exact (fun H => H). Qed.

(** ** The protected bucket, whatever it holds *)

(** Whether bytes begin with a data item can be decided. *)
Lemma starts_item d b : (exists x bx rest, b = bx ++ rest /\ reads (S d) x bx) \/ (forall x bx rest, b = bx ++ rest -> ~ reads (S d) x bx).
Proof.
  destruct (skip d [(false, Some 1)] b) as [e|rest] eqn:K.
  - right. intros x bx rest -> R.
    assert (C : closes d [(false, Some 1)] (bx ++ [])).
    { apply (cl_array d (Some 1) [x] bx bx [] []); [left; auto| |constructor].
      rewrite <- (app_nil_r bx). constructor; [|constructor]. cbn [length]. rewrite Nat.add_1_r. exact R. }
    rewrite app_nil_r in C. apply (skip_closes _ _ _ rest) in C. congruence.
  - left. apply skip_inv in K as (b' & -> & C). inversion C as [|c0 l b0 cb st b2 He Hr Hn|]; subst.
    inversion Hn; subst. rewrite app_nil_r. destruct He as [(E & ->)|(E & _)]; [|discriminate].
    injection E as E. destruct l as [|x [|y l]]; [discriminate E| |exfalso; clear - E; rewrite !blen_cons in E; lia].
    inversion Hr as [|? ? ? bx bs Hx Hl]; subst. inversion Hl; subst.
    cbn [length] in Hx. rewrite Nat.add_1_r in Hx. exists x, bx, rest. rewrite app_nil_r. auto.
Qed.

Lemma parse_enter_fails c d p crit unk r q : d_err (enter_agg true d) = q -> q <> QD_SUCCESS -> q <> QD_CALLBACK_FAIL ->
  parse_cose_header_parameters c d p crit unk = Ret r -> r_err r = perr q.
Proof.
  intros E N F. unfold parse_cose_header_parameters, enter_map, get_items_in_map. rewrite E.
  destruct q; try contradiction; cbn [qd_ok negb obind]; rewrite E; intro X; injection X as <-; reflexivity.
Qed.

Lemma prot_item_error c flags dc t b l e p crit unk : body t = CArray (CBytes b :: l) ->
  prot_bucket c b = Ret (e, p, crit, unk) -> e <> T_SUCCESS -> item_fault c flags dc t e.
Proof.
  intros Et H N. pose proof H as H0. unfold prot_bucket in H. destruct (N.eqb_spec (blen b) 0) as [E|E].
  { injection H as <- _ _ _. contradiction. }
  assert (Nb : b <> []) by (intros ->; now apply E).
  set (L := [LvBstr []; LvAgg false None None []]) in *.
  destruct (parse_cose_header_parameters c (mkd b L []) clear_params (Some clear_label_list) clear_label_list) as [r|w] eqn:P;
    cbn [obind] in H; [|discriminate]. injection H as H _ _ _.
  destruct (starts_item 1 b) as [(x & bx & rest & Eb & R)|F].
  2:{ rewrite clear_ll0 in P. apply (parse_no_item c L b [] clear_params (Some clear_label_list) [] r eq_refl F (Nat.le_0_l _) (Nat.le_0_l _)) in P.
      rewrite H in P. eapply if_prot_bytes; eauto. }
  destruct (good x) eqn:G.
  2:{ eapply (if_prot_item _ _ _ _ b l x bx rest); eauto.
      - intros [Rd _]. apply good_readable in Rd. congruence.
      - rewrite Eb in P. destruct (enter_agg_bad true L x bx rest [] eq_refl R (or_introl G)) as [E1 E2]. rewrite G in E1.
        rewrite E1 in E2. apply (parse_enter_fails _ _ _ _ _ _ _ E1 E2 (item_err_fail x)) in P.
        rewrite <- H, P. apply perr_reported. auto. }
  assert (M : (exists m, body x = CMap m) \/ (match body x with CArray _ => true = true | CMap _ => true = false | _ => True end /\ forall m, body x <> CMap m)).
  { destruct (body x); try (right; split; [auto|intros; discriminate]). left. eauto. }
  destruct M as [(m & Em)|[M1 M2]].
  - assert (Pm : protected_map b m rest). { right. exists x, bx. repeat split; auto; apply good_readable; exact G. }
    eapply (if_prot_params _ _ _ _ b l m rest); [exact Et|exact Pm|]. apply (bare_fault c b).
    exact (prot_error c 0 false (bare b []) m rest e p crit unk Pm H0 N).
  - eapply (if_prot_item _ _ _ _ b l x bx rest); eauto.
    + intros [_ (m & Em)]. now apply (M2 m).
    + rewrite Eb in P. destruct (enter_agg_bad true L x bx rest [] eq_refl R (or_intror M1)) as [E1 E2]. rewrite G in E1.
      rewrite E1 in E2. apply (parse_enter_fails _ _ _ _ _ _ _ E1 E2) in P; [|discriminate].
      rewrite <- H, P. apply perr_reported. auto.
Qed.

(** ** Decoding *)

Lemma bytes_reported x : plain_bytes x = None -> reported_tags x (decode_error_to_terr (bstr_err x)).
Proof. intros _. apply terr_reported; [apply bstr_reason|apply bstr_err_bad]. Qed.

Theorem item_error c junk me msg t payload dc e me' : reads 0 t msg -> length (v_tags me) = 4%nat ->
  verify_decode c junk me msg payload dc = Ret (DErr e, me') -> item_fault c (v_flags me) dc t e.
Proof.
  intros Ht Hv H. rewrite (decode_reads _ _ _ t) in H by exact Ht. unfold tree_decode in H.
  destruct (good t) eqn:Gt.
  2:{ injection H as <- _.
      assert (R : reported_tags t (decode_error_to_terr (i_err (item_of None t)))).
      { apply terr_reported; [auto|]. rewrite <- (good_err None) in Gt. intro X. rewrite X in Gt. discriminate. }
      assert (M : (exists l, body t = CArray l) \/ forall l, body t <> CArray l).
      { destruct (body t); try (right; intros; discriminate). left. eauto. }
      destruct M as [(l & Et)|M]; [|eapply if_type; eauto].
      unfold good in Gt. rewrite Et in Gt. cbn [err_of qd_ok andb] in Gt. unfold few_tags in Gt. apply Nat.leb_gt in Gt.
      rewrite item_of_eq, Et. cbn [err_of qd_ok negb i_err]. unfold few_tags. destruct (Nat.leb_spec (length (tags_of t)) 4); [lia|].
      eapply if_tags; eauto. }
  assert (M : (exists l, body t = CArray l) \/ forall l, body t <> CArray l).
  { destruct (body t); try (right; intros; discriminate). left. eauto. }
  destruct M as [(l & Et)|M].
  2:{ assert (X : e = ERR_SIGN1_FORMAT).
      { destruct (body t) eqn:B; try (injection H as <- _; reflexivity). now destruct (M l). }
      subst e. apply if_type; [exact M|]. left. left. reflexivity. }
  rewrite Et in H.
  assert (T4 : (length (tags_of t) <= 4)%nat) by (apply good_readable in Gt; apply Gt).
  rewrite process_tags_spec in H; [|reflexivity|cbn [mkd d_tags]; rewrite rev_length; exact T4|exact Hv].
  cbv zeta in H. cbn [mkd d_tags] in H. change TAG_COSE_SIGN1 with 18 in H.
  change OPT_TAG_REQUIRED with (2 ^ 2) in H. change OPT_TAG_PROHIBITED with (2 ^ 4) in H. rewrite !flag_bit in H.
  fold (requires_tag (v_flags me)) (prohibits_tag (v_flags me)) in H.
  set (tg := match rev (tags_of t) with n :: _ => n =? 18 | [] => false end) in H.
  destruct (requires_tag (v_flags me) && negb tg || prohibits_tag (v_flags me) && tg) eqn:B.
  { cbn [obind terr_eqb negb] in H. injection H as <- _. eapply if_option; [exact Et|]. unfold tags_fit. fold tg. cbv zeta.
    intros [A1 A2]. clear - A1 A2 B. destruct tg, (requires_tag (v_flags me)), (prohibits_tag (v_flags me)); try discriminate B;
      try (specialize (A1 eq_refl); discriminate); specialize (A2 eq_refl); discriminate. }
  cbn [obind] in H. rewrite terr_eqb_refl in H. cbn [negb] in H. clear B. clearbody tg.
  unfold elems_decode in H.
  destruct l as [|x0 l]; cbn [nth_error bstr_at] in H.
  { injection H as <- _. now apply if_empty. }
  destruct (plain_bytes x0) as [b|] eqn:Px.
  2:{ injection H as <- _. eapply if_prot_type; [exact Et|now apply plain_no|]. apply perr_reported, bstr_reason. }
  destruct x0; try discriminate Px. injection Px as ->.
  destruct (prot_bucket c b) as [[[[e1 p1] crit] unk1]|w] eqn:P1; cbn [obind] in H; [|discriminate].
  destruct (terr_eqb e1 T_SUCCESS) eqn:T1; cbn [negb] in H.
  2:{ injection H as <- _. eapply prot_item_error; eauto. intros ->. discriminate. }
  apply terr_eqb_eq in T1. subst e1.
  pose proof P1 as P1'. apply prot_bucket_iff in P1' as (pm & rest & Hpm & _).
  destruct l as [|u l]; cbn [unprot_bucket nth_error] in H.
  { cbn [obind] in H. injection H as <- _. eapply if_no_unprot; exact Et. }
  destruct (prot_known c b pm rest _ _ _ Hpm P1) as (St & Lk & ->).
  assert (Mu : (exists um, unprot_map u um) \/ (forall um, ~ unprot_map u um) /\
            exists q, (q = QD_UNEXPECTED_TYPE \/ q = i_err (item_of None u)) /\
              unprot_bucket c (Some u) p1 (ll_of (nonzero (int_labels pm)) (text_labels pm)) = Ret (perr q, p1, ll_of (nonzero (int_labels pm)) (text_labels pm))).
  { unfold unprot_map, unprot_bucket. destruct (good u) eqn:Gu.
    - destruct (body u) as [ | | | | |um| | | | ] eqn:Bu;
        try (right; split; [intros um [_ X]; discriminate|]; eexists; split; [left; reflexivity|reflexivity]).
      left. exists um. split; [now apply good_readable|reflexivity].
    - right. split; [intros um [X _]; apply good_readable in X; congruence|]. eexists. split; [right; reflexivity|reflexivity]. }
  destruct Mu as [(um & Ru & Eu)|(Mu & q & Hq & Q)].
  2:{ change (if good u then _ else _) with (unprot_bucket c (Some u) p1 (ll_of (nonzero (int_labels pm)) (text_labels pm))) in H.
      rewrite Q in H. cbn [obind] in H. rewrite (bad_eqb _ (perr_bad q)) in H. injection H as <- _.
      eapply if_unprot_type; [exact Et|exact Mu|]. now apply perr_reported. }
  pose proof Ru as Gu. apply good_readable in Gu. rewrite Gu, Eu in H.
  destruct (bucket c um p1 None _) as [[[[e2 p2] cr2] unk2]|w] eqn:P2; cbn [obind] in H; [|discriminate].
  destruct (reads_array_elems _ _ _ _ Ht Et) as (bs & Hl).
  destruct (reads_all_nth _ _ _ 1%nat u Hl eq_refl) as (bu & Hu).
  destruct (terr_eqb e2 T_SUCCESS) eqn:T2; cbn [negb] in H.
  2:{ injection H as <- _. eapply if_unprot_params; [exact Et|exact Hpm|split; [exact Ru|exact Eu]|]. apply (bare_fault c b).
      refine (unprot_error c 0 false (bare b um) pm _ _ _ _ _ (reads_map_labels _ _ _ _ Hu Eu) St Lk P2 _). intros ->. discriminate. }
  unfold pay_part in H. destruct dc.
  - destruct payload as [pl|]; [|discriminate]. cbn [obind] in H.
    destruct l as [|py l]; cbn [nth_error] in H.
    { injection H as <- _. eapply if_detached; [exact Et|reflexivity|intros; discriminate]. }
    destruct (is_null py) eqn:In.
    2:{ injection H as <- _. eapply if_detached; [exact Et|reflexivity|]. intros q l' X R. injection X as <- _.
        apply is_null_iff in R. congruence. }
    destruct l as [|sg l]; cbn [nth_error bstr_at] in H.
    { injection H as <- _. eapply if_no_signature; exact Et. }
    destruct (plain_bytes sg) as [s|] eqn:Ps.
    + destruct crit; cbn [need obind] in H; discriminate.
    + injection H as <- _. eapply if_signature_type; [exact Et|now apply plain_no|now apply bytes_reported].
  - cbn [obind] in H. destruct l as [|py l]; cbn [nth_error bstr_at] in H.
    { injection H as <- _. eapply if_no_payload; [exact Et|reflexivity]. }
    destruct (plain_bytes py) as [y|] eqn:Pb.
    2:{ injection H as <- _. eapply if_payload_type; [exact Et|reflexivity|now apply plain_no|now apply bytes_reported]. }
    destruct l as [|sg l]; cbn [nth_error bstr_at] in H.
    { injection H as <- _. eapply if_no_signature; exact Et. }
    destruct (plain_bytes sg) as [s|] eqn:Ps.
    + destruct crit; cbn [need obind] in H; discriminate.
    + injection H as <- _. eapply if_signature_type; [exact Et|now apply plain_no|now apply bytes_reported].
Qed.

(** A data item that is no message: an error that is true of it, no adapter call. *)
Theorem no_message_error c cr junk me msg t aad payload want dc log w :
  length (v_tags me) = 4%nat -> reads 0 t msg -> (forall g pm, ~ message msg g pm) ->
  verify_internal c cr junk me msg aad payload want dc = (log, Ret w) ->
  log = [] /\ w_err w <> T_SUCCESS /\ item_fault c (v_flags me) dc t (w_err w).
Proof.
  intros Hv Ht No H. unfold verify_internal in H.
  apply mbind_ret_inv in H as (l1 & [r me1] & l2 & H1 & H2 & ->). unfold mlift in H1. injection H1 as <- H1.
  destruct r as [e|m].
  - injection H2 as <- <-. cbn [w_err app]. split; [reflexivity|]. split; [|eapply item_error; eassumption].
    intros ->. exact (decode_no_success _ _ _ _ _ _ _ H1).
  - exfalso. apply decode_iff in H1 as (g & pm & Hm & _); [|exact Hv]. exact (No _ _ Hm).
Qed.

(** ** Well-formed items are not called malformed *)

Lemma part_body x c : part x (body c) -> part x c.
Proof. induction c; cbn [body]; auto. intro H. constructor. auto. Qed.

Lemma part_body_self c y : body c = y -> part y c.
Proof. intros <-. apply part_body. constructor. Qed.

Lemma part_trans x y c : part x y -> part y c -> part x c.
Proof. intro H. induction 1; [exact H|constructor; auto|eapply pt_elem; eauto|eapply pt_key; eauto|eapply pt_value; eauto]. Qed.

Lemma part_values z v m : In v (values z m) -> part v (CMap m).
Proof.
  intro H. apply in_map_iff in H as ([k v'] & <- & H). apply filter_In in H as [H _]. eapply pt_value; [exact H|constructor].
Qed.

Lemma formed_part c x : all_formed c -> part x c -> all_formed x.
Proof. intros F P b Q. apply (F b). eapply part_trans; eassumption. Qed.

Lemma formed_body c x : all_formed c -> body c = x -> all_formed x.
Proof. intros F E. eapply formed_part; [exact F|]. now apply part_body_self. Qed.

Lemma formed_no_junk c b : all_formed c -> body c = CJunk b -> False.
Proof. intros F E. apply (F b). now apply part_body_self. Qed.

Lemma formed_elem t l x : all_formed t -> body t = CArray l -> In x l -> all_formed x.
Proof. intros F E I. eapply formed_part; [eapply formed_body; eassumption|]. eapply pt_elem; [exact I|constructor]. Qed.

Lemma not_reported e0 x : e0 <> ERR_CBOR_NOT_WELL_FORMED -> all_formed x -> ~ reported e0 x ERR_CBOR_NOT_WELL_FORMED.
Proof. intros N F [E|(_ & b & J)]; [congruence|]. eapply formed_no_junk; eassumption. Qed.

Lemma not_reported_tags x : all_formed x -> ~ reported_tags x ERR_CBOR_NOT_WELL_FORMED.
Proof. intros F [R|(E & _)]; [|discriminate]. eapply not_reported; [|exact F|exact R]. discriminate. Qed.

Lemma params_formed c pm um : all_formed (CMap pm) -> all_formed (CMap um) ->
  (forall v xs y, In v (values 2 pm) -> body v = CArray xs -> In y xs -> readable y) ->
  ~ params_fault c pm um ERR_CBOR_NOT_WELL_FORMED.
Proof.
  intros F1 F2 Cr [(z & v & b & _ & I & J)|[(v & xs & y & I & E & Iy & R)|(b & J)]].
  - unfold all_params in I. rewrite values_app in I. apply in_app_or in I as [I|I]; apply part_values in I.
    + exact (formed_no_junk _ _ (formed_part _ _ F1 I) J).
    + exact (formed_no_junk _ _ (formed_part _ _ F2 I) J).
  - exact (R (Cr _ _ _ I E Iy)).
  - discriminate J.
Qed.

Lemma prot_map_formed b pm rest : prot_formed b -> protected_map b pm rest ->
  all_formed (CMap pm) /\ forall v xs y, In v (values 2 pm) -> body v = CArray xs -> In y xs -> readable y.
Proof.
  intros P [(-> & -> & _)|(x & bx & E & R & _ & Em)].
  - split; [|intros v xs y []]. intros j H. inversion H; subst; match goal with H : In _ [] |- _ => destruct H end.
  - destruct P as [->|P].
    { exfalso. symmetry in E. apply app_eq_nil in E as [-> _].
      destruct (reads_get_item _ _ _ R) as (hb & ? & ? & Eb & Hh & _). destruct hb; [contradiction|discriminate]. }
    destruct P as [(w & r & Ew & Hw) Cr].
    assert (F : all_formed x) by (refine (agree_formed _ _ _ _ w r rest (le_n _) R Hw _); congruence).
    split; [eapply formed_body; eassumption|]. intros v xs y. eapply Cr; eassumption.
Qed.

Theorem formed_no_fault c flags dc t : all_formed t -> (forall b l, body t = CArray (CBytes b :: l) -> prot_formed b) ->
  ~ item_fault c flags dc t ERR_CBOR_NOT_WELL_FORMED.
Proof.
  intros F P H.
  assert (Fe : forall l, body t = CArray l -> forall x, In x l -> all_formed x) by (intros; eapply formed_elem; eassumption).
  inversion H as [? ? R| | | |x l ? Et _ R|b l x bx rest ? Et Eb R Nm Rp|b l ? Et Nb Nr Mf|b l pm rest ? Et Hp Pf|
                  |b x l ? Et _ R|b pm rest x um l ? Et Hp Hu Pf| | |b x p l ? Et _ _ R| |b x p s l ? Et _ R]; subst.
  - exact (not_reported_tags t F R).
  - refine (not_reported _ _ _ (Fe _ Et x _) R); [discriminate|now left].
  - destruct (P _ _ Et) as [Z|((w & r & Ew & Hw) & _)].
    + apply app_eq_nil in Z as [-> _].
      destruct (reads_get_item _ _ _ R) as (hb & ? & ? & Eb & Hh & _). destruct hb; [contradiction|discriminate].
    + refine (not_reported _ x _ _ Rp); [discriminate|]. refine (agree_formed _ _ _ _ w r rest (le_n _) R Hw _). auto.
  - destruct Mf as [[Mf|(_ & Mf)]|(Mf & _)]; [discriminate| |discriminate].
    destruct (P _ _ Et) as [->|((w & r & E & Hw) & _)]; [now apply Nb|]. exact (Mf w r E Hw).
  - destruct (prot_map_formed _ _ _ (P _ _ Et) Hp) as [F1 Cr]. refine (params_formed _ _ _ F1 _ Cr Pf).
    intros j X. inversion X; subst; match goal with H : In _ [] |- _ => destruct H end.
  - refine (not_reported _ _ _ (Fe _ Et x _) R); [discriminate|right; now left].
  - destruct (prot_map_formed _ _ _ (P _ _ Et) Hp) as [F1 Cr]. refine (params_formed _ _ _ F1 _ Cr Pf).
    destruct Hu as [_ Eu]. eapply formed_body; [|exact Eu]. apply (Fe _ Et). right. now left.
  - refine (not_reported_tags _ (Fe _ Et p _) R). right. right. now left.
  - refine (not_reported_tags _ (Fe _ Et s _) R). right. right. right. now left.
Qed.

Theorem well_formed_error c cr junk me msg t aad payload want dc w ad gv :
  length (v_tags me) = 4%nat -> holds aad ad -> detached_arg dc payload gv ->
  reads 0 t msg -> all_formed t -> (forall b l, body t = CArray (CBytes b :: l) -> prot_formed b) ->
  verify_internal c cr junk me msg aad payload want dc = ([], Ret w) -> w_err w <> ERR_CBOR_NOT_WELL_FORMED.
Proof.
  intros Hv HA HG Ht F P H E.
  assert (N : w_err w <> T_SUCCESS) by (rewrite E; discriminate).
  pose proof (verify_error _ _ _ _ _ _ _ _ _ _ _ _ _ Hv HA HG H N) as X. rewrite E in X.
  unfold verify_internal in H.
  apply mbind_ret_inv in H as (l1 & [r me1] & l2 & H1 & H2 & E0). unfold mlift in H1. injection H1 as <- H1.
  destruct r as [e|m].
  - injection H2 as <- <-. cbn [w_err] in E. subst e. apply (item_error _ _ _ _ t) in H1; auto. now apply formed_no_fault in H1.
  - destruct X as [(_ & _ & X)|(g & pm & Hm & [(_ & X)|(p & pl & _ & X)])].
    + apply decode_iff in H1 as (g & pm & Hm & _); [|exact Hv]. specialize (X g pm Hm).
      destruct Hm as (t' & rest & Ht' & (_ & _ & u & Ru & Eu & Et) & Hp).
      destruct (reads_unique _ _ _ _ _ _ [] [] Ht Ht' eq_refl) as (<- & _ & _).
      destruct (prot_map_formed _ _ _ (P _ _ Et) Hp) as [F1 Cr].
      assert (F2 : all_formed (CMap (g_unprot g))).
      { eapply formed_body; [|exact Eu]. eapply formed_elem; [exact F|exact Et|]. right. now left. }
      refine (params_formed c pm (g_unprot g) F1 F2 Cr _).
      destruct X as [X|[X|(b & J)]]; [left; exact X|right; left; exact X|exfalso].
      refine (formed_no_junk _ b _ J). eapply formed_elem; [exact F|exact Et|]. right. right. now left.
    + exact X.
    + destruct X as [(_ & [(X & _)|[(X & _)|[(X & _)|[(X & _)|(before & ev & X & _)]]]])|(X & _)]; try discriminate.
      destruct before; discriminate.
Qed.
