(** When a bucket of header parameters is accepted. *)
From Verif Require Import Base Const QEnc QDec Spec DecSpec BaseFacts DecFacts DecSkip DecCtx Params ParamFacts
  VerifySpec.
From Coq Require Import Lia ZifyBool ZifyNat ZifyN.
Ltac Zify.zify_post_hook ::= Z.div_mod_to_equations.
Open Scope N_scope.
Local Open Scope mon_scope.

(** ** The search *)

Definition matches (s : slot) (es : list entry) : list entry :=
  filter (fun e => label_is (sl_label s) (en_label e)) es.

Definition slot_rel (es : list entry) (s s' : slot) : Prop :=
  sl_label s' = sl_label s /\ sl_type s' = sl_type s /\
  match sl_found s with
  | Some e => matches s es = [] /\ sl_found s' = Some e
  | None =>
    (matches s es = [] /\ sl_found s' = None) \/
    exists e, matches s es = [e] /\ i_err (en_item e) = QD_SUCCESS /\
              type_matches (sl_type s) (i_val (en_item e)) = true /\ sl_found s' = Some e
  end.

Lemma label_is_fun z z' l : label_is z l = true -> label_is z' l = true -> z = z'.
Proof. destruct l; try discriminate. cbn. intros. lia. Qed.

Lemma slot_rel_skip e es s s' :
  label_is (sl_label s) (en_label e) = false -> slot_rel (e :: es) s s' <-> slot_rel es s s'.
Proof. intro H. unfold slot_rel, matches. cbn [filter]. rewrite H. reflexivity. Qed.

Lemma slots_skip e es ss ss' :
  Forall (fun s => label_is (sl_label s) (en_label e) = false) ss ->
  Forall2 (slot_rel (e :: es)) ss ss' <-> Forall2 (slot_rel es) ss ss'.
Proof.
  intro A. split; intro F; induction F as [|s s' ss ss' R F IH]; constructor;
    inversion A; subst; auto; now apply (slot_rel_skip e).
Qed.

Lemma qd_ok_iff x : qd_ok x = true <-> x = QD_SUCCESS.
Proof. destruct x; cbn; split; intro; congruence. Qed.

Lemma slots_step e es ss ss' :
  NoDup (map sl_label ss) ->
  Forall2 (slot_rel (e :: es)) ss ss' <->
  match fill_slots ss e with
  | Some (inl _) => False
  | Some (inr r) => Forall2 (slot_rel es) r ss'
  | None => Forall2 (slot_rel es) ss ss'
  end.
Proof.
  revert ss'. induction ss as [|s ss IH]; intros ss' ND; cbn [fill_slots].
  { split; intro H; inversion H; constructor. }
  cbn [map] in ND. inversion ND as [|? ? NI ND']. subst.
  destruct (label_is (sl_label s) (en_label e)) eqn:E.
  - assert (Sk : Forall (fun s => label_is (sl_label s) (en_label e) = false) ss).
    { apply Forall_forall. intros s1 I1. destruct (label_is (sl_label s1) (en_label e)) eqn:E1; [|reflexivity].
      exfalso. apply NI. rewrite (label_is_fun _ _ _ E E1). apply (List.in_map sl_label); assumption. }
    assert (M : matches s (e :: es) = e :: matches s es) by (unfold matches; cbn [filter]; now rewrite E).
    destruct (sl_found s) as [e0|] eqn:F0.
    { split; [|contradiction]. intro H. inversion H as [|? s' ? ss2 (_ & _ & H1) H2]. subst.
      rewrite F0, M in H1. destruct H1. discriminate. }
    destruct (qd_ok (i_err (en_item e))) eqn:Q; cbn [negb].
    2:{ split; [|contradiction]. intro H. inversion H as [|? s' ? ss2 (_ & _ & H1) H2]. subst.
        rewrite F0, M in H1. destruct H1 as [(H1 & _)|(e1 & H1 & H3 & _)]; [discriminate|].
        injection H1 as <- _. apply qd_ok_iff in H3. congruence. }
    destruct (type_matches (sl_type s) (i_val (en_item e))) eqn:T.
    2:{ split; [|contradiction]. intro H. inversion H as [|? s' ? ss2 (_ & _ & H1) H2]. subst.
        rewrite F0, M in H1. destruct H1 as [(H1 & _)|(e1 & H1 & _ & H3 & _)]; [discriminate|].
        injection H1 as <- _. congruence. }
    split; intro H; inversion H as [|? s' ? ss2 (H1 & H2 & H3) H4]; subst; (constructor; [|now apply (slots_skip e es ss ss2 Sk)]).
    + rewrite F0, M in H3. destruct H3 as [(H3 & _)|(e1 & H3 & _ & _ & H5)]; [discriminate|].
      injection H3 as <- H3. split; [exact H1|]. split; [exact H2|].
      cbn [slot_fill sl_found]. split; [|exact H5]. exact H3.
    + cbn [slot_fill sl_found sl_label sl_type] in *. split; [exact H1|]. split; [exact H2|]. rewrite F0.
      right. exists e. destruct H3 as [H3 H5]. rewrite M. unfold matches in *. cbn [sl_label slot_fill] in H3.
      rewrite H3. apply qd_ok_iff in Q. auto.
  - assert (Hd : forall s' ss2, Forall2 (slot_rel (e :: es)) (s :: ss) (s' :: ss2) <->
                slot_rel es s s' /\ Forall2 (slot_rel (e :: es)) ss ss2).
    { intros s' ss2. split.
      - intro H. inversion H. subst. split; [now apply (slot_rel_skip e)|assumption].
      - intros [H1 H2]. constructor; [now apply (slot_rel_skip e)|assumption]. }
    destruct ss' as [|s' ss2].
    { split; [intro H; inversion H|]. destruct (fill_slots ss e) as [[x|r]|]; intro H; [contradiction|inversion H|inversion H]. }
    rewrite Hd, (IH ss2 ND').
    destruct (fill_slots ss e) as [[x|r]|].
    + tauto.
    + split; [intros [H1 H2]; constructor; assumption|intro H; inversion H; auto].
    + split; [intros [H1 H2]; constructor; assumption|intro H; inversion H; auto].
Qed.

Lemma fill_slots_labels ss e r : fill_slots ss e = Some (inr r) -> map sl_label r = map sl_label ss.
Proof.
  revert r. induction ss as [|s ss IH]; intros r; cbn [fill_slots]; [discriminate|].
  destruct (label_is _ _).
  - destruct (sl_found s); [discriminate|]. destruct (negb _); [discriminate|].
    destruct (type_matches _ _); [|discriminate]. intro X. injection X as <-. reflexivity.
  - destruct (fill_slots ss e) as [[x|r']|]; try discriminate. intro X. injection X as <-. cbn. now rewrite IH.
Qed.

Lemma fill_slots_err ss e x : fill_slots ss e = Some (inl x) -> x <> QD_SUCCESS.
Proof.
  induction ss as [|s ss IH]; cbn [fill_slots]; [discriminate|].
  destruct (label_is _ _).
  - destruct (sl_found s); [intro X; injection X as <-; discriminate|].
    destruct (qd_ok (i_err (en_item e))) eqn:Q; cbn [negb].
    + destruct (type_matches _ _); [discriminate|]. intro X. injection X as <-. discriminate.
    + intro X. injection X as <-. intro Y. rewrite Y in Q. discriminate.
  - destruct (fill_slots ss e) as [[y|r']|]; try discriminate. intro X. apply IH. injection X as ->. reflexivity.
Qed.

(** Does some slot take this entry? *)
Definition slotted (ss : list slot) (e : entry) : bool :=
  existsb (fun s => label_is (sl_label s) (en_label e)) ss.

Lemma fill_slots_none ss e : fill_slots ss e = None <-> slotted ss e = false.
Proof.
  induction ss as [|s ss IH]; cbn [fill_slots slotted existsb]; [tauto|].
  destruct (label_is _ _); cbn [orb]; [split; discriminate|]. fold (slotted ss e).
  destruct (fill_slots ss e) as [[x|r]|]; rewrite <- IH; split; congruence.
Qed.

Lemma slotted_labels ss ss' e : map sl_label ss = map sl_label ss' -> slotted ss e = slotted ss' e.
Proof.
  revert ss'. induction ss as [|s ss IH]; intros [|s' ss'] H; try discriminate; [reflexivity|].
  cbn [map] in H. injection H as H1 H2. unfold slotted. cbn [existsb]. rewrite H1. f_equal. now apply IH.
Qed.

(** The callback on the entries no slot takes. *)
Fixpoint run_cb {S} (cb : S -> entry -> out (S * bool)) (st : S) (es : list entry) : out (option S) :=
  match es with
  | [] => Ret (Some st)
  | e :: r => let? (st', ok) := cb st e in if ok : bool then run_cb cb st' r else Ret None
  end.

Lemma search_iff {S} (cb : S -> entry -> out (S * bool)) es ss st ss' st' :
  NoDup (map sl_label ss) ->
  search_entries cb ss st es = Ret (ss', st', QD_SUCCESS) <->
  Forall2 (slot_rel es) ss ss' /\ run_cb cb st (filter (fun e => negb (slotted ss e)) es) = Ret (Some st').
Proof.
  revert ss st. induction es as [|e es IH]; intros ss st ND; cbn [search_entries filter].
  - split.
    + intro H. injection H as <- <-. split; [|reflexivity]. clear. induction ss as [|s ss IH]; constructor; auto.
      unfold slot_rel. cbn. repeat split. destruct (sl_found s); auto.
    + intros [H1 H2]. cbn in H2. injection H2 as <-. repeat f_equal. clear - H1.
      induction H1 as [|s s' ss ss' H H1 IH]; [reflexivity|]. f_equal; [|exact IH].
      destruct s as [a b f], s' as [a' b' f'], H as (H2 & H3 & H4). cbn in *. subst.
      destruct f; [now destruct H4; subst|]. destruct H4 as [[_ ->]|(x & H4 & _)]; [reflexivity|discriminate].
  - rewrite slots_step by exact ND.
    destruct (fill_slots ss e) as [[x|r]|] eqn:F.
    + split; [|tauto]. intro H. injection H as _ _ ->. now apply fill_slots_err in F.
    + assert (Sl : slotted ss e = true).
      { destruct (slotted ss e) eqn:X; [reflexivity|]. apply fill_slots_none in X. congruence. }
      rewrite Sl. cbn [negb]. pose proof (fill_slots_labels _ _ _ F) as L. rewrite IH by now rewrite L.
      erewrite filter_ext; [reflexivity|]. intro a. cbn. now rewrite (slotted_labels r ss a L).
    + rewrite (proj1 (fill_slots_none ss e) F). cbn [negb run_cb].
      destruct (cb st e) as [[st1 ok]|w]; cbn [obind].
      * destruct ok; [now apply IH|]. split; [intro H; discriminate H|intros [_ H]; discriminate H].
      * split; [discriminate|intros [_ H]; discriminate].
Qed.

(** The search fails with undefined behaviour only if the callback does. *)
Lemma search_ret {S} (cb : S -> entry -> out (S * bool)) (I : S -> Prop) es :
  (forall st e, I st -> exists st' ok, cb st e = Ret (st', ok) /\ I st') ->
  forall ss st, I st -> exists ss' st' x, search_entries cb ss st es = Ret (ss', st', x) /\ I st'.
Proof.
  intro Hcb. induction es as [|e es IH]; intros ss st Hi; cbn [search_entries]; [eauto 10|].
  destruct (fill_slots ss e) as [[x|r]|]; [eauto 10|now apply IH|].
  destruct (Hcb st e Hi) as (st' & ok & -> & Hi'). cbn [obind]. destruct ok; [now apply IH|eauto 10].
Qed.

(** ** Labels *)

Lemma has_label_int z kv : (z <> 0)%Z -> has_label z kv = has_int z (fst kv).
Proof.
  intro Hz. unfold has_label, kv_label, has_int, int_value, label_is, as_label, val_of.
  change INT64_LIMIT with (2 ^ 63).
  destruct (body (fst kv)) as [n|n|b|b|l|l|n x|n|b|b]; try lia; try destruct (n <? 2 ^ 63); try reflexivity; try lia;
    destruct (n =? 22); lia.
Qed.

Lemma matches_values z t f l :
  (z <> 0)%Z ->
  matches {| sl_label := z; sl_type := t; sl_found := f |} (map norm_entry l)
  = map norm_entry (filter (fun kv => has_int z (fst kv)) l).
Proof.
  intro Hz. unfold matches. cbn [sl_label]. induction l as [|kv l IH]; [reflexivity|].
  cbn [map filter]. change (label_is z (en_label (norm_entry kv))) with (has_label z kv).
  rewrite has_label_int by exact Hz. destruct (has_int z (fst kv)); cbn [map]; now rewrite IH.
Qed.

Definition slot_type (z : Z) : qtype :=
  if (z =? 1)%Z then QT_INT64 else if (z =? 3)%Z then QT_ANY else QT_BSTR.

(** The item with label [z], as the decoder delivers it. *)
Definition found (z : Z) (l : params_map) : option val :=
  match values z l with v :: _ => Some (val_of None (body v)) | [] => None end.

(** At most one parameter with label [z], of type [t]. *)
Definition single (t : qtype) (vs : list cbor) : Prop :=
  vs = [] \/ exists v, vs = [v] /\ good v = true /\ type_matches t (val_of None (body v)) = true.

Definition singles (l : params_map) : Prop :=
  single QT_INT64 (values 1 l) /\ single QT_BSTR (values 4 l) /\ single QT_BSTR (values 5 l) /\
  single QT_BSTR (values 6 l) /\ single QT_ANY (values 3 l).

Lemma slot_rel_single z t l s' :
  (z <> 0)%Z -> slot_rel (map norm_entry l) (mk_slot z t) s' ->
  single t (values z l) /\
  (match sl_found s' with Some e => Some (i_val (en_item e)) | None => None end) = found z l.
Proof.
  intros Hz (_ & _ & H). cbn [mk_slot sl_found sl_type] in H. unfold mk_slot in H.
  rewrite matches_values in H by exact Hz. unfold single, found, values.
  destruct H as [[H1 H2]|(e & H1 & H2 & H3 & H4)].
  - apply map_eq_nil in H1. rewrite H1, H2. cbn. auto.
  - destruct (filter _ l) as [|kv [|]]; try discriminate. cbn [map] in *. injection H1 as <-.
    unfold norm_entry in *. cbn [en_item] in *. rewrite item_of_val in H3.
    assert (G : good (snd kv) = true) by (rewrite <- (good_err None), H2; reflexivity).
    split; [right; eauto|]. rewrite H4. cbn [en_item]. now rewrite item_of_val.
Qed.

Definition slot_of (z : Z) (t : qtype) (l : params_map) : slot :=
  {| sl_label := z; sl_type := t;
     sl_found := hd_error (map norm_entry (filter (fun kv => has_int z (fst kv)) l)) |}.

Lemma single_slot_rel z t l :
  (z <> 0)%Z -> single t (values z l) -> slot_rel (map norm_entry l) (mk_slot z t) (slot_of z t l).
Proof.
  intros Hz H. unfold slot_rel. cbn [mk_slot slot_of sl_label sl_type sl_found]. repeat split.
  unfold mk_slot. rewrite matches_values by exact Hz.
  unfold single, values in H. destruct (filter _ l) as [|kv [|]]; cbn [map hd_error] in *.
  - auto.
  - right. destruct H as [H|(v & H1 & H2 & H3)]; [discriminate|]. injection H1 as <-.
    exists (norm_entry kv). unfold norm_entry. cbn [en_item]. rewrite item_of_val.
    repeat split; [|exact H3]. apply qd_ok_iff. now rewrite good_err.
  - destruct H as [H|(v & H1 & _)]; discriminate.
Qed.

(** Parameters copied out, given what was found. *)
Definition take (c : cfg) (prot : bool) (l : params_map) (p : params) : terr * params :=
  tbind (take_alg prot (found 1 l) p) (fun p =>
  tbind (take_bstr p_kid p_set_kid (found 4 l) p) (fun p =>
  tbind (take_bstr p_iv p_set_iv (found 5 l) p) (fun p =>
  tbind (take_bstr p_partial_iv p_set_partial_iv (found 6 l) p) (fun p =>
  take_content_type c (found 3 l) p) id) id) id) id.

(** The labels the callback records. *)
Definition unknown_entries (l : params_map) : params_map :=
  filter (fun kv => negb (understood (fst kv))) l.

Fixpoint add_all (l : list label) (ll : llist) : out (option llist) :=
  match l with
  | [] => Ret (Some ll)
  | x :: r => let? (e, ll) := add_label_to_list x ll in
              if terr_eqb e T_SUCCESS then add_all r ll else Ret None
  end.

Lemma run_cb_add l unk :
  match run_cb header_parameter_callback (unk, T_SUCCESS)
          (filter (fun e => negb (slotted header_slots e)) (map norm_entry l)) with
  | Ret (Some st) => add_all (map kv_label (unknown_entries l)) unk = Ret (Some (fst st)) /\ snd st = T_SUCCESS
  | Ret None => add_all (map kv_label (unknown_entries l)) unk = Ret None
  | UB w => add_all (map kv_label (unknown_entries l)) unk = UB w
  end.
Proof.
  revert unk. induction l as [|kv l IH]; intro unk; [cbn; auto|].
  cbn [map filter unknown_entries].
  assert (Sl : slotted header_slots (norm_entry kv) = existsb (fun z => has_int z (fst kv)) [1; 3; 4; 5; 6]%Z).
  { unfold slotted, header_slots. cbn [existsb mk_slot sl_label].
    change (label_is LABEL_ALG (en_label (norm_entry kv))) with (has_label 1 kv).
    change (label_is LABEL_KID (en_label (norm_entry kv))) with (has_label 4 kv).
    change (label_is LABEL_IV (en_label (norm_entry kv))) with (has_label 5 kv).
    change (label_is LABEL_PARTIAL_IV (en_label (norm_entry kv))) with (has_label 6 kv).
    change (label_is LABEL_CONTENT_TYPE (en_label (norm_entry kv))) with (has_label 3 kv).
    rewrite !has_label_int by lia.
    destruct (has_int 1 (fst kv)), (has_int 3 (fst kv)), (has_int 4 (fst kv)), (has_int 5 (fst kv)), (has_int 6 (fst kv)); reflexivity. }
  assert (U : understood (fst kv) = slotted header_slots (norm_entry kv) || has_int 2 (fst kv)).
  { rewrite Sl. unfold understood. cbn [existsb].
    destruct (has_int 1 (fst kv)), (has_int 2 (fst kv)), (has_int 3 (fst kv)), (has_int 4 (fst kv)), (has_int 5 (fst kv)), (has_int 6 (fst kv)); reflexivity. }
  rewrite U. destruct (slotted header_slots (norm_entry kv)); cbn [negb orb]; [apply IH|].
  cbn [run_cb]. unfold header_parameter_callback at 1.
  change (label_is LABEL_CRIT (en_label (norm_entry kv))) with (has_label 2 kv). rewrite has_label_int by lia.
  destruct (has_int 2 (fst kv)); cbn [negb fst]; [apply IH|].
  cbn [map add_all]. change (en_label (norm_entry kv)) with (kv_label kv).
  destruct (add_label_to_list (kv_label kv) unk) as [[e ll]|w]; cbn [obind]; [|reflexivity].
  destruct (terr_eqb e T_SUCCESS) eqn:T; [|reflexivity]. apply terr_eqb_eq in T. subst e. apply IH.
Qed.

Lemma header_nodup : NoDup (map sl_label header_slots).
Proof.
  cbn [header_slots map mk_slot sl_label]. unfold LABEL_ALG, LABEL_KID, LABEL_IV, LABEL_PARTIAL_IV, LABEL_CONTENT_TYPE.
  repeat constructor; cbn [In]; lia.
Qed.

Lemma header_slots_rel l :
  singles l -> exists ss, Forall2 (slot_rel (map norm_entry l)) header_slots ss.
Proof.
  intros (H1 & H4 & H5 & H6 & H3). eexists. unfold header_slots.
  repeat (constructor; [apply single_slot_rel; [discriminate|assumption]|]). constructor.
Qed.

Lemma header_slots_inv l ss :
  Forall2 (slot_rel (map norm_entry l)) header_slots ss ->
  singles l /\ forall c prot p, take_all c prot ss p = take c prot l p.
Proof.
  intro F. unfold header_slots in F.
  inversion F as [|? s1 ? ss1 R1 F1]; subst. inversion F1 as [|? s4 ? ss4 R4 F4]; subst.
  inversion F4 as [|? s5 ? ss5 R5 F5]; subst. inversion F5 as [|? s6 ? ss6 R6 F6]; subst.
  inversion F6 as [|? s3 ? ss3 R3 F3]; subst. inversion F3; subst.
  apply slot_rel_single in R1 as [S1 E1]; [|discriminate]. apply slot_rel_single in R4 as [S4 E4]; [|discriminate].
  apply slot_rel_single in R5 as [S5 E5]; [|discriminate]. apply slot_rel_single in R6 as [S6 E6]; [|discriminate].
  apply slot_rel_single in R3 as [S3 E3]; [|discriminate].
  unfold LABEL_ALG, LABEL_KID, LABEL_IV, LABEL_PARTIAL_IV, LABEL_CONTENT_TYPE in *.
  split; [repeat split; assumption|]. intros c prot p. unfold take_all, take.
  assert (V : forall n s, nth_error [s1; s4; s5; s6; s3] n = Some s ->
            slot_val [s1; s4; s5; s6; s3] n = match sl_found s with Some e => Some (i_val (en_item e)) | None => None end).
  { intros n s H. unfold slot_val. rewrite H. destruct s as [a b [e|]]; reflexivity. }
  rewrite (V 0%nat s1), (V 1%nat s4), (V 2%nat s5), (V 3%nat s6), (V 4%nat s3) by reflexivity.
  rewrite E1, E4, E5, E6, E3. reflexivity.
Qed.

(** *** When a bucket is accepted *)

Theorem bucket_iff c l p crit unk p' crit' unk' :
  bucket c l p crit unk = Ret (T_SUCCESS, p', crit', unk') <->
  singles l /\
  take c (match crit with Some _ => true | None => false end) l p = (T_SUCCESS, p') /\
  crit_result l crit = Ret (T_SUCCESS, crit') /\
  add_all (map kv_label (unknown_entries l)) unk = Ret (Some unk').
Proof.
  unfold bucket.
  destruct (search_entries header_parameter_callback header_slots (unk, T_SUCCESS) (map norm_entry l))
    as [[[ss st] x]|w] eqn:S.
  - cbn [obind].
    assert (Eq : x = QD_SUCCESS <-> singles l /\ exists unk', add_all (map kv_label (unknown_entries l)) unk = Ret (Some unk')).
    { split.
      - intros ->. apply search_iff in S as [S1 S2]; [|apply header_nodup].
        apply header_slots_inv in S1 as [S1 _]. split; [exact S1|].
        pose proof (run_cb_add l unk) as K. rewrite S2 in K. exists (fst st). apply K.
      - intros [H1 (u & H2)]. destruct (header_slots_rel l H1) as (ss2 & H3).
        pose proof (run_cb_add l unk) as K.
        destruct (run_cb _ _ _) as [[st2|]|] eqn:RC; try congruence.
        assert (X : search_entries header_parameter_callback header_slots (unk, T_SUCCESS) (map norm_entry l) = Ret (ss2, st2, QD_SUCCESS)).
        { apply search_iff; [apply header_nodup|]. auto. }
        congruence. }
    destruct (qd_ok x) eqn:Qx.
    2:{ assert (N : x <> QD_SUCCESS) by (intros ->; discriminate). split.
        - intro H. exfalso. destruct x; try (cbn in H; discriminate H); [contradiction|].
          injection H as H _ _ _. destruct st as [u e]. cbn [snd] in H. subst e. apply search_callback_fail in S. apply S. reflexivity.
        - intros (H1 & _ & _ & H4). exfalso. apply N. apply Eq. eauto. }
    apply qd_ok_iff in Qx. subst x. clear Eq.
    apply search_iff in S as [S1 S2]; [|apply header_nodup].
    apply header_slots_inv in S1 as [S1 T]. rewrite T. clear T.
    pose proof (run_cb_add l unk) as K. rewrite S2 in K. destruct K as [K _].
    destruct (take c _ l p) as [err p1].
    destruct (terr_eqb err T_SUCCESS) eqn:Te; cbn [negb].
    + apply terr_eqb_eq in Te. subst err. destruct (crit_result l crit) as [[e cr']|w]; cbn [obind].
      * split.
        -- intro H. injection H as -> <- <- <-. auto.
        -- intros (_ & H2 & H3 & H4). injection H2 as ->. injection H3 as -> ->. rewrite K in H4. injection H4 as ->. reflexivity.
      * split; [discriminate|intros (_ & _ & H & _); discriminate].
    + split.
      * intro H. injection H as -> _ _ _. discriminate.
      * intros (_ & H & _). injection H as -> _. discriminate.
  - split; [discriminate|]. intros (H1 & _ & _ & H4). exfalso.
    destruct (header_slots_rel l H1) as (ss2 & H3). pose proof (run_cb_add l unk) as K.
    destruct (run_cb _ _ _) as [[st2|]|] eqn:RC; try congruence.
    assert (X : search_entries header_parameter_callback header_slots (unk, T_SUCCESS) (map norm_entry l) = Ret (ss2, st2, QD_SUCCESS)).
    { apply search_iff; [apply header_nodup|]. auto. }
    congruence.
Qed.
