(** What the errors of decoding and verification say. *)
From Verif Require Import Base Const QEnc QDec Spec DecSpec BaseFacts DecFacts DecSkip DecCtx Params ParamFacts DecSim
  Crypto Util ShortCircuit Verify VerifyDec BucketFacts LabelFacts VerifySafe VerifyFacts VerifySpec PassSpec ErrorSpec.
From Coq Require Import Lia ZifyBool ZifyNat ZifyN.
Ltac Zify.zify_post_hook ::= Z.div_mod_to_equations.
Open Scope N_scope.
Local Open Scope mon_scope.

(** ** The search *)

Lemma search_fails l ss st ss' st' x :
  search_entries header_parameter_callback ss st (map norm_entry l) = Ret (ss', st', x) -> x <> QD_SUCCESS ->
  exists before kv after ss0 st0, l = before ++ kv :: after /\
    search_entries header_parameter_callback ss st (map norm_entry before) = Ret (ss0, st0, QD_SUCCESS) /\
    (fill_slots ss0 (norm_entry kv) = Some (inl x) \/
     fill_slots ss0 (norm_entry kv) = None /\ header_parameter_callback st0 (norm_entry kv) = Ret (st', false) /\ x = QD_CALLBACK_FAIL).
Proof.
  revert ss st. induction l as [|kv l IH]; intros ss st; cbn [map search_entries].
  { intro H. injection H as _ _ <-. contradiction. }
  intros H N. destruct (fill_slots ss (norm_entry kv)) as [[y|r]|] eqn:F.
  - injection H as _ _ <-. exists [], kv, l, ss, st. cbn. auto.
  - destruct (IH _ _ H N) as (b & kv' & a & ss0 & st0 & -> & S & R). exists (kv :: b), kv', a, ss0, st0.
    cbn [map search_entries app]. rewrite F. auto.
  - destruct (header_parameter_callback st (norm_entry kv)) as [[st1 ok]|w] eqn:C; cbn [obind] in H; [|discriminate].
    destruct ok.
    + destruct (IH _ _ H N) as (b & kv' & a & ss0 & st0 & -> & S & R). exists (kv :: b), kv', a, ss0, st0.
      cbn [map search_entries app]. rewrite F, C. cbn [obind]. auto.
    + injection H as _ <- <-. exists [], kv, l, ss, st. cbn. rewrite F. auto 10.
Qed.

Lemma fill_error ss e x : fill_slots ss e = Some (inl x) ->
  exists s, In s ss /\ label_is (sl_label s) (en_label e) = true /\
    ((exists e0, sl_found s = Some e0 /\ x = QD_DUPLICATE_LABEL) \/
     (x = i_err (en_item e) /\ qd_ok x = false) \/
     (i_err (en_item e) = QD_SUCCESS /\ type_matches (sl_type s) (i_val (en_item e)) = false /\ x = QD_UNEXPECTED_TYPE)).
Proof.
  induction ss as [|s ss IH]; cbn [fill_slots]; [discriminate|].
  destruct (label_is (sl_label s) (en_label e)) eqn:L.
  - intro H. exists s. split; [left; reflexivity|]. split; [exact L|].
    destruct (sl_found s) as [e0|]; [injection H as <-; eauto|].
    destruct (qd_ok (i_err (en_item e))) eqn:Q; cbn [negb] in H; [|injection H as <-; auto].
    apply qd_ok_iff in Q. destruct (type_matches _ _) eqn:T; [discriminate|injection H as <-; auto].
  - destruct (fill_slots ss e) as [[y|r]|]; try discriminate. intro H. injection H as ->.
    destruct (IH eq_refl) as (s' & I & R). exists s'. split; [right; exact I|exact R].
Qed.

Lemma values_in z l kv : has_int z (fst kv) = true -> In kv l -> In (snd kv) (values z l).
Proof. intros H I. unfold values. apply (List.in_map snd). apply filter_In. auto. Qed.

Lemma junk_of_err v : is_not_wf (i_err (item_of None v)) = true -> exists b, body v = CJunk b.
Proof.
  rewrite item_of_eq. destruct (negb (qd_ok (err_of (body v)))) eqn:E.
  - cbn [bad_item i_err]. destruct (body v); cbn in *; try discriminate; [|eauto].
    destruct (n <? INT64_LIMIT); discriminate.
  - cbn [i_err]. destruct (few_tags v); discriminate.
Qed.

(** A parameter the search takes that is not as it should be. *)
Lemma slot_error l before kv after ss0 x : l = before ++ kv :: after ->
  Forall2 (slot_rel (map norm_entry before)) header_slots ss0 -> fill_slots ss0 (norm_entry kv) = Some (inl x) ->
  if is_not_wf x then exists z v b, In z [1; 3; 4; 5; 6]%Z /\ In v (values z l) /\ body v = CJunk b else wrong_format l.
Proof.
  intros El F E. apply fill_error in E as (s & I & L & E).
  assert (Ikv : In kv l) by (rewrite El; apply in_or_app; right; left; reflexivity).
  assert (X : exists z t, In (z, t) [(1, QT_INT64); (4, QT_BSTR); (5, QT_BSTR); (6, QT_BSTR); (3, QT_ANY)]%Z /\
     sl_label s = z /\ sl_type s = t /\ slot_rel (map norm_entry before) (mk_slot z t) s).
  { unfold header_slots in F. clear - F I.
    repeat match goal with F : Forall2 _ _ ?a |- _ => inversion F; clear F; subst end.
    cbn [In] in I. destruct I as [<-|[<-|[<-|[<-|[<-|[]]]]]];
      match goal with H : slot_rel _ (mk_slot ?z ?t) s |- _ => exists z, t | H : slot_rel _ (mk_slot ?z ?t) ?s |- exists _ _, _ /\ sl_label ?s = _ /\ _ => exists z, t end;
      (split; [cbn; auto 10|]); match goal with H : slot_rel _ _ ?s |- sl_label ?s = _ /\ _ => split; [apply H|split; [apply H|exact H]] end. }
  destruct X as (z & t & Iz & Ez & Et & Rel). rewrite Ez in L. change (has_label z kv = true) in L.
  assert (Nz : z <> 0%Z) by (cbn in Iz; intuition congruence).
  assert (Iz' : In z [1; 3; 4; 5; 6]%Z) by (cbn in Iz |- *; intuition congruence).
  rewrite has_label_int in L by exact Nz. pose proof (values_in z l kv L Ikv) as V.
  assert (D : (exists e0, sl_found s = Some e0) -> (2 <= length (values z l))%nat).
  { intros (e0 & E0). destruct Rel as (_ & _ & R). cbn [mk_slot sl_found sl_type] in R.
    destruct R as [(_ & R)|(e & R & _)]; [congruence|]. unfold mk_slot in R. rewrite matches_values in R by exact Nz.
    rewrite El. unfold values. rewrite filter_app, map_app, app_length. cbn [filter]. rewrite L. cbn [map length].
    destruct (filter _ before) as [|? [|? ?]]; try discriminate. cbn. lia. }
  destruct E as [(e0 & E0 & ->)|[(-> & Q)|(G & T & ->)]].
  - cbn. right. exists z, (snd kv). split; [exact Iz'|]. split; [exact V|]. left. apply D. eauto.
  - unfold norm_entry in *. cbn [en_item] in *. destruct (is_not_wf _) eqn:W.
    + apply junk_of_err in W as (b & B). eauto 10.
    + right. exists z, (snd kv). split; [exact Iz'|]. split; [exact V|]. right. left. intro R.
      apply good_readable in R. rewrite good_err in Q. congruence.
  - cbn [is_not_wf]. right. exists z, (snd kv). split; [exact Iz'|]. split; [exact V|]. right. right.
    unfold norm_entry in *. cbn [en_item] in *. rewrite item_of_val in T.
    assert (Gd : good (snd kv) = true) by (rewrite <- (good_err None), G; reflexivity).
    rewrite Et in T. cbn [In] in Iz. destruct Iz as [Iz|[Iz|[Iz|[Iz|[Iz|[]]]]]]; injection Iz as <- <-.
    1:{ left. split; [reflexivity|]. destruct (int_value (snd kv)) as [y|] eqn:Ei; [|reflexivity].
        apply (val_int _ _ Gd) in Ei. rewrite Ei in T. discriminate. }
    1-3: right; (split; [cbn; auto|]); intros b B; apply val_bytes in B; rewrite B in T; discriminate.
    discriminate T.
Qed.

Lemma nonzero_len zs : (length (nonzero zs) <= length zs)%nat.
Proof. unfold nonzero. induction zs as [|z r IH]; cbn [filter]; [lia|]. destruct (negb _); cbn [length]; lia. Qed.

(** A label that cannot be recorded. *)
Lemma callback_error l before kv after zs ts ss0 st0 st' : l = before ++ kv :: after ->
  Forall (fun kv => label_like (fst kv)) l -> Forall (fun z => (z <> 0)%Z) zs -> (length zs <= 10)%nat -> (length ts <= 10)%nat ->
  search_entries header_parameter_callback header_slots (ll_of zs ts, T_SUCCESS) (map norm_entry before) = Ret (ss0, st0, QD_SUCCESS) ->
  fill_slots ss0 (norm_entry kv) = None -> header_parameter_callback st0 (norm_entry kv) = Ret (st', false) ->
  snd st' = ERR_PARAMETER_CBOR /\ wrong_format l \/
  snd st' = ERR_TOO_MANY_PARAMETERS /\ ((10 < length zs + length (int_labels l))%nat \/ (10 < length ts + length (text_labels l))%nat).
Proof.
  intros El Hl Hz Lz Lt Sr Fl Cb.
  assert (Ikv : In kv l) by (rewrite El; apply in_or_app; right; left; reflexivity).
  assert (Hb : Forall (fun kv => label_like (fst kv)) before) by (rewrite El in Hl; apply Forall_app in Hl; tauto).
  assert (Hk : label_like (fst kv)) by (rewrite Forall_forall in Hl; auto).
  apply search_iff in Sr as [Rel Run]; [|apply header_nodup].
  pose proof (run_cb_add before (ll_of zs ts)) as K. rewrite Run in K. destruct K as [K Ks].
  apply (add_all_iff before zs ts) in K as (_ & Fit & Ltx & Est); auto.
  assert (Labels : map sl_label ss0 = map sl_label header_slots).
  { clear - Rel. induction Rel as [|s s' ss ss' R F IH]; [reflexivity|]. cbn [map]. destruct R as (-> & _). now rewrite IH. }
  apply fill_slots_none in Fl. rewrite (slotted_labels _ _ _ Labels) in Fl.
  unfold header_parameter_callback in Cb.
  destruct (label_is LABEL_CRIT (en_label (norm_entry kv))) eqn:Cr; [discriminate|].
  assert (U : understood (fst kv) = false).
  { unfold slotted, header_slots in Fl. cbn [existsb mk_slot sl_label] in Fl.
    change (label_is LABEL_CRIT (en_label (norm_entry kv))) with (has_label 2 kv) in Cr.
    change (label_is LABEL_ALG (en_label (norm_entry kv))) with (has_label 1 kv) in Fl.
    change (label_is LABEL_KID (en_label (norm_entry kv))) with (has_label 4 kv) in Fl.
    change (label_is LABEL_IV (en_label (norm_entry kv))) with (has_label 5 kv) in Fl.
    change (label_is LABEL_PARTIAL_IV (en_label (norm_entry kv))) with (has_label 6 kv) in Fl.
    change (label_is LABEL_CONTENT_TYPE (en_label (norm_entry kv))) with (has_label 3 kv) in Fl.
    rewrite !has_label_int in Fl by lia. rewrite has_label_int in Cr by lia.
    unfold understood. cbn [existsb]. rewrite Cr.
    destruct (has_int 1 (fst kv)), (has_int 3 (fst kv)), (has_int 4 (fst kv)), (has_int 5 (fst kv)), (has_int 6 (fst kv));
      try discriminate Fl; reflexivity. }
  rewrite Est in Cb. change (en_label (norm_entry kv)) with (kv_label kv) in Cb.
  assert (Fn : forall n zs, ints_fit n zs -> (n <= 10)%nat -> (n + length (nonzero zs) <= 10)%nat) by apply fit_nonzero.
  pose proof (Fn _ _ Fit Lz) as Ln.
  assert (Nzs : Forall (fun z => z <> 0%Z) (zs ++ nonzero (int_labels before))) by (apply Forall_app; split; [exact Hz|apply nonzero_all]).
  pose proof (nonzero_len (int_labels before)) as Lns.
  destruct kv as [k v]. cbn [fst] in *. destruct (label_cases k v Hk U) as [(s & Eb & El' & _ & Ei)|[(z & Ei & El' & _ & Nt)|(Od & El')]].
  - rewrite El' in Cb. rewrite add_text in Cb by (rewrite app_length; lia).
    destruct (Nat.leb_spec 10 (length (ts ++ text_labels before))) as [B|B]; cbn [obind] in Cb; injection Cb as <-; [|discriminate].
    right. split; [reflexivity|]. right. rewrite El, text_labels_app, app_length.
    assert (C : (1 <= length (text_labels ((k, v) :: after)))%nat) by (cbn [text_labels flat_map fst]; rewrite Eb; cbn [app length]; lia).
    rewrite app_length in B. clear - B C. lia.
  - rewrite El' in Cb. rewrite add_int in Cb; [|exact Nzs|rewrite app_length; lia].
    destruct (Nat.leb_spec 10 (length (zs ++ nonzero (int_labels before)))) as [B|B]; cbn [obind] in Cb; injection Cb as <-; [|discriminate].
    right. split; [reflexivity|]. left. rewrite El, int_labels_app, app_length.
    assert (C : (1 <= length (int_labels ((k, v) :: after)))%nat) by (cbn [int_labels flat_map fst]; rewrite U, Ei; cbn [app length]; lia).
    rewrite app_length in B. clear - B C Lns. lia.
  - assert (C2 : snd st' = ERR_PARAMETER_CBOR).
    { destruct (kv_label (k, v)); try contradiction; cbn in Cb; injection Cb as <-; reflexivity. }
    left. split; [exact C2|]. left. exists (k, v). cbn [fst]. auto.
Qed.

(** ** Copying the parameters *)

Lemma found_some z l v : found z l = Some v -> values z l <> [].
Proof. unfold found. destruct (values z l); discriminate. Qed.

Definition take_fault (c : cfg) (prot : bool) (l : params_map) (p : params) (e : terr) : Prop :=
  (e = ERR_PARAMETER_NOT_PROTECTED /\ prot = false /\ values 1 l <> []) \/
  (e = ERR_NON_INTEGER_ALG_ID /\ prot = true /\
     exists v z, In v (values 1 l) /\ int_value v = Some z /\ (z = 0 \/ 2147483647 < z)%Z) \/
  (e = ERR_DUPLICATE_PARAMETER /\
     (values 4 l <> [] /\ u_is_null (p_kid p) = false \/ values 5 l <> [] /\ u_is_null (p_iv p) = false \/
      values 6 l <> [] /\ u_is_null (p_partial_iv p) = false \/
      values 3 l <> [] /\ (u_is_null (p_ct_tstr p) = false \/ p_ct_uint p <> 65536))) \/
  (e = ERR_BAD_CONTENT_TYPE /\ dis_content_type c = false /\ exists v, In v (values 3 l) /\ wrong_content_type v).

Lemma take_alg_error c prot l p e q : single QT_INT64 (values 1 l) ->
  take_alg prot (found 1 l) p = (e, q) -> e <> T_SUCCESS -> take_fault c prot l p e.
Proof.
  unfold found, take_fault. intros [->|(v & -> & G & T)].
  { cbn. intro H. injection H as <- _. contradiction. }
  destruct (val_of None (body v)) as [ |z| | | | | | | ] eqn:V; try discriminate T. cbn [take_alg].
  pose proof (proj1 (val_int v z G) V) as Ei. change INT32_MAX with 2147483647%Z. change ALG_RESERVED with 0%Z.
  destruct prot; cbn [negb].
  - destruct ((z =? 0)%Z || (2147483647 <? z)%Z) eqn:B; intro H; injection H as <- _; [|contradiction].
    intros _. right. left. split; [reflexivity|]. split; [reflexivity|]. exists v, z. cbn [In]. repeat split; auto. lia.
  - intro H. injection H as <- _. intros _. left. repeat split. discriminate.
Qed.

Lemma take_bstr_error get set l p e q z :
  take_bstr get set (found z l) p = (e, q) -> e <> T_SUCCESS ->
  e = ERR_DUPLICATE_PARAMETER /\ values z l <> [] /\ u_is_null (get p) = false.
Proof.
  destruct (found z l) as [v|] eqn:F; cbn [take_bstr]; [|intro H; injection H as <- _; contradiction].
  apply found_some in F. destruct v; try (intro H; injection H as <- _; contradiction).
  destruct (u_is_null (get p)) eqn:U; intro H; injection H as <- _; [contradiction|]. auto.
Qed.

Lemma take_ct_error c l p e q :
  take_content_type c (found 3 l) p = (e, q) -> e <> T_SUCCESS ->
  (e = ERR_DUPLICATE_PARAMETER /\ values 3 l <> [] /\ (u_is_null (p_ct_tstr p) = false \/ p_ct_uint p <> 65536)) \/
  (e = ERR_BAD_CONTENT_TYPE /\ dis_content_type c = false /\ exists v, In v (values 3 l) /\ wrong_content_type v).
Proof.
  unfold take_content_type. destruct (dis_content_type c); [intro H; injection H as <- _; contradiction|].
  unfold found. destruct (values 3 l) as [|v r] eqn:V; [intro H; injection H as <- _; contradiction|].
  assert (Bad : wrong_content_type v -> (ERR_BAD_CONTENT_TYPE, p) = (e, q) -> 
     (e = ERR_DUPLICATE_PARAMETER /\ v :: r <> [] /\ (u_is_null (p_ct_tstr p) = false \/ p_ct_uint p <> 65536)) \/
     (e = ERR_BAD_CONTENT_TYPE /\ false = false /\ exists v', In v' (v :: r) /\ wrong_content_type v')).
  { intros W H. injection H as <- _. right. repeat split. exists v. split; [left; reflexivity|exact W]. }
  unfold val_of. destruct (body v) as [m|m|b|s|la|lm|m y|m|f|j] eqn:Eb;
    try (intros H _; revert H; apply Bad; split; intros; congruence).
  - destruct (m <? INT64_LIMIT) eqn:Lm.
    + destruct ((Z.of_N m <? 0)%Z || (65535 <? Z.of_N m)%Z) eqn:B.
      { intros H _. revert H. apply Bad. split; [intros; congruence|]. intros n E. rewrite Eb in E. injection E as <-. lia. }
      change EMPTY_UINT_CONTENT_TYPE with 65536.
      destruct (N.eqb_spec (p_ct_uint p) 65536) as [E|E]; cbn [negb]; intro H; injection H as <- _; [contradiction|].
      intros _. left. repeat split; [discriminate|auto].
    + intros H _. revert H. apply Bad. split; [intros; congruence|]. intros n E. rewrite Eb in E. injection E as <-.
      change INT64_LIMIT with (2 ^ 63) in Lm. lia.
  - destruct (m <? INT64_LIMIT).
    + assert (B : ((- Z.of_N m - 1 <? 0) || (65535 <? - Z.of_N m - 1))%Z = true) by lia. rewrite B.
      intros H _. revert H. apply Bad. split; intros; congruence.
    + intros H _. revert H. apply Bad. split; intros; congruence.
  - destruct (u_is_null_or_empty (p_ct_tstr p)) eqn:U; cbn [negb]; intro H; injection H as <- _; [contradiction|].
    intros _. left. split; [reflexivity|]. split; [discriminate|]. left.
    unfold u_is_null_or_empty in U. destruct (u_is_null (p_ct_tstr p)); [discriminate|reflexivity].
  - destruct (m =? 22); intros H _; revert H; apply Bad; split; intros; congruence.
Qed.

Lemma tbind_error {A B} (x : terr * A) (f : A -> terr * B) g e q :
  tbind x f g = (e, q) -> e <> T_SUCCESS ->
  (exists a, x = (e, a)) \/ exists a, x = (T_SUCCESS, a) /\ f a = (e, q).
Proof.
  destruct x as [e1 a]. unfold tbind. destruct e1; intros H N; try (injection H as <- _; left; eauto; fail). right. eauto.
Qed.

Lemma take_error c prot l p e q : singles l ->
  take c prot l p = (e, q) -> e <> T_SUCCESS -> take_fault c prot l p e.
Proof.
  unfold take. intros (S1 & S4 & S5 & S6 & S3) H N.
  apply tbind_error in H as [(a & H)|(p1 & H1 & H)]; [exact (take_alg_error _ _ _ _ _ _ S1 H N)| |exact N].
  apply (take_alg_iff prot l p p1 S1) in H1 as (a & _ & ->).
  apply tbind_error in H as [(b & H)|(p2 & H1 & H)]; [apply take_bstr_error in H as (-> & H1 & H2); [right; right; left; auto 10|exact N]| |exact N].
  apply take_bstr_iff in H1 as (kid & _ & ->); [|intros []; reflexivity|exact S4].
  apply tbind_error in H as [(b & H)|(p3 & H1 & H)]; [apply take_bstr_error in H as (-> & H1 & H2); [right; right; left; auto 10|exact N]| |exact N].
  apply take_bstr_iff in H1 as (iv & _ & ->); [|intros []; reflexivity|exact S5].
  apply tbind_error in H as [(b & H)|(p4 & H1 & H)]; [apply take_bstr_error in H as (-> & H1 & H2); [right; right; left; auto 10|exact N]| |exact N].
  apply take_bstr_iff in H1 as (piv & _ & ->); [|intros []; reflexivity|exact S6].
  apply take_ct_error in H as [(-> & H1 & H2)|H]; [| |exact N].
  - right. right. left. split; [reflexivity|]. right. right. right. auto.
  - right. right. right. exact H.
Qed.

(** ** The crit parameter *)

Lemma crit_fold_error xs ll ni nt e ll' : crit_fold xs ll ni nt = Ret (e, ll') -> e <> T_SUCCESS ->
  e = ERR_CRIT_PARAMETER \/ e = ERR_CBOR_NOT_WELL_FORMED /\ exists x, In x xs /\ ~ readable x.
Proof.
  revert ll ni nt. induction xs as [|x xs IH]; intros ll ni nt; cbn [crit_fold].
  { intro H. injection H as <- _. contradiction. }
  intros H N. destruct (good x) eqn:G.
  2:{ injection H as <- _. right. split; [reflexivity|]. exists x. split; [left; reflexivity|]. intro R.
      apply good_readable in R. congruence. }
  assert (R : forall ll2 ni2 nt2, crit_fold xs ll2 ni2 nt2 = Ret (e, ll') ->
     e = ERR_CRIT_PARAMETER \/ e = ERR_CBOR_NOT_WELL_FORMED /\ exists y, In y (x :: xs) /\ ~ readable y).
  { intros ll2 ni2 nt2 H2. destruct (IH _ _ _ H2 N) as [->|(-> & y & I & Ry)]; [auto|].
    right. split; [reflexivity|]. exists y. split; [right; exact I|exact Ry]. }
  destruct (val_of None (body x)); try (injection H as <- _; auto).
  - destruct (Nat.leb _ _); [injection H as <- _; auto|]. destruct (arr_set _ _ _); cbn [obind] in H; [|discriminate]. eauto.
  - destruct (Nat.leb _ _); [injection H as <- _; auto|]. destruct (arr_set _ _ _); cbn [obind] in H; [|discriminate]. eauto.
Qed.

Lemma crit_error_some l e r : crit_result l (Some clear_label_list) = Ret (e, r) -> e <> T_SUCCESS ->
  e = ERR_CRIT_PARAMETER /\ values 2 l <> [] /\ (forall ci ct, ~ crit_from (values 2 l) ci ct) \/
  e = ERR_CBOR_NOT_WELL_FORMED /\ exists v xs x, In v (values 2 l) /\ body v = CArray xs /\ In x xs /\ ~ readable x.
Proof.
  intros H N.
  assert (No : forall ci ct, ~ crit_from (values 2 l) ci ct).
  { intros ci ct C. assert (X : crit_result l (Some clear_label_list) = Ret (T_SUCCESS, Some (ll_of ci ct))) by (apply crit_result_some; eauto).
    congruence. }
  assert (Ne : values 2 l <> []).
  { intro E. apply (No [] []). left. auto. }
  assert (Cr : e = ERR_CRIT_PARAMETER -> e = ERR_CRIT_PARAMETER /\ values 2 l <> [] /\ (forall ci ct, ~ crit_from (values 2 l) ci ct) \/
    e = ERR_CBOR_NOT_WELL_FORMED /\ exists v xs x, In v (values 2 l) /\ body v = CArray xs /\ In x xs /\ ~ readable x) by auto.
  pose proof (crit_values l) as Cv. unfold crit_result in H. destruct (filter (has_label LABEL_CRIT) l) as [|[k v] [|]].
  - injection H as <- _. contradiction.
  - cbn [map snd] in Cv. destruct (good v); [|injection H as <- _; auto].
    destruct (body v) as [ | | | |xs| | | | | ] eqn:Eb; try (injection H as <- _; auto; fail).
    destruct (crit_fold xs clear_label_list 0 0) as [[e1 ll]|w] eqn:F; cbn [obind] in H; [|discriminate].
    destruct (terr_eqb e1 T_SUCCESS) eqn:T; cbn [negb] in H.
    + destruct (is_label_list_clear ll) as [[|]|w]; cbn [obind] in H; [|congruence|discriminate].
      injection H as <- _. auto.
    + injection H as <- _. apply crit_fold_error in F as [->|(-> & x & I & Rx)]; [auto| |exact N].
      right. split; [reflexivity|]. exists v, xs, x. rewrite <- Cv. split; [left; reflexivity|]. auto.
  - injection H as <- _. auto.
Qed.

Lemma crit_error_none l e r : crit_result l None = Ret (e, r) -> e <> T_SUCCESS ->
  (e = ERR_CRIT_PARAMETER \/ e = ERR_PARAMETER_NOT_PROTECTED) /\ values 2 l <> [].
Proof.
  intros H N. rewrite <- crit_values. unfold crit_result in H. destruct (filter (has_label LABEL_CRIT) l) as [|[k v] [|]].
  - injection H as <- _. contradiction.
  - split; [|discriminate]. destruct (good v); [|injection H as <- _; auto]. destruct (body v); injection H as <- _; auto.
  - split; [|discriminate]. injection H as <- _. auto.
Qed.

(** ** A bucket *)

Lemma bucket_error c l p crit zs ts e q cr u :
  Forall (fun kv => label_like (fst kv)) l -> Forall (fun z => (z <> 0)%Z) zs -> (length zs <= 10)%nat -> (length ts <= 10)%nat ->
  bucket c l p crit (ll_of zs ts) = Ret (e, q, cr, u) -> e <> T_SUCCESS ->
  e = ERR_PARAMETER_CBOR /\ wrong_format l \/
  e = ERR_TOO_MANY_PARAMETERS /\ ((10 < length zs + length (int_labels l))%nat \/ (10 < length ts + length (text_labels l))%nat) \/
  e = ERR_CBOR_NOT_WELL_FORMED /\ (exists z v b, In z [1; 3; 4; 5; 6]%Z /\ In v (values z l) /\ body v = CJunk b) \/
  take_fault c (match crit with Some _ => true | None => false end) l p e \/
  exists r, crit_result l crit = Ret (e, r).
Proof.
  intros Hl Hz Lz Lt H N. unfold bucket in H.
  destruct (search_entries header_parameter_callback header_slots (ll_of zs ts, T_SUCCESS) (map norm_entry l))
    as [[[ss st] x]|w] eqn:S; cbn [obind] in H; [|discriminate].
  destruct (qd_ok x) eqn:Qx.
  - apply qd_ok_iff in Qx. subst x. apply search_iff in S as [S1 _]; [|apply header_nodup].
    apply header_slots_inv in S1 as [S1 T]. rewrite T in H.
    destruct (take c _ l p) as [e1 p1] eqn:Tk. destruct (terr_eqb e1 T_SUCCESS) eqn:Te; cbn [negb] in H.
    + destruct (crit_result l crit) as [[e2 cr2]|w]; cbn [obind] in H; [|discriminate]. injection H as <- _ _ _. eauto 10.
    + injection H as <- _ _ _. right. right. right. left. exact (take_error _ _ _ _ _ _ S1 Tk N).
  - assert (Nx : x <> QD_SUCCESS) by (intros ->; discriminate).
    destruct (search_fails _ _ _ _ _ _ S Nx) as (before & kv & after & ss0 & st0 & El & Sb & [F|(F & C & ->)]).
    + assert (E : e = if is_not_wf x then ERR_CBOR_NOT_WELL_FORMED else ERR_PARAMETER_CBOR).
      { destruct x; try (injection H as <- _ _ _; reflexivity); [contradiction|]. now apply fill_slots_not_fail in F. }
      apply search_iff in Sb as [Rel _]; [|apply header_nodup].
      pose proof (slot_error _ _ _ _ _ _ El Rel F) as W. destruct (is_not_wf x); auto.
    + injection H as <- _ _ _.
      destruct (callback_error _ _ _ _ _ _ _ _ _ El Hl Hz Lz Lt Sb F C) as [W|W]; auto.
Qed.

Lemma clear_ll0 : clear_label_list = ll_of [] [].
Proof. reflexivity. Qed.

(** The protected bucket. *)
Lemma prot_error c flags dc g pm rest e p crit unk : protected_map (g_prot g) pm rest ->
  prot_bucket c (g_prot g) = Ret (e, p, crit, unk) -> e <> T_SUCCESS -> format_fault c flags dc g pm e.
Proof.
  intros Hpm H N. unfold prot_bucket in H. destruct (N.eqb_spec (blen (g_prot g)) 0) as [E|E].
  { injection H as <- _ _ _. contradiction. }
  destruct Hpm as [(E0 & _)|(x & bx & Eb & Hr & Rd & Em)]; [rewrite E0 in E; contradiction|].
  set (L := [LvBstr []; LvAgg false None None []]) in *.
  pose proof (proj2 (good_readable x) Rd) as G.
  pose proof (parse_eq c L x pm bx rest [] clear_params (Some clear_label_list) clear_label_list eq_refl Hr G Em) as Q.
  rewrite <- Eb in Q. unfold parsed_as in Q.
  destruct (bucket c pm clear_params (Some clear_label_list) clear_label_list) as [[[[e1 q] cr] u]|] eqn:B;
    destruct (parse_cose_header_parameters c (mkd (g_prot g) L []) clear_params (Some clear_label_list) clear_label_list) as [r|w];
    try contradiction; cbn [obind] in H; [|discriminate].
  destruct Q as (Q1 & _). injection H as H _ _ _. rewrite Q1 in H. subst e1. clear Q1.
  rewrite clear_ll0 in B at 2.
  apply bucket_error in B; [|eapply reads_map_labels; eassumption|constructor|cbn; lia|cbn; lia|exact N].
  destruct B as [(-> & W)|[(-> & W)|[(-> & z & v & b & Iz & Iv & J)|[T|(r0 & C)]]]].
  - left. exact W.
  - cbn [format_fault length Nat.add] in *. unfold all_params. rewrite int_labels_app, text_labels_app, !app_length. lia.
  - left. exists z, v, b. unfold all_params. rewrite values_app. split; [exact Iz|]. split; [apply in_or_app; auto|exact J].
  - destruct T as [(_ & F & _)|[(-> & _ & W)|[(-> & W)|(-> & D & v & I & W)]]]; [discriminate|exact W| |].
    + exfalso. cbn in W. destruct W as [[_ W]|[[_ W]|[[_ W]|[_ [W|W]]]]]; (discriminate || now apply W).
    + split; [exact D|]. exists v. unfold all_params. rewrite values_app. split; [apply in_or_app; auto|exact W].
  - apply crit_error_some in C as [(-> & Ne & No)|(-> & W)]; [left; auto|right; left; exact W|exact N].
Qed.

Lemma step_kept c pm p1 : step c true pm clear_params p1 ->
  (u_is_null (p_kid p1) = false -> values 4 pm <> []) /\ (u_is_null (p_iv p1) = false -> values 5 pm <> []) /\
  (u_is_null (p_partial_iv p1) = false -> values 6 pm <> []) /\
  (u_is_null (p_ct_tstr p1) = false \/ p_ct_uint p1 <> 65536 -> values 3 pm <> []).
Proof.
  intros [_ K V P C]. unfold bytes_step in *. cbn in K, V, P.
  split; [|split; [|split]]; intros U E.
  - destruct K as [(_ & K)|(v & b & K & _)]; [rewrite K in U|rewrite K in E]; discriminate.
  - destruct V as [(_ & V)|(v & b & V & _)]; [rewrite V in U|rewrite V in E]; discriminate.
  - destruct P as [(_ & P)|(v & b & P & _)]; [rewrite P in U|rewrite P in E]; discriminate.
  - destruct (dis_content_type c).
    + destruct C as (_ & C1 & C2). rewrite C1, C2 in U. cbn in U. destruct U as [U|U]; [discriminate|now apply U].
    + rewrite E in C. assert (X : forall x y, ct_step [] x y -> y = x) by (inversion 1; reflexivity).
      apply X in C. injection C as E1 E2. rewrite E1, E2 in U. cbn in U. destruct U as [U|U]; [discriminate|now apply U].
Qed.

(** The unprotected bucket, after a protected one that was accepted. *)
Lemma unprot_error c flags dc g pm p1 e q cr u : Forall (fun kv => label_like (fst kv)) (g_unprot g) ->
  step c true pm clear_params p1 -> labels_ok pm ->
  bucket c (g_unprot g) p1 None (ll_of (nonzero (int_labels pm)) (text_labels pm)) = Ret (e, q, cr, u) -> e <> T_SUCCESS ->
  format_fault c flags dc g pm e.
Proof.
  intros Hl St (L1 & L2 & L3) B N.
  pose proof (fit_nonzero 0 _ L2 ltac:(lia)) as Ln. cbn [Nat.add] in Ln.
  apply bucket_error in B; [|exact Hl|apply nonzero_all|exact Ln|exact L3|exact N].
  pose proof (nonzero_len (int_labels pm)) as Nn.
  destruct B as [(-> & W)|[(-> & W)|[(-> & z & v & b & Iz & Iv & J)|[T|(r0 & C)]]]].
  - right. exact W.
  - cbn [format_fault]. unfold all_params. rewrite int_labels_app, text_labels_app, !app_length. lia.
  - left. exists z, v, b. unfold all_params. rewrite values_app. split; [exact Iz|]. split; [apply in_or_app; auto|exact J].
  - destruct (step_kept _ _ _ St) as (K4 & K5 & K6 & K3).
    destruct T as [(-> & _ & W)|[(_ & F & _)|[(-> & W)|(-> & D & v & I & W)]]]; [left; exact W|discriminate| |].
    + cbn [format_fault]. destruct W as [[W U]|[[W U]|[[W U]|[W U]]]];
        [exists 4%Z|exists 5%Z|exists 6%Z|exists 3%Z]; (split; [cbn; auto 10|]); auto.
    + split; [exact D|]. exists v. unfold all_params. rewrite values_app. split; [apply in_or_app; auto|exact W].
  - apply crit_error_none in C as [[->| ->] V]; [right; exact V|right; exact V|exact N].
Qed.

(** ** Decoding *)

Lemma prot_known c b pm rest p crit unk : protected_map b pm rest -> prot_bucket c b = Ret (T_SUCCESS, p, crit, unk) ->
  step c true pm clear_params p /\ labels_ok pm /\ unk = ll_of (nonzero (int_labels pm)) (text_labels pm).
Proof.
  intros Hpm H. pose proof H as H0. unfold prot_bucket in H. destruct (N.eqb_spec (blen b) 0) as [E|E].
  - destruct Hpm as [(-> & -> & _)|(x & bx & E1 & Hr & _)].
    + apply prot_bucket_iff in H0 as (pm & rest' & [(_ & -> & _)|(x & bx & E1 & Hr & _)] & H1 & _ & H2 & H3); [auto|].
      exfalso. symmetry in E1. apply app_eq_nil in E1 as [-> _].
      destruct (reads_get_item _ _ _ Hr) as (hb & ? & ? & Eb & Hh & _). destruct hb; [contradiction|discriminate].
    + exfalso. assert (B : b = []) by (clear - E; destruct b; [reflexivity|rewrite blen_cons in E; lia]). rewrite B in E1.
      symmetry in E1. apply app_eq_nil in E1 as [-> _].
      destruct (reads_get_item _ _ _ Hr) as (hb & ? & ? & Eb & Hh & _). destruct hb; [contradiction|discriminate].
  - destruct Hpm as [(-> & _)|(x & bx & -> & Hr & Rd & Em)]; [contradiction|].
    apply good_readable in Rd. set (L := [LvBstr []; LvAgg false None None []]) in *.
    pose proof (parse_eq c L x pm bx rest [] clear_params (Some clear_label_list) clear_label_list eq_refl Hr Rd Em) as Q.
    unfold parsed_as in Q.
    destruct (bucket c pm clear_params (Some clear_label_list) clear_label_list) as [[[[e1 q] cr] u]|] eqn:B;
      destruct (parse_cose_header_parameters c (mkd (bx ++ rest) L []) clear_params (Some clear_label_list) clear_label_list) as [r|w];
      try contradiction; cbn [obind] in H; [|discriminate].
    destruct Q as (Q1 & Q2 & Q3 & Q4 & _). injection H as H1 H2 H3 H4. rewrite H1 in Q1. subst e1.
    apply bucket_prot in B as (B1 & _ & B2 & B3); [|eapply reads_map_labels; eassumption|apply clear_tstr].
    rewrite <- H2, Q2, <- H4, Q4. auto.
Qed.

Lemma bstr_error_wf x : is_not_wf (bstr_err x) = true -> exists b, body x = CJunk b.
Proof. unfold bstr_err. destruct (good x); [discriminate|apply junk_of_err]. Qed.

Lemma item_err_tags x : i_err (item_of None x) = QD_TOO_MANY_TAGS -> (4 < length (tags_of x))%nat.
Proof.
  rewrite item_of_eq. destruct (negb (qd_ok (err_of (body x)))) eqn:E.
  - cbn [bad_item i_err]. destruct (body x); cbn in *; try discriminate.
    + destruct (n <? INT64_LIMIT); discriminate.
    + unfold junk_err. destruct b as [|b0 [|b1 [|]]]; try discriminate; destruct (_ =? 31); discriminate.
  - cbn [i_err]. unfold few_tags. destruct (Nat.leb_spec (length (tags_of x)) 4); [discriminate|lia].
Qed.

Lemma bstr_error_tags x : bstr_err x = QD_TOO_MANY_TAGS -> (4 < length (tags_of x))%nat.
Proof. unfold bstr_err. destruct (good x); [discriminate|apply item_err_tags]. Qed.

Theorem decode_error c junk me msg payload dc g pm e me' : message msg g pm -> length (v_tags me) = 4%nat ->
  verify_decode c junk me msg payload dc = Ret (DErr e, me') -> format_fault c (v_flags me) dc g pm e.
Proof.
  intros (t & rest & Ht & (Eg & L4 & u & Ru & Eu & Et) & Hpm) Hv H.
  rewrite (decode_reads _ _ _ t) in H by exact Ht. unfold tree_decode in H.
  assert (Gt : good t = true).
  { apply good_readable. split; [rewrite <- Eg, rev_length in L4; exact L4|now rewrite Et]. }
  rewrite Gt, Et in H. rewrite process_tags_spec in H; [|reflexivity|cbn [mkd d_tags]; rewrite Eg; exact L4|exact Hv].
  cbv zeta in H. cbn [mkd d_tags] in H. rewrite Eg in H. change TAG_COSE_SIGN1 with 18 in H. fold (tagged g) in H.
  change OPT_TAG_REQUIRED with (2 ^ 2) in H. change OPT_TAG_PROHIBITED with (2 ^ 4) in H. rewrite !flag_bit in H.
  fold (requires_tag (v_flags me)) (prohibits_tag (v_flags me)) in H.
  assert (Tg : tag_accepted (v_flags me) g -> (requires_tag (v_flags me) && negb (tagged g) || prohibits_tag (v_flags me) && tagged g) = false).
  { intros [A B]. destruct (tagged g), (requires_tag (v_flags me)), (prohibits_tag (v_flags me)); auto;
      try (specialize (A eq_refl); discriminate); specialize (B eq_refl); discriminate. }
  destruct (requires_tag (v_flags me) && _ || prohibits_tag (v_flags me) && _) eqn:B in H.
  { cbn [obind terr_eqb negb] in H. injection H as <- _. cbn [format_fault]. intro A. apply Tg in A. congruence. }
  cbn [obind] in H. rewrite terr_eqb_refl in H. cbn [negb] in H. clear B Tg.
  unfold elems_decode in H. cbn [nth_error bstr_at plain_bytes] in H.
  destruct (prot_bucket c (g_prot g)) as [[[[e1 p1] crit] unk1]|w] eqn:P1; cbn [obind] in H; [|discriminate].
  destruct (terr_eqb e1 T_SUCCESS) eqn:T1; cbn [negb] in H.
  2:{ injection H as <- _. refine (prot_error _ _ _ _ _ _ _ _ _ _ Hpm P1 _). intros ->. discriminate. }
  apply terr_eqb_eq in T1. subst e1. cbn [unprot_bucket] in H.
  apply good_readable in Ru. rewrite Ru, Eu in H.
  destruct (prot_known c (g_prot g) pm rest _ _ _ Hpm P1) as (St & Lk & ->).
  destruct (bucket c (g_unprot g) p1 None _) as [[[[e2 p2] cr2] unk2]|w] eqn:P2; cbn [obind] in H; [|discriminate].
  destruct (reads_array_elems _ _ _ _ Ht Et) as (bs & Hl).
  destruct (reads_all_nth _ _ _ 1%nat u Hl eq_refl) as (bu & Hu).
  destruct (terr_eqb e2 T_SUCCESS) eqn:T2; cbn [negb] in H.
  2:{ injection H as <- _. refine (unprot_error _ _ _ _ _ _ _ _ _ _ (reads_map_labels _ _ _ _ Hu Eu) St Lk P2 _). intros ->. discriminate. }
  unfold pay_part in H. destruct dc.
  - destruct payload as [pl|]; [|discriminate]. cbn [obind] in H.
    destruct (is_null (g_payload g)) eqn:In.
    + destruct crit; cbn [need obind] in H; discriminate.
    + injection H as <- _. cbn [format_fault]. split; [reflexivity|]. intro R. apply is_null_iff in R. congruence.
  - cbn [obind bstr_at] in H. destruct (plain_bytes (g_payload g)) as [b|] eqn:Pb.
    + destruct crit; cbn [need obind] in H; discriminate.
    + injection H as <- _.
      assert (Nb : forall b, g_payload g <> CBytes b) by (intros b X; rewrite X in Pb; discriminate).
      pose proof (bstr_error_wf (g_payload g)) as W. pose proof (bstr_error_tags (g_payload g)) as Tt.
      destruct (bstr_err (g_payload g)) eqn:Be; cbn [decode_error_to_terr is_not_wf] in *; cbn [format_fault];
        try (split; auto; fail); try (right; right; now apply W).
      unfold bstr_err in Be. destruct (good (g_payload g)) eqn:Gp; [discriminate|].
      rewrite <- (good_err None), Be in Gp. discriminate.
Qed.

(** *** Whatever the message, decoding has no other errors *)

Definition fmt (e : terr) : Prop := e = T_SUCCESS \/ In e format_errors.
Ltac fmt := first [left; reflexivity | right; cbn; tauto].

Lemma fmt_terr x : fmt (decode_error_to_terr x).
Proof. destruct x; cbn; fmt. Qed.

Lemma fmt_perr x : fmt (perr x).
Proof. destruct x; cbn; fmt. Qed.

Lemma fmt_search ss st es ss' st' x : fmt (snd st) ->
  search_entries header_parameter_callback ss st es = Ret (ss', st', x) -> fmt (snd st').
Proof.
  revert ss st. induction es as [|e es IH]; intros ss st F; cbn [search_entries].
  { intro H. injection H as _ <- _. exact F. }
  destruct (fill_slots ss e) as [[y|r]|]; [intro H; injection H as _ <- _; exact F|now apply IH|].
  destruct (header_parameter_callback st e) as [[st1 ok]|w] eqn:C; cbn [obind]; [|discriminate].
  assert (F1 : fmt (snd st1)).
  { unfold header_parameter_callback in C. destruct (label_is _ _); [injection C as <- _; fmt|].
    unfold add_label_to_list in C. destruct (en_label e); cbn [obind] in C;
      repeat match type of C with
        | (let? _ := (let? _ := ?x in _) in _) = _ => destruct x; cbn [obind] in C; [|discriminate]
        | (let? _ := (if ?x then _ else _) in _) = _ => destruct x; cbn [obind] in C
        end; injection C as <- _; fmt. }
  destruct ok; [now apply IH|]. intro H. injection H as _ <- _. exact F1.
Qed.

Lemma fmt_take c prot ss p : fmt (fst (take_all c prot ss p)).
Proof.
  unfold take_all.
  assert (B : forall get set v q, fmt (fst (take_bstr get set v q))).
  { intros get set v q. unfold take_bstr. destruct v as [[]|]; try fmt. destruct (u_is_null _); fmt. }
  assert (T : forall x (f : params -> terr * params) g, fmt (fst x) -> (forall q, fmt (fst (f q))) -> fmt (fst (tbind x f g))).
  { intros [e q] f g X Y. unfold tbind. destruct e; auto. }
  repeat (apply T; [auto|intro]).
  - unfold take_alg. destruct (slot_val ss 0) as [[]|]; try fmt. destruct (negb _); [fmt|]. destruct (_ || _); fmt.
  - unfold take_content_type. destruct (dis_content_type c); [fmt|]. destruct (slot_val ss 4) as [[]|]; try fmt.
    + destruct (_ || _); [fmt|]. destruct (negb _); fmt.
    + destruct (negb _); fmt.
Qed.

Lemma fmt_crit_loop fuel d ll ni nt e ll' d' : crit_loop fuel d ll ni nt = Ret (e, ll', d') -> fmt e.
Proof.
  revert d ll ni nt. induction fuel as [|fuel IH]; intros d ll ni nt; cbn [crit_loop]; [discriminate|].
  destruct (get_next d) as [[x it] d1]. destruct x; try (intro H; injection H as <- _ _; fmt).
  destruct (i_val it); try (intro H; injection H as <- _ _; fmt).
  - destruct (Nat.leb _ _); [intro H; injection H as <- _ _; fmt|]. destruct (arr_set _ _ _); cbn [obind]; [apply IH|discriminate].
  - destruct (Nat.leb _ _); [intro H; injection H as <- _ _; fmt|]. destruct (arr_set _ _ _); cbn [obind]; [apply IH|discriminate].
Qed.

Lemma fmt_crit d crit e crit' d' : decode_critical_parameter d crit = Ret (e, crit', d') -> fmt e.
Proof.
  unfold decode_critical_parameter. cbv zeta. destruct (get_and_reset_error _) as [x d1].
  destruct x; try (intro H; injection H as <- _ _; fmt).
  destruct crit as [ll|]; [|intro H; injection H as <- _ _; fmt].
  destruct (crit_loop _ d1 ll 0 0) as [[[e1 ll1] d2]|w] eqn:L; cbn [obind]; [|discriminate].
  apply fmt_crit_loop in L. destruct (negb _); [intro H; injection H as <- _ _; exact L|].
  destruct (is_label_list_clear ll1) as [[]|w]; cbn [obind]; [| |discriminate]; intro H; injection H as <- _ _; fmt.
Qed.

Lemma fmt_parse c d p crit unk r : parse_cose_header_parameters c d p crit unk = Ret r -> fmt (r_err r).
Proof.
  unfold parse_cose_header_parameters. cbv zeta.
  destruct (get_items_in_map header_parameter_callback (enter_map d) header_slots (unk, T_SUCCESS)) as [[[d1 ss] st]|w] eqn:G;
    cbn [obind]; [|discriminate].
  assert (F : fmt (snd st)).
  { unfold get_items_in_map in G. destruct (negb _); [injection G as _ _ <-; fmt|].
    destruct (d_levels _) as [|[[] k sc s|?] ?]; try (injection G as _ _ <-; fmt).
    destruct (scan_map _ _ _) as [es fin].
    destruct (search_entries header_parameter_callback header_slots (unk, T_SUCCESS) es) as [[[ss1 st1] x]|w] eqn:S; cbn [obind] in G; [|discriminate].
    injection G as _ _ <-. eapply fmt_search; [|exact S]. fmt. }
  destruct (d_err d1); try (intro H; injection H as <-; cbn [r_err is_not_wf]; first [exact F|fmt]).
  pose proof (fmt_take c (match crit with Some _ => true | None => false end) ss p) as T.
  destruct (take_all c _ ss p) as [e p1]. cbn [fst] in T.
  destruct (negb _); [intro H; injection H as <-; exact T|].
  destruct (decode_critical_parameter d1 crit) as [[[e2 cr2] d2]|w] eqn:C; cbn [obind]; [|discriminate].
  intro H. injection H as <-. cbn [r_err]. eapply fmt_crit, C.
Qed.

Lemma fmt_tags fuel d i r tags e tags' : tags_loop fuel d i r tags = Ret (e, tags') -> fmt e.
Proof.
  revert i r tags. induction fuel as [|fuel IH]; intros i r tags; cbn [tags_loop]; [discriminate|].
  cbv zeta. destruct (_ =? _); [intro H; injection H as <- _; fmt|]. destruct (Nat.ltb _ _); [intro H; injection H as <- _; fmt|].
  destruct (arr_set _ _ _); cbn [obind]; [apply IH|discriminate].
Qed.

Lemma fmt_bad e : fmt e -> negb (terr_eqb e T_SUCCESS) = true -> In e format_errors.
Proof. intros [->|F]; [discriminate|auto]. Qed.

Theorem decode_error_kind c junk me msg payload dc e me' :
  verify_decode c junk me msg payload dc = Ret (DErr e, me') -> In e format_errors.
Proof.
  unfold verify_decode. cbv zeta.
  destruct (negb (terr_eqb (decode_error_to_terr (d_err (enter_array (dec_init msg)))) T_SUCCESS)) eqn:E0.
  { intro H. injection H as <- _. exact (fmt_bad _ (fmt_terr _) E0). }
  destruct (process_tags me (enter_array (dec_init msg))) as [[e1 me1]|w] eqn:Pt; cbn [obind]; [|discriminate].
  destruct (negb (terr_eqb e1 T_SUCCESS)) eqn:E1.
  { intro H. injection H as <- _. apply fmt_bad; [|exact E1]. unfold process_tags in Pt.
    cbv zeta in Pt. destruct (_ && _) in Pt; [injection Pt as <- _; fmt|]. destruct (_ && _) in Pt; [injection Pt as <- _; fmt|].
    match type of Pt with obind ?x _ = _ => destruct x as [[ridx tags]|w] end; cbn [obind] in Pt; [|discriminate].
    destruct (tags_loop _ _ _ _ _) as [[e2 tg]|w] eqn:L in Pt; cbn [obind] in Pt; [|discriminate].
    injection Pt as <- _. eapply fmt_tags, L. }
  destruct (enter_bstr_wrapped (enter_array (dec_init msg))) as [d2 oprot].
  match goal with |- context [obind (if ?b then ?x else ?y) _] => set (o := if b then x else y) end.
  assert (F1 : forall r, o = Ret r -> fmt (r_err r)).
  { intros r H. unfold o in H. destruct (negb _) in H; [eapply fmt_parse, H|injection H as <-; fmt]. }
  clearbody o. destruct o as [r1|w]; cbn [obind]; [|discriminate]. specialize (F1 _ eq_refl).
  destruct (negb (terr_eqb (r_err r1) T_SUCCESS)) eqn:E2.
  { intro H. injection H as <- _. exact (fmt_bad _ F1 E2). }
  destruct (parse_cose_header_parameters c (exit_bstr_wrapped (r_d r1)) (r_params r1) None (r_unknown r1)) as [r2|w] eqn:P2; cbn [obind]; [|discriminate].
  apply fmt_parse in P2. destruct (negb (terr_eqb (r_err r2) T_SUCCESS)) eqn:E3.
  { intro H. injection H as <- _. exact (fmt_bad _ P2 E3). }
  match goal with |- obind ?x _ = _ -> _ => destruct x as [[[bad d3] opay]|w] end; cbn [obind]; [|discriminate].
  destruct bad; [intro H; injection H as <- _; cbn; tauto|].
  destruct (get_byte_string d3) as [d4 osig].
  destruct (negb (terr_eqb (decode_error_to_terr (dec_finish (exit_array d4))) T_SUCCESS)) eqn:E4.
  { intro H. injection H as <- _. exact (fmt_bad _ (fmt_terr _) E4). }
  destruct opay; cbn [need obind]; [|discriminate]. destruct osig; cbn [need obind]; [|discriminate].
  destruct (r_crit r1); cbn [need obind]; discriminate.
Qed.
