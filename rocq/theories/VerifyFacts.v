(** Which messages decode, and to what. *)
From Verif Require Import Base Const QEnc QDec Spec DecSpec BaseFacts DecFacts DecSkip DecCtx Params ParamFacts DecSim
  Crypto Util ShortCircuit Verify VerifyDec VerifySpec BucketFacts LabelFacts VerifySafe.
From Coq Require Import Lia ZifyBool ZifyNat ZifyN.
Ltac Zify.zify_post_hook ::= Z.div_mod_to_equations.
Open Scope N_scope.
Local Open Scope mon_scope.

(** ** One parameter *)

Definition alg_step (prot : bool) (vs : list cbor) (a a' : Z) : Prop :=
  (vs = [] /\ a' = a) \/
  exists v z, prot = true /\ vs = [v] /\ readable v /\ int_value v = Some z /\ z <> 0%Z /\ (z <= 2147483647)%Z /\ a' = to_int32 z.

Definition bytes_step (vs : list cbor) (u u' : ubufc) : Prop :=
  (vs = [] /\ u' = u) \/
  exists v b, vs = [v] /\ readable v /\ body v = CBytes b /\ u_is_null u = true /\ u' = UBuf b.

Lemma val_int v z : good v = true -> val_of None (body v) = VInt z <-> int_value v = Some z.
Proof.
  intro G. unfold int_value, val_of. change INT64_LIMIT with (2 ^ 63).
  destruct (body v); try (split; discriminate); try (destruct (n <? 2 ^ 63); split; intro H; congruence).
  destruct (n =? 22); split; discriminate.
Qed.

Lemma val_bytes v b : val_of None (body v) = VBytes b <-> body v = CBytes b.
Proof.
  unfold val_of. destruct (body v); try (split; discriminate); try (destruct (n <? INT64_LIMIT); split; discriminate).
  - split; intro H; congruence.
  - destruct (n =? 22); split; discriminate.
Qed.

Lemma take_alg_iff prot l p q :
  single QT_INT64 (values 1 l) ->
  take_alg prot (found 1 l) p = (T_SUCCESS, q) <->
  exists a, alg_step prot (values 1 l) (p_alg p) a /\ q = p_set_alg p a.
Proof.
  unfold found, alg_step. intros [->|(v & -> & G & T)].
  - cbn [take_alg]. split.
    + intro H. injection H as <-. exists (p_alg p). split; [auto|destruct p; reflexivity].
    + intros (a & [[_ ->]|(v & z & _ & H & _)] & ->); [destruct p; reflexivity|discriminate].
  - destruct (val_of None (body v)) as [ |z| | | | | | | ] eqn:V; try discriminate T. cbn [take_alg].
    pose proof (proj1 (val_int v z G) V) as Ei. change INT32_MAX with 2147483647%Z. change ALG_RESERVED with 0%Z.
    split.
    + destruct prot; cbn [negb]; [|discriminate].
      destruct ((z =? 0)%Z || (2147483647 <? z)%Z) eqn:B; [discriminate|]. intro H. injection H as <-.
      exists (to_int32 z). split; [|reflexivity]. right. exists v, z. apply good_readable in G.
      refine (conj eq_refl (conj eq_refl (conj G (conj Ei (conj _ (conj _ eq_refl)))))); lia.
    + intros (a & [[H _]|(v' & z' & -> & H & _ & E & H1 & H2 & ->)] & ->); [discriminate|].
      injection H as <-. rewrite Ei in E. injection E as <-. cbn [negb].
      assert (B : (z =? 0)%Z || (2147483647 <? z)%Z = false) by lia. rewrite B. reflexivity.
Qed.

Lemma take_bstr_iff get set l p q z :
  (forall p, set p (get p) = p) ->
  single QT_BSTR (values z l) ->
  take_bstr get set (found z l) p = (T_SUCCESS, q) <->
  exists u, bytes_step (values z l) (get p) u /\ q = set p u.
Proof.
  unfold found, bytes_step. intros Hset [->|(v & -> & G & T)].
  - cbn [take_bstr]. split.
    + intro H. injection H as <-. exists (get p). split; [auto|symmetry; apply Hset].
    + intros (a & [[_ ->]|(v & b & H & _)] & ->); [now rewrite Hset|discriminate].
  - destruct (val_of None (body v)) as [ | | |b| | | | | ] eqn:V; try discriminate T. cbn [take_bstr].
    pose proof (proj1 (val_bytes v b) V) as Eb.
    split.
    + destruct (u_is_null (get p)) eqn:B; [|discriminate]. intro H. injection H as <-.
      exists (UBuf b). split; [|reflexivity]. right. exists v, b. apply good_readable in G. auto.
    + intros (a & [[H _]|(v' & b' & H & _ & E & H1 & ->)] & ->); [discriminate|].
      injection H as <-. rewrite Eb in E. injection E as <-. rewrite H1. reflexivity.
Qed.

Definition tstr_ok (p : params) : Prop := match p_ct_tstr p with UNull n => n = 0 | UBuf _ => True end.

Lemma take_ct_iff c l p q :
  single QT_ANY (values 3 l) -> tstr_ok p ->
  take_content_type c (found 3 l) p = (T_SUCCESS, q) <->
  if dis_content_type c then q = p
  else exists u n, ct_step (values 3 l) (p_ct_tstr p, p_ct_uint p) (u, n) /\ q = p_set_ct_tstr (p_set_ct_uint p n) u.
Proof.
  unfold found, take_content_type, tstr_ok. intros Hs Hp. destruct (dis_content_type c); [split; congruence|].
  destruct Hs as [->|(v & -> & G & T)].
  - split.
    + intro H. injection H as <-. exists (p_ct_tstr p), (p_ct_uint p). split; [constructor|destruct p; reflexivity].
    + intros (u & n & H & ->). inversion H. subst. destruct p; reflexivity.
  - pose proof (proj1 (good_readable v) G) as Rd.
    assert (Bad : (ERR_BAD_CONTENT_TYPE, p) = (T_SUCCESS, q) <-> False) by (split; [discriminate|contradiction]).
    assert (Other : match body v with CText _ | CUInt _ => False | _ => True end ->
      (exists u n, ct_step [v] (p_ct_tstr p, p_ct_uint p) (u, n) /\ q = p_set_ct_tstr (p_set_ct_uint p n) u) <-> False).
    { intro N. split; [|contradiction]. intros (u & n & H & _). inversion H; subst;
        match goal with E : body v = _ |- _ => rewrite E in N end; exact N. }
    destruct (body v) as [m|m|b|s|la|lm|m y|m|f|j] eqn:Eb; unfold val_of; try (rewrite (Other I); exact Bad).
    + destruct (m <? INT64_LIMIT) eqn:Lm.
      * destruct ((Z.of_N m <? 0)%Z || (65535 <? Z.of_N m)%Z) eqn:B.
        { split; [discriminate|]. intros (u & n & H & _). inversion H; subst; rewrite Eb in *; [discriminate|].
          assert (m = n) by congruence. subst. clear - B H7. lia. }
        change EMPTY_UINT_CONTENT_TYPE with 65536. rewrite N2Z.id.
        destruct (N.eqb_spec (p_ct_uint p) 65536) as [E|E]; cbn [negb].
        -- split.
           ++ intro H. injection H as <-. exists (p_ct_tstr p), m. rewrite E. split; [constructor; auto; lia|destruct p; reflexivity].
           ++ intros (u & n & H & ->). inversion H; subst; rewrite Eb in *; [discriminate|].
              assert (m = n) by congruence. subst. destruct p; reflexivity.
        -- split; [discriminate|]. intros (u & n & H & _). inversion H; subst; rewrite Eb in *; [discriminate|]. congruence.
      * split; [discriminate|]. intros (u & n & H & _). inversion H; subst; rewrite Eb in *; [discriminate|].
        assert (m = n) by congruence. subst. change INT64_LIMIT with (2 ^ 63) in Lm. clear - Lm H7. lia.
    + rewrite (Other I). destruct (m <? INT64_LIMIT); [|exact Bad].
      assert (B : ((- Z.of_N m - 1 <? 0) || (65535 <? - Z.of_N m - 1))%Z = true) by lia. rewrite B. exact Bad.
    + unfold u_is_null_or_empty. destruct (p_ct_tstr p) as [n|d] eqn:Et; cbn [u_is_null orb].
      * subst n. split.
        -- intro H. injection H as <-. exists (UBuf s), (p_ct_uint p). split; [constructor; auto|destruct p; reflexivity].
        -- intros (u & n & H & ->). inversion H; subst; rewrite Eb in *; [|discriminate].
           assert (s = s0) by congruence. subst. destruct p; reflexivity.
      * cbn [u_len]. destruct d as [|x d].
        -- split.
           ++ intro H. injection H as <-. exists (UBuf s), (p_ct_uint p). split; [constructor; auto|destruct p; reflexivity].
           ++ intros (u & n & H & ->). inversion H; subst; rewrite Eb in *; [|discriminate].
              assert (s = s0) by congruence. subst. destruct p; reflexivity.
        -- rewrite blen_cons. destruct (N.eqb_spec (1 + blen d) 0) as [E|E]; [lia|]. cbn [negb].
           split; [discriminate|]. intros (u & n & H & _). inversion H; subst; rewrite Eb in *; [|discriminate].
           destruct H7 as [H7|H7]; discriminate.
    + destruct (m =? 22); rewrite (Other I); exact Bad.
Qed.

(** ** One bucket *)

(** What one bucket changes. *)
Record step (c : cfg) (prot : bool) (l : params_map) (p q : params) : Prop := {
  st_alg : alg_step prot (values 1 l) (p_alg p) (p_alg q);
  st_kid : bytes_step (values 4 l) (p_kid p) (p_kid q);
  st_iv : bytes_step (values 5 l) (p_iv p) (p_iv q);
  st_piv : bytes_step (values 6 l) (p_partial_iv p) (p_partial_iv q);
  st_ct : if dis_content_type c
          then ct_ignored (values 3 l) /\ p_ct_tstr q = p_ct_tstr p /\ p_ct_uint q = p_ct_uint p
          else ct_step (values 3 l) (p_ct_tstr p, p_ct_uint p) (p_ct_tstr q, p_ct_uint q) }.

Lemma alg_step_single prot vs a a' : alg_step prot vs a a' -> single QT_INT64 vs.
Proof.
  intros [[-> _]|(v & z & _ & -> & R & E & _)]; [left; reflexivity|]. right. exists v. apply good_readable in R.
  repeat split; auto. apply (val_int v z R) in E. now rewrite E.
Qed.

Lemma bytes_step_single vs u u' : bytes_step vs u u' -> single QT_BSTR vs.
Proof.
  intros [[-> _]|(v & b & -> & R & E & _)]; [left; reflexivity|]. right. exists v. apply good_readable in R.
  repeat split; auto. apply val_bytes in E. now rewrite E.
Qed.

Lemma ct_ignored_single vs : ct_ignored vs <-> single QT_ANY vs.
Proof.
  unfold ct_ignored, single. split.
  - intros [->|(v & -> & R)]; [auto|]. right. exists v. apply good_readable in R. auto.
  - intros [->|(v & -> & R & _)]; [auto|]. right. exists v. apply good_readable in R. auto.
Qed.

Lemma ct_step_ignored vs x y : ct_step vs x y -> ct_ignored vs.
Proof. intros [ | | ]; unfold ct_ignored; eauto. Qed.

Lemma tbind_iff {A B} (x : terr * A) (f : A -> terr * B) g q :
  tbind x f g = (T_SUCCESS, q) <-> exists a, x = (T_SUCCESS, a) /\ f a = (T_SUCCESS, q).
Proof.
  destruct x as [e a]. unfold tbind. split.
  - destruct e; intro H; try discriminate H. eauto.
  - intros (b & H1 & H2). injection H1 as -> ->. exact H2.
Qed.

Lemma take_iff c prot l p q :
  tstr_ok p -> (singles l /\ take c prot l p = (T_SUCCESS, q)) <-> step c prot l p q.
Proof.
  intro Hp. unfold take, singles. split.
  - intros ((S1 & S4 & S5 & S6 & S3) & H).
    apply tbind_iff in H as (p1 & H1 & H). apply (take_alg_iff prot l p p1 S1) in H1 as (a & A & ->).
    apply tbind_iff in H as (p2 & H1 & H). apply take_bstr_iff in H1 as (kid & K & ->); [|intros []; reflexivity|exact S4].
    apply tbind_iff in H as (p3 & H1 & H). apply take_bstr_iff in H1 as (iv & V & ->); [|intros []; reflexivity|exact S5].
    apply tbind_iff in H as (p4 & H1 & H). apply take_bstr_iff in H1 as (piv & P & ->); [|intros []; reflexivity|exact S6].
    apply take_ct_iff in H; [|exact S3|exact Hp]. apply ct_ignored_single in S3.
    destruct (dis_content_type c) eqn:D; [subst q|destruct H as (u & n & H & ->)];
      (constructor; [exact A|exact K|exact V|exact P|rewrite D]); [split; [exact S3|split; reflexivity]|exact H].
  - intros [A K V P C].
    assert (C' : single QT_ANY (values 3 l)).
    { apply ct_ignored_single. destruct (dis_content_type c); [apply C|eapply ct_step_ignored; exact C]. }
    pose proof (alg_step_single _ _ _ _ A) as S1. pose proof (bytes_step_single _ _ _ K) as S4.
    pose proof (bytes_step_single _ _ _ V) as S5. pose proof (bytes_step_single _ _ _ P) as S6.
    split; [repeat (split; [assumption|]); assumption|].
    apply tbind_iff. exists (p_set_alg p (p_alg q)). split; [apply take_alg_iff; eauto|].
    apply tbind_iff. exists (p_set_kid (p_set_alg p (p_alg q)) (p_kid q)).
    split; [apply take_bstr_iff; [intros []; reflexivity|assumption|exists (p_kid q); auto]|].
    apply tbind_iff. exists (p_set_iv (p_set_kid (p_set_alg p (p_alg q)) (p_kid q)) (p_iv q)).
    split; [apply take_bstr_iff; [intros []; reflexivity|assumption|exists (p_iv q); auto]|].
    apply tbind_iff. exists (p_set_partial_iv (p_set_iv (p_set_kid (p_set_alg p (p_alg q)) (p_kid q)) (p_iv q)) (p_partial_iv q)).
    split; [apply take_bstr_iff; [intros []; reflexivity|assumption|exists (p_partial_iv q); auto]|].
    apply take_ct_iff; [assumption|exact Hp|].
    destruct (dis_content_type c).
    + destruct C as (_ & C1 & C2). clear - C1 C2. destruct p, q; cbn in *. subst. reflexivity.
    + exists (p_ct_tstr q), (p_ct_uint q). split; [exact C|]. destruct p, q; reflexivity.
Qed.

Lemma crit_values l : map snd (filter (has_label LABEL_CRIT) l) = values 2 l.
Proof.
  unfold values. f_equal. apply filter_ext. intro kv. now apply has_label_int.
Qed.

Lemma crit_result_none l r : crit_result l None = Ret (T_SUCCESS, r) <-> values 2 l = [] /\ r = None.
Proof.
  rewrite <- crit_values. unfold crit_result. destruct (filter (has_label LABEL_CRIT) l) as [|[k v] [|]]; cbn [map].
  - split; [intro H; injection H as <-; auto|]. intros [_ ->]. reflexivity.
  - split; [|intros [H _]; discriminate]. destruct (good v); [|discriminate]. destruct (body v); discriminate.
  - split; [discriminate|intros [H _]; discriminate].
Qed.

Lemma crit_result_some l r :
  crit_result l (Some clear_label_list) = Ret (T_SUCCESS, r) <->
  exists ci ct, crit_from (values 2 l) ci ct /\ r = Some (ll_of ci ct).
Proof.
  rewrite <- crit_values. unfold crit_result, crit_from.
  destruct (filter (has_label LABEL_CRIT) l) as [|[k v] [|]]; cbn [map snd].
  - split.
    + intro H. injection H as <-. exists [], []. auto.
    + intros (ci & ct & [(_ & -> & ->)|(v & xs & H & _)] & ->); [reflexivity|discriminate].
  - split.
    + destruct (good v) eqn:G; [|discriminate]. destruct (body v) as [ | | | |xs| | | | | ] eqn:Eb; try discriminate.
      rewrite clear_ll. destruct (crit_fold xs (ll_of [] []) 0 0) as [[e ll]|w] eqn:F; cbn [obind]; [|discriminate].
      destruct (terr_eqb e T_SUCCESS) eqn:T; cbn [negb]; [|intro H; injection H as -> _; discriminate].
      apply terr_eqb_eq in T. subst e. apply (crit_fold_iff xs [] []) in F as (F1 & F2 & F3 & ->); [|cbn; lia|cbn; lia].
      cbn [app length Nat.add] in *. rewrite ll_clear_of. cbn [obind].
      destruct (_ && _) eqn:C; [discriminate|]. intro H. injection H as <-.
      exists (listed_ints xs), (listed_texts xs). split; [|reflexivity]. right. exists v, xs.
      apply good_readable in G. split; [reflexivity|]. split; [exact G|]. split; [exact Eb|]. split; [exact F1|].
      split; [reflexivity|]. split; [reflexivity|]. split; [exact F2|]. split; [exact F3|].
      destruct (listed_ints xs) as [|z zs]; cbn [hd] in *.
      * right. destruct (listed_texts xs) as [|[|x s] ts]; cbn [hd andb] in *; try discriminate C. discriminate.
      * destruct (Z.eqb_spec z 0); [|left; assumption]. right.
        destruct (listed_texts xs) as [|[|x s] ts]; cbn [hd andb] in *; try discriminate C. discriminate.
    + intros (ci & ct & [(H & _)|(v' & xs & H & R & Eb & F & -> & -> & L1 & L2 & C)] & ->); [discriminate|].
      injection H as <-. apply good_readable in R. rewrite R, Eb, clear_ll.
      assert (X : crit_fold xs (ll_of [] []) 0 0 = Ret (T_SUCCESS, ll_of (listed_ints xs) (listed_texts xs))).
      { apply (crit_fold_iff xs [] []); cbn; auto; lia. }
      rewrite X. cbn [obind]. rewrite terr_eqb_refl. cbn [negb]. rewrite ll_clear_of. cbn [obind].
      assert (Y : (match listed_ints xs with [] => true | z :: _ => (z =? 0)%Z end)
                  && (match listed_texts xs with [] => true | s :: _ => blen s =? 0 end) = false).
      { destruct C as [C|C].
        - destruct (listed_ints xs) as [|z zs]; cbn [hd] in C; [contradiction|]. destruct (Z.eqb_spec z 0); [contradiction|reflexivity].
        - destruct (listed_texts xs) as [|s ts]; cbn [hd] in C; [contradiction|]. destruct s as [|x s]; [contradiction|].
          rewrite blen_cons. destruct (N.eqb_spec (1 + blen s) 0); [lia|]. apply andb_false_r. }
      rewrite Y. reflexivity.
  - split; [discriminate|]. intros (ci & ct & [(H & _)|(v' & xs & H & _)] & _); discriminate.
Qed.

(** A bucket, with the labels recorded so far. *)
Theorem bucket_prot c l p q crit unk :
  Forall (fun kv => label_like (fst kv)) l -> tstr_ok p ->
  bucket c l p (Some clear_label_list) clear_label_list = Ret (T_SUCCESS, q, crit, unk) <->
  step c true l p q /\ (exists ci ct, crit_from (values 2 l) ci ct /\ crit = Some (ll_of ci ct)) /\
  labels_ok l /\ unk = ll_of (nonzero (int_labels l)) (text_labels l).
Proof.
  intros Hl Hp. rewrite bucket_iff. rewrite crit_result_some. rewrite clear_ll.
  rewrite (add_all_iff l [] []); auto; [|cbn; lia|cbn; lia].
  cbn [app length Nat.add]. rewrite <- (take_iff c true l p q Hp). unfold labels_ok. tauto.
Qed.

Lemma fit_nonzero n zs : ints_fit n zs -> (n <= 10)%nat -> (n + length (nonzero zs) <= 10)%nat.
Proof.
  revert n. induction zs as [|z zs IH]; intros n H Hn; [cbn; lia|]. cbn [ints_fit] in H. destruct H as [H1 H2].
  unfold nonzero in *. cbn [filter] in *. destruct (negb _); cbn [length] in *; apply IH in H2; lia.
Qed.

Lemma nonzero_all zs : Forall (fun z => (z <> 0)%Z) (nonzero zs).
Proof. apply Forall_forall. intros x I. apply filter_In in I as [_ I]. lia. Qed.

Lemma nonzero_app a b : nonzero (a ++ b) = nonzero a ++ nonzero b.
Proof. unfold nonzero. apply filter_app. Qed.

Lemma fit_app n a b : ints_fit n (a ++ b) <-> ints_fit n a /\ ints_fit (n + length (nonzero a)) b.
Proof.
  revert n. induction a as [|z a IH]; intro n; cbn [app ints_fit].
  - cbn [nonzero filter length]. rewrite Nat.add_0_r. tauto.
  - rewrite IH. replace (nonzero (z :: a)) with (nonzero [z] ++ nonzero a) by (symmetry; apply (nonzero_app [z] a)).
    rewrite app_length, Nat.add_assoc. tauto.
Qed.

Lemma int_labels_app a b : int_labels (a ++ b) = int_labels a ++ int_labels b.
Proof. apply flat_map_app. Qed.
Lemma text_labels_app a b : text_labels (a ++ b) = text_labels a ++ text_labels b.
Proof. apply flat_map_app. Qed.
Lemma values_app z a b : values z (a ++ b) = values z a ++ values z b.
Proof. unfold values. now rewrite filter_app, map_app. Qed.

Theorem bucket_unprot c pm l p q crit unk :
  Forall (fun kv => label_like (fst kv)) l -> tstr_ok p -> labels_ok pm ->
  bucket c l p None (ll_of (nonzero (int_labels pm)) (text_labels pm)) = Ret (T_SUCCESS, q, crit, unk) <->
  step c false l p q /\ values 2 l = [] /\ crit = None /\
  labels_ok (pm ++ l) /\ unk = ll_of (nonzero (int_labels (pm ++ l))) (text_labels (pm ++ l)).
Proof.
  intros Hl Hp (P1 & P2 & P3). rewrite bucket_iff. rewrite crit_result_none.
  pose proof (fit_nonzero 0 _ P2 ltac:(lia)) as L. cbn [Nat.add] in L.
  rewrite (add_all_iff l); auto; [|apply nonzero_all].
  rewrite <- (take_iff c false l p q Hp). unfold labels_ok.
  rewrite int_labels_app, text_labels_app, nonzero_app, fit_app, Forall_app, app_length. cbn [Nat.add]. tauto.
Qed.

(** ** The data items of a message *)

Lemma pairs_labels d l b : reads_pairs d l b -> Forall (fun kv => label_like (fst kv)) l.
Proof. induction 1; constructor; auto. Qed.

Lemma reads_map_labels d x b l : reads d x b -> body x = CMap l -> Forall (fun kv => label_like (fst kv)) l.
Proof.
  induction 1; cbn [body]; intro E; try discriminate; auto;
    injection E as ->; eapply pairs_labels; eassumption.
Qed.

Lemma reads_array_elems d x b l : reads d x b -> body x = CArray l -> exists bs, reads_all (S d) l bs.
Proof.
  induction 1; cbn [body]; intro E; try discriminate; auto; injection E as ->; eauto.
Qed.

Lemma reads_all_nth d l bs n x : reads_all d l bs -> nth_error l n = Some x -> exists b, reads d x b.
Proof.
  intro H. revert n. induction H; intros [|n] E; try discriminate; cbn in E; [injection E as ->; eauto|eauto].
Qed.

Lemma clear_tstr : tstr_ok clear_params.
Proof. reflexivity. Qed.

Lemma step_tstr c prot l p q : tstr_ok p -> step c prot l p q -> tstr_ok q.
Proof.
  unfold tstr_ok. intros Hp [_ _ _ _ C]. destruct (dis_content_type c).
  - destruct C as (_ & -> & _). exact Hp.
  - inversion C; subst; auto; match goal with E : _ = p_ct_tstr _ |- _ => rewrite <- E; auto; try exact I end; congruence.
Qed.

(** ** Whole messages *)

Lemma flag_bit f k : has_flag f (2 ^ k) = N.testbit f k.
Proof.
  unfold has_flag. destruct (N.testbit f k) eqn:B.
  - destruct (N.eqb_spec (N.land f (2 ^ k)) 0) as [E|E]; [|reflexivity].
    assert (X : N.testbit (N.land f (2 ^ k)) k = true) by now rewrite N.land_spec, B, N.pow2_bits_true.
    rewrite E in X. rewrite N.bits_0 in X. discriminate.
  - destruct (N.eqb_spec (N.land f (2 ^ k)) 0) as [E|E]; [reflexivity|]. exfalso. apply E.
    apply N.bits_inj_0. intro i. rewrite N.land_spec. destruct (N.eq_dec i k) as [->|H].
    + now rewrite B.
    + rewrite N.pow2_bits_false by congruence. apply andb_false_r.
Qed.

Record decodes (c : cfg) (me : vctx) (given : option ubufc) (dc : bool)
       (g : sign1) (pm : params_map) (m : decoded) (me' : vctx) : Prop := {
  dc_tag : tag_accepted (v_flags me) g;
  dc_ctx : me' = v_set_tags me (pad4 (returned (g_tags g)));
  dc_params : reported c g pm (m_params m);
  dc_crit : values 2 (g_unprot g) = [] /\
            exists ci ct, crit_from (values 2 pm) ci ct /\ m_crit m = ll_of ci ct;
  dc_labels : labels_ok (all_params g pm);
  dc_unknown : m_unknown m = ll_of (nonzero (int_labels (all_params g pm))) (text_labels (all_params g pm));
  dc_prot : m_prot m = UBuf (g_prot g);
  dc_sig : m_sig m = g_sig g;
  dc_payload : if dc then readable (g_payload g) /\ body (g_payload g) = CNull /\ given = Some (m_payload m)
               else exists b, g_payload g = CBytes b /\ m_payload m = UBuf b }.

(** *** Two buckets together *)

Lemma bytes_two vs1 vs2 u :
  (exists u1, bytes_step vs1 NULL_UBUF u1 /\ bytes_step vs2 u1 u) <-> bytes_from (vs1 ++ vs2) u.
Proof.
  unfold bytes_step, bytes_from. split.
  - intros (u1 & [[-> ->]|(v & b & -> & R & B & _ & ->)] & [[-> ->]|(v2 & b2 & -> & R2 & B2 & N2 & ->)]).
    + left. auto.
    + right. exists v2, b2. auto.
    + right. exists v, b. auto.
    + discriminate N2.
  - intros [[E ->]|(v & b & E & R & B & ->)].
    + apply app_eq_nil in E as [-> ->]. exists NULL_UBUF. auto.
    + destruct vs1 as [|v1 vs1]; cbn [app] in E.
      * exists NULL_UBUF. split; [auto|]. right. exists v, b. auto.
      * injection E as -> E. apply app_eq_nil in E as [-> ->]. exists (UBuf b).
        split; [right; exists v, b; auto|]. left. auto.
Qed.

Lemma alg_two vs1 vs2 a :
  (exists a1, alg_step true vs1 0 a1 /\ alg_step false vs2 a1 a) <-> vs2 = [] /\ alg_from vs1 a.
Proof.
  unfold alg_step, alg_from. split.
  - intros (a1 & H & [[-> ->]|(v & z & F & _)]); [|discriminate]. split; [reflexivity|].
    destruct H as [[-> ->]|(v & z & _ & H)]; [auto|right; exists v, z; tauto].
  - intros [-> H]. exists a. split; [|auto]. destruct H as [[-> ->]|(v & z & H)]; [auto|]. right. exists v, z. tauto.
Qed.

Lemma steps_reported c g pm p :
  (exists p1, step c true pm clear_params p1 /\ step c false (g_unprot g) p1 p) <-> reported c g pm p.
Proof.
  split.
  - intros (p1 & [A K V P C] & [A' K' V' P' C']).
    assert (B : values 1 (g_unprot g) = [] /\ alg_from (values 1 pm) (p_alg p)) by (apply alg_two; eauto).
    destruct B as [B1 B2].
    constructor; [exact B1|exact B2| | | |]; unfold all_params; rewrite ?values_app; try (apply bytes_two; eauto).
    destruct (dis_content_type c).
    + destruct C as (C1 & C2 & C3), C' as (D1 & D2 & D3). split; [exact C1|]. split; [exact D1|].
      rewrite D2, C2, D3, C3. split; reflexivity.
    + exists (p_ct_tstr p1, p_ct_uint p1). split; [exact C|exact C'].
  - intros [A0 A K V P C]. unfold all_params in *. rewrite values_app in *.
    assert (B : exists a1, alg_step true (values 1 pm) 0 a1 /\ alg_step false (values 1 (g_unprot g)) a1 (p_alg p)) by (apply alg_two; auto).
    destruct B as (a1 & B1 & B2).
    apply bytes_two in K as (k1 & K1 & K2). apply bytes_two in V as (v1 & V1 & V2). apply bytes_two in P as (i1 & P1 & P2).
    assert (D : exists u n, (if dis_content_type c
          then ct_ignored (values 3 pm) /\ u = UNull 0 /\ n = 65536
          else ct_step (values 3 pm) (UNull 0, 65536) (u, n)) /\
          (if dis_content_type c
           then ct_ignored (values 3 (g_unprot g)) /\ p_ct_tstr p = u /\ p_ct_uint p = n
           else ct_step (values 3 (g_unprot g)) (u, n) (p_ct_tstr p, p_ct_uint p))).
    { destruct (dis_content_type c).
      - destruct C as (C1 & C2 & C3 & C4). exists (UNull 0), 65536. auto 10.
      - destruct C as ([u n] & C1 & C2). exists u, n. auto. }
    destruct D as (u & n & D1 & D2).
    exists {| p_alg := a1; p_kid := k1; p_iv := v1; p_partial_iv := i1; p_ct_tstr := u; p_ct_uint := n |}.
    split; constructor; assumption.
Qed.

(** *** The protected bucket *)

Lemma prot_bucket_iff c b p crit unk :
  prot_bucket c b = Ret (T_SUCCESS, p, crit, unk) <->
  exists pm rest, protected_map b pm rest /\
    step c true pm clear_params p /\ (exists ci ct, crit_from (values 2 pm) ci ct /\ crit = Some (ll_of ci ct)) /\
    labels_ok pm /\ unk = ll_of (nonzero (int_labels pm)) (text_labels pm).
Proof.
  unfold prot_bucket. destruct (N.eqb_spec (blen b) 0) as [E|E].
  - assert (b = []) by (destruct b; [reflexivity|rewrite blen_cons in E; lia]). subst b.
    assert (B0 : bucket c [] clear_params (Some clear_label_list) clear_label_list = Ret (T_SUCCESS, clear_params, Some clear_label_list, clear_label_list)).
    { apply bucket_iff. split; [repeat split; left; reflexivity|]. split; [|split; reflexivity].
      unfold take, take_content_type. cbn. destruct (dis_content_type c); reflexivity. }
    split.
    + intro H.
      assert (H' : bucket c [] clear_params (Some clear_label_list) clear_label_list = Ret (T_SUCCESS, p, crit, unk)) by congruence.
      apply bucket_prot in H'; [|constructor|apply clear_tstr].
      exists [], []. split; [left; auto|exact H'].
    + intros (pm & rest & [(_ & -> & _)|(x & bx & E1 & Hr & _)] & H).
      * apply bucket_prot in H; [|constructor|apply clear_tstr]. congruence.
      * exfalso. symmetry in E1. apply app_eq_nil in E1 as [-> _].
        destruct (reads_get_item _ _ _ Hr) as (hb & ? & ? & Eb & Hh & _).
        destruct hb; [contradiction|discriminate].
  - set (L := [LvBstr []; LvAgg false None None []]).
    assert (HL : elem_level L = true) by reflexivity.
    split.
    + destruct (parse_cose_header_parameters c (mkd b L []) clear_params (Some clear_label_list) clear_label_list)
        as [r|w] eqn:P; cbn [obind]; [|discriminate].
      intro H. injection H as H1 H2 H3 H4.
      destruct (parse_inv c L b [] _ _ _ r HL P H1) as (x & l & bx & rest & -> & Hx & G & Eb).
      pose proof (parse_eq c L x l bx rest [] clear_params (Some clear_label_list) clear_label_list HL Hx G Eb) as Q.
      rewrite P in Q. unfold parsed_as in Q.
      destruct (bucket c l clear_params (Some clear_label_list) clear_label_list) as [[[[e q] cr] u]|] eqn:B; [|contradiction].
      destruct Q as (Q1 & Q2 & Q3 & Q4 & _).
      assert (B' : bucket c l clear_params (Some clear_label_list) clear_label_list = Ret (T_SUCCESS, p, crit, unk)) by congruence.
      apply bucket_prot in B'; [|eapply reads_map_labels; eassumption|apply clear_tstr].
      exists l, rest. split; [|exact B']. right. exists x, bx. apply good_readable in G. auto.
    + intros (pm & rest & [(-> & _)|(x & bx & -> & Hr & Rd & Eb)] & H).
      { exfalso. apply E. reflexivity. }
      apply good_readable in Rd. apply bucket_prot in H; [|eapply reads_map_labels; eassumption|apply clear_tstr].
      pose proof (parse_eq c L x pm bx rest [] clear_params (Some clear_label_list) clear_label_list HL Hr Rd Eb) as Q.
      rewrite H in Q. unfold parsed_as in Q.
      destruct (parse_cose_header_parameters _ _ _ _ _) as [r|w]; [|contradiction].
      destruct Q as (Q1 & Q2 & Q3 & Q4 & _). cbn [obind]. congruence.
Qed.

Lemma bstr_at_iff o b : bstr_at o = inr b <-> o = Some (CBytes b).
Proof.
  unfold bstr_at. destruct o as [x|]; [|split; discriminate]. unfold plain_bytes.
  destruct x; split; intro H; try discriminate; congruence.
Qed.

Lemma is_null_iff x : is_null x = true <-> readable x /\ body x = CNull.
Proof.
  unfold is_null. rewrite andb_true_iff, good_readable. unfold CNull. split; intros [H1 H2]; (split; [exact H1|]).
  - destruct (body x); try discriminate. apply N.eqb_eq in H2. now subst.
  - rewrite H2. reflexivity.
Qed.

Theorem elems_iff c me l given dc m me' bs :
  reads_all 1 l bs ->
  elems_decode c me l given dc = Ret (DOk m, me') <->
  me' = me /\ exists prot u um pay sig extra pm rest,
    l = CBytes prot :: u :: pay :: CBytes sig :: extra /\ readable u /\ body u = CMap um /\
    protected_map prot pm rest /\
    (let g := {| g_tags := []; g_prot := prot; g_unprot := um; g_payload := pay; g_sig := sig; g_extra := extra |} in
     reported c g pm (m_params m) /\
     (values 2 um = [] /\ exists ci ct, crit_from (values 2 pm) ci ct /\ m_crit m = ll_of ci ct) /\
     labels_ok (pm ++ um) /\ m_unknown m = ll_of (nonzero (int_labels (pm ++ um))) (text_labels (pm ++ um)) /\
     m_prot m = UBuf prot /\ m_sig m = sig /\
     if dc then readable pay /\ body pay = CNull /\ given = Some (m_payload m)
     else exists b, pay = CBytes b /\ m_payload m = UBuf b).
Proof.
  intro Hl. unfold elems_decode. split.
  - destruct (bstr_at (nth_error l 0)) as [e|prot] eqn:B0; [discriminate|]. apply bstr_at_iff in B0.
    destruct (prot_bucket c prot) as [[[[e1 p1] crit] unk1]|w] eqn:P1; cbn [obind]; [|discriminate].
    destruct (terr_eqb e1 T_SUCCESS) eqn:T1; cbn [negb]; [|discriminate]. apply terr_eqb_eq in T1. subst e1.
    apply prot_bucket_iff in P1 as (pm & rest & Hpm & St1 & (ci & ct & Hcr & ->) & Lk & ->).
    destruct (nth_error l 1) as [u|] eqn:N1; cbn [unprot_bucket].
    2:{ cbn [obind]. discriminate. }
    destruct (good u) eqn:Gu.
    2:{ cbn [obind]. rewrite (bad_eqb _ (perr_bad _)). discriminate. }
    destruct (body u) as [ | | | | |um| | | | ] eqn:Eu; try (cbn [obind]; discriminate).
    destruct (bucket c um p1 None _) as [[[[e2 p2] cr2] unk2]|w] eqn:P2; cbn [obind]; [|discriminate].
    destruct (terr_eqb e2 T_SUCCESS) eqn:T2; cbn [negb]; [|discriminate]. apply terr_eqb_eq in T2. subst e2.
    destruct (reads_all_nth _ _ _ 1%nat u Hl N1) as (bu & Hu).
    apply bucket_unprot in P2 as (St2 & V2 & -> & Lk2 & ->);
      [|eapply reads_map_labels; eassumption|eapply step_tstr; [apply clear_tstr|eassumption]|exact Lk].
    destruct (pay_part (nth_error l 2) given dc) as [[e|pay]|w] eqn:Py; cbn [obind]; try discriminate.
    destruct (bstr_at (nth_error l 3)) as [e|sig] eqn:B3; [discriminate|]. apply bstr_at_iff in B3.
    cbn [need obind]. intro H. injection H as <- <-. split; [reflexivity|].
    assert (Hpay : exists py, nth_error l 2 = Some py /\
        if dc then readable py /\ body py = CNull /\ given = Some pay else exists b, py = CBytes b /\ pay = UBuf b).
    { unfold pay_part in Py. destruct dc.
      - destruct given as [pl|]; [|discriminate]. destruct (nth_error l 2) as [py|]; [|discriminate].
        destruct (is_null py) eqn:In; [|discriminate]. injection Py as <-. apply is_null_iff in In. exists py. tauto.
      - destruct (bstr_at (nth_error l 2)) as [e|b] eqn:B2; [discriminate|]. injection Py as <-. apply bstr_at_iff in B2. eauto. }
    destruct Hpay as (py & N2 & Hpay).
    destruct l as [|l0 [|l1 [|l2 [|l3 extra]]]]; try discriminate. cbn [nth_error] in *.
    injection B0 as ->. injection N1 as ->. injection N2 as ->. injection B3 as ->.
    apply good_readable in Gu.
    exists prot, u, um, py, sig, extra, pm, rest. cbv zeta. cbn [m_params m_crit m_unknown m_prot m_sig m_payload].
    split; [reflexivity|]. split; [exact Gu|]. split; [exact Eu|]. split; [exact Hpm|].
    split; [apply steps_reported; eauto|]. split; [eauto|]. auto.
  - intros (-> & prot & u & um & pay & sig & extra & pm & rest & -> & Ru & Eu & Hpm & Hrest).
    cbv zeta in Hrest. destruct Hrest as (Rp & (V2 & ci & ct & Hcr & Ecr) & Lk & Eun & Epr & Esg & Hpay).
    cbn [nth_error bstr_at plain_bytes].
    apply steps_reported in Rp as (p1 & St1 & St2). cbn [g_unprot] in St2.
    assert (Lk1 : labels_ok pm).
    { unfold labels_ok in *. rewrite int_labels_app, text_labels_app, fit_app, Forall_app, app_length in Lk.
      destruct Lk as ((L1 & _) & (L2 & _) & L3). repeat split; auto; lia. }
    assert (P1 : prot_bucket c prot = Ret (T_SUCCESS, p1, Some (ll_of ci ct), ll_of (nonzero (int_labels pm)) (text_labels pm))).
    { apply prot_bucket_iff. exists pm, rest. split; [exact Hpm|]. split; [exact St1|]. split; [eauto|]. split; [exact Lk1|reflexivity]. }
    rewrite P1. cbn [obind]. rewrite terr_eqb_refl. cbn [negb unprot_bucket].
    apply good_readable in Ru. rewrite Ru, Eu.
    destruct (reads_all_nth _ _ _ 1%nat u Hl eq_refl) as (bu & Hu).
    assert (P2 : bucket c um p1 None (ll_of (nonzero (int_labels pm)) (text_labels pm))
                 = Ret (T_SUCCESS, m_params m, None, ll_of (nonzero (int_labels (pm ++ um))) (text_labels (pm ++ um)))).
    { apply bucket_unprot; [eapply reads_map_labels; eassumption|eapply step_tstr; [apply clear_tstr|eassumption]|exact Lk1|].
      auto. }
    rewrite P2. cbn [obind]. rewrite terr_eqb_refl. cbn [negb].
    assert (Py : pay_part (Some pay) given dc = Ret (inr (m_payload m))).
    { unfold pay_part. destruct dc.
      - destruct Hpay as (H1 & H2 & ->). rewrite (proj2 (is_null_iff pay) (conj H1 H2)). reflexivity.
      - destruct Hpay as (b & -> & ->). reflexivity. }
    rewrite Py. cbn [obind need]. rewrite <- Ecr, <- Eun, <- Epr, <- Esg. destruct m; reflexivity.
Qed.

Theorem decode_iff c junk me msg given dc m me' :
  length (v_tags me) = 4%nat ->
  verify_decode c junk me msg given dc = Ret (DOk m, me') <->
  exists g pm, message msg g pm /\ decodes c me given dc g pm m me'.
Proof.
  intro Hv. split.
  - intro H. destruct (decode_inv _ _ _ _ _ _ _ _ H) as (t & Ht).
    rewrite (decode_reads _ _ _ t) in H by exact Ht. unfold tree_decode in H.
    destruct (good t) eqn:Gt; [|discriminate]. destruct (body t) as [ | | | |l| | | | | ] eqn:Et; try discriminate.
    assert (L4 : (length (rev (tags_of t)) <= 4)%nat).
    { rewrite rev_length. apply good_readable in Gt. apply Gt. }
    rewrite process_tags_spec in H; [|reflexivity|exact L4|exact Hv]. cbv zeta in H. cbn [mkd d_tags] in H.
    set (tg := match rev (tags_of t) with [] => false | t0 :: _ => t0 =? TAG_COSE_SIGN1 end) in *.
    destruct (_ || _) eqn:Tg in H; [cbn [obind] in H; discriminate|]. cbn [obind] in H.
    rewrite terr_eqb_refl in H. cbn [negb] in H.
    destruct (reads_array_elems _ _ _ _ Ht Et) as (bs & Hl).
    apply (elems_iff _ _ _ _ _ _ _ _ Hl) in H as (-> & prot & u & um & pay & sig & extra & pm & rest & -> & Ru & Eu & Hpm & H).
    exists {| g_tags := rev (tags_of t); g_prot := prot; g_unprot := um; g_payload := pay; g_sig := sig; g_extra := extra |}, pm.
    cbv zeta in H. destruct H as (H1 & H2 & H3 & H4 & H5 & H6 & H7).
    split.
    + exists t, rest. split; [exact Ht|]. split; [|exact Hpm]. split; [reflexivity|]. split; [exact L4|].
      exists u. auto.
    + constructor; cbn [g_tags g_prot g_unprot g_payload g_sig g_extra]; auto.
      * unfold tag_accepted, tagged, requires_tag, prohibits_tag. cbn [g_tags].
        change OPT_TAG_REQUIRED with (2 ^ 2) in Tg. change OPT_TAG_PROHIBITED with (2 ^ 4) in Tg. rewrite !flag_bit in Tg.
        change TAG_COSE_SIGN1 with 18 in tg. fold tg.
        destruct tg, (N.testbit (v_flags me) 2), (N.testbit (v_flags me) 4); try discriminate Tg; auto.
      * destruct H1. constructor; auto.
  - intros (g & pm & (t & rest & Ht & (Eg & L4 & u & Ru & Eu & Et) & Hpm) & [D1 D2 D3 D4 D5 D6 D7 D8 D9]).
    rewrite (decode_reads _ _ _ t) by exact Ht. unfold tree_decode.
    assert (Gt : good t = true).
    { apply good_readable. split; [rewrite <- Eg, rev_length in L4; exact L4|now rewrite Et]. }
    rewrite Gt, Et. rewrite process_tags_spec; [|reflexivity|cbn [mkd d_tags]; rewrite Eg; exact L4|exact Hv].
    cbv zeta. cbn [mkd d_tags]. rewrite Eg. fold (tagged g). change TAG_COSE_SIGN1 with 18. fold (tagged g).
    change OPT_TAG_REQUIRED with (2 ^ 2). change OPT_TAG_PROHIBITED with (2 ^ 4). rewrite !flag_bit.
    assert (Tg : N.testbit (v_flags me) 2 && negb (tagged g) || N.testbit (v_flags me) 4 && tagged g = false).
    { unfold tag_accepted, requires_tag, prohibits_tag in D1. destruct D1 as [D1 D1'].
      destruct (tagged g), (N.testbit (v_flags me) 2), (N.testbit (v_flags me) 4); auto;
        try (specialize (D1 eq_refl); discriminate); specialize (D1' eq_refl); discriminate. }
    unfold tagged in Tg |- *. rewrite Tg. cbn [obind]. rewrite terr_eqb_refl. cbn [negb].
    destruct (reads_array_elems _ _ _ _ Ht Et) as (bs & Hl).
    apply (elems_iff _ _ _ _ _ _ _ _ Hl). split; [exact D2|].
    exists (g_prot g), u, (g_unprot g), (g_payload g), (g_sig g), (g_extra g), pm, rest.
    split; [reflexivity|]. split; [exact Ru|]. split; [exact Eu|]. split; [exact Hpm|]. cbv zeta.
    split; [destruct D3; constructor; auto|]. auto 10.
Qed.
