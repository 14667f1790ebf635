(** The label lists of src/t_cose_parameters.c as lists of labels. *)
From Verif Require Import Base Const QEnc QDec Spec DecSpec BaseFacts DecFacts DecSkip DecCtx Params ParamFacts
  VerifySpec BucketFacts.
From Coq Require Import Lia ZifyBool ZifyNat ZifyN.
Ltac Zify.zify_post_hook ::= Z.div_mod_to_equations.
Open Scope N_scope.
Local Open Scope mon_scope.

Lemma good_readable v : good v = true <-> readable v.
Proof.
  unfold good, readable, few_tags. rewrite andb_true_iff, Nat.leb_le.
  assert (E : qd_ok (err_of (body v)) = true <->
              match body v with CJunk _ => False | CNInt n => n < 2 ^ 63 | _ => True end).
  { unfold err_of. change INT64_LIMIT with (2 ^ 63). destruct (body v); try (cbn; tauto).
    - destruct (n <? 2 ^ 63) eqn:L; cbn [qd_ok]; split; intro; auto; try discriminate; lia.
    - split; [|contradiction]. intro H. exfalso. revert H. unfold junk_err.
      destruct b as [|b0 [|b1 [|]]]; try (intro H; discriminate H);
        match goal with |- context [if ?b then _ else _] => destruct b end; (intro H; discriminate H). }
  tauto.
Qed.

(** ** Representation *)

(** Integers [zs] and texts [ts] in the two arrays of eleven. *)
Definition ll_of (zs : list Z) (ts : list bytes) : llist :=
  {| ll_int := zs ++ repeat 0%Z (11 - length zs);
     ll_tstr := map UBuf ts ++ repeat NULL_UBUF (11 - length ts) |}.

Lemma clear_ll : clear_label_list = ll_of [] [].
Proof. reflexivity. Qed.

Lemma find_first {A} (stop : A -> bool) l a n :
  Forall (fun x => stop x = false) l -> stop a = true -> (0 < n)%nat ->
  arr_find stop (l ++ repeat a n) = Ret (length l).
Proof.
  intros F Ha Hn. induction F as [|x l Hx F IH].
  - destruct n; [lia|]. cbn. now rewrite Ha.
  - cbn [app arr_find length]. rewrite Hx, IH. reflexivity.
Qed.

Lemma set_after {A} (l : list A) a n x :
  arr_set (l ++ repeat a (S n)) (length l) x = Ret ((l ++ [x]) ++ repeat a n).
Proof.
  induction l as [|y l IH]; [reflexivity|]. cbn [app length arr_set]. rewrite IH. reflexivity.
Qed.

Lemma add_int z zs ts :
  Forall (fun z => (z <> 0)%Z) zs -> (length zs <= 10)%nat ->
  add_label_to_list (LblInt z) (ll_of zs ts) =
    Ret (if Nat.leb 10 (length zs) then (ERR_TOO_MANY_PARAMETERS, ll_of zs ts)
         else (T_SUCCESS, ll_of (zs ++ nonzero [z]) ts)).
Proof.
  intros F L. unfold add_label_to_list, ll_of at 1. cbn [ll_int].
  rewrite find_first; [|eapply Forall_impl; [|exact F]; cbn; lia|reflexivity|lia].
  cbn [obind]. change PARAMETER_LIST_MAX with 10%nat.
  destruct (Nat.eqb_spec (length zs) 10) as [E|E]; destruct (Nat.leb_spec 10 (length zs)); try lia; [reflexivity|].
  cbn [ll_int ll_of]. replace (11 - length zs)%nat with (S (10 - length zs)) by lia.
  rewrite set_after. cbn [obind ll_tstr]. unfold ll_of. do 3 f_equal.
  cbn [nonzero filter]. destruct (Z.eqb_spec z 0) as [->|Ez]; cbn [negb].
  - rewrite app_nil_r, <- app_assoc. change ([0%Z] ++ repeat 0%Z (10 - length zs)) with (repeat 0%Z (S (10 - length zs))).
    f_equal. f_equal. lia.
  - f_equal. f_equal. rewrite app_length. cbn [length]. lia.
Qed.

Lemma add_text s zs ts :
  (length ts <= 10)%nat ->
  add_label_to_list (LblText s) (ll_of zs ts) =
    Ret (if Nat.leb 10 (length ts) then (ERR_TOO_MANY_PARAMETERS, ll_of zs ts)
         else (T_SUCCESS, ll_of zs (ts ++ [s]))).
Proof.
  intros L. unfold add_label_to_list, ll_of at 1. cbn [ll_tstr].
  rewrite find_first; [|apply Forall_forall; intros x I; apply in_map_iff in I as (y & <- & _); reflexivity|reflexivity|lia].
  rewrite map_length. cbn [obind]. change PARAMETER_LIST_MAX with 10%nat.
  destruct (Nat.eqb_spec (length ts) 10) as [E|E]; destruct (Nat.leb_spec 10 (length ts)); try lia; [reflexivity|].
  cbn [ll_tstr ll_of]. replace (11 - length ts)%nat with (S (10 - length ts)) by lia.
  rewrite <- (map_length UBuf ts) at 2. rewrite set_after. cbn [obind ll_int]. unfold ll_of. do 3 f_equal.
  rewrite map_app. f_equal. f_equal. rewrite app_length. cbn [length]. lia.
Qed.

(** ** Recording the labels of a bucket *)

Lemma label_cases k v :
  label_like k -> understood k = false ->
  (exists s, body k = CText s /\ kv_label (k, v) = LblText s /\ odd_label k = false /\ int_value k = None) \/
  (exists z, int_value k = Some z /\ kv_label (k, v) = LblInt z /\ odd_label k = false /\
             match body k with CText _ => False | _ => True end) \/
  (odd_label k = true /\ match kv_label (k, v) with LblInt _ | LblText _ => False | _ => True end).
Proof.
  unfold label_like, odd_label, int_value, kv_label. cbn [fst]. intros L _.
  destruct (body k) as [n|n|b|b|l|l|n x|n|b|b]; try contradiction; unfold val_of, as_label; change INT64_LIMIT with (2 ^ 63).
  - destruct (n <? 2 ^ 63); [right; left; eauto|right; right; auto].
  - assert (E : (n <? 2 ^ 63) = true) by lia. rewrite E. right; left; eauto.
  - right; right; auto.
  - left; eauto.
Qed.

Lemma add_all_iff m zs ts ll' :
  Forall (fun kv => label_like (fst kv)) m ->
  Forall (fun z => (z <> 0)%Z) zs -> (length zs <= 10)%nat -> (length ts <= 10)%nat ->
  add_all (map kv_label (unknown_entries m)) (ll_of zs ts) = Ret (Some ll') <->
  Forall (fun kv => understood (fst kv) = false -> odd_label (fst kv) = false) m /\
  ints_fit (length zs) (int_labels m) /\
  (length ts + length (text_labels m) <= 10)%nat /\
  ll' = ll_of (zs ++ nonzero (int_labels m)) (ts ++ text_labels m).
Proof.
  intro Hl. revert zs ts. induction Hl as [|[k v] m Hk Hl IH]; intros zs ts Hz Lz Lt.
  { cbn. rewrite !app_nil_r. split.
    - intro H. injection H as <-. repeat split; auto. lia.
    - intros (_ & _ & _ & ->). reflexivity. }
  cbn [fst] in *. cbn [unknown_entries filter fst int_labels text_labels flat_map].
  fold (int_labels m) (text_labels m) (unknown_entries m).
  destruct (understood k) eqn:U; cbn [negb].
  { assert (X : match body k with CText _ => False | _ => True end).
    { destruct (body k) eqn:Eb; auto. exfalso. unfold understood, has_int, int_value in U. rewrite Eb in U. discriminate. }
    assert (Y : (match body k with CText s => [s] | _ => [] end : list bytes) = []) by (destruct (body k); auto; contradiction).
    rewrite Y. cbn [app]. rewrite (IH zs ts Hz Lz Lt). rewrite Forall_cons_iff. cbn [fst]. rewrite U.
    intuition congruence. }
  cbn [map add_all].
  rewrite Forall_cons_iff. cbn [fst].
  destruct (label_cases k v Hk U) as [(s & Eb & El & Eo & Ei)|[(z & Ei & El & Eo & Eb)|(Eo & El)]].
  - rewrite El, Eb, Ei, Eo, add_text by exact Lt. cbn [obind app].
    destruct (Nat.leb_spec 10 (length ts)).
    + cbn [terr_eqb length]. split; [discriminate|]. intros (_ & _ & H1 & _). lia.
    + rewrite terr_eqb_refl. rewrite IH by (auto; rewrite app_length; cbn [length]; lia).
      rewrite <- app_assoc, app_length. cbn [app length]. intuition (auto; lia).
  - assert (Y : (match body k with CText s => [s] | _ => [] end : list bytes) = []) by (destruct (body k); auto; contradiction).
    rewrite Y, El, Ei, Eo, add_int by auto. cbn [obind app].
    destruct (Nat.leb_spec 10 (length zs)).
    + cbn [terr_eqb ints_fit]. split; [discriminate|]. intros (_ & (H1 & _) & _). lia.
    + rewrite terr_eqb_refl. rewrite IH; auto.
      2:{ apply Forall_app. split; [exact Hz|]. unfold nonzero. apply Forall_forall. intros x I.
          apply filter_In in I as [_ I]. lia. }
      2:{ rewrite app_length. unfold nonzero. cbn [filter]. destruct (negb _); cbn; lia. }
      cbn [ints_fit]. rewrite <- app_assoc, app_length.
      assert (E : nonzero (z :: int_labels m) = nonzero [z] ++ nonzero (int_labels m)).
      { unfold nonzero. cbn [filter]. destruct (negb _); reflexivity. }
      rewrite E. intuition (auto; lia).
  - rewrite Eo. split.
    + destruct (kv_label (k, v)); try contradiction; cbn [add_label_to_list obind terr_eqb]; discriminate.
    + intros ([H _] & _). specialize (H U). discriminate.
Qed.

(** Adding a label never goes outside the arrays. *)
Definition ll_good (ll : llist) : Prop :=
  exists zs ts, ll = ll_of zs ts /\ Forall (fun z => (z <> 0)%Z) zs /\ (length zs <= 10)%nat /\ (length ts <= 10)%nat.

Lemma ll_good_clear : ll_good clear_label_list.
Proof. exists [], []. rewrite clear_ll. cbn. repeat split; auto; lia. Qed.

Lemma add_label_ret l ll :
  ll_good ll -> exists e ll', add_label_to_list l ll = Ret (e, ll') /\ ll_good ll'.
Proof.
  intros (zs & ts & -> & Hz & Lz & Lt). assert (G : ll_good (ll_of zs ts)) by (exists zs, ts; auto).
  destruct l as [z|n|s|s]; [|cbn; eauto| |cbn; eauto].
  - rewrite add_int by auto. destruct (Nat.leb_spec 10 (length zs)); [eauto|].
    do 2 eexists. split; [reflexivity|]. do 2 eexists. split; [reflexivity|].
    assert (X : (length (nonzero [z]) <= 1)%nat) by (unfold nonzero; cbn [filter]; destruct (negb _); cbn; lia).
    rewrite app_length. repeat split; auto; try lia. apply Forall_app. split; [exact Hz|].
    unfold nonzero. apply Forall_forall. intros x I. apply filter_In in I as [_ I]. lia.
  - rewrite add_text by auto. destruct (Nat.leb_spec 10 (length ts)); [eauto|].
    do 2 eexists. split; [reflexivity|]. do 2 eexists. split; [reflexivity|]. rewrite app_length. cbn.
    repeat split; auto; lia.
Qed.

(** ** The crit array *)

Lemma item_int x z :
  int_value x = Some z ->
  val_of None (body x) = VInt z /\ odd_label x = false /\
  (match body x with CText s => [s] | _ => [] end : list bytes) = [].
Proof.
  unfold odd_label, int_value, val_of. change INT64_LIMIT with (2 ^ 63). intro Ei.
  destruct (body x); try discriminate; destruct (n <? 2 ^ 63); try discriminate; now injection Ei as <-.
Qed.

Lemma item_odd x :
  good x = true -> int_value x = None -> match body x with CText _ => False | _ => True end ->
  odd_label x = true /\ (match body x with CText s => [s] | _ => [] end : list bytes) = [] /\
  match val_of None (body x) with VInt _ | VText _ => False | _ => True end.
Proof.
  unfold good, int_value, odd_label, int_value, val_of, err_of. change INT64_LIMIT with (2 ^ 63). intros G E T.
  destruct (body x) as [n|n|b|b|l|l|n y|n|b|b]; try contradiction; try (repeat split; auto; fail).
  - destruct (n <? 2 ^ 63); [discriminate|auto].
  - destruct (n <? 2 ^ 63); discriminate.
  - destruct (n =? 22); auto.
Qed.

Lemma crit_fold_iff xs ci ct ll' :
  (length ci <= 10)%nat -> (length ct <= 10)%nat ->
  crit_fold xs (ll_of ci ct) (length ci) (length ct) = Ret (T_SUCCESS, ll') <->
  Forall label_item xs /\
  (length ci + length (listed_ints xs) <= 10)%nat /\ (length ct + length (listed_texts xs) <= 10)%nat /\
  ll' = ll_of (ci ++ listed_ints xs) (ct ++ listed_texts xs).
Proof.
  revert ci ct. induction xs as [|x xs IH]; intros ci ct Li Lt; cbn [crit_fold].
  { cbn. rewrite !app_nil_r. split.
    - intro H. injection H as <-. repeat split; auto; lia.
    - intros (_ & _ & _ & ->). reflexivity. }
  cbn [listed_ints listed_texts flat_map]. fold (listed_ints xs) (listed_texts xs).
  rewrite Forall_cons_iff. unfold label_item at 1. rewrite <- good_readable.
  destruct (good x) eqn:G; [|split; [discriminate|intros ([[H _] _] & _); discriminate]].
  change PARAMETER_LIST_MAX with 10%nat.
  destruct (int_value x) as [z|] eqn:Ei.
  - pose proof (item_int x z Ei) as V.
    destruct V as (V & O & T). rewrite V, O, T. cbn [app length].
    destruct (Nat.leb_spec 10 (length ci)).
    { split; [discriminate|]. intros (_ & H1 & _). lia. }
    cbn [ll_int ll_of]. replace (11 - length ci)%nat with (S (10 - length ci)) by lia.
    rewrite set_after. cbn [obind ll_tstr ll_of].
    replace {| ll_int := (ci ++ [z]) ++ repeat 0%Z (10 - length ci); ll_tstr := map UBuf ct ++ repeat NULL_UBUF (11 - length ct) |}
      with (ll_of (ci ++ [z]) ct).
    2:{ unfold ll_of. do 2 f_equal. f_equal. rewrite app_length. cbn [length]. lia. }
    replace (S (length ci)) with (length (ci ++ [z])) by (rewrite app_length; cbn [length]; lia).
    rewrite IH by (auto; rewrite app_length; cbn [length]; lia).
    rewrite <- app_assoc, app_length. cbn [app length]. clear - H.
        split; [intros (H1 & H2 & H3 & H4)|intros ((_ & H1) & H2 & H3 & H4)]; (repeat split; auto; lia).
  - assert (D : (exists s, body x = CText s) \/ match body x with CText _ => False | _ => True end) by (destruct (body x); eauto).
    destruct D as [(s & Eb)|D].
    + rewrite Eb. cbn [val_of app length]. assert (O : odd_label x = false) by (unfold odd_label; now rewrite Eb). rewrite O.
      destruct (Nat.leb_spec 10 (length ct)).
      { split; [discriminate|]. intros (_ & _ & H1 & _). lia. }
      cbn [ll_tstr ll_of]. replace (11 - length ct)%nat with (S (10 - length ct)) by lia.
      rewrite <- (map_length UBuf ct) at 2. rewrite set_after. cbn [obind ll_int ll_of].
      replace {| ll_int := ci ++ repeat 0%Z (11 - length ci); ll_tstr := (map UBuf ct ++ [UBuf s]) ++ repeat NULL_UBUF (10 - length ct) |}
        with (ll_of ci (ct ++ [s])).
      2:{ unfold ll_of. f_equal. rewrite map_app, app_length. cbn [map length]. do 2 f_equal. lia. }
      replace (S (length ct)) with (length (ct ++ [s])) by (rewrite app_length; cbn [length]; lia).
      rewrite IH by (auto; rewrite app_length; cbn [length]; lia).
      rewrite <- app_assoc, app_length. cbn [app length]. clear - H.
      split; [intros (H1 & H2 & H3 & H4)|intros ((_ & H1) & H2 & H3 & H4)]; (repeat split; auto; lia).
    + destruct (item_odd x G Ei D) as (O & _ & V). rewrite O.
      split; [|intros ([[_ H] _] & _); discriminate].
      destruct (val_of None (body x)); try contradiction; discriminate.
Qed.

Lemma ll_clear_of ci ct :
  is_label_list_clear (ll_of ci ct) =
    Ret ((match ci with [] => true | z :: _ => (z =? 0)%Z end) && match ct with [] => true | s :: _ => blen s =? 0 end).
Proof.
  unfold is_label_list_clear, arr_get, ll_of. cbn [ll_int ll_tstr].
  assert (E : nth_error (ci ++ repeat 0%Z (11 - length ci)) 0 = Some (match ci with [] => 0%Z | z :: _ => z end)).
  { destruct ci; reflexivity. }
  assert (T : nth_error (map UBuf ct ++ repeat NULL_UBUF (11 - length ct)) 0 = Some (match ct with [] => NULL_UBUF | s :: _ => UBuf s end)).
  { destruct ct; reflexivity. }
  rewrite E. cbn [obind]. destruct ci as [|z ci]; cbn [Z.eqb negb andb].
  - rewrite T. destruct ct; reflexivity.
  - destruct (Z.eqb_spec z 0) as [->|Ez]; cbn [negb andb]; [|destruct z; [contradiction|reflexivity|reflexivity]].
    rewrite T. destruct ct; reflexivity.
Qed.

(** ** Comparing crit with the unknown labels *)

Lemma upto0_nonzero zs : Forall (fun z => (z <> 0)%Z) zs -> upto0 zs = zs.
Proof.
  induction 1 as [|z zs Hz F IH]; [reflexivity|]. cbn [upto0]. destruct (Z.eqb_spec z 0); [contradiction|]. now rewrite IH.
Qed.

Lemma upto0_in z zs : In z (upto0 zs) -> In z zs.
Proof. induction zs as [|y zs IH]; cbn [upto0]; [auto|]. destruct (y =? 0)%Z; cbn [In]; tauto. Qed.

Lemma any_ints (f : Z -> bool) zs n :
  (0 < n)%nat ->
  arr_any (fun x => (x =? 0)%Z) (fun z => Ret (f z)) (zs ++ repeat 0%Z n) = Ret (existsb f (upto0 zs)).
Proof.
  intro Hn. induction zs as [|z zs IH].
  - destruct n; [lia|]. reflexivity.
  - cbn [app arr_any upto0]. destruct (z =? 0)%Z; [reflexivity|]. cbn [obind existsb].
    destruct (f z); [reflexivity|]. exact IH.
Qed.

Lemma any_texts (f : bytes -> bool) (g : ubufc -> out bool) ts n :
  (0 < n)%nat -> (forall s, g (UBuf s) = Ret (f s)) ->
  arr_any u_is_null g (map UBuf ts ++ repeat NULL_UBUF n) = Ret (existsb f ts).
Proof.
  intros Hn Hg. induction ts as [|s ts IH].
  - destruct n; [lia|]. reflexivity.
  - cbn [map app arr_any u_is_null existsb]. rewrite Hg. cbn [obind]. destruct (f s); [reflexivity|]. exact IH.
Qed.

Lemma arr_any_ext {A} (stop : A -> bool) f g l : (forall x, f x = g x) -> arr_any stop f l = arr_any stop g l.
Proof.
  intro H. induction l as [|x l IH]; [reflexivity|]. cbn [arr_any]. rewrite H, IH. reflexivity.
Qed.

Lemma u_equal_bufs a b : u_equal (UBuf a) (UBuf b) = Ret (bytes_eqb a b).
Proof.
  unfold u_equal. cbn [u_len]. destruct (N.eqb_spec (blen a) (blen b)) as [E|E]; cbn [negb].
  - destruct (N.eqb_spec (blen a) 0) as [E0|E0]; [|reflexivity].
    destruct a, b; try reflexivity; rewrite ?blen_cons in *; lia.
  - destruct (bytes_eqb a b) eqn:X; [|reflexivity]. apply bytes_eqb_eq in X. subst. contradiction.
Qed.

Theorem check_critical_of ci ct ui ut :
  (length ci <= 10)%nat -> (length ct <= 10)%nat -> (length ui <= 10)%nat -> (length ut <= 10)%nat ->
  check_critical_labels (ll_of ci ct) (ll_of ui ut) =
    Ret (if existsb (fun u => existsb (fun c => (c =? u)%Z) (upto0 ci)) (upto0 ui)
            || existsb (fun u => existsb (fun c => bytes_eqb c u) ct) ut
         then ERR_UNKNOWN_CRITICAL_PARAMETER else T_SUCCESS).
Proof.
  intros L1 L2 L3 L4. unfold check_critical_labels. cbn [ll_int ll_tstr ll_of].
  erewrite arr_any_ext; [|intro u; apply any_ints; lia].
  rewrite any_ints by lia. cbn [obind].
  destruct (existsb _ (upto0 ui)); cbn [orb]; [reflexivity|].
  rewrite (any_texts (fun u => existsb (fun c => bytes_eqb c u) ct)); [|lia|].
  - reflexivity.
  - intro s. apply any_texts; [lia|]. intro b. apply u_equal_bufs.
Qed.
