(** One bucket of header parameters, as a function of the CBOR map it holds. *)
From Verif Require Import Base Const QEnc QDec Spec DecSpec BaseFacts DecFacts DecSkip DecCtx Params.
From Coq Require Import Lia ZifyBool ZifyNat ZifyN.
Ltac Zify.zify_post_hook ::= Z.div_mod_to_equations.
Open Scope N_scope.
Local Open Scope mon_scope.

(** ** The search of the map *)

(** The label of a map entry as the decoder reports it. *)
Definition kv_label (kv : cbor * cbor) : label :=
  match as_label (val_of None (body (fst kv))) with Some l => l | None => LblInt 0 end.

Definition norm_entry (kv : cbor * cbor) : entry :=
  {| en_label := kv_label kv; en_item := item_of None (snd kv); en_content := [] |}.

Definition vsim (v v' : val) : Prop :=
  match v, v' with VAgg m _, VAgg m' _ => m = m' | _, _ => v = v' end.

Definition esim (e e' : entry) : Prop :=
  en_label e = en_label e' /\ i_err (en_item e) = i_err (en_item e') /\
  vsim (i_val (en_item e)) (i_val (en_item e')).

Definition ssim (s s' : slot) : Prop :=
  sl_label s = sl_label s' /\ sl_type s = sl_type s' /\
  match sl_found s, sl_found s' with
  | None, None => True
  | Some e, Some e' => esim e e'
  | _, _ => False
  end.

Lemma vsim_refl v : vsim v v.
Proof. destruct v; cbn; auto. Qed.

Lemma vsim_types t v v' : vsim v v' -> type_matches t v = type_matches t v'.
Proof.
  destruct v, v'; cbn; intro H; try discriminate; try (injection H as ->); subst; destruct t; reflexivity.
Qed.

Lemma val_of_vsim c1 c2 x : vsim (val_of c1 x) (val_of c2 x).
Proof. destruct x; cbn; auto; try (destruct (n <? INT64_LIMIT); reflexivity); try (destruct (n =? 22); reflexivity). Qed.

Lemma entry_for_esim d kv e : entry_for d kv e -> esim (norm_entry kv) e.
Proof.
  intros (Hl & cnt & cb & tl & _ & Hi & _). unfold esim, norm_entry, kv_label. cbn [en_label en_item].
  rewrite Hl, Hi. repeat split; [symmetry; apply item_err|].
  rewrite !item_of_val. apply val_of_vsim.
Qed.

Lemma entries_esim d l es : Forall2 (entry_for d) l es -> Forall2 esim (map norm_entry l) es.
Proof. induction 1; cbn [map]; constructor; auto. eapply entry_for_esim; eassumption. Qed.

Lemma fill_slots_sim ss ss' e e' :
  Forall2 ssim ss ss' -> esim e e' ->
  match fill_slots ss e, fill_slots ss' e' with
  | None, None => True
  | Some (inl x), Some (inl x') => x = x'
  | Some (inr r), Some (inr r') => Forall2 ssim r r'
  | _, _ => False
  end.
Proof.
  intros H E. induction H as [|s s' ss ss' Hs H IH]; cbn [fill_slots]; [exact I|].
  destruct Hs as (Hl & Ht & Hf). destruct E as (El & Ee & Ev).
  rewrite <- Hl, <- El. destruct (label_is (sl_label s) (en_label e)).
  - destruct (sl_found s), (sl_found s'); try contradiction; [reflexivity|].
    rewrite <- Ee. destruct (negb (qd_ok (i_err (en_item e)))); [reflexivity|].
    rewrite <- Ht, <- (vsim_types (sl_type s) _ _ Ev).
    destruct (type_matches (sl_type s) (i_val (en_item e))); [|reflexivity].
    constructor; [|exact H]. unfold ssim, slot_fill. cbn [sl_label sl_type sl_found].
    repeat split; auto.
  - destruct (fill_slots ss e) as [[x|r]|], (fill_slots ss' e') as [[x'|r']|]; auto.
    constructor; [|exact IH]. repeat split; auto.
Qed.

Definition search_sim {S} (x x' : out (list slot * S * qd_err)) : Prop :=
  match x, x' with
  | Ret (ss, st, q), Ret (ss', st', q') => Forall2 ssim ss ss' /\ st = st' /\ q = q'
  | UB w, UB w' => w = w'
  | _, _ => False
  end.

Lemma search_entries_sim {S} (cb : S -> entry -> out (S * bool)) es es' :
  (forall st e e', en_label e = en_label e' -> cb st e = cb st e') ->
  Forall2 esim es es' -> forall ss ss' st, Forall2 ssim ss ss' ->
  search_sim (search_entries cb ss st es) (search_entries cb ss' st es').
Proof.
  intros Hcb H. induction H as [|e e' es es' He H IH]; intros ss ss' st Hs; cbn [search_entries].
  - cbn. auto.
  - pose proof (fill_slots_sim ss ss' e e' Hs He) as F.
    destruct (fill_slots ss e) as [[x|r]|], (fill_slots ss' e') as [[x'|r']|]; try contradiction.
    + cbn. subst. auto.
    + now apply IH.
    + rewrite (Hcb st e e') by apply He. destruct (cb st e') as [[st' ok]|w]; cbn [obind]; [|reflexivity].
      destruct ok; [now apply IH|]. cbn. auto.
Qed.

Lemma ssim_refl_none l t : ssim (mk_slot l t) (mk_slot l t).
Proof. unfold ssim. cbn. auto. Qed.

Lemma header_slots_sim : Forall2 ssim header_slots header_slots.
Proof. unfold header_slots. repeat (constructor; [apply ssim_refl_none|]). constructor. Qed.

Lemma callback_label st e e' :
  en_label e = en_label e' -> header_parameter_callback st e = header_parameter_callback st e'.
Proof. intro H. unfold header_parameter_callback. now rewrite H. Qed.

Definition ovsim (v v' : option val) : Prop :=
  match v, v' with Some a, Some b => vsim a b | None, None => True | _, _ => False end.

Lemma slot_val_sim ss ss' n : Forall2 ssim ss ss' -> ovsim (slot_val ss n) (slot_val ss' n).
Proof.
  intro H. revert n. induction H as [|s s' ss ss' Hs H IH]; intro n; unfold slot_val.
  - destruct n; exact I.
  - destruct n; cbn [nth_error]; [|apply IH]. destruct Hs as (_ & _ & Hf).
    destruct s as [a b f], s' as [a' b' f']. cbn [sl_found] in Hf.
    destruct f, f'; try contradiction; [|exact I]. apply Hf.
Qed.

Lemma take_all_sim c prot ss ss' p :
  Forall2 ssim ss ss' -> take_all c prot ss p = take_all c prot ss' p.
Proof.
  intro H. unfold take_all.
  assert (A : forall v v' p, ovsim v v' -> take_alg prot v p = take_alg prot v' p).
  { intros v v' q. unfold ovsim, vsim, take_alg.
    destruct v as [[]|], v' as [[]|]; intro E; try contradiction; try discriminate E; try (injection E as ->); reflexivity. }
  assert (B : forall g s v v' p, ovsim v v' -> take_bstr g s v p = take_bstr g s v' p).
  { intros g s v v' q. unfold ovsim, vsim, take_bstr.
    destruct v as [[]|], v' as [[]|]; intro E; try contradiction; try discriminate E; try (injection E as ->); reflexivity. }
  assert (C : forall v v' p, ovsim v v' -> take_content_type c v p = take_content_type c v' p).
  { intros v v' q. unfold ovsim, vsim, take_content_type.
    destruct v as [[]|], v' as [[]|]; intro E; try contradiction; try discriminate E; try (injection E as ->); reflexivity. }
  unfold tbind.
  rewrite (A _ _ p (slot_val_sim ss ss' 0 H)). destruct (take_alg prot (slot_val ss' 0) p) as [[] q]; try reflexivity.
  rewrite (B p_kid p_set_kid _ _ q (slot_val_sim ss ss' 1 H)).
  destruct (take_bstr p_kid p_set_kid (slot_val ss' 1) q) as [[] q1]; try reflexivity.
  rewrite (B p_iv p_set_iv _ _ q1 (slot_val_sim ss ss' 2 H)).
  destruct (take_bstr p_iv p_set_iv (slot_val ss' 2) q1) as [[] q2]; try reflexivity.
  rewrite (B p_partial_iv p_set_partial_iv _ _ q2 (slot_val_sim ss ss' 3 H)).
  destruct (take_bstr p_partial_iv p_set_partial_iv (slot_val ss' 3) q2) as [[] q3]; try reflexivity.
  apply C. now apply slot_val_sim.
Qed.

(** ** The crit parameter *)

Definition has_label (z : Z) (kv : cbor * cbor) : bool := label_is z (kv_label kv).

(** The loop over the elements of the crit array. *)
Fixpoint crit_fold (xs : list cbor) (ll : llist) (ni nt : nat) : out (terr * llist) :=
  match xs with
  | [] => Ret (T_SUCCESS, ll)
  | x :: r =>
    if good x then
      match val_of None (body x) with
      | VInt z =>
        if Nat.leb PARAMETER_LIST_MAX ni then Ret (ERR_CRIT_PARAMETER, ll)
        else let? a := arr_set (ll_int ll) ni z in
             crit_fold r {| ll_int := a; ll_tstr := ll_tstr ll |} (S ni) nt
      | VText s =>
        if Nat.leb PARAMETER_LIST_MAX nt then Ret (ERR_CRIT_PARAMETER, ll)
        else let? a := arr_set (ll_tstr ll) nt (UBuf s) in
             crit_fold r {| ll_int := ll_int ll; ll_tstr := a |} ni (S nt)
      | _ => Ret (ERR_CRIT_PARAMETER, ll)
      end
    else Ret (ERR_CBOR_NOT_WELL_FORMED, ll)
  end.

Definition crit_result (l : list (cbor * cbor)) (crit : option llist) : out (terr * option llist) :=
  match filter (has_label LABEL_CRIT) l with
  | [] => Ret (T_SUCCESS, crit)
  | [(_, v)] =>
    match good v, body v with
    | true, CArray xs =>
      match crit with
      | None => Ret (ERR_PARAMETER_NOT_PROTECTED, None)
      | Some ll =>
        let? (err, ll) := crit_fold xs ll 0 0 in
        if negb (terr_eqb err T_SUCCESS) then Ret (err, Some ll)
        else let? clear := is_label_list_clear ll in
             Ret (if clear then ERR_CRIT_PARAMETER else T_SUCCESS, Some ll)
      end
    | _, _ => Ret (ERR_CRIT_PARAMETER, crit)
    end
  | _ => Ret (ERR_CRIT_PARAMETER, crit)
  end.

Lemma item_err_cases cnt c :
  match i_err (item_of cnt c) with
  | QD_SUCCESS | QD_INT_OVERFLOW | QD_BAD_TYPE_7 | QD_BAD_INT | QD_UNSUPPORTED | QD_TOO_MANY_TAGS => True
  | _ => False
  end.
Proof.
  rewrite item_of_eq. destruct (negb (qd_ok (err_of (body c)))) eqn:E.
  - cbn [bad_item i_err]. destruct (body c); cbn in *; try discriminate.
    + destruct (n <? INT64_LIMIT); exact I.
    + unfold junk_err. destruct b as [|b0 [|b1 [|]]]; try exact I; destruct (_ =? 31); exact I.
  - cbn [i_err]. destruct (few_tags c); exact I.
Qed.

Lemma item_err_not_end c : i_err (item_of None c) <> QD_NO_MORE_ITEMS.
Proof. intro H. pose proof (item_err_cases None c) as C. rewrite H in C. exact C. Qed.

Lemma crit_loop_eq xs b :
  forall dp, reads_all dp xs b -> forall R c cb sc s rest tg ll ni nt fuel,
  dp = S (length R) -> ended c (blen xs) b cb -> (length (cb ++ rest) < fuel)%nat ->
  exists d', crit_loop fuel (mkd (cb ++ rest) (LvAgg false c sc s :: R) tg) ll ni nt
             = (let? (e, ll') := crit_fold xs ll ni nt in Ret (e, ll', d')) /\
    d_err d' = QD_SUCCESS /\ exists c', d_levels d' = LvAgg false c' sc s :: R.
Proof.
  intros dp H. induction H as [dp|dp x xs b bs Hx Hxs IH];
    intros R c cb sc s rest tg ll ni nt fuel Hd He Hf; (destruct fuel as [|fuel]; [lia|]).
  - assert (E : get_next (mkd (cb ++ rest) (LvAgg false c sc s :: R) tg)
       = (QD_NO_MORE_ITEMS, bad_item QD_NO_MORE_ITEMS, mkd (cb ++ rest) (LvAgg false c sc s :: R) tg)).
    { destruct He as [(-> & ->)|(-> & ->)]; [apply get_next_end; auto|apply get_next_break]. }
    eexists. cbn [crit_loop crit_fold obind]. rewrite E. split; [reflexivity|].
    cbn [mkd d_err d_levels]. eauto.
  - rewrite blen_cons in He.
    assert (X : exists cb', cb = b ++ cb' /\ ended (dec_count c) (blen xs) bs cb' /\ c <> Some 0).
    { destruct He as [(-> & ->)|(-> & ->)].
      - exists bs. split; [reflexivity|]. split; [|intro E; assert (1 + blen xs = 0) by congruence; lia].
        left. cbn [dec_count]. split; [f_equal; lia|reflexivity].
      - exists (bs ++ [xff]). rewrite <- !app_assoc. split; [reflexivity|]. split; [right; auto|discriminate]. }
    destruct X as (cb' & -> & He' & Hc). clear He. rewrite <- app_assoc in *.
    destruct (get_next_elem (LvAgg false c sc s :: R) x b (cb' ++ rest) tg) as (cnt & cx & Hcx & E).
    { cbn. destruct c as [[|p]|]; [contradiction|reflexivity|reflexivity]. }
    { cbn [length]. now rewrite <- Hd. }
    cbn [crit_loop crit_fold]. rewrite E, item_err.
    destruct (good x) eqn:G.
    2:{ eexists (mkd (cx ++ cb' ++ rest) (dec_level (LvAgg false c sc s :: R)) tg).
        cbn [obind mkd d_err d_levels dec_level]. split; [|eauto].
        pose proof (item_err_not_end x) as N1. rewrite <- (good_err None) in G.
        destruct (i_err (item_of None x)); try reflexivity; [discriminate|contradiction]. }
    rewrite good_item_of by exact G. cbn [i_err]. rewrite got_good by exact G.
    rewrite good_item_of by exact G. cbn [i_val].
    pose proof (val_of_vsim cnt None (body x)) as V.
    assert (Stop : exists d',
      Ret (ERR_CRIT_PARAMETER, ll, mkd (cx ++ cb' ++ rest) (dec_level (LvAgg false c sc s :: R)) tg)
      = (let? (e, ll') := Ret (ERR_CRIT_PARAMETER, ll) in Ret (e, ll', d')) /\
      d_err d' = QD_SUCCESS /\ exists c', d_levels d' = LvAgg false c' sc s :: R).
    { eexists. cbn [obind]. split; [reflexivity|]. cbn [mkd d_err d_levels dec_level]. eauto. }
    assert (Hleaf : (exists z, val_of None (body x) = VInt z) \/ (exists s, val_of None (body x) = VText s) -> cx = []).
    { intros Hl. unfold content in Hcx.
      destruct (body x); cbn [val_of] in Hl; try (apply Hcx);
        destruct Hl as [[z Hl]|[z Hl]]; discriminate. }
    assert (Hlen : (length (cb' ++ rest) < fuel)%nat).
    { assert (0 < length b)%nat.
      { destruct (reads_get_item _ _ _ Hx) as (hb & ? & ? & -> & Hh & _).
        destruct hb; [contradiction|]. cbn; lia. }
      rewrite app_length in Hf. lia. }
    destruct (val_of cnt (body x)), (val_of None (body x)); cbn [vsim] in V; try discriminate V;
      try exact Stop.
    + injection V as ->. rewrite (Hleaf (or_introl (ex_intro _ _ eq_refl))).
      destruct (Nat.leb PARAMETER_LIST_MAX ni).
      { rewrite (Hleaf (or_introl (ex_intro _ _ eq_refl))) in Stop. exact Stop. }
      destruct (arr_set (ll_int ll) ni z0) as [a|w]; cbn [obind].
      * cbn [dec_level app]. apply IH; auto.
      * exists (mkd [] (LvAgg false c sc s :: R) []). cbn. eauto.
    + injection V as ->. rewrite (Hleaf (or_intror (ex_intro _ _ eq_refl))).
      destruct (Nat.leb PARAMETER_LIST_MAX nt).
      { rewrite (Hleaf (or_intror (ex_intro _ _ eq_refl))) in Stop. exact Stop. }
      destruct (arr_set (ll_tstr ll) nt (UBuf b1)) as [a|w]; cbn [obind].
      * cbn [dec_level app]. apply IH; auto.
      * exists (mkd [] (LvAgg false c sc s :: R) []). cbn. eauto.
Qed.

Definition one_slot (z : Z) (f : option entry) : list slot :=
  [{| sl_label := z; sl_type := QT_ARRAY; sl_found := f |}].

(** Result of looking for one array. *)
Definition one_result (z : Z) (es : list entry) : list slot * unit * qd_err :=
  match es with
  | [] => (one_slot z None, tt, QD_SUCCESS)
  | e :: r =>
    if negb (qd_ok (i_err (en_item e))) then (one_slot z None, tt, i_err (en_item e))
    else if type_matches QT_ARRAY (i_val (en_item e))
    then (one_slot z (Some e), tt, match r with [] => QD_SUCCESS | _ => QD_DUPLICATE_LABEL end)
    else (one_slot z None, tt, QD_UNEXPECTED_TYPE)
  end.

Lemma search_one z es :
  search_entries (fun (_ : unit) _ => Ret (tt, true)) (one_slot z None) tt es
  = Ret (one_result z (filter (fun e => label_is z (en_label e)) es)).
Proof.
  assert (F : forall e0 es, search_entries (fun (_ : unit) _ => Ret (tt, true)) (one_slot z (Some e0)) tt es
    = Ret (one_slot z (Some e0), tt,
           match filter (fun e => label_is z (en_label e)) es with [] => QD_SUCCESS | _ => QD_DUPLICATE_LABEL end)).
  { intro e0. induction es0 as [|e es0 IH]; [reflexivity|].
    cbn [search_entries filter one_slot fill_slots sl_label sl_found sl_type].
    destruct (label_is z (en_label e)); [reflexivity|]. cbn [obind]. exact IH. }
  induction es as [|e es IH]; [reflexivity|].
  cbn [search_entries filter one_slot fill_slots sl_label sl_found sl_type].
  destruct (label_is z (en_label e)); [|cbn [obind]; exact IH].
  cbn [one_result]. destruct (negb (qd_ok (i_err (en_item e)))); [reflexivity|].
  destruct (type_matches QT_ARRAY (i_val (en_item e))); [|reflexivity].
  apply (F e es).
Qed.

Lemma filter_entries d z l es :
  Forall2 (entry_for d) l es ->
  Forall2 (entry_for d) (filter (has_label z) l) (filter (fun e => label_is z (en_label e)) es).
Proof.
  induction 1 as [|kv e l es He H IH]; cbn [filter]; [constructor|].
  assert (E : has_label z kv = label_is z (en_label e)).
  { unfold has_label, kv_label. destruct He as [-> _]. reflexivity. }
  rewrite E. destruct (label_is z (en_label e)); [constructor; assumption|assumption].
Qed.

(** State of the decoder inside a map. *)
Definition in_map (d : dctx) (sc : option N) (start : bytes) (R : list level) : Prop :=
  d_err d = QD_SUCCESS /\ exists c, d_levels d = LvAgg true c sc start :: R.

Lemma exit_map_ok d sc start R es rest :
  in_map d sc start R -> scan_map (S (length R)) sc start = (es, inr rest) ->
  exit_map d = mkd rest R (d_tags d).
Proof.
  intros (He & c & Hl) Hs. unfold exit_map. rewrite He, Hl. cbn [qd_ok negb].
  unfold d_depth. rewrite Hl. cbn [length]. rewrite Hs. cbn [snd].
  unfold d_set_levels, d_set_in. cbn. rewrite He. reflexivity.
Qed.

Lemma decode_critical_eq l es d sc start R rest crit :
  in_map d sc start R -> scan_map (S (length R)) sc start = (es, inr rest) ->
  Forall2 (entry_for (S (length R))) l es ->
  exists d', decode_critical_parameter d crit
             = (let? (e, crit') := crit_result l crit in Ret (e, crit', d')) /\
    (match crit_result l crit with
     | Ret (T_SUCCESS, _) => in_map d' sc start R
     | _ => True
     end).
Proof.
  intros (He & c & Hl) Hs Hf. pose proof (filter_entries _ LABEL_CRIT _ _ Hf) as Hc.
  unfold decode_critical_parameter, enter_array_from_map.
  rewrite He, Hl. cbn [qd_ok negb]. unfold d_depth. rewrite Hl. cbn [length]. rewrite Hs.
  change [{| sl_label := LABEL_CRIT; sl_type := QT_ARRAY; sl_found := None |}] with (one_slot LABEL_CRIT None).
  rewrite search_one. unfold crit_result.
  destruct (filter (has_label LABEL_CRIT) l) as [|[k v] [|kv2 l2]].
  - inversion Hc as [E1 E2|]. cbn [one_result qd_ok negb one_slot].
    unfold get_and_reset_error. cbn [d_set_err d_err].
    eexists. cbn [obind]. split; [reflexivity|]. split; [reflexivity|]. exists c. exact Hl.
  - inversion Hc as [|a e b r Hek Hr E1 E2]. subst. inversion Hr. subst.
    destruct Hek as (_ & cnt & cb & tl & Hcont & Hi & Hct). cbn [snd] in *. unfold one_result.
    rewrite Hi, good_err, item_of_val.
    destruct (good v) eqn:G; cbn [negb].
    2:{ cbn [qd_ok negb].
        assert (E : qd_ok (i_err (item_of cnt v)) = false) by (rewrite good_err; exact G).
        rewrite E. cbn [negb]. unfold get_and_reset_error. cbn [d_set_err d_err].
        eexists (d_set_err d QD_SUCCESS). split; [|exact I]. cbn [obind].
        pose proof (item_err_cases cnt v) as NF.
        unfold d_set_err; cbn.
        destruct (i_err (item_of cnt v)); try reflexivity; try discriminate; contradiction. }
    assert (NotArr : match body v with CArray _ => True | _ => type_matches QT_ARRAY (val_of cnt (body v)) = false end).
    { destruct (body v); cbn; auto; try (destruct (n <? INT64_LIMIT); reflexivity); destruct (n =? 22); reflexivity. }
    destruct (body v) as [ | | | |xs| | | | | ] eqn:Eb;
      try (rewrite NotArr; cbn [qd_ok negb]; unfold get_and_reset_error; cbn [d_set_err d_err obind];
           eexists; split; [reflexivity|exact I]).
    cbn [val_of type_matches qd_ok negb one_slot]. rewrite Hi, item_of_val, Eb. cbn [val_of].
    unfold get_and_reset_error. cbn [d_err d_set_err d_set_tags d_set_in d_set_levels].
    rewrite He, Hct.
    destruct crit as [ll|].
    2:{ cbn [obind]. eexists. split; [reflexivity|exact I]. }
    unfold content in Hcont. rewrite Eb in Hcont. destruct Hcont as (bx & Hcd & Hrx).
    assert (Hend : ended cnt (blen xs) bx cb).
    { destruct Hcd as [(-> & _ & ->)|(-> & ->)]; [left; auto|right; auto]. }
    cbn [d_in d_levels d_tags d_err].
    destruct (crit_loop_eq xs bx _ Hrx (LvAgg true c sc start :: R) cnt cb cnt (cb ++ tl) tl
               (i_tags (en_item e)) ll 0 0 (S (length (cb ++ tl)))) as (d' & E & Hd' & c' & Hl').
    { reflexivity. } { exact Hend. } { lia. }
    unfold mkd in E. rewrite Hi in E. unfold d_set_err, d_set_tags, d_set_in, d_set_levels.
    cbn [d_in d_levels d_tags d_err]. rewrite E.
    destruct (crit_fold xs ll 0 0) as [[e1 ll']|w]; cbn [obind]; [|exists d; auto].
    destruct (terr_eqb e1 T_SUCCESS) eqn:T; cbn [negb].
    2:{ exists d'. split; [reflexivity|]. destruct e1; auto. discriminate. }
    apply terr_eqb_eq in T. subst e1.
    assert (Ex : exit_array d' = mkd tl (LvAgg true c sc start :: R) (d_tags d')).
    { unfold exit_array. rewrite Hd', Hl'. cbn [qd_ok negb].
      replace cb with (cb ++ []) by apply app_nil_r. rewrite <- app_assoc. cbn [app].
      pose proof (skip_closes (length (LvAgg true c sc start :: R)) [(false, cnt)] (cb ++ []) tl) as K.
      rewrite app_nil_r in K. rewrite K.
      - unfold mkd, d_set_levels, d_set_in. cbn. now rewrite Hd'.
      - rewrite <- (app_nil_r cb). apply (cl_array _ cnt xs bx); [exact Hend| |constructor].
        cbn [length] in *. replace (S (length R) + 1)%nat with (S (S (length R))) by lia. exact Hrx. }
    rewrite Ex. destruct (is_label_list_clear ll') as [cl|w]; cbn [obind]; [|exists d; auto].
    eexists. split; [reflexivity|]. destruct cl; [exact I|].
    split; [reflexivity|]. exists c. reflexivity.
  - inversion Hc as [|a e b r Hek Hr E1 E2]. subst. inversion Hr as [|a2 e2 b2 r2 Hek2 Hr2 E3 E4]. subst.
    exists (d_set_err d QD_SUCCESS). split; [|exact I]. cbn [obind].
    destruct Hek as (_ & cnt & cb & tl & Hcont & Hi & Hct). cbn [snd] in *. unfold one_result.
    rewrite Hi, good_err. destruct (good v) eqn:G; cbn [negb].
    + destruct (type_matches _ _); reflexivity.
    + assert (E : qd_ok (i_err (item_of cnt v)) = false) by (rewrite good_err; exact G).
      rewrite E. cbn [negb]. unfold get_and_reset_error. cbn [d_set_err d_err].
      pose proof (item_err_cases cnt v) as NF.
      unfold d_set_err; cbn.
      destruct (i_err (item_of cnt v)); try reflexivity; try discriminate; contradiction.
Qed.

(** ** A whole bucket *)

Definition bucket (c : cfg) (l : list (cbor * cbor)) (p : params) (crit : option llist) (unknown : llist)
  : out (terr * params * option llist * llist) :=
  let? (ss, st, x) := search_entries header_parameter_callback header_slots (unknown, T_SUCCESS)
                                     (map norm_entry l) in
  match x with
  | QD_CALLBACK_FAIL => Ret (snd st, p, crit, fst st)
  | QD_SUCCESS =>
    let (err, p) := take_all c (match crit with Some _ => true | None => false end) ss p in
    if negb (terr_eqb err T_SUCCESS) then Ret (err, p, crit, fst st)
    else let? (err, crit') := crit_result l crit in Ret (err, p, crit', fst st)
  | x => Ret (if is_not_wf x then ERR_CBOR_NOT_WELL_FORMED else ERR_PARAMETER_CBOR, p, crit, fst st)
  end.

(** [r] is what parsing returns when the bucket gives [o], and leaves the
    decoder at [rest]. *)
Definition parsed_as (o : out (terr * params * option llist * llist)) (x : out parsed)
           (rest : bytes) (L : list level) : Prop :=
  match o, x with
  | Ret (e, p, crit, unk), Ret r =>
    r_err r = e /\ r_params r = p /\ r_crit r = crit /\ r_unknown r = unk /\
    (e = T_SUCCESS -> exists tg, r_d r = mkd rest L tg)
  | UB w, UB w' => w = w'
  | _, _ => False
  end.

Lemma fill_slots_not_fail ss kv :
  fill_slots ss (norm_entry kv) <> Some (inl QD_CALLBACK_FAIL).
Proof.
  induction ss as [|s r IH]; cbn [fill_slots]; [discriminate|].
  destruct (label_is _ _).
  - destruct (sl_found s); [discriminate|]. unfold norm_entry. cbn [en_item].
    pose proof (item_err_cases None (snd kv)) as C.
    destruct (i_err (item_of None (snd kv))); cbn [qd_ok negb]; try discriminate; try contradiction.
    destruct (type_matches _ _); discriminate.
  - destruct (fill_slots r (norm_entry kv)) as [[x|r']|]; congruence.
Qed.

Lemma search_callback_fail l ss st ss' st' :
  search_entries header_parameter_callback ss st (map norm_entry l) = Ret (ss', st', QD_CALLBACK_FAIL) ->
  snd st' <> T_SUCCESS.
Proof.
  revert ss st. induction l as [|kv l IH]; intros ss st; cbn [map search_entries]; [discriminate|].
  pose proof (fill_slots_not_fail ss kv) as F.
  destruct (fill_slots ss (norm_entry kv)) as [[x|r]|]; [congruence|apply IH|].
  destruct (header_parameter_callback st (norm_entry kv)) as [[st1 ok]|w] eqn:E; cbn [obind]; [|discriminate].
  destruct ok; [apply IH|]. intro X. injection X as _ <-.
  unfold header_parameter_callback in E. destruct (label_is _ _); [discriminate|].
  destruct (add_label_to_list _ _) as [[err ll]|]; cbn [obind] in E; [|discriminate].
  injection E as <- E. cbn [snd]. now apply terr_eqb_neq.
Qed.

Lemma parse_eq c L x l b rest tg p crit unknown :
  elem_level L = true -> reads (length L) x b -> good x = true -> body x = CMap l ->
  parsed_as (bucket c l p crit unknown)
            (parse_cose_header_parameters c (mkd (b ++ rest) L tg) p crit unknown) rest (dec_level L).
Proof.
  intros HL Hx G Eb.
  destruct (enter_agg_ok true L x b rest tg HL Hx G) as (cnt & cb & Hc & E).
  { rewrite Eb. reflexivity. }
  unfold parse_cose_header_parameters. unfold enter_map. rewrite E.
  unfold content in Hc. rewrite Eb in Hc. destruct Hc as (bx & Hcd & Hrx).
  assert (Hend : ended cnt (blen l) bx cb).
  { destruct Hcd as [(-> & _ & ->)|(-> & ->)]; [left; auto|right; auto]. }
  destruct (scan_pairs _ _ _ Hrx cnt cb rest Hend) as (es & Hs & Hf).
  unfold get_items_in_map. cbn [mkd d_err qd_ok negb d_levels d_depth length].
  unfold d_depth. cbn [d_levels length]. rewrite dec_level_length, Hs.
  pose proof (search_entries_sim header_parameter_callback _ _ callback_label (entries_esim _ _ _ Hf)
                header_slots header_slots (unknown, T_SUCCESS) header_slots_sim) as Sim.
  unfold bucket.
  destruct (search_entries header_parameter_callback header_slots (unknown, T_SUCCESS) (map norm_entry l))
    as [[[ss st] q]|w] eqn:S0,
    (search_entries header_parameter_callback header_slots (unknown, T_SUCCESS) es) as [[[ss' st'] q']|w'];
    try contradiction; [|exact Sim].
  destruct Sim as (Hss & <- & <-). cbn [obind]. cbv zeta.
  assert (Fail : q = QD_CALLBACK_FAIL -> snd st <> T_SUCCESS).
  { intros ->. eapply search_callback_fail. exact S0. }
  destruct q; cbn [qd_ok negb d_set_err d_err parsed_as r_err r_params r_crit r_unknown is_not_wf];
    try (repeat split; try reflexivity; (intro X; discriminate X)).
  2:{ repeat split; try reflexivity. intro X. now apply Fail in X. }
  rewrite (take_all_sim c _ ss ss' p Hss).
  destruct (take_all c _ ss' p) as [err p'].
  destruct (negb (terr_eqb err T_SUCCESS)) eqn:T.
  { cbn [parsed_as r_err r_params r_crit r_unknown]. repeat split; try reflexivity.
    intros ->. discriminate. }
  match goal with |- context[decode_critical_parameter ?d0 crit] => set (d := d0) end.
  assert (Hd : in_map d cnt (cb ++ rest) (dec_level L)).
  { split; [reflexivity|]. exists cnt. reflexivity. }
  rewrite <- (dec_level_length L) in Hs, Hf.
  destruct (decode_critical_eq l es d cnt (cb ++ rest) (dec_level L) rest crit Hd Hs Hf) as (d' & Ed & Hd').
  rewrite Ed. destruct (crit_result l crit) as [[e crit']|w]; cbn [obind]; [|reflexivity].
  cbn [parsed_as r_err r_params r_crit r_unknown r_d]. repeat split; try reflexivity.
  intros ->. rewrite (exit_map_ok d' cnt (cb ++ rest) (dec_level L) es rest Hd' Hs). eauto.
Qed.
