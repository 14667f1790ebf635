(** What surrounds a wrapped byte string does not matter for what is decoded in
    it; and what a successfully parsed bucket looked like. *)
From Verif Require Import Base Const QEnc QDec Spec DecSpec BaseFacts DecFacts DecSkip DecCtx Params ParamFacts.
From Coq Require Import Lia ZifyBool ZifyNat ZifyN.
Ltac Zify.zify_post_hook ::= Z.div_mod_to_equations.
Open Scope N_scope.
Local Open Scope mon_scope.

Section Sim.
  Variables (a a' : bytes) (R R' : list level).
  Hypothesis HR : length R = length R'.

  Definition dsim (d d' : dctx) : Prop :=
    d_err d = d_err d' /\ d_in d = d_in d' /\
    exists P, d_levels d = P ++ LvBstr a :: R /\ d_levels d' = P ++ LvBstr a' :: R'.

  Lemma dsim_depth d d' : dsim d d' -> d_depth d = d_depth d'.
  Proof.
    intros (_ & _ & P & E & E'). unfold d_depth. rewrite E, E', !app_length. cbn [length]. lia.
  Qed.

  Lemma dsim_err d d' e : dsim d d' -> dsim (d_set_err d e) (d_set_err d' e).
  Proof. intros (A & B & P & E & E'). repeat split; cbn; auto. eauto. Qed.

  Lemma get_next_sim d d' :
    dsim d d' -> exists x it e e', get_next d = (x, it, e) /\ get_next d' = (x, it, e') /\ dsim e e'.
  Proof.
    intro H. pose proof (dsim_depth _ _ H) as Hd. pose proof H as (A & B & P & E & E').
    assert (Hend : at_end d = at_end d').
    { unfold at_end. rewrite B, E, E'. destruct (d_in d'); [reflexivity|]. destruct P as [|[m c sc s|s] P]; reflexivity. }
    unfold get_next. rewrite <- Hend, <- Hd, <- B. destruct (at_end d); [eauto 10|].
    assert (K : forall r, dsim (d_set_levels (d_set_in d r) (dec_level (d_levels d)))
                               (d_set_levels (d_set_in d' r) (dec_level (d_levels d')))).
    { intro r. repeat split; cbn; auto. rewrite E, E'. destruct P as [|[m c sc s|s] P]; cbn [app dec_level].
      - exists []. auto.
      - exists (LvAgg m (dec_count c) sc s :: P). auto.
      - exists (LvBstr s :: P). auto. }
    assert (T : match d_levels d with LvAgg true _ _ _ :: _ => true | _ => false end
              = match d_levels d' with LvAgg true _ _ _ :: _ => true | _ => false end).
    { rewrite E, E'. destruct P as [|[m c sc s|s] P]; reflexivity. }
    assert (U : forall dd, get_next dd = get_next dd) by reflexivity.
    assert (V : forall dd : dctx, forall X : (bytes -> dctx),
      (match d_levels dd with
       | LvAgg true _ _ _ :: _ =>
         match get_entry (d_depth d) (d_in d) with
         | EErr e => (e, bad_item e, dd)
         | EEntry _ it r => (i_err it, got it, X r)
         end
       | _ =>
         match get_elem (d_depth d) (d_in d) with
         | IErr e => (e, bad_item e, dd)
         | IItem it r => (i_err it, got it, X r)
         end
       end) = (if match d_levels dd with LvAgg true _ _ _ :: _ => true | _ => false end
               then match get_entry (d_depth d) (d_in d) with
                    | EErr e => (e, bad_item e, dd)
                    | EEntry _ it r => (i_err it, got it, X r)
                    end
               else match get_elem (d_depth d) (d_in d) with
                    | IErr e => (e, bad_item e, dd)
                    | IItem it r => (i_err it, got it, X r)
                    end)).
    { intros dd X. destruct (d_levels dd) as [|[[|] c sc s|s] Q]; reflexivity. }
    rewrite (V d (fun r => d_set_levels (d_set_in d r) (dec_level (d_levels d)))).
    rewrite (V d' (fun r => d_set_levels (d_set_in d' r) (dec_level (d_levels d')))).
    rewrite <- T. destruct (match d_levels d with LvAgg true _ _ _ :: _ => true | _ => false end).
    - destruct (get_entry (d_depth d) (d_in d)); eauto 10.
    - destruct (get_elem (d_depth d) (d_in d)); eauto 10.
  Qed.

  Lemma enter_agg_sim m d d' : dsim d d' -> dsim (enter_agg m d) (enter_agg m d').
  Proof.
    intro H. unfold enter_agg. pose proof H as (A & _). rewrite <- A.
    destruct (negb (qd_ok (d_err d))); [exact H|].
    destruct (get_next_sim d d' H) as (x & it & e & e' & E1 & E2 & Hs). rewrite E1, E2.
    destruct (negb (qd_ok x)); [now apply dsim_err|].
    destruct (i_val it) as [ | | | |m0 c| | | | ]; try (now apply dsim_err).
    destruct (Bool.eqb m0 m); [|now apply dsim_err].
    destruct Hs as (A1 & B1 & P & Q & Q'). repeat split; cbn; auto.
    exists (LvAgg m0 c c (d_in e) :: P). rewrite Q, Q', B1. auto.
  Qed.

  Lemma get_items_sim {S} (cb : S -> entry -> out (S * bool)) d d' ss st :
    dsim d d' ->
    match get_items_in_map cb d ss st, get_items_in_map cb d' ss st with
    | Ret (e, s, t), Ret (e', s', t') => dsim e e' /\ s = s' /\ t = t'
    | UB w, UB w' => w = w'
    | _, _ => False
    end.
  Proof.
    intro H. unfold get_items_in_map. pose proof (dsim_depth _ _ H) as Hd.
    pose proof H as (A & B & P & E & E'). rewrite <- A.
    destruct (negb (qd_ok (d_err d))); [auto|]. rewrite <- Hd, E, E'.
    destruct P as [|[[|] c sc s|s] P]; cbn [app].
    - split; [now apply dsim_err|auto].
    - destruct (scan_map (d_depth d) sc s) as [es fin].
      destruct (search_entries cb ss st es) as [[[ss' st'] x]|w]; cbn [obind]; [|reflexivity].
      split; [now apply dsim_err|auto].
    - split; [now apply dsim_err|auto].
    - split; [now apply dsim_err|auto].
  Qed.

  Lemma exit_map_sim d d' : dsim d d' -> dsim (exit_map d) (exit_map d').
  Proof.
    intro H. unfold exit_map. pose proof (dsim_depth _ _ H) as Hd.
    pose proof H as (A & B & P & E & E'). rewrite <- A.
    destruct (negb (qd_ok (d_err d))); [auto|]. rewrite <- Hd, E, E'.
    destruct P as [|[[|] c sc s|s] P]; cbn [app]; try (now apply dsim_err).
    destruct (snd (scan_map (d_depth d) sc s)); [now apply dsim_err|].
    repeat split; cbn; auto. eauto.
  Qed.

  Lemma exit_array_sim d d' : dsim d d' -> dsim (exit_array d) (exit_array d').
  Proof.
    intro H. unfold exit_array.
    pose proof H as (A & B & P & E & E'). rewrite <- A.
    destruct (negb (qd_ok (d_err d))); [auto|]. rewrite E, E'.
    destruct P as [|[[|] c sc s|s] P]; cbn [app]; try (now apply dsim_err).
    replace (length (P ++ LvBstr a' :: R')) with (length (P ++ LvBstr a :: R))
      by (rewrite !app_length; cbn [length]; lia).
    destruct (skip (length (P ++ LvBstr a :: R)) [(false, sc)] s); [now apply dsim_err|].
    repeat split; cbn; auto. eauto.
  Qed.

  Lemma enter_array_from_map_sim d d' z :
    dsim d d' -> dsim (enter_array_from_map d z) (enter_array_from_map d' z).
  Proof.
    intro H. unfold enter_array_from_map. pose proof (dsim_depth _ _ H) as Hd.
    pose proof H as (A & B & P & E & E'). rewrite <- A.
    destruct (negb (qd_ok (d_err d))); [auto|]. rewrite <- Hd, E, E'.
    destruct P as [|[[|] c sc s|s] P]; cbn [app]; try (now apply dsim_err).
    destruct (scan_map (d_depth d) sc s) as [es fin].
    destruct (search_entries _ _ tt es) as [[[ss' st'] x]|w]; [|now apply dsim_err].
    destruct (negb (qd_ok x)); [now apply dsim_err|]. destruct fin; [now apply dsim_err|].
    destruct ss' as [|[l t [en|]] [|]]; try (now apply dsim_err).
    destruct (i_val (en_item en)) as [ | | | |[|] k| | | | ]; try (now apply dsim_err).
    repeat split; cbn; auto. exists (LvAgg false k k (en_content en) :: LvAgg true c sc s :: P). auto.
  Qed.

  Lemma crit_loop_sim fuel d d' ll ni nt :
    dsim d d' ->
    match crit_loop fuel d ll ni nt, crit_loop fuel d' ll ni nt with
    | Ret (e, l, x), Ret (e', l', x') => e = e' /\ l = l' /\ dsim x x'
    | UB w, UB w' => w = w'
    | _, _ => False
    end.
  Proof.
    revert d d' ll ni nt. induction fuel as [|fuel IH]; intros d d' ll ni nt H; [reflexivity|].
    cbn [crit_loop]. destruct (get_next_sim d d' H) as (x & it & e & e' & E1 & E2 & Hs). rewrite E1, E2.
    destruct x; auto. destruct (i_val it); auto.
    - destruct (Nat.leb _ ni); [auto|]. destruct (arr_set (ll_int ll) ni z); cbn [obind]; [|reflexivity].
      now apply IH.
    - destruct (Nat.leb _ nt); [auto|]. destruct (arr_set (ll_tstr ll) nt _); cbn [obind]; [|reflexivity].
      now apply IH.
  Qed.

  Lemma decode_critical_sim d d' crit :
    dsim d d' ->
    match decode_critical_parameter d crit, decode_critical_parameter d' crit with
    | Ret (e, l, x), Ret (e', l', x') => e = e' /\ l = l' /\ dsim x x'
    | UB w, UB w' => w = w'
    | _, _ => False
    end.
  Proof.
    intro H. unfold decode_critical_parameter.
    pose proof (enter_array_from_map_sim d d' LABEL_CRIT H) as H1.
    set (e := enter_array_from_map d LABEL_CRIT) in *. set (e' := enter_array_from_map d' LABEL_CRIT) in *.
    unfold get_and_reset_error. pose proof H1 as (A & _). rewrite <- A.
    pose proof (dsim_err _ _ QD_SUCCESS H1) as H2. clearbody e e'. clear H H1 A.
    destruct (d_err e); auto.
    destruct crit as [ll|]; [|auto].
    pose proof H2 as (_ & B & _). rewrite <- B.
    pose proof (crit_loop_sim (S (length (d_in (d_set_err e QD_SUCCESS)))) _ _ ll 0 0 H2) as K.
    destruct (crit_loop _ (d_set_err e QD_SUCCESS) ll 0 0) as [[[x l] y]|w],
             (crit_loop _ (d_set_err e' QD_SUCCESS) ll 0 0) as [[[x' l'] y']|w']; try contradiction; [|exact K].
    destruct K as (-> & -> & K). cbn [obind]. destruct (negb _); [auto|].
    destruct (is_label_list_clear l'); cbn [obind]; [|reflexivity].
    repeat split; auto; now apply exit_array_sim.
  Qed.

  Lemma parse_sim c d d' p crit unknown :
    dsim d d' ->
    match parse_cose_header_parameters c d p crit unknown, parse_cose_header_parameters c d' p crit unknown with
    | Ret r, Ret r' => r_err r = r_err r' /\ r_params r = r_params r' /\ r_crit r = r_crit r' /\
                       r_unknown r = r_unknown r' /\ dsim (r_d r) (r_d r')
    | UB w, UB w' => w = w'
    | _, _ => False
    end.
  Proof.
    intro H. unfold parse_cose_header_parameters, enter_map.
    pose proof (get_items_sim header_parameter_callback _ _ header_slots (unknown, T_SUCCESS)
                  (enter_agg_sim true d d' H)) as K.
    destruct (get_items_in_map header_parameter_callback (enter_agg true d) header_slots (unknown, T_SUCCESS))
      as [[[e s] t]|w],
      (get_items_in_map header_parameter_callback (enter_agg true d') header_slots (unknown, T_SUCCESS))
      as [[[e' s'] t']|w']; try contradiction; [|exact K].
    destruct K as (He & <- & <-). cbn [obind]. pose proof He as (A & _). rewrite <- A.
    destruct (d_err e); cbn [r_err r_params r_crit r_unknown r_d]; auto 10.
    destruct (take_all c _ s p) as [err q].
    destruct (negb (terr_eqb err T_SUCCESS)); cbn [r_err r_params r_crit r_unknown r_d]; auto 10.
    pose proof (decode_critical_sim e e' crit He) as K.
    destruct (decode_critical_parameter e crit) as [[[x l] y]|w],
             (decode_critical_parameter e' crit) as [[[x' l'] y']|w']; try contradiction; [|exact K].
    destruct K as (-> & -> & K). cbn [obind r_err r_params r_crit r_unknown r_d].
    repeat (split; [reflexivity|]). now apply exit_map_sim.
  Qed.
End Sim.

(** ** Inversion *)

Lemma get_next_eq L bs tg :
  elem_level L = true ->
  get_next (mkd bs L tg) =
    if at_end (mkd bs L tg) then (QD_NO_MORE_ITEMS, bad_item QD_NO_MORE_ITEMS, mkd bs L tg)
    else match get_elem (length L) bs with
         | IErr e => (e, bad_item e, mkd bs L tg)
         | IItem it r => (i_err it, got it, mkd r (dec_level L) tg)
         end.
Proof.
  intro HL. unfold get_next. destruct (at_end (mkd bs L tg)); [reflexivity|].
  destruct L as [|[[|] c sc s|s] Q]; try discriminate HL; reflexivity.
Qed.

Lemma get_item_f_err fuel tags tm bs e :
  get_item_f fuel tags tm bs = IErr e -> e <> QD_SUCCESS /\ e <> QD_CALLBACK_FAIL.
Proof.
  revert tags tm bs. induction fuel as [|fuel IH]; intros tags tm bs; cbn [get_item_f]; [intro X; injection X as <-; split; discriminate|].
  destruct (decode_head bs) as [x r|mt ai n r] eqn:D.
  { destruct (is_unrecoverable x) eqn:U; [|discriminate]. intros X. injection X as ->. split; intros ->; discriminate. }
  destruct (mt =? 6).
  - destruct (ai =? 31); [discriminate|]. destruct (Nat.leb _ _); apply IH.
  - destruct (dec_atom mt ai n r) as [x|it r'] eqn:A; [|discriminate]. intros X. injection X as ->. split; intros ->;
    unfold dec_atom, dec_string, dec_type7 in A;
    repeat match type of A with (if ?x then _ else _) = _ => destruct x end; discriminate.
Qed.

Lemma get_elem_err d bs e : get_elem d bs = IErr e -> e <> QD_SUCCESS /\ e <> QD_CALLBACK_FAIL.
Proof.
  unfold get_elem. destruct (get_item bs) as [x|it r] eqn:E.
  - intro X. injection X as ->. eapply get_item_f_err. exact E.
  - destruct (i_val it); try destruct (depth_ok d _); intro X; try discriminate; injection X as <-; split; discriminate.
Qed.

Lemma leaf_not_agg c m cnt : is_agg c = false -> val_of None c <> VAgg m cnt.
Proof.
  destruct c; try discriminate; intros _; cbn [val_of];
    repeat (match goal with |- context[if ?x then _ else _] => destruct x end); discriminate.
Qed.

Lemma enter_agg_inv m L bs tg :
  elem_level L = true -> d_err (enter_agg m (mkd bs L tg)) = QD_SUCCESS ->
  exists hb ts cnt r, bs = hb ++ r /\ hb <> [] /\ agg_at hb ts m cnt /\
    (forall n, cnt = Some n -> n <= max_items) /\ depth_ok (length L) (VAgg m cnt) = true /\
    (length ts <= 4)%nat /\
    enter_agg m (mkd bs L tg) = mkd r (LvAgg m cnt cnt r :: dec_level L) (rev ts).
Proof.
  intros HL. unfold enter_agg. cbn [mkd d_err qd_ok negb].
  change {| d_err := QD_SUCCESS; d_in := bs; d_levels := L; d_tags := tg |} with (mkd bs L tg).
  rewrite get_next_eq by exact HL. destruct (at_end (mkd bs L tg)); [discriminate|].
  destruct (get_elem (length L) bs) as [e|it r] eqn:E.
  { apply get_elem_err in E as [E _]. destruct e; try discriminate; contradiction. }
  apply get_elem_inv in E as (hb & -> & Hh & E).
  destruct (qd_ok (i_err it)) eqn:Q; cbn [negb].
  2:{ cbn [d_set_err d_err]. intro X. rewrite X in Q. discriminate. }
  unfold got. rewrite Q.
  destruct (i_val it) as [ | | | |m0 c| | | | ] eqn:V; try discriminate.
  destruct (Bool.eqb m0 m) eqn:Em; [|discriminate]. apply Bool.eqb_prop in Em. subst m0. intros _.
  destruct E as [(x & (La & _) & ->)|(ts & m' & cnt & Ha & Hc & D & ->)].
  { rewrite item_of_val in V. now apply leaf_not_agg in V. }
  rewrite with_tags_val in V. cbn in V. injection V as -> ->.
  rewrite acc_tags_top in *. cbn [fst snd] in *. unfold with_tags in *. cbn [good_item i_err qd_ok negb i_val i_tags] in *.
  destruct (Nat.ltb_spec 4 (length ts)) as [Lt|Lt]; [discriminate|].
  exists hb, ts, c, r. split; [reflexivity|]. split; [exact Hh|]. split; [exact Ha|]. split; [exact Hc|].
  split; [exact D|]. split; [exact Lt|]. rewrite firstn_all2 by exact Lt. reflexivity.
Qed.

Lemma reads_of_map hb ts cnt d l b cb :
  agg_at hb ts true cnt -> (forall n, cnt = Some n -> n <= max_items) ->
  depth_ok d (VAgg true cnt) = true -> ended cnt (blen l) b cb -> reads_pairs (S d) l b ->
  reads d (wrap ts (CMap l)) (hb ++ cb).
Proof.
  intros Ha Hb Hd He Hr. destruct (Ha d cb Hd) as [_ A]. eapply (A eq_refl); [|exact Hr].
  now apply ended_counted.
Qed.

Lemma reads_of_array hb ts cnt d l b cb :
  agg_at hb ts false cnt -> (forall n, cnt = Some n -> n <= max_items) ->
  depth_ok d (VAgg false cnt) = true -> ended cnt (blen l) b cb -> reads_all (S d) l b ->
  reads d (wrap ts (CArray l)) (hb ++ cb).
Proof.
  intros Ha Hb Hd He Hr. destruct (Ha d cb Hd) as [A _]. eapply (A eq_refl); [|exact Hr].
  now apply ended_counted.
Qed.

Lemma good_wrap ts c : (length ts <= 4)%nat -> err_of c = QD_SUCCESS -> tags_of c = [] -> body c = c -> good (wrap ts c) = true.
Proof.
  intros L E T B. unfold good, few_tags. rewrite body_wrap, B, E, tags_of_wrap, T, app_nil_r. cbn [qd_ok andb].
  now apply Nat.leb_le.
Qed.

Lemma starts_err d hb it : starts d hb it -> i_err it <> QD_CALLBACK_FAIL.
Proof.
  intros (_ & [(c & _ & ->)|(ts & m & cnt & _ & _ & _ & ->)]).
  - intro H. pose proof (item_err_cases None c) as C. rewrite H in C. exact C.
  - unfold with_tags. cbn. destruct (snd _); discriminate.
Qed.

Lemma enter_agg_err m L bs tg :
  elem_level L = true -> d_err (enter_agg m (mkd bs L tg)) <> QD_CALLBACK_FAIL.
Proof.
  intros HL. unfold enter_agg. cbn [mkd d_err qd_ok negb].
  change {| d_err := QD_SUCCESS; d_in := bs; d_levels := L; d_tags := tg |} with (mkd bs L tg).
  rewrite get_next_eq by exact HL. destruct (at_end (mkd bs L tg)); [discriminate|].
  destruct (get_elem (length L) bs) as [e|it y] eqn:G.
  - apply get_elem_err in G as [G1 G2]. destruct e; try discriminate; contradiction.
  - apply get_elem_inv in G as (hb & -> & G). apply starts_err in G.
    destruct (negb (qd_ok (i_err it))); [exact G|].
    destruct (i_val (got it)); try discriminate. destruct (Bool.eqb is_map m); discriminate.
Qed.

Lemma get_item_err bs e : get_item bs = IErr e -> e <> QD_SUCCESS /\ e <> QD_CALLBACK_FAIL.
Proof. apply get_item_f_err. Qed.

Lemma get_entry_err d bs e : get_entry d bs = EErr e -> e <> QD_SUCCESS /\ e <> QD_CALLBACK_FAIL.
Proof.
  unfold get_entry. destruct (get_item bs) as [x|it r] eqn:E.
  { intro X. injection X as ->. now apply get_item_err in E. }
  assert (K : forall lv,
    match get_item r with
    | IErr e => EErr e
    | IItem it r' =>
      match as_label lv with
      | None => EErr QD_MAP_LABEL_TYPE
      | Some l =>
        match i_val it with
        | VBreak => EErr QD_BAD_BREAK
        | v => if depth_ok d v then EEntry l it r' else EErr QD_NESTING_TOO_DEEP
        end
      end
    end = EErr e -> e <> QD_SUCCESS /\ e <> QD_CALLBACK_FAIL).
  { intros lv. destruct (get_item r) as [x|it2 r2] eqn:E2.
    { intro X. injection X as ->. now apply get_item_err in E2. }
    destruct (as_label lv); [|intro X; injection X as <-; split; discriminate].
    destruct (i_val it2); try destruct (depth_ok d _); intro X; try discriminate; injection X as <-; split; discriminate. }
  destruct (i_val it); try apply K. intro X. injection X as <-. split; discriminate.
Qed.

Lemma skip_f_err fuel base st bs e : skip_f fuel base st bs = inl e -> e <> QD_SUCCESS /\ e <> QD_CALLBACK_FAIL.
Proof.
  revert st bs. induction fuel as [|f IH]; intros st bs; cbn [skip_f]; [intro X; injection X as <-; split; discriminate|].
  destruct (pop_done st) as [|[m c] r]; [discriminate|].
  destruct (_ && _); [apply IH|].
  destruct bs as [|b bs]; [intro X; injection X as <-; split; discriminate|]. destruct m.
  - destruct (get_entry _ _) eqn:E; [|apply IH]. intro X. injection X as ->. now apply get_entry_err in E.
  - destruct (get_elem _ _) eqn:E; [|apply IH]. intro X. injection X as ->. now apply get_elem_err in E.
Qed.

Lemma scan_map_f_err fuel d cnt bs es fin :
  scan_map_f fuel d cnt bs = (es, fin) ->
  Forall (fun e => i_err (en_item e) <> QD_CALLBACK_FAIL) es /\
  (forall e, fin = inl e -> e <> QD_SUCCESS /\ e <> QD_CALLBACK_FAIL).
Proof.
  revert cnt bs es fin. induction fuel as [|f IH]; intros cnt bs es fin; cbn [scan_map_f].
  { intro X. injection X as <- <-. split; [constructor|]. intros e X. injection X as <-. split; discriminate. }
  assert (K : (if (match cnt with None => true | Some _ => false end) && starts_with_break bs
      then ([], inr (tl bs))
      else match bs with
           | [] => ([], inl QD_NO_MORE_ITEMS)
           | _ =>
             match get_entry d bs with
             | EErr e => ([], inl e)
             | EEntry l it bs' =>
               let en := {| en_label := l; en_item := it; en_content := bs' |} in
               match skip d (push_val (i_val it) []) bs' with
               | inl e => ([en], inl e)
               | inr bs'' =>
                 let (es, fin) := scan_map_f f d (dec_count cnt) bs'' in (en :: es, fin)
               end
             end
           end) = (es, fin) ->
    Forall (fun e => i_err (en_item e) <> QD_CALLBACK_FAIL) es /\
    (forall e, fin = inl e -> e <> QD_SUCCESS /\ e <> QD_CALLBACK_FAIL)).
  { destruct (_ && _). { intro X. injection X as <- <-. split; [constructor|discriminate]. }
    destruct bs as [|b bs]. { intro X. injection X as <- <-. split; [constructor|]. intros e X. injection X as <-. split; discriminate. }
    destruct (get_entry d (b :: bs)) as [e|l it bs'] eqn:E.
    { intro X. injection X as <- <-. split; [constructor|]. intros e' X. injection X as <-. now apply get_entry_err in E. }
    cbv zeta. apply get_entry_inv in E. assert (NE : i_err it <> QD_CALLBACK_FAIL).
    { decompose record E. eapply starts_err. eassumption. }
    destruct (skip d (push_val (i_val it) []) bs') as [e|bs''] eqn:Sk.
    { intro X. injection X as <- <-. split; [repeat constructor; exact NE|]. intros e' X. injection X as <-. now apply skip_f_err in Sk. }
    destruct (scan_map_f f d (dec_count cnt) bs'') as [es2 fin2] eqn:R. intro X. injection X as <- <-.
    apply IH in R as [R1 R2]. split; [constructor; assumption|assumption]. }
  destruct cnt as [n|]; [destruct n|]; [|exact K|exact K].
  intro X. injection X as <- <-. split; [constructor|discriminate].
Qed.

(** A bucket that parses holds a map within the decoder's limits. *)
Lemma parse_inv c L bs tg p crit unknown r :
  elem_level L = true ->
  parse_cose_header_parameters c (mkd bs L tg) p crit unknown = Ret r -> r_err r = T_SUCCESS ->
  exists x l b rest, bs = b ++ rest /\ reads (length L) x b /\ good x = true /\ body x = CMap l.
Proof.
  intros HL. unfold parse_cose_header_parameters, enter_map, get_items_in_map.
  pose proof (enter_agg_err true L bs tg HL) as NF.
  destruct (qd_ok (d_err (enter_agg true (mkd bs L tg)))) eqn:Q; cbn [negb].
  2:{ cbn [obind]. destruct (d_err (enter_agg true (mkd bs L tg))) eqn:X; try discriminate Q;
        intro E; injection E as <-; cbn; try discriminate; contradiction. }
  destruct (enter_agg_inv true L bs tg HL) as (hb & ts & cnt & r0 & -> & Hh & Ha & Hb & Hd & Ht & E).
  { destruct (d_err (enter_agg true (mkd bs L tg))); try discriminate Q; reflexivity. }
  rewrite E. unfold d_depth. cbn [mkd d_levels d_err]. cbn [length qd_ok negb]. rewrite ?dec_level_length.
  destruct (scan_map (S (length L)) cnt r0) as [es fin] eqn:S.
  destruct (search_entries _ _ _ es) as [[[ss st] x]|w] eqn:Se; cbn [obind]; [|discriminate].
  cbn [d_set_err d_err].
  destruct fin as [e|rest].
  { destruct (negb (qd_ok x)) eqn:Qx.
    - destruct x; try discriminate Qx; intro X; injection X as <-; cbn; try discriminate.
      intro F. exfalso. revert F.
      assert (G : forall es ss st ss' st', Forall (fun e => i_err (en_item e) <> QD_CALLBACK_FAIL) es ->
                search_entries header_parameter_callback ss st es = Ret (ss', st', QD_CALLBACK_FAIL) -> snd st' <> T_SUCCESS).
      { clear. induction es as [|e es IH]; intros ss st ss' st' F; cbn [search_entries]; [discriminate|].
        inversion F as [|? ? Fe Fr]; subst.
        assert (FS : fill_slots ss e <> Some (inl QD_CALLBACK_FAIL)).
        { clear - Fe. induction ss as [|s r IH]; cbn [fill_slots]; [discriminate|]. destruct (label_is _ _).
          - destruct (sl_found s); [discriminate|]. destruct (negb _); [congruence|].
            destruct (type_matches _ _); discriminate.
          - destruct (fill_slots r e) as [[x|r']|]; congruence. }
        destruct (fill_slots ss e) as [[x|r]|]; [congruence|now apply IH|].
        destruct (header_parameter_callback st e) as [[st1 ok]|w] eqn:E; cbn [obind]; [|discriminate].
        destruct ok; [now apply IH|]. intro X. injection X as _ <-.
        unfold header_parameter_callback in E. destruct (label_is _ _); [discriminate|].
        destruct (add_label_to_list _ _) as [[err ll]|]; cbn [obind] in E; [|discriminate].
        injection E as <- E. cbn [snd]. now apply terr_eqb_neq. }
      eapply G; [|exact Se]. now apply scan_map_f_err in S.
    - apply scan_map_f_err in S as [_ S]. destruct (S e eq_refl) as [S1 S2].
      destruct e; try contradiction; intro X; injection X as <-; discriminate. }
  intros _ _. apply scan_inv in S as (l & b & cb & Hl & He & -> & _).
  exists (wrap ts (CMap l)), l, (hb ++ cb), rest. rewrite body_wrap, <- app_assoc. repeat split; auto.
  - eapply reads_of_map; eassumption.
  - now apply good_wrap.
Qed.
