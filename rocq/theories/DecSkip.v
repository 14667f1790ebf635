(** Reading whole arrays and maps: [skip] and [scan_map] consume exactly the
    representations of DecSpec.v, and recursion fuel is never exhausted. *)
From Verif Require Import Base Const QEnc QDec Spec DecSpec BaseFacts DecFacts.
From Coq Require Import Lia ZifyBool ZifyNat ZifyN.
Ltac Zify.zify_post_hook ::= Z.div_mod_to_equations.
Open Scope N_scope.

(** ** Progress and fuel *)

Lemma decode_head_shrink bs :
  match decode_head bs with
  | HOk _ _ _ r => (length r < length bs)%nat
  | HErr e r => e = QD_HIT_END \/ (length r < length bs)%nat
  end.
Proof.
  destruct (decode_head bs) as [e r|mt ai n r] eqn:E.
  - apply decode_head_err in E as [->|(-> & mt & ai & _ & _ & ->)]; [auto|right; cbn [length]; lia].
  - apply decode_head_inv in E as (_ & [(_ & _ & ->)|(_ & a & -> & _)]).
    + cbn [length]; lia.
    + cbn [length]. rewrite app_length. lia.
Qed.

Lemma dec_atom_shrink mt ai n r :
  match dec_atom mt ai n r with
  | IItem _ r' => (length r' <= length r)%nat
  | IErr e => e <> QD_FUEL
  end.
Proof.
  unfold dec_atom, dec_string, dec_type7.
  destruct (mt =? 0). { destruct (ai =? 31); [lia|]. destruct (n <? INT64_LIMIT); lia. }
  destruct (mt =? 1). { destruct (ai =? 31); [lia|]. destruct (n <? INT64_LIMIT); lia. }
  destruct (mt =? 2). { destruct (ai =? 31); [discriminate|]. destruct (blen r <? n); [discriminate|].
    rewrite skipn_length. lia. }
  destruct (mt =? 3). { destruct (ai =? 31); [discriminate|]. destruct (blen r <? n); [discriminate|].
    rewrite skipn_length. lia. }
  destruct ((mt =? 4) || (mt =? 5)).
  { destruct (ai =? 31); [lia|]. destruct (MAX_DEC_ITEMS <? n); [discriminate|lia]. }
  destruct (ai =? 31); [lia|]. destruct (ai =? 22); [lia|]. destruct (_ && _); lia.
Qed.

Lemma get_item_f_shrink fuel tags tm bs :
  (length bs < fuel)%nat ->
  match get_item_f fuel tags tm bs with
  | IItem _ r => (length r < length bs)%nat
  | IErr e => e <> QD_FUEL
  end.
Proof.
  revert tags tm bs. induction fuel as [|fuel IH]; intros tags tm bs L; [lia|].
  cbn [get_item_f]. pose proof (decode_head_shrink bs) as H.
  destruct (decode_head bs) as [e r|mt ai n r] eqn:E.
  { apply decode_head_err in E as [->|(-> & X)]; [discriminate|]. cbn. destruct H as [H|H]; [discriminate|exact H]. }
  destruct (mt =? 6).
  - destruct (ai =? 31); [exact H|].
    destruct (Nat.leb _ _).
    + specialize (IH tags true r ltac:(lia)). destruct (get_item_f _ _ _ _); [exact IH|lia].
    + specialize (IH (n :: tags) tm r ltac:(lia)). destruct (get_item_f _ _ _ _); [exact IH|lia].
  - pose proof (dec_atom_shrink mt ai n r) as D. destruct (dec_atom mt ai n r); [exact D|lia].
Qed.

Lemma get_item_shrink bs :
  match get_item bs with
  | IItem _ r => (length r < length bs)%nat
  | IErr e => e <> QD_FUEL
  end.
Proof. apply get_item_f_shrink. lia. Qed.

Lemma get_elem_shrink d bs :
  match get_elem d bs with
  | IItem _ r => (length r < length bs)%nat
  | IErr e => e <> QD_FUEL
  end.
Proof.
  unfold get_elem. pose proof (get_item_shrink bs) as H. destruct (get_item bs) as [e|it r]; [exact H|].
  destruct (i_val it); try discriminate; destruct (depth_ok d _); try discriminate; exact H.
Qed.

Lemma get_entry_shrink d bs :
  match get_entry d bs with
  | EEntry _ _ r => (length r < length bs)%nat
  | EErr e => e <> QD_FUEL
  end.
Proof.
  unfold get_entry. pose proof (get_item_shrink bs) as H. destruct (get_item bs) as [e|it r]; [exact H|].
  pose proof (get_item_shrink r) as H2.
  destruct (i_val it); try discriminate;
    (destruct (get_item r) as [e|it2 r2]; [exact H2|]; cbn [as_label]; try discriminate;
     destruct (i_val it2); try discriminate; destruct (depth_ok d _); try discriminate; lia).
Qed.

Lemma skip_f_fuel base f1 f2 st bs :
  (length bs < f1)%nat -> (length bs < f2)%nat -> skip_f f1 base st bs = skip_f f2 base st bs.
Proof.
  revert f2 st bs. induction f1 as [|f1 IH]; intros f2 st bs L1 L2; [lia|].
  destruct f2 as [|f2]; [lia|]. cbn [skip_f].
  destruct (pop_done st) as [|(m, c) r]; [reflexivity|].
  destruct (_ && starts_with_break bs) eqn:B.
  { apply andb_prop in B as [_ B]. destruct bs as [|b bs]; [discriminate|]. cbn [tl length] in *.
    apply IH; lia. }
  destruct bs as [|b bs]; [reflexivity|]. remember (b :: bs) as bs0 eqn:Eb.
  destruct m.
  - pose proof (get_entry_shrink (base + S (length r)) bs0) as H.
    destruct (get_entry _ _) as [|l it bs']; [reflexivity|]. apply IH; lia.
  - pose proof (get_elem_shrink (base + S (length r)) bs0) as H.
    destruct (get_elem _ _) as [|it bs']; [reflexivity|]. apply IH; lia.
Qed.

Lemma skip_f_no_fuel base f st bs :
  (length bs < f)%nat -> skip_f f base st bs <> inl QD_FUEL.
Proof.
  revert st bs. induction f as [|f IH]; intros st bs L; [lia|]. cbn [skip_f].
  destruct (pop_done st) as [|(m, c) r]; [discriminate|].
  destruct (_ && starts_with_break bs) eqn:B.
  { apply andb_prop in B as [_ B]. destruct bs as [|b bs]; [discriminate|]. cbn [tl length] in *.
    apply IH; lia. }
  destruct bs as [|b bs]; [discriminate|]. remember (b :: bs) as bs0 eqn:Eb.
  destruct m.
  - pose proof (get_entry_shrink (base + S (length r)) bs0) as H.
    destruct (get_entry _ _) as [|l it bs']; [congruence|]. apply IH; lia.
  - pose proof (get_elem_shrink (base + S (length r)) bs0) as H.
    destruct (get_elem _ _) as [|it bs']; [congruence|]. apply IH; lia.
Qed.

(** [skip] without fuel. *)
Lemma skip_eq base st bs :
  skip base st bs =
    match pop_done st with
    | [] => inr bs
    | (m, c) :: r =>
      if (match c with None => true | Some _ => false end) && starts_with_break bs
      then skip base r (tl bs)
      else match bs with
           | [] => inl QD_NO_MORE_ITEMS
           | _ =>
             if m then
               match get_entry (base + S (length r)) bs with
               | EErr e => inl e
               | EEntry _ it bs' => skip base (push_val (i_val it) ((m, dec_count c) :: r)) bs'
               end
             else
               match get_elem (base + S (length r)) bs with
               | IErr e => inl e
               | IItem it bs' => skip base (push_val (i_val it) ((m, dec_count c) :: r)) bs'
               end
           end
    end.
Proof.
  unfold skip at 1. cbn [skip_f].
  destruct (pop_done st) as [|(m, c) r]; [reflexivity|].
  destruct (_ && starts_with_break bs) eqn:B.
  { apply andb_prop in B as [_ B]. destruct bs as [|b bs]; [discriminate|]. cbn [tl length] in *.
    reflexivity. }
  destruct bs as [|b bs]; [reflexivity|]. remember (b :: bs) as bs0 eqn:Eb.
  destruct m.
  - pose proof (get_entry_shrink (base + S (length r)) bs0) as H.
    destruct (get_entry _ _) as [|l it bs']; [reflexivity|]. apply skip_f_fuel; lia.
  - pose proof (get_elem_shrink (base + S (length r)) bs0) as H.
    destruct (get_elem _ _) as [|it bs']; [reflexivity|]. apply skip_f_fuel; lia.
Qed.

Lemma skip_done base m st bs : skip base ((m, Some 0) :: st) bs = skip base st bs.
Proof. rewrite (skip_eq base ((m, Some 0) :: st)), (skip_eq base st). reflexivity. Qed.

Lemma skip_nil base bs : skip base [] bs = inr bs.
Proof. rewrite skip_eq. reflexivity. Qed.

(** ** Skipping what is there *)

Lemma break_item bs : starts_with_break bs = true -> exists r, get_item bs = IItem (good_item VBreak) r.
Proof.
  destruct bs as [|b r]; [discriminate|]. cbn [starts_with_break]. intro H.
  apply N.eqb_eq in H. assert (b = xff) as -> by (now apply to_N_inj).
  exists r. unfold get_item. reflexivity.
Qed.

Lemma with_tags_val tags tm it : i_val (with_tags tags tm it) = i_val it.
Proof. unfold with_tags. destruct (qd_ok (i_err it)); reflexivity. Qed.

Lemma item_of_val cnt c : i_val (item_of cnt c) = val_of cnt (body c).
Proof. unfold item_of. now rewrite with_tags_val. Qed.

Lemma val_of_not_break cnt c : val_of cnt c <> VBreak.
Proof.
  destruct c; cbn; try discriminate.
  - destruct (n <? INT64_LIMIT); discriminate.
  - destruct (n <? INT64_LIMIT); discriminate.
  - destruct (n =? 22); discriminate.
Qed.

Lemma get_elem_of d bs cnt c rest :
  get_item bs = IItem (item_of cnt c) rest -> depth_ok d (val_of cnt (body c)) = true ->
  get_elem d bs = IItem (item_of cnt c) rest.
Proof.
  intros H D. unfold get_elem. rewrite H, item_of_val.
  pose proof (val_of_not_break cnt (body c)) as B.
  destruct (val_of cnt (body c)); try contradiction; now rewrite D.
Qed.

Lemma as_label_like cnt c :
  label_like c -> exists l, as_label (val_of cnt (body c)) = Some l.
Proof.
  unfold label_like. destruct (body c) eqn:E; try contradiction; cbn [val_of]; intro H; try (cbn; eauto; fail).
  - cbn. destruct (n <? INT64_LIMIT); cbn; eauto.
  - destruct (N.ltb_spec n INT64_LIMIT) as [|L]; [cbn; eauto|]. unfold INT64_LIMIT in L. lia.
Qed.

Lemma label_like_leaf cnt c : as_label (val_of cnt (body c)) <> None -> label_like c.
Proof.
  unfold label_like. destruct (body c); cbn [val_of]; try (cbn; congruence); auto.
  - destruct (N.ltb_spec n INT64_LIMIT) as [L|L]; [intros _; exact L|cbn; congruence].
  - destruct (n =? 22); cbn; congruence.
Qed.

Lemma get_entry_of d bs cntk k l mid cnt v rest :
  get_item bs = IItem (item_of cntk k) mid -> as_label (val_of cntk (body k)) = Some l ->
  get_item mid = IItem (item_of cnt v) rest -> depth_ok d (val_of cnt (body v)) = true ->
  get_entry d bs = EEntry l (item_of cnt v) rest.
Proof.
  intros H Hl Hv D. unfold get_entry. rewrite H, item_of_val.
  pose proof (val_of_not_break cntk (body k)) as B.
  pose proof (val_of_not_break cnt (body v)) as B2.
  destruct (val_of cntk (body k)); try contradiction; rewrite Hv, !item_of_val; rewrite Hl;
    destruct (val_of cnt (body v)); try contradiction; now rewrite D.
Qed.

Lemma no_break bs cnt c rest : get_item bs = IItem (item_of cnt c) rest -> starts_with_break bs = false.
Proof.
  intro H. destruct (starts_with_break bs) eqn:B; [|reflexivity].
  apply break_item in B as (r & B). rewrite B in H. injection H as E _.
  pose proof (item_of_val cnt c) as V. rewrite <- E in V. cbn in V.
  symmetry in V. now apply val_of_not_break in V.
Qed.

Definition minus (c : option N) (n : N) : option N :=
  match c with Some m => Some (m - n) | None => None end.

Definition at_least (c : option N) (n : N) : Prop :=
  match c with Some m => n <= m | None => True end.

Lemma leaf_content d c cnt cb : is_agg (body c) = false -> content d c cnt cb -> cnt = None /\ cb = [].
Proof. unfold content. destruct (body c); try discriminate; auto. Qed.

Lemma label_leaf c : label_like c -> is_agg (body c) = false.
Proof. unfold label_like. destruct (body c); cbn; auto; contradiction. Qed.

Definition skips_all (n : nat) : Prop :=
  forall d l b, (length b <= n)%nat -> reads_all d l b -> forall base st c rest,
      d = (base + S (length st))%nat -> at_least c (blen l) ->
      skip base ((false, c) :: st) (b ++ rest) = skip base ((false, minus c (blen l)) :: st) rest.

Definition skips_pairs (n : nat) : Prop :=
  forall d l b, (length b <= n)%nat -> reads_pairs d l b -> forall base st c rest,
      d = (base + S (length st))%nat -> at_least c (blen l) ->
      skip base ((true, c) :: st) (b ++ rest) = skip base ((true, minus c (blen l)) :: st) rest.

Definition skips_content (n : nat) : Prop :=
  forall d c cnt cb, (length cb <= n)%nat -> content d c cnt cb -> forall base st rest,
      d = (base + length st)%nat ->
      skip base (push_val (val_of cnt (body c)) st) (cb ++ rest) = skip base st rest.

Lemma skip_break base m st rest : skip base ((m, None) :: st) (xff :: rest) = skip base st rest.
Proof. rewrite skip_eq. reflexivity. Qed.

Lemma skips_content_of n : skips_all n -> skips_pairs n -> skips_content n.
Proof.
  intros HA HP d c cnt cb L H base st rest Hd. unfold content in H.
  destruct (body c) eqn:Eb; try (destruct H as [-> ->]; cbn [val_of];
    repeat (match goal with |- context[if ?x then _ else _] => destruct x end); reflexivity).
  - destruct H as (b & Hc & Hb). cbn [val_of push_val].
    destruct Hc as [(-> & Hn & ->)|(-> & ->)].
    + rewrite (HA _ _ _ L Hb); [|cbn [length]; lia|cbn [at_least]; lia]. cbn [minus]. rewrite N.sub_diag. apply skip_done.
    + rewrite app_length in L. rewrite <- app_assoc.
      rewrite (HA _ _ b ltac:(lia) Hb); [|cbn [length]; lia|exact I]. apply skip_break.
  - destruct H as (b & Hc & Hb). cbn [val_of push_val].
    destruct Hc as [(-> & Hn & ->)|(-> & ->)].
    + rewrite (HP _ _ _ L Hb); [|cbn [length]; lia|cbn [at_least]; lia]. cbn [minus]. rewrite N.sub_diag. apply skip_done.
    + rewrite app_length in L. rewrite <- app_assoc.
      rewrite (HP _ _ b ltac:(lia) Hb); [|cbn [length]; lia|exact I]. apply skip_break.
Qed.

Lemma pop_done_open m c st n : at_least c (1 + n) -> pop_done ((m, c) :: st) = (m, c) :: st.
Proof. intro H. unfold at_least in H. cbn [pop_done]. destruct c as [[|p]|]; [lia|reflexivity|reflexivity]. Qed.

Lemma minus_minus c a b : minus (minus c a) b = minus c (a + b).
Proof. destruct c; cbn [minus]; [f_equal; lia|reflexivity]. Qed.

Lemma dec_count_minus c : dec_count c = minus c 1.
Proof. reflexivity. Qed.

Lemma at_least_minus c a b : at_least c (a + b) -> at_least (minus c a) b.
Proof. unfold at_least, minus. destruct c; lia. Qed.

Lemma app_ne {A} (a b : list A) : a <> [] -> a ++ b <> [].
Proof. destruct a; [contradiction|discriminate]. Qed.

Lemma skips n : skips_all n /\ skips_pairs n.
Proof.
  induction n as [n IH] using (well_founded_induction Wf_nat.lt_wf).
  assert (HC : forall k, (k < n)%nat -> skips_content k).
  { intros k Hk. destruct (IH k Hk). now apply skips_content_of. }
  split.
  - intros d l b L H. induction H as [d|d c l b bs Hc Hl IHl]; intros base st cnt rest Hd Hcnt.
    + cbn [app]. change (blen (@nil cbor)) with 0. destruct cnt as [k|]; [|reflexivity].
      cbn [minus]. now rewrite N.sub_0_r.
    + rewrite blen_cons in Hcnt |- *.
      destruct (reads_get_item d c b Hc) as (hb & cb & k & -> & Hh & Hcc & Hdd & G).
      rewrite !app_length in L.
      assert (0 < length hb)%nat by (destruct hb; [contradiction|cbn; lia]).
      rewrite skip_eq, (pop_done_open false cnt st (blen l)) by exact Hcnt.
      rewrite <- !app_assoc.
      rewrite (no_break _ _ _ _ (G (cb ++ bs ++ rest))), andb_false_r.
      destruct (hb ++ cb ++ bs ++ rest) as [|x y] eqn:E; [now apply app_ne in E|]. rewrite <- E. clear E x y.
      rewrite (get_elem_of _ _ _ _ _ (G (cb ++ bs ++ rest))) by (rewrite <- Hd; exact Hdd).
      rewrite item_of_val.
      rewrite (HC (length cb) ltac:(lia) d c k cb (le_n _) Hcc); [|cbn [length]; lia].
      rewrite IHl; [|lia|exact Hd|apply at_least_minus; exact Hcnt].
      rewrite dec_count_minus, minus_minus. reflexivity.
  - intros d l b L H. induction H as [d|d kk v l bk bv bs Hk Hkl Hv Hl IHl]; intros base st cnt rest Hd Hcnt.
    + cbn [app]. change (blen (@nil (cbor * cbor))) with 0. destruct cnt as [k|]; [|reflexivity].
      cbn [minus]. now rewrite N.sub_0_r.
    + rewrite blen_cons in Hcnt |- *.
      destruct (reads_get_item d kk bk Hk) as (hk & ck & k1 & -> & Hhk & Hck & _ & Gk).
      destruct (leaf_content d kk k1 ck (label_leaf kk Hkl) Hck) as [-> ->].
      destruct (reads_get_item d v bv Hv) as (hb & cb & k & -> & Hh & Hcc & Hdd & G).
      rewrite !app_length in L. cbn [length] in L.
      assert (0 < length hb)%nat by (destruct hb; [contradiction|cbn; lia]).
      rewrite skip_eq, (pop_done_open true cnt st (blen l)) by exact Hcnt.
      rewrite app_nil_r, <- !app_assoc.
      rewrite (no_break _ _ _ _ (Gk (hb ++ cb ++ bs ++ rest))), andb_false_r.
      destruct (hk ++ hb ++ cb ++ bs ++ rest) as [|x y] eqn:E; [now apply app_ne in E|]. rewrite <- E. clear E x y.
      destruct (as_label_like None kk Hkl) as (lbl & Hlbl).
      rewrite (get_entry_of _ _ _ _ _ _ _ _ _ (Gk _) Hlbl (G (cb ++ bs ++ rest))) by (rewrite <- Hd; exact Hdd).
      rewrite item_of_val.
      rewrite (HC (length cb) ltac:(lia) d v k cb (le_n _) Hcc); [|cbn [length]; lia].
      rewrite IHl; [|lia|exact Hd|apply at_least_minus; exact Hcnt].
      rewrite dec_count_minus, minus_minus. reflexivity.
Qed.

(** Skipping the content of an item just read. *)
Lemma skip_content d c cnt cb base st rest :
  content d c cnt cb -> d = (base + length st)%nat ->
  skip base (push_val (val_of cnt (body c)) st) (cb ++ rest) = skip base st rest.
Proof.
  intros H E. destruct (skips (length cb)) as [A B].
  apply (skips_content_of _ A B d); auto.
Qed.

(** ** What was skipped *)

Definition ended (cnt : option N) (n : N) (b b' : bytes) : Prop :=
  (cnt = Some n /\ b' = b) \/ (cnt = None /\ b' = b ++ [xff]).

(** [b] is what completes the open levels [st]. *)
Inductive closes (base : nat) : list (bool * option N) -> bytes -> Prop :=
| cl_nil : closes base [] []
| cl_array c l b cb st b2 :
    ended c (blen l) b cb -> reads_all (base + S (length st)) l b -> closes base st b2 ->
    closes base ((false, c) :: st) (cb ++ b2)
| cl_map c l b cb st b2 :
    ended c (blen l) b cb -> reads_pairs (base + S (length st)) l b -> closes base st b2 ->
    closes base ((true, c) :: st) (cb ++ b2).

Lemma closes_pop base st b : closes base (pop_done st) b -> closes base st b.
Proof.
  induction st as [|(m, c) r IH]; [auto|]. cbn [pop_done].
  destruct c as [[|p]|]; auto. intro H. apply IH in H.
  change b with ([] ++ b). destruct m.
  - apply (cl_map base _ [] []); [left; auto|constructor|exact H].
  - apply (cl_array base _ [] []); [left; auto|constructor|exact H].
Qed.

(** An item that starts with the bytes [hb] at depth [d]. *)
Definition starts (d : nat) (hb : bytes) (it : item) : Prop :=
  hb <> [] /\
  ((exists c, leaf_at hb c /\ it = item_of None c) \/
   (exists ts m cnt, agg_at hb ts m cnt /\ (forall n, cnt = Some n -> n <= max_items) /\
      depth_ok d (VAgg m cnt) = true /\
      it = with_tags (fst (acc_tags ts [] false)) (snd (acc_tags ts [] false))
                     (good_item (VAgg m cnt)))).

Lemma get_elem_inv d bs it rest :
  get_elem d bs = IItem it rest -> exists hb, bs = hb ++ rest /\ starts d hb it.
Proof.
  unfold get_elem. destruct (get_item bs) as [e|it' r] eqn:E; [discriminate|].
  apply get_item_inv in E as [E|(hb & -> & Hh & E)]; [rewrite E; discriminate|].
  intro H. exists hb.
  assert (X : it' = it /\ r = rest /\ depth_ok d (i_val it') = true).
  { revert H. destruct (i_val it'); try discriminate;
      (destruct (depth_ok d _) eqn:D; [|discriminate]; intro H; injection H as -> ->; auto). }
  destruct X as (-> & -> & D). split; [reflexivity|]. split; [exact Hh|].
  destruct E as [E|(ts & m & cnt & Ha & Hc & ->)]; [left; exact E|right].
  rewrite with_tags_val in D. exists ts, m, cnt. auto.
Qed.

Lemma get_entry_inv d bs l it rest :
  get_entry d bs = EEntry l it rest ->
  exists bk k hb, bs = bk ++ hb ++ rest /\ bk <> [] /\ (forall d', reads d' k bk) /\ label_like k /\
    as_label (val_of None (body k)) = Some l /\ starts d hb it.
Proof.
  unfold get_entry. destruct (get_item bs) as [e|lit r] eqn:E; [discriminate|].
  apply get_item_inv in E as [E|(bk & -> & Hk & E)]; [rewrite E; discriminate|].
  intro H.
  assert (X : exists it' r', get_item r = IItem it' r' /\ as_label (i_val lit) = Some l /\
               it' = it /\ r' = rest /\ i_val it' <> VBreak /\ depth_ok d (i_val it') = true).
  { revert H. destruct (get_item r) as [e|it' r'].
    { destruct (i_val lit); discriminate. }
    destruct (i_val lit); try discriminate; cbn [as_label];
      (destruct (i_val it') eqn:Ev; try discriminate; (destruct (depth_ok d _) eqn:D; [|discriminate]);
       intro H; injection H as <- -> ->; exists it, rest; rewrite Ev; repeat split; auto; try discriminate). }
  destruct X as (it' & r' & G & Hl & -> & -> & Hb & D).
  apply get_item_inv in G as [G|(hb & -> & Hh & G)]; [contradiction|].
  destruct E as [(k & (La & Hr) & ->)|(ts & m & cnt & _ & _ & ->)].
  2:{ rewrite with_tags_val in Hl. discriminate. }
  rewrite item_of_val in Hl.
  exists bk, k, hb. repeat split; auto.
  { eapply label_like_leaf. rewrite Hl. discriminate. }
  destruct G as [G|(ts & m & cnt & Ha & Hc & ->)]; [left; exact G|right].
  rewrite with_tags_val in D. exists ts, m, cnt. auto.
Qed.

Lemma leaf_push c st : is_agg c = false -> push_val (val_of None c) st = st.
Proof.
  destruct c; try discriminate; intros _; cbn [val_of];
    repeat (match goal with |- context[if ?x then _ else _] => destruct x end); reflexivity.
Qed.

Lemma ended_counted cnt n b cb : ended cnt n b cb -> (forall m, cnt = Some m -> m <= max_items) -> counted cnt n b cb.
Proof. intros [(-> & ->)|(-> & ->)] H; [left; auto|right; auto]. Qed.

Lemma starts_complete d hb it base st b :
  starts d hb it -> closes base (push_val (i_val it) st) b -> d = (base + length st)%nat ->
  exists c cnt cb b2, b = cb ++ b2 /\ content d c cnt cb /\ it = item_of cnt c /\
    reads d c (hb ++ cb) /\ closes base st b2.
Proof.
  intros (Hh & [(c & (La & Hr) & ->)|(ts & m & cnt & Ha & Hc & D & ->)]) H Hd.
  - rewrite item_of_val, (leaf_push _ _ La) in H.
    exists c, None, [], b. repeat split; auto.
    + unfold content. destruct (body c); try discriminate; auto.
    + rewrite app_nil_r. apply Hr.
  - rewrite with_tags_val in H. cbn [good_item i_val push_val] in H.
    inversion H as [|c0 l b0 cb st0 b2 He Hl Hc2 Em|c0 l b0 cb st0 b2 He Hl Hc2 Em]; subst.
    + apply ended_counted in He; [|exact Hc].
      exists (wrap ts (CArray l)), cnt, cb, b2. repeat split; auto.
      * unfold content. rewrite body_wrap. cbn [body]. exists b0. split; [exact He|].
        replace (S (base + length st)) with (base + S (length st))%nat by lia. exact Hl.
      * unfold item_of. rewrite tags_of_wrap, body_wrap. cbn [tags_of body]. now rewrite app_nil_r.
      * destruct (Ha _ cb D) as [A _]. apply (A eq_refl l b0 He).
        replace (S (base + length st)) with (base + S (length st))%nat by lia. exact Hl.
    + apply ended_counted in He; [|exact Hc].
      exists (wrap ts (CMap l)), cnt, cb, b2. repeat split; auto.
      * unfold content. rewrite body_wrap. cbn [body]. exists b0. split; [exact He|].
        replace (S (base + length st)) with (base + S (length st))%nat by lia. exact Hl.
      * unfold item_of. rewrite tags_of_wrap, body_wrap. cbn [tags_of body]. now rewrite app_nil_r.
      * destruct (Ha _ cb D) as [_ A]. apply (A eq_refl l b0 He).
        replace (S (base + length st)) with (base + S (length st))%nat by lia. exact Hl.
Qed.

Lemma pop_done_cases st :
  pop_done st = [] \/ exists m c r, pop_done st = (m, c) :: r /\ c <> Some 0.
Proof.
  induction st as [|(m, c) r IH]; [left; reflexivity|]. cbn [pop_done].
  destruct c as [[|p]|]; [exact IH| |]; right; eexists _, _, _; (split; [reflexivity|discriminate]).
Qed.

Lemma ended_cons c n b cb hb :
  c <> Some 0 -> ended (dec_count c) n b cb -> ended c (1 + n) (hb ++ b) (hb ++ cb).
Proof.
  intros Hc [(E & ->)|(E & ->)]; destruct c as [k|]; cbn [dec_count] in E; try discriminate.
  - left. injection E as E. split; [|reflexivity]. f_equal. assert (k <> 0) by congruence. lia.
  - right. split; [reflexivity|]. now rewrite app_assoc.
Qed.

Lemma closes_elem base r c hb it b :
  c <> Some 0 -> starts (base + S (length r)) hb it ->
  closes base (push_val (i_val it) ((false, dec_count c) :: r)) b ->
  closes base ((false, c) :: r) (hb ++ b).
Proof.
  intros Hc Hs H.
  destruct (starts_complete _ _ _ _ _ _ Hs H) as (x & cnt & cb & b2 & -> & _ & _ & Hr & H2).
  { reflexivity. }
  inversion H2 as [|c0 l b0 cb2 st0 b3 He Hl Hc2|]; subst.
  rewrite !app_assoc, <- (app_assoc _ cb2).
  replace ((hb ++ cb) ++ cb2 ++ b3) with (((hb ++ cb) ++ cb2) ++ b3) by now rewrite <- app_assoc.
  eapply (cl_array base c (x :: l) ((hb ++ cb) ++ b0)).
  - rewrite blen_cons. now apply ended_cons.
  - constructor; assumption.
  - assumption.
Qed.

Lemma closes_entry base r c bk k hb it b :
  c <> Some 0 -> (forall d, reads d k bk) -> label_like k -> starts (base + S (length r)) hb it ->
  closes base (push_val (i_val it) ((true, dec_count c) :: r)) b ->
  closes base ((true, c) :: r) (bk ++ hb ++ b).
Proof.
  intros Hc Hk Hkl Hs H.
  destruct (starts_complete _ _ _ _ _ _ Hs H) as (x & cnt & cb & b2 & -> & _ & _ & Hr & H2).
  { reflexivity. }
  inversion H2 as [| |c0 l b0 cb2 st0 b3 He Hl Hc2]; subst.
  replace (bk ++ hb ++ cb ++ cb2 ++ b3) with ((bk ++ (hb ++ cb) ++ cb2) ++ b3)
    by now rewrite <- !app_assoc.
  eapply (cl_map base c ((k, x) :: l) (bk ++ (hb ++ cb) ++ b0)).
  - rewrite blen_cons. rewrite (app_assoc bk (hb ++ cb) b0), (app_assoc bk (hb ++ cb) cb2).
    now apply ended_cons.
  - constructor; auto.
  - assumption.
Qed.

Lemma skip_inv_n base n st bs rest :
  (length bs <= n)%nat -> skip base st bs = inr rest ->
  exists b, bs = b ++ rest /\ closes base st b.
Proof.
  revert st bs. induction n as [n IH] using (well_founded_induction Wf_nat.lt_wf).
  intros st bs L. rewrite skip_eq.
  destruct (pop_done_cases st) as [Ep|(m & c & r & Ep & Hc)]; rewrite Ep.
  { intro E. injection E as ->. exists []. split; [reflexivity|]. apply closes_pop.
    rewrite Ep. constructor. }
  destruct (_ && starts_with_break bs) eqn:B.
  { apply andb_prop in B as [Bc B]. destruct c; [discriminate|].
    destruct bs as [|b bs]; [discriminate|]. cbn [starts_with_break tl length] in *.
    apply N.eqb_eq in B. assert (b = xff) as -> by (now apply to_N_inj). intro H.
    apply (IH (length bs)) in H as (b & -> & H); [|lia|lia].
    exists ([xff] ++ b). split; [reflexivity|]. apply closes_pop. rewrite Ep. destruct m.
    - apply (cl_map base None [] []); [right; auto|constructor|exact H].
    - apply (cl_array base None [] []); [right; auto|constructor|exact H]. }
  destruct bs as [|b bs]; [discriminate|]. remember (b :: bs) as bs0 eqn:Eb. clear Eb b bs B.
  destruct m.
  - pose proof (get_entry_shrink (base + S (length r)) bs0) as S.
    destruct (get_entry _ _) as [e|l it bs'] eqn:E; [discriminate|].
    intro H. apply (IH (length bs')) in H as (b & -> & H); [|lia|lia].
    apply get_entry_inv in E as (bk & k & hb & -> & _ & Hk & Hkl & _ & Hs).
    exists (bk ++ hb ++ b). split; [now rewrite <- !app_assoc|].
    apply closes_pop. rewrite Ep. eapply closes_entry; eassumption.
  - pose proof (get_elem_shrink (base + S (length r)) bs0) as S.
    destruct (get_elem _ _) as [e|it bs'] eqn:E; [discriminate|].
    intro H. apply (IH (length bs')) in H as (b & -> & H); [|lia|lia].
    apply get_elem_inv in E as (hb & -> & Hs).
    exists (hb ++ b). split; [now rewrite <- !app_assoc|].
    apply closes_pop. rewrite Ep. eapply closes_elem; eassumption.
Qed.

Lemma skip_inv base st bs rest :
  skip base st bs = inr rest -> exists b, bs = b ++ rest /\ closes base st b.
Proof. eapply skip_inv_n. reflexivity. Qed.

Lemma skip_closes base st b rest : closes base st b -> skip base st (b ++ rest) = inr rest.
Proof.
  induction 1 as [|c l b cb st b2 He Hl _ IH|c l b cb st b2 He Hl _ IH]; [apply skip_nil| |].
  - destruct (skips (length b)) as [A _]. specialize (A _ _ _ (le_n _) Hl base st).
    destruct He as [(-> & ->)|(-> & ->)]; rewrite <- !app_assoc.
    + rewrite A; [|reflexivity|apply N.le_refl]. cbn [minus]. now rewrite N.sub_diag, skip_done.
    + rewrite A; [|reflexivity|exact I]. cbn [minus app]. now rewrite skip_break.
  - destruct (skips (length b)) as [_ A]. specialize (A _ _ _ (le_n _) Hl base st).
    destruct He as [(-> & ->)|(-> & ->)]; rewrite <- !app_assoc.
    + rewrite A; [|reflexivity|apply N.le_refl]. cbn [minus]. now rewrite N.sub_diag, skip_done.
    + rewrite A; [|reflexivity|exact I]. cbn [minus app]. now rewrite skip_break.
Qed.

(** ** Maps *)

Lemma skip_shrink base st bs rest : skip base st bs = inr rest -> (length rest <= length bs)%nat.
Proof. intro H. apply skip_inv in H as (b & -> & _). rewrite app_length. lia. Qed.

Lemma scan_map_f_fuel depth f1 f2 c bs :
  (length bs < f1)%nat -> (length bs < f2)%nat ->
  scan_map_f f1 depth c bs = scan_map_f f2 depth c bs.
Proof.
  revert f2 c bs. induction f1 as [|f1 IH]; intros f2 c bs L1 L2; [lia|].
  destruct f2 as [|f2]; [lia|]. cbn [scan_map_f].
  assert (G : forall c', match bs with
           | [] => ([], inl QD_NO_MORE_ITEMS)
           | _ :: _ =>
             match get_entry depth bs with
             | EErr e => ([], inl e)
             | EEntry l it bs' =>
               match skip depth (push_val (i_val it) []) bs' with
               | inl e => ([{| en_label := l; en_item := it; en_content := bs' |}], inl e)
               | inr bs'' => let (es, fin) := scan_map_f f1 depth c' bs'' in
                             ({| en_label := l; en_item := it; en_content := bs' |} :: es, fin)
               end
             end
           end =
           match bs with
           | [] => ([], inl QD_NO_MORE_ITEMS)
           | _ :: _ =>
             match get_entry depth bs with
             | EErr e => ([], inl e)
             | EEntry l it bs' =>
               match skip depth (push_val (i_val it) []) bs' with
               | inl e => ([{| en_label := l; en_item := it; en_content := bs' |}], inl e)
               | inr bs'' => let (es, fin) := scan_map_f f2 depth c' bs'' in
                             ({| en_label := l; en_item := it; en_content := bs' |} :: es, fin)
               end
             end
           end).
  { intro c'. destruct bs as [|b bs]; [reflexivity|]. remember (b :: bs) as bs0 eqn:Eb.
    pose proof (get_entry_shrink depth bs0) as S.
    destruct (get_entry depth bs0) as [|l it bs']; [reflexivity|].
    destruct (skip depth _ bs') as [|bs''] eqn:K; [reflexivity|].
    apply skip_shrink in K. rewrite (IH f2 c' bs''); [reflexivity|lia|lia]. }
  destruct c as [[|p]|]; [reflexivity| |].
  - cbn [andb]. apply G.
  - cbn [andb]. destruct (starts_with_break bs); [reflexivity|]. apply G.
Qed.

Lemma scan_map_eq depth c bs :
  scan_map depth c bs =
    match c with
    | Some 0 => ([], inr bs)
    | _ =>
      if (match c with None => true | Some _ => false end) && starts_with_break bs
      then ([], inr (tl bs))
      else match bs with
           | [] => ([], inl QD_NO_MORE_ITEMS)
           | _ =>
             match get_entry depth bs with
             | EErr e => ([], inl e)
             | EEntry l it bs' =>
               let en := {| en_label := l; en_item := it; en_content := bs' |} in
               match skip depth (push_val (i_val it) []) bs' with
               | inl e => ([en], inl e)
               | inr bs'' =>
                 let (es, fin) := scan_map depth (dec_count c) bs'' in (en :: es, fin)
               end
             end
           end
    end.
Proof.
  unfold scan_map at 1. cbn [scan_map_f].
  assert (G : forall c', match bs with
           | [] => ([], inl QD_NO_MORE_ITEMS)
           | _ :: _ =>
             match get_entry depth bs with
             | EErr e => ([], inl e)
             | EEntry l it bs' =>
               match skip depth (push_val (i_val it) []) bs' with
               | inl e => ([{| en_label := l; en_item := it; en_content := bs' |}], inl e)
               | inr bs'' => let (es, fin) := scan_map_f (length bs) depth c' bs'' in
                             ({| en_label := l; en_item := it; en_content := bs' |} :: es, fin)
               end
             end
           end =
           match bs with
           | [] => ([], inl QD_NO_MORE_ITEMS)
           | _ :: _ =>
             match get_entry depth bs with
             | EErr e => ([], inl e)
             | EEntry l it bs' =>
               match skip depth (push_val (i_val it) []) bs' with
               | inl e => ([{| en_label := l; en_item := it; en_content := bs' |}], inl e)
               | inr bs'' => let (es, fin) := scan_map depth c' bs'' in
                             ({| en_label := l; en_item := it; en_content := bs' |} :: es, fin)
               end
             end
           end).
  { intro c'. destruct bs as [|b bs]; [reflexivity|]. remember (b :: bs) as bs0 eqn:Eb.
    pose proof (get_entry_shrink depth bs0) as S.
    destruct (get_entry depth bs0) as [|l it bs']; [reflexivity|].
    destruct (skip depth _ bs') as [|bs''] eqn:K; [reflexivity|].
    apply skip_shrink in K. unfold scan_map.
    rewrite (scan_map_f_fuel depth (length bs0) (Datatypes.S (length bs'')) c' bs''); [reflexivity|lia|lia]. }
  destruct c as [[|p]|]; [reflexivity| |].
  - cbn [andb]. apply G.
  - cbn [andb]. destruct (starts_with_break bs); [reflexivity|]. apply G.
Qed.

Lemma scan_map_no_fuel depth f c bs :
  (length bs < f)%nat -> snd (scan_map_f f depth c bs) <> inl QD_FUEL.
Proof.
  revert c bs. induction f as [|f IH]; intros c bs L; [lia|]. cbn [scan_map_f].
  assert (G : forall c', snd (match bs with
           | [] => ([], inl QD_NO_MORE_ITEMS)
           | _ :: _ =>
             match get_entry depth bs with
             | EErr e => ([], inl e)
             | EEntry l it bs' =>
               match skip depth (push_val (i_val it) []) bs' with
               | inl e => ([{| en_label := l; en_item := it; en_content := bs' |}], inl e)
               | inr bs'' => let (es, fin) := scan_map_f f depth c' bs'' in
                             ({| en_label := l; en_item := it; en_content := bs' |} :: es, fin)
               end
             end
           end) <> inl QD_FUEL).
  { intro c'. destruct bs as [|b bs]; [discriminate|]. remember (b :: bs) as bs0 eqn:Eb.
    pose proof (get_entry_shrink depth bs0) as S.
    destruct (get_entry depth bs0) as [|l it bs']; [cbn; congruence|].
    destruct (skip depth _ bs') as [|bs''] eqn:K.
    { cbn. intro X. injection X as ->. eapply skip_f_no_fuel; [|exact K]. lia. }
    apply skip_shrink in K. specialize (IH c' bs'' ltac:(lia)).
    destruct (scan_map_f f depth c' bs''). exact IH. }
  destruct c as [[|p]|]; [discriminate| |].
  - cbn [andb]. apply G.
  - cbn [andb]. destruct (starts_with_break bs); [discriminate|]. apply G.
Qed.

(** An entry as reported by a search of a map at depth [d]. *)
Definition entry_for (d : nat) (kv : cbor * cbor) (e : entry) : Prop :=
  as_label (val_of None (body (fst kv))) = Some (en_label e) /\
  exists cnt cb tl, content d (snd kv) cnt cb /\ en_item e = item_of cnt (snd kv) /\
                    en_content e = cb ++ tl.

Lemma scan_pairs d l b :
  reads_pairs d l b -> forall c cb rest, ended c (blen l) b cb ->
  exists es, scan_map d c (cb ++ rest) = (es, inr rest) /\ Forall2 (entry_for d) l es.
Proof.
  induction 1 as [d|d k v l bk bv bs Hk Hkl Hv Hl IH]; intros c cb rest He.
  - exists []. split; [|constructor]. rewrite scan_map_eq.
    destruct He as [(-> & ->)|(-> & ->)]; reflexivity.
  - destruct (reads_get_item d k bk Hk) as (hk & ck & k1 & -> & Hhk & Hck & _ & Gk).
    destruct (leaf_content d k k1 ck (label_leaf k Hkl) Hck) as [-> ->].
    destruct (reads_get_item d v bv Hv) as (hb & cv & cnt & -> & Hh & Hcc & Hdd & G).
    destruct (as_label_like None k Hkl) as (lbl & Hlbl).
    rewrite blen_cons in He. rewrite app_nil_r in He.
    assert (X : exists cb', cb = hk ++ hb ++ cv ++ cb' /\ ended (dec_count c) (blen l) bs cb' /\ c <> Some 0).
    { destruct He as [(-> & ->)|(-> & ->)].
      - exists bs. rewrite <- !app_assoc. split; [reflexivity|]. split; [|intro E; assert (1 + blen l = 0) by congruence; lia].
        left. cbn [dec_count]. split; [f_equal; lia|reflexivity].
      - exists (bs ++ [xff]). rewrite <- !app_assoc. split; [reflexivity|]. split; [right; auto|discriminate]. }
    destruct X as (cb' & -> & He' & Hc). clear He.
    destruct (IH (dec_count c) cb' rest He') as (es & Hs & Hf).
    rewrite scan_map_eq, <- !app_assoc.
    rewrite (no_break _ _ _ _ (Gk (hb ++ cv ++ cb' ++ rest))), andb_false_r.
    rewrite (get_entry_of _ _ _ _ _ _ _ _ _ (Gk _) Hlbl (G (cv ++ cb' ++ rest)) Hdd).
    cbv zeta. rewrite item_of_val.
    rewrite (skip_content d v cnt cv d [] (cb' ++ rest) Hcc) by (cbn [length]; lia).
    rewrite skip_nil, Hs.
    exists ({| en_label := lbl; en_item := item_of cnt v; en_content := cv ++ cb' ++ rest |} :: es).
    split.
    + destruct (hk ++ hb ++ cv ++ cb' ++ rest) eqn:E; [now apply app_ne in E|].
      destruct c as [[|p]|]; [contradiction|reflexivity|reflexivity].
    + constructor; [|exact Hf]. split; [exact Hlbl|]. exists cnt, cv, (cb' ++ rest). auto.
Qed.

Lemma scan_inv_n d n c bs es rest :
  (length bs <= n)%nat -> scan_map d c bs = (es, inr rest) ->
  exists l b cb, reads_pairs d l b /\ ended c (blen l) b cb /\ bs = cb ++ rest /\
                 Forall2 (entry_for d) l es.
Proof.
  revert c bs es. induction n as [n IH] using (well_founded_induction Wf_nat.lt_wf).
  intros c bs es L. rewrite scan_map_eq.
  assert (C : c = Some 0 \/ c <> Some 0) by (destruct c as [[|p]|]; [left|right|right]; congruence).
  destruct C as [->|Hc].
  { intro E. injection E as <- ->. exists [], [], []. repeat split; [constructor|left; auto|constructor]. }
  intro E.
  assert (E' : (if (match c with None => true | Some _ => false end) && starts_with_break bs
      then ([], inr (tl bs))
      else match bs with
           | [] => ([], inl QD_NO_MORE_ITEMS)
           | _ =>
             match get_entry d bs with
             | EErr e => ([], inl e)
             | EEntry l it bs' =>
               let en := {| en_label := l; en_item := it; en_content := bs' |} in
               match skip d (push_val (i_val it) []) bs' with
               | inl e => ([en], inl e)
               | inr bs'' =>
                 let (es, fin) := scan_map d (dec_count c) bs'' in (en :: es, fin)
               end
             end
           end) = (es, inr rest)).
  { destruct c as [[|p]|]; [contradiction|exact E|exact E]. }
  clear E. destruct (_ && starts_with_break bs) eqn:B.
  { apply andb_prop in B as [Bc B]. destruct c; [discriminate|].
    destruct bs as [|b bs]; [discriminate|]. cbn [starts_with_break tl length] in *.
    apply N.eqb_eq in B. assert (b = xff) as -> by (now apply to_N_inj).
    injection E' as <- ->. exists [], [], [xff].
    repeat split; [constructor|right; auto|constructor]. }
  destruct bs as [|b bs]; [discriminate|]. remember (b :: bs) as bs0 eqn:Eb. clear Eb b bs B.
  pose proof (get_entry_shrink d bs0) as S.
  destruct (get_entry d bs0) as [e|l it bs'] eqn:E; [discriminate|]. cbv zeta in E'.
  destruct (skip d _ bs') as [|bs''] eqn:K; [discriminate|].
  pose proof (skip_shrink _ _ _ _ K) as S2.
  destruct (scan_map d (dec_count c) bs'') as [es' fin] eqn:M. injection E' as <- ->.
  apply (IH (length bs'')) in M as (l' & b & cb & Hl & He & -> & Hf); [|lia|lia].
  apply skip_inv in K as (b1 & -> & K).
  apply get_entry_inv in E as (bk & k & hb & -> & _ & Hk & Hkl & Hlbl & Hs).
  destruct (starts_complete _ _ _ _ _ _ Hs K) as (x & cnt & cv & b2 & -> & Hcc & -> & Hr & H2).
  { cbn [length]. lia. }
  inversion H2; subst. rewrite app_nil_r in *.
  exists ((k, x) :: l'), (bk ++ (hb ++ cv) ++ b), (bk ++ (hb ++ cv) ++ cb). repeat split.
  - constructor; auto.
  - rewrite blen_cons, (app_assoc bk _ b), (app_assoc bk _ cb). now apply ended_cons.
  - now rewrite <- !app_assoc.
  - constructor; [|exact Hf]. split; [exact Hlbl|]. exists cnt, cv, (cb ++ rest). auto.
Qed.

Lemma scan_inv d c bs es rest :
  scan_map d c bs = (es, inr rest) ->
  exists l b cb, reads_pairs d l b /\ ended c (blen l) b cb /\ bs = cb ++ rest /\
                 Forall2 (entry_for d) l es.
Proof. eapply scan_inv_n. reflexivity. Qed.
