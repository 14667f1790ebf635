(** The decoder reports something as malformed only if it is. *)
From Verif Require Import Base Const QEnc QDec Spec DecSpec BaseFacts DecFacts DecSkip DecCtx DecSim WideSpec.
From Coq Require Import Lia ZifyBool ZifyNat ZifyN.
Ltac Zify.zify_post_hook ::= Z.div_mod_to_equations.
Open Scope N_scope. Open Scope list_scope.

(** ** One item *)

(** Items in an array or a map of [n] elements. *)
Definition mul (m : bool) (n : N) : N := if m then 2 * n else n.

(** What follows the head of an array or map. *)
Definition wcontent (m : bool) (cnt : option N) (b : bytes) : Prop :=
  match cnt with
  | Some n => well_formed_seq (mul m n) b
  | None => exists k b0, b = b0 ++ [xff] /\ well_formed_seq (mul m k) b0
  end.

Definition wresult (r : bytes) (x : ires) : Prop :=
  match x with
  | IErr e => is_not_wf e = false
  | IItem it r' =>
    is_not_wf (i_err it) = false /\
    match i_val it with
    | VBreak => False
    | VAgg m cnt => exists b, r' = b ++ r /\ wcontent m cnt b
    | _ => r' = r
    end
  end.

Lemma with_tags_wf tags tm it : is_not_wf (i_err it) = false -> is_not_wf (i_err (with_tags tags tm it)) = false.
Proof. unfold with_tags. destruct (negb _); [auto|]. cbn [i_err]. now destruct tm. Qed.

Lemma with_tags_v tags tm it : i_val (with_tags tags tm it) = i_val it.
Proof. unfold with_tags. now destruct (negb _). Qed.

Lemma leaf_wide c w fuel tags tm r : reads 0 c w -> is_agg (body c) = false -> is_not_wf (err_of (body c)) = false ->
  (length w < fuel)%nat -> wresult r (get_item_f fuel tags tm (w ++ r)).
Proof.
  intros R A E L. destruct (reads_item _ _ _ R) as (hb & cb & cnt & -> & _ & Hc & _ & G).
  destruct (leaf_content _ _ _ _ A Hc) as [-> ->]. rewrite app_nil_r in *. rewrite (G fuel tags tm r L). cbn [wresult].
  split; [now apply with_tags_wf|]. rewrite with_tags_v. cbn [atom_of i_val].
  destruct (body c) as [n|n| | | | | | n| | ]; try discriminate A; cbn [val_of]; try reflexivity.
  - destruct (n <? INT64_LIMIT); reflexivity.
  - destruct (n <? INT64_LIMIT); reflexivity.
  - destruct (n =? 22); reflexivity.
Qed.

Lemma agg_wide (m : bool) cnt mt ai n h b r fuel tags tm : decode_head (h ++ b ++ r) = HOk mt ai n (b ++ r) ->
  mt = (if m then 5 else 4) -> wcontent m cnt b -> cnt = (if ai =? 31 then None else Some n) ->
  (0 < fuel)%nat -> wresult r (get_item_f fuel tags tm (h ++ b ++ r)).
Proof.
  intros E -> W -> L. destruct fuel as [|fuel]; [lia|]. cbn [get_item_f]. rewrite E.
  assert (N6 : (if m then 5 else 4) =? 6 = false) by (destruct m; reflexivity). rewrite N6.
  assert (D : dec_atom (if m then 5 else 4) ai n (b ++ r) =
    if ai =? 31 then IItem (good_item (VAgg m None)) (b ++ r)
    else if MAX_DEC_ITEMS <? n then IErr QD_ARRAY_TOO_LONG else IItem (good_item (VAgg m (Some n))) (b ++ r)).
  { destruct m; reflexivity. }
  rewrite D. destruct (ai =? 31); [|destruct (MAX_DEC_ITEMS <? n); [reflexivity|]]; cbn [wresult];
    (split; [apply with_tags_wf; reflexivity|]; rewrite with_tags_v; cbn [good_item i_val]; eauto).
Qed.

Lemma head_ne mt n h : is_head mt n h -> h <> [].
Proof. intros []; discriminate. Qed.

Lemma indef_head mt r : mt < 8 -> decode_head ([initial mt 31] ++ r) = HOk mt 31 31 r.
Proof.
  intro H. cbn [app decode_head]. rewrite initial_val by lia.
  replace ((mt * 32 + 31) / 32) with mt by lia. now replace ((mt * 32 + 31) mod 32) with 31 by lia.
Qed.

Lemma wide_get_f w : well_formed w -> forall fuel tags tm r, (length w < fuel)%nat -> wresult r (get_item_f fuel tags tm (w ++ r)).
Proof.
  induction 1 as [mt n h [->| ->] H|mt s h [->| ->] H|mt b Hm H|n h b H Hs|n b Hs|n h b H Hs|n b Hs|n h b H Hb IH|n H|n H|ai b H];
    intros fuel tags tm r L.
  - apply (leaf_wide (CUInt n)); auto. now constructor.
  - apply (leaf_wide (CNInt n)); auto; [now constructor|]. cbn. now destruct (n <? INT64_LIMIT).
  - apply (leaf_wide (CBytes s)); auto. now constructor.
  - apply (leaf_wide (CText s)); auto. now constructor.
  - destruct fuel as [|fuel]; [lia|]. cbn [get_item_f]. rewrite <- app_assoc, indef_head by lia.
    destruct Hm as [->| ->]; reflexivity.
  - destruct (decode_head_of 4 n h (b ++ r) H) as (ai & Ha & E); [lia|]. rewrite <- app_assoc.
    apply (agg_wide false (Some n) 4 ai n); auto; [|lia]. destruct (N.eqb_spec ai 31); [lia|reflexivity].
  - rewrite <- app_assoc. apply (agg_wide false None 4 31 31); auto; [exists n, b; auto|lia].
  - destruct (decode_head_of 5 n h (b ++ r) H) as (ai & Ha & E); [lia|]. rewrite <- app_assoc.
    apply (agg_wide true (Some n) 5 ai n); auto; [|lia]. destruct (N.eqb_spec ai 31); [lia|reflexivity].
  - rewrite <- app_assoc. apply (agg_wide true None 5 31 31); auto; [exists n, b; auto|lia].
  - destruct fuel as [|fuel]; [lia|]. rewrite <- app_assoc. destruct (decode_head_of 6 n h (b ++ r) H) as (ai & Ha & E); [lia|].
    cbn [get_item_f]. rewrite E. cbn [N.eqb Pos.eqb]. destruct (N.eqb_spec ai 31); [lia|].
    rewrite app_length in L. pose proof (head_ne _ _ _ H). destruct h; [contradiction|]. cbn [length] in L.
    destruct (Nat.leb MAX_TAGS_PER_ITEM (length tags)); apply IH; lia.
  - apply (leaf_wide (CSimple n)); auto. now constructor.
  - apply (leaf_wide (CSimple n)); auto. now constructor.
  - apply (leaf_wide (CFloat b)); auto. now constructor.
Qed.

Lemma wide_get w r : well_formed w -> wresult r (get_item (w ++ r)).
Proof. intro H. unfold get_item. apply wide_get_f; [exact H|]. rewrite app_length. lia. Qed.

Lemma wide_ne w : well_formed w -> w <> [].
Proof.
  induction 1 as [mt n h _ H|mt s h _ H|mt b Hm H|n h b H Hs|n b Hs|n h b H Hs|n b Hs|n h b H Hb IH|n H|n H|ai b H]; try discriminate;
    apply head_ne in H; destruct h; try contradiction; discriminate.
Qed.

(** No item begins with a break. *)
Lemma wide_break w r : well_formed w -> starts_with_break (w ++ r) = false.
Proof.
  intro H. destruct (starts_with_break (w ++ r)) eqn:E; [exfalso|reflexivity].
  pose proof (wide_get w r H) as G. pose proof (wide_ne w H). destruct w as [|b w]; [contradiction|]. cbn in E.
  assert (b = xff) as -> by (apply to_N_inj; apply N.eqb_eq in E; exact E). cbn in G. destruct G as [_ []].
Qed.

Lemma seq_cases n b : well_formed_seq n b -> n = 0 /\ b = [] \/ exists w b', b = w ++ b' /\ well_formed w /\ well_formed_seq (n - 1) b' /\ n <> 0.
Proof.
  destruct 1 as [|n w b Hw Hb]; [auto|]. right. exists w, b. replace (N.succ n - 1) with n by lia. repeat split; auto. lia.
Qed.

Lemma wide_elem d w r : well_formed w ->
  match get_elem d (w ++ r) with
  | IErr e => is_not_wf e = false
  | IItem it r' => is_not_wf (i_err it) = false /\ match i_val it with VAgg m cnt => exists b, r' = b ++ r /\ wcontent m cnt b | _ => r' = r end
  end.
Proof.
  intro H. pose proof (wide_get w r H) as G. unfold get_elem. destruct (get_item (w ++ r)) as [e|it r']; cbn [wresult] in G; [exact G|].
  destruct G as [G1 G2]. destruct (i_val it) eqn:V; try contradiction; (destruct (depth_ok d _); [rewrite V; auto|reflexivity]).
Qed.

Lemma wide_entry d w1 w2 r : well_formed w1 -> well_formed w2 ->
  match get_entry d (w1 ++ w2 ++ r) with
  | EErr e => is_not_wf e = false
  | EEntry _ it r' => is_not_wf (i_err it) = false /\ match i_val it with VAgg m cnt => exists b, r' = b ++ r /\ wcontent m cnt b | _ => r' = r end
  end.
Proof.
  intros H1 H2. pose proof (wide_get w1 (w2 ++ r) H1) as G. unfold get_entry.
  destruct (get_item (w1 ++ w2 ++ r)) as [e|lit r1]; cbn [wresult] in G; [exact G|]. destruct G as [_ G].
  assert (Go : as_label (i_val lit) <> None -> r1 = w2 ++ r).
  { destruct (i_val lit); cbn; intro; try congruence; exact G. }
  assert (Second : match get_item r1 with IErr e => is_not_wf e = false | _ => True end).
  { assert (X : forall w x, well_formed w -> match get_item (w ++ x) with IErr e => is_not_wf e = false | _ => True end).
    { intros w x Hw. pose proof (wide_get w x Hw) as Y. destruct (get_item (w ++ x)); [exact Y|trivial]. }
    assert (Brk : forall x, match get_item (xff :: x) with IErr e => is_not_wf e = false | _ => True end) by (intro; exact I).
    destruct (i_val lit) as [ | | | |m cnt| | | | ]; try contradiction; try (rewrite G; apply X; assumption).
    destruct G as (b & -> & W). destruct cnt as [n|]; cbn [wcontent] in W.
    - apply seq_cases in W as [(_ & ->)|(w & b' & -> & Hw & _)]; [apply (X w2 r); assumption|]. rewrite <- app_assoc. now apply X.
    - destruct W as (k & b0 & -> & W). apply seq_cases in W as [(_ & ->)|(w & b' & -> & Hw & _)]; [apply Brk|].
      rewrite <- !app_assoc. now apply X. }
  destruct (i_val lit) eqn:V; try contradiction;
    (destruct (get_item r1) as [e|it r'] eqn:G1; [exact Second|]; cbn [as_label] in *; try reflexivity);
    (rewrite Go in G1 by discriminate; pose proof (wide_get w2 r H2) as Y; rewrite G1 in Y; cbn [wresult] in Y; destruct Y as [Y1 Y2];
     destruct (i_val it) eqn:Vi; try contradiction; (destruct (depth_ok d _); [rewrite Vi; auto|reflexivity])).
Qed.

(** ** Skipping *)

(** [b] completes the open levels. *)
Inductive wcloses : list (bool * option N) -> bytes -> Prop :=
| wc_nil : wcloses [] []
| wc_level m cnt st b1 b2 : wcontent m cnt b1 -> wcloses st b2 -> wcloses ((m, cnt) :: st) (b1 ++ b2).

Lemma wcloses_pop st b : wcloses st b -> wcloses (pop_done st) b.
Proof.
  revert b. induction st as [|[m c] st IH]; intros b H; [exact H|]. destruct c as [[|p]|]; try exact H. cbn [pop_done].
  inversion H as [|? ? ? b1 b2 W H2]; subst. cbn [wcontent] in W. replace (mul m 0) with 0 in W by (destruct m; reflexivity).
  apply seq_cases in W as [(_ & ->)|(_ & _ & _ & _ & _ & W)]; [|contradiction]. now apply IH.
Qed.

Lemma mul_dec m n : mul m n <> 0 -> n <> 0.
Proof. destruct m; cbn [mul]; lia. Qed.

(** The next element or entry of an open level. *)
Lemma wlevel_next (m : bool) cnt b : wcontent m cnt b ->
  cnt = Some 0 \/ cnt = None /\ b = [xff] \/
  exists w b', b = w ++ b' /\ wcontent m (dec_count cnt) b' /\ cnt <> Some 0 /\
    if m then exists w1 w2, w = w1 ++ w2 /\ well_formed w1 /\ well_formed w2 else well_formed w.
Proof.
  assert (S0 : forall k b0, well_formed_seq (mul m k) b0 -> k = 0 /\ b0 = [] \/ exists w b', b0 = w ++ b' /\ well_formed_seq (mul m (k - 1)) b' /\ k <> 0 /\
    if m then exists w1 w2, w = w1 ++ w2 /\ well_formed w1 /\ well_formed w2 else well_formed w).
  { intros k b0 W. apply seq_cases in W as [(E & ->)|(w & b' & -> & Hw & W & N)].
    - left. split; [|reflexivity]. destruct m; cbn [mul] in E; lia.
    - right. destruct m; cbn [mul] in *.
      + apply seq_cases in W as [(E & _)|(w2 & b2 & -> & Hw2 & W & N2)]; [lia|]. exists (w ++ w2), b2. rewrite app_assoc.
        replace (2 * (k - 1)) with (2 * k - 1 - 1) by lia. repeat split; auto; [lia|]. exists w, w2. auto.
      + exists w, b'. auto. }
  destruct cnt as [n|]; cbn [wcontent].
  - intro W. apply S0 in W as [(-> & _)|(w & b' & -> & W & N & X)]; [auto|]. right. right. exists w, b'. repeat split; auto.
    intro E. injection E as ->. now apply N.
  - intros (k & b0 & -> & W). apply S0 in W as [(_ & ->)|(w & b' & -> & W & N & X)]; [auto|]. right. right.
    exists w, (b' ++ [xff]). rewrite app_assoc. split; [reflexivity|]. split; [exists (k - 1), b'; auto|]. split; [discriminate|exact X].
Qed.

Lemma wide_skip n : forall base st b r, (length b <= n)%nat -> wcloses st b ->
  match skip base st (b ++ r) with inl e => is_not_wf e = false | inr r' => r' = r end.
Proof.
  induction n as [n IH] using (well_founded_induction Wf_nat.lt_wf). intros base st b r L W. rewrite skip_eq.
  apply wcloses_pop in W. destruct (pop_done_cases st) as [Ep|(m & c & rs & Ep & Hc)]; rewrite Ep in *; [inversion W; reflexivity|].
  inversion W as [|? ? ? b1 b2 W1 W2]; subst.
  destruct (wlevel_next _ _ _ W1) as [->|[(-> & ->)|(w & b' & -> & W3 & _ & Hw)]]; [contradiction| |].
  { cbn [app starts_with_break tl andb]. change (Byte.to_N xff =? 255) with true. cbn iota.
    apply (IH (length b2)); auto. }
  assert (Hb : starts_with_break (((w ++ b') ++ b2) ++ r) = false /\ w <> []).
  { destruct m.
    - destruct Hw as (w1 & w2 & -> & Hw & _). rewrite <- !app_assoc. split; [now apply wide_break|]. pose proof (wide_ne _ Hw).
      destruct w1; [contradiction|discriminate].
    - rewrite <- !app_assoc. split; [now apply wide_break|]. now apply wide_ne. }
  destruct Hb as [Hb Ne]. rewrite Hb, andb_false_r.
  assert (Next : forall it r', is_not_wf (i_err it) = false -> 
     match i_val it with VAgg m cnt => exists b, r' = b ++ b' ++ b2 ++ r /\ wcontent m cnt b | _ => r' = b' ++ b2 ++ r end ->
     (length r' < length (((w ++ b') ++ b2) ++ r))%nat ->
     match skip base (push_val (i_val it) ((m, dec_count c) :: rs)) r' with inl e => is_not_wf e = false | inr r' => r' = r end).
  { intros it r' _ G Lr. rewrite !app_length in Lr, L.
    assert (G' : exists b3, r' = b3 ++ r /\ wcloses (push_val (i_val it) ((m, dec_count c) :: rs)) b3).
    { destruct (i_val it); cbn [push_val]; try (exists (b' ++ b2); rewrite <- app_assoc; split; [exact G|now constructor]).
      destruct G as (b & -> & G). exists (b ++ b' ++ b2). rewrite <- !app_assoc. split; [reflexivity|]. constructor; [exact G|].
      now constructor. }
    destruct G' as (b3 & -> & G'). rewrite !app_length in Lr. apply (IH (length b3)); auto. lia. }
  destruct (((w ++ b') ++ b2) ++ r) as [|b0 bs] eqn:Eb.
  { destruct w; [contradiction|discriminate]. }
  rewrite <- Eb in *. clear Eb b0 bs. rewrite <- !app_assoc in *. destruct m.
  - destruct Hw as (w1 & w2 & -> & Hw1 & Hw2). rewrite <- app_assoc in *.
    pose proof (wide_entry (base + S (length rs)) w1 w2 (b' ++ b2 ++ r) Hw1 Hw2) as G.
    pose proof (get_entry_shrink (base + S (length rs)) (w1 ++ w2 ++ b' ++ b2 ++ r)) as Sh.
    destruct (get_entry _ _) as [e'|l it r']; [exact G|]. destruct G. now apply Next.
  - pose proof (wide_elem (base + S (length rs)) w (b' ++ b2 ++ r) Hw) as G.
    pose proof (get_elem_shrink (base + S (length rs)) (w ++ b' ++ b2 ++ r)) as Sh.
    destruct (get_elem _ _) as [e'|it r']; [exact G|]. destruct G. now apply Next.
Qed.

(** ** Searching *)

Lemma wide_scan d n : forall cnt b r es e, (length b <= n)%nat -> wcontent true cnt b -> scan_map d cnt (b ++ r) = (es, inl e) ->
  is_not_wf e = false /\ Forall (fun x => is_not_wf (i_err (en_item x)) = false) es.
Proof.
  induction n as [n IH] using (well_founded_induction Wf_nat.lt_wf). intros cnt b r es e L W. rewrite scan_map_eq.
  destruct (wlevel_next _ _ _ W) as [->|[(-> & ->)|(w & b' & -> & W3 & Hc & w1 & w2 & -> & Hw1 & Hw2)]]; [discriminate|discriminate|].
  rewrite <- !app_assoc. rewrite (wide_break w1) by exact Hw1. rewrite andb_false_r.
  pose proof (wide_entry d w1 w2 (b' ++ r) Hw1 Hw2) as G.
  pose proof (get_entry_shrink d (w1 ++ w2 ++ b' ++ r)) as Sh.
  assert (Main : match get_entry d (w1 ++ w2 ++ b' ++ r) with
    | EErr e => ([], inl e)
    | EEntry l it bs' =>
       let en := {| en_label := l; en_item := it; en_content := bs' |} in
       match skip d (push_val (i_val it) []) bs' with
       | inl e => ([en], inl e)
       | inr bs'' => let (es, fin) := scan_map d (dec_count cnt) bs'' in (en :: es, fin)
       end
    end = (es, inl e) -> is_not_wf e = false /\ Forall (fun x => is_not_wf (i_err (en_item x)) = false) es).
  { destruct (get_entry d _) as [e'|l it r']; [intro E; injection E as <- <-; split; [exact G|constructor]|]. destruct G as [G1 G2]. cbv zeta.
    assert (G' : exists b3, r' = b3 ++ b' ++ r /\ wcloses (push_val (i_val it) []) b3).
    { destruct (i_val it); cbn [push_val]; try (exists []; split; [exact G2|constructor]).
      destruct G2 as (b & -> & G2). exists b. split; [reflexivity|]. rewrite <- (app_nil_r b). constructor; [exact G2|constructor]. }
    destruct G' as (b3 & -> & G'). pose proof (wide_skip (length b3) d _ b3 (b' ++ r) (le_n _) G') as K.
    destruct (skip d (push_val (i_val it) []) (b3 ++ b' ++ r)) as [e'|r''].
    - intro E. injection E as <- <-. split; [exact K|]. constructor; [exact G1|constructor].
    - subst r''. destruct (scan_map d (dec_count cnt) (b' ++ r)) as [es' fin] eqn:M. intro E. injection E as <- ->.
      destruct (IH (length b')) with (cnt := dec_count cnt) (b := b') (r := r) (es := es') (e := e) as [I1 I2]; auto.
      rewrite !app_length in L. pose proof (wide_ne _ Hw1). destruct w1; [contradiction|]. cbn [length] in L. lia. }
  destruct cnt as [[|p]|]; [contradiction| |]; (destruct (w1 ++ w2 ++ b' ++ r) eqn:E0; [apply app_eq_nil in E0 as [E0 _]; now apply wide_ne in E0|exact Main]).
Qed.

(** ** Agreement with the decoder's grammar *)

Lemma wide_once d w r1 it r' : well_formed w -> get_elem d (w ++ r1) = IItem it r' ->
  match skip d (push_val (i_val it) []) r' with inl e => is_not_wf e = false | inr r'' => r'' = r1 end.
Proof.
  intros Hw G. pose proof (wide_elem d w r1 Hw) as X. rewrite G in X. destruct X as [_ X].
  assert (Y : exists b, r' = b ++ r1 /\ wcloses (push_val (i_val it) []) b).
  { destruct (i_val it); cbn [push_val]; try (exists []; split; [exact X|constructor]).
    destruct X as (b & -> & X). exists b. split; [reflexivity|]. rewrite <- (app_nil_r b). constructor; [exact X|constructor]. }
  destruct Y as (b & -> & Y). exact (wide_skip (length b) d _ b r1 (le_n _) Y).
Qed.

Lemma reads_elem d x bx rest : reads d x bx -> exists hb cb cnt, bx = hb ++ cb /\ content d x cnt cb /\
  get_elem d (bx ++ rest) = IItem (item_of cnt x) (cb ++ rest).
Proof.
  intro R. destruct (reads_get_item _ _ _ R) as (hb & cb & cnt & -> & Hh & Hc & Hd & G). exists hb, cb, cnt.
  split; [reflexivity|]. split; [exact Hc|]. unfold get_elem. rewrite <- app_assoc, G, item_of_val.
  destruct (val_of cnt (body x)) eqn:V; rewrite ?Hd; try reflexivity.
  exfalso. destruct (body x) as [ | | | | | |? ?| | | ]; cbn in V; try discriminate; repeat match type of V with context[if ?b then _ else _] => destruct b end; discriminate.
Qed.

Lemma agree_bytes d x bx w r1 r2 : reads d x bx -> well_formed w -> w ++ r1 = bx ++ r2 -> w = bx /\ r1 = r2.
Proof.
  intros R Hw E. destruct (reads_elem d x bx r2 R) as (hb & cb & cnt & Eb & C & G). rewrite <- E in G.
  pose proof (wide_once _ _ _ _ _ Hw G) as K. rewrite item_of_val, (skip_content d x cnt cb d [] r2 C), skip_nil in K by (cbn [length]; lia).
  subst r2. split; [now apply app_inv_tail in E|reflexivity].
Qed.
