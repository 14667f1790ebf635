(** Strings of indefinite length: where they are reported, and that they are never accepted. *)
From Verif Require Import Base Const QEnc QDec Spec DecSpec BaseFacts DecFacts DecSkip DecCtx Params ParamFacts DecSim
  Crypto Util ShortCircuit Verify VerifyDec BucketFacts LabelFacts VerifySafe VerifyFacts Unique VerifyTop VerifyMore VerifyMore2 SignSpec VerifySpec PassSpec ErrorSpec ErrorFacts ErrorTop WideSpec WideFacts ItemSpec FormedFacts OpensFacts ItemFacts BrokenSpec BrokenFacts IndefSpec.
From Coq Require Import Lia ZifyBool ZifyNat ZifyN.
Ltac Zify.zify_post_hook ::= Z.div_mod_to_equations.
Open Scope N_scope. Open Scope list_scope.
Local Open Scope mon_scope.
Local Strategy 100 [create_tbs create_tbs_hash verify_decode parse_cose_header_parameters].

(** ** The decoder reads no such string *)

Lemma seq_app n b1 : well_formed_seq n b1 -> forall m b2, well_formed_seq m b2 -> well_formed_seq (n + m) (b1 ++ b2).
Proof.
  induction 1 as [|n w b Hw Hb IH]; intros m b2 H2; [exact H2|]. rewrite <- app_assoc, N.add_succ_l. constructor; auto.
Qed.

Lemma seq_mid n b1 w m b2 : well_formed_seq n b1 -> well_formed w -> well_formed_seq m b2 -> well_formed_seq (n + 1 + m) (b1 ++ w ++ b2).
Proof.
  intros H1 Hw H2. replace (n + 1 + m) with (n + N.succ m) by lia. apply seq_app; [exact H1|]. now constructor.
Qed.

Lemma has_wide w : has_indef w -> well_formed w.
Proof.
  induction 1 as [mt b Hm H|n m h b1 w b2 H H1 Hw IH H2|n m b1 w b2 H1 Hw IH H2|k n m h b1 w b2 H E H1 Hw IH H2|k n m b1 w b2 E H1 Hw IH H2|n h b H _ IH].
  - now apply (wf_chunks mt).
  - eapply wf_array; [exact H|now apply seq_mid].
  - eapply wf_array_indef. now apply seq_mid; eauto.
  - eapply wf_map; [exact H|]. rewrite E. now apply seq_mid.
  - apply (wf_map_indef k). rewrite E. now apply seq_mid.
  - eapply wf_tag; eauto.
Qed.

Definition hresult (k : nat) (x : ires) : Prop :=
  match x with
  | IErr e => True
  | IItem it r' =>
    match i_val it with
    | VAgg m cnt => exists n b1 w y, r' = b1 ++ w ++ y /\ well_formed_seq n b1 /\ has_indef w /\ (length w < k)%nat /\
        match cnt with Some q => n < mul m q | None => True end
    | _ => False
    end
  end.

Lemma agg_indef (m : bool) cnt mt ai n h b fuel tags tm k n0 b1 w y : decode_head (h ++ b) = HOk mt ai n b ->
  mt = (if m then 5 else 4) -> b = b1 ++ w ++ y -> well_formed_seq n0 b1 -> has_indef w -> (length w < k)%nat ->
  match cnt with Some q => n0 < mul m q | None => True end -> cnt = (if ai =? 31 then None else Some n) ->
  (0 < fuel)%nat -> hresult k (get_item_f fuel tags tm (h ++ b)).
Proof.
  intros E -> Eb H1 Hw Lw Hc -> L. destruct fuel as [|fuel]; [lia|]. cbn [get_item_f]. rewrite E.
  assert (N6 : (if m then 5 else 4) =? 6 = false) by (destruct m; reflexivity). rewrite N6.
  assert (D : dec_atom (if m then 5 else 4) ai n b =
    if ai =? 31 then IItem (good_item (VAgg m None)) b
    else if MAX_DEC_ITEMS <? n then IErr QD_ARRAY_TOO_LONG else IItem (good_item (VAgg m (Some n))) b).
  { destruct m; reflexivity. }
  rewrite D. destruct (ai =? 31); [|destruct (MAX_DEC_ITEMS <? n); [reflexivity|]]; cbn [hresult];
    rewrite with_tags_v; cbn [good_item i_val]; exists n0, b1, w, y; auto.
Qed.

Lemma has_get_f w : has_indef w -> forall fuel tags tm r, (length w < fuel)%nat -> hresult (length w) (get_item_f fuel tags tm (w ++ r)).
Proof.
  induction 1 as [mt b Hm H|n m h b1 w b2 H H1 Hw IH H2|n m b1 w b2 H1 Hw IH H2|k n m h b1 w b2 H E H1 Hw IH H2|k n m b1 w b2 E H1 Hw IH H2|n h b H _ IH];
    intros fuel tags tm r L.
  - destruct fuel as [|fuel]; [lia|]. cbn [get_item_f]. rewrite <- app_assoc, indef_head by lia.
    destruct Hm as [->| ->]; exact I.
  - pose proof (head_ne _ _ _ H). destruct (decode_head_of 4 _ h ((b1 ++ w ++ b2) ++ r) H) as (ai & Ha & D); [lia|]. rewrite <- app_assoc.
    apply (agg_indef false (Some (n + 1 + m)) 4 ai (n + 1 + m) h) with (n0 := n) (b1 := b1) (w := w) (y := b2 ++ r); auto.
    + now rewrite <- !app_assoc.
    + rewrite !app_length. destruct h; [contradiction|]. cbn [length]. lia.
    + cbn [mul]. lia.
    + destruct (N.eqb_spec ai 31); [lia|reflexivity].
    + lia.
  - replace (([initial 4 31] ++ (b1 ++ w ++ b2) ++ [xff]) ++ r) with ([initial 4 31] ++ (b1 ++ w ++ b2 ++ [xff] ++ r)) by now rewrite <- !app_assoc.
    apply (agg_indef false None 4 31 31 [initial 4 31]) with (n0 := n) (b1 := b1) (w := w) (y := b2 ++ [xff] ++ r); auto.
    + rewrite !app_length. cbn [length]. lia.
    + lia.
  - pose proof (head_ne _ _ _ H). destruct (decode_head_of 5 _ h ((b1 ++ w ++ b2) ++ r) H) as (ai & Ha & D); [lia|]. rewrite <- app_assoc.
    apply (agg_indef true (Some k) 5 ai k h) with (n0 := n) (b1 := b1) (w := w) (y := b2 ++ r); auto.
    + now rewrite <- !app_assoc.
    + rewrite !app_length. destruct h; [contradiction|]. cbn [length]. lia.
    + cbn [mul]. lia.
    + destruct (N.eqb_spec ai 31); [lia|reflexivity].
    + lia.
  - replace (([initial 5 31] ++ (b1 ++ w ++ b2) ++ [xff]) ++ r) with ([initial 5 31] ++ (b1 ++ w ++ b2 ++ [xff] ++ r)) by now rewrite <- !app_assoc.
    apply (agg_indef true None 5 31 31 [initial 5 31]) with (n0 := n) (b1 := b1) (w := w) (y := b2 ++ [xff] ++ r); auto.
    + rewrite !app_length. cbn [length]. lia.
    + lia.
  - destruct fuel as [|fuel]; [lia|]. rewrite <- app_assoc. destruct (decode_head_of 6 n h (b ++ r) H) as (ai & Ha & E); [lia|].
    cbn [get_item_f]. rewrite E. cbn [N.eqb Pos.eqb]. destruct (N.eqb_spec ai 31); [lia|].
    rewrite app_length in *. pose proof (head_ne _ _ _ H). destruct h; [contradiction|]. cbn [length] in *.
    assert (Mono : forall x, hresult (length b) x -> hresult (S (length h) + length b) x).
    { intros [e|it r0]; cbn [hresult]; [auto|]. destruct (i_val it); auto. intros (n1 & b1 & w & y & A & B & C & D & F).
      exists n1, b1, w, y. repeat split; auto. lia. }
    destruct (Nat.leb MAX_TAGS_PER_ITEM (length tags)); apply Mono, IH; lia.
Qed.

Lemma pairs_all d l b : reads_pairs d l b -> reads_all d (flat_map (fun kv => [fst kv; snd kv]) l) b.
Proof. induction 1; cbn [flat_map fst snd app]; [constructor|]. constructor; [assumption|]. constructor; assumption. Qed.

Lemma pairs_len (l : list (cbor * cbor)) : blen (flat_map (fun kv => [fst kv; snd kv]) l) = 2 * blen l.
Proof. induction l as [|kv l IH]; [reflexivity|]. cbn [flat_map app]. rewrite !blen_cons, IH. lia. Qed.

(** Among elements that were read, after [n] others. *)
Lemma seq_read d l bl : reads_all d l bl -> forall n b1 w y z, well_formed_seq n b1 -> well_formed w -> b1 ++ w ++ y = bl ++ z ->
  n < blen l \/ (exists z', z = xff :: z') -> exists x bx r, reads d x bx /\ w ++ y = bx ++ r.
Proof.
  induction 1 as [d|d x l bx bs Hx Hl IH]; intros n b1 w y z H1 Hw E C.
  - destruct C as [C|(z' & ->)]; [change (blen []) with 0 in C; lia|]. exfalso. cbn [app] in E.
    apply seq_cases in H1 as [(_ & ->)|(w1 & b & -> & Hw1 & _)].
    + pose proof (wide_break w y Hw) as B. cbn [app] in E. rewrite E in B. discriminate.
    + pose proof (wide_break w1 (b ++ w ++ y) Hw1) as B. rewrite <- app_assoc in E. rewrite E in B. discriminate.
  - apply seq_cases in H1 as [(_ & ->)|(w1 & b & -> & Hw1 & Hb & Nz)].
    + exists x, bx, (bs ++ z). rewrite app_assoc. auto.
    + rewrite <- !app_assoc in E. destruct (agree_bytes _ _ _ _ _ _ Hx Hw1 E) as [_ E1].
      apply (IH _ _ _ _ _ Hb Hw E1). rewrite blen_cons in C. destruct C as [C|C]; [left; lia|auto].
Qed.

Lemma has_no_read n : forall w d x bx r1 r2, (length w <= n)%nat -> has_indef w -> reads d x bx -> w ++ r1 = bx ++ r2 -> False.
Proof.
  induction n as [n IH] using (well_founded_induction Wf_nat.lt_wf). intros w d x bx r1 r2 L Hw R E.
  destruct (reads_get_item _ _ _ R) as (hb & cb & cnt & -> & _ & C & _ & G).
  pose proof (has_get_f w Hw (S (length (w ++ r1))) [] false r1 ltac:(rewrite app_length; lia)) as X.
  change (get_item_f (S (length (w ++ r1))) [] false (w ++ r1)) with (get_item (w ++ r1)) in X.
  rewrite E, <- app_assoc, G in X. cbn [hresult] in X. rewrite item_of_val in X.
  assert (K : forall (d' : nat) l b (m : bool) cnt', reads_all d' l b -> (exists z, cb ++ r2 = b ++ z /\
      match cnt' with Some q => mul m q = blen l | None => exists z', z = xff :: z' end) ->
      (exists n b1 w0 y, cb ++ r2 = b1 ++ w0 ++ y /\ well_formed_seq n b1 /\ has_indef w0 /\ (length w0 < length w)%nat /\
        match cnt' with Some q => n < mul m q | None => True end) -> False).
  { intros d' l b m cnt' Rl (z & Ez & Cz) (n0 & b1 & w0 & y & E0 & H1 & H0 & L0 & Cn). rewrite Ez in E0. symmetry in E0.
    destruct (seq_read d' l b Rl n0 b1 w0 y z H1 (has_wide _ H0) E0) as (x' & bx' & r & Rx & Ex).
    { destruct cnt' as [q|]; [left; lia|auto]. }
    exact (IH (length w0) ltac:(lia) w0 _ _ _ _ _ (le_n _) H0 Rx Ex). }
  unfold content in C. destruct (body x) as [m|m|s|s|l|l|m y|m|s|s]; cbn [val_of] in X; try contradiction;
    try (destruct (m <? INT64_LIMIT); contradiction); try (destruct (m =? 22); contradiction).
  - destruct C as (b & Hc & Rl). refine (K _ _ _ false cnt Rl _ X).
    destruct Hc as [(-> & _ & ->)|(-> & ->)]; [exists r2; cbn [mul]; auto|]. exists (xff :: r2). rewrite <- app_assoc. eauto.
  - destruct C as (b & Hc & Rl). apply pairs_all in Rl. refine (K _ _ _ true cnt Rl _ X). rewrite pairs_len.
    destruct Hc as [(-> & _ & ->)|(-> & ->)]; [exists r2; cbn [mul]; auto|]. exists (xff :: r2). rewrite <- app_assoc. eauto.
Qed.

Lemma has_no_item d w r : has_indef w -> no_item d (w ++ r).
Proof. intros H x bx r0 E R. exact (has_no_read _ w _ _ _ _ _ (le_n _) H R E). Qed.

Theorem indef_refused c cr junk me msg tail aad payload want dc log w : length (v_tags me) = 4%nat -> has_indef msg ->
  verify_internal c cr junk me (msg ++ tail) aad payload want dc = (log, Ret w) -> log = [] /\ w_err w <> T_SUCCESS.
Proof.
  intros Hv Hm H. eapply cut_decode; [|exact Hv|exact H]. intros t b r E R. exact (has_no_item 0 msg tail Hm t b r E R).
Qed.

(** ** In place of an element of a message that is accepted *)

Lemma prefix_elems d l b : reads_all d l b -> forall l' b' y z, reads_all d l' b' -> b ++ y = b' ++ z ->
  blen l <= blen l' \/ (exists z', z = xff :: z') -> exists l2, l' = l ++ l2.
Proof.
  induction 1 as [d|d x l bx bs Hx Hl IH]; intros l' b' y z R' E C; [exists l'; reflexivity|].
  destruct R' as [d|d x' l' bx' bs' Hx' Hl'].
  - destruct C as [C|(z' & ->)]; [rewrite blen_cons in C; change (blen []) with 0 in C; lia|].
    exfalso. cbn [app] in E. rewrite <- app_assoc in E. exact (reads_no_break _ _ _ _ _ Hx E).
  - rewrite <- !app_assoc in E. destruct (reads_unique _ _ _ _ _ _ _ _ Hx Hx' E) as (-> & _ & E1).
    destruct (IH _ _ _ _ Hl' E1) as (l2 & ->); [|now exists l2]. rewrite !blen_cons in C. destruct C as [C|C]; [left; lia|auto].
Qed.

Lemma reads_array_of ts cnt hb t bt r y : opens 4 ts cnt hb -> reads 0 t bt -> good t = true -> bt ++ r = hb ++ y ->
  tags_of t = ts /\ exists l b z, body t = CArray l /\ reads_all 1 l b /\ y = b ++ z /\
    match cnt with Some n => n = blen l | None => exists z', z = xff :: z' end.
Proof.
  intros O R Gt E. pose proof (opens_get 4 ts cnt hb y (or_introl eq_refl) O) as G.
  destruct (reads_get_item _ _ _ R) as (hb' & cb & cnt' & -> & _ & C & _ & G2). rewrite <- E, <- app_assoc, G2 in G.
  injection G as G3 G4. subst y. rewrite agg_item_eq, item_of_eq in G3.
  pose proof Gt as Gt'. unfold good in Gt'. apply andb_prop in Gt' as [Q F]. rewrite Q, F in G3. cbn [negb] in G3.
  pose proof (f_equal i_val G3) as V. pose proof (f_equal i_tags G3) as T. pose proof (f_equal i_err G3) as L.
  cbn [i_val i_tags i_err] in V, T, L. clear G3. unfold content in C.
  assert (L4 : (length ts <= 4)%nat) by (destruct (Nat.leb_spec (length ts) 4); [assumption|discriminate]).
  unfold few_tags in F. apply Nat.leb_le in F. split.
  { rewrite !firstn_all2 in T by assumption. apply (f_equal (@rev N)) in T. now rewrite !rev_involutive in T. }
  destruct (body t) as [m|m|s|s|l|l|m x|m|s|s]; cbn [val_of] in V; try discriminate;
    try (destruct (m <? INT64_LIMIT); discriminate); try (destruct (m =? 22); discriminate).
  injection V as ->. destruct C as (b & Hc & Rl). exists l, b.
  destruct Hc as [(-> & _ & ->)|(-> & ->)]; [exists r; auto|]. exists (xff :: r). rewrite <- app_assoc. eauto 6.
Qed.

Lemma elems_prefix c me l l2 payload dc m me' e me2 : elems_decode c me (l ++ l2) payload dc = Ret (DOk m, me') ->
  elems_decode c me l payload dc = Ret (DErr e, me2) -> e = place_code dc (length l).
Proof.
  unfold elems_decode.
  destruct l as [|x0 l]; cbn [app nth_error]; [intros _ H; injection H as <- _; reflexivity|].
  destruct (bstr_at (Some x0)) as [e0|p]; [discriminate|].
  destruct (prot_bucket c p) as [[[[e1 p1] crit] unk1]|]; cbn [obind]; [|discriminate].
  destruct (terr_eqb e1 T_SUCCESS); cbn [negb]; [|discriminate].
  destruct l as [|x1 l]; cbn [app nth_error].
  { cbn [unprot_bucket obind]. intros _ H. injection H as <- _. reflexivity. }
  destruct (unprot_bucket c (Some x1) p1 unk1) as [[[e2 p2] unk2]|]; cbn [obind]; [|discriminate].
  destruct (terr_eqb e2 T_SUCCESS); cbn [negb]; [|discriminate].
  destruct l as [|x2 l]; cbn [app nth_error].
  { unfold pay_part. cbn [bstr_at]. destruct dc.
    - destruct payload; cbn [obind]; [|discriminate]. intros _ H. injection H as <- _. reflexivity.
    - cbn [obind]. intros _ H. injection H as <- _. reflexivity. }
  destruct (pay_part (Some x2) payload dc) as [[e3|pay]|]; cbn [obind]; [discriminate| |discriminate].
  destruct l as [|x3 l]; cbn [app nth_error].
  { intros _ H. injection H as <- _. reflexivity. }
  destruct (bstr_at (Some x3)) as [e4|sg]; [discriminate|].
  destruct (need crit); cbn [obind]; discriminate.
Qed.

(** Bytes at which no item starts in place of an element of a message that decodes. *)
Theorem replaced_decode c junk junk' me msg msg' l rest' payload dc m me' r me2 :
  replaced msg msg' l rest' -> (forall r, rest' <> xff :: r) -> no_item 1 rest' ->
  verify_decode c junk me msg payload dc = Ret (DOk m, me') ->
  verify_decode c junk' me msg' payload dc = Ret (r, me2) ->
  exists e, r = DErr e /\ (e = place_code dc (length l) \/ break_err dc l rest' e).
Proof.
  intros (ts & cnt & hb & b & rest & O & R & Hk & -> & ->) Nb No H H'.
  assert (B : breaks_off (hb ++ b ++ rest') ts l rest').
  { exists cnt, hb, b. repeat split; auto. destruct cnt; [exact Hk|exact Nb]. }
  destruct (broken_decode _ _ _ _ _ _ _ _ _ _ _ B H') as (e & -> & F). exists e. split; [reflexivity|].
  destruct F as [F|F]; [left|auto].
  destruct (decode_inv _ _ _ _ _ _ _ _ H) as (t & Ht). rewrite (decode_reads _ _ _ t) in H by exact Ht. unfold tree_decode in H, F.
  destruct (good t) eqn:Gt; [|discriminate].
  destruct (reads_array_of ts cnt hb t _ [] (b ++ rest) O Ht Gt (app_nil_r _)) as (Et & L & bL & z & Eb & RL & Ez & Cz).
  rewrite Eb, Et in H. rewrite good_wrap_array, body_wrap_array, tags_wrap_array in F.
  assert (L4 : Nat.leb (length ts) 4 = true).
  { unfold good in Gt. apply andb_prop in Gt as [_ Gt]. unfold few_tags in Gt. now rewrite Et in Gt. }
  rewrite L4 in F. destruct (process_tags me (mkd [] [] (rev ts))) as [[err me1]|]; cbn [obind] in H, F; [|discriminate].
  destruct (negb (terr_eqb err T_SUCCESS)); [discriminate|].
  destruct (prefix_elems _ _ _ R _ _ _ _ RL Ez) as (l2 & ->).
  { destruct cnt as [n|]; [left; cbn [goes_on] in Hk; lia|auto]. }
  exact (elems_prefix _ _ _ _ _ _ _ _ _ _ H F).
Qed.

Lemma accepted_decodes c cr junk me msg aad payload want dc log w :
  verify_internal c cr junk me msg aad payload want dc = (log, Ret w) -> w_err w = T_SUCCESS ->
  exists m me', verify_decode c junk me msg payload dc = Ret (DOk m, me').
Proof.
  intros H E. unfold verify_internal in H.
  apply mbind_ret_inv in H as (l1 & [r me1] & l2 & H1 & H2 & ->). unfold mlift in H1. injection H1 as <- H1.
  destruct r as [e|m]; [|eauto]. injection H2 as _ <-. cbn [w_err] in E. subst e. exfalso. exact (decode_no_success _ _ _ _ _ _ _ H1).
Qed.

Lemma replaced_internal c cr cr' junk junk' me msg msg' l rest' aad aad' payload want want' dc log w log' w' :
  replaced msg msg' l rest' -> (forall r, rest' <> xff :: r) -> no_item 1 rest' ->
  verify_internal c cr junk me msg aad payload want dc = (log, Ret w) -> w_err w = T_SUCCESS ->
  verify_internal c cr' junk' me msg' aad' payload want' dc = (log', Ret w') ->
  log' = [] /\ (w_err w' = place_code dc (length l) \/ break_err dc l rest' (w_err w')).
Proof.
  intros Re Nb No H E H'. destruct (accepted_decodes _ _ _ _ _ _ _ _ _ _ _ H E) as (m & me' & D). unfold verify_internal in H'.
  apply mbind_ret_inv in H' as (l1 & [r me1] & l2 & H1 & H2 & ->). unfold mlift in H1. injection H1 as <- H1.
  destruct (replaced_decode _ _ _ _ _ _ _ _ _ _ _ _ _ _ Re Nb No D H1) as (e & -> & F). injection H2 as <- <-. cbn [w_err app]. auto.
Qed.

(** ** The string itself *)

Lemma indef_has w : indef_string w -> has_indef w.
Proof. induction 1; [now apply (hi_chunks mt)|eapply hi_tag; eauto]. Qed.

Lemma indef_get_f w : indef_string w -> forall fuel tags tm r, (length w < fuel)%nat ->
  get_item_f fuel tags tm (w ++ r) = IErr QD_NO_STRING_ALLOCATOR.
Proof.
  induction 1 as [mt b Hm H|n h b H _ IH]; intros fuel tags tm r L.
  - destruct fuel as [|fuel]; [lia|]. cbn [get_item_f]. rewrite <- app_assoc, indef_head by lia. destruct Hm as [->| ->]; reflexivity.
  - destruct fuel as [|fuel]; [lia|]. rewrite <- app_assoc. destruct (decode_head_of 6 n h (b ++ r) H) as (ai & Ha & E); [lia|].
    cbn [get_item_f]. rewrite E. cbn [N.eqb Pos.eqb]. destruct (N.eqb_spec ai 31); [lia|].
    rewrite app_length in *. pose proof (head_ne _ _ _ H). destruct h; [contradiction|]. cbn [length] in *.
    destruct (Nat.leb MAX_TAGS_PER_ITEM (length tags)); apply IH; lia.
Qed.

Lemma indef_elem d w r : indef_string w -> get_elem d (w ++ r) = IErr QD_NO_STRING_ALLOCATOR.
Proof. intro H. unfold get_elem, get_item. rewrite indef_get_f; auto. rewrite app_length. lia. Qed.

Lemma wide_not_break w r : well_formed w -> forall r', w ++ r <> xff :: r'.
Proof. intros H r' E. pose proof (wide_break w r H) as B. rewrite E in B. discriminate. Qed.

Theorem indef_code c cr cr' junk junk' me msg msg' l w r aad aad' payload want want' dc log log' res res' :
  replaced msg msg' l (w ++ r) -> indef_string w ->
  verify_internal c cr junk me msg aad payload want dc = (log, Ret res) -> w_err res = T_SUCCESS ->
  verify_internal c cr' junk' me msg' aad' payload want' dc = (log', Ret res') ->
  log' = [] /\ w_err res' = place_code dc (length l).
Proof.
  intros Re Hw H E H'. pose proof (indef_has w Hw) as Hh. pose proof (has_wide _ Hh) as Ww.
  destruct (replaced_internal _ _ _ _ _ _ _ _ _ _ _ _ _ _ _ _ _ _ _ _ Re (wide_not_break w r Ww) (has_no_item 1 w r Hh) H E H') as [-> F].
  split; [reflexivity|]. destruct F as [F|F]; [exact F|].
  pose proof (indef_elem 1 w r Hw) as G. pose proof (wide_ne w Ww) as Ne.
  assert (S0 : stop_err (w ++ r) = QD_NO_STRING_ALLOCATOR).
  { unfold stop_err. rewrite G. destruct w; [contradiction|reflexivity]. }
  unfold break_err in F. rewrite S0 in F. unfold place_code. destruct (length l) as [|[|[|[|n]]]].
  - exact F.
  - destruct F as [F|((ts & cnt & hb & r' & E1 & O) & _)]; [exact F|exfalso].
    assert (G2 : get_item (w ++ r) = IErr QD_NO_STRING_ALLOCATOR) by (unfold get_item; apply indef_get_f; auto; rewrite app_length; lia).
    rewrite E1, (opens_get 5 ts cnt hb r' (or_intror eq_refl) O) in G2. discriminate.
  - rewrite F. now destruct dc.
  - exact F.
  - destruct F as (q & _ & -> & _ & Q & _). rewrite (Q _ G); [reflexivity|]. destruct w; [contradiction|discriminate].
Qed.

(** Anything well-formed that the decoder cannot read, such as a string of
    indefinite length further inside. *)
Theorem unreadable_code c cr cr' junk junk' me msg msg' l w r aad aad' payload want want' dc log log' res res' :
  replaced msg msg' l (w ++ r) -> well_formed w -> no_item 1 (w ++ r) ->
  verify_internal c cr junk me msg aad payload want dc = (log, Ret res) -> w_err res = T_SUCCESS ->
  verify_internal c cr' junk' me msg' aad' payload want' dc = (log', Ret res') ->
  log' = [] /\ (w_err res' = place_code dc (length l) \/
    length l = 1%nat /\ w_err res' = ERR_TOO_MANY_PARAMETERS /\
      (exists b pm prest, l = [CBytes b] /\ protected_map b pm prest /\ many_labels 1 pm (w ++ r)) \/
    (length l = 2%nat /\ dc = false \/ length l = 3%nat) /\ w_err res' = ERR_TOO_MANY_TAGS /\ many_tags (w ++ r)).
Proof.
  intros Re Ww No H E H'.
  destruct (replaced_internal _ _ _ _ _ _ _ _ _ _ _ _ _ _ _ _ _ _ _ _ Re (wide_not_break w r Ww) No H E H') as [-> F].
  split; [reflexivity|]. destruct F as [F|F]; [auto|]. apply break_err_code in F as [F _]; [|exact No].
  unfold break_code, no_item_code in F. unfold place_code.
  assert (M : malformed (w ++ r) -> False) by (intro M; exact (M w r eq_refl Ww)).
  destruct (length l) as [|[|[|[|n]]]]; try destruct dc; repeat match type of F with _ \/ _ => destruct F as [F|F] end;
    try (now left); try (exfalso; apply M; apply F); right; tauto.
Qed.

(** In the protected parameters, whatever follows the protected bucket. *)
Theorem indef_protected c cr junk me msg t w r l aad payload want dc log res :
  length (v_tags me) = 4%nat -> reads 0 t msg -> readable t -> body t = CArray (CBytes (w ++ r) :: l) -> tags_fit (v_flags me) t -> has_indef w ->
  verify_internal c cr junk me msg aad payload want dc = (log, Ret res) ->
  log = [] /\ (w_err res = ERR_PARAMETER_CBOR \/ w_err res = ERR_TOO_MANY_PARAMETERS /\ many_labels 2 [] (w ++ r)).
Proof.
  intros Hv Ht Rd Et Fit Hw H. unfold verify_internal in H.
  apply mbind_ret_inv in H as (l1 & [x me1] & l2 & H1 & H2 & ->). unfold mlift in H1. injection H1 as <- H1.
  rewrite (decode_reads _ _ _ t) in H1 by exact Ht. unfold tree_decode in H1.
  assert (T4 : (length (tags_of t) <= 4)%nat) by apply Rd.
  apply good_readable in Rd. rewrite Rd, Et in H1.
  rewrite process_tags_spec in H1; [|reflexivity|cbn [mkd d_tags]; rewrite rev_length; exact T4|exact Hv].
  cbv zeta in H1. cbn [mkd d_tags] in H1. change TAG_COSE_SIGN1 with 18 in H1.
  change OPT_TAG_REQUIRED with (2 ^ 2) in H1. change OPT_TAG_PROHIBITED with (2 ^ 4) in H1. rewrite !flag_bit in H1.
  fold (requires_tag (v_flags me)) (prohibits_tag (v_flags me)) in H1.
  unfold tags_fit in Fit. set (tg := match rev (tags_of t) with n :: _ => n =? 18 | [] => false end) in *. cbv zeta in Fit.
  assert (B : requires_tag (v_flags me) && negb tg || prohibits_tag (v_flags me) && tg = false).
  { destruct Fit as [A1 A2]. clear - A1 A2. clearbody tg. destruct (requires_tag (v_flags me)), (prohibits_tag (v_flags me)), tg;
      try reflexivity; try (specialize (A1 eq_refl); discriminate); specialize (A2 eq_refl); discriminate. }
  rewrite B in H1. cbn [obind] in H1. rewrite terr_eqb_refl in H1. cbn [negb] in H1. unfold elems_decode in H1. cbn [nth_error bstr_at plain_bytes] in H1.
  pose proof (wide_ne w (has_wide w Hw)) as Ne. unfold prot_bucket in H1.
  destruct (N.eqb_spec (blen (w ++ r)) 0) as [Z|Z].
  { exfalso. destruct w; [contradiction|]. cbn [app] in Z. rewrite blen_cons in Z. lia. }
  set (L := [LvBstr []; LvAgg false None None []]) in *.
  destruct (parse_cose_header_parameters c (mkd (w ++ r) L []) clear_params (Some clear_label_list) clear_label_list) as [q|] eqn:P;
    cbn [obind] in H1; [|discriminate].
  rewrite clear_ll0 in P. apply (parse_no_item c L (w ++ r) [] clear_params (Some clear_label_list) [] q eq_refl (fun x bx rest E => has_no_item 2 w r Hw x bx rest E) (Nat.le_0_l _) (Nat.le_0_l _)) in P.
  assert (M : malformed (w ++ r) -> False) by (intro M; exact (M w r eq_refl (has_wide w Hw))).
  assert (Q : r_err q = ERR_PARAMETER_CBOR \/ r_err q = ERR_TOO_MANY_PARAMETERS /\ many_labels 2 [] (w ++ r)) by tauto.
  assert (Q1 : terr_eqb (r_err q) T_SUCCESS = false) by (destruct Q as [-> |[-> _]]; reflexivity).
  rewrite Q1 in H1. cbn [negb] in H1. injection H1 as <- <-. injection H2 as <- <-. cbn [w_err app]. auto.
Qed.
