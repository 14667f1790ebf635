(** Errors of verification for bytes that break off. *)
From Verif Require Import Base Const QEnc QDec Spec DecSpec BaseFacts DecFacts DecSkip DecCtx Params ParamFacts DecSim
  Crypto Util ShortCircuit Verify VerifyDec BucketFacts LabelFacts VerifySafe VerifyFacts Unique VerifyTop VerifyMore VerifyMore2 SignSpec VerifySpec PassSpec ErrorSpec ErrorFacts ErrorTop WideSpec WideFacts ItemSpec FormedFacts OpensFacts ItemFacts BrokenSpec.
From Coq Require Import Lia ZifyBool ZifyNat ZifyN.
Ltac Zify.zify_post_hook ::= Z.div_mod_to_equations.
Open Scope N_scope. Open Scope list_scope.
Local Open Scope mon_scope.
Local Strategy 100 [create_tbs create_tbs_hash verify_decode parse_cose_header_parameters].

(** ** Arrays *)

Lemma opens_agg_at ts cnt hb : opens 4 ts cnt hb -> forall d l b cb, depth_ok d (VAgg false cnt) = true ->
  ended cnt (blen l) b cb -> reads_all (S d) l b -> reads d (wrap ts (CArray l)) (hb ++ cb).
Proof.
  induction 1 as [n h H Hn| |t ts cnt h b0 H _ IH]; intros d l b cb Hd He Hr; cbn [wrap fold_right].
  - destruct He as [(E & ->)|(E & _)]; [|discriminate]. injection E as ->. apply rd_array; auto.
    unfold depth_ok, opens_level in Hd. destruct (N.eqb_spec (blen l) 0) as [Z|Z].
    + left. destruct l; [reflexivity|]. rewrite blen_cons in Z. lia.
    + right. cbn [negb orb] in Hd. apply Nat.ltb_lt in Hd. exact Hd.
  - destruct He as [(E & _)|(_ & ->)]; [discriminate|]. apply rd_array_indef; auto.
    unfold depth_ok, opens_level in Hd. cbn [negb orb] in Hd. apply Nat.ltb_lt in Hd. exact Hd.
  - rewrite <- app_assoc. apply rd_tag; [exact H|]. eapply IH; eauto.
Qed.

(** ** Errors that stop the decoder *)

Definition hard (e : qd_err) : Prop := e <> QD_SUCCESS /\ e <> QD_CALLBACK_FAIL /\ e <> QD_TOO_MANY_TAGS.

Lemma get_item_f_hard fuel tags tm bs e : get_item_f fuel tags tm bs = IErr e -> hard e.
Proof.
  unfold hard. revert tags tm bs. induction fuel as [|f IH]; intros tags tm bs; cbn [get_item_f]; [intro X; injection X as <-; repeat split; discriminate|].
  destruct (decode_head bs) as [x r|mt ai n r] eqn:E.
  { destruct (is_unrecoverable x) eqn:U; [|discriminate]. intro X. injection X as <-. destruct x; try discriminate U; repeat split; discriminate. }
  destruct (mt =? 6).
  { destruct (ai =? 31); [discriminate|]. destruct (Nat.leb _ _); apply IH. }
  destruct (dec_atom mt ai n r) as [x|it r'] eqn:A; [|discriminate]. intro X. injection X as <-. revert A. unfold dec_atom, dec_string, dec_type7.
  repeat (match goal with |- context[if ?b then _ else _] => destruct b end); intro A; try discriminate A; injection A as <-; repeat split; discriminate.
Qed.

Lemma get_elem_hard d bs e : get_elem d bs = IErr e -> hard e.
Proof.
  unfold get_elem. destruct (get_item bs) as [x|it r] eqn:E.
  - intro X. injection X as ->. eapply get_item_f_hard. exact E.
  - destruct (i_val it); try destruct (depth_ok d _); intro X; try discriminate; injection X as <-; repeat split; discriminate.
Qed.

Lemma get_entry_hard d bs e : get_entry d bs = EErr e -> hard e.
Proof.
  unfold get_entry. destruct (get_item bs) as [x|it r] eqn:E.
  { intro X. injection X as ->. eapply get_item_f_hard. exact E. }
  destruct (get_item r) as [x|it' r'] eqn:E'.
  - destruct (i_val it); intro X; injection X as <-; try (repeat split; discriminate); eapply get_item_f_hard; exact E'.
  - destruct (i_val it); try destruct (as_label _); try destruct (i_val it'); try destruct (depth_ok d _);
      intro X; try discriminate; injection X as <-; repeat split; discriminate.
Qed.

Lemma skip_f_hard fuel base st bs e : skip_f fuel base st bs = inl e -> hard e.
Proof.
  revert st bs. induction fuel as [|f IH]; intros st bs; cbn [skip_f]; [intro X; injection X as <-; repeat split; discriminate|].
  destruct (pop_done st) as [|[m c] r]; [discriminate|].
  destruct (_ && _); [apply IH|].
  destruct bs as [|b bs]; [intro X; injection X as <-; repeat split; discriminate|]. destruct m.
  - destruct (get_entry _ _) eqn:E; [|apply IH]. intro X. injection X as ->. now apply get_entry_hard in E.
  - destruct (get_elem _ _) eqn:E; [|apply IH]. intro X. injection X as ->. now apply get_elem_hard in E.
Qed.

(** An error that calls only malformed bytes malformed. *)
Definition honest (rest : bytes) (q : qd_err) : Prop := forall w r, rest = w ++ r -> well_formed w -> is_not_wf q = false.

Lemma hard_code rest e : hard e -> honest rest e ->
  decode_error_to_terr e = ERR_SIGN1_FORMAT \/ decode_error_to_terr e = ERR_CBOR_NOT_WELL_FORMED /\ malformed rest.
Proof.
  intros (A & B & C) H. destruct (is_not_wf e) eqn:E.
  - right. split; [destruct e; try discriminate E; reflexivity|]. intros w r Ew Hw. rewrite (H w r Ew Hw) in E. discriminate.
  - left. destruct e; try discriminate E; try contradiction; reflexivity.
Qed.

(** Levels further out do not matter until the inner ones are done. *)
Lemma pop_done_app st tl : pop_done (st ++ tl) = match pop_done st with [] => pop_done tl | _ => pop_done st ++ tl end.
Proof. induction st as [|[m [[|p]|]] st IH]; cbn [app pop_done]; auto. Qed.

Lemma skip_app n : forall base st tl0 bs, (length bs <= n)%nat ->
  skip base (st ++ tl0) bs = match skip (base + length tl0) st bs with inl e => inl e | inr r => skip base tl0 r end.
Proof.
  induction n as [n IH] using (well_founded_induction Wf_nat.lt_wf). intros base st tl0 bs L.
  rewrite (skip_eq base (st ++ tl0)), (skip_eq (base + length tl0) st), pop_done_app.
  destruct (pop_done st) as [|[m c] rs] eqn:P; [now rewrite (skip_eq base tl0)|]. cbn [app].
  rewrite app_length. replace (base + length tl0 + S (length rs))%nat with (base + S (length rs + length tl0))%nat by lia.
  destruct ((match c with None => true | Some _ => false end) && starts_with_break bs) eqn:B.
  { destruct bs as [|b bs]; [now destruct c|]. cbn [tl length] in *. apply (IH (length bs)); lia. }
  assert (Pv : forall v, push_val v ((m, dec_count c) :: rs ++ tl0) = push_val v ((m, dec_count c) :: rs) ++ tl0) by (intros []; reflexivity).
  destruct bs as [|b bs]; [reflexivity|]. destruct m.
  - pose proof (get_entry_shrink (base + S (length rs + length tl0)) (b :: bs)) as Sh.
    destruct (get_entry _ _) as [e|l it r]; [reflexivity|]. rewrite Pv. apply (IH (length r)); lia.
  - pose proof (get_elem_shrink (base + S (length rs + length tl0)) (b :: bs)) as Sh.
    destruct (get_elem _ _) as [e|it r]; [reflexivity|]. rewrite Pv. apply (IH (length r)); lia.
Qed.

(** ** Where no data item starts *)

(** The error for an element that should start here. *)
Definition stop_err (rest : bytes) : qd_err :=
  match rest with
  | [] => QD_NO_MORE_ITEMS
  | _ => match get_elem 1 rest with
         | IErr e => e
         | IItem it _ => if qd_ok (i_err it) then QD_UNEXPECTED_TYPE else i_err it
         end
  end.

Lemma no_item_agg d rest it r : no_item d rest -> get_elem d rest = IItem it r -> exists (m : bool) ts cnt hb,
  rest = hb ++ r /\ opens (if m then 5 else 4) ts cnt hb /\ it = agg_item (if m then 5 else 4) ts cnt [] false.
Proof.
  intros No G. pose proof (get_elem_inv _ _ _ _ G) as (hb & -> & _ & [(x & (La & Hr) & _)|(ts & m & cnt & _ & _ & _ & E)]).
  { exfalso. exact (No x hb r eq_refl (Hr d)). }
  assert (V : i_val it = VAgg m cnt) by (rewrite E, with_tags_val; reflexivity).
  unfold get_elem in G. destruct (get_item (hb ++ r)) as [e|it' r'] eqn:G'; [discriminate|].
  assert (X : it' = it /\ r' = r).
  { revert G. destruct (i_val it'); try discriminate; (destruct (depth_ok d _); [|discriminate]; intro H; injection H as -> ->; auto). }
  destruct X as [-> ->]. destruct (get_opens _ _ _ _ _ G' V) as (ts' & hb' & E1 & E2 & E3). exists m, ts', cnt, hb'. auto.
Qed.

Lemma agg_item_eq mt ts cnt : agg_item mt ts cnt [] false =
  {| i_val := VAgg (mt =? 5) cnt; i_tags := rev (firstn 4 ts); i_err := if Nat.leb (length ts) 4 then QD_SUCCESS else QD_TOO_MANY_TAGS |}.
Proof.
  unfold agg_item. rewrite acc_tags_top. cbn [fst snd]. unfold with_tags. cbn [good_item i_err qd_ok negb i_val].
  destruct (Nat.leb_spec (length ts) 4), (Nat.ltb_spec 4 (length ts)); try lia; reflexivity.
Qed.

Lemma stop_err_cases rest : no_item 1 rest ->
  hard (stop_err rest) \/ stop_err rest = QD_TOO_MANY_TAGS /\ many_tags rest.
Proof.
  intro No. unfold stop_err. destruct rest as [|b rest]; [left; repeat split; discriminate|].
  destruct (get_elem 1 (b :: rest)) as [e|it r] eqn:G; [left; now apply get_elem_hard in G|].
  destruct (no_item_agg _ _ _ _ No G) as (m & ts & cnt & hb & E & O & ->). rewrite agg_item_eq. cbn [i_err].
  destruct (Nat.leb_spec (length ts) 4); cbn [qd_ok]; [left; repeat split; discriminate|].
  right. split; [reflexivity|]. exists (if m then 5 else 4), ts, cnt, hb, r. repeat split; auto. destruct m; auto.
Qed.

Lemma stop_err_bad rest : no_item 1 rest -> stop_err rest <> QD_SUCCESS /\ stop_err rest <> QD_CALLBACK_FAIL.
Proof. intro No. destruct (stop_err_cases _ No) as [(A & B & _)|(E & _)]; [auto|]. rewrite E. split; discriminate. Qed.

Lemma stop_err_honest rest : honest rest (stop_err rest).
Proof.
  intros w r -> Hw. unfold stop_err. pose proof (wide_elem 1 w r Hw) as G. destruct (w ++ r); [reflexivity|].
  destruct (get_elem 1 _) as [e|it r']; [exact G|]. destruct G as [G _]. destruct (qd_ok (i_err it)); [reflexivity|exact G].
Qed.

Lemma stop_err_code rest : no_item 1 rest -> no_item_code rest (decode_error_to_terr (stop_err rest)).
Proof.
  intro No. destruct (stop_err_cases _ No) as [H|(E & M)]; [left; apply hard_code; [exact H|apply stop_err_honest]|]. right. rewrite E. auto.
Qed.

(** The decoder before bytes at which no item starts. *)
Definition at_break (sc : option N) (s rest : bytes) (d : dctx) : Prop :=
  exists k tg, d = mkd rest [LvAgg false k sc s] tg /\ goes_on k 0 rest /\ no_item 1 rest.

Lemma goes_on_level k sc s rest : goes_on k 0 rest -> elem_level [LvAgg false k sc s] = true.
Proof. destruct k as [n|]; [|reflexivity]. cbn. destruct (N.eqb_spec n 0); [lia|reflexivity]. Qed.

Lemma break_not rest : (forall r, rest <> xff :: r) -> starts_with_break rest = false.
Proof.
  intro H. destruct rest as [|b r]; [reflexivity|]. cbn. destruct (N.eqb_spec (Byte.to_N b) 255) as [E|E]; [|reflexivity].
  exfalso. apply (H r). f_equal. now apply to_N_inj.
Qed.

Lemma next_break sc s rest d : at_break sc s rest d -> exists q it d', get_next d = (q, it, d') /\
  (q = stop_err rest /\ q <> QD_SUCCESS /\ i_val it = VNone \/
   q = QD_SUCCESS /\ stop_err rest = QD_UNEXPECTED_TYPE /\ exists (m : bool) ts cnt hb r,
     rest = hb ++ r /\ opens (if m then 5 else 4) ts cnt hb /\ it = agg_item (if m then 5 else 4) ts cnt [] false).
Proof.
  intros (k & tg & -> & Hk & No). pose proof (goes_on_level k sc s rest Hk) as HL. rewrite get_next_eq by exact HL.
  destruct rest as [|b rest].
  { eexists _, _, _. split; [reflexivity|]. left. repeat split; try reflexivity. discriminate. }
  assert (E : at_end (mkd (b :: rest) [LvAgg false k sc s] tg) = false).
  { unfold at_end. cbn [mkd d_in d_levels]. destruct k as [[|p]|]; [discriminate HL|reflexivity|]. apply break_not. exact Hk. }
  rewrite E. cbn [length]. unfold stop_err.
  destruct (get_elem 1 (b :: rest)) as [e|it r] eqn:G.
  { eexists _, _, _. split; [reflexivity|]. left. repeat split; try reflexivity. now apply get_elem_err in G. }
  destruct (no_item_agg _ _ _ _ No G) as (m & ts & cnt & hb & E0 & O & ->).
  eexists _, _, _. split; [reflexivity|]. unfold got. destruct (qd_ok (i_err (agg_item (if m then 5 else 4) ts cnt [] false))) eqn:Q.
  - right. destruct (i_err (agg_item (if m then 5 else 4) ts cnt [] false)); try discriminate Q. repeat split.
    exists m, ts, cnt, hb, r. auto.
  - left. repeat split. intro X. rewrite X in Q. discriminate.
Qed.

Lemma at_break_err sc s rest d : at_break sc s rest d -> d_err d = QD_SUCCESS.
Proof. intros (k & tg & -> & _). reflexivity. Qed.

Lemma agg_item_val (m : bool) ts cnt : i_val (agg_item (if m then 5 else 4) ts cnt [] false) = VAgg m cnt.
Proof. rewrite agg_item_eq. destruct m; reflexivity. Qed.

Lemma enter_bstr_break sc s rest d : at_break sc s rest d -> d_err (fst (enter_bstr_wrapped d)) = stop_err rest.
Proof.
  intro H. unfold enter_bstr_wrapped. rewrite (at_break_err _ _ _ _ H). cbn [qd_ok negb].
  destruct (next_break _ _ _ _ H) as (q & it & d' & -> & [(-> & N & _)|(-> & E & m & ts & cnt & hb & r & _ & _ & ->)]).
  - destruct (stop_err rest) eqn:S0; try contradiction; reflexivity.
  - cbn [qd_ok negb]. unfold untagged_bytes. rewrite agg_item_val. now rewrite E.
Qed.

Lemma get_bytes_break sc s rest d : at_break sc s rest d -> d_err (fst (get_byte_string d)) = stop_err rest.
Proof.
  intro H. unfold get_byte_string. rewrite (at_break_err _ _ _ _ H). cbn [qd_ok negb].
  destruct (next_break _ _ _ _ H) as (q & it & d' & -> & [(-> & N & _)|(-> & E & m & ts & cnt & hb & r & _ & _ & ->)]).
  - destruct (stop_err rest) eqn:S0; try contradiction; reflexivity.
  - cbn [qd_ok negb]. unfold untagged_bytes. rewrite agg_item_val. now rewrite E.
Qed.

Lemma null_break sc s rest d : at_break sc s rest d -> exists q it d', get_next d = (q, it, d') /\ i_val it <> VNullV.
Proof.
  intro H. destruct (next_break _ _ _ _ H) as (q & it & d' & E & [(_ & _ & V)|(_ & _ & m & ts & cnt & hb & r & _ & _ & ->)]);
    eexists _, _, _; (split; [exact E|]); [rewrite V|rewrite agg_item_val]; discriminate.
Qed.

Lemma parse_break c sc s rest d p pm r : at_break sc s rest d ->
  (length (nonzero (int_labels pm)) <= 10)%nat -> (length (text_labels pm) <= 10)%nat ->
  parse_cose_header_parameters c d p None (ll_of (nonzero (int_labels pm)) (text_labels pm)) = Ret r ->
  r_err r = perr (stop_err rest) \/
  (exists ts cnt hb r', rest = hb ++ r' /\ opens 5 ts cnt hb) /\
   ((r_err r = ERR_PARAMETER_CBOR \/ r_err r = ERR_CBOR_NOT_WELL_FORMED /\ malformed rest) \/
    r_err r = ERR_TOO_MANY_PARAMETERS /\ many_labels 1 pm rest).
Proof.
  intros H Lz Lt P. pose proof H as (k & tg & -> & Hk & No). destruct (stop_err_bad _ No) as [N1 N2].
  destruct (next_break _ _ _ _ H) as (q & it & d' & E & [(-> & N & V)|(-> & S0 & m & ts & cnt & hb & r' & E0 & O & ->)]).
  - left. eapply parse_enter_fails; [|exact N1|exact N2|exact P].
    unfold enter_agg. cbn [mkd d_err qd_ok negb]. 
    change {| d_err := QD_SUCCESS; d_in := rest; d_levels := [LvAgg false k sc s]; d_tags := tg |} with (mkd rest [LvAgg false k sc s] tg).
    rewrite E. destruct (stop_err rest); try contradiction; reflexivity.
  - destruct m.
    + right. split; [eauto 6|]. refine (parse_no_item c _ rest tg p None pm r (goes_on_level _ _ _ _ Hk) _ Lz Lt P). exact No.
    + left. eapply parse_enter_fails; [|exact N1|exact N2|exact P].
      unfold enter_agg. cbn [mkd d_err qd_ok negb]. 
      change {| d_err := QD_SUCCESS; d_in := rest; d_levels := [LvAgg false k sc s]; d_tags := tg |} with (mkd rest [LvAgg false k sc s] tg).
      rewrite E. cbn [qd_ok negb]. rewrite agg_item_eq. cbn [i_val N.eqb Pos.eqb Bool.eqb]. now rewrite S0.
Qed.

(** ** Before the break *)

(** Before the elements [l], after which no item starts at [rest]. *)
Definition before (sc : option N) (s rest : bytes) (l : list cbor) (d : dctx) : Prop :=
  exists k b tg, d = mkd (b ++ rest) [LvAgg false k sc s] tg /\ reads_all 1 l b /\ goes_on k (blen l) rest /\ no_item 1 rest.

Lemma before_nil sc s rest d : before sc s rest [] d -> at_break sc s rest d.
Proof. intros (k & b & tg & -> & H & Hk & No). inversion H; subst. exists k, tg. auto. Qed.

Lemma before_cons sc s rest x l d : before sc s rest (x :: l) d ->
  exists b cb k tg, d = mkd (b ++ cb) [LvAgg false k sc s] tg /\ reads 1 x b /\ elem_level [LvAgg false k sc s] = true /\
    forall tg2, before sc s rest l (mkd cb (dec_level [LvAgg false k sc s]) tg2).
Proof.
  intros (k & b & tg & -> & H & Hk & No). inversion H as [|? ? ? b1 bs Hx Hl]; subst. rewrite blen_cons in Hk.
  exists b1, (bs ++ rest), k, tg. rewrite <- app_assoc. split; [reflexivity|]. split; [exact Hx|].
  split; [destruct k as [n|]; [cbn [goes_on elem_level] in *; destruct (N.eqb_spec n 0); [lia|reflexivity]|reflexivity]|].
  intro tg2. exists (dec_count k), bs, tg2. repeat split; auto. destruct k as [n|]; cbn [dec_count goes_on] in *; [lia|exact Hk].
Qed.

Lemma bytes_before sc s rest x l d : before sc s rest (x :: l) d ->
  match bstr_at (Some x) with
  | inr b => exists d', get_byte_string d = (d', Some (UBuf b)) /\ before sc s rest l d'
  | inl e => d_err (fst (get_byte_string d)) = e /\ e <> QD_SUCCESS
  end.
Proof.
  intro H. cbn [bstr_at]. apply before_cons in H as (b & cb & k & tg & -> & Hx & HL & K).
  destruct (plain_bytes x) as [y|] eqn:P.
  - destruct x; try discriminate. injection P as ->. exists (mkd cb (dec_level [LvAgg false k sc s]) tg). split; [|apply K].
    now apply get_byte_string_ok.
  - split; [now apply get_byte_string_bad|apply bstr_err_bad].
Qed.

Lemma prot_bad c junk d e : d_err (fst (enter_bstr_wrapped d)) = e -> e <> QD_SUCCESS -> e <> QD_CALLBACK_FAIL ->
  (exists r p, after_prot c junk d = Ret (r, p) /\ r_err r = perr e) \/
  (exists r p, after_prot c junk d = Ret (r, p) /\ r_err r = T_SUCCESS /\ d_err (r_d r) = e).
Proof.
  intros He H1 H2. unfold after_prot. destruct (enter_bstr_wrapped d) as [d' o]. cbn [fst] in He.
  destruct (negb (u_len match o with Some u => u | None => junk end =? 0)).
  - left. rewrite VerifyDec.parse_failed by (rewrite He; assumption). cbn [obind]. eexists _, _.
    split; [reflexivity|]. cbn. now rewrite He.
  - right. eexists _, _. cbn [obind]. split; [reflexivity|]. cbn. auto.
Qed.

Lemma prot_before c junk sc s rest x l d : before sc s rest (x :: l) d ->
  match bstr_at (Some x) with
  | inl e =>
    e <> QD_SUCCESS /\ e <> QD_CALLBACK_FAIL /\
    ((exists r p, after_prot c junk d = Ret (r, p) /\ r_err r = perr e) \/
     (exists r p, after_prot c junk d = Ret (r, p) /\ r_err r = T_SUCCESS /\ d_err (r_d r) = e))
  | inr prot =>
    match prot_bucket c prot, after_prot c junk d with
    | UB w, UB w' => w = w'
    | Ret (e, p, crit, unk), Ret (r, p') =>
      p' = UBuf prot /\ r_err r = e /\ r_params r = p /\ r_crit r = crit /\ r_unknown r = unk /\
      (e = T_SUCCESS -> before sc s rest l (exit_bstr_wrapped (r_d r)))
    | _, _ => False
    end
  end.
Proof.
  intro H. cbn [bstr_at].
  apply before_cons in H as (b & cb & k & tg' & -> & Hx & HL & K).
  destruct (plain_bytes x) as [y|] eqn:P.
  2:{ split; [apply bstr_err_bad|]. split; [apply bstr_err_fail|].
      apply prot_bad; [now apply enter_bstr_wrapped_bad|apply bstr_err_bad|apply bstr_err_fail]. }
  unfold after_prot.
  destruct x; try discriminate. injection P as ->.
  rewrite (enter_bstr_wrapped_ok _ y b cb tg' HL Hx). cbn [u_len]. unfold prot_bucket.
  destruct (blen y =? 0) eqn:E0; cbn [negb].
  { cbn [obind r_err r_params r_crit r_unknown r_d]. repeat (split; [reflexivity|]). intros _. apply K. }
  pose proof (parse_sim [] cb [LvAgg false None None []] (dec_level [LvAgg false k sc s]) eq_refl c
     (mkd y [LvBstr []; LvAgg false None None []] [])
     (mkd y (LvBstr cb :: dec_level [LvAgg false k sc s]) tg')
     clear_params (Some clear_label_list) clear_label_list) as Sim.
  assert (Ds : dsim [] cb [LvAgg false None None []] (dec_level [LvAgg false k sc s])
     (mkd y [LvBstr []; LvAgg false None None []] []) (mkd y (LvBstr cb :: dec_level [LvAgg false k sc s]) tg')).
  { split; [reflexivity|]. split; [reflexivity|]. exists []. split; reflexivity. }
  specialize (Sim Ds). clear Ds.
  destruct (parse_cose_header_parameters c (mkd y [LvBstr []; LvAgg false None None []] []) clear_params
              (Some clear_label_list) clear_label_list) as [r|w],
    (parse_cose_header_parameters c (mkd y (LvBstr cb :: dec_level [LvAgg false k sc s]) tg') clear_params
              (Some clear_label_list) clear_label_list) as [r'|w'] eqn:E; try contradiction; cbn [obind]; [|exact Sim].
  destruct Sim as (S1 & S2 & S3 & S4 & _). rewrite S1, S2, S3, S4. repeat (split; [reflexivity|]). intro T.
  destruct (parse_inv c (LvBstr cb :: dec_level [LvAgg false k sc s]) y tg' _ _ _ r' eq_refl E T)
    as (x & m & bx & rest' & -> & Rx & Gx & Bx).
  pose proof (parse_eq c (LvBstr cb :: dec_level [LvAgg false k sc s]) x m bx rest' tg' clear_params
                (Some clear_label_list) clear_label_list eq_refl Rx Gx Bx) as Q.
  rewrite E in Q. unfold parsed_as in Q.
  destruct (bucket c m clear_params (Some clear_label_list) clear_label_list) as [[[[e p] crit] unk]|]; [|contradiction].
  destruct Q as (Q1 & _ & _ & _ & Q). rewrite T in Q1. destruct (Q (eq_sym Q1)) as (tg2 & ->). apply K.
Qed.

Lemma unprot_before c sc s rest x l d p unk : before sc s rest (x :: l) d ->
  match unprot_bucket c (Some x) p unk, parse_cose_header_parameters c d p None unk with
  | UB w, UB w' => w = w'
  | Ret (e, p', unk'), Ret r =>
    r_err r = e /\ (e = T_SUCCESS -> r_params r = p' /\ r_unknown r = unk' /\ before sc s rest l (r_d r))
  | _, _ => False
  end.
Proof.
  intro H. cbn [unprot_bucket]. apply before_cons in H as (b & cb & k & tg' & -> & Hx & HL & K).
  set (d := mkd (b ++ cb) [LvAgg false k sc s] tg') in *.
  assert (Bad : forall e p' unk', e <> QD_SUCCESS -> e <> QD_CALLBACK_FAIL -> d_err (enter_agg true d) = e ->
    match Ret (perr e, p', unk'), parse_cose_header_parameters c d p None unk with
    | UB w, UB w' => w = w'
    | Ret (e, p', unk'), Ret r =>
      r_err r = e /\ (e = T_SUCCESS -> r_params r = p' /\ r_unknown r = unk' /\ before sc s rest l (r_d r))
    | _, _ => False
    end).
  { intros e p' unk' H1 H2 He. unfold parse_cose_header_parameters, enter_map, get_items_in_map. rewrite He.
    pose proof (perr_bad e) as PB.
    destruct e; try contradiction; cbn [qd_ok negb obind]; rewrite He; cbn [r_err r_d r_params r_unknown];
      (split; [reflexivity|]); intro X; now apply PB in X. }
  destruct (good x) eqn:G.
  2:{ destruct (enter_agg_bad true _ x b cb tg' HL Hx (or_introl G)) as [E1 E2]. rewrite G in E1.
      apply Bad; [now rewrite <- E1|apply item_err_fail|exact E1]. }
  assert (NotMap : (match body x with CMap _ => False | _ => True end) -> d_err (enter_agg true d) = QD_UNEXPECTED_TYPE).
  { intro NM. destruct (enter_agg_bad true _ x b cb tg' HL Hx) as [E1 _].
    { right. destruct (body x); auto; contradiction. }
    now rewrite G in E1. }
  destruct (body x) as [ | | | | |m| | | | ] eqn:Eb; try (now apply Bad, NotMap).
  pose proof (parse_eq c _ x m b cb tg' p None unk HL Hx G Eb) as Q. unfold parsed_as in Q. unfold d.
  destruct (bucket c m p None unk) as [[[[e p'] crit] unk']|w], (parse_cose_header_parameters _ _ _ _ _) as [r|w'];
    try contradiction; cbn [obind]; [|exact Q].
  destruct Q as (Q1 & Q2 & Q3 & Q4 & Q). split; [exact Q1|]. intro T. split; [exact Q2|]. split; [exact Q4|].
  destruct (Q T) as (tg2 & ->). apply K.
Qed.

Lemma null_before sc s rest x l d : before sc s rest (x :: l) d ->
  exists q it d', get_next d = (q, it, d') /\
    (match i_val it with VNullV => false | _ => true end) = negb (is_null x) /\ (is_null x = true -> before sc s rest l d').
Proof.
  intro H. apply before_cons in H as (b & cb & k & tg' & -> & Hx & HL & K).
  destruct (get_next_elem _ x b cb tg' HL Hx) as (cnt & cx & Hc & E). rewrite E.
  eexists _, _, _. split; [reflexivity|]. unfold is_null. destruct (good x) eqn:G; cbn [andb].
  - rewrite got_good, item_of_val by exact G. split.
    + destruct (body x); cbn [val_of]; try reflexivity; try (destruct (n <? INT64_LIMIT); reflexivity);
        destruct (n =? 22); reflexivity.
    + destruct (body x) eqn:Eb; try discriminate. intros _. unfold content in Hc. rewrite Eb in Hc.
      destruct Hc as [-> ->]. apply K.
  - rewrite got_eq, good_err, G. split; [reflexivity|discriminate].
Qed.

(** Leaving the array: what is wrong at the break is found again. *)
Lemma exit_before sc s rest l all b d : before sc s rest l d -> s = b ++ rest -> reads_all 1 all b ->
  goes_on sc (blen all) rest -> no_item 1 rest ->
  exists e, hard e /\ dec_finish (exit_array d) = e /\ (rest = [] -> e = QD_NO_MORE_ITEMS) /\ (forall x, get_elem 1 rest = IErr x -> rest <> [] -> e = x) /\
    honest rest e.
Proof.
  intros (k & b0 & tg & -> & _) -> Hr Hk No. unfold exit_array. cbn [mkd d_err qd_ok negb d_levels length].
  assert (S0 : skip 0 [(false, sc)] (b ++ rest) = skip 0 [(false, minus sc (blen all))] rest).
  { destruct (skips (length b)) as [SA _]. refine (SA 1%nat all b (le_n _) Hr 0%nat [] sc rest eq_refl _).
    destruct sc as [n|]; cbn [goes_on at_least] in *; [lia|exact I]. }
  rewrite S0.
  assert (P : pop_done [(false, minus sc (blen all))] = [(false, minus sc (blen all))]).
  { destruct sc as [n|]; cbn [minus]; [|reflexivity]. cbn [goes_on] in Hk. cbn [pop_done]. destruct (n - blen all) eqn:Z; [lia|reflexivity]. }
  assert (B : (match minus sc (blen all) with None => true | Some _ => false end) && starts_with_break rest = false).
  { destruct sc as [n|]; cbn in *; [reflexivity|]. now apply break_not. }
  destruct (skip 0 [(false, minus sc (blen all))] rest) as [e|r] eqn:K.
  - assert (Hh : hard e) by (eapply skip_f_hard; exact K).
    assert (Q : qd_ok e = false) by (destruct Hh as [Hh _]; destruct e; try reflexivity; contradiction).
    exists e. split; [exact Hh|]. rewrite skip_eq, P in K. cbv iota beta in K. rewrite B in K.
    split; [unfold dec_finish; cbn [d_set_err d_err]; now rewrite Q|]. split.
    + intros ->. injection K as <-. reflexivity.
    + split.
      * intros x G N. destruct rest as [|b1 rest]; [contradiction|]. cbn [length plus] in K. rewrite G in K. injection K as <-. reflexivity.
      * intros w r Ew Hw. pose proof (wide_elem 1 w r Hw) as G. rewrite <- Ew in G. destruct rest as [|b1 rest]; [injection K as <-; reflexivity|].
        cbn [length plus] in K. destruct (get_elem 1 (b1 :: rest)) as [x|it r'] eqn:G'; [injection K as <-; exact G|].
        destruct G as [_ G].
        change (push_val (i_val it) [(false, dec_count (minus sc (blen all)))]) with
          (push_val (i_val it) ([] ++ [(false, dec_count (minus sc (blen all)))])) in K.
        assert (Pv : forall tl0, push_val (i_val it) ([] ++ tl0) = push_val (i_val it) [] ++ tl0) by (destruct (i_val it); reflexivity).
        rewrite Pv, (skip_app (length r')) in K by lia. cbn [length plus] in K.
        destruct (skip 1 (push_val (i_val it) []) r') as [x|r2] eqn:K1.
        -- injection K as <-.
           assert (W : exists b2, r' = b2 ++ r /\ wcloses (push_val (i_val it) []) b2).
           { destruct (i_val it); try (exists []; split; [exact G|constructor]). destruct G as (b2 & -> & W). exists b2.
             split; [reflexivity|]. cbn [push_val]. rewrite <- (app_nil_r b2). constructor; [exact W|constructor]. }
           destruct W as (b2 & -> & W). pose proof (wide_skip (length b2) 1 _ b2 r (le_n _) W) as X. now rewrite K1 in X.
        -- exfalso. destruct (get_elem_inv _ _ _ _ G') as (hb & E0 & Hs). apply skip_inv in K1 as (b2 & -> & K1).
           destruct (starts_complete _ _ _ _ _ _ Hs K1 eq_refl) as (x & cnt & cv & b3 & -> & _ & _ & Hr2 & H2). inversion H2; subst.
           rewrite app_nil_r in E0. apply (No x (hb ++ cv) r2); [now rewrite <- app_assoc|exact Hr2].
  - exfalso. apply skip_inv in K as (b1 & -> & C). inversion C as [|c0 l1 b2 cb st b3 He Hl Hn|]; subst.
    destruct l1 as [|x l1].
    + destruct He as [(E & _)|(E & ->)].
      * destruct sc as [n|]; cbn [minus] in E; [|discriminate]. injection E as E. cbn [goes_on] in Hk. change (blen []) with 0 in E. lia.
      * destruct sc as [n|]; [discriminate|]. inversion Hl; subst. cbn [app] in Hk. exact (Hk _ eq_refl).
    + inversion Hl as [|? ? ? bx bs Hx Hl']; subst. cbn [length plus] in Hx.
      destruct He as [(_ & ->)|(_ & ->)]; rewrite <- !app_assoc in No; exact (No x bx _ eq_refl Hx).
Qed.

(** ** The whole *)

Lemma opens_enter ts cnt hb R : opens 4 ts cnt hb ->
  if Nat.leb (length ts) 4 then enter_agg false (mkd (hb ++ R) [] []) = mkd R [LvAgg false cnt cnt R] (rev ts)
  else d_err (enter_agg false (mkd (hb ++ R) [] [])) = QD_TOO_MANY_TAGS.
Proof.
  intro O. pose proof (opens_get 4 ts cnt hb R (or_introl eq_refl) O) as G. pose proof (opens_ne _ _ _ _ O) as Ne.
  unfold enter_agg. cbn [mkd d_err qd_ok negb].
  change {| d_err := QD_SUCCESS; d_in := hb ++ R; d_levels := []; d_tags := [] |} with (mkd (hb ++ R) [] []).
  rewrite get_next_eq by reflexivity. unfold at_end. cbn [mkd d_in d_levels length].
  destruct (hb ++ R) as [|b0 r0] eqn:X; [apply app_eq_nil in X as [-> _]; contradiction|]. rewrite <- X in *. clear X b0 r0.
  unfold get_elem. rewrite G, agg_item_eq. cbn [i_val N.eqb Pos.eqb].
  assert (D : depth_ok 0 (VAgg false cnt) = true) by (unfold depth_ok; destruct cnt as [n|]; [cbn; destruct (n =? 0)|]; reflexivity).
  rewrite D. cbn [i_err]. unfold got. cbn [i_err]. destruct (Nat.leb_spec (length ts) 4) as [L|L]; cbn [qd_ok negb].
  - cbn [i_val Bool.eqb i_tags]. rewrite firstn_all2 by exact L. reflexivity.
  - reflexivity.
Qed.

Definition break_err (dc : bool) (l : list cbor) (rest : bytes) (e : terr) : Prop :=
  match length l with
  | O => e = perr (stop_err rest)
  | 1%nat => e = perr (stop_err rest) \/
      (exists ts cnt hb r', rest = hb ++ r' /\ opens 5 ts cnt hb) /\
      ((e = ERR_PARAMETER_CBOR \/ e = ERR_CBOR_NOT_WELL_FORMED /\ malformed rest) \/
       e = ERR_TOO_MANY_PARAMETERS /\ exists b pm prest, l = [CBytes b] /\ protected_map b pm prest /\ many_labels 1 pm rest)
  | 2%nat => e = if dc then ERR_CBOR_FORMATTING else decode_error_to_terr (stop_err rest)
  | 3%nat => e = decode_error_to_terr (stop_err rest)
  | _ => exists q, hard q /\ e = decode_error_to_terr q /\ (rest = [] -> q = QD_NO_MORE_ITEMS) /\
           (forall x, get_elem 1 rest = IErr x -> rest <> [] -> q = x) /\ honest rest q
  end.

Lemma body_wrap_array ts l : body (wrap ts (CArray l)) = CArray l.
Proof. now rewrite body_wrap. Qed.

Lemma tags_wrap_array ts l : tags_of (wrap ts (CArray l)) = ts.
Proof. rewrite tags_of_wrap. apply app_nil_r. Qed.

Lemma good_wrap_array ts l : good (wrap ts (CArray l)) = Nat.leb (length ts) 4.
Proof. unfold good, few_tags. rewrite body_wrap_array, tags_wrap_array. reflexivity. Qed.

Lemma hard_bad q : hard q -> negb (terr_eqb (decode_error_to_terr q) T_SUCCESS) = true.
Proof. intros [H _]. apply bad_eqb. intro X. now apply terr_success in X. Qed.

Lemma stop_bad rest : no_item 1 rest -> negb (terr_eqb (decode_error_to_terr (stop_err rest)) T_SUCCESS) = true.
Proof. intro No. apply bad_eqb. intro X. apply terr_success in X. now apply stop_err_bad in X. Qed.

Theorem broken_decode c junk me msg ts l rest payload dc r me' : breaks_off msg ts l rest ->
  verify_decode c junk me msg payload dc = Ret (r, me') ->
  exists e, r = DErr e /\ (tree_decode c me (wrap ts (CArray l)) payload dc = Ret (DErr e, me') \/ break_err dc l rest e).
Proof.
  intros (cnt & hb & b & -> & O & Hr & Hk & No). unfold verify_decode, tree_decode, enter_array.
  change (dec_init (hb ++ b ++ rest)) with (mkd (hb ++ b ++ rest) [] []).
  rewrite good_wrap_array, body_wrap_array, tags_wrap_array.
  pose proof (opens_enter ts cnt hb (b ++ rest) O) as E.
  destruct (Nat.leb_spec (length ts) 4) as [L|L].
  2:{ rewrite E. cbn [decode_error_to_terr terr_eqb negb]. intro X. injection X as <- <-. eexists. split; [reflexivity|]. left.
      rewrite item_of_eq, body_wrap_array. unfold few_tags. rewrite tags_wrap_array. cbn [err_of qd_ok negb i_err].
      destruct (Nat.leb_spec (length ts) 4); [lia|]. reflexivity. }
  rewrite E. cbn [mkd d_err decode_error_to_terr terr_eqb negb dec_level].
  match goal with |- context[process_tags me ?x] => lazymatch x with mkd [] [] _ => fail | _ =>
    rewrite (process_tags_eq me x (mkd [] [] (rev ts))) by reflexivity end end.
  destruct (process_tags me (mkd [] [] (rev ts))) as [[err me1]|w]; cbn [obind]; [|discriminate].
  destruct (negb (terr_eqb err T_SUCCESS)); [intro X; injection X as <- <-; eauto|].
  assert (H0 : before cnt (b ++ rest) rest l (mkd (b ++ rest) [LvAgg false cnt cnt (b ++ rest)] (rev ts))).
  { exists cnt, b, (rev ts). auto. }
  match goal with |- context[enter_bstr_wrapped ?x] =>
    change x with (mkd (b ++ rest) [LvAgg false cnt cnt (b ++ rest)] (rev ts)) end.
  set (d := mkd (b ++ rest) [LvAgg false cnt cnt (b ++ rest)] (rev ts)) in *. clearbody d. clear E.
  unfold elems_decode. set (s := b ++ rest) in *.
  destruct (stop_err_bad _ No) as [N1 N2].
  destruct l as [|x0 l]; cbn [nth_error].
  { apply before_nil in H0. pose proof (prot_bad c junk d _ (enter_bstr_break _ _ _ _ H0) N1 N2) as P. unfold after_prot in P.
    destruct (enter_bstr_wrapped d) as [d1 oprot]. set (prot := match oprot with Some u => u | None => junk end) in *.
    destruct (if negb (u_len prot =? 0) then _ else _) as [r1|w]; cbn [obind] in *;
      [|destruct P as [(? & ? & P & _)|(? & ? & P & _)]; discriminate].
    destruct P as [(r2 & p & P3 & P4)|(r2 & p & P3 & P4 & P5)]; injection P3 as -> _.
    - rewrite P4, bad_eqb by apply perr_bad. intro X. injection X as <- _. eexists. split; [reflexivity|]. right. reflexivity.
    - rewrite P4. cbn [terr_eqb negb].
      assert (X : exit_bstr_wrapped (r_d r2) = r_d r2).
      { unfold exit_bstr_wrapped. rewrite P5. destruct (stop_err rest); try contradiction; reflexivity. }
      rewrite X, VerifyDec.parse_failed by (rewrite P5; assumption). cbn [obind r_err].
      rewrite P5, bad_eqb by apply perr_bad. intro Y. injection Y as <- _. eexists. split; [reflexivity|]. right. reflexivity. }
  pose proof (prot_before c junk cnt s rest x0 l d H0) as P. unfold after_prot in P.
  destruct (enter_bstr_wrapped d) as [d1 oprot].
  set (prot := match oprot with Some u => u | None => junk end) in *.
  destruct (bstr_at (Some x0)) as [e|pb] eqn:B0.
  { destruct P as (P1 & P2 & [(r2 & p & P3 & P4)|(r2 & p & P3 & P4 & P5)]);
      destruct (if negb (u_len prot =? 0) then _ else _) as [r'|w]; cbn [obind] in *; try discriminate;
      injection P3 as -> _.
    - rewrite P4, bad_eqb by apply perr_bad. intro X. injection X as <- <-. eauto.
    - rewrite P4. cbn [terr_eqb negb].
      assert (X : exit_bstr_wrapped (r_d r2) = r_d r2).
      { unfold exit_bstr_wrapped. rewrite P5. destruct e; try contradiction; reflexivity. }
      rewrite X, VerifyDec.parse_failed by (rewrite P5; assumption). cbn [obind r_err].
      rewrite P5, bad_eqb by apply perr_bad. intro Y. injection Y as <- <-. eauto. }
  destruct (prot_bucket c pb) as [[[[e1 p1] crit] unk1]|w] eqn:PB;
    destruct (if negb (u_len prot =? 0) then _ else _) as [r1|w']; cbn [obind] in *; try contradiction; [|discriminate].
  destruct P as (-> & <- & <- & <- & <- & P).
  destruct (terr_eqb (r_err r1) T_SUCCESS) eqn:T1; cbn [negb]; [|intro X; injection X as <- <-; eauto].
  apply terr_eqb_eq in T1. specialize (P T1).
  destruct l as [|x1 l]; cbn [nth_error].
  { apply before_nil in P.
    destruct (parse_cose_header_parameters c (exit_bstr_wrapped (r_d r1)) (r_params r1) None (r_unknown r1)) as [r2|w] eqn:E2;
      cbn [obind]; [|discriminate].
    rewrite T1 in PB. pose proof PB as PB'. apply prot_bucket_iff in PB' as (pm & prest & Hpm & _).
    destruct (prot_known _ _ _ _ _ _ _ Hpm PB) as (_ & (_ & Lz & Lt) & Un). rewrite Un in E2.
    pose proof (parse_break _ _ _ _ _ _ pm _ P (VerifyFacts.fit_nonzero 0 _ Lz (Nat.le_0_l _)) Lt E2) as B.
    assert (Bad : r_err r2 <> T_SUCCESS).
    { destruct B as [->|(_ & [[->|[-> _]]|[-> _]])]; [apply perr_bad|..]; discriminate. }
    rewrite (bad_eqb _ Bad). intro X. injection X as <- _. eexists. split; [reflexivity|]. right.
    unfold break_err. cbn [length]. destruct B as [B|(B1 & [B|(B2 & B3)])]; [auto|auto|]. right. split; [exact B1|]. right.
    split; [exact B2|]. exists pb, pm, prest. split; [|auto]. cbn [bstr_at] in B0. destruct (plain_bytes x0) as [y|] eqn:Py; [|discriminate].
    destruct x0; try discriminate. cbn in Py. congruence. }
  pose proof (unprot_before c cnt s rest x1 l _ (r_params r1) (r_unknown r1) P) as U.
  destruct (unprot_bucket c (Some x1) (r_params r1) (r_unknown r1)) as [[[e2 p2] unk2]|w],
    (parse_cose_header_parameters c (exit_bstr_wrapped (r_d r1)) (r_params r1) None (r_unknown r1)) as [r2|w'];
    cbn [obind]; try contradiction; [|discriminate].
  destruct U as (<- & U). destruct (terr_eqb (r_err r2) T_SUCCESS) eqn:T2; cbn [negb]; [|intro X; injection X as <- <-; eauto].
  apply terr_eqb_eq in T2. destruct (U T2) as (<- & <- & H2). clear U P H0 T1 T2.
  assert (Fin : forall l4 d4, before cnt s rest l4 d4 -> exists q, hard q /\ dec_finish (exit_array d4) = q /\
            (rest = [] -> q = QD_NO_MORE_ITEMS) /\ (forall x, get_elem 1 rest = IErr x -> rest <> [] -> q = x) /\ honest rest q).
  { intros l4 d4 H4. exact (exit_before _ _ _ _ _ b _ H4 eq_refl Hr Hk No). }
  assert (Sig : forall d3 l3, before cnt s rest l3 d3 ->
     match l3 with
     | [] => decode_error_to_terr (dec_finish (exit_array (fst (get_byte_string d3)))) = decode_error_to_terr (stop_err rest)
     | x3 :: l4 =>
       match bstr_at (Some x3) with
       | inl e => decode_error_to_terr (dec_finish (exit_array (fst (get_byte_string d3)))) = decode_error_to_terr e /\ e <> QD_SUCCESS
       | inr _ => exists q, hard q /\ decode_error_to_terr (dec_finish (exit_array (fst (get_byte_string d3)))) = decode_error_to_terr q /\
            (rest = [] -> q = QD_NO_MORE_ITEMS) /\ (forall x, get_elem 1 rest = IErr x -> rest <> [] -> q = x) /\ honest rest q
       end
     end).
  { intros d3 l3 H3. destruct l3 as [|x3 l4].
    - apply before_nil in H3. pose proof (get_bytes_break _ _ _ _ H3) as G. rewrite finish_failed by (rewrite G; exact N1). now rewrite G.
    - pose proof (bytes_before _ _ _ _ _ _ H3) as B. destruct (bstr_at (Some x3)).
      + destruct B as [B1 B2]. rewrite finish_failed by (rewrite B1; exact B2). now rewrite B1.
      + destruct B as (d4 & -> & B). cbn [fst]. destruct (Fin _ _ B) as (q & Q1 & -> & Q2). exists q. auto. }
  unfold pay_part. destruct dc.
  - destruct payload as [pl|]; cbn [obind]; [|discriminate].
    destruct l as [|x2 l]; cbn [nth_error].
    { apply before_nil in H2. destruct (null_break _ _ _ _ H2) as (q & it & d' & -> & V). cbn [obind].
      assert (B : match i_val it with VNullV => false | _ => true end = true) by (destruct (i_val it); try reflexivity; contradiction).
      rewrite B. intro X. injection X as <- _. eexists. split; [reflexivity|]. right. reflexivity. }
    destruct (null_before _ _ _ _ _ _ H2) as (q & it & d' & -> & V & K). cbn [obind]. rewrite V.
    destruct (is_null x2); cbn [negb obind]; [|intro X; injection X as <- <-; eauto].
    pose proof (Sig d' l (K eq_refl)) as S3. destruct (get_byte_string d') as [d4 os]. cbn [fst] in S3.
    destruct l as [|x3 l]; cbn [nth_error].
    { rewrite S3, (stop_bad _ No). intro X. injection X as <- _. eexists. split; [reflexivity|]. right. reflexivity. }
    destruct (bstr_at (Some x3)) as [e|sg].
    + destruct S3 as [-> S3]. rewrite bad_eqb by (intro X; now apply terr_success in X). intro X. injection X as <- <-. eauto.
    + destruct S3 as (q3 & Q1 & -> & Q2). rewrite (hard_bad _ Q1). intro X. injection X as <- _. eexists. split; [reflexivity|].
      right. exists q3. auto.
  - destruct l as [|x2 l]; cbn [nth_error].
    { apply before_nil in H2. pose proof (get_bytes_break _ _ _ _ H2) as G. destruct (get_byte_string (r_d r2)) as [d3 o3].
      cbn [fst] in G. cbn [obind]. rewrite get_bytes_failed by (rewrite G; exact N1). rewrite finish_failed by (rewrite G; exact N1).
      rewrite G, (stop_bad _ No). intro X. injection X as <- _. eexists. split; [reflexivity|]. right. reflexivity. }
    pose proof (bytes_before _ _ _ _ _ _ H2) as B. destruct (bstr_at (Some x2)) as [e|pay].
    { destruct (get_byte_string (r_d r2)) as [d3 o3]. cbn [fst] in B. destruct B as [B1 B2]. cbn [obind].
      rewrite get_bytes_failed by (rewrite B1; exact B2). rewrite finish_failed by (rewrite B1; exact B2). rewrite B1.
      rewrite bad_eqb by (intro X; now apply terr_success in X). intro X. injection X as <- <-. eauto. }
    destruct B as (d3 & -> & B). cbn [obind].
    pose proof (Sig d3 l B) as S3. destruct (get_byte_string d3) as [d4 os]. cbn [fst] in S3.
    destruct l as [|x3 l]; cbn [nth_error].
    { rewrite S3, (stop_bad _ No). intro X. injection X as <- _. eexists. split; [reflexivity|]. right. reflexivity. }
    destruct (bstr_at (Some x3)) as [e|sg].
    + destruct S3 as [-> S3]. rewrite bad_eqb by (intro X; now apply terr_success in X). intro X. injection X as <- <-. eauto.
    + destruct S3 as (q3 & Q1 & -> & Q2). rewrite (hard_bad _ Q1). intro X. injection X as <- _. eexists. split; [reflexivity|].
      right. exists q3. auto.
Qed.

(** ** Every message *)

(** The elements that can be read: all of the array, or those before the first that cannot. *)
Lemma elements n : forall cnt bs, (length bs <= n)%nat -> exists l b rest, bs = b ++ rest /\ reads_all 1 l b /\
  ((exists cb r, ended cnt (blen l) b cb /\ bs = cb ++ r) \/ goes_on cnt (blen l) rest /\ no_item 1 rest).
Proof.
  induction n as [n IH] using (well_founded_induction Wf_nat.lt_wf). intros cnt bs Ln.
  assert (C : (cnt = Some 0 \/ cnt = None /\ exists r, bs = xff :: r) \/ goes_on cnt 0 bs).
  { destruct cnt as [m|]; cbn [goes_on].
    - destruct (N.eq_dec m 0) as [->|]; [auto|right; lia].
    - destruct bs as [|b bs]; [right; discriminate|].
      destruct (N.eqb_spec (Byte.to_N b) 255) as [E|E].
      + left. right. split; [reflexivity|]. exists bs. f_equal. now apply to_N_inj.
      + right. intros r X. injection X as -> _. now apply E. }
  destruct C as [C|C].
  { exists [], [], bs. split; [reflexivity|]. split; [constructor|]. left.
    destruct C as [->|(-> & r & ->)]; [exists [], bs|exists [xff], r]; (split; [|reflexivity]); [left|right]; auto. }
  destruct (starts_item 0 bs) as [(x & bx & r & -> & R)|No].
  2:{ exists [], [], bs. split; [reflexivity|]. split; [constructor|]. right. split; [exact C|]. intros x bx r E. exact (No x bx r E). }
  assert (bx <> []) by (destruct (reads_get_item _ _ _ R) as (hb & ? & ? & -> & Hh & _); destruct hb; [contradiction|discriminate]).
  assert (Lr : (length r < n)%nat) by (rewrite app_length in Ln; destruct bx; [contradiction|cbn [length] in Ln; lia]).
  destruct (IH (length r) Lr (dec_count cnt) r (le_n _)) as (l & b & rest & -> & Rl & E).
  exists (x :: l), (bx ++ b), rest. split; [apply app_assoc|]. split; [now constructor|]. rewrite blen_cons.
  destruct E as [(cb & r & E & E2)|(E & No)].
  - left. exists (bx ++ cb), r. rewrite E2, app_assoc. split; [|reflexivity].
    destruct E as [(E & ->)|(E & ->)]; [left|right; destruct cnt; [discriminate|]; split; [reflexivity|]; now rewrite app_assoc].
    destruct cnt as [m|]; [|discriminate]. cbn [dec_count goes_on] in *. split; [f_equal; injection E; lia|reflexivity].
  - right. split; [|exact No]. destruct cnt as [m|]; cbn [dec_count goes_on] in *; [lia|exact E].
Qed.

Lemma opens_elem ts cnt hb r : opens 4 ts cnt hb -> get_elem 0 (hb ++ r) = IItem (agg_item 4 ts cnt [] false) r.
Proof.
  intro O. unfold get_elem. rewrite (opens_get 4 ts cnt hb r (or_introl eq_refl) O), agg_item_eq. cbn [i_val N.eqb Pos.eqb].
  assert (D : depth_ok 0 (VAgg false cnt) = true) by (unfold depth_ok; destruct cnt as [n|]; [cbn; destruct (n =? 0)|]; reflexivity).
  now rewrite D.
Qed.

Theorem every_message msg :
  (exists t b tail, msg = b ++ tail /\ reads 0 t b) \/ (exists ts l rest, breaks_off msg ts l rest) \/ no_array msg.
Proof.
  destruct (get_elem 0 msg) as [e|it r] eqn:G.
  { right. right. split.
    - intros x bx r -> R. destruct (reads_elem 0 x bx r R) as (? & ? & ? & _ & _ & E). congruence.
    - intros ts cnt hb r -> O. rewrite (opens_elem _ _ _ r O) in G. discriminate. }
  destruct (skip 0 (push_val (i_val it) []) r) as [e|r'] eqn:K.
  2:{ left. destruct (get_elem_inv _ _ _ _ G) as (hb & -> & Hs). apply skip_inv in K as (b1 & -> & K).
      destruct (starts_complete _ _ _ _ _ _ Hs K eq_refl) as (x & cnt & cv & b2 & -> & _ & _ & Hr & H2). inversion H2; subst.
      exists x, (hb ++ cv), r'. rewrite app_nil_r, app_assoc. auto. }
  assert (No : no_item 0 msg).
  { intros x bx r0 -> R. destruct (reads_elem 0 x bx r0 R) as (? & cb & cnt & _ & C & E). rewrite E in G. injection G as <- <-.
    rewrite item_of_val, (skip_content 0 x cnt cb 0 [] r0 C eq_refl) in K. rewrite skip_nil in K. discriminate. }
  right. destruct (no_item_agg _ _ _ _ No G) as (m & ts & cnt & hb & -> & O & ->). destruct m.
  { right. split; [exact No|]. intros ts' cnt' hb' r1 E O'. rewrite E, (opens_elem _ _ _ r1 O') in G. rewrite !agg_item_eq in G.
    discriminate. }
  left. destruct (elements (length r) cnt r (le_n _)) as (l & b & rest & -> & Rl & E).
  destruct E as [(cb & r & E & E2)|(E & No1)].
  - exfalso. rewrite E2 in No. apply (No (wrap ts (CArray l)) (hb ++ cb) r (app_assoc _ _ _)). eapply opens_agg_at; eauto.
    unfold depth_ok; destruct cnt as [n|]; [cbn; destruct (n =? 0)|]; reflexivity.
  - exists ts, l, rest, cnt, hb, b. auto.
Qed.

(** ** Verification *)

Lemma opens_indef ts cnt hb : opens 4 ts cnt hb -> exists hb', opens 4 ts None hb'.
Proof.
  induction 1 as [n h _ _| |t ts cnt h b H _ (hb' & IH)]; [eexists; constructor..|]. eexists. constructor; eassumption.
Qed.

Lemma closed msg ts l rest : breaks_off msg ts l rest -> exists b, reads 0 (wrap ts (CArray l)) b.
Proof.
  intros (cnt & hb & b & _ & O & R & _). destruct (opens_indef _ _ _ O) as (hb' & O'). exists (hb' ++ b ++ [xff]).
  eapply opens_agg_at; [exact O'|reflexivity| |exact R]. right. auto.
Qed.

Lemma break_err_code dc l rest e : no_item 1 rest -> break_err dc l rest e -> break_code dc l rest e /\ e <> T_SUCCESS.
Proof.
  intros No. unfold break_err, break_code. pose proof (stop_err_code _ No) as S0.
  assert (N : decode_error_to_terr (stop_err rest) <> T_SUCCESS) by (intro X; apply terr_success in X; now apply stop_err_bad in X).
  destruct (length l) as [|[|[|[|n]]]].
  - intros ->. split; [apply perr_malformed, stop_err_honest|apply perr_bad].
  - intros [->|(_ & [H|(-> & H)])].
    + split; [left; apply perr_malformed, stop_err_honest|apply perr_bad].
    + split; [auto|]. intros ->. destruct H as [H|[H _]]; discriminate.
    + split; [auto|discriminate].
  - intros ->. destruct dc; [split; [reflexivity|discriminate]|auto].
  - intros ->. auto.
  - intros (q & H & -> & _ & _ & Hq). split; [now apply hard_code|]. intro X. apply terr_success in X. destruct H as [H _]. now apply H.
Qed.

Theorem broken_error c cr junk me msg ts l rest aad payload want dc log w :
  length (v_tags me) = 4%nat -> breaks_off msg ts l rest ->
  verify_internal c cr junk me msg aad payload want dc = (log, Ret w) ->
  log = [] /\ w_err w <> T_SUCCESS /\
  (item_fault c (v_flags me) dc (wrap ts (CArray l)) (w_err w) \/ break_code dc l rest (w_err w)).
Proof.
  intros Hv Hb H. unfold verify_internal in H.
  apply mbind_ret_inv in H as (l1 & [r me1] & l2 & H1 & H2 & ->). unfold mlift in H1. injection H1 as <- H1.
  destruct (broken_decode _ _ _ _ _ _ _ _ _ _ _ Hb H1) as (e & -> & E). injection H2 as <- <-. cbn [w_err app].
  split; [reflexivity|]. split; [intros ->; exact (decode_no_success _ _ _ _ _ _ _ H1)|].
  destruct E as [E|E].
  - left. destruct (closed _ _ _ _ Hb) as (b & R). refine (item_error c junk me b _ payload dc e me1 R Hv _).
    now rewrite (decode_reads _ _ _ _ _ _ _ R).
  - right. destruct Hb as (? & ? & ? & _ & _ & _ & _ & No). now apply break_err_code.
Qed.

Lemma no_array_enter msg : no_array msg -> exists q, d_err (enter_agg false (mkd msg [] [])) = q /\
  (hard q /\ honest msg q \/ q = QD_TOO_MANY_TAGS /\ many_tags msg).
Proof.
  intros [No Na].
  assert (Hq : honest msg (d_err (enter_agg false (mkd msg [] [])))) by (intros w r -> Hw; now apply enter_wide).
  eexists. split; [reflexivity|].
  cut (hard (d_err (enter_agg false (mkd msg [] []))) \/ d_err (enter_agg false (mkd msg [] [])) = QD_TOO_MANY_TAGS /\ many_tags msg); [tauto|].
  clear Hq. unfold enter_agg. cbn [mkd d_err qd_ok negb].
  change {| d_err := QD_SUCCESS; d_in := msg; d_levels := []; d_tags := [] |} with (mkd msg [] []).
  rewrite get_next_eq by reflexivity. unfold at_end. cbn [mkd d_in d_levels length].
  destruct msg as [|b0 r0]; [left; repeat split; discriminate|].
  remember (b0 :: r0) as msg eqn:X. clear X b0 r0.
  destruct (get_elem 0 msg) as [e|it r] eqn:G.
  { apply get_elem_hard in G as Gh. left. destruct e; try exact Gh. now destruct Gh. }
  destruct (no_item_agg _ _ _ _ No G) as (m & ts & cnt & hb & -> & O & ->). destruct m; [|now apply (Na ts cnt hb r) in O].
  rewrite agg_item_eq. unfold got. cbn [i_err i_val N.eqb Pos.eqb]. destruct (Nat.leb_spec (length ts) 4); cbn [qd_ok negb].
  - left. repeat split; discriminate.
  - right. split; [reflexivity|]. exists 5, ts, cnt, hb, r. auto.
Qed.

Theorem no_array_error c cr junk me msg aad payload want dc log w : no_array msg ->
  verify_internal c cr junk me msg aad payload want dc = (log, Ret w) ->
  log = [] /\ no_item_code msg (w_err w).
Proof.
  intros Na H. unfold verify_internal in H.
  apply mbind_ret_inv in H as (l1 & [r me1] & l2 & H1 & H2 & ->). unfold mlift in H1. injection H1 as <- H1.
  destruct (no_array_enter _ Na) as (q & E & Q). unfold verify_decode, enter_array in H1.
  change (dec_init msg) with (mkd msg [] []) in H1. rewrite E in H1.
  assert (Qs : decode_error_to_terr q <> T_SUCCESS).
  { intro X. apply terr_success in X. subst q. destruct Q as [[[Q _] _]|[Q _]]; [contradiction|congruence]. }
  rewrite (bad_eqb _ Qs) in H1. injection H1 as <- <-. injection H2 as <- <-. cbn [w_err app]. split; [reflexivity|].
  destruct Q as [[Q1 Q2]|[-> Q]]; [left; now apply hard_code|right; auto].
Qed.

(** A message without data item is never called one. *)
Theorem cut_decode c cr junk me msg aad payload want dc log w :
  (forall t b tail, msg = b ++ tail -> ~ reads 0 t b) ->
  length (v_tags me) = 4%nat ->
  verify_internal c cr junk me msg aad payload want dc = (log, Ret w) -> log = [] /\ w_err w <> T_SUCCESS.
Proof.
  intros No Hv H. destruct (every_message msg) as [(t & b & tail & E & R)|[(ts & l & rest & B)|Na]].
  - now apply (No t b tail) in R.
  - destruct (broken_error _ _ _ _ _ _ _ _ _ _ _ _ _ _ Hv B H) as (H1 & H2 & _). auto.
  - destruct (no_array_error _ _ _ _ _ _ _ _ _ _ _ Na H) as (H1 & H2). split; [exact H1|]. intro X. rewrite X in H2.
    destruct H2 as [[H2|[H2 _]]|[H2 _]]; discriminate.
Qed.

(** ** Cut between two elements *)

Theorem cut_error c cr junk me msg ts l aad payload want dc log w :
  length (v_tags me) = 4%nat -> breaks_off msg ts l [] ->
  verify_internal c cr junk me msg aad payload want dc = (log, Ret w) ->
  item_fault c (v_flags me) dc (wrap ts (CArray l)) (w_err w) \/
  w_err w = match length l with
            | O | 1%nat => ERR_PARAMETER_CBOR
            | 2%nat => if dc then ERR_CBOR_FORMATTING else ERR_SIGN1_FORMAT
            | _ => ERR_SIGN1_FORMAT
            end.
Proof.
  intros Hv Hb H. unfold verify_internal in H.
  apply mbind_ret_inv in H as (l1 & [r me1] & l2 & H1 & H2 & ->). unfold mlift in H1. injection H1 as <- H1.
  destruct (broken_decode _ _ _ _ _ _ _ _ _ _ _ Hb H1) as (e & -> & E). injection H2 as <- <-. cbn [w_err app].
  destruct E as [E|E].
  - left. destruct (closed _ _ _ _ Hb) as (b & R). refine (item_error c junk me b _ payload dc e me1 R Hv _).
    now rewrite (decode_reads _ _ _ _ _ _ _ R).
  - right. unfold break_err in E. change (stop_err []) with QD_NO_MORE_ITEMS in E. destruct (length l) as [|[|[|[|n]]]].
    + exact E.
    + destruct E as [E|((ts' & cnt & hb & r' & E & O) & _)]; [exact E|]. exfalso. symmetry in E. apply app_eq_nil in E as [-> _].
      now apply opens_ne in O.
    + exact E.
    + exact E.
    + destruct E as (q & _ & -> & Q & _). now rewrite (Q eq_refl).
Qed.

(** Whether an item starts can be computed. *)
Lemma no_item_computed d rest :
  match get_elem d rest with
  | IErr _ => True
  | IItem it r => match skip d (push_val (i_val it) []) r with inl _ => True | inr _ => False end
  end -> no_item d rest.
Proof.
  intros H x bx r -> R. destruct (reads_elem d x bx r R) as (? & cb & cnt & _ & C & E). rewrite E, item_of_val in H.
  rewrite (skip_content d x cnt cb d [] r C) in H by (cbn [length]; lia). rewrite skip_nil in H. exact H.
Qed.

(** ** Well-formed bytes are not called malformed *)

Lemma reads_opens t : forall d b p l, reads d t b -> body t = CArray (CBytes p :: l) ->
  exists ts cnt hb h r, b = hb ++ h ++ p ++ r /\ opens 4 ts cnt hb /\ is_head 2 (blen p) h.
Proof.
  induction t as [n|n|s|s|l0|l0|n c IH|n|s|s]; intros d b p l R E; cbn [body] in E; try discriminate.
  - injection E as ->. inversion R as [| | | |? ? hd bs Hh Hm _ Hl|? ? bs _ Hl| | | | | | |]; subst;
      inversion Hl as [|? ? ? bx bs' Hx Hl']; subst; inversion Hx as [| |? ? h Hp| | | | | | | | | |]; subst.
    + exists [], (Some (blen (CBytes p :: l))), hd, h, bs'. rewrite <- !app_assoc. repeat split; auto. now constructor.
    + exists [], None, [initial 4 31], h, (bs' ++ [xff]). cbn [app]. rewrite <- !app_assoc. repeat split; auto. constructor.
  - inversion R as [| | | | | | | |? ? ? hd b' Hh Hc| | | |]; subst. destruct (IH _ _ _ _ Hc E) as (ts & cnt & hb & h & r & -> & O & Hp).
    exists (n :: ts), cnt, (hd ++ hb), h, r. rewrite <- !app_assoc. repeat split; auto. now constructor.
Qed.

(** The elements before the break are well-formed, and something well-formed starts there. *)
Lemma agree_break w r1 ts l rest : well_formed w -> breaks_off (w ++ r1) ts l rest ->
  Forall all_formed l /\ exists w' r', rest = w' ++ r' /\ well_formed w'.
Proof.
  intros Hw (cnt & hb & b & E & O & R & Hk & _). pose proof (wide_elem 0 w r1 Hw) as G. rewrite E, (opens_elem ts cnt hb (b ++ rest) O) in G.
  rewrite agg_item_eq in G. cbn [i_val N.eqb Pos.eqb] in G. destruct G as [_ (b' & Eb & W)].
  destruct (agree_all (fun x _ => all_formed x) 1 l b) with (cnt := cnt) (b' := b') (r1 := r1) (r2 := rest) as (F & b2 & -> & E2 & W2); auto.
  - intros x bx w' _ Rx _ Hw' ->. exact (agree_formed _ _ _ _ bx [] [] (le_n _) Rx Hw' eq_refl).
  - destruct cnt; cbn [goes_on] in Hk; [lia|exact I].
  - split; [apply Forall_forall; intros x Ix; rewrite Forall_forall in F; now destruct (F x Ix)|].
    destruct (wlevel_next _ _ _ W2) as [Z|[(Z & ->)|(w' & b3 & -> & _ & _ & Hw')]].
    + exfalso. destruct cnt as [n|]; [|discriminate]. cbn [minus goes_on] in *. injection Z as Z. lia.
    + exfalso. destruct cnt as [n|]; [discriminate|]. cbn [goes_on app] in *. now apply (Hk r1).
    + exists w', (b3 ++ r1). rewrite app_assoc. auto.
Qed.

Theorem wide_error c cr junk me msg aad payload want dc w ad gv :
  length (v_tags me) = 4%nat -> holds aad ad -> detached_arg dc payload gv -> well_formed msg ->
  (forall ts cnt hb h b r, msg = hb ++ h ++ b ++ r -> opens 4 ts cnt hb -> is_head 2 (blen b) h -> prot_formed b) ->
  verify_internal c cr junk me msg aad payload want dc = ([], Ret w) -> w_err w <> ERR_CBOR_NOT_WELL_FORMED.
Proof.
  intros Hv HA HG Hw P H. destruct (every_message msg) as [(t & b & tail & E & R)|[(ts & l & rest & B)|Na]].
  - assert (E0 : msg ++ [] = b ++ tail) by (rewrite app_nil_r; exact E).
    destruct (agree_bytes _ _ _ _ _ _ R Hw E0) as [-> _].
    eapply (well_formed_error c cr junk me b t aad payload want dc w ad gv); eauto.
    + exact (agree_formed _ _ _ _ b [] [] (le_n _) R Hw eq_refl).
    + intros p l Et. destruct (reads_opens _ _ _ _ _ R Et) as (ts & cnt & hb & h & r & E1 & O & Hp). eapply P; eauto.
  - destruct (broken_error _ _ _ _ _ _ _ _ _ _ _ _ _ _ Hv B H) as (_ & _ & F). intro X. rewrite X in F.
    pose proof B as B'. rewrite <- (app_nil_r msg) in B'. destruct (agree_break _ _ _ _ _ Hw B') as (Fl & w' & r' & Er & Hw').
    destruct F as [F|F].
    + revert F. apply formed_no_fault.
      * intros j J. apply part_tags in J. rewrite body_wrap_array in J. inversion J as [| |y l' Iy Py| |]; subst.
        rewrite Forall_forall in Fl. exact (Fl y Iy _ Py).
      * rewrite body_wrap_array. intros p l' El. injection El as ->. destruct B as (cnt & hb & bb & -> & O & Rl & _).
        inversion Rl as [|? ? ? bx bs' Hx Hl']; subst; inversion Hx as [| |? ? h Hp| | | | | | | | | |]; subst.
        eapply (P ts cnt hb h p); [now rewrite <- !app_assoc|exact O|exact Hp].
    + unfold break_code, no_item_code in F. destruct (length l) as [|[|[|[|n]]]]; try destruct dc;
        repeat match type of F with _ \/ _ => destruct F as [F|F] end; try discriminate F; try (destruct F as [F _]; discriminate F);
        destruct F as [_ F]; exact (F w' r' Er Hw').
  - destruct (no_array_error _ _ _ _ _ _ _ _ _ _ _ Na H) as (_ & F). intro X. rewrite X in F.
    destruct F as [[F|[_ F]]|[F _]]; try discriminate. exact (F msg [] (eq_sym (app_nil_r msg)) Hw).
Qed.
