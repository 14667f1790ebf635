(** Heads of arrays and maps, and the labels of a map that is not complete. *)
From Verif Require Import Base Const QEnc QDec Spec DecSpec BaseFacts DecFacts DecSkip DecCtx Params ParamFacts DecSim
  Crypto Verify VerifyDec BucketFacts LabelFacts VerifySafe VerifyFacts VerifySpec PassSpec ErrorSpec ErrorFacts WideSpec WideFacts ItemSpec.
From Coq Require Import Lia ZifyBool ZifyNat ZifyN.
Ltac Zify.zify_post_hook ::= Z.div_mod_to_equations.
Open Scope N_scope. Open Scope list_scope.
Local Open Scope mon_scope.

(** ** Heads of arrays and maps *)

Definition agg_item (mt : N) (ts : list N) (cnt : option N) (tags : list N) (tm : bool) : item :=
  with_tags (fst (acc_tags ts tags tm)) (snd (acc_tags ts tags tm)) (good_item (VAgg (mt =? 5) cnt)).

Lemma opens_ne mt ts cnt hb : opens mt ts cnt hb -> hb <> [].
Proof. induction 1 as [n h H|  |t ts cnt h b H _ IH]; [destruct H; discriminate|discriminate|]. destruct H; discriminate. Qed.

Lemma opens_get_f mt ts cnt hb : mt = 4 \/ mt = 5 -> opens mt ts cnt hb -> forall fuel tags tm r, (length hb < fuel)%nat ->
  get_item_f fuel tags tm (hb ++ r) = IItem (agg_item mt ts cnt tags tm) r.
Proof.
  intros Hm. induction 1 as [n h H Hn| |t ts cnt h b H _ IH]; intros fuel tags tm r Hf; (destruct fuel as [|fuel]; [lia|]).
  - destruct (decode_head_of mt n h r H) as (ai & Ha & E); [lia|].
    erewrite get_item_f_atom; [reflexivity|exact E|lia|]. unfold dec_atom.
    destruct (N.eqb_spec ai 31); [lia|]. change MAX_DEC_ITEMS with max_items.
    destruct (N.ltb_spec max_items n); [lia|]. destruct Hm as [->| ->]; reflexivity.
  - erewrite get_item_f_atom with (mt := mt) (ai := 31) (n := 31) (r := r); [reflexivity| |lia|].
    + cbn [app decode_head]. rewrite initial_val by lia. destruct Hm as [->| ->]; reflexivity.
    + destruct Hm as [->| ->]; reflexivity.
  - rewrite <- app_assoc. destruct (decode_head_of 6 t h (b ++ r) H) as (ai & Ha & E); [lia|].
    cbn [get_item_f]. rewrite E. cbn [N.eqb Pos.eqb]. destruct (N.eqb_spec ai 31); [lia|].
    rewrite app_length in Hf. assert (h <> []) by (destruct H; discriminate). destruct h; [contradiction|]. cbn [length] in Hf.
    unfold agg_item. cbn [acc_tags]. destruct (Nat.leb MAX_TAGS_PER_ITEM (length tags)); apply IH; lia.
Qed.

Lemma opens_get mt ts cnt hb r : mt = 4 \/ mt = 5 -> opens mt ts cnt hb -> get_item (hb ++ r) = IItem (agg_item mt ts cnt [] false) r.
Proof. intros Hm H. unfold get_item. apply opens_get_f; auto. rewrite app_length. lia. Qed.

Lemma get_f_opens fuel : forall tags tm bs it r m cnt, get_item_f fuel tags tm bs = IItem it r -> i_val it = VAgg m cnt ->
  exists ts hb, bs = hb ++ r /\ opens (if m then 5 else 4) ts cnt hb /\ it = agg_item (if m then 5 else 4) ts cnt tags tm.
Proof.
  induction fuel as [|fuel IH]; intros tags tm bs it r m cnt; cbn [get_item_f]; [discriminate|].
  destruct (decode_head bs) as [e r0|mt ai n r0] eqn:E.
  { destruct (is_unrecoverable e); [discriminate|]. intro X. injection X as <- _. discriminate. }
  pose proof (decode_head_inv _ _ _ _ _ E) as (Hmt & D).
  destruct (N.eqb_spec mt 6) as [->|N6].
  { destruct (N.eqb_spec ai 31) as [->|Na]; [intro X; injection X as <- _; discriminate|].
    destruct D as [(D & _)|(Ha & a & -> & _ & Hh & _)]; [congruence|].
    intros X V.
    assert (Y : exists ts hb, r0 = hb ++ r /\ opens (if m then 5 else 4) ts cnt hb /\ it = agg_item (if m then 5 else 4) (n :: ts) cnt tags tm).
    { unfold agg_item. cbn [acc_tags]. destruct (Nat.leb MAX_TAGS_PER_ITEM (length tags)).
      - destruct (IH _ _ _ _ _ _ _ X V) as (ts & hb & A & B & C). exists ts, hb. auto.
      - destruct (IH _ _ _ _ _ _ _ X V) as (ts & hb & A & B & C). exists ts, hb. auto. }
    destruct Y as (ts & hb & -> & B & C). exists (n :: ts), ((initial 6 ai :: a) ++ hb).
    split; [now rewrite <- app_assoc|]. split; [now constructor|exact C]. }
  destruct (dec_atom mt ai n r0) as [e|it' r'] eqn:A; [discriminate|]. intros X V. injection X as <- <-.
  rewrite with_tags_val in V.
  assert (Y : (mt = 4 \/ mt = 5) /\ mt = (if m then 5 else 4) /\ r' = r0 /\ it' = good_item (VAgg (mt =? 5) cnt) /\
              (ai = 31 /\ cnt = None \/ ai <> 31 /\ cnt = Some n /\ n <= max_items)).
  { revert A V. unfold dec_atom.
    destruct (N.eqb_spec mt 0); [destruct (ai =? 31); [|destruct (n <? INT64_LIMIT)]; intro A; injection A as <- _; discriminate|].
    destruct (N.eqb_spec mt 1); [destruct (ai =? 31); [|destruct (n <? INT64_LIMIT)]; intro A; injection A as <- _; discriminate|].
    unfold dec_string.
    destruct (N.eqb_spec mt 2); [destruct (ai =? 31); [discriminate|]; destruct (blen r0 <? n); [discriminate|]; intro A; injection A as <- _; discriminate|].
    destruct (N.eqb_spec mt 3); [destruct (ai =? 31); [discriminate|]; destruct (blen r0 <? n); [discriminate|]; intro A; injection A as <- _; discriminate|].
    destruct ((mt =? 4) || (mt =? 5)) eqn:B.
    - assert (B' : mt = 4 \/ mt = 5) by lia. destruct (N.eqb_spec ai 31).
      + intro A. injection A as <- <-. cbn. intro V. injection V as <- <-. repeat split; auto. destruct B' as [->| ->]; reflexivity.
      + change MAX_DEC_ITEMS with max_items. destruct (N.ltb_spec max_items n); [discriminate|].
        intro A. injection A as <- <-. cbn. intro V. injection V as <- <-. repeat split; auto. destruct B' as [->| ->]; reflexivity.
    - unfold dec_type7. destruct (ai =? 31); [intro A; injection A as <- _; discriminate|].
      destruct (ai =? 22); [intro A; injection A as <- _; discriminate|].
      destruct (_ && _); intro A; injection A as <- _; discriminate. }
  destruct Y as (_ & -> & -> & -> & C). 
  destruct D as [(-> & -> & ->)|(Ha & a & -> & _ & Hh & _)].
  - destruct C as [(_ & ->)|(C & _)]; [|now destruct C]. exists [], [initial (if m then 5 else 4) 31]. repeat split. constructor.
  - destruct C as [(-> & _)|(_ & -> & Hn)]; [lia|]. exists [], (initial (if m then 5 else 4) ai :: a). repeat split. now constructor.
Qed.

Lemma get_opens bs it r m cnt : get_item bs = IItem it r -> i_val it = VAgg m cnt ->
  exists ts hb, bs = hb ++ r /\ opens (if m then 5 else 4) ts cnt hb /\ it = agg_item (if m then 5 else 4) ts cnt [] false.
Proof. apply get_f_opens. Qed.

Lemma enter_opens (m : bool) L bs tg : elem_level L = true -> d_err (enter_agg m (mkd bs L tg)) = QD_SUCCESS ->
  exists ts cnt hb r, bs = hb ++ r /\ opens (if m then 5 else 4) ts cnt hb /\
    enter_agg m (mkd bs L tg) = mkd r (LvAgg m cnt cnt r :: dec_level L) (rev ts).
Proof.
  intros HL Q. destruct (enter_agg_inv m L bs tg HL Q) as (hb0 & ts0 & cnt0 & r0 & E0 & _ & _ & _ & _ & _ & E).
  rewrite E. unfold enter_agg in Q, E. cbn [mkd d_err qd_ok negb] in Q, E.
  change {| d_err := QD_SUCCESS; d_in := bs; d_levels := L; d_tags := tg |} with (mkd bs L tg) in Q, E.
  rewrite get_next_eq in Q, E by exact HL. destruct (at_end (mkd bs L tg)); [discriminate|].
  destruct (get_elem (length L) bs) as [e|it r] eqn:G.
  { exfalso. apply get_elem_err in G as [G1 _]. destruct e; try contradiction; discriminate. }
  destruct (qd_ok (i_err it)) eqn:Qi; cbn [negb] in Q, E.
  2:{ exfalso. cbn in Q. rewrite Q in Qi. discriminate. }
  unfold got in Q, E. rewrite Qi in Q, E. destruct (i_val it) as [ | | | |m' c'| | | | ] eqn:V; try discriminate Q.
  destruct (Bool.eqb m' m) eqn:B; [|discriminate Q]. apply Bool.eqb_prop in B. subst m'.
  unfold get_elem in G. destruct (get_item bs) as [e|it' r'] eqn:G'; [discriminate|].
  assert (X : it' = it /\ r' = r).
  { revert G. destruct (i_val it'); try discriminate; (destruct (depth_ok _ _); [|discriminate]; intro H; injection H as -> ->; auto). }
  destruct X as [-> ->]. destruct (get_opens _ _ _ _ _ G' V) as (ts & hb & E1 & E2 & E3).
  apply (f_equal d_in) in E as Ei. apply (f_equal d_levels) in E as El. apply (f_equal d_tags) in E as Et. cbn in Ei, El, Et.
  injection El as El1 _ _. subst r0 cnt0. exists ts, c', hb, r. repeat split; auto.
  rewrite <- Et, E3. unfold mkd. f_equal. unfold agg_item. rewrite acc_tags_top. cbn [fst snd].
  assert (L4 : (length ts <= 4)%nat).
  { destruct (Nat.leb_spec (length ts) 4) as [L4|L4]; [exact L4|exfalso]. rewrite E3 in Qi. unfold agg_item in Qi.
    rewrite acc_tags_top in Qi. cbn [fst snd] in Qi. unfold with_tags in Qi. cbn [good_item i_err qd_ok negb] in Qi.
    destruct (Nat.ltb_spec 4 (length ts)); [discriminate|lia]. }
  unfold with_tags. cbn [good_item i_err qd_ok negb i_tags]. now rewrite firstn_all2.
Qed.

(** ** Labels *)

Definition int_lbl (l : label) : bool :=
  match l with LblInt z => negb (existsb (fun y => (y =? z)%Z) [1; 2; 3; 4; 5; 6]%Z) | _ => false end.
Definition text_lbl (l : label) : bool := match l with LblText _ => true | _ => false end.
Definition count (f : label -> bool) (es : list entry) : nat := length (filter f (map en_label es)).

Lemma count_cons f e es : count f (e :: es) = ((if f (en_label e) then 1 else 0) + count f es)%nat.
Proof. unfold count. cbn [map filter]. destruct (f (en_label e)); reflexivity. Qed.

Lemma free_label ss e : map sl_label ss = map sl_label header_slots -> fill_slots ss e = None ->
  label_is LABEL_CRIT (en_label e) = false -> forall z, en_label e = LblInt z -> int_lbl (LblInt z) = true.
Proof.
  intros Ls F Cr z Ez. apply fill_slots_none in F. rewrite (slotted_labels _ _ _ Ls) in F.
  unfold slotted, header_slots in F. cbn [existsb mk_slot sl_label] in F. rewrite Ez in *. unfold label_is in *.
  unfold LABEL_ALG, LABEL_CRIT, LABEL_CONTENT_TYPE, LABEL_KID, LABEL_IV, LABEL_PARTIAL_IV in *.
  unfold int_lbl. cbn [existsb]. clear - F Cr. lia.
Qed.

Lemma callback_errors es : forall ss zs ts x0 ss' st', map sl_label ss = map sl_label header_slots ->
  Forall (fun z => (z <> 0)%Z) zs -> (length zs <= 10)%nat -> (length ts <= 10)%nat ->
  Forall (fun e => i_err (en_item e) <> QD_CALLBACK_FAIL) es ->
  search_entries header_parameter_callback ss (ll_of zs ts, x0) es = Ret (ss', st', QD_CALLBACK_FAIL) ->
  snd st' = ERR_PARAMETER_CBOR \/
  snd st' = ERR_TOO_MANY_PARAMETERS /\ exists es1 e es2, es = es1 ++ e :: es2 /\
    ((10 < length zs + count int_lbl (es1 ++ [e]))%nat \/ (10 < length ts + count text_lbl (es1 ++ [e]))%nat).
Proof.
  induction es as [|e es IH]; intros ss zs ts x0 ss' st' Ls Hz Lz Lt F; cbn [search_entries]; [discriminate|].
  inversion F as [|? ? Fe Fr]; subst.
  assert (FS : fill_slots ss e <> Some (inl QD_CALLBACK_FAIL)).
  { clear - Fe. induction ss as [|s r IH]; cbn [fill_slots]; [discriminate|]. destruct (label_is _ _).
    - destruct (sl_found s); [discriminate|]. destruct (negb _); [congruence|].
      destruct (type_matches _ _); discriminate.
    - destruct (fill_slots r e) as [[x|r']|]; congruence. }
  assert (Next : forall ss1 zs1 ts1 x1, map sl_label ss1 = map sl_label header_slots ->
    Forall (fun z => (z <> 0)%Z) zs1 -> (length zs1 <= 10)%nat -> (length ts1 <= 10)%nat ->
    (length zs1 <= length zs + (if int_lbl (en_label e) then 1 else 0))%nat ->
    (length ts1 <= length ts + (if text_lbl (en_label e) then 1 else 0))%nat ->
    search_entries header_parameter_callback ss1 (ll_of zs1 ts1, x1) es = Ret (ss', st', QD_CALLBACK_FAIL) ->
    snd st' = ERR_PARAMETER_CBOR \/
    snd st' = ERR_TOO_MANY_PARAMETERS /\ exists es1 e0 es2, e :: es = es1 ++ e0 :: es2 /\
      ((10 < length zs + count int_lbl (es1 ++ [e0]))%nat \/ (10 < length ts + count text_lbl (es1 ++ [e0]))%nat)).
  { intros ss1 zs1 ts1 x1 A1 A2 A3 A4 A5 A6 A7. destruct (IH _ _ _ _ _ _ A1 A2 A3 A4 Fr A7) as [R|(R & es1 & e0 & es2 & -> & C)]; [auto|].
    right. split; [exact R|]. exists (e :: es1), e0, es2. split; [reflexivity|]. cbn [app]. rewrite !count_cons. lia. }
  destruct (fill_slots ss e) as [[x|r]|] eqn:Fl; [congruence| |].
  { intro H. refine (Next _ _ _ _ _ Hz Lz Lt _ _ H); [rewrite <- Ls; now apply fill_slots_labels in Fl|lia|lia]. }
  unfold header_parameter_callback at 1. cbn [fst].
  destruct (label_is LABEL_CRIT (en_label e)) eqn:Cr.
  { cbn [obind]. intro H. refine (Next _ _ _ _ Ls Hz Lz Lt _ _ H); lia. }
  pose proof (free_label ss e Ls Fl Cr) as Free.
  destruct (en_label e) as [z|n|s|s] eqn:El.
  - specialize (Free z eq_refl). rewrite add_int by auto. destruct (Nat.leb_spec 10 (length zs)) as [B|B]; cbn [obind terr_eqb].
    + intro H. injection H as <- <-. right. split; [reflexivity|]. exists [], e, es. split; [reflexivity|]. left.
      cbn [app]. rewrite count_cons, El, Free. lia.
    + intro H. rewrite Free in Next.
      assert (X : (length (nonzero [z]) <= 1)%nat) by (unfold nonzero; cbn [filter]; destruct (negb _); cbn; lia).
      refine (Next _ _ _ _ Ls _ _ Lt _ _ H); try (rewrite app_length; lia); [|lia].
      apply Forall_app. split; [exact Hz|]. unfold nonzero. apply Forall_forall. intros y I0. apply filter_In in I0 as [_ I0]. lia.
  - cbn [add_label_to_list obind terr_eqb]. intro H. injection H as <- <-. auto.
  - rewrite add_text by auto. destruct (Nat.leb_spec 10 (length ts)) as [B|B]; cbn [obind terr_eqb].
    + intro H. injection H as <- <-. right. split; [reflexivity|]. exists [], e, es. split; [reflexivity|]. right.
      cbn [app]. rewrite count_cons, El. cbn [text_lbl]. lia.
    + intro H. cbn [text_lbl] in Next.
      refine (Next _ _ _ _ Ls Hz Lz _ _ _ H); rewrite ?app_length; cbn [length]; lia.
  - cbn [add_label_to_list obind terr_eqb]. intro H. injection H as <- <-. auto.
Qed.

(** The labels a search meets are those of the map. *)
Lemma scan_prefix d n : forall c bs es fin, (length bs <= n)%nat -> scan_map d c bs = (es, fin) -> forall es1 e es2, es = es1 ++ e :: es2 ->
  exists um bb k bk r, bs = bb ++ bk ++ r /\ reads_pairs d um bb /\ reads d k bk /\ label_like k /\
    map en_label es1 = map kv_label um /\ en_label e = kv_label (k, CNull).
Proof.
  induction n as [n IH] using (well_founded_induction Wf_nat.lt_wf). intros c bs es fin L S0 es1 e0 es2 E0.
  rewrite scan_map_eq in S0.
  assert (E' : es = [] \/ (match bs with
           | [] => ([], inl QD_NO_MORE_ITEMS)
           | _ =>
             match get_entry d bs with
             | EErr e => ([], inl e)
             | EEntry l it bs' =>
               let en := {| en_label := l; en_item := it; en_content := bs' |} in
               match skip d (push_val (i_val it) []) bs' with
               | inl e => ([en], inl e)
               | inr bs'' =>
                 let (es, fin) := scan_map d (dec_count c) bs'' in (en :: es, fin)
               end
             end
           end) = (es, fin)).
  { destruct c as [[|p]|]; [left; congruence|right; exact S0|]. destruct (starts_with_break bs); [left; cbn in S0; congruence|right; exact S0]. }
  destruct E' as [->|E']; [destruct es1; discriminate|]. clear S0.
  destruct bs as [|b bs]; [injection E' as <- _; destruct es1; discriminate|]. remember (b :: bs) as bs0 eqn:Eb. clear Eb b bs.
  pose proof (get_entry_shrink d bs0) as S1.
  destruct (get_entry d bs0) as [x|l it bs'] eqn:E; [injection E' as <- _; destruct es1; discriminate|]. cbv zeta in E'.
  apply get_entry_inv in E as (bk & k & hb & -> & _ & Hk & Hkl & Hlbl & Hs).
  assert (Kl : l = kv_label (k, CNull)) by (unfold kv_label; cbn [fst]; now rewrite Hlbl).
  destruct es1 as [|e1 es1].
  { assert (X : e0 = {| en_label := l; en_item := it; en_content := bs' |}).
    { destruct (skip d _ bs') as [x|bs'']; [injection E' as <- _; cbn in E0; congruence|].
      destruct (scan_map d (dec_count c) bs'') as [es' fin']. injection E' as <- _. cbn in E0. congruence. }
    exists [], [], k, bk, (hb ++ bs'). subst e0. cbn [en_label]. repeat split; auto. constructor. }
  destruct (skip d (push_val (i_val it) []) bs') as [x|bs''] eqn:K.
  { injection E' as <- _. cbn in E0. injection E0 as _ E0. destruct es1; discriminate. }
  pose proof (skip_shrink _ _ _ _ K) as S2.
  destruct (scan_map d (dec_count c) bs'') as [es' fin'] eqn:M. injection E' as <- _. cbn [app] in E0. injection E0 as <- E0.
  destruct (IH (length bs'') ltac:(lia) _ _ _ _ (le_n _) M _ _ _ E0) as (um & bb & k2 & bk2 & r & -> & Hu & Hk2 & Hl2 & M1 & M2).
  apply skip_inv in K as (b1 & -> & K).
  destruct (starts_complete _ _ _ _ _ _ Hs K) as (x & cnt & cv & b2 & -> & Hcc & -> & Hr & H2).
  { cbn [length]. lia. }
  inversion H2; subst. rewrite app_nil_r in *.
  exists ((k, x) :: um), (bk ++ (hb ++ cv) ++ bb), k2, bk2, r. rewrite <- !app_assoc. split; [reflexivity|].
  split; [rewrite (app_assoc hb); constructor; auto|]. repeat split; auto. cbn [map en_label]. f_equal; auto.
Qed.

Lemma labels_count m : Forall (fun kv => label_like (fst kv)) m ->
  length (filter int_lbl (map kv_label m)) = length (int_labels m) /\ length (filter text_lbl (map kv_label m)) = length (text_labels m).
Proof.
  induction 1 as [|[k v] m Hk _ [IH1 IH2]]; [split; reflexivity|]. cbn [fst] in Hk. cbn [map filter int_labels text_labels flat_map fst].
  fold (int_labels m) (text_labels m). rewrite !app_length, <- IH1, <- IH2.
  assert (X : (if int_lbl (kv_label (k, v)) then 1 else 0)%nat = length (if understood k then [] else match int_value k with Some z => [z] | None => [] end) /\
              (if text_lbl (kv_label (k, v)) then 1 else 0)%nat = length (match body k with CText s => [s] | _ => [] end : list bytes)).
  { unfold label_like in Hk. unfold kv_label, understood, has_int, int_value. cbn [fst].
    destruct (body k) as [n|n|b|b|l|l|n x|n|b|b]; try contradiction; unfold val_of, as_label; change INT64_LIMIT with (2 ^ 63).
    - destruct (n <? 2 ^ 63); cbn [as_label int_lbl text_lbl existsb]; split; try reflexivity. 
      destruct ((1 =? Z.of_N n)%Z || _); reflexivity.
    - assert (E : (n <? 2 ^ 63) = true) by lia. rewrite E. cbn [as_label int_lbl text_lbl existsb]. split; try reflexivity.
      destruct ((1 =? - Z.of_N n - 1)%Z || _); reflexivity.
    - split; reflexivity.
    - split; reflexivity. }
  destruct X as [X1 X2]. rewrite <- X1, <- X2. split.
  - destruct (int_lbl (kv_label (k, v))); reflexivity.
  - destruct (text_lbl (kv_label (k, v))); reflexivity.
Qed.

Lemma pairs_labels d m b : reads_pairs d m b -> Forall (fun kv => label_like (fst kv)) m.
Proof. induction 1; constructor; auto. Qed.

(** ** Parameters that are no data item *)

(** What is well-formed and no data item, for the decoder has too large parts. *)
Lemma enter_wide (m : bool) L w r tg : elem_level L = true -> well_formed w ->
  is_not_wf (d_err (enter_agg m (mkd (w ++ r) L tg))) = false /\
  forall r0 cnt tg', enter_agg m (mkd (w ++ r) L tg) = mkd r0 (LvAgg m cnt cnt r0 :: dec_level L) tg' ->
    exists b, r0 = b ++ r /\ wcontent m cnt b.
Proof.
  intros HL Hw. unfold enter_agg. cbn [mkd d_err qd_ok negb].
  change {| d_err := QD_SUCCESS; d_in := w ++ r; d_levels := L; d_tags := tg |} with (mkd (w ++ r) L tg).
  rewrite get_next_eq by exact HL. destruct (at_end (mkd (w ++ r) L tg)); [split; [reflexivity|discriminate]|].
  pose proof (wide_elem (length L) w r Hw) as G. destruct (get_elem (length L) (w ++ r)) as [e|it r0].
  { destruct (qd_ok e) eqn:Q; cbn [negb]; (split; [destruct e; try reflexivity; discriminate|]).
    - destruct e; try discriminate Q. discriminate.
    - intros ? ? ? X. apply (f_equal d_err) in X. cbn in X. subst e. discriminate. }
  destruct G as [G1 G2]. destruct (qd_ok (i_err it)) eqn:Q; cbn [negb].
  2:{ split; [exact G1|]. intros ? ? ? X. apply (f_equal d_err) in X. cbn in X. rewrite X in Q. discriminate. }
  unfold got. rewrite Q. destruct (i_val it) as [ | | | |m' c'| | | | ]; try (split; [reflexivity|discriminate]).
  destruct (Bool.eqb m' m) eqn:B; [|split; [reflexivity|discriminate]]. apply Bool.eqb_prop in B. subst m'.
  split; [reflexivity|]. intros r1 cnt tg' X. injection X as <- <- _. exact G2.
Qed.

Lemma search_err {S : Type} (cb : S -> entry -> out (S * bool)) es : forall ss st ss' st' x,
  Forall (fun e => is_not_wf (i_err (en_item e)) = false) es ->
  search_entries cb ss st es = Ret (ss', st', x) -> is_not_wf x = false.
Proof.
  assert (FS : forall ss e x, is_not_wf (i_err (en_item e)) = false -> fill_slots ss e = Some (inl x) -> is_not_wf x = false).
  { intros ss e x He. induction ss as [|s r IH]; cbn [fill_slots]; [discriminate|]. destruct (label_is _ _).
    - destruct (sl_found s); [intro X; injection X as <-; reflexivity|]. destruct (negb _); [intro X; injection X as <-; exact He|].
      destruct (type_matches _ _); [discriminate|]. intro X. injection X as <-. reflexivity.
    - destruct (fill_slots r e) as [[y|r']|]; try discriminate. intro X. injection X as ->. now apply IH. }
  induction es as [|e es IH]; intros ss st ss' st' x F; cbn [search_entries]; [intro X; injection X as _ _ <-; reflexivity|].
  inversion F as [|? ? Fe Fr]; subst. destruct (fill_slots ss e) as [[y|ss1]|] eqn:E.
  - intro X. injection X as _ _ <-. eapply FS; eassumption.
  - now apply IH.
  - destruct (cb st e) as [[st1 [|]]|]; cbn [obind]; [now apply IH| |discriminate]. intro X. injection X as _ _ <-. reflexivity.
Qed.

Lemma perr_malformed q bs : (forall w r, bs = w ++ r -> well_formed w -> is_not_wf q = false) ->
  perr q = ERR_PARAMETER_CBOR \/ perr q = ERR_CBOR_NOT_WELL_FORMED /\ malformed bs.
Proof.
  intro H. unfold perr. destruct (is_not_wf q); [|auto]. right. split; [reflexivity|]. intros w r E Hw. specialize (H w r E Hw). discriminate.
Qed.

Lemma parse_no_item c L bs tg p crit pm r :
  elem_level L = true -> (forall x b rest, bs = b ++ rest -> ~ reads (length L) x b) ->
  (length (nonzero (int_labels pm)) <= 10)%nat -> (length (text_labels pm) <= 10)%nat ->
  parse_cose_header_parameters c (mkd bs L tg) p crit (ll_of (nonzero (int_labels pm)) (text_labels pm)) = Ret r ->
  (r_err r = ERR_PARAMETER_CBOR \/ r_err r = ERR_CBOR_NOT_WELL_FORMED /\ malformed bs) \/
  r_err r = ERR_TOO_MANY_PARAMETERS /\ many_labels (length L) pm bs.
Proof.
  intros HL No Lz Lt. unfold parse_cose_header_parameters, enter_map, get_items_in_map.
  pose proof (enter_agg_err true L bs tg HL) as NF.
  destruct (qd_ok (d_err (enter_agg true (mkd bs L tg)))) eqn:Q; cbn [negb].
  2:{ cbn [obind].
      assert (X : forall w r, bs = w ++ r -> well_formed w -> is_not_wf (d_err (enter_agg true (mkd bs L tg))) = false).
      { intros w r0 -> Hw. now apply enter_wide. }
      destruct (d_err (enter_agg true (mkd bs L tg))) eqn:D; try discriminate Q;
        intro E; injection E as <-; cbn [r_err]; try contradiction;
        left; now apply perr_malformed in X. }
  assert (Q' : d_err (enter_agg true (mkd bs L tg)) = QD_SUCCESS).
  { destruct (d_err (enter_agg true (mkd bs L tg))); try discriminate Q; reflexivity. }
  destruct (enter_agg_inv true L bs tg HL Q') as (hb & ts & cnt & r0 & Ebs & Hh & Ha & Hb & Hd & Ht & E).
  destruct (enter_opens true L bs tg HL Q') as (ts1 & cnt1 & hb1 & r1 & Ebs1 & O & E1). rewrite E in E1. injection E1 as <- <- _.
  assert (Wide : forall w r, bs = w ++ r -> well_formed w -> exists b, r0 = b ++ r /\ wcontent true cnt b).
  { intros w r1 -> Hw. destruct (enter_wide true L w r1 tg HL Hw) as [_ X]. eapply X. exact E. }
  rewrite E. unfold d_depth. cbn [mkd d_levels d_err]. cbn [length qd_ok negb]. rewrite ?dec_level_length.
  destruct (scan_map (S (length L)) cnt r0) as [es fin] eqn:S0.
  destruct (search_entries _ _ _ es) as [[[ss st] x]|w] eqn:Se; cbn [obind]; [|discriminate].
  cbn [d_set_err d_err].
  destruct fin as [e|rest].
  2:{ exfalso. apply scan_inv in S0 as (l & b & cb & Hl & He & -> & _). rewrite Ebs in No.
      refine (No (wrap ts (CMap l)) (hb ++ cb) rest (app_assoc _ _ _) _). eapply reads_of_map; eassumption. }
  assert (Scan : forall w r, bs = w ++ r -> well_formed w -> is_not_wf e = false /\ is_not_wf x = false).
  { intros w r1 Ew Hw. destruct (Wide w r1 Ew Hw) as (b & -> & W). destruct (wide_scan _ (length b) _ _ _ _ _ (le_n _) W S0) as [A B].
    split; [exact A|]. eapply search_err; eassumption. }
  destruct (negb (qd_ok x)) eqn:Qx.
  - assert (X : forall w r, bs = w ++ r -> well_formed w -> is_not_wf x = false) by (intros w r1 Ew Hw; now destruct (Scan w r1 Ew Hw)).
    apply perr_malformed in X.
    destruct x; try discriminate Qx; intro Y; injection Y as <-; cbn [r_err is_not_wf]; try (left; exact X).
    apply callback_errors in Se; auto; [|apply nonzero_all|now apply scan_map_f_err in S0].
    destruct Se as [Se|(Se & es1 & e0 & es2 & Ees & C)]; [left; cbn; auto|]. right. split; [exact Se|].
    destruct (scan_prefix (S (length L)) (length r0) _ _ _ _ (le_n _) S0 _ _ _ Ees) as (um & bb & k & bk & r & -> & Hu & Hk & Hkl & M1 & M2).
    exists ts1, cnt, hb1, um, bb, k, bk, r. split; [exact Ebs1|]. split; [exact O|]. split; [exact Hu|]. split; [exact Hk|].
    cbv zeta. rewrite int_labels_app, text_labels_app, !app_length.
    assert (Cn : forall f, count f (es1 ++ [e0]) = length (filter f (map kv_label (um ++ [(k, CNull)])))).
    { intro f. unfold count. rewrite !map_app, M1. cbn [map]. now rewrite M2. }
    assert (Fl : Forall (fun kv => label_like (fst kv)) (um ++ [(k, CNull)])).
    { apply Forall_app. split; [now apply pairs_labels in Hu|]. constructor; [exact Hkl|constructor]. }
    destruct (labels_count _ Fl) as [C1 C2]. rewrite !Cn, C1, C2 in C. pose proof (nonzero_len (int_labels pm)). lia.
  - assert (X : forall w r, bs = w ++ r -> well_formed w -> is_not_wf e = false) by (intros w r1 Ew Hw; now destruct (Scan w r1 Ew Hw)).
    apply perr_malformed in X.
    apply scan_map_f_err in S0 as [_ S0]. destruct (S0 e eq_refl) as [S1 S2].
    destruct e; try contradiction; intro Y; injection Y as <-; left; exact X.
Qed.
