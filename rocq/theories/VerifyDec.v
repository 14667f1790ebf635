(** The decoding half of verification as a function of the data item the
    message represents. *)
From Verif Require Import Base Const QEnc QDec Spec DecSpec BaseFacts DecFacts DecSkip DecCtx Params
  ParamFacts DecSim Crypto Verify.
From Coq Require Import Lia ZifyBool ZifyNat ZifyN.
Ltac Zify.zify_post_hook ::= Z.div_mod_to_equations.
Open Scope N_scope.
Local Open Scope mon_scope.

(** ** The function on data items *)

Definition perr (x : qd_err) : terr :=
  if is_not_wf x then ERR_CBOR_NOT_WELL_FORMED else ERR_PARAMETER_CBOR.

Definition bstr_at (o : option cbor) : qd_err + bytes :=
  match o with
  | None => inl QD_NO_MORE_ITEMS
  | Some x => match plain_bytes x with Some b => inr b | None => inl (bstr_err x) end
  end.

(** The protected parameters, given the content of their byte string. *)
Definition prot_bucket (c : cfg) (b : bytes) : out (terr * params * option llist * llist) :=
  if blen b =? 0 then Ret (T_SUCCESS, clear_params, Some clear_label_list, clear_label_list)
  else let? r := parse_cose_header_parameters c (mkd b [LvBstr []; LvAgg false None None []] [])
                   clear_params (Some clear_label_list) clear_label_list in
       Ret (r_err r, r_params r, r_crit r, r_unknown r).

Definition unprot_bucket (c : cfg) (o : option cbor) (p : params) (unk : llist)
  : out (terr * params * llist) :=
  match o with
  | None => Ret (perr QD_NO_MORE_ITEMS, p, unk)
  | Some x =>
    if good x then
      match body x with
      | CMap l => let? (e, p, _, u) := bucket c l p None unk in Ret (e, p, u)
      | _ => Ret (perr QD_UNEXPECTED_TYPE, p, unk)
      end
    else Ret (perr (i_err (item_of None x)), p, unk)
  end.

Definition is_null (x : cbor) : bool :=
  good x && match body x with CSimple n => n =? 22 | _ => false end.

Definition pay_part (o : option cbor) (payload : option ubufc) (is_dc : bool) : out (terr + ubufc) :=
  if is_dc then
    match payload with
    | None => UB NullDeref
    | Some pl => Ret (if match o with Some x => is_null x | None => false end
                      then inr pl else inl ERR_CBOR_FORMATTING)
    end
  else Ret (match bstr_at o with inl e => inl (decode_error_to_terr e) | inr b => inr (UBuf b) end).

Definition elems_decode (c : cfg) (me : vctx) (l : list cbor) (payload : option ubufc) (is_dc : bool)
  : out (dres * vctx) :=
  match bstr_at (nth_error l 0) with
  | inl e => Ret (DErr (perr e), me)
  | inr prot =>
    let? (e1, p1, crit, unk1) := prot_bucket c prot in
    if negb (terr_eqb e1 T_SUCCESS) then Ret (DErr e1, me)
    else
      let? (e2, p2, unk2) := unprot_bucket c (nth_error l 1) p1 unk1 in
      if negb (terr_eqb e2 T_SUCCESS) then Ret (DErr e2, me)
      else
        let? pay := pay_part (nth_error l 2) payload is_dc in
        match pay with
        | inl e => Ret (DErr e, me)
        | inr pay =>
          match bstr_at (nth_error l 3) with
          | inl e => Ret (DErr (decode_error_to_terr e), me)
          | inr sig =>
            let? crit := need crit in
            Ret (DOk {| m_params := p2; m_prot := UBuf prot; m_payload := pay; m_sig := sig;
                        m_crit := crit; m_unknown := unk2 |}, me)
          end
        end
  end.

Definition tree_decode (c : cfg) (me : vctx) (t : cbor) (payload : option ubufc) (is_dc : bool)
  : out (dres * vctx) :=
  if good t then
    match body t with
    | CArray l =>
      let? (err, me) := process_tags me (mkd [] [] (rev (tags_of t))) in
      if negb (terr_eqb err T_SUCCESS) then Ret (DErr err, me)
      else elems_decode c me l payload is_dc
    | _ => Ret (DErr ERR_SIGN1_FORMAT, me)
    end
  else Ret (DErr (decode_error_to_terr (i_err (item_of None t))), me).

(** ** The decoder among the elements of an array *)

(** Positioned before the elements [l] of the outer array, after which comes [tg]. *)
Inductive at_elems (sc : option N) (s : bytes) (tg : bytes) : list cbor -> dctx -> Prop :=
| at_elems_intro c l b cb tg' :
    ended c (blen l) b cb -> reads_all 1 l b ->
    at_elems sc s tg l (mkd (cb ++ tg) [LvAgg false c sc s] tg').

Lemma at_elems_cons sc s tg x l d :
  at_elems sc s tg (x :: l) d ->
  exists b cb c tg', d = mkd (b ++ cb) [LvAgg false c sc s] tg' /\ reads 1 x b /\
    elem_level [LvAgg false c sc s] = true /\
    forall tg2, at_elems sc s tg l (mkd cb (dec_level [LvAgg false c sc s]) tg2).
Proof.
  intro H. inversion H as [c l0 b cb tg' He Hr E1 E2]. subst. clear H.
  inversion Hr as [|d0 x0 l1 b1 bs Hx Hl E1 E2 E3]. subst. rewrite blen_cons in He.
  destruct He as [(-> & ->)|(-> & ->)].
  - exists b1, (bs ++ tg), (Some (1 + blen l)), tg'. rewrite <- app_assoc. split; [reflexivity|]. split; [exact Hx|].
    split; [cbn [elem_level]; destruct (N.eqb_spec (1 + blen l) 0); [lia|reflexivity]|].
    intro tg2. cbn [dec_level dec_count]. econstructor; [|exact Hl]. left. split; [f_equal; lia|reflexivity].
  - exists b1, ((bs ++ [xff]) ++ tg), None, tg'. rewrite <- !app_assoc. split; [reflexivity|]. split; [exact Hx|].
    split; [reflexivity|]. intro tg2. cbn [dec_level dec_count]. rewrite app_assoc. econstructor; [|exact Hl]. right. auto.
Qed.

Lemma at_elems_nil sc s tg d :
  at_elems sc s tg [] d ->
  d_err d = QD_SUCCESS /\ get_next d = (QD_NO_MORE_ITEMS, bad_item QD_NO_MORE_ITEMS, d).
Proof.
  intro H. inversion H as [c l0 b cb tg' He Hr E1 E2]. subst. split; [reflexivity|].
  inversion Hr. subst. destruct He as [(-> & ->)|(-> & ->)]; [apply get_next_end; auto|apply get_next_break].
Qed.

(** An error once set stays. *)
Lemma parse_failed c d p crit unk :
  d_err d <> QD_SUCCESS -> d_err d <> QD_CALLBACK_FAIL ->
  parse_cose_header_parameters c d p crit unk
  = Ret {| r_err := perr (d_err d); r_d := d; r_params := p; r_crit := crit; r_unknown := unk |}.
Proof.
  intros H1 H2. unfold parse_cose_header_parameters, enter_map, enter_agg, get_items_in_map.
  destruct (d_err d) eqn:E; try contradiction; cbn [qd_ok negb]; rewrite E; cbn [qd_ok negb obind]; rewrite E; reflexivity.
Qed.

Lemma terr_success x : decode_error_to_terr x = T_SUCCESS -> x = QD_SUCCESS.
Proof. destruct x; cbn; try discriminate; reflexivity. Qed.

Lemma perr_bad x : perr x <> T_SUCCESS.
Proof. unfold perr. destruct (is_not_wf x); discriminate. Qed.

Lemma bad_eqb e : e <> T_SUCCESS -> negb (terr_eqb e T_SUCCESS) = true.
Proof. destruct e; try reflexivity. contradiction. Qed.

Lemma item_err_fail x : i_err (item_of None x) <> QD_CALLBACK_FAIL.
Proof. intro H. pose proof (item_err_cases None x) as C. rewrite H in C. exact C. Qed.

Lemma bstr_err_fail x : bstr_err x <> QD_CALLBACK_FAIL.
Proof. unfold bstr_err. destruct (good x); [discriminate|apply item_err_fail]. Qed.

(** *** Byte string elements *)

Lemma bytes_elem sc s tg l d :
  at_elems sc s tg l d ->
  match bstr_at (nth_error l 0) with
  | inr b => exists d', get_byte_string d = (d', Some (UBuf b)) /\ at_elems sc s tg (tl l) d'
  | inl e => d_err (fst (get_byte_string d)) = e /\ e <> QD_SUCCESS /\ e <> QD_CALLBACK_FAIL
  end.
Proof.
  destruct l as [|x l]; intro H; cbn [nth_error bstr_at tl].
  - apply at_elems_nil in H as [He H]. unfold get_byte_string. rewrite He, H. cbn.
    repeat split; discriminate.
  - apply at_elems_cons in H as (b & cb & c & tg' & -> & Hx & HL & K).
    destruct (plain_bytes x) as [y|] eqn:P.
    + destruct x; try discriminate. injection P as ->.
      exists (mkd cb (dec_level [LvAgg false c sc s]) tg'). split; [|apply K].
      now apply get_byte_string_ok.
    + repeat split; [now apply get_byte_string_bad|apply bstr_err_bad|apply bstr_err_fail].
Qed.

(** *** The protected parameters *)

Definition after_prot (c : cfg) (junk : ubufc) (d : dctx) : out (parsed * ubufc) :=
  let (d, oprot) := enter_bstr_wrapped d in
  let prot := match oprot with Some u => u | None => junk end in
  let? r :=
    if negb (u_len prot =? 0)
    then parse_cose_header_parameters c d clear_params (Some clear_label_list) clear_label_list
    else Ret {| r_err := T_SUCCESS; r_d := d; r_params := clear_params;
                r_crit := Some clear_label_list; r_unknown := clear_label_list |} in
  Ret (r, prot).

Lemma dec_level_one c sc s : dec_level [LvAgg false c sc s] = [LvAgg false (dec_count c) sc s].
Proof. reflexivity. Qed.

Lemma prot_elem c junk sc s tg l d :
  at_elems sc s tg l d ->
  match bstr_at (nth_error l 0) with
  | inl e =>
    e <> QD_SUCCESS /\ e <> QD_CALLBACK_FAIL /\
    ((exists r p, after_prot c junk d = Ret (r, p) /\ r_err r = perr e) \/
     (exists r p, after_prot c junk d = Ret (r, p) /\ r_err r = T_SUCCESS /\ d_err (r_d r) = e))
  | inr prot =>
    match prot_bucket c prot, after_prot c junk d with
    | UB w, UB w' => w = w'
    | Ret (e, p, crit, unk), Ret (r, p') =>
      p' = UBuf prot /\ r_err r = e /\ r_params r = p /\ r_crit r = crit /\ r_unknown r = unk /\
      (e = T_SUCCESS -> at_elems sc s tg (tl l) (exit_bstr_wrapped (r_d r)))
    | _, _ => False
    end
  end.
Proof.
  intro H. unfold after_prot.
  assert (Bad : forall e, d_err (fst (enter_bstr_wrapped d)) = e -> e <> QD_SUCCESS -> e <> QD_CALLBACK_FAIL ->
    e <> QD_SUCCESS /\ e <> QD_CALLBACK_FAIL /\
    ((exists r p, after_prot c junk d = Ret (r, p) /\ r_err r = perr e) \/
     (exists r p, after_prot c junk d = Ret (r, p) /\ r_err r = T_SUCCESS /\ d_err (r_d r) = e))).
  { intros e He H1 H2. split; [exact H1|]. split; [exact H2|]. unfold after_prot.
    destruct (enter_bstr_wrapped d) as [d' o]. cbn [fst] in He.
    destruct (negb (u_len match o with Some u => u | None => junk end =? 0)).
    - left. rewrite parse_failed by (rewrite He; assumption). cbn [obind]. eexists _, _.
      split; [reflexivity|]. cbn. now rewrite He.
    - right. eexists _, _. cbn [obind]. split; [reflexivity|]. cbn. auto. }
  destruct l as [|x l]; cbn [nth_error bstr_at tl].
  { apply at_elems_nil in H as [He H]. apply Bad; try discriminate.
    unfold enter_bstr_wrapped. rewrite He, H. reflexivity. }
  apply at_elems_cons in H as (b & cb & k & tg' & -> & Hx & HL & K).
  destruct (plain_bytes x) as [y|] eqn:P.
  2:{ apply Bad; [now apply enter_bstr_wrapped_bad|apply bstr_err_bad|apply bstr_err_fail]. }
  destruct x; try discriminate. injection P as ->. clear Bad.
  rewrite (enter_bstr_wrapped_ok _ y b cb tg' HL Hx). cbn [u_len]. unfold prot_bucket.
  destruct (blen y =? 0) eqn:E0; cbn [negb].
  { cbn [obind r_err r_params r_crit r_unknown r_d]. repeat (split; [reflexivity|]). intros _. apply K. }
  pose proof (parse_sim [] cb [LvAgg false None None []] (dec_level [LvAgg false k sc s]) eq_refl c
     (mkd y [LvBstr []; LvAgg false None None []] [])
     (mkd y (LvBstr cb :: dec_level [LvAgg false k sc s]) tg')
     clear_params (Some clear_label_list) clear_label_list) as Sim.
  assert (Ds : dsim [] cb [LvAgg false None None []] (dec_level [LvAgg false k sc s])
     (mkd y [LvBstr []; LvAgg false None None []] []) (mkd y (LvBstr cb :: dec_level [LvAgg false k sc s]) tg')).
  { split; [reflexivity|]. split; [reflexivity|]. exists []. split; reflexivity. }
  specialize (Sim Ds). clear Ds.
  destruct (parse_cose_header_parameters c (mkd y [LvBstr []; LvAgg false None None []] []) clear_params
              (Some clear_label_list) clear_label_list) as [r|w],
    (parse_cose_header_parameters c (mkd y (LvBstr cb :: dec_level [LvAgg false k sc s]) tg') clear_params
              (Some clear_label_list) clear_label_list) as [r'|w'] eqn:E; try contradiction; cbn [obind]; [|exact Sim].
  destruct Sim as (S1 & S2 & S3 & S4 & _). rewrite S1, S2, S3, S4. repeat (split; [reflexivity|]). intro T.
  destruct (parse_inv c (LvBstr cb :: dec_level [LvAgg false k sc s]) y tg' _ _ _ r' eq_refl E T)
    as (x & m & bx & rest & -> & Rx & Gx & Bx).
  pose proof (parse_eq c (LvBstr cb :: dec_level [LvAgg false k sc s]) x m bx rest tg' clear_params
                (Some clear_label_list) clear_label_list eq_refl Rx Gx Bx) as Q.
  rewrite E in Q. unfold parsed_as in Q.
  destruct (bucket c m clear_params (Some clear_label_list) clear_label_list) as [[[[e p] crit] unk]|]; [|contradiction].
  destruct Q as (Q1 & _ & _ & _ & Q). rewrite T in Q1. destruct (Q (eq_sym Q1)) as (tg2 & ->). apply K.
Qed.

(** *** The unprotected parameters *)

Lemma unprot_elem c sc s tg l d p unk :
  at_elems sc s tg l d ->
  match unprot_bucket c (nth_error l 0) p unk, parse_cose_header_parameters c d p None unk with
  | UB w, UB w' => w = w'
  | Ret (e, p', unk'), Ret r =>
    r_err r = e /\ (e = T_SUCCESS -> r_params r = p' /\ r_unknown r = unk' /\ at_elems sc s tg (tl l) (r_d r))
  | _, _ => False
  end.
Proof.
  intro H.
  assert (Bad : forall e p' unk', e <> QD_SUCCESS -> e <> QD_CALLBACK_FAIL -> d_err (enter_agg true d) = e ->
    match Ret (perr e, p', unk'), parse_cose_header_parameters c d p None unk with
    | UB w, UB w' => w = w'
    | Ret (e, p', unk'), Ret r =>
      r_err r = e /\ (e = T_SUCCESS -> r_params r = p' /\ r_unknown r = unk' /\ at_elems sc s tg (tl l) (r_d r))
    | _, _ => False
    end).
  { intros e p' unk' H1 H2 He. unfold parse_cose_header_parameters, enter_map, get_items_in_map. rewrite He.
    pose proof (perr_bad e) as PB.
    destruct e; try contradiction; cbn [qd_ok negb obind]; rewrite He; cbn [r_err r_d r_params r_unknown];
      (split; [reflexivity|]); intro X; now apply PB in X. }
  destruct l as [|x l]; cbn [nth_error unprot_bucket tl].
  { apply at_elems_nil in H as [He H]. apply Bad; try discriminate.
    unfold enter_agg. rewrite He, H. reflexivity. }
  apply at_elems_cons in H as (b & cb & k & tg' & -> & Hx & HL & K).
  destruct (good x) eqn:G.
  2:{ destruct (enter_agg_bad true _ x b cb tg' HL Hx (or_introl G)) as [E1 E2]. rewrite G in E1.
      apply Bad; [now rewrite <- E1|apply item_err_fail|exact E1]. }
  assert (NotMap : (match body x with CMap _ => False | _ => True end) ->
    match Ret (perr QD_UNEXPECTED_TYPE, p, unk),
      parse_cose_header_parameters c (mkd (b ++ cb) [LvAgg false k sc s] tg') p None unk with
    | UB w, UB w' => w = w'
    | Ret (e, p', unk'), Ret r =>
      r_err r = e /\ (e = T_SUCCESS -> r_params r = p' /\ r_unknown r = unk' /\ at_elems sc s tg l (r_d r))
    | _, _ => False
    end).
  { intro NM. destruct (enter_agg_bad true _ x b cb tg' HL Hx) as [E1 _].
    { right. destruct (body x); auto; contradiction. }
    rewrite G in E1. now apply Bad. }
  destruct (body x) as [ | | | | |m| | | | ] eqn:Eb; try (now apply NotMap).
  pose proof (parse_eq c _ x m b cb tg' p None unk HL Hx G Eb) as Q. unfold parsed_as in Q.
  destruct (bucket c m p None unk) as [[[[e p'] crit] unk']|w], (parse_cose_header_parameters _ _ _ _ _) as [r|w'];
    try contradiction; cbn [obind]; [|exact Q].
  destruct Q as (Q1 & Q2 & Q3 & Q4 & Q). split; [exact Q1|]. intro T. split; [exact Q2|]. split; [exact Q4|].
  destruct (Q T) as (tg2 & ->). apply K.
Qed.

(** *** The payload when detached *)

Lemma null_elem sc s tg l d :
  at_elems sc s tg l d ->
  exists x it d', get_next d = (x, it, d') /\
    (match i_val it with VNullV => false | _ => true end)
    = negb (match nth_error l 0 with Some x => is_null x | None => false end) /\
    (match nth_error l 0 with Some x => is_null x | None => false end = true -> at_elems sc s tg (tl l) d').
Proof.
  intro H. destruct l as [|x l]; cbn [nth_error tl].
  { apply at_elems_nil in H as [He H]. rewrite H. eexists _, _, _. split; [reflexivity|]. split; [reflexivity|discriminate]. }
  apply at_elems_cons in H as (b & cb & k & tg' & -> & Hx & HL & K).
  destruct (get_next_elem _ x b cb tg' HL Hx) as (cnt & cx & Hc & E). rewrite E.
  eexists _, _, _. split; [reflexivity|]. unfold is_null. destruct (good x) eqn:G; cbn [andb].
  - rewrite got_good, item_of_val by exact G. split.
    + destruct (body x); cbn [val_of]; try reflexivity; try (destruct (n <? INT64_LIMIT); reflexivity);
        destruct (n =? 22); reflexivity.
    + destruct (body x) eqn:Eb; try discriminate. intros _. unfold content in Hc. rewrite Eb in Hc.
      destruct Hc as [-> ->]. apply K.
  - rewrite got_eq, good_err, G. split; [reflexivity|discriminate].
Qed.

(** *** The end *)

Lemma finish_failed d : d_err d <> QD_SUCCESS ->
  decode_error_to_terr (dec_finish (exit_array d)) = decode_error_to_terr (d_err d).
Proof.
  intro H. unfold exit_array, dec_finish. destruct (d_err d) eqn:E; try contradiction;
    cbn [qd_ok negb]; rewrite E; reflexivity.
Qed.

Lemma get_bytes_failed d : d_err d <> QD_SUCCESS -> get_byte_string d = (d, None).
Proof. intro H. unfold get_byte_string. destruct (d_err d) eqn:E; try contradiction; reflexivity. Qed.

Lemma finish_ok sc s tg l all d b :
  at_elems sc (s ++ tg) tg l d -> ended sc (blen all) b s -> reads_all 1 all b ->
  dec_finish (exit_array d) = match tg with [] => QD_SUCCESS | _ => QD_EXTRA_BYTES end.
Proof.
  intros H He Hr. inversion H as [c l0 b0 cb tg' _ _ E1 E2]. subst. clear H.
  unfold exit_array. cbn [mkd d_err qd_ok negb d_levels length].
  pose proof (skip_closes 0 [(false, sc)] s tg) as K. rewrite K; [reflexivity|].
  rewrite <- (app_nil_r s). apply (cl_array _ sc all b); [exact He|exact Hr|constructor].
Qed.

Lemma process_tags_eq me d d' : d_err d = d_err d' -> d_tags d = d_tags d' -> process_tags me d = process_tags me d'.
Proof.
  intros E1 E2.
  assert (N : forall i, get_nth_tag_of_last d i = get_nth_tag_of_last d' i).
  { intro i. unfold get_nth_tag_of_last. now rewrite E1, E2. }
  assert (T : forall fuel i r tags, tags_loop fuel d i r tags = tags_loop fuel d' i r tags).
  { induction fuel as [|f IH]; intros i r tags; [reflexivity|]. cbn [tags_loop]. rewrite N.
    destruct (_ =? _); [reflexivity|]. destruct (Nat.ltb _ _); [reflexivity|].
    destruct (arr_set _ _ _); cbn [obind]; auto. }
  unfold process_tags. rewrite N, E2.
  destruct (_ && _); [reflexivity|]. destruct (_ && _); [reflexivity|].
  destruct (negb _).
  - destruct (arr_set _ _ _); cbn [obind]; [|reflexivity]. now rewrite T.
  - cbn [obind]. now rewrite T.
Qed.

(** ** The whole *)

Lemma nth_tl {A} (l : list A) n : nth_error (tl l) n = nth_error l (S n).
Proof. destruct l; [destruct n; reflexivity|reflexivity]. Qed.

(** What is left of an outcome when bytes follow the data item. *)
Definition followed (tail : bytes) (o : out (dres * vctx)) : out (dres * vctx) :=
  match tail, o with
  | _ :: _, Ret (DOk _, me) => Ret (DErr ERR_CBOR_NOT_WELL_FORMED, me)
  | _, _ => o
  end.

Lemma followed_err tail e me : followed tail (Ret (DErr e, me)) = Ret (DErr e, me).
Proof. destruct tail; reflexivity. Qed.

Lemma followed_ub tail w : followed tail (UB w) = UB w.
Proof. destruct tail; reflexivity. Qed.

Theorem decode_reads_tail c junk me t msg tail payload is_dc :
  reads 0 t msg -> tail = [] \/ (exists x, tree_decode c me t payload is_dc = Ret x) ->
  verify_decode c junk me (msg ++ tail) payload is_dc = followed tail (tree_decode c me t payload is_dc).
Proof.
  intro Ht. unfold verify_decode, tree_decode, enter_array. change (dec_init (msg ++ tail)) with (mkd (msg ++ tail) [] []).
  assert (Bad : d_err (enter_agg false (mkd (msg ++ tail) [] [])) <> QD_SUCCESS ->
    negb (terr_eqb (decode_error_to_terr (d_err (enter_agg false (mkd (msg ++ tail) [] [])))) T_SUCCESS) = true).
  { intro H. apply bad_eqb. intro X. apply terr_success in X. contradiction. }
  destruct (good t) eqn:G.
  2:{ destruct (enter_agg_bad false [] t msg tail [] eq_refl Ht (or_introl G)) as [E1 E2].
      rewrite G in E1. rewrite (Bad E2), E1. now rewrite followed_err. }
  assert (NotArr : (match body t with CArray _ => False | _ => True end) ->
    decode_error_to_terr (d_err (enter_agg false (mkd (msg ++ tail) [] []))) = ERR_SIGN1_FORMAT).
  { intro NM. destruct (enter_agg_bad false [] t msg tail [] eq_refl Ht) as [E1 _].
    { right. destruct (body t); auto; contradiction. }
    rewrite G in E1. now rewrite E1. }
  destruct (body t) as [ | | | |l| | | | | ] eqn:Eb; try (rewrite NotArr, followed_err by exact I; reflexivity).
  clear NotArr Bad.
  destruct (enter_agg_ok false [] t msg tail [] eq_refl Ht G) as (cnt & cb & Hc & E); [now rewrite Eb|].
  rewrite E. cbn [mkd d_err decode_error_to_terr terr_eqb negb dec_level].
  match goal with |- context[process_tags me ?x] => lazymatch x with mkd [] [] _ => fail | _ =>
    rewrite (process_tags_eq me x (mkd [] [] (rev (tags_of t)))) by reflexivity end end.
  destruct (process_tags me (mkd [] [] (rev (tags_of t)))) as [[err me']|w]; cbn [obind]; [|now rewrite followed_ub].
  destruct (negb (terr_eqb err T_SUCCESS)); [now rewrite followed_err|].
  unfold content in Hc. rewrite Eb in Hc. destruct Hc as (bx & Hcd & Hrx).
  assert (Hend : ended cnt (blen l) bx cb).
  { destruct Hcd as [(-> & _ & ->)|(-> & ->)]; [left; auto|right; auto]. }
  assert (H0 : at_elems cnt (cb ++ tail) tail l (mkd (cb ++ tail) [LvAgg false cnt cnt (cb ++ tail)] (rev (tags_of t)))).
  { econstructor; eassumption. }
  match goal with |- context[enter_bstr_wrapped ?x] =>
    change x with (mkd (cb ++ tail) [LvAgg false cnt cnt (cb ++ tail)] (rev (tags_of t))) end.
  set (d := mkd (cb ++ tail) [LvAgg false cnt cnt (cb ++ tail)] (rev (tags_of t))) in *. clearbody d.
  clear E Ht. unfold elems_decode in *.
  pose proof (prot_elem c junk cnt (cb ++ tail) tail l d H0) as P. unfold after_prot in P.
  destruct (enter_bstr_wrapped d) as [d1 oprot].
  set (prot := match oprot with Some u => u | None => junk end) in *.
  destruct (bstr_at (nth_error l 0)) as [e|pb].
  { destruct P as (P1 & P2 & [(r & p & P3 & P4)|(r & p & P3 & P4 & P5)]);
      destruct (if negb (u_len prot =? 0) then _ else _) as [r'|w]; cbn [obind] in *; try discriminate;
      injection P3 as -> _.
    - rewrite P4, bad_eqb by apply perr_bad. now rewrite followed_err.
    - rewrite P4. cbn [terr_eqb negb].
      assert (X : exit_bstr_wrapped (r_d r) = r_d r).
      { unfold exit_bstr_wrapped. rewrite P5. destruct e; try contradiction; reflexivity. }
      rewrite X, parse_failed by (rewrite P5; assumption). cbn [obind r_err].
      rewrite P5, bad_eqb by apply perr_bad. now rewrite followed_err. }
  destruct (prot_bucket c pb) as [[[[e1 p1] crit] unk1]|w];
    destruct (if negb (u_len prot =? 0) then _ else _) as [r1|w']; cbn [obind] in *; try contradiction; [|now rewrite P, followed_ub].
  destruct P as (-> & <- & <- & <- & <- & P).
  destruct (terr_eqb (r_err r1) T_SUCCESS) eqn:T1; cbn [negb]; [|now rewrite followed_err].
  apply terr_eqb_eq in T1. specialize (P T1).
  pose proof (unprot_elem c cnt (cb ++ tail) tail (tl l) _ (r_params r1) (r_unknown r1) P) as U. rewrite nth_tl in U.
  destruct (unprot_bucket c (nth_error l 1) (r_params r1) (r_unknown r1)) as [[[e2 p2] unk2]|w],
    (parse_cose_header_parameters c (exit_bstr_wrapped (r_d r1)) (r_params r1) None (r_unknown r1)) as [r2|w'];
    cbn [obind]; try contradiction; [|now rewrite U, followed_ub].
  destruct U as (<- & U). destruct (terr_eqb (r_err r2) T_SUCCESS) eqn:T2; cbn [negb]; [|now rewrite followed_err].
  apply terr_eqb_eq in T2. destruct (U T2) as (<- & <- & H2). clear U P H0 T1 T2.
  unfold pay_part. destruct is_dc.
  - destruct payload as [pl|]; cbn [obind]; [|now rewrite followed_ub].
    destruct (null_elem _ _ _ _ _ H2) as (x & it & d' & -> & N1 & N2). rewrite !nth_tl in N1, N2.
    cbn [obind]. rewrite N1. destruct (match nth_error l 2 with Some x => is_null x | None => false end); cbn [negb]; [|now rewrite followed_err].
    specialize (N2 eq_refl). pose proof (bytes_elem _ _ _ _ _ N2) as B. rewrite !nth_tl in B.
    destruct (bstr_at (nth_error l 3)) as [e|sig].
    + destruct (get_byte_string d') as [d3 os] eqn:E3. cbn [fst] in B. destruct B as (B1 & B2 & B3).
      rewrite finish_failed by congruence. rewrite B1. rewrite bad_eqb; [now rewrite followed_err|].
      intro X. apply terr_success in X. contradiction.
    + destruct B as (d3 & -> & B). rewrite (finish_ok _ _ _ _ l _ bx B Hend Hrx). destruct (r_crit r1); [destruct tail; reflexivity|].
      intros [->|(x0 & HR)]; [reflexivity|discriminate HR].
  - cbn [obind].
    pose proof (bytes_elem _ _ _ _ _ H2) as B. rewrite !nth_tl in B.
    destruct (bstr_at (nth_error l 2)) as [e|pay].
    + destruct (get_byte_string (r_d r2)) as [d3 os] eqn:E3. cbn [fst] in B. destruct B as (B1 & B2 & B3).
      cbn [obind]. rewrite get_bytes_failed by congruence.
      rewrite finish_failed by congruence. rewrite B1, bad_eqb; [now rewrite followed_err|].
      intro X. apply terr_success in X. contradiction.
    + destruct B as (d3 & -> & B). cbn [obind]. pose proof (bytes_elem _ _ _ _ _ B) as B'. rewrite !nth_tl in B'.
      destruct (bstr_at (nth_error l 3)) as [e|sig].
      * destruct (get_byte_string d3) as [d4 os] eqn:E4. cbn [fst] in B'. destruct B' as (B1 & B2 & B3).
        rewrite finish_failed by congruence. rewrite B1, bad_eqb; [now rewrite followed_err|].
        intro X. apply terr_success in X. contradiction.
      * destruct B' as (d4 & -> & B'). rewrite (finish_ok _ _ _ _ l _ bx B' Hend Hrx). destruct (r_crit r1); [destruct tail; reflexivity|].
        intros [->|(x0 & HR)]; [reflexivity|discriminate HR].
Qed.

Theorem decode_reads c junk me t msg payload is_dc :
  reads 0 t msg -> verify_decode c junk me msg payload is_dc = tree_decode c me t payload is_dc.
Proof.
  intro Ht. rewrite <- (app_nil_r msg) at 1. rewrite (decode_reads_tail c junk me t msg [] payload is_dc Ht (or_introl eq_refl)). reflexivity.
Qed.

(** ** Only such messages decode *)

(** The decoder is inside the outer array only. *)
Definition outer (sc : option N) (s : bytes) (d : dctx) : Prop :=
  exists bs c tg, d = mkd bs [LvAgg false c sc s] tg.

Lemma get_next_outer sc s d : outer sc s d -> outer sc s (snd (get_next d)).
Proof.
  intros (bs & c & tg & ->). unfold get_next. destruct (at_end _); [exists bs, c, tg; reflexivity|].
  cbn [mkd d_levels d_in]. destruct (get_elem _ _) as [e|it r]; cbn [snd].
  - exists bs, c, tg. reflexivity.
  - exists r, (dec_count c), tg. reflexivity.
Qed.

Lemma get_bytes_outer sc s d :
  outer sc s d -> d_err (fst (get_byte_string d)) = QD_SUCCESS ->
  outer sc s (fst (get_byte_string d)) /\ snd (get_byte_string d) <> None.
Proof.
  intros H. pose proof (get_next_outer _ _ _ H) as N. unfold get_byte_string.
  assert (E : d_err d = QD_SUCCESS) by (destruct H as (? & ? & ? & ->); reflexivity). rewrite E. cbn [qd_ok negb].
  destruct (get_next d) as [[x it] d']. cbn [snd] in N.
  destruct (qd_ok x) eqn:Q; cbn [negb].
  - destruct (untagged_bytes it); cbn [fst snd d_set_err d_err]; [split; [exact N|discriminate]|discriminate].
  - cbn. intros ->. discriminate.
Qed.

Lemma enter_bstr_outer sc s d :
  outer sc s d -> d_err (fst (enter_bstr_wrapped d)) = QD_SUCCESS ->
  exists b a c tg, enter_bstr_wrapped d = (mkd b [LvBstr a; LvAgg false c sc s] tg, Some (UBuf b)).
Proof.
  intros H. pose proof (get_next_outer _ _ _ H) as N. unfold enter_bstr_wrapped.
  assert (E : d_err d = QD_SUCCESS) by (destruct H as (? & ? & ? & ->); reflexivity). rewrite E. cbn [qd_ok negb].
  destruct (get_next d) as [[x it] d']. cbn [snd] in N.
  destruct (qd_ok x) eqn:Q; cbn [negb].
  - destruct (untagged_bytes it); cbn [fst snd d_set_err d_err]; [|discriminate]. intros _.
    destruct N as (bs & c & tg & ->). exists b, bs, c, tg. reflexivity.
  - cbn. intros ->. discriminate.
Qed.

Lemma enter_bstr_err sc s d :
  outer sc s d -> d_err (fst (enter_bstr_wrapped d)) <> QD_CALLBACK_FAIL.
Proof.
  intros (bs & c & tg & ->). unfold enter_bstr_wrapped. cbn [mkd d_err qd_ok negb]. unfold get_next.
  destruct (at_end _); [discriminate|]. cbn [mkd d_levels d_in]. unfold d_depth. cbn [d_levels mkd].
  destruct (get_elem _ bs) as [e|it r] eqn:E.
  - apply get_elem_err in E as [E1 E2]. destruct e; try discriminate; contradiction.
  - apply get_elem_inv in E as (hb & -> & E). apply starts_err in E.
    destruct (qd_ok (i_err it)) eqn:Q; cbn [negb]; [|exact E].
    destruct (untagged_bytes _); discriminate.
Qed.

Lemma parse_levels c L bs tg p crit unk r :
  (match L with [LvBstr _; LvAgg false _ _ _] | [LvAgg false _ _ _] => True | _ => False end) ->
  parse_cose_header_parameters c (mkd bs L tg) p crit unk = Ret r -> r_err r = T_SUCCESS ->
  exists rest tg2, r_d r = mkd rest (dec_level L) tg2.
Proof.
  intros HL E T. destruct (elem_level L) eqn:EL.
  - destruct (parse_inv c L bs tg _ _ _ r EL E T) as (x & m & bx & rest & -> & Rx & Gx & Bx).
    pose proof (parse_eq c L x m bx rest tg p crit unk EL Rx Gx Bx) as Q.
    rewrite E in Q. unfold parsed_as in Q.
    destruct (bucket c m p crit unk) as [[[[e p'] crit'] unk']|]; [|contradiction].
    destruct Q as (Q1 & _ & _ & _ & Q). rewrite T in Q1. destruct (Q (eq_sym Q1)) as (tg2 & ->). eauto.
  - exfalso. destruct L as [|[[|] [[|n]|] sc s|a] [|]]; try contradiction; try discriminate EL.
    assert (X : enter_map (mkd bs [LvAgg false (Some 0) sc s] tg)
              = d_set_err (mkd bs [LvAgg false (Some 0) sc s] tg) QD_NO_MORE_ITEMS).
    { unfold enter_map, enter_agg. rewrite get_next_end by auto. reflexivity. }
    unfold parse_cose_header_parameters in E. rewrite X in E. cbn in E. injection E as <-. discriminate.
Qed.

Lemma exit_outer_inv sc s d :
  outer sc s d -> dec_finish (exit_array d) = QD_SUCCESS ->
  exists l b, ended sc (blen l) b s /\ reads_all 1 l b.
Proof.
  intros (bs & c & tg & ->). unfold exit_array. cbn [mkd d_err qd_ok negb d_levels length].
  destruct (skip 0 [(false, sc)] s) as [e|rest] eqn:E.
  - unfold dec_finish. cbn [d_set_err d_err d_levels].
    apply skip_f_err in E as [E1 E2]. destruct e; cbn; try discriminate; contradiction.
  - unfold dec_finish. cbn. destruct rest; [|discriminate]. intros _.
    apply skip_inv in E as (b & -> & E). rewrite app_nil_r.
    inversion E as [|c' l b1 cb st b2 He Hr Hc E1 E2|]. subst. inversion Hc. subst. rewrite app_nil_r. eauto.
Qed.

Theorem decode_inv c junk me msg payload is_dc m me' :
  verify_decode c junk me msg payload is_dc = Ret (DOk m, me') -> exists t, reads 0 t msg.
Proof.
  unfold verify_decode, enter_array. change (dec_init msg) with (mkd msg [] []).
  destruct (negb (terr_eqb (decode_error_to_terr (d_err (enter_agg false (mkd msg [] [])))) T_SUCCESS)) eqn:T0; [discriminate|].
  assert (E0 : d_err (enter_agg false (mkd msg [] [])) = QD_SUCCESS).
  { apply terr_success. apply terr_eqb_eq. now destruct (terr_eqb _ _). }
  destruct (enter_agg_inv false [] msg [] eq_refl E0) as (hb & ts & cnt & s & -> & Hh & Ha & Hb & Hd & Ht & ->).
  cbn [dec_level]. destruct (process_tags _ _) as [[err me1]|w]; cbn [obind]; [|discriminate].
  destruct (negb (terr_eqb err T_SUCCESS)); [discriminate|].
  assert (H0 : outer cnt s (mkd s [LvAgg false cnt cnt s] (rev ts))) by (unfold outer; eauto).
  set (d := mkd s [LvAgg false cnt cnt s] (rev ts)) in *. clearbody d. clear T0 E0.
  assert (Goal : (exists d', outer cnt s d' /\ dec_finish (exit_array d') = QD_SUCCESS) -> exists t, reads 0 t (hb ++ s)).
  { intros (d' & Ho & Hf). destruct (exit_outer_inv _ _ _ Ho Hf) as (l & b & He & Hr).
    exists (wrap ts (CArray l)). eapply reads_of_array; eassumption. }
  pose proof (enter_bstr_outer cnt s d H0) as P. pose proof (enter_bstr_err cnt s d H0) as PF.
  destruct (enter_bstr_wrapped d) as [d1 oprot]. cbn [fst] in P, PF.
  set (prot := match oprot with Some u => u | None => junk end).
  set (o1 := if negb (u_len prot =? 0) then _ else _).
  assert (P1 : forall r1, o1 = Ret r1 -> r_err r1 = T_SUCCESS ->
             outer cnt s (exit_bstr_wrapped (r_d r1)) \/
             (d_err (exit_bstr_wrapped (r_d r1)) <> QD_SUCCESS /\ d_err (exit_bstr_wrapped (r_d r1)) <> QD_CALLBACK_FAIL)).
  { intros r1. unfold o1. destruct (qd_ok (d_err d1)) eqn:Q.
    - destruct P as (b & a & k & tg & P); [destruct (d_err d1); try discriminate; reflexivity|].
      injection P as -> _. destruct (negb (u_len prot =? 0)).
      + intros E T. destruct (parse_levels c [LvBstr a; LvAgg false k cnt s] b tg _ _ _ r1 I E T) as (rest & tg2 & ->).
        left. unfold outer. exists a, k, tg2. reflexivity.
      + intro E. injection E as <-. intros _. left. exists a, k, tg. reflexivity.
    - assert (Q' : d_err d1 <> QD_SUCCESS) by (intro X; rewrite X in Q; discriminate).
      destruct (negb (u_len prot =? 0)).
      + rewrite parse_failed by assumption. intro E. injection E as <-. cbn. intro X. now apply perr_bad in X.
      + intro E. injection E as <-. intros _. right. cbn [r_d]. unfold exit_bstr_wrapped. rewrite Q. cbn. auto. }
  clearbody o1. destruct o1 as [r1|w]; cbn [obind]; [|discriminate].
  destruct (terr_eqb (r_err r1) T_SUCCESS) eqn:T1; cbn [negb]; [|discriminate].
  apply terr_eqb_eq in T1. specialize (P1 r1 eq_refl T1). clear P PF T1.
  destruct (parse_cose_header_parameters c (exit_bstr_wrapped (r_d r1)) (r_params r1) None (r_unknown r1)) as [r2|w] eqn:E2;
    cbn [obind]; [|discriminate].
  destruct (terr_eqb (r_err r2) T_SUCCESS) eqn:T2; cbn [negb]; [|discriminate]. apply terr_eqb_eq in T2.
  destruct P1 as [P1|[P1 P1']].
  2:{ rewrite parse_failed in E2 by assumption. injection E2 as <-. now apply perr_bad in T2. }
  destruct P1 as (bs & k & tg & P1). rewrite P1 in E2.
  destruct (parse_levels c [LvAgg false k cnt s] bs tg _ _ _ r2 I E2 T2) as (rest & tg2 & D2).
  assert (O2 : outer cnt s (r_d r2)) by (rewrite D2; unfold outer; cbn; eauto). clear E2 T2 D2 P1.
  assert (Fin : forall d3 d4, outer cnt s d3 -> fst (get_byte_string d3) = d4 ->
      decode_error_to_terr (dec_finish (exit_array d4)) = T_SUCCESS -> exists t, reads 0 t (hb ++ s)).
  { intros d3 d4 O3 E4 F. apply terr_success in F. apply Goal. exists d4. split; [|exact F].
    assert (S4 : d_err d4 = QD_SUCCESS).
    { destruct (qd_ok (d_err d4)) eqn:Q; [destruct (d_err d4); try discriminate; reflexivity|].
      exfalso. apply (f_equal decode_error_to_terr) in F.
      rewrite finish_failed in F by (intro X; rewrite X in Q; discriminate).
      apply terr_success in F. rewrite F in Q. discriminate. }
    rewrite <- E4 in S4. destruct (get_bytes_outer _ _ _ O3 S4) as [O4 _]. now rewrite <- E4. }
  destruct is_dc.
  - destruct payload as [pl|]; cbn [obind]; [|discriminate].
    pose proof (get_next_outer _ _ _ O2) as O3. destruct (get_next (r_d r2)) as [[x it] d3]. cbn [snd] in O3. cbn [obind].
    destruct (match i_val it with VNullV => false | _ => true end); [discriminate|].
    destruct (get_byte_string d3) as [d4 os] eqn:E4.
    destruct (terr_eqb (decode_error_to_terr (dec_finish (exit_array d4))) T_SUCCESS) eqn:F; cbn [negb]; [|discriminate].
    intros _. apply terr_eqb_eq in F. apply (Fin d3 d4); [exact O3|now rewrite E4|exact F].
  - destruct (get_byte_string (r_d r2)) as [d3 o3] eqn:E3. cbn [obind].
    destruct (get_byte_string d3) as [d4 os] eqn:E4.
    destruct (terr_eqb (decode_error_to_terr (dec_finish (exit_array d4))) T_SUCCESS) eqn:F; cbn [negb]; [|discriminate].
    intros _. apply terr_eqb_eq in F.
    assert (O3 : d_err d3 = QD_SUCCESS -> outer cnt s d3).
    { intro S3. pose proof (get_bytes_outer _ _ _ O2) as K. rewrite E3 in K. now apply K. }
    destruct (qd_ok (d_err d3)) eqn:Q.
    + apply (Fin d3 d4); [apply O3; destruct (d_err d3); try discriminate; reflexivity|now rewrite E4|exact F].
    + exfalso. assert (Q' : d_err d3 <> QD_SUCCESS) by (intro X; rewrite X in Q; discriminate).
      rewrite get_bytes_failed in E4 by exact Q'. injection E4 as <- _.
      rewrite finish_failed in F by exact Q'. apply terr_success in F. contradiction.
Qed.
