(** Further facts about signing: embedding in a larger encoding, errors made
    while building the payload, NULL and empty buffers, unsupported algorithms,
    the auxiliary buffer. *)
From Verif Require Import Base Const QEnc Crypto Util ShortCircuit Sign Spec SignSpec PieceSpec Toy.
From Verif Require Import BaseFacts EncFacts UtilFacts SignFacts SignProofs SignMore SignMore2 Piece.
From Coq Require Import Lia ZifyBool ZifyNat ZifyN.
Open Scope N_scope. Open Scope list_scope.
Local Open Scope mon_scope.
Local Strategy 100 [create_tbs create_tbs_hash].

(** ** Embedding *)

Theorem embedded c cr me aad f e log r m :
  e_err e = QE_SUCCESS -> e_oerr e = false -> e_null e = false ->
  e_cap e <= MAX_OFFSET -> e_pos e <= e_cap e ->
  (length (e_nest e) <= 12)%nat -> (2 + length (e_nest e) + forest_depth f <= 15)%nat ->
  forest_fits f -> bcount f < 65534 ->
  match e_nest e with [] => e_top e | n :: _ => n_count n end + 1 < 65534 ->
  sign_aad_internal c cr me false (UBuf (forest_bytes f)) aad
     {| wb_null := false; wb_len := e_cap e - e_pos e |} = (log, Ret (T_SUCCESS, r, Some (UBuf m))) ->
  exists me2,
    piecewise_on c cr me aad (forest_ops f) e =
    (log, Ret (T_SUCCESS, me2,
       {| e_null := false; e_cap := e_cap e; e_data := e_data e ++ m; e_oerr := false;
          e_top := match e_nest e with [] => e_top e + 1 | _ => e_top e end;
          e_nest := match e_nest e with
                    | [] => []
                    | n :: l => {| n_type := n_type n; n_start := n_start n; n_count := n_count n + 1 |} :: l
                    end;
          e_err := QE_SUCCESS |})).
Proof.
  intros E1 E2 E3 CO PC NL ND F BC CT H.
  set (pl := forest_bytes f) in *. set (room := e_cap e - e_pos e) in *.
  assert (HP : holds (UBuf pl) pl) by now left.
  assert (H0 : exists me', sign_aad_internal c cr me false (UBuf pl) aad {| wb_null := false; wb_len := room |}
             = (log, Ret (T_SUCCESS, me', Some (UBuf m)))) by eauto.
  apply (sign_success_iff c cr me false (UBuf pl) aad pl room log m HP) in H0.
  destruct H0 as (w & k & D1 & D2 & AL & S1 & CTC & Ln & -> & FT & CORE).
  set (top' := match e_nest e with [] => e_top e + 1 | _ => e_top e end).
  set (ns' := match e_nest e with [] => [] | n :: l => inc n :: l end).
  assert (RE : R false (e_cap e) e (e_data e) (e_top e) (e_nest e)).
  { unfold R. fold (e_pos e). apply N.leb_le in PC. rewrite PC. unfold mk.
    destruct e as [a b d2 o t ns er]. cbn in *. now subst. }
  assert (CI : can_inc (e_top e) (e_nest e) top' ns').
  { unfold can_inc, top', ns'. destruct (e_nest e); (split; [exact CT|split; reflexivity]). }
  assert (L' : length ns' = length (e_nest e)) by (unfold ns'; destruct (e_nest e); reflexivity).
  assert (UX : (e_data e ++ tag_bytes me) ++ heads c me ++ encode (CBytes pl)
               = e_data e ++ unsigned c me false (UBuf pl)).
  { unfold unsigned. cbn [payload_item src_bytes]. now rewrite <- !app_assoc. }
  assert (BX : blen ((e_data e ++ tag_bytes me) ++ heads c me ++ encode (CBytes pl)) <= e_cap e).
  { rewrite UX, blen_app. fold (e_pos e). unfold room in Ln. clear - Ln PC. lia. }
  destruct (piecewise_on_eq false (e_cap e) c cr me aad f e (e_data e) (e_top e) (e_nest e) top' ns' RE CI)
    as (e0 & g & G1 & G2 & G3); auto; try (rewrite L'; assumption).
  { fold pl. eapply N.le_trans; [exact BX|exact CO]. }
  fold pl in G1, G2, G3. specialize (G3 BX). clear G2.
  rewrite G1. clear G1.
  replace (e_cap e <? blen ((e_data e ++ tag_bytes me) ++ heads c me ++ encode (CBytes pl))) with false
    by (symmetry; apply N.ltb_ge; exact BX).
  rewrite UX. rewrite blen_app. fold (e_pos e).
  assert (RM : e_cap e - (e_pos e + blen (unsigned c me false (UBuf pl)))
               = room - blen (unsigned c me false (UBuf pl))) by (unfold room; clear; lia).
  rewrite RM. unfold place, inbuf. cbn [orb].
  replace (room - blen (unsigned c me false (UBuf pl)) =? 0) with false by (clear - Ln; lia).
  set (me1 := sc_set_prot me _).
  assert (SC : same_config me me1) by (repeat split; now left).
  rewrite (sign_core_history _ _ _ _ _ _ _ _ SC) in CORE.
  apply mbind_ret_inv in CORE as (l1 & [[[err me2] k'] w'] & l2 & H1 & H2 & ->).
  cbn [sig_only] in H2. unfold mret in H2. injection H2 as <- -> -> ->.
  rewrite H1. cbn [mbind terr_eqb negb mret]. rewrite !app_nil_r.
  exists me2. do 3 f_equal. specialize (G3 k w).
  change (cose_sign1 _ _ _ _ _) with (message c me false (UBuf pl) (sigw k w)) in G3.
  apply R_fits in G3.
  - rewrite G3. unfold mk, top', ns', inc. destruct (e_nest e); reflexivity.
  - rewrite blen_app. fold (e_pos e). unfold room in FT. clear - FT PC. lia.
Qed.

(** ** Errors while building the payload *)

Lemma signature_bad c cr me aad dp e :
  bad e -> exists err e', encode_signature_aad_internal c cr me aad dp e = ([], Ret (err, me, e')) /\
                          err <> T_SUCCESS /\ bad e'.
Proof.
  intro B. unfold encode_signature_aad_internal.
  assert (B2 : bad (fst (if u_is_null dp then let (e', s) := enc_close_bstr e in (e', resolve e' s) else (e, dp)))).
  { destruct (u_is_null dp); [|exact B]. pose proof (bad_close_bstr _ B) as B'.
    destruct (enc_close_bstr e). exact B'. }
  destruct (if u_is_null dp then _ else _) as [e1 sp]. cbn [fst] in B2.
  pose proof (bad_terr _ B2) as T. rewrite T. cbn [negb].
  do 2 eexists. split; [reflexivity|]. split; [|exact B2].
  intro E. rewrite E in T. discriminate.
Qed.

Definition level_type (l : level) : ntype :=
  match l with LArray => NArray | LMap => NMap | LBstr => NBstr end.

Definition types (e : enc) : list ntype := map n_type (e_nest e).

Lemma types_append e u : types (enc_append e u) = types e.
Proof. unfold enc_append, enc_insert, types. destruct (e_oerr e); [reflexivity|]. repeat (destruct (_ <? _); [reflexivity|]). reflexivity. Qed.

Lemma types_increment e : types (enc_increment e) = types e.
Proof.
  unfold enc_increment, types. destruct (negb _); [reflexivity|].
  destruct (e_nest e) eqn:E; destruct (_ <=? _); cbn [set_err set_top set_nest e_nest map n_type];
    rewrite ?E; reflexivity.
Qed.

Lemma types_open e t : bad (enc_open e t) \/ types (enc_open e t) = t :: types e.
Proof.
  unfold enc_open. pose proof (types_increment e) as TI. destruct (qe_ok (e_err (enc_increment e))) eqn:E.
  - cbn [negb]. destruct (_ <? _); [left; right; discriminate|].
    destruct (Nat.leb _ _); [left; right; discriminate|].
    right. unfold types in *. cbn [set_nest e_nest map n_type]. now rewrite TI.
  - left. right. cbn [negb]. intro X. rewrite X in E. discriminate.
Qed.

Lemma types_close e t mt a r :
  e_err e = QE_SUCCESS -> types e = r ->
  match r with
  | [] => bad (enc_close e t mt a)
  | t' :: r' => if ntype_eqb t' t then types (enc_close e t mt a) = r' else bad (enc_close e t mt a)
  end.
Proof.
  intros E <-. unfold enc_close, types. rewrite E. cbn [qe_ok negb].
  destruct (e_nest e) as [|n l]; cbn [map]; [right; discriminate|].
  destruct (ntype_eqb (n_type n) t); cbn [negb]; [reflexivity|right; discriminate].
Qed.

Lemma close_bstr_fst e : fst (enc_close_bstr e) = enc_close e NBstr MT_BSTR (fun n e => e_pos e - n_start n).
Proof.
  unfold enc_close_bstr. destruct (_ || _); [reflexivity|]. destruct (e_nest e); [reflexivity|].
  destruct (e_oerr _); reflexivity.
Qed.

Lemma bad_append e u : bad e -> bad (enc_append e u).
Proof. apply bad_insert. Qed.

Lemma bad_op e o : bad e -> bad (eop_run e o).
Proof.
  intro B.
  destruct o; cbn [eop_run];
    unfold enc_add_tag, enc_add_uint, enc_add_int, enc_add_bytes, enc_add_text, enc_add_null,
      enc_add_encoded, enc_add_head, enc_open_map, enc_open_array, enc_open_bstr,
      enc_close_map, enc_close_array;
    try (destruct (_ <? _)%Z);
    repeat first [apply bad_increment | apply bad_append | apply bad_open | apply bad_close
                 | apply bad_close_bstr]; exact B.
Qed.

Lemma bad_ops ops : forall e, bad e -> bad (eops_run e ops).
Proof.
  induction ops as [|o l IH]; [auto|]. intros e B. cbn [eops_run fold_left]. apply IH, bad_op, B.
Qed.

Lemma not_bad e : bad e \/ (e_err e = QE_SUCCESS /\ e_oerr e = false).
Proof.
  unfold bad. destruct (e_oerr e); [auto|]. destruct (qe_ok (e_err e)) eqn:E.
  - apply qe_ok_eq in E. auto.
  - left. right. intro X. rewrite X in E. discriminate.
Qed.

Definition tracks (base : list ntype) (s : nesting) (e : enc) : Prop :=
  match s with
  | Open l => bad e \/ types e = map level_type l ++ NBstr :: base
  | Mismatched => bad e
  | Escaped => True
  end.

Lemma tracks_op base s e o : tracks base s e -> tracks base (nest_op s o) (eop_run e o).
Proof.
  destruct s as [l| |]; cbn [nest_op tracks]; [|intro B; now apply bad_op|auto].
  intros [B|T].
  { pose proof (bad_op e o B) as B'.
    destruct o; cbn [tracks]; auto; unfold close_level; destruct l as [|[] l]; cbn [tracks]; auto. }
  assert (CL : forall k mt a, tracks base (close_level k l) (enc_close e (level_type k) mt a)).
  { intros k mt a. destruct (not_bad e) as [B|[E _]].
    - pose proof (bad_close e (level_type k) mt a B) as B'. unfold close_level.
      destruct l as [|[] l]; destruct k; cbn [tracks]; auto.
    - pose proof (types_close e (level_type k) mt a _ E T) as TC.
      destruct l as [|[] l]; destruct k; cbn in TC |- *; auto. }
  destruct o; cbn [eop_run tracks];
    try (right; unfold enc_add_tag, enc_add_uint, enc_add_int, enc_add_bytes, enc_add_text, enc_add_null,
           enc_add_encoded, enc_add_head;
         try (destruct (_ <? _)%Z); rewrite ?types_increment, ?types_append; exact T).
  - destruct (types_open e NMap) as [B|T']; [now left|]. right. unfold enc_open_map. rewrite T', T. reflexivity.
  - destruct (types_open e NArray) as [B|T']; [now left|]. right. unfold enc_open_array. rewrite T', T. reflexivity.
  - destruct (types_open e NBstr) as [B|T']; [now left|]. right. unfold enc_open_bstr. rewrite T', T. reflexivity.
  - apply (CL LMap).
  - apply (CL LArray).
  - rewrite close_bstr_fst. apply (CL LBstr).
Qed.

Lemma tracks_ops base ops : forall s e, tracks base s e -> tracks base (fold_left nest_op ops s) (eops_run e ops).
Proof.
  induction ops as [|o l IH]; [auto|]. intros s e H. cbn [fold_left eops_run]. apply IH, tracks_op, H.
Qed.

Lemma types_close_bytes e n w : bad (enc_close_bytes e n w) \/
  exists r, types e = NOpenBytes :: r /\ types (enc_close_bytes e n w) = r.
Proof.
  destruct (not_bad e) as [B|[E O]]; [left; now apply bad_close_bytes|].
  unfold enc_close_bytes. rewrite E, O. cbn [qe_ok negb].
  destruct (_ <? _); [left; left; reflexivity|].
  set (e1 := set_data e _).
  pose proof (types_close e1 NOpenBytes MT_BSTR (fun _ _ => n) (types e1) E eq_refl) as TC.
  change (types e1) with (types e) in TC.
  destruct (types e) as [|t r]; [now left|]. destruct t; cbn [ntype_eqb] in TC; eauto.
Qed.

(** Finishing fails after a payload whose building left levels open or closed
    the wrong ones. *)
Theorem unbalanced_not_finished c cr me me' aad e ops s :
  encode_parameters c me (enc_init s) = (T_SUCCESS, me', e) ->
  (nesting_of ops = Mismatched \/ exists k l, nesting_of ops = Open (k :: l)) ->
  forall log err me2 e2, encode_signature_aad c cr me' aad (eops_run e ops) = (log, Ret (err, me2, e2)) ->
    (nesting_of ops = Mismatched -> err <> T_SUCCESS /\ log = []) /\
    (err = T_SUCCESS -> fst (enc_finish e2) <> QE_SUCCESS).
Proof.
  intros EP NB log err me2 e2 H.
  assert (TE : tracks [NArray] (Open []) e).
  { cbn [tracks map app].
    unfold encode_parameters, encode_parameters_internal in EP.
    destruct (negb (signature_algorithm_id_is_supported _ _)); [discriminate|].
    set (e0 := if negb _ then _ else _) in EP.
    assert (T0 : types e0 = []).
    { unfold e0, enc_add_tag, enc_add_head. destruct (negb _); rewrite ?types_append; reflexivity. }
    clearbody e0.
    assert (O : forall x t, types x = t -> forall k, bad (enc_open x k) \/ types (enc_open x k) = k :: t).
    { intros x t <- k. apply types_open. }
    assert (C : forall x t k mt a, bad x \/ types x = k :: t -> bad (enc_close x k mt a) \/ types (enc_close x k mt a) = t).
    { intros x t k mt a [B|T]; [left; now apply bad_close|].
      destruct (not_bad x) as [B|[E _]]; [left; now apply bad_close|].
      pose proof (types_close x k mt a _ E T) as TC. cbn beta iota in TC. rewrite ntype_eqb_refl in TC. auto. }
    assert (OB : forall x t k, bad x \/ types x = t -> bad (enc_open x k) \/ types (enc_open x k) = k :: t).
    { intros x t k [B|T]; [left; now apply bad_open|now apply O]. }
    assert (AP : forall x t u, bad x \/ types x = t -> bad (enc_append x u) \/ types (enc_append x u) = t).
    { intros x t u [B|T]; [left; now apply bad_append|right; now rewrite types_append]. }
    assert (IC : forall x t, bad x \/ types x = t -> bad (enc_increment x) \/ types (enc_increment x) = t).
    { intros x t [B|T]; [left; now apply bad_increment|right; now rewrite types_increment]. }
    assert (AI : forall x t z, bad x \/ types x = t -> bad (enc_add_int x z) \/ types (enc_add_int x z) = t).
    { intros x t z X. unfold enc_add_int, enc_add_head. destruct (_ <? _)%Z; apply IC, AP, X. }
    unfold encode_protected_parameters in EP.
    set (e1 := enc_close_map _) in EP.
    assert (T1 : bad e1 \/ types e1 = [NBstr; NArray]).
    { unfold e1, enc_close_map. apply C. unfold enc_add_int_to_map. apply AI, AI.
      unfold enc_open_map, enc_open_bstr, enc_open_array. apply OB, OB, OB. now right. }
    clearbody e1.
    assert (T2 : bad (fst (enc_close_bstr e1)) \/ types (fst (enc_close_bstr e1)) = [NArray]).
    { rewrite close_bstr_fst. now apply C. }
    destruct (enc_close_bstr e1) as [e3 p]. cbn [fst] in T2.
    destruct (_ && dis_short_circuit c); [discriminate|].
    set (kid := if _ && _ then _ else _) in EP. clearbody kid.
    assert (T3 : bad (snd (add_unprotected_parameters c (sc_set_prot me p) kid e3)) \/
                 types (snd (add_unprotected_parameters c (sc_set_prot me p) kid e3)) = [NArray] \/
                 fst (add_unprotected_parameters c (sc_set_prot me p) kid e3) <> T_SUCCESS).
    { unfold add_unprotected_parameters.
      set (e4 := if negb _ then _ else _).
      assert (T4 : bad e4 \/ types e4 = [NMap; NArray]).
      { unfold e4. assert (X : bad (enc_open_map e3) \/ types (enc_open_map e3) = [NMap; NArray]) by now apply OB.
        destruct (negb _); [|exact X]. unfold enc_add_bytes_to_map, enc_add_bytes, enc_add_head.
        apply IC, AP, AP, AI, X. }
      clearbody e4. destruct (dis_content_type c).
      - cbn [snd fst]. destruct (C e4 [NArray] NMap MT_MAP (fun n _ => n_count n / 2) T4); auto.
      - destruct (negb _), (c_ct_tstr _); cbn [fst snd];
          [right; right; discriminate|..];
          unfold enc_close_map;
          match goal with |- bad (enc_close ?x _ _ _) \/ _ => assert (T5 : bad x \/ types x = [NMap; NArray]) end;
          try (unfold enc_add_uint_to_map, enc_add_text_to_map, enc_add_uint, enc_add_text, enc_add_head;
               first [apply IC, AP, AI, T4 | apply IC, AP, AP, AI, T4 | exact T4]);
          (match goal with |- bad (enc_close ?x _ _ ?a) \/ _ => destruct (C x [NArray] NMap MT_MAP a T5); auto end). }
    destruct (add_unprotected_parameters c (sc_set_prot me p) kid e3) as [er e4]. cbn [fst snd] in T3.
    destruct (terr_eqb er T_SUCCESS) eqn:ER; cbn [negb] in EP.
    2:{ injection EP as -> _ _. discriminate. }
    apply terr_eqb_eq in ER. injection EP as _ <-.
    destruct T3 as [B|[T3|X]]; [left; now apply bad_open|now apply O|contradiction]. }
  apply (tracks_ops _ ops) in TE. fold (nesting_of ops) in TE.
  set (ee := eops_run e ops) in *. clearbody ee.
  destruct (not_bad ee) as [B|G].
  { destruct (signature_bad c cr me' aad NULL_UBUF ee B) as (er & e3 & E3 & NE & B3).
    unfold encode_signature_aad in H. rewrite E3 in H.
    assert (log = [] /\ err = er) as [-> ->] by (split; congruence).
    split; [auto|contradiction]. }
  assert (NBAD : ~ bad ee). { destruct G. intros [X|X]; congruence. }
  destruct NB as [NB|(k & l & NB)]; rewrite NB in TE; cbn [tracks] in TE; [contradiction|].
  destruct TE as [X|TE]; [contradiction|].
  split; [rewrite NB; discriminate|]. intros ->.
  unfold encode_signature_aad, encode_signature_aad_internal in H. cbn [u_is_null NULL_UBUF] in H.
  pose proof (close_bstr_fst ee) as CB.
  pose proof (types_close ee NBstr MT_BSTR (fun n e => e_pos e - n_start n) _ (proj1 G) TE) as TC.
  destruct (enc_close_bstr ee) as [e1 sl]. cbn [fst] in CB. rewrite <- CB in TC. clear CB.
  cbn [map app] in TC.
  assert (FB : bad e2 \/ e_nest e2 <> [] -> fst (enc_finish e2) <> QE_SUCCESS).
  { intros [B|NN]; unfold enc_finish.
    - apply bad_error in B. destruct (enc_error e2); try discriminate; congruence.
    - destruct (enc_error e2); try discriminate. destruct (e_nest e2); [congruence|discriminate]. }
  apply FB. clear FB.
  destruct (terr_eqb (enc_error_to_terr (enc_error e1)) T_SUCCESS) eqn:ER; cbn [negb] in H.
  2:{ unfold mret in H. injection H as _ H _. rewrite H in ER. discriminate. }
  assert (NB1 : ~ bad e1). { intro B. apply bad_terr in B. congruence. }
  assert (T1 : types e1 = map level_type l ++ [NBstr; NArray]).
  { destruct k; cbn [level_type ntype_eqb] in TC; [contradiction|contradiction|exact TC]. }
  assert (NT : forall x, types x <> [] -> e_nest x <> []).
  { intros x X Y. apply X. unfold types. now rewrite Y. }
  unfold enc_open_bytes in H. pose proof (types_open e1 NOpenBytes) as TO. rewrite T1 in TO.
  set (e3 := enc_open e1 NOpenBytes) in *. clearbody e3.
  apply mbind_ret_inv in H as (l1 & [[[er m3] n] w] & l2 & H1 & H2 & ->).
  destruct (terr_eqb er T_SUCCESS) eqn:ER2; cbn [negb] in H2.
  2:{ unfold mret in H2. injection H2 as _ H2 _ _. subst er. discriminate. }
  unfold mret in H2. injection H2 as _ _ <-.
  destruct (types_close_bytes e3 n w) as [B|(r & R1 & R2)].
  { left. now apply bad_close. }
  destruct TO as [B|TO]. { left. apply bad_close. now apply bad_close_bytes. }
  assert (r = map level_type l ++ [NBstr; NArray]) as -> by congruence.
  set (e4 := enc_close_bytes e3 n w) in *. clearbody e4.
  destruct (not_bad e4) as [B|[E4 _]]; [left; now apply bad_close|].
  pose proof (types_close e4 NArray MT_ARRAY (fun n _ => n_count n) _ E4 R2) as TC4.
  destruct l as [|k' l]; cbn [map app level_type ntype_eqb] in TC4; [now left|].
  destruct (ntype_eqb (level_type k') NArray); [|now left].
  right. apply NT. unfold enc_close_array. rewrite TC4. destruct l; discriminate.
Qed.

(** ** NULL and empty *)

Theorem inline_null_payload c cr me aad buf :
  sign_aad_internal c cr me false (UNull 0) aad buf = sign_aad_internal c cr me false (UBuf []) aad buf.
Proof. reflexivity. Qed.

Lemma snd_mbind {A B} (x x' : M A) (f f' : A -> M B) :
  snd x = snd x' -> (forall a, snd (f a) = snd (f' a)) -> snd (mbind x f) = snd (mbind x' f').
Proof.
  destruct x as [l r], x' as [l' r']. cbn [snd]. intros <- H. destruct r as [a|w]; [|reflexivity].
  cbn [mbind]. specialize (H a). destruct (f a), (f' a). exact H.
Qed.

Lemma tbs_hash_null c cr alg prot payload n :
  null_is_empty cr ->
  snd (create_tbs_hash c cr alg prot (UNull 0) payload n) = snd (create_tbs_hash c cr alg prot (UBuf []) payload n).
Proof.
  intro N. unfold create_tbs_hash. destruct (_ =? _)%Z; [reflexivity|].
  apply snd_mbind; [reflexivity|]. intros [err h]. destruct (negb _); [reflexivity|].
  apply snd_mbind; [reflexivity|]. intro h1. apply snd_mbind; [reflexivity|]. intro h2.
  apply snd_mbind; [|intro; reflexivity].
  unfold hash_bstr. apply snd_mbind; [reflexivity|]. intro h3. cbn. apply N.
Qed.

Lemma sign_core_null c cr me prot payload buf :
  null_is_empty cr ->
  snd (sign_core c cr me prot (UNull 0) payload buf) = snd (sign_core c cr me prot (UBuf []) payload buf).
Proof.
  intro N. unfold sign_core. destruct (_ && _); [|destruct (_ && _)].
  - apply snd_mbind; [now apply tbs_hash_null|reflexivity].
  - unfold sign1_sign_eddsa. rewrite !create_tbs_spec. reflexivity.
  - apply snd_mbind; [now apply tbs_hash_null|reflexivity].
Qed.

Theorem null_aad c cr me det payload buf :
  null_is_empty cr ->
  snd (sign_aad_internal c cr me det payload (UNull 0) buf)
  = snd (sign_aad_internal c cr me det payload (UBuf []) buf).
Proof.
  intro N. unfold sign_aad_internal.
  destruct (encode_parameters_internal _ _ _ _) as [[err m] e]. destruct (negb _); [reflexivity|].
  apply snd_mbind; [|reflexivity].
  unfold encode_signature_aad_internal. destruct (if u_is_null _ then _ else _) as [e1 sp].
  destruct (negb _); [reflexivity|]. destruct (enc_open_bytes e1) as [e2 b].
  apply snd_mbind; [|reflexivity]. apply (sign_core_null c cr m _ _ _ N).
Qed.

(** ** Unsupported algorithms *)

Theorem sign_unsupported c cr me det payload aad buf :
  ~ enabled c (c_alg me) ->
  sign_aad_internal c cr me det payload aad buf = ([], Ret (ERR_UNSUPPORTED_SIGNING_ALG, me, None)).
Proof.
  intro E. unfold sign_aad_internal, encode_parameters_internal.
  destruct (signature_algorithm_id_is_supported c (c_alg me)) eqn:A; [|reflexivity].
  apply supported_spec in A. contradiction.
Qed.

Theorem params_unsupported c me e :
  ~ enabled c (c_alg me) -> encode_parameters c me e = (ERR_UNSUPPORTED_SIGNING_ALG, me, e).
Proof.
  intro E. unfold encode_parameters, encode_parameters_internal.
  destruct (signature_algorithm_id_is_supported c (c_alg me)) eqn:A; [|reflexivity].
  apply supported_spec in A. contradiction.
Qed.

(** ** EdDSA and its auxiliary buffer *)

Theorem eddsa_aux c cr q me det payload aad pl ad n :
  configured q me -> holds payload pl -> holds aad ad -> (det = true -> u_is_null payload = false) ->
  q_alg q = (-8)%Z -> dis_eddsa c = false -> wants_short_circuit (q_flags q) = false ->
  ~ (dis_content_type c = false /\ q_ct_uint q <> None /\ q_ct_text q <> None) ->
  let tbs := requested_tbs q ad pl in
  blen (requested_message c q (if det then None else Some pl) []) <= n -> n <= MAX_OFFSET ->
  forall log err me' r,
  sign_aad_internal c cr me det payload aad {| wb_null := false; wb_len := n |} = (log, Ret (err, me', r)) ->
  (blen tbs <= wb_len (q_aux q) -> sign_auxiliary_buffer_size c me' = blen tbs) /\
  (wb_len (q_aux q) < blen tbs -> err = ERR_AUXILIARY_BUFFER_SIZE /\ log = []) /\
  (blen tbs <= wb_len (q_aux q) -> wb_null (q_aux q) = true -> err = ERR_NEED_AUXILIARY_BUFFER /\ log = []) /\
  (blen tbs <= wb_len (q_aux q) -> wb_null (q_aux q) = false -> log = [EvSignEddsa (q_key q) tbs]).
Proof.
  intros C P A ND QA DE SC CT tbs L MO log err me' r H.
  assert (CA : c_alg me = (-8)%Z) by (destruct C as (-> & _); exact QA).
  assert (S0 : sc_on me = false) by (rewrite (sc_on_spec _ _ C); exact SC).
  assert (SUP : signature_algorithm_id_is_supported c (c_alg me) = true).
  { apply supported_spec. rewrite CA. unfold enabled. tauto. }
  assert (CC : ct_clash c me = false).
  { destruct (ct_clash c me) eqn:E; [|reflexivity]. exfalso. apply CT.
    unfold ct_clash in E. destruct (dis_content_type c); [discriminate|]. split; [reflexivity|].
    destruct C as (_ & _ & _ & _ & U & T & _). rewrite T in E.
    destruct (q_ct_text q); [|now rewrite andb_false_r in E]. split; [|discriminate].
    intro Q. rewrite Q in U. rewrite U in E. discriminate. }
  pose proof (message_spec c q me det payload pl [] C P) as ME.
  rewrite <- ME in L. clear ME. rewrite message_len in L.
  pose proof (short_head_pos 2 (blen ([] : bytes))) as SP.
  assert (LU : blen (unsigned c me det payload) < n) by (clear - L SP; lia).
  assert (BU : blen (unsigned c me det payload) <= MAX_OFFSET) by (clear - LU MO; lia).
  rewrite (sign_eq c cr me det payload aad _ ND BU) in H. cbn [wb_null wb_len] in H.
  rewrite SUP, S0, CC in H. cbn [negb andb] in H.
  replace (n <? blen (unsigned c me det payload)) with false in H by (clear - LU; lia).
  unfold place, inbuf in H. cbn [orb] in H.
  replace (n - blen (unsigned c me det payload) =? 0) with false in H by (clear - LU; lia).
  set (room := n - _) in H. clearbody room.
  unfold sign_core in H. change (has_flag (c_flags (with_prot me _)) OPT_SHORT_CIRCUIT_SIG) with (sc_on me) in H.
  rewrite S0 in H. change (c_alg (with_prot me _)) with (c_alg me) in H. rewrite CA, DE in H.
  change ((-8 =? EDDSA)%Z) with true in H. cbn [andb negb] in H.
  unfold sign1_sign_eddsa in H.
  change (c_aux (with_prot me _)) with (c_aux me) in H.
  set (prot := UBuf (protected_header (-8))) in H.
  set (pp := if det then payload else UBuf (src_bytes payload)) in H.
  pose proof (create_tbs_spec prot aad pp (c_aux me)) as TS. cbv zeta in TS.
  assert (TE : sig_structure (src_bytes prot) (src_bytes aad) (src_bytes pp) = tbs).
  { unfold tbs, requested_tbs. rewrite QA. unfold pp. rewrite (holds_src _ _ A).
    destruct det; cbn [src_bytes]; rewrite (holds_src _ _ P); reflexivity. }
  rewrite TE in TS. destruct (create_tbs prot aad pp (c_aux me)) as [er tb].
  destruct C as (_ & _ & CK & _ & _ & _ & CX). rewrite CX in TS.
  assert (AS : forall m t, sign_auxiliary_buffer_size c (sc_set_aux_size m t) = t).
  { intros. unfold sign_auxiliary_buffer_size. now rewrite DE. }
  destruct (N.leb_spec (blen tbs) (wb_len (q_aux q))) as [F|F];
    injection TS as -> ->; cbn [terr_eqb negb] in H.
  2:{ cbn [mbind mret terr_eqb negb app] in H. injection H as <- <- _ _.
      repeat split; intros; try reflexivity; exfalso; clear - F H; lia. }
  change (wb_null {| wb_null := false; wb_len := room |}) with false in H. cbn iota in H.
  change (c_aux (sc_set_aux_size (with_prot me _) _)) with (c_aux me) in H. rewrite CX in H.
  change (c_key (sc_set_aux_size (with_prot me _) _)) with (c_key me) in H. rewrite CK in H.
  destruct (wb_null (q_aux q)) eqn:WN.
  - cbn [u_len] in H. cbn [mbind mret terr_eqb negb app] in H. injection H as <- <- <- _.
    split; [intro; apply AS|]. split; [intro; exfalso; clear - F H; lia|].
    split; [auto|discriminate].
  - cbn [u_len u_data wb_len] in H. rewrite mbind_assoc in H. unfold mlog in H.
    split; [|split; [intro; exfalso; clear - F H0; lia|split; [discriminate|]]]; intros _.
    + apply mbind_ret_inv in H as (l1 & [er s] & l2 & _ & H2 & _). rewrite mbind_ret_l in H2.
      cbn beta iota in H2. destruct (negb _); [|destruct (_ <=? _)];
        unfold mret in H2; injection H2 as _ _ <- _; apply AS.
    + intros _. apply mbind_ret_inv in H as (l1 & [er s] & l2 & H1 & H2 & ->). rewrite mbind_ret_l in H2.
      cbn beta iota in H2. injection H1 as <- _.
      destruct (negb _); [|destruct (_ <=? _)]; unfold mret in H2; injection H2 as <- _ _ _; reflexivity.
Qed.

(** The size calculation reports the same auxiliary buffer size, whatever the
    auxiliary buffer is, as long as its length is not too small. *)
Theorem eddsa_aux_size_calculation c cr q me det payload aad (pl ad : bytes) n :
  configured q me -> u_len payload = blen pl -> u_len aad = blen ad -> (det = true -> u_is_null payload = false) ->
  q_alg q = (-8)%Z -> dis_eddsa c = false -> wants_short_circuit (q_flags q) = false ->
  ~ (dis_content_type c = false /\ q_ct_uint q <> None /\ q_ct_text q <> None) ->
  let tbs := requested_tbs q ad pl in
  blen (requested_message c q (if det then None else Some pl) []) <= n -> n <= MAX_OFFSET ->
  blen tbs <= wb_len (q_aux q) ->
  forall log err me' r,
  sign_aad_internal c cr me det payload aad {| wb_null := true; wb_len := n |} = (log, Ret (err, me', r)) ->
  sign_auxiliary_buffer_size c me' = blen tbs.
Proof.
  intros C LP LA ND QA DE SC CT tbs L MO LT log err me' r H.
  assert (CA : c_alg me = (-8)%Z) by (destruct C as (-> & _); exact QA).
  assert (S0 : sc_on me = false) by (rewrite (sc_on_spec _ _ C); exact SC).
  assert (SUP : signature_algorithm_id_is_supported c (c_alg me) = true).
  { apply supported_spec. rewrite CA. unfold enabled. tauto. }
  assert (CC : ct_clash c me = false).
  { destruct (ct_clash c me) eqn:E; [|reflexivity]. exfalso. apply CT.
    unfold ct_clash in E. destruct (dis_content_type c); [discriminate|]. split; [reflexivity|].
    destruct C as (_ & _ & _ & _ & U & T & _). rewrite T in E.
    destruct (q_ct_text q); [|now rewrite andb_false_r in E]. split; [|discriminate].
    intro Q. rewrite Q in U. rewrite U in E. discriminate. }
  assert (LU0 : blen (unsigned c me det payload) = blen (unsigned c me det (UBuf pl))).
  { apply unsigned_len. rewrite !src_bytes_len. exact LP. }
  pose proof (message_spec c q me det (UBuf pl) pl [] C (or_introl eq_refl)) as ME.
  rewrite <- ME in L. clear ME. rewrite message_len in L.
  pose proof (short_head_pos 2 (blen ([] : bytes))) as SP.
  assert (LU : blen (unsigned c me det payload) < n) by (rewrite LU0; clear - L SP; lia).
  assert (BU : blen (unsigned c me det payload) <= MAX_OFFSET) by (clear - LU MO; lia).
  rewrite (sign_eq c cr me det payload aad _ ND BU) in H. cbn [wb_null wb_len] in H.
  rewrite SUP, S0, CC in H. cbn [negb andb] in H.
  replace (n <? blen (unsigned c me det payload)) with false in H by (clear - LU; lia).
  unfold place, inbuf in H. cbn [orb] in H.
  set (room := n - _) in H. clearbody room.
  unfold sign_core in H. change (has_flag (c_flags (with_prot me _)) OPT_SHORT_CIRCUIT_SIG) with (sc_on me) in H.
  rewrite S0 in H. change (c_alg (with_prot me _)) with (c_alg me) in H. rewrite CA, DE in H.
  change ((-8 =? EDDSA)%Z) with true in H. cbn [andb negb] in H.
  unfold sign1_sign_eddsa in H.
  change (c_aux (with_prot me _)) with (c_aux me) in H.
  set (prot := UNull _) in H.
  set (pp := if det then payload else _) in H.
  pose proof (create_tbs_spec prot aad pp (c_aux me)) as TS. cbv zeta in TS.
  assert (TE : blen (sig_structure (src_bytes prot) (src_bytes aad) (src_bytes pp)) = blen tbs).
  { unfold tbs, requested_tbs. rewrite QA. rewrite !sig_structure_eq.
    assert (B1 : blen (src_bytes prot) = blen (protected_header (-8))) by now rewrite src_bytes_len.
    assert (B2 : blen (src_bytes aad) = blen ad) by now rewrite src_bytes_len.
    assert (B3 : blen (src_bytes pp) = blen pl).
    { rewrite src_bytes_len. unfold pp. destruct det; [exact LP|]. cbn [u_len]. now rewrite src_bytes_len. }
    rewrite !blen_cons, !blen_app, B1, B2, B3. reflexivity. }
  set (ss := sig_structure _ _ _) in *. rewrite TE in TS. destruct (create_tbs prot aad pp (c_aux me)) as [er tb].
  destruct C as (_ & _ & CK & _ & _ & _ & CX). rewrite CX in TS.
  replace (blen tbs <=? wb_len (q_aux q)) with true in TS by (clear - LT; lia).
  injection TS as -> ->. cbn [terr_eqb negb] in H.
  change (wb_null {| wb_null := true; wb_len := room |}) with true in H. cbn iota in H.
  assert (UL : u_len (if wb_null (q_aux q) then UNull (blen tbs) else UBuf ss) = blen tbs).
  { destruct (wb_null (q_aux q)); [reflexivity|exact TE]. }
  rewrite UL in H. rewrite mbind_assoc in H.
  apply mbind_ret_inv in H as (l1 & [er s] & l2 & _ & H2 & _). rewrite mbind_ret_l in H2.
  cbn beta iota in H2.
  assert (AS : forall m t, sign_auxiliary_buffer_size c (sc_set_aux_size m t) = t).
  { intros. unfold sign_auxiliary_buffer_size. now rewrite DE. }
  destruct (negb _); [|destruct (_ <=? _)]; unfold mret in H2; injection H2 as _ _ <- _; apply AS.
Qed.

(** ** C02, C07, C46 *)

Theorem hash_path_is_eddsa_path c cr alg prot aad payload p a m n log d aux tbs :
  holds prot p -> holds aad a -> holds payload m ->
  create_tbs_hash c cr alg prot aad payload n = (log, Ret (T_SUCCESS, d)) ->
  create_tbs prot aad payload aux = (T_SUCCESS, Some (UBuf tbs)) ->
  hashed log = tbs.
Proof.
  intros P A Y H T. rewrite create_tbs_spec in T. cbv zeta in T.
  rewrite (holds_src _ _ P), (holds_src _ _ A), (holds_src _ _ Y) in T.
  destruct (_ <=? _); [|discriminate]. destruct (wb_null aux); [discriminate|].
  assert (sig_structure p a m = tbs) as <- by congruence.
  assert (F : In EvHashFinish log).
  { unfold create_tbs_hash in H. destruct (_ =? _)%Z; [discriminate|].
    apply mbind_ret_inv in H as (l1 & [er h] & l2 & _ & H & ->).
    destruct (terr_eqb er T_SUCCESS) eqn:E; cbn [negb] in H.
    2:{ unfold mret in H. injection H as _ -> _. discriminate. }
    do 4 (apply mbind_ret_inv in H as (? & ? & ? & _ & H & ->)).
    unfold mlog in H. injection H as <- _. repeat (apply in_or_app; right). now left. }
  apply create_tbs_hash_events in H as (_ & _ & V). rewrite (V F).
  rewrite chunks_data by (eapply holds_solid; eauto).
  now rewrite (holds_data _ _ P), (holds_data _ _ A), (holds_data _ _ Y).
Qed.

Theorem sign_aad_swaps c cr q me payload aad pl ad n log me' r :
  configured q me -> holds payload pl -> holds aad ad ->
  sign_aad c cr me aad payload {| wb_null := false; wb_len := n |} = (log, Ret (T_SUCCESS, me', r)) ->
  exists sig room,
    r = Some (UBuf (requested_message c q (Some ad) sig)) /\
    signature_of cr q (requested_tbs q pl ad) room sig.
Proof.
  intros C P A H. destruct (sign_success_spec _ _ _ _ _ _ _ _ _ _ _ _ _ C A P H) as (sig & room & E & _ & _ & S & _).
  exists sig, room. auto.
Qed.

Theorem sign_aad_refuted : exists c cr q me payload pl buf log me' r log2 me2 r2 sig,
  configured q me /\ holds payload pl /\
  sign_aad c cr me NULL_UBUF payload buf = (log, Ret (T_SUCCESS, me', r)) /\
  sign c cr me payload buf = (log2, Ret (T_SUCCESS, me2, r2)) /\
  r <> r2 /\ r = Some (UBuf (requested_message c q (Some []) sig)) /\ pl <> [].
Proof.
  exists cfg_full, toy, (toy_request (-7) 0), (toy_signer (-7) 0), (UBuf toy_payload), toy_payload, (out_buf 200).
  do 6 eexists.
  exists (toy_sig (toy_digest (requested_tbs (toy_request (-7) 0) toy_payload []))).
  split; [apply toy_configured|]. split; [now left|].
  split; [vm_compute; reflexivity|]. split; [vm_compute; reflexivity|].
  split; [discriminate|]. split; [vm_compute; reflexivity|discriminate].
Qed.

Theorem detached_null_refuted : exists c cr me aad buf log me1 r log2 me2,
  sign_detached c cr me aad (UBuf []) buf = (log, Ret (T_SUCCESS, me1, Some r)) /\
  sign_detached c cr me aad (UNull 0) buf = (log2, Ret (ERR_CBOR_FORMATTING, me2, None)).
Proof.
  exists cfg_full, toy, (toy_signer (-7) 0), NULL_UBUF, (out_buf 200). do 5 eexists.
  split; vm_compute; reflexivity.
Qed.

Theorem encoder_error_reported c cr me aad e :
  enc_error e <> QE_SUCCESS ->
  exists err e', encode_signature_aad c cr me aad e = ([], Ret (err, me, e')) /\
                 err <> T_SUCCESS /\ enc_error e' <> QE_SUCCESS.
Proof.
  intro B. apply bad_error in B. destruct (signature_bad c cr me aad NULL_UBUF e B) as (err & e' & E & N & B').
  exists err, e'. split; [exact E|]. split; [exact N|]. now apply bad_error.
Qed.

Theorem open_bstr_unnoticed : exists c cr me me' aad e s ops log me2 e2,
  encode_parameters c me (enc_init s) = (T_SUCCESS, me', e) /\
  nesting_of ops = Open [LBstr] /\
  encode_signature_aad c cr me' aad (eops_run e ops) = (log, Ret (T_SUCCESS, me2, e2)).
Proof.
  exists cfg_full, toy, (toy_signer (-7) 0). eexists. exists NULL_UBUF. eexists.
  exists (out_buf 200), [OpOpenBstr; OpUInt 1]. do 3 eexists.
  split; [vm_compute; reflexivity|]. split; [reflexivity|]. vm_compute. reflexivity.
Qed.

Theorem payload_closed_unnoticed : exists c cr me aad buf ops log me' m rest,
  nesting_of ops = Escaped /\
  piecewise c cr me aad ops buf = (log, Ret (T_SUCCESS, me', Some (UBuf m))) /\
  m = xd2 :: x85 :: rest.
Proof.
  exists cfg_full, toy, (toy_signer (-7) 0), NULL_UBUF, (out_buf 200), [OpUInt 1; OpCloseBstr; OpOpenBstr; OpUInt 2].
  do 4 eexists. split; [reflexivity|]. split; [vm_compute; reflexivity|reflexivity].
Qed.
