(** Facts about the QCBOR encoder model: what a sequence of operations leaves
    in the buffer, whatever the buffer's size. *)
From Verif Require Import Base Const QEnc Spec BaseFacts.
From Coq Require Import Lia ZifyBool ZifyNat ZifyN.
Open Scope N_scope.

(** An encoder without errors. *)
Definition mk (nul : bool) (cap : N) (d : bytes) (top : N) (ns : list nest) : enc :=
  {| e_null := nul; e_cap := cap; e_data := d; e_oerr := false;
     e_top := top; e_nest := ns; e_err := QE_SUCCESS |}.

(** [e] has output [d] so far, or [d] does not fit and [e] is in error. *)
Definition R (nul : bool) (cap : N) (e : enc) (d : bytes) (top : N) (ns : list nest) : Prop :=
  if blen d <=? cap then e = mk nul cap d top ns else e_oerr e = true.

Lemma R_init b : R (wb_null b) (wb_len b) (enc_init b) [] 0 [].
Proof.
  unfold R. destruct (N.leb_spec (blen (@nil byte)) (wb_len b)); [reflexivity|].
  unfold blen in *. cbn [length] in *. lia.
Qed.

(** ** Sticky errors *)

Lemma oerr_insert e u p : e_oerr e = true -> enc_insert e u p = e.
Proof. unfold enc_insert. now intros ->. Qed.

Lemma oerr_increment e : e_oerr (enc_increment e) = e_oerr e.
Proof.
  unfold enc_increment. destruct (qe_ok _); cbn; [|reflexivity].
  destruct (e_nest e) as [|n r]; destruct (_ <=? _); reflexivity.
Qed.

Lemma oerr_append e u : e_oerr e = true -> enc_append e u = e.
Proof. apply oerr_insert. Qed.

Lemma oerr_open e t : e_oerr (enc_open e t) = e_oerr e.
Proof.
  unfold enc_open. rewrite <- (oerr_increment e).
  generalize (enc_increment e); intro e'.
  destruct (qe_ok _); cbn [negb]; [|reflexivity].
  destruct (_ <? _); [reflexivity|]. destruct (Nat.leb _ _); reflexivity.
Qed.

Lemma oerr_close e t mt a : e_oerr e = true -> e_oerr (enc_close e t mt a) = true.
Proof.
  intro H. unfold enc_close. destruct (qe_ok _); cbn [negb]; [|exact H].
  destruct (e_nest e) as [|n r]; [exact H|].
  destruct (ntype_eqb _ _); cbn [negb]; [|exact H].
  rewrite oerr_insert by exact H. exact H.
Qed.

Lemma oerr_close_bytes e n w : e_oerr e = true -> e_oerr (enc_close_bytes e n w) = true.
Proof.
  intro H. unfold enc_close_bytes. rewrite H. now destruct (qe_ok _).
Qed.

(** ** Operations *)

Section Ops.
  Variables (nul : bool) (cap : N).
  Notation RR := (R nul cap).

  Lemma R_fits e d top ns : RR e d top ns -> blen d <= cap -> e = mk nul cap d top ns.
  Proof. unfold R. intros H L. apply N.leb_le in L. now rewrite L in H. Qed.

  Lemma R_over e d top ns : RR e d top ns -> cap < blen d -> e_oerr e = true.
  Proof. unfold R. intros H L. apply N.leb_gt in L. now rewrite L in H. Qed.

  Lemma R_oerr e d top ns : RR e d top ns -> e_oerr e = (cap <? blen d).
  Proof.
    unfold R. intro H. destruct (N.leb_spec (blen d) cap) as [L|L].
    - subst e. cbn. symmetry. apply N.ltb_ge. lia.
    - rewrite H. symmetry. apply N.ltb_lt. lia.
  Qed.

  Lemma src_bytes_len u : blen (src_bytes u) = u_len u.
  Proof. destruct u; cbn; [rewrite blen_repeat; lia | reflexivity]. Qed.

  Lemma R_insert e d1 d2 top ns u :
    RR e (d1 ++ d2) top ns ->
    RR (enc_insert e u (blen d1)) (d1 ++ src_bytes u ++ d2) top ns.
  Proof.
    intro H. unfold R. rewrite !blen_app, src_bytes_len.
    destruct (N.leb_spec (blen (d1 ++ d2)) cap) as [L|L].
    - apply R_fits in H; [|exact L]. subst e.
      unfold enc_insert, e_room, e_pos. cbn [mk e_oerr e_cap e_data].
      rewrite blen_app in *.
      destruct (N.leb_spec (blen d1 + (u_len u + blen d2)) cap) as [L1|L1].
      + destruct (N.ltb_spec (cap - (blen d1 + blen d2)) (u_len u)); [lia|].
        destruct (N.ltb_spec (blen d1 + blen d2) (blen d1)); [lia|].
        rewrite firstn_blen, skipn_blen. reflexivity.
      + destruct (N.ltb_spec (cap - (blen d1 + blen d2)) (u_len u)); [reflexivity|lia].
    - pose proof (R_over _ _ _ _ H L) as O. rewrite blen_app in L.
      destruct (N.leb_spec (blen d1 + (u_len u + blen d2)) cap); [lia|].
      rewrite oerr_insert; exact O.
  Qed.

  Lemma R_append e d top ns u :
    RR e d top ns -> RR (enc_append e u) (d ++ src_bytes u) top ns.
  Proof.
    intro H. destruct (N.leb_spec (blen d) cap) as [L|L].
    - pose proof (R_fits _ _ _ _ H L) as E. unfold enc_append, e_pos.
      replace (e_data e) with d by now rewrite E.
      assert (H' : RR e (d ++ []) top ns) by now rewrite app_nil_r.
      apply R_insert with (u := u) in H'. now rewrite app_nil_r in H'.
    - pose proof (R_over _ _ _ _ H L) as O.
      unfold R. rewrite blen_app. destruct (N.leb_spec (blen d + blen (src_bytes u)) cap); [lia|].
      rewrite oerr_append; exact O.
  Qed.

  Lemma R_map (f : enc -> enc) e d top ns top' ns' :
    RR e d top ns ->
    f (mk nul cap d top ns) = mk nul cap d top' ns' ->
    (forall e, e_oerr e = true -> e_oerr (f e) = true) ->
    RR (f e) d top' ns'.
  Proof.
    unfold R. intros H F O. destruct (_ <=? _).
    - now rewrite H.
    - now apply O.
  Qed.

  (** The level count after one more item. *)
  Definition inc (n : nest) : nest :=
    {| n_type := n_type n; n_start := n_start n; n_count := n_count n + 1 |}.

  Lemma R_increment e d top n r :
    RR e d top (n :: r) -> n_count n + 1 < MAX_ITEMS ->
    RR (enc_increment e) d top (inc n :: r).
  Proof.
    intros H L. apply R_map with (1 := H).
    - unfold enc_increment. cbn [mk e_err qe_ok negb e_nest].
      destruct (N.leb_spec MAX_ITEMS (n_count n + 1)); [lia|]. reflexivity.
    - intros e' He. now rewrite oerr_increment.
  Qed.

  Lemma R_increment_top e d top :
    RR e d top [] -> top + 1 < MAX_ITEMS ->
    RR (enc_increment e) d (top + 1) [].
  Proof.
    intros H L. apply R_map with (1 := H).
    - unfold enc_increment. cbn [mk e_err qe_ok negb e_nest e_top].
      destruct (N.leb_spec MAX_ITEMS (top + 1)); [lia|]. reflexivity.
    - intros e' He. now rewrite oerr_increment.
  Qed.

  Lemma R_open_aux e d top ns top' ns' t :
    RR e d top ns ->
    enc_increment (mk nul cap d top ns) = mk nul cap d top' ns' ->
    (length ns' < MAX_NESTING)%nat -> blen d <= MAX_OFFSET ->
    RR (enc_open e t) d top' ({| n_type := t; n_start := blen d; n_count := 0 |} :: ns').
  Proof.
    intros H I D O. apply R_map with (f := fun e => enc_open e t) (1 := H).
    - unfold enc_open. rewrite I. unfold e_pos. cbn [mk e_err qe_ok negb e_nest e_data].
      destruct (N.ltb_spec MAX_OFFSET (blen d)); [lia|].
      destruct (Nat.leb_spec MAX_NESTING (length ns')); [lia|]. reflexivity.
    - intros e' He. now rewrite oerr_open.
  Qed.

  Lemma R_open e d top n r t :
    RR e d top (n :: r) -> n_count n + 1 < MAX_ITEMS ->
    (S (length r) < MAX_NESTING)%nat -> blen d <= MAX_OFFSET ->
    RR (enc_open e t) d top ({| n_type := t; n_start := blen d; n_count := 0 |} :: inc n :: r).
  Proof.
    intros H L D O. eapply R_open_aux; try exact H; auto.
    unfold enc_increment. cbn [mk e_err qe_ok negb e_nest].
    destruct (N.leb_spec MAX_ITEMS (n_count n + 1)); [lia|]. reflexivity.
  Qed.

  Lemma R_open_top e d top t :
    RR e d top [] -> top + 1 < MAX_ITEMS -> blen d <= MAX_OFFSET ->
    RR (enc_open e t) d (top + 1) [{| n_type := t; n_start := blen d; n_count := 0 |}].
  Proof.
    intros H L O. eapply R_open_aux; try exact H; auto.
    - unfold enc_increment. cbn [mk e_err qe_ok negb e_nest e_top].
      destruct (N.leb_spec MAX_ITEMS (top + 1)); [lia|]. reflexivity.
    - cbn. unfold MAX_NESTING. lia.
  Qed.

  Lemma ntype_eqb_refl t : ntype_eqb t t = true.
  Proof. destruct t; reflexivity. Qed.

  Lemma R_close e d1 d2 top n r t mt (arg : nest -> enc -> N) k :
    RR e (d1 ++ d2) top (n :: r) -> n_type n = t -> n_start n = blen d1 ->
    (forall e, blen (d1 ++ d2) <= cap -> e = mk nul cap (d1 ++ d2) top (n :: r) -> arg n e = k) ->
    RR (enc_close e t mt arg) (d1 ++ short_head mt k ++ d2) top r.
  Proof.
    intros H T S A. destruct (N.leb_spec (blen (d1 ++ d2)) cap) as [L|L].
    - pose proof (R_fits _ _ _ _ H L) as E.
      assert (A' : arg n e = k) by now apply A.
      apply R_insert with (u := UBuf (short_head mt k)) in H. rewrite E in H.
      rewrite E in A' |- *. unfold enc_close. cbn [e_err mk qe_ok negb e_nest].
      fold (mk nul cap (d1 ++ d2) top (n :: r)).
      rewrite T, ntype_eqb_refl. cbn [negb]. rewrite A', encode_head_short, S.
      cbn [src_bytes] in H.
      apply R_map with (f := fun e => set_nest e r) (1 := H); [reflexivity | auto].
    - pose proof (R_over _ _ _ _ H L) as O.
      unfold R. rewrite !blen_app in *.
      destruct (N.leb_spec (blen d1 + (blen (short_head mt k) + blen d2)) cap); [lia|].
      now apply oerr_close.
  Qed.

  (** Items *)

  Lemma R_head e d top ns mt n :
    RR e d top ns -> RR (enc_add_head e mt n) (d ++ short_head mt n) top ns.
  Proof. intro H. unfold enc_add_head. rewrite encode_head_short. now apply (R_append _ _ _ _ (UBuf _)). Qed.

  Lemma R_add_int e d top n r z :
    RR e d top (n :: r) -> n_count n + 1 < MAX_ITEMS ->
    RR (enc_add_int e z) (d ++ encode (CInt z)) top (inc n :: r).
  Proof.
    intros H L. unfold enc_add_int, CInt. destruct (z <? 0)%Z; cbn [encode];
      apply R_increment; auto; now apply R_head.
  Qed.

  Lemma R_add_uint e d top n r z :
    RR e d top (n :: r) -> n_count n + 1 < MAX_ITEMS ->
    RR (enc_add_uint e z) (d ++ encode (CUInt z)) top (inc n :: r).
  Proof.
    intros H L. unfold enc_add_uint. cbn [encode]. apply R_increment; auto; now apply R_head.
  Qed.

  Lemma R_add_str e d top n r u mt :
    RR e d top (n :: r) -> n_count n + 1 < MAX_ITEMS ->
    RR (enc_increment (enc_append (enc_add_head e mt (u_len u)) u))
       (d ++ short_head mt (blen (src_bytes u)) ++ src_bytes u) top (inc n :: r).
  Proof.
    intros H L. apply R_increment; auto. rewrite app_assoc, src_bytes_len. apply R_append.
    now apply R_head.
  Qed.

  Lemma R_add_bytes e d top n r u :
    RR e d top (n :: r) -> n_count n + 1 < MAX_ITEMS ->
    RR (enc_add_bytes e u) (d ++ encode (CBytes (src_bytes u))) top (inc n :: r).
  Proof. apply R_add_str. Qed.

  Lemma R_add_text e d top n r u :
    RR e d top (n :: r) -> n_count n + 1 < MAX_ITEMS ->
    RR (enc_add_text e u) (d ++ encode (CText (src_bytes u))) top (inc n :: r).
  Proof. apply R_add_str. Qed.

  Lemma R_add_encoded e d top n r u :
    RR e d top (n :: r) -> n_count n + 1 < MAX_ITEMS ->
    RR (enc_add_encoded e u) (d ++ src_bytes u) top (inc n :: r).
  Proof. intros H L. apply R_increment; auto. now apply R_append. Qed.

  Lemma R_add_null e d top n r :
    RR e d top (n :: r) -> n_count n + 1 < MAX_ITEMS ->
    RR (enc_add_null e) (d ++ encode CNull) top (inc n :: r).
  Proof. intros H L. apply R_increment; auto. now apply (R_append _ _ _ _ (UBuf _)). Qed.

  Lemma R_add_tag e d top ns t :
    RR e d top ns -> RR (enc_add_tag e t) (d ++ short_head 6 t) top ns.
  Proof. apply R_head. Qed.

  Lemma R_close_array e d1 d2 top n r :
    RR e (d1 ++ d2) top (n :: r) -> n_type n = NArray -> n_start n = blen d1 ->
    RR (enc_close_array e) (d1 ++ short_head 4 (n_count n) ++ d2) top r.
  Proof. intros H T S. unfold enc_close_array. eapply R_close; eauto. Qed.

  Lemma R_close_map e d1 d2 top n r :
    RR e (d1 ++ d2) top (n :: r) -> n_type n = NMap -> n_start n = blen d1 ->
    RR (enc_close_map e) (d1 ++ short_head 5 (n_count n / 2) ++ d2) top r.
  Proof. intros H T S. unfold enc_close_map. eapply R_close; eauto. Qed.

  (** The slice of a wrapped byte string just closed. *)
  Definition bstr_slice (d1 d2 : bytes) : slice :=
    if blen (d1 ++ encode (CBytes d2)) <=? cap
    then {| s_null := nul; s_off := blen d1 + blen (short_head 2 (blen d2)); s_len := blen d2 |}
    else NULL_SLICE.

  Lemma R_close_bstr e d1 d2 top n r :
    RR e (d1 ++ d2) top (n :: r) -> n_type n = NBstr -> n_start n = blen d1 ->
    RR (fst (enc_close_bstr e)) (d1 ++ encode (CBytes d2)) top r /\
    snd (enc_close_bstr e) = bstr_slice d1 d2.
  Proof.
    intros H T S.
    set (arg := fun (n : nest) (e : enc) => e_pos e - n_start n).
    assert (HC : RR (enc_close e NBstr MT_BSTR arg) (d1 ++ encode (CBytes d2)) top r).
    { cbn [encode]. eapply R_close; eauto. intros e0 _ ->. unfold arg, e_pos.
      cbn [mk e_data]. rewrite S, blen_app. lia. }
    pose proof (R_oerr _ _ _ _ HC) as O.
    unfold enc_close_bstr. fold arg.
    destruct (N.leb_spec (blen (d1 ++ encode (CBytes d2))) cap) as [L|L].
    - pose proof (R_fits _ _ _ _ HC L) as E.
      assert (L0 : blen (d1 ++ d2) <= cap).
      { cbn [encode] in L. rewrite !blen_app in *. lia. }
      pose proof (R_fits _ _ _ _ H L0) as E0.
      unfold bstr_slice. replace (blen (d1 ++ encode (CBytes d2)) <=? cap) with true by lia.
      assert (X1 : e_err e = QE_SUCCESS) by now rewrite E0.
      assert (X2 : e_err (enc_close e NBstr MT_BSTR arg) = QE_SUCCESS) by now rewrite E.
      assert (X3 : e_oerr (enc_close e NBstr MT_BSTR arg) = false) by now rewrite E.
      assert (X4 : e_nest e = n :: r) by now rewrite E0.
      assert (X5 : e_pos e = blen d1 + blen d2).
      { unfold e_pos. rewrite E0. cbn [mk e_data]. now rewrite blen_app. }
      assert (X6 : e_null e = nul) by now rewrite E0.
      rewrite X1, X2, X3, X4, X5, X6, S. cbn [qe_ok negb orb fst snd].
      split; [exact HC|].
      replace (blen d1 + blen d2 - blen d1) with (blen d2) by lia.
      now rewrite encode_head_short.
    - assert (O' : e_oerr (enc_close e NBstr MT_BSTR arg) = true).
      { rewrite O. lia. }
      unfold bstr_slice. replace (blen (d1 ++ encode (CBytes d2)) <=? cap) with false by lia.
      destruct (negb (qe_ok (e_err e)) || _); [split; [exact HC|reflexivity]|].
      destruct (e_nest e); [split; [exact HC|reflexivity]|].
      rewrite O'. split; [exact HC|reflexivity].
  Qed.
End Ops.
