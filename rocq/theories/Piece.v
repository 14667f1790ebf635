(** Piecewise signing equals signing in one call. *)
From Verif Require Import Base Const QEnc Crypto Util ShortCircuit Sign Spec SignSpec PieceSpec.
From Verif Require Import BaseFacts EncFacts UtilFacts SignFacts.
From Coq Require Import Lia ZifyBool ZifyNat ZifyN.
Open Scope N_scope. Open Scope list_scope.
Local Open Scope mon_scope.

Scheme btree_mut := Induction for btree Sort Prop
  with bforest_mut := Induction for bforest Sort Prop.
Combined Scheme btree_ind2 from btree_mut, bforest_mut.

Definition incn (n : nest) (k : N) : nest :=
  {| n_type := n_type n; n_start := n_start n; n_count := n_count n + k |}.

Lemma eops_run_app e a b : eops_run e (a ++ b) = eops_run (eops_run e a) b.
Proof. apply fold_left_app. Qed.

Section Build.
  Variables (nul : bool) (cap : N).
  Notation RR := (R nul cap).

  Lemma incn_0 n : incn n 0 = n.
  Proof. unfold incn. rewrite N.add_0_r. now destruct n. Qed.

  Lemma R_build :
    (forall x e d top n r,
       RR e d top (n :: r) -> n_count n + 1 < MAX_ITEMS ->
       (length (n :: r) + tree_depth x <= MAX_NESTING)%nat -> tree_fits x ->
       blen (d ++ tree_bytes x) <= MAX_OFFSET ->
       RR (eops_run e (tree_ops x)) (d ++ tree_bytes x) top (incn n 1 :: r)) /\
    (forall f e d top n r,
       RR e d top (n :: r) -> n_count n + bcount f < MAX_ITEMS ->
       (length (n :: r) + forest_depth f <= MAX_NESTING)%nat -> forest_fits f ->
       blen (d ++ forest_bytes f) <= MAX_OFFSET ->
       RR (eops_run e (forest_ops f)) (d ++ forest_bytes f) top (incn n (bcount f) :: r)).
  Proof.
    apply btree_ind2.
    - intros k e d top n r H L D F B. now apply R_add_uint.
    - intros k e d top n r H L D F B. now apply R_add_int.
    - intros k e d top n r H L D F B. now apply (R_add_bytes _ _ _ _ _ _ _ (UBuf k)).
    - intros k e d top n r H L D F B. now apply (R_add_text _ _ _ _ _ _ _ (UBuf k)).
    - intros e d top n r H L D F B. now apply R_add_null.
    - intros k e d top n r H L D F B. now apply (R_add_encoded _ _ _ _ _ _ _ (UBuf k)).
    - intros t x IH e d top n r H L D F B.
      cbn [tree_ops tree_bytes eops_run fold_left eop_run]. fold (eops_run (enc_add_tag e t) (tree_ops x)).
      rewrite app_assoc. apply IH; auto.
      + now apply R_add_tag.
      + cbn [tree_bytes] in B. now rewrite <- app_assoc.
    - intros f IH e d top n r H L D [F1 F2] B.
      cbn [tree_ops tree_bytes]. change (OpOpenArray :: ?a ++ ?b) with ([OpOpenArray] ++ a ++ b).
      rewrite !eops_run_app. cbn [tree_depth length] in D. cbn [tree_bytes] in B. rewrite !blen_app in B.
      set (e1 := eops_run e [OpOpenArray]).
      assert (H1 : RR e1 d top ({| n_type := NArray; n_start := blen d; n_count := 0 |} :: inc n :: r)).
      { apply R_open; auto; [unfold MAX_NESTING in *; lia|unfold MAX_OFFSET in *; lia]. }
      apply IH in H1; [|exact F1|cbn [length]; unfold MAX_NESTING in *; lia|exact F2|
                        rewrite blen_app; unfold MAX_OFFSET in *; lia].
      apply R_close_array in H1; [|reflexivity|reflexivity].
      cbn [incn n_count] in H1. rewrite N.add_0_l in H1. exact H1.
    - intros f IH e d top n r H L D [F1 F2] B.
      cbn [tree_ops tree_bytes]. change (OpOpenMap :: ?a ++ ?b) with ([OpOpenMap] ++ a ++ b).
      rewrite !eops_run_app. cbn [tree_depth length] in D. cbn [tree_bytes] in B. rewrite !blen_app in B.
      set (e1 := eops_run e [OpOpenMap]).
      assert (H1 : RR e1 d top ({| n_type := NMap; n_start := blen d; n_count := 0 |} :: inc n :: r)).
      { apply R_open; auto; [unfold MAX_NESTING in *; lia|unfold MAX_OFFSET in *; lia]. }
      apply IH in H1; [|exact F1|cbn [length]; unfold MAX_NESTING in *; lia|exact F2|
                        rewrite blen_app; unfold MAX_OFFSET in *; lia].
      apply R_close_map in H1; [|reflexivity|reflexivity].
      cbn [incn n_count] in H1. rewrite N.add_0_l in H1. exact H1.
    - intros f IH e d top n r H L D [F1 F2] B.
      cbn [tree_ops tree_bytes]. change (OpOpenBstr :: ?a ++ ?b) with ([OpOpenBstr] ++ a ++ b).
      rewrite !eops_run_app. cbn [tree_depth length] in D. cbn [tree_bytes encode] in B. rewrite !blen_app in B.
      set (e1 := eops_run e [OpOpenBstr]).
      assert (H1 : RR e1 d top ({| n_type := NBstr; n_start := blen d; n_count := 0 |} :: inc n :: r)).
      { apply R_open; auto; [unfold MAX_NESTING in *; lia|unfold MAX_OFFSET in *; lia]. }
      apply IH in H1; [|exact F1|cbn [length]; unfold MAX_NESTING in *; lia|exact F2|
                        rewrite blen_app; unfold MAX_OFFSET in *; lia].
      apply R_close_bstr in H1; [|reflexivity|reflexivity].
      apply H1.
    - intros e d top n r H L D F B. cbn [forest_ops forest_bytes bcount eops_run fold_left].
      rewrite app_nil_r, incn_0. exact H.
    - intros x IHx f IHf e d top n r H L D [F1 F2] B.
      cbn [forest_ops forest_bytes bcount forest_depth length] in *. rewrite eops_run_app.
      rewrite app_assoc in *. rewrite (blen_app (d ++ _)) in B.
      apply IHx in H; [|unfold MAX_ITEMS in *; lia|cbn [length]; lia|exact F1|unfold MAX_OFFSET in *; lia].
      apply IHf in H; [|cbn [incn n_count]; unfold MAX_ITEMS in *; lia|cbn [length]; lia|exact F2|
                        rewrite blen_app; unfold MAX_OFFSET in *; lia].
      unfold incn in H at 1. cbn [incn n_type n_start n_count] in H. rewrite <- N.add_assoc in H. exact H.
  Qed.
End Build.

(** encode_parameters, the application's calls, encode_signature on an encoder
    holding [D]. *)
Theorem piecewise_on_eq nul cap c cr me aad f e D top ns top' ns' :
  let D1 := D ++ tag_bytes me in
  let pl := forest_bytes f in
  let X := D1 ++ heads c me ++ encode (CBytes pl) in
  R nul cap e D top ns -> can_inc top ns top' ns' -> (length ns' <= 12)%nat ->
  (2 + length ns' + forest_depth f <= 15)%nat -> forest_fits f -> bcount f < MAX_ITEMS ->
  blen X <= MAX_OFFSET ->
  signature_algorithm_id_is_supported c (c_alg me) = true ->
  sc_on me && dis_short_circuit c = false -> ct_clash c me = false ->
  let me1 := sc_set_prot me (bstr_slice nul cap D1 (protected_header (c_alg me))) in
  exists e0 g,
    piecewise_on c cr me aad (forest_ops f) e
    = (if cap <? blen X then mret (ERR_TOO_SMALL, me1, e0)
       else let! (err, me, n, w) := sign_core c cr me1 (inbuf nul (protected_header (c_alg me))) aad
                                              (inbuf nul pl) (place nul (cap - blen X)) in
            if negb (terr_eqb err T_SUCCESS) then mret (err, me, e0)
            else mret (T_SUCCESS, me, g n w)) /\
    (cap < blen X -> e_oerr e0 = true) /\
    (blen X <= cap -> forall n w,
       R nul cap (g n w) (D ++ cose_sign1 (tagged me) (protected_header (c_alg me)) (unprot_of c me)
                                          (Some pl) (sigw n w)) top' ns').
Proof.
  intros D1 pl X H CI N ND F BC B A S T me1. unfold piecewise_on, encode_parameters.
  assert (BX : blen (D1 ++ heads c me) <= MAX_OFFSET).
  { unfold X in B. rewrite app_assoc, blen_app in B. unfold MAX_OFFSET in *. lia. }
  destruct (params_ok nul cap c me false e D top ns top' ns' H CI N A S T BX) as (e1 & E1 & H1).
  fold D1 in E1, H1. fold me1 in E1. rewrite E1. cbn [terr_eqb negb].
  assert (BY : blen ((D1 ++ heads c me) ++ forest_bytes f) <= MAX_OFFSET).
  { unfold X in B. rewrite app_assoc in B. cbn [encode] in B. rewrite !blen_app in *. fold pl. unfold MAX_OFFSET in *. lia. }
  apply (proj2 (R_build nul cap) f) in H1; [|exact BC|cbn [length]; unfold MAX_NESTING; lia|exact F|exact BY].
  unfold encode_signature_aad. fold pl in H1.
  set (hp := encode (CBytes (protected_header (c_alg me)))).
  assert (X1 : X = D1 ++ hp ++ encode (unprot_of c me) ++ encode (CBytes pl)).
  { unfold X, heads. fold hp. now rewrite <- !app_assoc. }
  destruct (signature_inline nul cap c cr me1 aad (eops_run e1 (forest_ops f)) D1 (protected_header (c_alg me))
             (encode (unprot_of c me)) pl top' (incn (bst (blen (D1 ++ heads c me)) 0) (bcount f)) ns')
    as (e0 & g & G1 & G2 & G3).
  - reflexivity.
  - fold hp. now rewrite <- X1.
  - exact N.
  - reflexivity.
  - reflexivity.
  - exact H1.
  - fold hp in G1, G2, G3. rewrite <- X1 in G1, G2, G3. exists e0, g. split; [exact G1|]. split; [exact G2|].
    intros L n w. specialize (G3 L n w).
    rewrite cose_sign1_eq, app_assoc. fold D1. unfold heads. fold hp.
    rewrite <- !app_assoc in *. exact G3.
Qed.

Theorem piecewise_eq c cr me aad f buf :
  (forest_depth f <= 13)%nat -> forest_fits f -> bcount f < 65534 ->
  blen (unsigned c me false (UBuf (forest_bytes f))) <= MAX_OFFSET ->
  piecewise c cr me aad (forest_ops f) buf
  = sign_aad_internal c cr me false (UBuf (forest_bytes f)) aad buf.
Proof.
  intros ND F BC B. set (pl := forest_bytes f) in *.
  destruct (signature_algorithm_id_is_supported c (c_alg me)) eqn:A.
  2:{ unfold piecewise, piecewise_on, encode_parameters, sign_aad_internal, encode_parameters_internal.
      rewrite A. reflexivity. }
  assert (ND' : false = true -> u_is_null (UBuf pl) = false) by discriminate.
  destruct (sc_on me && dis_short_circuit c) eqn:S.
  { rewrite (sign_eq c cr me false _ aad buf ND' B), A, S. cbn [negb].
    unfold piecewise, piecewise_on, encode_parameters.
    pose proof (sign_eq c cr me false (UBuf pl) aad buf ND' B) as E. rewrite A, S in E. cbn [negb] in E.
    unfold sign_aad_internal in E.
    destruct (encode_parameters_internal c me false (enc_init buf)) as [[err m1] e1] eqn:PE.
    assert (err = ERR_SHORT_CIRCUIT_SIG_DISABLED) as ->.
    { unfold encode_parameters_internal in PE. rewrite A in PE. cbn [negb] in PE.
      destruct (encode_protected_parameters _ _) as [e2 p].
      change (has_flag (c_flags (sc_set_prot me p)) OPT_SHORT_CIRCUIT_SIG) with (sc_on me) in PE.
      rewrite S in PE. congruence. }
    exact E. }
  destruct (ct_clash c me) eqn:T.
  { rewrite (sign_eq c cr me false _ aad buf ND' B), A, S, T. cbn [negb].
    pose proof (sign_eq c cr me false (UBuf pl) aad buf ND' B) as E. rewrite A, S, T in E. cbn [negb] in E.
    unfold sign_aad_internal in E. unfold piecewise, piecewise_on, encode_parameters.
    destruct (encode_parameters_internal c me false (enc_init buf)) as [[err m1] e1] eqn:PE.
    assert (err = ERR_DUPLICATE_PARAMETER) as ->.
    { unfold encode_parameters_internal in PE. rewrite A in PE. cbn [negb] in PE.
      destruct (encode_protected_parameters _ _) as [e2 p].
      change (has_flag (c_flags (sc_set_prot me p)) OPT_SHORT_CIRCUIT_SIG) with (sc_on me) in PE.
      rewrite S in PE.
      unfold add_unprotected_parameters, ct_clash in *. cbn [sc_set_prot c_ct_uint c_ct_tstr c_kid] in PE.
      destruct (dis_content_type c); [discriminate|]. cbn [negb andb] in *.
      destruct (negb (c_ct_uint me =? EMPTY_UINT_CONTENT_TYPE)); [|discriminate].
      destruct (c_ct_tstr me); [|discriminate]. cbn [terr_eqb negb] in PE. congruence. }
    exact E. }
  unfold piecewise.
  pose proof (R_init buf) as H0.
  destruct (piecewise_on_eq (wb_null buf) (wb_len buf) c cr me aad f (enc_init buf) [] 0 [] 1 [] H0)
    as (e0 & g & G1 & G2 & G3); auto.
  { cbn. split; [unfold MAX_ITEMS; lia|auto]. }
  { cbn. lia. }
  { cbn [length]. lia. }
  cbn [app] in G1, G2, G3. fold pl in G1, G2, G3.
  change (tag_bytes me ++ heads c me ++ encode (CBytes pl)) with (unsigned c me false (UBuf pl)) in *.
  rewrite G1. clear G1.
  rewrite (sign_eq c cr me false _ aad buf ND' B), A, S, T. cbn [negb].
  change (bstr_slice (wb_null buf) (wb_len buf) (tag_bytes me) (protected_header (c_alg me)))
    with (bstr_slice (wb_null buf) (wb_len buf) (tag_bytes me) (protected_header (c_alg me))).
  change (sc_set_prot me (bstr_slice (wb_null buf) (wb_len buf) (tag_bytes me) (protected_header (c_alg me))))
    with (with_prot me buf).
  destruct (N.ltb_spec (wb_len buf) (blen (unsigned c me false (UBuf pl)))) as [L|L].
  { reflexivity. }
  cbn [src_bytes]. rewrite mbind_assoc. apply mbind_ext. intros [[[err m2] n] w].
  destruct (negb (terr_eqb err T_SUCCESS)) eqn:ER; rewrite mbind_ret_l.
  - cbn beta iota. now rewrite ER.
  - cbn [terr_eqb negb]. specialize (G3 L n w).
    change (cose_sign1 _ _ _ _ _) with (message c me false (UBuf pl) (sigw n w)) in G3.
    unfold enc_finish, enc_error. rewrite (R_oerr _ _ _ _ _ _ G3).
    destruct (N.leb_spec (blen (message c me false (UBuf pl) (sigw n w))) (wb_len buf)) as [L2|L2].
    + rewrite (R_fits _ _ _ _ _ _ G3 L2).
      replace (wb_len buf <? blen (message c me false (UBuf pl) (sigw n w))) with false by lia.
      cbn [mk e_err e_nest]. unfold enc_out, e_pos. cbn [mk e_oerr e_null e_data]. reflexivity.
    + replace (wb_len buf <? blen (message c me false (UBuf pl) (sigw n w))) with true by lia. reflexivity.
Qed.
