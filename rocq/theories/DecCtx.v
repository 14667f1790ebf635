(** The decoding functions t_cose calls, on input that DecSpec.v describes. *)
From Verif Require Import Base Const QEnc QDec Spec DecSpec BaseFacts DecFacts DecSkip.
From Coq Require Import Lia ZifyBool ZifyNat ZifyN.
Ltac Zify.zify_post_hook ::= Z.div_mod_to_equations.
Open Scope N_scope.

Definition mkd (bs : bytes) (L : list level) (tg : list N) : dctx :=
  {| d_err := QD_SUCCESS; d_in := bs; d_levels := L; d_tags := tg |}.

(** ** Tags of an item *)

Lemma acc_tags_eq ts tags tm :
  (length tags <= 4)%nat ->
  acc_tags ts tags tm =
    (rev (firstn (4 - length tags) ts) ++ tags,
     tm || Nat.ltb 4 (length tags + length ts)).
Proof.
  revert tags tm. induction ts as [|t ts IH]; intros tags tm L.
  - cbn [acc_tags]. rewrite firstn_nil. cbn [rev app length]. f_equal.
    destruct (Nat.ltb_spec 4 (length tags + 0)); [lia|]. now rewrite orb_false_r.
  - cbn [acc_tags]. change MAX_TAGS_PER_ITEM with 4%nat.
    destruct (Nat.leb_spec 4 (length tags)) as [H|H].
    + rewrite IH by exact L. replace (4 - length tags)%nat with 0%nat by lia. cbn [firstn rev app].
      f_equal. cbn [length]. destruct (Nat.ltb_spec 4 (length tags + S (length ts))); [|lia].
      now rewrite orb_true_r.
    + rewrite IH by (cbn [length]; lia). cbn [length].
      replace (4 - length tags)%nat with (S (4 - S (length tags))) by lia. cbn [firstn rev].
      rewrite <- app_assoc. cbn [app]. f_equal. f_equal.
      replace (S (length tags) + length ts)%nat with (length tags + S (length ts))%nat by lia. reflexivity.
Qed.

Lemma acc_tags_top ts : acc_tags ts [] false = (rev (firstn 4 ts), Nat.ltb 4 (length ts)).
Proof. rewrite acc_tags_eq by (cbn; lia). cbn [length Nat.sub plus orb]. now rewrite app_nil_r. Qed.

(** Few enough tags for the decoder. *)
Definition few_tags (c : cbor) : bool := Nat.leb (length (tags_of c)) 4.

Lemma item_of_eq cnt c :
  item_of cnt c =
    if negb (qd_ok (err_of (body c))) then bad_item (err_of (body c))
    else {| i_val := val_of cnt (body c); i_tags := rev (firstn 4 (tags_of c));
            i_err := if few_tags c then QD_SUCCESS else QD_TOO_MANY_TAGS |}.
Proof.
  unfold item_of. rewrite acc_tags_top. cbn [fst snd]. unfold with_tags, atom_of.
  cbn [i_val i_err]. unfold few_tags.
  replace (Nat.ltb 4 (length (tags_of c))) with (negb (Nat.leb (length (tags_of c)) 4)).
  2:{ destruct (Nat.leb_spec (length (tags_of c)) 4), (Nat.ltb_spec 4 (length (tags_of c))); auto; lia. }
  destruct (err_of (body c)) eqn:E; cbn [qd_ok negb];
    try (destruct (Nat.leb (length (tags_of c)) 4); reflexivity);
    (assert (V : val_of cnt (body c) = VNone)
      by (destruct (body c); cbn in E |- *; try discriminate; auto;
          destruct (n <? INT64_LIMIT); try discriminate; reflexivity);
     unfold bad_item; now rewrite V).
Qed.

Lemma item_err cnt c : i_err (item_of cnt c) = i_err (item_of None c).
Proof. rewrite !item_of_eq. destruct (negb _); reflexivity. Qed.

Lemma item_tags cnt c : i_tags (item_of cnt c) = i_tags (item_of None c).
Proof. rewrite !item_of_eq. destruct (negb _); reflexivity. Qed.

Lemma got_eq cnt c :
  got (item_of cnt c) =
    if qd_ok (i_err (item_of cnt c)) then item_of cnt c else bad_item (i_err (item_of cnt c)).
Proof. reflexivity. Qed.

(** A good item: no error. *)
Definition good (c : cbor) : bool := qd_ok (err_of (body c)) && few_tags c.

Lemma good_err cnt c : qd_ok (i_err (item_of cnt c)) = good c.
Proof.
  rewrite item_of_eq. unfold good. destruct (qd_ok (err_of (body c))) eqn:E; cbn [negb andb].
  - cbn [i_err]. destruct (few_tags c); reflexivity.
  - exact E.
Qed.

Lemma good_item_of cnt c :
  good c = true ->
  item_of cnt c = {| i_val := val_of cnt (body c); i_tags := rev (tags_of c); i_err := QD_SUCCESS |}.
Proof.
  unfold good. intro G. apply andb_prop in G as [G F]. rewrite item_of_eq, G, F. cbn [negb].
  f_equal. unfold few_tags in F. apply Nat.leb_le in F. now rewrite firstn_all2.
Qed.

Lemma got_good cnt c : good c = true -> got (item_of cnt c) = item_of cnt c.
Proof. intro G. rewrite got_eq, good_err, G. reflexivity. Qed.

(** ** GetNext *)

(** A level in which items (not map entries) are read and that is not done. *)
Definition elem_level (L : list level) : bool :=
  match L with
  | LvAgg true _ _ _ :: _ => false
  | LvAgg false (Some n) _ _ :: _ => negb (n =? 0)
  | _ => true
  end.

Lemma get_next_elem L x b rest tg :
  elem_level L = true -> reads (length L) x b ->
  exists cnt cb, content (length L) x cnt cb /\
    get_next (mkd (b ++ rest) L tg)
    = (i_err (item_of cnt x), got (item_of cnt x), mkd (cb ++ rest) (dec_level L) tg).
Proof.
  intros HL H.
  destruct (reads_get_item _ _ _ H) as (hb & cb & cnt & -> & Hh & Hc & Hd & G).
  exists cnt, cb. split; [exact Hc|]. rewrite <- app_assoc.
  assert (E : at_end (mkd (hb ++ cb ++ rest) L tg) = false).
  { unfold at_end. cbn [d_in d_levels mkd].
    destruct (hb ++ cb ++ rest) eqn:X; [now apply app_ne in X|]. rewrite <- X.
    destruct L as [|[[|] [[|p]|] sc s|a] L]; try discriminate HL; try reflexivity.
    apply (no_break _ _ _ _ (G (cb ++ rest))). }
  unfold get_next. rewrite E. cbn [d_levels d_in mkd]. unfold d_depth. cbn [d_levels mkd].
  rewrite (get_elem_of _ _ _ _ _ (G (cb ++ rest)) Hd).
  destruct L as [|[[|] c sc s|a] L]; try discriminate HL; reflexivity.
Qed.

(** ** Entering *)

Lemma enter_agg_ok m L x b rest tg :
  elem_level L = true -> reads (length L) x b -> good x = true ->
  (match body x with CArray _ => m = false | CMap _ => m = true | _ => False end) ->
  exists cnt cb, content (length L) x cnt cb /\
    enter_agg m (mkd (b ++ rest) L tg)
    = mkd (cb ++ rest) (LvAgg m cnt cnt (cb ++ rest) :: dec_level L) (rev (tags_of x)).
Proof.
  intros HL H G Hm. destruct (get_next_elem L x b rest tg HL H) as (cnt & cb & Hc & E).
  exists cnt, cb. split; [exact Hc|]. unfold enter_agg. cbn [d_err mkd qd_ok negb].
  change {| d_err := QD_SUCCESS; d_in := b ++ rest; d_levels := L; d_tags := tg |} with (mkd (b ++ rest) L tg).
  rewrite E, got_good by exact G. rewrite good_item_of by exact G. cbn [i_err qd_ok negb i_val i_tags].
  destruct (body x); try contradiction; subst m; cbn [val_of Bool.eqb]; reflexivity.
Qed.

Lemma enter_agg_bad m L x b rest tg :
  elem_level L = true -> reads (length L) x b ->
  good x = false \/ (match body x with CArray _ => m = true | CMap _ => m = false | _ => True end) ->
  d_err (enter_agg m (mkd (b ++ rest) L tg)) =
    (if good x then QD_UNEXPECTED_TYPE else i_err (item_of None x)) /\
  d_err (enter_agg m (mkd (b ++ rest) L tg)) <> QD_SUCCESS.
Proof.
  intros HL H Hb. destruct (get_next_elem L x b rest tg HL H) as (cnt & cb & Hc & E).
  unfold enter_agg. cbn [d_err mkd qd_ok negb].
  change {| d_err := QD_SUCCESS; d_in := b ++ rest; d_levels := L; d_tags := tg |} with (mkd (b ++ rest) L tg).
  rewrite E, good_err, item_err. destruct (good x) eqn:G; cbn [negb].
  - destruct Hb as [Hb|Hb]; [discriminate|]. rewrite got_good by exact G.
    rewrite item_of_val.
    destruct (body x); cbn [val_of]; try (split; [reflexivity|discriminate]);
      try (destruct (n <? INT64_LIMIT); split; [reflexivity|discriminate| reflexivity|discriminate]);
      try (destruct (n =? 22); split; [reflexivity|discriminate| reflexivity|discriminate]);
      subst m; split; try reflexivity; try discriminate.
  - cbn [d_set_err d_err]. split; [reflexivity|]. intro X.
    rewrite <- (good_err None) in G. rewrite X in G. discriminate.
Qed.

Lemma dec_level_length L : length (dec_level L) = length L.
Proof. destruct L as [|[m c sc s|a] L]; reflexivity. Qed.

(** ** Untagged byte strings *)

Definition plain_bytes (c : cbor) : option bytes := match c with CBytes b => Some b | _ => None end.

Lemma untagged_bytes_item cnt c :
  good c = true -> untagged_bytes (item_of cnt c) = plain_bytes c.
Proof.
  intro G. rewrite good_item_of by exact G. unfold untagged_bytes. cbn [i_val i_tags].
  destruct c; try reflexivity.
  - cbn [body val_of]. destruct (n <? INT64_LIMIT); reflexivity.
  - cbn [body val_of]. destruct (n <? INT64_LIMIT); reflexivity.
  - cbn [plain_bytes tags_of rev]. destruct (rev (tags_of c)) eqn:E; cbn [app].
    + destruct (val_of cnt (body (CTag n c))); reflexivity.
    + destruct (val_of cnt (body (CTag n c))); reflexivity.
  - cbn [body val_of]. destruct (n =? 22); reflexivity.
Qed.

Lemma plain_good c b : plain_bytes c = Some b -> good c = true.
Proof. destruct c; try discriminate. reflexivity. Qed.

Lemma plain_content d c b cnt cb : plain_bytes c = Some b -> content d c cnt cb -> cb = [].
Proof. destruct c; try discriminate. intros _ [_ ->]. reflexivity. Qed.

Lemma get_byte_string_ok L b hb rest tg :
  elem_level L = true -> reads (length L) (CBytes b) hb ->
  get_byte_string (mkd (hb ++ rest) L tg) = (mkd rest (dec_level L) tg, Some (UBuf b)).
Proof.
  intros HL H. destruct (get_next_elem L _ hb rest tg HL H) as (cnt & cb & Hc & E).
  destruct Hc as [-> ->]. unfold get_byte_string. cbn [d_err mkd qd_ok negb].
  change {| d_err := QD_SUCCESS; d_in := hb ++ rest; d_levels := L; d_tags := tg |} with (mkd (hb ++ rest) L tg).
  rewrite E. reflexivity.
Qed.

Lemma enter_bstr_wrapped_ok L b hb rest tg :
  elem_level L = true -> reads (length L) (CBytes b) hb ->
  enter_bstr_wrapped (mkd (hb ++ rest) L tg) =
    (mkd b (LvBstr rest :: dec_level L) tg, Some (UBuf b)).
Proof.
  intros HL H. destruct (get_next_elem L _ hb rest tg HL H) as (cnt & cb & Hc & E).
  destruct Hc as [-> ->]. unfold enter_bstr_wrapped. cbn [d_err mkd qd_ok negb].
  change {| d_err := QD_SUCCESS; d_in := hb ++ rest; d_levels := L; d_tags := tg |} with (mkd (hb ++ rest) L tg).
  rewrite E. reflexivity.
Qed.

(** Errors these functions set. *)
Definition bstr_err (c : cbor) : qd_err :=
  if good c then QD_UNEXPECTED_TYPE else i_err (item_of None c).

Lemma bstr_err_bad c : bstr_err c <> QD_SUCCESS.
Proof.
  unfold bstr_err. destruct (good c) eqn:G; [discriminate|].
  rewrite <- (good_err None) in G. intro X. rewrite X in G. discriminate.
Qed.

Lemma get_byte_string_bad L x hb rest tg :
  elem_level L = true -> reads (length L) x hb -> plain_bytes x = None ->
  d_err (fst (get_byte_string (mkd (hb ++ rest) L tg))) = bstr_err x.
Proof.
  intros HL H Hp. destruct (get_next_elem L _ hb rest tg HL H) as (cnt & cb & Hc & E).
  unfold get_byte_string. cbn [d_err mkd qd_ok negb].
  change {| d_err := QD_SUCCESS; d_in := hb ++ rest; d_levels := L; d_tags := tg |} with (mkd (hb ++ rest) L tg).
  rewrite E, good_err, item_err. unfold bstr_err. destruct (good x) eqn:G; cbn [negb]; [|reflexivity].
  rewrite got_good by exact G. now rewrite untagged_bytes_item, Hp.
Qed.

Lemma enter_bstr_wrapped_bad L x hb rest tg :
  elem_level L = true -> reads (length L) x hb -> plain_bytes x = None ->
  d_err (fst (enter_bstr_wrapped (mkd (hb ++ rest) L tg))) = bstr_err x.
Proof.
  intros HL H Hp. destruct (get_next_elem L _ hb rest tg HL H) as (cnt & cb & Hc & E).
  unfold enter_bstr_wrapped. cbn [d_err mkd qd_ok negb].
  change {| d_err := QD_SUCCESS; d_in := hb ++ rest; d_levels := L; d_tags := tg |} with (mkd (hb ++ rest) L tg).
  rewrite E, good_err, item_err. unfold bstr_err. destruct (good x) eqn:G; cbn [negb]; [|reflexivity].
  rewrite got_good by exact G. now rewrite untagged_bytes_item, Hp.
Qed.

(** Nothing left. *)
Lemma get_next_end n sc s bs R tg :
  n = 0 \/ bs = [] ->
  get_next (mkd bs (LvAgg false (Some n) sc s :: R) tg)
  = (QD_NO_MORE_ITEMS, bad_item QD_NO_MORE_ITEMS, mkd bs (LvAgg false (Some n) sc s :: R) tg).
Proof.
  intro H. unfold get_next, at_end. cbn [d_in d_levels mkd].
  destruct bs; [reflexivity|]. destruct H as [->|H]; [reflexivity|discriminate].
Qed.

Lemma get_next_break sc s rest R tg :
  get_next (mkd (xff :: rest) (LvAgg false None sc s :: R) tg)
  = (QD_NO_MORE_ITEMS, bad_item QD_NO_MORE_ITEMS, mkd (xff :: rest) (LvAgg false None sc s :: R) tg).
Proof. reflexivity. Qed.
