(** The decoder model reads exactly what DecSpec.v describes. *)
From Verif Require Import Base Const QEnc QDec Spec DecSpec BaseFacts.
From Coq Require Import Lia ZifyBool ZifyNat ZifyN.
Ltac Zify.zify_post_hook ::= Z.div_mod_to_equations.
Open Scope N_scope.

(** ** Heads *)

Lemma be_value_val l acc : be_value acc l = acc * 256 ^ blen l + be_val l.
Proof.
  revert acc. induction l as [|b r IH]; intro acc; cbn [be_value be_val].
  - change (blen (@nil byte)) with 0. rewrite N.pow_0_r. lia.
  - rewrite IH, blen_cons, pow256_succ. lia.
Qed.

Lemma initial_val mt ai : mt < 8 -> ai < 32 -> Byte.to_N (initial mt ai) = mt * 32 + ai.
Proof. intros. unfold initial. rewrite to_of_N. apply N.mod_small. lia. Qed.

Lemma initial_of b : b = initial (Byte.to_N b / 32) (Byte.to_N b mod 32).
Proof.
  unfold initial. rewrite <- (of_to_N b) at 1. f_equal.
  rewrite (N.div_mod (Byte.to_N b) 32) at 1 by lia. lia.
Qed.

Lemma head_arg_ok w mt ai n rest :
  n < 256 ^ N.of_nat w ->
  head_arg w mt ai (big_endian w n ++ rest) = HOk mt ai n rest.
Proof.
  intro H. unfold head_arg.
  destruct (Nat.ltb_spec (length (big_endian w n ++ rest)) w) as [L|L].
  { rewrite app_length, big_endian_length in L. lia. }
  rewrite firstn_app, skipn_app, big_endian_length, Nat.sub_diag.
  rewrite firstn_all2, skipn_all2 by (rewrite big_endian_length; lia).
  cbn [firstn skipn app]. rewrite app_nil_r, be_value_val, be_val_big_endian, N.mod_small by exact H.
  f_equal; lia.
Qed.

Lemma decode_head_of mt n h rest :
  is_head mt n h -> mt < 8 ->
  exists ai, ai < 28 /\ decode_head (h ++ rest) = HOk mt ai n rest.
Proof.
  intros H Hm. destruct H as [H|H|H|H|H]; cbn [app decode_head].
  - exists n. split; [lia|]. rewrite initial_val by lia.
    replace ((mt * 32 + n) / 32) with mt by lia. replace ((mt * 32 + n) mod 32) with n by lia.
    destruct (N.ltb_spec n 24); [reflexivity|lia].
  - exists 24. split; [lia|]. rewrite initial_val by lia.
    replace ((mt * 32 + 24) / 32) with mt by lia. replace ((mt * 32 + 24) mod 32) with 24 by lia.
    cbn [N.ltb N.eqb N.compare Pos.compare Pos.compare_cont Pos.eqb].
    now apply head_arg_ok.
  - exists 25. split; [lia|]. rewrite initial_val by lia.
    replace ((mt * 32 + 25) / 32) with mt by lia. replace ((mt * 32 + 25) mod 32) with 25 by lia.
    cbn [N.ltb N.eqb N.compare Pos.compare Pos.compare_cont Pos.eqb].
    now apply head_arg_ok.
  - exists 26. split; [lia|]. rewrite initial_val by lia.
    replace ((mt * 32 + 26) / 32) with mt by lia. replace ((mt * 32 + 26) mod 32) with 26 by lia.
    cbn [N.ltb N.eqb N.compare Pos.compare Pos.compare_cont Pos.eqb].
    now apply head_arg_ok.
  - exists 27. split; [lia|]. rewrite initial_val by lia.
    replace ((mt * 32 + 27) / 32) with mt by lia. replace ((mt * 32 + 27) mod 32) with 27 by lia.
    cbn [N.ltb N.eqb N.compare Pos.compare Pos.compare_cont Pos.eqb].
    now apply head_arg_ok.
Qed.

(** Bytes following the initial byte. *)
Definition arg_width (ai : N) : nat :=
  if ai =? 24 then 1 else if ai =? 25 then 2 else if ai =? 26 then 4 else if ai =? 27 then 8 else 0.

Lemma head_arg_inv w mt ai r mt' ai' n rest :
  head_arg w mt ai r = HOk mt' ai' n rest ->
  mt' = mt /\ ai' = ai /\ exists a, r = a ++ rest /\ length a = w /\ n = be_val a.
Proof.
  unfold head_arg. destruct (Nat.ltb_spec (length r) w); [discriminate|].
  intro E. injection E as <- <- <- <-. repeat split; [].
  exists (firstn w r). rewrite firstn_skipn, firstn_length. repeat split; [lia|].
  rewrite be_value_val. lia.
Qed.

Lemma head_arg_err w mt ai r e rest : head_arg w mt ai r = HErr e rest -> e = QD_HIT_END.
Proof. unfold head_arg. destruct (Nat.ltb (length r) w); congruence. Qed.

Lemma be_bytes_eq a w n : length a = w -> n = be_val a -> a = big_endian w n.
Proof. intros <- ->. now rewrite big_endian_be_bytes, be_bytes_val. Qed.

Lemma decode_head_inv bs mt ai n rest :
  decode_head bs = HOk mt ai n rest ->
  mt < 8 /\
  ((ai = 31 /\ n = 31 /\ bs = initial mt 31 :: rest) \/
   (ai < 28 /\ exists a, bs = initial mt ai :: a ++ rest /\ length a = arg_width ai /\
     is_head mt n (initial mt ai :: a) /\ (ai < 24 -> a = [] /\ n = ai) /\ (24 <= ai -> n = be_val a))).
Proof.
  unfold decode_head. destruct bs as [|b r]; [discriminate|].
  pose proof (to_N_lt b) as Hb. pose proof (initial_of b) as Hi.
  remember (Byte.to_N b / 32) as m eqn:Em. remember (Byte.to_N b mod 32) as x eqn:Ex.
  cbv beta iota zeta. try rewrite <- Em, <- Ex.
  assert (Hm : m < 8) by lia.
  destruct (N.ltb_spec x 24) as [L|L].
  { intro E. injection E as <- <- <- <-. split; [exact Hm|]. right. split; [lia|].
    exists []. cbn [app]. rewrite Hi. repeat split; auto; try lia.
    - unfold arg_width. clear - L.
      destruct (x =? 24) eqn:A; [lia|]. destruct (x =? 25) eqn:B; [lia|].
      destruct (x =? 26) eqn:C; [lia|]. destruct (x =? 27) eqn:D; [lia|]. reflexivity.
    - now apply head0. }
  destruct (N.eqb_spec x 24) as [->|N24].
  { intro E. apply head_arg_inv in E as (-> & -> & a & -> & La & ->). split; [exact Hm|]. right.
    split; [lia|]. exists a. rewrite Hi. repeat split; auto; try lia.
    rewrite (be_bytes_eq a 1 (be_val a) La eq_refl) at 2. apply head1.
    pose proof (be_val_bound a) as P. unfold blen in P. rewrite La in P. exact P. }
  destruct (N.eqb_spec x 25) as [->|N25].
  { intro E. apply head_arg_inv in E as (-> & -> & a & -> & La & ->). split; [exact Hm|]. right.
    split; [lia|]. exists a. rewrite Hi. repeat split; auto; try lia.
    rewrite (be_bytes_eq a 2 (be_val a) La eq_refl) at 2. apply head2.
    pose proof (be_val_bound a) as P. unfold blen in P. rewrite La in P. exact P. }
  destruct (N.eqb_spec x 26) as [->|N26].
  { intro E. apply head_arg_inv in E as (-> & -> & a & -> & La & ->). split; [exact Hm|]. right.
    split; [lia|]. exists a. rewrite Hi. repeat split; auto; try lia.
    rewrite (be_bytes_eq a 4 (be_val a) La eq_refl) at 2. apply head4.
    pose proof (be_val_bound a) as P. unfold blen in P. rewrite La in P. exact P. }
  destruct (N.eqb_spec x 27) as [->|N27].
  { intro E. apply head_arg_inv in E as (-> & -> & a & -> & La & ->). split; [exact Hm|]. right.
    split; [lia|]. exists a. rewrite Hi. repeat split; auto; try lia.
    rewrite (be_bytes_eq a 8 (be_val a) La eq_refl) at 2. apply head8.
    pose proof (be_val_bound a) as P. unfold blen in P. rewrite La in P. exact P. }
  destruct (N.eqb_spec x 31) as [->|N31]; [|discriminate].
  intro E. injection E as <- <- <- <-. split; [exact Hm|]. left. rewrite Hi. auto.
Qed.

Lemma decode_head_err bs e rest :
  decode_head bs = HErr e rest ->
  e = QD_HIT_END \/
  (e = QD_UNSUPPORTED /\ exists mt ai, mt < 8 /\ 28 <= ai < 31 /\ bs = initial mt ai :: rest).
Proof.
  unfold decode_head. destruct bs as [|b r]; [intro E; injection E; auto|].
  pose proof (to_N_lt b) as Hb. pose proof (initial_of b) as Hi.
  remember (Byte.to_N b / 32) as m eqn:Em. remember (Byte.to_N b mod 32) as x eqn:Ex.
  cbv beta iota zeta. try rewrite <- Em, <- Ex.
  destruct (N.ltb_spec x 24); [discriminate|].
  destruct (N.eqb_spec x 24); [intro E; left; eapply head_arg_err; eassumption|].
  destruct (N.eqb_spec x 25); [intro E; left; eapply head_arg_err; eassumption|].
  destruct (N.eqb_spec x 26); [intro E; left; eapply head_arg_err; eassumption|].
  destruct (N.eqb_spec x 27); [intro E; left; eapply head_arg_err; eassumption|].
  destruct (N.eqb_spec x 31); [discriminate|].
  intro E. injection E as <- <-. right. split; [reflexivity|]. exists m, x.
  rewrite Hi. repeat split; lia.
Qed.

(** ** Items *)

(** Error code of bytes that are stepped over. *)
Definition junk_err (b : bytes) : qd_err :=
  match b with
  | [_; _] => QD_BAD_TYPE_7
  | b :: _ => if Byte.to_N b mod 32 =? 31 then QD_BAD_INT else QD_UNSUPPORTED
  | [] => QD_UNSUPPORTED
  end.

(** What the decoder makes of an untagged item; [cnt]: the count in the head of
    an array or map. *)
Definition val_of (cnt : option N) (c : cbor) : val :=
  match c with
  | CUInt n => if n <? INT64_LIMIT then VInt (Z.of_N n) else VUInt n
  | CNInt n => if n <? INT64_LIMIT then VInt (- Z.of_N n - 1) else VNone
  | CBytes b => VBytes b
  | CText b => VText b
  | CArray _ => VAgg false cnt
  | CMap _ => VAgg true cnt
  | CSimple n => if n =? 22 then VNullV else VOther
  | CFloat _ => VOther
  | CTag _ _ => VNone
  | CJunk _ => VNone
  end.

Definition err_of (c : cbor) : qd_err :=
  match c with
  | CNInt n => if n <? INT64_LIMIT then QD_SUCCESS else QD_INT_OVERFLOW
  | CJunk b => junk_err b
  | _ => QD_SUCCESS
  end.

Definition atom_of (cnt : option N) (c : cbor) : item :=
  {| i_val := val_of cnt c; i_tags := []; i_err := err_of c |}.

(** The tags accumulated by get_item_f. *)
Fixpoint acc_tags (ts : list N) (tags : list N) (tm : bool) : list N * bool :=
  match ts with
  | [] => (tags, tm)
  | t :: r => if Nat.leb MAX_TAGS_PER_ITEM (length tags) then acc_tags r tags true
              else acc_tags r (t :: tags) tm
  end.

Definition item_of (cnt : option N) (c : cbor) : item :=
  with_tags (fst (acc_tags (tags_of c) [] false)) (snd (acc_tags (tags_of c) [] false))
            (atom_of cnt (body c)).

Definition is_agg (c : cbor) : bool :=
  match c with CArray _ | CMap _ => true | _ => false end.

(** [counted cnt n b b']: content [b] followed by a break if the length is
    indefinite. *)
Definition counted (cnt : option N) (n : N) (b b' : bytes) : Prop :=
  (cnt = Some n /\ n <= max_items /\ b' = b) \/ (cnt = None /\ b' = b ++ [xff]).

(** What follows the head of an item. *)
Definition content (d : nat) (c : cbor) (cnt : option N) (cb : bytes) : Prop :=
  match body c with
  | CArray l => exists b, counted cnt (blen l) b cb /\ reads_all (S d) l b
  | CMap l => exists b, counted cnt (blen l) b cb /\ reads_pairs (S d) l b
  | _ => cnt = None /\ cb = []
  end.

Lemma get_item_f_atom fuel tags tm bs mt ai n r it r' :
  decode_head bs = HOk mt ai n r -> mt <> 6 ->
  dec_atom mt ai n r = IItem it r' ->
  get_item_f (S fuel) tags tm bs = IItem (with_tags tags tm it) r'.
Proof.
  intros H1 H2 H3. cbn [get_item_f]. rewrite H1.
  destruct (N.eqb_spec mt 6); [contradiction|]. now rewrite H3.
Qed.

(** First part of an item: its head, and the bytes of a string. *)
Lemma reads_item d c b :
  reads d c b ->
  exists hb cb cnt, b = hb ++ cb /\ hb <> [] /\ content d c cnt cb /\
    depth_ok d (val_of cnt (body c)) = true /\
    (forall fuel tags tm rest, (length hb < fuel)%nat ->
      get_item_f fuel tags tm (hb ++ rest)
      = IItem (with_tags (fst (acc_tags (tags_of c) tags tm)) (snd (acc_tags (tags_of c) tags tm))
                         (atom_of cnt (body c))) rest).
Proof.
  assert (Hne : forall mt n h, is_head mt n h -> h <> []) by (intros ? ? ? []; discriminate).
  assert (Hlim : 65534 < 2 ^ 64) by lia.
  induction 1 as [d n h H|d n h H|d b h H|d b h H|d l h b H Hn Hd Hb|d l b Hd Hb|d l h b H Hn Hd Hb
                 |d l b Hd Hb|d n c h b H _ IH|d n H|d n H|d ai b H|d b H].
  - exists h, [], None. rewrite app_nil_r. repeat split; eauto.
    { cbn. destruct (n <? INT64_LIMIT); reflexivity. }
    intros fuel tags tm rest Hf. destruct fuel as [|fuel]; [lia|].
    destruct (decode_head_of 0 n h rest H) as (ai & Ha & E); [lia|].
    erewrite get_item_f_atom; [reflexivity|exact E|lia|]. unfold dec_atom. cbn [N.eqb].
    destruct (N.eqb_spec ai 31); [lia|]. cbn. unfold atom_of, good_item, val_of, err_of.
    destruct (n <? INT64_LIMIT); reflexivity.
  - exists h, [], None. rewrite app_nil_r. repeat split; eauto.
    { cbn. destruct (n <? INT64_LIMIT); reflexivity. }
    intros fuel tags tm rest Hf. destruct fuel as [|fuel]; [lia|].
    destruct (decode_head_of 1 n h rest H) as (ai & Ha & E); [lia|].
    erewrite get_item_f_atom; [reflexivity|exact E|lia|]. unfold dec_atom. cbn [N.eqb Pos.eqb].
    destruct (N.eqb_spec ai 31); [lia|]. cbn. unfold atom_of, good_item, bad_item, val_of, err_of.
    destruct (n <? INT64_LIMIT); reflexivity.
  - exists (h ++ b), [], None. rewrite app_nil_r. repeat split; eauto.
    { intro E. apply app_eq_nil in E as [E _]. eapply Hne; eauto. }
    intros fuel tags tm rest Hf. destruct fuel as [|fuel]; [lia|].
    rewrite <- app_assoc. destruct (decode_head_of 2 _ h (b ++ rest) H) as (ai & Ha & E); [lia|].
    erewrite get_item_f_atom; [reflexivity|exact E|lia|]. unfold dec_atom. cbn [N.eqb Pos.eqb].
    unfold dec_string. destruct (N.eqb_spec ai 31); [lia|].
    destruct (N.ltb_spec (blen (b ++ rest)) (blen b)) as [L|L]; [rewrite blen_app in L; lia|].
    cbv zeta. now rewrite firstn_blen, skipn_blen.
  - exists (h ++ b), [], None. rewrite app_nil_r. repeat split; eauto.
    { intro E. apply app_eq_nil in E as [E _]. eapply Hne; eauto. }
    intros fuel tags tm rest Hf. destruct fuel as [|fuel]; [lia|].
    rewrite <- app_assoc. destruct (decode_head_of 3 _ h (b ++ rest) H) as (ai & Ha & E); [lia|].
    erewrite get_item_f_atom; [reflexivity|exact E|lia|]. unfold dec_atom. cbn [N.eqb Pos.eqb].
    unfold dec_string. destruct (N.eqb_spec ai 31); [lia|].
    destruct (N.ltb_spec (blen (b ++ rest)) (blen b)) as [L|L]; [rewrite blen_app in L; lia|].
    cbv zeta. now rewrite firstn_blen, skipn_blen.
  - exists h, b, (Some (blen l)). repeat split; eauto.
    { exists b. split; [left; auto|exact Hb]. }
    { cbn [body val_of]. unfold depth_ok, opens_level.
      destruct Hd as [->|Hd]; [reflexivity|]. change MAX_NESTING with max_nesting.
      apply orb_true_iff. right. apply Nat.ltb_lt. exact Hd. }
    intros fuel tags tm rest Hf. destruct fuel as [|fuel]; [lia|].
    destruct (decode_head_of 4 _ h rest H) as (ai & Ha & E); [lia|].
    erewrite get_item_f_atom; [reflexivity|exact E|lia|]. unfold dec_atom. cbn [N.eqb Pos.eqb orb].
    destruct (N.eqb_spec ai 31); [lia|]. unfold MAX_DEC_ITEMS. unfold max_items in Hn.
    destruct (N.ltb_spec 65534 (blen l)); [lia|reflexivity].
  - exists [initial 4 31], (b ++ [xff]), None. repeat split; [discriminate| | |].
    { exists b. split; [right; auto|exact Hb]. }
    { cbn [body val_of]. unfold depth_ok, opens_level. cbn [negb orb]. now apply Nat.ltb_lt. }
    intros fuel tags tm rest Hf. destruct fuel as [|fuel]; [lia|]. reflexivity.
  - exists h, b, (Some (blen l)). repeat split; eauto.
    { exists b. split; [left; auto|exact Hb]. }
    { cbn [body val_of]. unfold depth_ok, opens_level.
      destruct Hd as [->|Hd]; [reflexivity|]. change MAX_NESTING with max_nesting.
      apply orb_true_iff. right. apply Nat.ltb_lt. exact Hd. }
    intros fuel tags tm rest Hf. destruct fuel as [|fuel]; [lia|].
    destruct (decode_head_of 5 _ h rest H) as (ai & Ha & E); [lia|].
    erewrite get_item_f_atom; [reflexivity|exact E|lia|]. unfold dec_atom. cbn [N.eqb Pos.eqb orb].
    destruct (N.eqb_spec ai 31); [lia|]. unfold MAX_DEC_ITEMS. unfold max_items in Hn.
    destruct (N.ltb_spec 65534 (blen l)); [lia|reflexivity].
  - exists [initial 5 31], (b ++ [xff]), None. repeat split; [discriminate| | |].
    { exists b. split; [right; auto|exact Hb]. }
    { cbn [body val_of]. unfold depth_ok, opens_level. cbn [negb orb]. now apply Nat.ltb_lt. }
    intros fuel tags tm rest Hf. destruct fuel as [|fuel]; [lia|]. reflexivity.
  - destruct IH as (hb & cb & cnt & -> & Hh & Hc & Hd & IH).
    exists (h ++ hb), cb, cnt. rewrite app_assoc. repeat split; auto.
    { intro E. apply app_eq_nil in E as [E _]. eapply Hne; eauto. }
    intros fuel tags tm rest Hf. destruct fuel as [|fuel]; [lia|].
    rewrite <- app_assoc. destruct (decode_head_of 6 _ h (hb ++ rest) H) as (ai & Ha & E); [lia|].
    assert (Hl : (length hb < fuel)%nat).
    { rewrite app_length in Hf. specialize (Hne _ _ _ H). destruct h; [contradiction|].
      cbn [length] in Hf. lia. }
    cbn [get_item_f]. rewrite E. change (6 =? 6) with true. cbv iota.
    destruct (N.eqb_spec ai 31); [lia|]. cbn [tags_of acc_tags body].
    destruct (Nat.leb MAX_TAGS_PER_ITEM (length tags)); now apply IH.
  - exists [initial 7 n], [], None. repeat split; [discriminate| |].
    { cbn. destruct (n =? 22); reflexivity. }
    intros fuel tags tm rest Hf. destruct fuel as [|fuel]; [lia|].
    cbn [app]. assert (E : decode_head (initial 7 n :: rest) = HOk 7 n n rest).
    { cbn [decode_head]. rewrite initial_val by lia. replace ((7 * 32 + n) / 32) with 7 by lia.
      replace ((7 * 32 + n) mod 32) with n by lia. destruct (N.ltb_spec n 24); [reflexivity|lia]. }
    erewrite get_item_f_atom; [reflexivity|exact E|lia|]. unfold dec_atom. cbn [N.eqb Pos.eqb orb].
    unfold dec_type7. destruct (N.eqb_spec n 31); [lia|]. unfold atom_of, val_of, err_of, good_item.
    cbn [body]. destruct (n =? 22); [reflexivity|]. destruct (N.eqb_spec n 24); [lia|reflexivity].
  - exists [initial 7 24; byte_of_N n], [], None. repeat split; [discriminate| |].
    { cbn. destruct (n =? 22); reflexivity. }
    intros fuel tags tm rest Hf. destruct fuel as [|fuel]; [lia|].
    assert (E : decode_head ([initial 7 24; byte_of_N n] ++ rest) = HOk 7 24 n rest).
    { cbn [app]. change (decode_head (initial 7 24 :: byte_of_N n :: rest))
        with (head_arg 1 7 24 (byte_of_N n :: rest)).
      unfold head_arg. cbn [length Nat.ltb Nat.leb firstn skipn be_value].
      rewrite to_of_N, N.mod_small by lia. f_equal. }
    erewrite get_item_f_atom; [reflexivity|exact E|lia|]. unfold dec_atom, dec_type7.
    cbn [N.eqb Pos.eqb orb andb]. destruct (N.ltb_spec n 32); [lia|].
    unfold atom_of, val_of, err_of, good_item. cbn [body].
    destruct (N.eqb_spec n 22); [lia|reflexivity].
  - exists (initial 7 ai :: b), [], None. rewrite app_nil_r. repeat split; [discriminate|].
    intros fuel tags tm rest Hf. destruct fuel as [|fuel]; [lia|].
    assert (E : decode_head ((initial 7 ai :: b) ++ rest) = HOk 7 ai (be_val b) rest).
    { destruct H as [[-> L]|[[-> L]|[-> L]]]; cbn [app].
      - change (decode_head (initial 7 25 :: b ++ rest)) with (head_arg 2 7 25 (b ++ rest)).
        rewrite (be_bytes_eq b 2 (be_val b) L eq_refl) at 1. apply head_arg_ok.
        pose proof (be_val_bound b) as P. unfold blen in P. now rewrite L in P.
      - change (decode_head (initial 7 26 :: b ++ rest)) with (head_arg 4 7 26 (b ++ rest)).
        rewrite (be_bytes_eq b 4 (be_val b) L eq_refl) at 1. apply head_arg_ok.
        pose proof (be_val_bound b) as P. unfold blen in P. now rewrite L in P.
      - change (decode_head (initial 7 27 :: b ++ rest)) with (head_arg 8 7 27 (b ++ rest)).
        rewrite (be_bytes_eq b 8 (be_val b) L eq_refl) at 1. apply head_arg_ok.
        pose proof (be_val_bound b) as P. unfold blen in P. now rewrite L in P. }
    erewrite get_item_f_atom; [reflexivity|exact E|lia|]. unfold dec_atom, dec_type7.
    destruct H as [[-> L]|[[-> L]|[-> L]]]; reflexivity.
  - exists b, [], None. rewrite app_nil_r. repeat split.
    { destruct H; discriminate. }
    intros fuel tags tm rest Hf. destruct fuel as [|fuel]; [lia|]. unfold with_tags, atom_of. cbn [body err_of val_of i_err].
    destruct H as [mt ai Hm Ha|mt Hm|n Hn].
    + cbn [app get_item_f decode_head junk_err]. rewrite initial_val by lia.
      replace ((mt * 32 + ai) mod 32) with ai by lia.
      destruct (N.ltb_spec ai 24); [lia|]. destruct (N.eqb_spec ai 24); [lia|].
      destruct (N.eqb_spec ai 25); [lia|]. destruct (N.eqb_spec ai 26); [lia|].
      destruct (N.eqb_spec ai 27); [lia|]. destruct (N.eqb_spec ai 31); [lia|]. reflexivity.
    + destruct Hm as [->|[->| ->]]; reflexivity.
    + cbn [junk_err]. cbn [app get_item_f].
      change (decode_head (initial 7 24 :: byte_of_N n :: rest))
        with (head_arg 1 7 24 (byte_of_N n :: rest)).
      unfold head_arg. cbn [length Nat.ltb Nat.leb firstn skipn be_value].
      rewrite to_of_N, N.mod_small by lia. unfold dec_atom, dec_type7. cbn [N.eqb Pos.eqb orb andb].
      destruct (N.ltb_spec (0 * 256 + n) 32); [reflexivity|lia].
Qed.

Lemma reads_get_item d c b :
  reads d c b ->
  exists hb cb cnt, b = hb ++ cb /\ hb <> [] /\ content d c cnt cb /\
    depth_ok d (val_of cnt (body c)) = true /\
    (forall rest, get_item (hb ++ rest) = IItem (item_of cnt c) rest).
Proof.
  intro H. destruct (reads_item d c b H) as (hb & cb & cnt & E & Hh & Hc & Hd & G).
  exists hb, cb, cnt. repeat split; auto. intro rest. unfold get_item. apply G.
  rewrite app_length. lia.
Qed.

(** ** The other direction *)

Definition wrap (ts : list N) (c : cbor) : cbor := fold_right CTag c ts.

Lemma body_wrap ts c : body (wrap ts c) = body c.
Proof. induction ts; cbn; auto. Qed.

Lemma tags_of_wrap ts c : tags_of (wrap ts c) = ts ++ tags_of c.
Proof. unfold wrap. induction ts as [|t ts IH]; [reflexivity|]. cbn [fold_right tags_of app]. now rewrite IH. Qed.

Lemma counted_depth {A} d (m : list A) :
  depth_ok d (VAgg true (Some (blen m))) = true -> m = [] \/ (d < max_nesting)%nat.
Proof.
  intros H. unfold depth_ok, opens_level in H.
  destruct m; [left; reflexivity|right]. rewrite blen_cons in H.
  destruct (N.eqb_spec (1 + blen m) 0); [lia|]. cbn [negb orb] in H. now apply Nat.ltb_lt in H.
Qed.

Lemma depth_ok_agg d m m' cnt : depth_ok d (VAgg m cnt) = depth_ok d (VAgg m' cnt).
Proof. reflexivity. Qed.

(** What get_item returned came from: an item with no content after it, or the
    head of an array or map. *)
Definition leaf_at (hb : bytes) (c : cbor) : Prop :=
  is_agg (body c) = false /\ forall d, reads d c hb.

Definition agg_at (hb : bytes) (ts : list N) (m : bool) (cnt : option N) : Prop :=
  forall d cb, depth_ok d (VAgg m cnt) = true ->
    (m = false -> forall l b, counted cnt (blen l) b cb -> reads_all (S d) l b ->
                              reads d (wrap ts (CArray l)) (hb ++ cb)) /\
    (m = true -> forall l b, counted cnt (blen l) b cb -> reads_pairs (S d) l b ->
                             reads d (wrap ts (CMap l)) (hb ++ cb)).

Lemma get_item_f_inv fuel tags tm bs it rest :
  get_item_f fuel tags tm bs = IItem it rest ->
  i_val it = VBreak \/
  exists hb, bs = hb ++ rest /\ hb <> [] /\
    ((exists c, leaf_at hb c /\
        it = with_tags (fst (acc_tags (tags_of c) tags tm)) (snd (acc_tags (tags_of c) tags tm))
                       (atom_of None (body c))) \/
     (exists ts m cnt, agg_at hb ts m cnt /\ (forall n, cnt = Some n -> n <= max_items) /\
        it = with_tags (fst (acc_tags ts tags tm)) (snd (acc_tags ts tags tm))
                       (good_item (VAgg m cnt)))).
Proof.
  revert tags tm bs. induction fuel as [|fuel IH]; intros tags tm bs; [discriminate|].
  cbn [get_item_f]. destruct (decode_head bs) as [e r|mt ai n r] eqn:E.
  { apply decode_head_err in E as [->|(-> & mt & ai & Hm & Ha & ->)]; [discriminate|].
    cbn [is_unrecoverable]. intro X. injection X as <- <-. right.
    exists [initial mt ai]. split; [reflexivity|]. split; [discriminate|]. left.
    exists (CJunk [initial mt ai]). split; [split; [reflexivity|]|].
    { intro d. apply rd_junk. now constructor. }
    unfold with_tags, atom_of. cbn [body err_of val_of i_err junk_err].
    rewrite initial_val by lia. replace ((mt * 32 + ai) mod 32) with ai by lia.
    destruct (N.eqb_spec ai 31); [lia|]. reflexivity. }
  apply decode_head_inv in E as (Hm & E).
  destruct (N.eqb_spec mt 6) as [->|N6].
  { destruct E as [(-> & -> & ->)|(Ha & a & -> & La & Hh & _ & _)].
    - change (31 =? 31) with true. cbv iota. intro X. injection X as <- <-. right.
      exists [initial 6 31]. split; [reflexivity|]. split; [discriminate|]. left.
      exists (CJunk [initial 6 31]). split; [split; [reflexivity|]|].
      { intro d. apply rd_junk. apply junk_indefinite. auto. }
      reflexivity.
    - destruct (N.eqb_spec ai 31); [lia|].
      set (tt := if Nat.leb MAX_TAGS_PER_ITEM (length tags) then (tags, true) else (n :: tags, tm)).
      intro X.
      assert (Y : get_item_f fuel (fst tt) (snd tt) r = IItem it rest).
      { unfold tt. destruct (Nat.leb _ _); exact X. }
      apply IH in Y as [Y|(hb & -> & Hne & Y)]; [left; exact Y|right].
      exists ((initial 6 ai :: a) ++ hb). split; [now rewrite <- app_assoc|]. split; [discriminate|].
      assert (Hacc : forall ts, acc_tags (n :: ts) tags tm = acc_tags ts (fst tt) (snd tt)).
      { intro ts. unfold tt. cbn [acc_tags]. destruct (Nat.leb _ _); reflexivity. }
      destruct Y as [(c & (Hc & Hr) & ->)|(ts & m & cnt & Ha' & Hcnt & ->)].
      + left. exists (CTag n c). split; [split; [exact Hc|]|].
        { intro d. now apply rd_tag. }
        cbn [tags_of body]. rewrite Hacc. reflexivity.
      + right. exists (n :: ts), m, cnt. rewrite Hacc. split; [|auto].
        intros d cb Hd. destruct (Ha' d cb Hd) as [A B].
        split; intros Em l b H1 H2; cbn [wrap fold_right]; rewrite <- app_assoc; apply rd_tag; eauto. }
  destruct (dec_atom mt ai n r) as [|it' r'] eqn:D; [discriminate|].
  intro X. injection X as <- <-.
  unfold dec_atom in D.
  destruct (N.eqb_spec mt 0) as [->|N0].
  { destruct E as [(-> & -> & ->)|(Ha & a & -> & La & Hh & _ & _)].
    - change (31 =? 31) with true in D. injection D as <- <-. right.
      exists [initial 0 31]. split; [reflexivity|]. split; [discriminate|]. left.
      exists (CJunk [initial 0 31]). split; [split; [reflexivity|]|reflexivity].
      intro d. apply rd_junk. apply junk_indefinite. auto.
    - destruct (N.eqb_spec ai 31); [lia|]. right. exists (initial 0 ai :: a).
      assert (r' = r) as -> by (revert D; destruct (n <? INT64_LIMIT); congruence).
      split; [reflexivity|]. split; [discriminate|]. left. exists (CUInt n).
      split; [split; [reflexivity|intro d; now apply rd_uint]|].
      unfold atom_of. cbn [body tags_of acc_tags fst snd val_of err_of].
      destruct (n <? INT64_LIMIT); injection D as <-; reflexivity. }
  destruct (N.eqb_spec mt 1) as [->|N1].
  { destruct E as [(-> & -> & ->)|(Ha & a & -> & La & Hh & _ & _)].
    - change (31 =? 31) with true in D. injection D as <- <-. right.
      exists [initial 1 31]. split; [reflexivity|]. split; [discriminate|]. left.
      exists (CJunk [initial 1 31]). split; [split; [reflexivity|]|reflexivity].
      intro d. apply rd_junk. apply junk_indefinite. auto.
    - destruct (N.eqb_spec ai 31); [lia|]. right. exists (initial 1 ai :: a).
      assert (r' = r) as -> by (revert D; destruct (n <? INT64_LIMIT); congruence).
      split; [reflexivity|]. split; [discriminate|]. left. exists (CNInt n).
      split; [split; [reflexivity|intro d; now apply rd_nint]|].
      unfold atom_of. cbn [body tags_of acc_tags fst snd val_of err_of].
      destruct (n <? INT64_LIMIT); injection D as <-; reflexivity. }
  destruct (N.eqb_spec mt 2) as [->|N2].
  { unfold dec_string in D. destruct E as [(-> & -> & ->)|(Ha & a & -> & La & Hh & _ & _)]; [discriminate|].
    destruct (N.eqb_spec ai 31); [lia|]. destruct (N.ltb_spec (blen r) n) as [L|L]; [discriminate|].
    injection D as <- <-. right.
    assert (Hlen : blen (firstn (N.to_nat n) r) = n).
    { unfold blen in *. rewrite firstn_length. lia. }
    exists ((initial 2 ai :: a) ++ firstn (N.to_nat n) r).
    split; [|split; [discriminate|]].
    { rewrite <- app_assoc, firstn_skipn. reflexivity. }
    left. exists (CBytes (firstn (N.to_nat n) r)). split; [split; [reflexivity|]|reflexivity].
    intro d. apply rd_bytes. now rewrite Hlen. }
  destruct (N.eqb_spec mt 3) as [->|N3].
  { unfold dec_string in D. destruct E as [(-> & -> & ->)|(Ha & a & -> & La & Hh & _ & _)]; [discriminate|].
    destruct (N.eqb_spec ai 31); [lia|]. destruct (N.ltb_spec (blen r) n) as [L|L]; [discriminate|].
    injection D as <- <-. right.
    assert (Hlen : blen (firstn (N.to_nat n) r) = n).
    { unfold blen in *. rewrite firstn_length. lia. }
    exists ((initial 3 ai :: a) ++ firstn (N.to_nat n) r).
    split; [|split; [discriminate|]].
    { rewrite <- app_assoc, firstn_skipn. reflexivity. }
    left. exists (CText (firstn (N.to_nat n) r)). split; [split; [reflexivity|]|reflexivity].
    intro d. apply rd_text. now rewrite Hlen. }
  destruct ((mt =? 4) || (mt =? 5)) eqn:N45.
  { right. destruct E as [(-> & -> & ->)|(Ha & a & -> & La & Hh & _ & _)].
    - change (31 =? 31) with true in D. injection D as <- <-.
      exists [initial mt 31]. split; [reflexivity|]. split; [discriminate|]. right.
      exists [], (mt =? 5), None. split; [|split; [discriminate|reflexivity]].
      intros d cb Hd.
      assert (Hdd : (d < max_nesting)%nat) by (unfold depth_ok, opens_level in Hd; cbn [negb orb] in Hd; now apply Nat.ltb_lt in Hd).
      split; intros Em l b [(X & _)|(_ & ->)] H2; try discriminate.
      + destruct (N.eqb_spec mt 5); [discriminate|]. assert (mt = 4) as -> by lia.
        now apply rd_array_indef.
      + destruct (N.eqb_spec mt 5) as [->|]; [|discriminate]. now apply rd_map_indef.
    - destruct (N.eqb_spec ai 31); [lia|]. destruct (N.ltb_spec MAX_DEC_ITEMS n) as [L|L]; [discriminate|].
      injection D as <- <-. exists (initial mt ai :: a). split; [reflexivity|]. split; [discriminate|].
      right. exists [], (mt =? 5), (Some n).
      split; [|split; [intros n' X; injection X as <-; exact L|reflexivity]].
      intros d cb Hd.
      split; intros Em l b [(X & Y & ->)|(X & _)] H2; try discriminate; injection X as ->.
      + pose proof (counted_depth d l Hd) as Z.
        destruct (N.eqb_spec mt 5); [discriminate|]. assert (mt = 4) as -> by lia.
        apply rd_array; auto.
      + pose proof (counted_depth d l Hd) as Z.
        destruct (N.eqb_spec mt 5) as [->|]; [|discriminate]. apply rd_map; auto. }
  assert (mt = 7) as -> by lia. unfold dec_type7 in D.
  destruct E as [(-> & -> & ->)|(Ha & a & -> & La & Hh & Hs & Hv)].
  { change (31 =? 31) with true in D. injection D as <- <-. left. reflexivity. }
  right. destruct (N.eqb_spec ai 31); [lia|].
  exists (initial 7 ai :: a).
  assert (r' = r) as -> by (revert D; destruct (ai =? 22); [congruence|]; destruct (_ && _); congruence).
  split; [reflexivity|]. split; [discriminate|]. left.
  destruct (N.ltb_spec ai 24) as [L|L].
  { destruct (Hs L) as [-> ->]. exists (CSimple ai).
    split; [split; [reflexivity|intro d; now apply rd_simple]|].
    unfold atom_of. cbn [body val_of err_of tags_of acc_tags fst snd].
    destruct (ai =? 22); [injection D as <-; reflexivity|].
    destruct (N.eqb_spec ai 24); [lia|]. cbn [andb] in D. injection D as <-. reflexivity. }
  specialize (Hv L). destruct (N.eqb_spec ai 22); [lia|].
  destruct (N.eqb_spec ai 24) as [->|N24].
  { assert (Hn : n < 256).
    { rewrite Hv. pose proof (be_val_bound a) as P. unfold blen in P. rewrite La in P. exact P. }
    assert (Ea : a = [byte_of_N n]).
    { rewrite (be_bytes_eq a 1 n La Hv). cbn [big_endian little_endian rev app].
      now rewrite N.mod_small by lia. }
    cbn [andb] in D. destruct (N.ltb_spec n 32) as [L32|L32]; injection D as <-.
    - exists (CJunk (initial 7 24 :: a)). rewrite Ea. split; [split; [reflexivity|]|reflexivity].
      intro d. apply rd_junk. now constructor.
    - exists (CSimple n). split; [split; [reflexivity|]|].
      + intro d. rewrite Ea. apply rd_simple8. lia.
      + unfold atom_of. cbn [body val_of err_of]. destruct (N.eqb_spec n 22); [lia|reflexivity]. }
  cbn [andb] in D. injection D as <-. exists (CFloat a). split; [split; [reflexivity|]|reflexivity].
  intro d. apply rd_float. unfold arg_width in La.
  destruct (N.eqb_spec ai 24); [lia|]. destruct (N.eqb_spec ai 25); [auto|].
  destruct (N.eqb_spec ai 26); [auto|]. destruct (N.eqb_spec ai 27); [auto|]. lia.
Qed.

Lemma wrap_tags c : wrap (tags_of c) (body c) = c.
Proof. unfold wrap. induction c; cbn [tags_of body fold_right]; auto. now rewrite IHc. Qed.

Lemma get_item_inv bs it rest :
  get_item bs = IItem it rest ->
  i_val it = VBreak \/
  exists hb, bs = hb ++ rest /\ hb <> [] /\
    ((exists c, leaf_at hb c /\ it = item_of None c) \/
     (exists ts m cnt, agg_at hb ts m cnt /\ (forall n, cnt = Some n -> n <= max_items) /\
        it = with_tags (fst (acc_tags ts [] false)) (snd (acc_tags ts [] false))
                       (good_item (VAgg m cnt)))).
Proof. apply get_item_f_inv. Qed.
