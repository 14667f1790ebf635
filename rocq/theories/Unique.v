(** A byte string represents at most one data item, and is not the beginning of
    another representation: the parts of a message are determined by it. *)
From Verif Require Import Base Const QEnc QDec Spec BaseFacts DecSpec DecFacts DecSkip Crypto Params SignSpec VerifySpec.
From Coq Require Import Lia ZifyBool ZifyNat ZifyN.
Ltac Zify.zify_post_hook ::= Z.div_mod_to_equations.
Open Scope N_scope. Open Scope list_scope.

Lemma head_initial mt ai r : mt < 8 -> ai < 32 -> 
  decode_head (initial mt ai :: r) =
  if ai <? 24 then HOk mt ai ai r
    else if ai =? 24 then head_arg 1 mt ai r
    else if ai =? 25 then head_arg 2 mt ai r
    else if ai =? 26 then head_arg 4 mt ai r
    else if ai =? 27 then head_arg 8 mt ai r
    else if ai =? 31 then HOk mt ai 31 r
    else HErr QD_UNSUPPORTED r.
Proof.
  intros H1 H2. unfold decode_head. rewrite initial_val by assumption.
  replace ((mt * 32 + ai) / 32) with mt by lia. replace ((mt * 32 + ai) mod 32) with ai by lia. reflexivity.
Qed.

(** What the head of an item is. *)
Definition head_of (d : nat) (c : cbor) (b r : bytes) : Prop :=
  match c with
  | CUInt n => exists ai, ai < 28 /\ decode_head (b ++ r) = HOk 0 ai n r
  | CNInt n => exists ai, ai < 28 /\ decode_head (b ++ r) = HOk 1 ai n r
  | CBytes s => exists ai, ai < 28 /\ decode_head (b ++ r) = HOk 2 ai (blen s) (s ++ r)
  | CText s => exists ai, ai < 28 /\ decode_head (b ++ r) = HOk 3 ai (blen s) (s ++ r)
  | CArray l => exists bs, reads_all (S d) l bs /\
      ((exists ai, ai < 28 /\ decode_head (b ++ r) = HOk 4 ai (blen l) (bs ++ r)) \/
       decode_head (b ++ r) = HOk 4 31 31 (bs ++ xff :: r))
  | CMap l => exists bs, reads_pairs (S d) l bs /\
      ((exists ai, ai < 28 /\ decode_head (b ++ r) = HOk 5 ai (blen l) (bs ++ r)) \/
       decode_head (b ++ r) = HOk 5 31 31 (bs ++ xff :: r))
  | CTag n c' => exists bs ai, ai < 28 /\ reads d c' bs /\ decode_head (b ++ r) = HOk 6 ai n (bs ++ r)
  | CSimple n => (n < 24 /\ decode_head (b ++ r) = HOk 7 n n r) \/
                 (32 <= n < 256 /\ decode_head (b ++ r) = HOk 7 24 n r)
  | CFloat s => exists ai, 25 <= ai < 28 /\ length s = arg_width ai /\ decode_head (b ++ r) = HOk 7 ai (be_val s) r
  | CJunk s => s = b /\
      ((exists mt ai, b = [initial mt ai] /\ mt < 8 /\ 28 <= ai < 31 /\ decode_head (b ++ r) = HErr QD_UNSUPPORTED r) \/
       (exists mt, b = [initial mt 31] /\ (mt = 0 \/ mt = 1 \/ mt = 6) /\ decode_head (b ++ r) = HOk mt 31 31 r) \/
       (exists n, b = [initial 7 24; byte_of_N n] /\ n < 32 /\ decode_head (b ++ r) = HOk 7 24 n r))
  end.

Lemma one_byte n r : n < 256 -> head_arg 1 7 24 (byte_of_N n :: r) = HOk 7 24 n r.
Proof.
  intro H. pose proof (head_arg_ok 1 7 24 n r) as X. change (256 ^ N.of_nat 1) with 256 in X. specialize (X H).
  replace (byte_of_N n :: r) with (big_endian 1 n ++ r); [exact X|].
  unfold big_endian. cbn [little_endian rev app]. rewrite N.mod_small by exact H. reflexivity.
Qed.

Lemma float_arg w mt ai s r : length s = w -> head_arg w mt ai (s ++ r) = HOk mt ai (be_val s) r.
Proof.
  intro H. unfold head_arg. rewrite app_length. destruct (Nat.ltb_spec (length s + length r) w) as [L|L]; [lia|].
  subst w. rewrite firstn_app, Nat.sub_diag, firstn_all, skipn_app, Nat.sub_diag, skipn_all. cbn [firstn skipn app].
  rewrite app_nil_r, be_value_val. reflexivity.
Qed.

Lemma reads_head d c b r : reads d c b -> head_of d c b r.
Proof.
  intro H. inversion H as
    [d0 n h Hh|d0 n h Hh|d0 s h Hh|d0 s h Hh|d0 l h bs Hh L D A|d0 l bs D A|d0 l h bs Hh L D A|d0 l bs D A|d0 n x h bs Hh A|d0 n L|d0 n L|d0 ai s L|d0 s J];
    subst; cbn [head_of].
  - apply decode_head_of; [exact Hh|lia].
  - apply decode_head_of; [exact Hh|lia].
  - rewrite <- app_assoc. apply decode_head_of; [exact Hh|lia].
  - rewrite <- app_assoc. apply decode_head_of; [exact Hh|lia].
  - exists bs. split; [exact A|]. left. rewrite <- app_assoc. apply decode_head_of; [exact Hh|lia].
  - exists bs. split; [exact A|]. right. cbn [app]. rewrite head_initial by lia. now rewrite <- app_assoc.
  - exists bs. split; [exact A|]. left. rewrite <- app_assoc. apply decode_head_of; [exact Hh|lia].
  - exists bs. split; [exact A|]. right. cbn [app]. rewrite head_initial by lia. now rewrite <- app_assoc.
  - destruct (decode_head_of _ _ _ (bs ++ r) Hh) as (ai & L & E); [lia|]. exists bs, ai. rewrite <- app_assoc. auto.
  - left. split; [exact L|]. cbn [app]. rewrite head_initial by lia. now replace (n <? 24) with true by lia.
  - right. split; [exact L|]. cbn [app]. rewrite head_initial by lia. apply one_byte. lia.
  - exists ai. destruct L as [[-> L]|[[-> L]|[-> L]]]; (split; [lia|]); (split; [exact L|]); cbn [app]; rewrite head_initial by lia; apply float_arg, L.
  - split; [reflexivity|]. destruct J as [mt ai L1 L2|mt L|n L].
    + left. exists mt, ai. repeat split; try lia. cbn [app]. rewrite head_initial by lia.
      repeat match goal with |- context [?a <? ?b] => replace (a <? b) with false by lia
             | |- context [?a =? ?b] => replace (a =? b) with false by lia end. reflexivity.
    + right. left. exists mt. repeat split; auto. cbn [app]. rewrite head_initial by lia. reflexivity.
    + right. right. exists n. repeat split; auto. cbn [app]. rewrite head_initial by lia. apply one_byte. lia.
Qed.

Lemma reads_not_break d c b r x : reads d c b -> b ++ r <> xff :: x.
Proof.
  intros H E. apply (reads_head _ _ _ r) in H. unfold head_of in H. rewrite E in H.
  change (decode_head (xff :: x)) with (HOk 7 31 31 x) in H.
  destruct c;
  repeat match goal with
  | H : exists _, _ |- _ => destruct H
  | H : _ /\ _ |- _ => destruct H
  | H : _ \/ _ |- _ => destruct H
  | H : HOk _ _ _ _ = _ |- _ => injection H; clear H; intros
  end; try discriminate; lia.
Qed.

Lemma be_val_inj a b : length a = length b -> be_val a = be_val b -> a = b.
Proof. intros L E. rewrite <- (be_bytes_val a), <- (be_bytes_val b). now rewrite L, E. Qed.

Lemma blen_inj {A} (a b : list A) : blen a = blen b -> length a = length b.
Proof. unfold blen. lia. Qed.

Ltac heads :=
  repeat match goal with
  | H : exists _, _ |- _ => destruct H
  | H : _ /\ _ |- _ => destruct H
  | H : _ \/ _ |- _ => destruct H
  | H1 : decode_head ?x = HOk _ _ _ _, H2 : decode_head ?x = HOk _ _ _ _ |- _ =>
      rewrite H1 in H2; injection H2; clear H2; intros
  | H1 : decode_head ?x = HErr _ _, H2 : decode_head ?x = HErr _ _ |- _ =>
      rewrite H1 in H2; injection H2; clear H2; intros
  | H1 : decode_head ?x = HOk _ _ _ _, H2 : decode_head ?x = HErr _ _ |- _ =>
      rewrite H1 in H2; discriminate H2
  end.

Lemma string_split (s s' r r' : bytes) : blen s = blen s' -> s ++ r = s' ++ r' -> s = s' /\ r = r'.
Proof.
  intros L. apply blen_inj in L. revert s' L. induction s as [|x s IH]; intros [|y s'] L E; try discriminate; [auto|].
  cbn [app] in E. injection E as -> E. cbn [length] in L. destruct (IH s') as [-> ->]; auto.
Qed.

Definition unique_upto (n : nat) : Prop := forall d c b d' c' b' r r',
  (length b < n)%nat -> reads d c b -> reads d' c' b' -> b ++ r = b' ++ r' -> c = c' /\ r = r'.

Lemma all_unique n : unique_upto n -> forall l d b d' l' b' r r',
  (length b < n)%nat -> reads_all d l b -> reads_all d' l' b' ->
  (blen l = blen l' -> b ++ r = b' ++ r' -> l = l' /\ r = r') /\
  (b ++ xff :: r = b' ++ xff :: r' -> l = l' /\ r = r').
Proof.
  intros U l. induction l as [|x l IH]; intros d b d' l' b' r r' L H H';
    inversion H as [|d0 c0 l0 b0 bs0 Hx Hl]; subst; inversion H' as [|d1 c1 l1 b1 bs1 Hx' Hl']; subst.
  - split; [auto|]. intro E. injection E as ->. auto.
  - split; [intro X; rewrite blen_cons in X; change (blen (@nil cbor)) with 0 in X; lia|].
    intro E. exfalso. cbn [app] in E. rewrite <- app_assoc in E. symmetry in E. now apply (reads_not_break _ _ _ _ _ Hx') in E.
  - split; [intro X; rewrite blen_cons in X; change (blen (@nil cbor)) with 0 in X; lia|].
    intro E. exfalso. cbn [app] in E. rewrite <- app_assoc in E. now apply (reads_not_break _ _ _ _ _ Hx) in E.
  - rewrite app_length in L. assert (L0 : (length b0 < n)%nat) by lia. assert (L1 : (length bs0 < n)%nat) by lia. split.
    + intros X E. rewrite !blen_cons in X. assert (X' : blen l = blen l1) by lia. rewrite <- !app_assoc in E.
      destruct (U _ _ _ _ _ _ _ _ L0 Hx Hx' E) as [-> E2].
      destruct (proj1 (IH _ _ _ _ _ r r' L1 Hl Hl') X' E2) as [-> ->]. auto.
    + intro E. rewrite <- !app_assoc in E.
      destruct (U _ _ _ _ _ _ _ _ L0 Hx Hx' E) as [-> E2].
      destruct (proj2 (IH _ _ _ _ _ r r' L1 Hl Hl') E2) as [-> ->]. auto.
Qed.

Lemma pairs_unique n : unique_upto n -> forall l d b d' l' b' r r',
  (length b < n)%nat -> reads_pairs d l b -> reads_pairs d' l' b' ->
  (blen l = blen l' -> b ++ r = b' ++ r' -> l = l' /\ r = r') /\
  (b ++ xff :: r = b' ++ xff :: r' -> l = l' /\ r = r').
Proof.
  intros U l. induction l as [|x l IH]; intros d b d' l' b' r r' L H H';
    inversion H as [|d0 k0 c0 l0 bk0 b0 bs0 Hk Hkl Hx Hl]; subst; inversion H' as [|d1 k1 c1 l1 bk1 b1 bs1 Hk' Hkl' Hx' Hl']; subst.
  - split; [auto|]. intro E. injection E as ->. auto.
  - split; [intro X; rewrite blen_cons in X; change (blen (@nil (cbor * cbor))) with 0 in X; lia|].
    intro E. exfalso. cbn [app] in E. rewrite <- app_assoc in E. symmetry in E. now apply (reads_not_break _ _ _ _ _ Hk') in E.
  - split; [intro X; rewrite blen_cons in X; change (blen (@nil (cbor * cbor))) with 0 in X; lia|].
    intro E. exfalso. cbn [app] in E. rewrite <- app_assoc in E. now apply (reads_not_break _ _ _ _ _ Hk) in E.
  - rewrite !app_length in L. assert (L0 : (length b0 < n)%nat) by lia. assert (L1 : (length bs0 < n)%nat) by lia.
    assert (Lk : (length bk0 < n)%nat) by lia. split.
    + intros X E. rewrite !blen_cons in X. assert (X' : blen l = blen l1) by lia. rewrite <- !app_assoc in E.
      destruct (U _ _ _ _ _ _ _ _ Lk Hk Hk' E) as [-> E1].
      destruct (U _ _ _ _ _ _ _ _ L0 Hx Hx' E1) as [-> E2].
      destruct (proj1 (IH _ _ _ _ _ r r' L1 Hl Hl') X' E2) as [-> ->]. auto.
    + intro E. rewrite <- !app_assoc in E.
      destruct (U _ _ _ _ _ _ _ _ Lk Hk Hk' E) as [-> E1].
      destruct (U _ _ _ _ _ _ _ _ L0 Hx Hx' E1) as [-> E2].
      destruct (proj2 (IH _ _ _ _ _ r r' L1 Hl Hl') E2) as [-> ->]. auto.
Qed.

Lemma unique n : unique_upto n.
Proof.
  induction n as [|n IH]; intros d c b d' c' b' r r' L H H' E; [lia|].
  pose proof (reads_head _ _ _ r H) as Hd. pose proof (reads_head _ _ _ r' H') as Hd'.
  assert (Sh : forall mt ai k x, decode_head (b ++ r) = HOk mt ai k (x ++ r) -> (length x < length b)%nat).
  { intros mt ai k x X. pose proof (decode_head_shrink (b ++ r)) as S. rewrite X in S. rewrite !app_length in S. lia. }
  unfold head_of in Hd, Hd'. rewrite <- E in Hd'.
  destruct c, c'; heads; try discriminate; try (exfalso; lia); subst; auto.
  - match goal with A : blen ?x = blen ?y, B : ?x ++ r = ?y ++ r' |- _ => destruct (string_split _ _ _ _ A B) as [-> ->] end. auto.
  - match goal with A : blen ?x = blen ?y, B : ?x ++ r = ?y ++ r' |- _ => destruct (string_split _ _ _ _ A B) as [-> ->] end. auto.
  - match goal with A : reads_all (S d) _ ?x, A' : reads_all (S d') _ _, B : ?x ++ r = ?y ++ r', C : blen _ = blen _, D : decode_head _ = _ |- _ =>
      pose proof (Sh _ _ _ _ D) as L1; assert (L2 : (length x < n)%nat) by lia;
      destruct (proj1 (all_unique n IH _ _ _ _ _ _ r r' L2 A A') C B) as [-> ->] end. auto.
  - match goal with A : reads_all (S d) _ ?x, A' : reads_all (S d') _ _, B : ?x ++ _ :: r = ?y ++ _ :: r', D : decode_head _ = _ |- _ =>
      change (x ++ xff :: r) with (x ++ [xff] ++ r) in D; rewrite app_assoc in D;
      pose proof (Sh _ _ _ _ D) as L1; rewrite app_length in L1; assert (L2 : (length x < n)%nat) by lia;
      destruct (proj2 (all_unique n IH _ _ _ _ _ _ r r' L2 A A') B) as [-> ->] end. auto.
  - match goal with A : reads_pairs (S d) _ ?x, A' : reads_pairs (S d') _ _, B : ?x ++ r = ?y ++ r', C : blen _ = blen _, D : decode_head _ = _ |- _ =>
      pose proof (Sh _ _ _ _ D) as L1; assert (L2 : (length x < n)%nat) by lia;
      destruct (proj1 (pairs_unique n IH _ _ _ _ _ _ r r' L2 A A') C B) as [-> ->] end. auto.
  - match goal with A : reads_pairs (S d) _ ?x, A' : reads_pairs (S d') _ _, B : ?x ++ _ :: r = ?y ++ _ :: r', D : decode_head _ = _ |- _ =>
      change (x ++ xff :: r) with (x ++ [xff] ++ r) in D; rewrite app_assoc in D;
      pose proof (Sh _ _ _ _ D) as L1; rewrite app_length in L1; assert (L2 : (length x < n)%nat) by lia;
      destruct (proj2 (pairs_unique n IH _ _ _ _ _ _ r r' L2 A A') B) as [-> ->] end. auto.
  - match goal with A : reads d c ?x, A' : reads d' c' ?y, B : ?x ++ r = ?y ++ r', D : decode_head _ = _ |- _ =>
      pose proof (Sh _ _ _ _ D) as L1; assert (L2 : (length x < n)%nat) by lia;
      destruct (IH _ _ _ _ _ _ _ _ L2 A A' B) as [-> ->] end. auto.
  - match goal with A : length ?x = _, A' : length ?y = _, B : be_val _ = be_val _ |- CFloat ?x = CFloat ?y /\ _ =>
      rewrite (be_val_inj x y) by congruence end. auto.
  - cbn [app] in E. injection E as -> . auto.
Qed.

Theorem reads_unique d c b d' c' b' r r' :
  reads d c b -> reads d' c' b' -> b ++ r = b' ++ r' -> c = c' /\ b = b' /\ r = r'.
Proof.
  intros H H' E. destruct (unique (S (length b)) _ _ _ _ _ _ r r' (Nat.lt_succ_diag_r _) H H' E) as [-> ->].
  split; [reflexivity|]. split; [|reflexivity]. eapply app_inv_tail, E.
Qed.

Theorem message_unique msg g pm g' pm' : message msg g pm -> message msg g' pm' -> g = g' /\ pm = pm'.
Proof.
  intros (t & rest & Ht & (T1 & T2 & u & U1 & U2 & U3) & P) (t' & rest' & Ht' & (T1' & T2' & u' & U1' & U2' & U3') & P').
  destruct (reads_unique _ _ _ _ _ _ [] [] Ht Ht' eq_refl) as (<- & _ & _).
  rewrite U3' in U3. injection U3 as E1 E2 E3 E4 E5. subst u'. rewrite U2' in U2. injection U2 as E2.
  assert (G : g = g').
  { destruct g, g'. cbn in *. congruence. }
  split; [exact G|]. subst g'.
  destruct P as [(P1 & P2 & P3)|(x & bx & P1 & P2 & P3 & P4)], P' as [(P1' & P2' & P3')|(x' & bx' & P1' & P2' & P3' & P4')].
  - congruence.
  - exfalso. rewrite P1 in P1'. symmetry in P1'. apply app_eq_nil in P1' as [-> _].
    destruct (reads_item _ _ _ P2') as (hb & cb & cnt & E & N & _). destruct hb; [contradiction|discriminate].
  - exfalso. rewrite P1 in P1'. apply app_eq_nil in P1' as [-> _].
    destruct (reads_item _ _ _ P2) as (hb & cb & cnt & E & N & _). destruct hb; [contradiction|discriminate].
  - rewrite P1 in P1'. destruct (reads_unique _ _ _ _ _ _ _ _ P2 P2' P1') as (-> & _ & _). congruence.
Qed.
