(** Keys and memory in the example programs. *)
From Verif Require Import Base Const QEnc Crypto Params Sign Verify OpenSSL Psa BaseFacts Examples ExampleRun ExampleRunSpec.
Open Scope N_scope. Open Scope list_scope.

Lemma held_app a b : forall l, held l (a ++ b) = match held l a with Some l' => held l' b | None => None end.
Proof.
  induction a as [|[o|o|o] a IH]; intro l; cbn [held app]; [reflexivity|..]; destruct (in_dec xobj_eq_dec o l); auto.
Qed.

(** Ways of making keys: what is held afterwards. *)
Definition fair (make : Z -> X (terr * option tkey)) (base : list xobj) : Prop :=
  forall alg, exists l, held [] (fst (make alg)) = Some l /\ at_most l /\
  match snd (make alg) with
  | Ret (e, k) => if terr_eqb e T_SUCCESS then l = XKey :: base /\ exists key, k = Some key else True
  | UB _ => False
  end.

Ltac in_list := unfold at_most; intros ? ?; cbn in *; tauto.

Lemma ossl_fair kg : fair (make_ossl_key_pair kg) [XKeyCtx].
Proof.
  intro alg. unfold make_ossl_key_pair. destruct (ossl_key_kind alg) as [kind|]; [|exists []; repeat split; in_list].
  destruct (kg_ctx kg kind); cbn [negb]; [|exists []; repeat split; in_list].
  destruct (kg_init kg kind <=? 0)%Z; [exists [XKeyCtx]; repeat split; in_list|].
  destruct (match kind with KEc bits => negb (kg_curve kg bits =? 1)%Z | KEd25519 => false end);
    [exists [XKeyCtx]; repeat split; in_list|].
  destruct (kg_gen kg kind) as [r h]. destruct (r =? 1)%Z, (kg_new kg), (kg_frees kg); cbn;
    (eexists; split; [reflexivity|]; split; [in_list|]; cbn; eauto).
Qed.

Lemma psa_fair ks : fair (make_psa_ecdsa_key_pair ks) [].
Proof.
  intro alg. unfold make_psa_ecdsa_key_pair.
  destruct (if (alg =? ES256)%Z then _ else _) as [ka|]; [|exists []; repeat split; in_list].
  destruct (ks_init ks =? PSA_SUCCESS)%Z; cbn [negb]; [|exists []; repeat split; in_list].
  destruct (ks_import ks ka) as [r h]. destruct (r =? PSA_SUCCESS)%Z; cbn [negb]; [|exists []; repeat split; in_list].
  exists [XKey]. split; [reflexivity|]. split; [in_list|]. cbn. eauto.
Qed.

Definition program_ok (x : X shown) (base : list xobj) (done : shown -> Prop) : Prop :=
  exists left, leaves x left /\ at_most left /\ forall s, snd x = Ret s -> done s -> left = base.

Definition final (done : shown -> Prop) (base : list xobj) (r : out shown) (left : list xobj) : Prop :=
  forall s, r = Ret s -> done s -> left = base.

(** What follows the making of the key. *)
Lemma after_make make alg base (f : terr * option tkey -> X shown) (done : shown -> Prop) :
  fair make base ->
  (forall e, e <> T_SUCCESS -> ~ done {| x_code := TCose e; x_payload := None |}) ->
  (forall e k, e <> T_SUCCESS -> f (e, k) = xstop e) ->
  (forall key, exists left, held (XKey :: base) (fst (f (T_SUCCESS, Some key))) = Some left /\ at_most left /\
     final done base (snd (f (T_SUCCESS, Some key))) left) ->
  program_ok (xbind (make alg) f) base done.
Proof.
  intros F ND ST K. destruct (F alg) as (l & HL & AM & R). unfold xbind, program_ok, leaves.
  destruct (make alg) as [log [[e k]|u]]; cbn [fst snd] in *; [|contradiction].
  destruct (terr_eqb e T_SUCCESS) eqn:E.
  - apply terr_eqb_eq in E as ->. destruct R as [-> [key ->]]. destruct (K key) as (left & A & B & C).
    destruct (f (T_SUCCESS, Some key)) as [l' r]. cbn [fst snd] in *. exists left. rewrite held_app, HL. auto.
  - apply terr_eqb_neq in E. rewrite (ST e k E). cbn. exists l. rewrite app_nil_r. split; [exact HL|]. split; [exact AM|].
    intros s [= <-] D. destruct (ND e E D).
Qed.

Definition ended_well (s : shown) : Prop := x_code s = TCose T_SUCCESS.
Definition printed (s : shown) : Prop := x_payload s <> None.

Lemma show_cases c cr junk me sg :
  (exists w, snd (verify_and_show c cr junk me sg) = UB w) \/
  (exists p, snd (verify_and_show c cr junk me sg) = Ret {| x_code := TCose T_SUCCESS; x_payload := p |}) \/
  (exists e, e <> T_SUCCESS /\ snd (verify_and_show c cr junk me sg) = Ret {| x_code := TCose e; x_payload := None |}).
Proof.
  unfold verify_and_show, mlift, mbind, mret. destruct (the_bytes sg) as [m|u]; [|left; eexists; reflexivity].
  destruct (verify c cr junk me m (Some junk) false) as [l [w|u]]; [|left; eexists; reflexivity].
  destruct (terr_eqb (w_err w) T_SUCCESS) eqn:E; cbn [snd].
  - apply terr_eqb_eq in E. rewrite E. right; left. eexists. reflexivity.
  - apply terr_eqb_neq in E. right; right. exists (w_err w). split; [exact E|reflexivity].
Qed.

(** The state in which the last step starts, and what it leaves. *)
Lemma verify_leaves c cr junk me uses frees sg st base :
  at_most st -> (forall o, In o uses -> In o st) ->
  held st (map XGive frees ++ [XGive XKey]) = Some base -> at_most base ->
  let x := run_verify c cr junk me uses frees sg in
  exists left, held st (fst x) = Some left /\ at_most left /\
    forall s, snd x = Ret s -> ended_well s \/ printed s -> left = base.
Proof.
  intros AS US HB AB x.
  assert (HU : held st (map XUse uses) = Some st).
  { clear - US. induction uses as [|o uses IH]; cbn; [reflexivity|]. destruct (in_dec xobj_eq_dec o st) as [|N].
    - apply IH. intros; apply US; now right.
    - destruct N. apply US. now left. }
  subst x. unfold run_verify, xcall, xbind, free_key_pair, xgive, xret.
  destruct (show_cases c cr junk me sg) as [[w ->]|[[p ->]|(e & NE & ->)]]; cbn [x_code].
  - cbn [fst snd]. exists st. split; [exact HU|]. split; [exact AS|]. discriminate.
  - cbn [fst snd]. exists base. rewrite app_nil_r, held_app, HU. auto.
  - exists st. split; [|split; [exact AS|]].
    + destruct e; cbn [fst]; try contradiction; rewrite app_nil_r; exact HU.
    + intros s H [D|D].
      * exfalso. destruct e; cbn [snd] in H; try contradiction; injection H as <-; unfold ended_well in D; cbn in D; congruence.
      * exfalso. destruct e; cbn [snd] in H; try contradiction; injection H as <-; apply D; reflexivity.
Qed.

Lemma one_step_leaves c cr junk make base alg ops ps ss : fair make base -> base = [XKeyCtx] \/ base = [] ->
  program_ok (run_one_step c cr junk make alg ops ps ss) base ended_well.
Proof.
  intros F B. unfold run_one_step.
  destruct (enc_finish _) as [e pl].
  assert (N : e <> QE_SUCCESS \/ pl = None -> program_ok (xret {| x_code := QCbor e; x_payload := None |}) base ended_well).
  { intros _. exists []. split; [reflexivity|]. split; [in_list|]. intros s [= <-]. discriminate. }
  destruct e; try (apply N; left; discriminate). destruct pl as [pl|]; [|apply N; now right]. clear N.
  apply after_make; [exact F|..].
  - intros e NE D. injection D as D. contradiction.
  - intros e k NE. apply terr_eqb_neq in NE. now rewrite NE.
  - intro key. cbn [negb terr_eqb]. unfold the_key, xlift, xbind at 1 3. unfold xbind, xcall.
    destruct (snd (sign c cr _ pl _)) as [[[e me] sg]|u]; cbn [fst snd map].
    + destruct (terr_eqb e T_SUCCESS) eqn:E; cbn [negb].
      * assert (Q : forall st b, st = XKey :: b -> base = b -> held st ([XGive XKey]) = Some base).
        { intros st b -> <-. destruct B as [-> | ->]; reflexivity. }
        destruct (verify_leaves c cr junk (set_verification_key (verify_init 0) key) [XKey] [] sg (XKey :: base) base) as (left & H1 & H2 & H3).
        { destruct B as [-> | ->]; in_list. }
        { intros o [<-|[]]. now left. }
        { exact (Q _ _ eq_refl eq_refl). }
        { destruct B as [-> | ->]; in_list. }
        destruct (run_verify _ _ _ _ _ _ _) as [l r]. cbn [fst snd] in *. exists left. cbn [app held].
        destruct (in_dec xobj_eq_dec XKey (XKey :: base)) as [_|N]; [|destruct N; now left]. split; [exact H1|]. split; [exact H2|]. intros s Q1 D. exact (H3 s Q1 (or_introl D)).
      * cbn. exists (XKey :: base). destruct (xobj_eq_dec XKey XKey) as [_|N]; [|contradiction]. split; [reflexivity|].
        split; [destruct B as [-> | ->]; in_list|]. intros s [= <-] D. injection D as ->. discriminate.
    + exists (XKey :: base). cbn. destruct (xobj_eq_dec XKey XKey) as [_|N]; [|contradiction]. split; [reflexivity|].
      split; [destruct B as [-> | ->]; in_list|]. intros s Q; discriminate Q.
Qed.

(** A state before the last step: what the steps before it took is held. *)
Definition small (base : list xobj) : Prop := base = [XKeyCtx] \/ base = [].

Lemma stop_leaves st e (done : shown -> Prop) base : at_most st -> ~ done {| x_code := TCose e; x_payload := None |} ->
  exists left, held st (fst (xstop e)) = Some left /\ at_most left /\ final done base (snd (xstop e)) left.
Proof. intros A N. exists st. split; [reflexivity|]. split; [exact A|]. intros s [= <-] D. contradiction. Qed.

(** A prefix of the log that only uses or takes. *)
Lemma prefixed {A B} (a : list xevent) (x : X A) (f : A -> X B) st st' (P : out B -> list xobj -> Prop) :
  x = (a, snd x) -> held st a = Some st' ->
  (match snd x with
   | Ret v => exists left, held st' (fst (f v)) = Some left /\ at_most left /\ P (snd (f v)) left
   | UB w => at_most st' /\ P (UB w) st'
   end) ->
  exists left, held st (fst (xbind x f)) = Some left /\ at_most left /\ P (snd (xbind x f)) left.
Proof.
  intros E HA H. unfold xbind. destruct x as [l r]. cbn [snd] in *. injection E as ->. destruct r as [v|w].
  - destruct H as (left & H1 & H2 & H3). destruct (f v) as [l' r']. cbn [fst snd] in *. exists left. rewrite held_app, HA. auto.
  - cbn [fst snd]. exists st'. tauto.
Qed.

Lemma two_step_leaves c cr junk make base alg ops ss : fair make base -> small base ->
  program_ok (run_two_step c cr junk make alg ops ss) base printed.
Proof.
  intros F B. unfold run_two_step.
  apply after_make; [exact F|..].
  - intros e NE D. now apply D.
  - intros e k NE. apply terr_eqb_neq in NE. now rewrite NE.
  - intro key. cbn [negb terr_eqb].
    assert (AK : at_most (XKey :: base)) by (destruct B as [-> | ->]; in_list).
    assert (HK : held (XKey :: base) [XUse XKey] = Some (XKey :: base)) by (destruct B as [-> | ->]; reflexivity).
    apply (prefixed [] (the_key (Some key)) _ _ (XKey :: base)); [reflexivity|reflexivity|]. cbn [the_key xlift snd].
    destruct (encode_parameters c _ _) as [[e me] en]. destruct (terr_eqb e T_SUCCESS); cbn [negb]; [|apply stop_leaves; [exact AK|intro D; now apply D]].
    apply (prefixed [XUse XKey] _ _ _ (XKey :: base)); [reflexivity|exact HK|]. cbn [xcall snd].
    destruct (snd (encode_signature c cr me _)) as [[[e2 me2] en2]|u]; [|split; [exact AK|intros s Q; discriminate Q]].
    destruct (terr_eqb e2 T_SUCCESS); cbn [negb]; [|apply stop_leaves; [exact AK|intro D; now apply D]].
    destruct (enc_finish en2) as [q sg]. destruct q; try (apply stop_leaves; [exact AK|intro D; now apply D]).
    destruct (verify_leaves c cr junk (set_verification_key (verify_init 0) key) [XKey] [] sg (XKey :: base) base) as (left & H1 & H2 & H3).
    + exact AK.
    + intros o [<-|[]]. now left.
    + destruct B as [-> | ->]; reflexivity.
    + destruct B as [-> | ->]; in_list.
    + exists left. split; [exact H1|]. split; [exact H2|]. intros s Q D. exact (H3 s Q (or_intror D)).
Qed.

Lemma not_well e : negb (terr_eqb e T_SUCCESS) = true -> ~ ended_well {| x_code := TCose e; x_payload := None |}.
Proof. intros N D. unfold ended_well in D. cbn in D. injection D as ->. discriminate. Qed.

Lemma dynamic_leaves c cr junk malloc make base alg pl : fair make base -> small base ->
  program_ok (run_dynamic c cr junk malloc make alg pl) base ended_well.
Proof.
  intros F B. unfold run_dynamic.
  assert (AB : at_most base) by (destruct B as [-> | ->]; in_list).
  apply after_make; [exact F|..].
  - intros e NE D. injection D as D. contradiction.
  - intros e k NE. apply terr_eqb_neq in NE. now rewrite NE.
  - intro key. cbn [negb terr_eqb].
    assert (AK : at_most (XKey :: base)) by (destruct B as [-> | ->]; in_list).
    assert (HK : held (XKey :: base) [XUse XKey] = Some (XKey :: base)) by (destruct B as [-> | ->]; reflexivity).
    apply (prefixed [] (the_key (Some key)) _ _ (XKey :: base)); [reflexivity|reflexivity|]. cbn [the_key xlift snd].
    apply (prefixed [XUse XKey] _ _ _ (XKey :: base)); [reflexivity|exact HK|]. cbn [xcall snd].
    destruct (snd (sign c cr _ _ _)) as [[[e me] r]|u]; [|split; [exact AK|intros s Q; discriminate Q]].
    destruct (negb (terr_eqb e T_SUCCESS)) eqn:E; [apply stop_leaves; [exact AK|now apply not_well]|].
    destruct r as [sc|]; [|exists (XKey :: base); split; [reflexivity|]; split; [exact AK|intros s Q; discriminate Q]].
    set (size := u_len sc). set (aux := sign_auxiliary_buffer_size c me).
    assert (HM : forall k n st, at_most st -> ~ In (XBuf k) st -> (k <= 2)%nat ->
      exists st', held st (fst (xmalloc malloc k n)) = Some st' /\ at_most st' /\
        snd (xmalloc malloc k n) = Ret (malloc k n) /\ st' = if malloc k n then XBuf k :: st else st).
    { intros k n st A N K. unfold xmalloc. destruct (malloc k n); cbn.
      - destruct (in_dec xobj_eq_dec (XBuf k) st); [contradiction|]. eexists. split; [reflexivity|]. split; [|auto].
        intros o [<-|I]; [|now apply A]. destruct k as [|[|[|k]]]; [cbn; tauto..|exfalso; inversion K as [|? K1]; inversion K1 as [|? K2]; inversion K2].
      - eexists. split; [reflexivity|]. auto. }
    destruct (HM 0%nat size (XKey :: base) AK) as (s0 & H0 & A0 & R0 & E0).
    { destruct B as [-> | ->]; cbn; intuition discriminate. } { repeat constructor. }
    apply (prefixed (fst (xmalloc malloc 0 size)) _ _ _ s0); [apply surjective_pairing|exact H0|]. rewrite R0.
    destruct (HM 1%nat aux s0 A0) as (s1 & H1 & A1 & R1 & E1).
    { subst s0. destruct (malloc 0%nat size), B as [-> | ->]; cbn; intuition discriminate. } { repeat constructor. }
    apply (prefixed (fst (xmalloc malloc 1 aux)) _ _ _ s1); [apply surjective_pairing|exact H1|]. rewrite R1.
    destruct (negb (malloc 0%nat size) || negb (malloc 1%nat aux)) eqn:EM; [apply stop_leaves; [exact A1|now apply not_well]|].
    apply orb_false_iff in EM as [M0 M1]. apply negb_false_iff in M0, M1. rewrite M0 in E0. rewrite M1 in E1. subst s0 s1.
    apply (prefixed [XUse XKey; XUse (XBuf 0); XUse (XBuf 1)] _ _ _ (XBuf 1 :: XBuf 0 :: XKey :: base)); [reflexivity|destruct B as [-> | ->]; reflexivity|].
    cbn [xcall snd]. destruct (snd (sign c cr _ _ _)) as [[[e2 me2] sg]|u]; [|split; [exact A1|intros s Q; discriminate Q]].
    destruct (negb (terr_eqb e2 T_SUCCESS)) eqn:E2; [apply stop_leaves; [exact A1|now apply not_well]|].
    apply (prefixed [XGive (XBuf 1)] _ _ _ (XBuf 0 :: XKey :: base)); [reflexivity|destruct B as [-> | ->]; reflexivity|]. cbn [xgive snd].
    apply (prefixed [] _ _ _ (XBuf 0 :: XKey :: base)); [reflexivity|reflexivity|]. cbn [xlift snd].
    destruct (the_bytes sg) as [m|u]; [|split; [exact A0|intros s Q; discriminate Q]].
    apply (prefixed [XUse (XBuf 0)] _ _ _ (XBuf 0 :: XKey :: base)); [reflexivity|destruct B as [-> | ->]; reflexivity|]. cbn [xcall snd].
    destruct (snd (verify c cr junk _ m None false)) as [w|u]; [|split; [exact A0|intros s Q; discriminate Q]].
    destruct (negb (terr_eqb (w_err w) T_SUCCESS)) eqn:E3; [apply stop_leaves; [exact A0|now apply not_well]|].
    set (aux2 := verify_auxiliary_buffer_size c (w_ctx w)).
    destruct (HM 2%nat aux2 (XBuf 0 :: XKey :: base) A0) as (s2 & H2 & A2 & R2 & ES2).
    { destruct B as [-> | ->]; cbn; intuition discriminate. } { repeat constructor. }
    apply (prefixed (fst (xmalloc malloc 2 aux2)) _ _ _ s2); [apply surjective_pairing|exact H2|]. rewrite R2.
    destruct (malloc 2%nat aux2); cbn [negb]; [|apply stop_leaves; [exact A2|now apply not_well]]. subst s2.
    match goal with |- context[run_verify c cr junk ?v ?u ?f sg] =>
      destruct (verify_leaves c cr junk v u f sg (XBuf 2 :: XBuf 0 :: XKey :: base) base) as (left & V1 & V2 & V3) end.
    + exact A2.
    + intros o [<-|[<-|[<-|[]]]]; cbn; auto.
    + destruct B as [-> | ->]; reflexivity.
    + exact AB.
    + exists left. split; [exact V1|]. split; [exact V2|]. intros s Q D. exact (V3 s Q (or_introl D)).
Qed.

(** ** The results are those of the programs without keys and memory *)

Lemma xcall_snd {A B} uses (x : M A) (f : A -> X B) (g : A -> M B) :
  (forall a, snd (f a) = snd (g a)) -> snd (xbind (xcall uses x) f) = snd (mbind x g).
Proof.
  intro H. unfold xbind, xcall, mbind. destruct x as [l [a|u]]; cbn [snd]; [|reflexivity].
  specialize (H a). destruct (f a), (g a). exact H.
Qed.
Lemma xbind_snd {A B} (x : X A) (f : A -> X B) : snd (xbind x f) = match snd x with Ret a => snd (f a) | UB w => UB w end.
Proof. unfold xbind. destruct x as [l [a|u]]; cbn [snd]; [|reflexivity]. now destruct (f a). Qed.
Lemma mbind_snd {A B} (x : M A) (f : A -> M B) : snd (mbind x f) = match snd x with Ret a => snd (f a) | UB w => UB w end.
Proof. unfold mbind. destruct x as [l [a|u]]; cbn [snd]; [|reflexivity]. now destruct (f a). Qed.

Lemma run_verify_snd c cr junk me uses frees sg : snd (run_verify c cr junk me uses frees sg) = snd (verify_and_show c cr junk me sg).
Proof.
  unfold run_verify. rewrite xbind_snd. cbn [xcall snd]. destruct (snd (verify_and_show c cr junk me sg)) as [[co p]|u]; [|reflexivity].
  cbn [x_code]. destruct co as [e|q]; [destruct e|]; reflexivity.
Qed.

Definition made_by (make : Z -> X (terr * option tkey)) (alg : Z) (err : terr) (key : tkey) : Prop :=
  exists k, snd (make alg) = Ret (err, k) /\ (err = T_SUCCESS -> k = Some key).

Lemma one_step_same c cr junk make alg ops ps ss err key : made_by make alg err key ->
  snd (run_one_step c cr junk make alg ops ps ss) = snd (one_step_sign c cr junk alg (err, key) ops ps ss).
Proof.
  intros (k & E & K). unfold run_one_step, one_step_sign. destruct (enc_finish _) as [[] [pl|]]; try reflexivity.
  rewrite xbind_snd, E. destruct (terr_eqb err T_SUCCESS) eqn:T; cbn [negb]; [|reflexivity].
  apply terr_eqb_eq in T. rewrite (K T). unfold the_key, xlift. rewrite xbind_snd. cbn [snd].
  apply xcall_snd. intros [[e me] sg]. destruct (negb (terr_eqb e T_SUCCESS)); [reflexivity|]. apply run_verify_snd.
Qed.

Lemma two_step_same c cr junk make alg ops ss err key : made_by make alg err key ->
  snd (run_two_step c cr junk make alg ops ss) = snd (two_step_sign c cr junk alg (err, key) ops ss).
Proof.
  intros (k & E & K). unfold run_two_step, two_step_sign.
  rewrite xbind_snd, E. destruct (terr_eqb err T_SUCCESS) eqn:T; cbn [negb]; [|reflexivity].
  apply terr_eqb_eq in T. rewrite (K T). unfold the_key, xlift. rewrite xbind_snd. cbn [snd].
  destruct (encode_parameters c _ _) as [[e me] en]. destruct (negb (terr_eqb e T_SUCCESS)); [reflexivity|].
  apply xcall_snd. intros [[e2 me2] en2]. destruct (negb (terr_eqb e2 T_SUCCESS)); [reflexivity|].
  destruct (enc_finish en2) as [[] sg]; try reflexivity. apply run_verify_snd.
Qed.

Lemma xmalloc_snd malloc k n : snd (xmalloc malloc k n) = Ret (malloc k n).
Proof. unfold xmalloc. now destruct (malloc k n). Qed.

Lemma dynamic_same c cr junk malloc make alg pl err key : made_by make alg err key ->
  snd (run_dynamic c cr junk malloc make alg pl) = snd (dynamic_buffer c cr junk malloc alg (err, key) pl).
Proof.
  intros (k & E & K). unfold run_dynamic, dynamic_buffer.
  rewrite xbind_snd, E. destruct (terr_eqb err T_SUCCESS) eqn:T; cbn [negb]; [|reflexivity].
  apply terr_eqb_eq in T. rewrite (K T). unfold the_key, xlift at 1. rewrite xbind_snd. cbn [snd].
  apply xcall_snd. intros [[e me] r]. destruct (negb (terr_eqb e T_SUCCESS)); [reflexivity|].
  destruct r as [sc|]; [|reflexivity]. cbv zeta. rewrite xbind_snd, xmalloc_snd. rewrite xbind_snd, xmalloc_snd.
  destruct (negb (malloc 0%nat (u_len sc)) || negb (malloc 1%nat (sign_auxiliary_buffer_size c me))); [reflexivity|].
  apply xcall_snd. intros [[e2 me2] sg]. destruct (negb (terr_eqb e2 T_SUCCESS)); [reflexivity|].
  rewrite xbind_snd. cbn [xgive snd]. rewrite xbind_snd, mbind_snd. cbn [xlift mlift snd]. destruct (the_bytes sg) as [m|u]; [|reflexivity].
  apply xcall_snd. intro w. destruct (negb (terr_eqb (w_err w) T_SUCCESS)); [reflexivity|].
  cbv zeta. rewrite xbind_snd, xmalloc_snd. destruct (malloc 2%nat _); [|reflexivity]. apply run_verify_snd.
Qed.

(** ** Whole programs *)

Lemma ossl_made kg alg kind h : ossl_key_kind alg = Some kind -> generates kg kind h ->
  made_by (make_ossl_key_pair kg) alg T_SUCCESS {| k_lib := 1; k_handle := h |}.
Proof.
  intros E (C & I & K & G). unfold made_by, make_ossl_key_pair. rewrite E, C. cbn [negb]. rewrite xbind_snd. cbn [xtake snd].
  rewrite xbind_snd. cbn [xuse snd]. assert (X : (kg_init kg kind <=? 0)%Z = false) by (apply Z.leb_gt; now apply Z.gt_lt). rewrite X.
  assert (Y : (match kind with KEc bits => negb (kg_curve kg bits =? 1)%Z | KEd25519 => false end) = false).
  { destruct kind; [|reflexivity]. now rewrite K. }
  rewrite Y, G. destruct (kg_new kg); eexists; split; reflexivity.
Qed.

Lemma psa_made ks h : imports ks (PEcdsa SHA_256) h -> made_by (make_psa_ecdsa_key_pair ks) (-7) T_SUCCESS {| k_lib := 2; k_handle := h |}.
Proof.
  intros [I K]. unfold made_by, make_psa_ecdsa_key_pair. change ((-7 =? ES256)%Z) with true. cbn iota. rewrite I, K.
  change ((0 =? PSA_SUCCESS)%Z) with true. cbn. eexists. split; reflexivity.
Qed.
