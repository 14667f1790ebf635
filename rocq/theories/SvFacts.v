(** The tests of signing and verifying. *)
From Verif Require Import Base Const QEnc Crypto Params Sign Verify Psa BaseFacts SignSpec Examples ExampleRun ExampleRunSpec ExampleRunFacts SvTests SvSpec.
From Coq Require Import Lia ZifyBool ZifyNat ZifyN.
Open Scope N_scope. Open Scope list_scope. Open Scope xmon_scope.

(** ** Sequences *)

Lemma snd_bind {A B} (x : X A) (f : A -> X B) : snd (xbind x f) = match snd x with Ret a => snd (f a) | UB w => UB w end.
Proof. destruct x as [l [a|w]]; cbn; [|reflexivity]. now destruct (f a). Qed.

Lemma bind_iff {A B} (x : X A) (f : A -> X B) v : snd (xbind x f) = Ret v <-> exists a, snd x = Ret a /\ snd (f a) = Ret v.
Proof.
  rewrite snd_bind. destruct (snd x) as [a|w]; split.
  - intro H. eauto.
  - intros (b & E & H). injection E as ->. exact H.
  - discriminate.
  - intros (b & E & _). discriminate.
Qed.

Lemma snd_xcall {A} uses (x : M A) a : snd (xcall uses x) = Ret a <-> exists log, x = (log, Ret a).
Proof. unfold xcall. cbn. destruct x as [l r]. cbn. split; [intros ->; eauto|intros (? & E); now injection E as _ ->]. Qed.

Lemma code_nonneg e : (0 <= terr_code e)%Z.
Proof. destruct e; cbn; lia. Qed.
Lemma ok_iff e : ok e = true <-> e = T_SUCCESS.
Proof. apply terr_eqb_eq. Qed.
Lemma failed_no n e : (0 < n)%Z -> snd (failed n e) = Ret 0%Z -> False.
Proof. unfold failed, xret. cbn. intros N H. injection H as H. pose proof (code_nonneg e). lia. Qed.

Lemma the_bytes_iff u m : the_bytes u = Ret m <-> exists x, u = Some x /\ holds x m.
Proof.
  unfold holds. destruct u as [[n|b]|]; cbn.
  - destruct (N.eqb_spec n 0) as [->|N]; split.
    + intro H. injection H as <-. eauto.
    + now intros (x & E & [-> |[_ ->]]); [injection E as ?; discriminate|].
    + discriminate.
    + intros (x & E & H). injection E as <-. destruct H as [H|[H _]]; [discriminate|]. injection H as H. contradiction.
  - split; [intro H; injection H as <-; eauto|]. intros (x & E & H). injection E as <-. destruct H as [H|[H _]]; [now injection H as ->|discriminate].
  - split; [discriminate|]. intros (x & E & _). discriminate.
Qed.
Lemma the_value_iff {A} (x : option A) a : snd (the_value x) = Ret a <-> x = Some a.
Proof. destruct x; cbn; split; intro H; try discriminate; now injection H as ->. Qed.

Lemma u_equal_yes p b : b <> [] -> u_equal p (UBuf b) = Ret true <-> p = UBuf b.
Proof.
  intro N. unfold u_equal. cbn [u_len]. destruct (N.eqb_spec (u_len p) (blen b)) as [E|E]; cbn [negb].
  - destruct (N.eqb_spec (u_len p) 0) as [Z|Z].
    + exfalso. rewrite E in Z. destruct b; [now apply N|]. unfold blen in Z. cbn in Z. lia.
    + destruct p as [n|x]; split; try discriminate.
      * intro H. injection H as H. now apply bytes_eqb_eq in H as ->.
      * intro H. injection H as ->. f_equal. now apply bytes_eqb_eq.
  - split; [discriminate|]. intros ->. now cbn in E.
Qed.

Lemma with_key_iff make alg base body : (0 < base)%Z -> snd (with_key make alg base body) = Ret 0%Z <->
  exists key, makes make alg key /\ snd (body key) = Ret 0%Z.
Proof.
  intro B. unfold with_key, makes. rewrite bind_iff. split.
  - intros ([err k] & E & H). destruct (ok err) eqn:O; cbn [negb] in H; [|now apply failed_no in H].
    apply ok_iff in O as ->. apply bind_iff in H as (key & K & H). destruct k; [|discriminate]. cbn in K. injection K as ->.
    apply bind_iff in H as (v & V & H). apply bind_iff in H as (t & _ & H). injection H as ->. eauto.
  - intros (key & E & H). exists (T_SUCCESS, Some key). split; [exact E|]. cbn [ok terr_eqb negb].
    apply bind_iff. exists key. split; [reflexivity|]. apply bind_iff. exists 0%Z. split; [exact H|]. apply bind_iff. now exists tt.
Qed.

(** ** Values in range *)

Definition in_range (t : X Z) : Prop := forall v, snd t = Ret v -> (-10000 < v)%Z.
Lemma range_bind {A} (x : X A) f : (forall a, snd x = Ret a -> in_range (f a)) -> in_range (xbind x f).
Proof. intros F v H. apply bind_iff in H as (a & E & H). exact (F a E v H). Qed.
Lemma range_ret v : (-10000 < v)%Z -> in_range (xret v).
Proof. intros V w H. cbn in H. injection H as <-. exact V. Qed.
Lemma range_failed n e : (0 <= n)%Z -> in_range (failed n e).
Proof. intro N. apply range_ret. pose proof (code_nonneg e). lia. Qed.
Lemma range_with_key make alg base body : (0 <= base)%Z -> (forall key, in_range (body key)) -> in_range (with_key make alg base body).
Proof.
  intros B R. apply range_bind. intros [err k] _. destruct (negb (ok err)); [now apply range_failed|].
  apply range_bind. intros key _. intros v H. apply bind_iff in H as (w & E & H). apply bind_iff in H as (t & _ & H). injection H as <-.
  exact (R key w E).
Qed.
Lemma range_steps i me buf ops b1 b2 f : (0 <= b1)%Z -> (0 <= b2)%Z -> (forall me e, in_range (f me e)) -> in_range (in_steps i me buf ops b1 b2 f).
Proof.
  intros B1 B2 F. unfold in_steps. destruct (i_parameters i me (enc_init buf)) as [[r m] e]. destruct (negb (ok r)); [now apply range_failed|].
  apply range_bind. intros [[r2 m2] e2] _. destruct (negb (ok r2)); [now apply range_failed|apply F].
Qed.

Ltac range :=
  repeat match goal with
  | |- in_range (with_key _ _ _ _) => apply range_with_key; [lia|intro]
  | |- in_range (in_steps _ _ _ _ _ _ _) => apply range_steps; [lia|lia|intros]
  | |- in_range (xbind _ _) => apply range_bind; intros
  | |- in_range (failed _ _) => apply range_failed; lia
  | |- in_range (xret _) => apply range_ret
  | |- in_range (if ?b then _ else _) => destruct b eqn:?
  | |- in_range (let (_, _) := ?x in _) => destruct x
  | |- in_range (match ?x with pair _ _ => _ end) => destruct x
  | |- in_range (match ?x with Some _ => _ | None => _ end) => destruct x
  | |- (_ < if ?b then _ else _)%Z => destruct b
  | |- (-10000 < ?x)%Z => lia
  end.

Section InRange.
Context (i : impl) (make : Z -> X (terr * option tkey)).

Lemma range_basic alg : in_range (basic_test_alg i make alg).
Proof. unfold basic_test_alg. range. Qed.
Lemma range_fail alg : qcbor_positive i -> in_range (sig_fail_test i make alg).
Proof.
  intro Q. unfold sig_fail_test. range. destruct q.
  1: range. all: range; match goal with |- (_ < _ + i_qcbor i ?e)%Z => specialize (Q e ltac:(discriminate)); lia end.
Qed.
Lemma range_size alg kid : qcbor_positive i -> in_range (size_test i make alg kid).
Proof.
  intro Q. unfold size_test. range. destruct q.
  1: range. all: range; match goal with |- (_ < _ + i_qcbor i ?e)%Z => specialize (Q e ltac:(discriminate)); lia end.
Qed.
Lemma range_good alg m : in_range (known_good_test i make alg m).
Proof.
  unfold known_good_test. range. match goal with H : snd _ = Ret ?v |- (_ < ?v)%Z => revert H end. destruct (alg =? EDDSA)%Z.
  - intro T. apply bind_iff in T as (p & _ & T). cbn in T. injection T as <-. destruct (about _ _); lia.
  - cbn. intro T. injection T as <-. destruct (_ =? 0); lia.
Qed.
Lemma range_unsupported alg m : in_range (unsupported_test_alg i make alg m).
Proof. unfold unsupported_test_alg. range. Qed.
End InRange.

(** ** The loop *)

Lemma for_each_iff table select test : forall k, (0 <= k)%Z -> (forall alg m, in_range (test alg m)) ->
  snd (for_each table k select test) = Ret 0%Z <->
  forall alg m, In (alg, m) table -> select alg = true -> snd (test alg m) = Ret 0%Z.
Proof.
  induction table as [|[alg m] r IH]; intros k K R; cbn [for_each].
  - split; [intros _ alg m []|reflexivity].
  - specialize (IH (k + 1)%Z ltac:(lia) R). destruct (select alg) eqn:S.
    + rewrite bind_iff. split.
      * intros (v & E & H). pose proof (R alg m v E) as L. destruct (Z.eqb_spec v 0) as [->|N]; cbn [negb] in H.
        -- intros a x [X|X]; [injection X as <- <-; auto|]. now apply IH.
        -- unfold xret in H. cbn [snd] in H. assert (X : ((1 + k) * 10000 + v = 0)%Z) by congruence. clear - X L K. lia.
      * intro H. exists 0%Z. split; [apply H; [now left|exact S]|]. cbn [Z.eqb negb]. apply IH. intros a x X. apply H. now right.
    + rewrite IH. split; intros H a x X Y; apply H; auto; [|now right].
      destruct X as [X|X]; [injection X as <- <-; congruence|exact X].
Qed.

(** ** The tests *)

Section Tests.
Context (i : impl) (make : Z -> X (terr * option tkey)).

Lemma signs_iff me pl room u : (exists log me', i_sign i me (UBuf pl) (stack_buf room) = (log, Ret (T_SUCCESS, me', Some u))) <-> signs i me pl room u.
Proof. reflexivity. Qed.

Lemma basic_iff alg : snd (basic_test_alg i make alg) = Ret 0%Z <->
  exists key u m w, makes make alg key /\ signs i (test_signer alg key NULL_UBUF (Some 100)) text_payload 300 u /\ holds u m /\
    answers i (test_verifier key (Some 100)) m true false w /\ w_err w = T_SUCCESS /\ w_payload w = Some (UBuf text_payload).
Proof.
  unfold basic_test_alg. rewrite with_key_iff by lia. split.
  - intros (key & K & H). apply bind_iff in H as ([[r me] sc] & S & H). apply snd_xcall in S as (l1 & S).
    destruct (ok r) eqn:O; cbn [negb] in H; [|now apply failed_no in H]. apply ok_iff in O as ->.
    apply bind_iff in H as (m & E & H). cbn in E. apply the_bytes_iff in E as (u & -> & HM).
    apply bind_iff in H as (w & V & H). apply snd_xcall in V as (l2 & V).
    destruct (ok (w_err w)) eqn:O; cbn [negb] in H; [|now apply failed_no in H]. apply ok_iff in O.
    apply bind_iff in H as (p & P & H). apply the_value_iff in P. apply bind_iff in H as (same & E & H). cbn in E, H.
    destruct same; [|discriminate]. apply u_equal_yes in E as ->; [|discriminate].
    exists key, u, m, w. unfold signs, answers. repeat split; eauto.
  - intros (key & u & m & w & K & (l1 & me & S) & HM & (l2 & V) & O & P). exists key. split; [exact K|].
    apply bind_iff. exists (T_SUCCESS, me, Some u). split; [apply snd_xcall; eauto|]. cbn [ok terr_eqb negb].
    apply bind_iff. exists m. split; [apply the_bytes_iff; eauto|]. apply bind_iff. exists w. split; [apply snd_xcall; eauto|].
    rewrite O. cbn [ok terr_eqb negb]. apply bind_iff. exists (UBuf text_payload). split; [now apply the_value_iff|].
    apply bind_iff. exists true. split; [reflexivity|reflexivity].
Qed.

Theorem basic_passes : passes (sign_verify_basic_test i make) <->
  forall alg msg, In (alg, msg) test_cases -> i_supported i alg = true ->
  exists key u m w, makes make alg key /\ signs i (test_signer alg key NULL_UBUF (Some 100)) text_payload 300 u /\ holds u m /\
    answers i (test_verifier key (Some 100)) m true false w /\ w_err w = T_SUCCESS /\ w_payload w = Some (UBuf text_payload).
Proof.
  unfold passes, sign_verify_basic_test. rewrite for_each_iff; [|lia|intros; apply range_basic].
  split; intros H alg m I S; specialize (H alg m I S); now apply basic_iff.
Qed.

Lemma steps_iff me buf ops b1 b2 f : (0 < b1)%Z -> (0 < b2)%Z ->
  snd (in_steps i me buf ops b1 b2 f) = Ret 0%Z <->
  exists me1 e1 log me' e2, i_parameters i me (enc_init buf) = (T_SUCCESS, me1, e1) /\
    i_signature i me1 (eops_run e1 ops) = (log, Ret (T_SUCCESS, me', e2)) /\ snd (f me' e2) = Ret 0%Z.
Proof.
  intros B1 B2. unfold in_steps. destruct (i_parameters i me (enc_init buf)) as [[r m] e]. split.
  - destruct (ok r) eqn:O; cbn [negb]; [|intro H; now apply failed_no in H]. apply ok_iff in O as ->. intro H.
    apply bind_iff in H as ([[r2 m2] e2] & S & H). apply snd_xcall in S as (l & S).
    destruct (ok r2) eqn:O; cbn [negb] in H; [|now apply failed_no in H]. apply ok_iff in O as ->.
    exists m, e, l, m2, e2. auto.
  - intros (me1 & e1 & log & me' & e2 & E & S & H). injection E as -> -> ->. cbn [ok terr_eqb negb].
    apply bind_iff. exists (T_SUCCESS, me', e2). split; [apply snd_xcall; eauto|exact H].
Qed.

Lemma find_bytes_iff what : forall m k, find_bytes m what = Some k ->
  exists a, m = firstn k m ++ what ++ a /\ length (firstn k m) = k /\ forall b a, m = b ++ what ++ a -> (k <= length b)%nat.
Proof.
  induction m as [|x m IH]; intros k.
  - unfold find_bytes. rewrite firstn_nil. destruct (bytes_eqb [] what) eqn:E; [|discriminate]. intro H. injection H as <-.
    apply bytes_eqb_eq in E as <-. exists []. split; [reflexivity|]. split; [reflexivity|]. intros. lia.
  - cbn [find_bytes]. destruct (bytes_eqb (firstn (length what) (x :: m)) what) eqn:E.
    + intro H. injection H as <-. apply bytes_eqb_eq in E. exists (skipn (length what) (x :: m)). cbn [firstn app]. split.
      * rewrite <- E at 1. symmetry. apply firstn_skipn.
      * split; [reflexivity|]. intros. lia.
    + destruct (find_bytes m what) as [j|] eqn:F; [|discriminate]. cbn [option_map]. intro H. injection H as <-.
      destruct (IH j eq_refl) as (a & A & L & M). exists a. cbn [firstn app length]. split; [now rewrite <- A|]. split; [now rewrite L|].
      intros b a' B. destruct b as [|y b].
      * exfalso. cbn [app] in B. rewrite B in E. rewrite firstn_app, firstn_all, Nat.sub_diag in E. cbn [firstn] in E.
        rewrite app_nil_r in E. now rewrite (proj2 (bytes_eqb_eq what what) eq_refl) in E.
      * cbn [app] in B. injection B as _ B. cbn [length]. specialize (M b a' B). lia.
Qed.

Lemma find_bytes_some what b a : exists k, find_bytes (b ++ what ++ a) what = Some k.
Proof.
  induction b as [|x b (k & IH)]; cbn [app].
  - exists 0%nat. destruct (what ++ a) eqn:W.
    + destruct what; [reflexivity|discriminate].
    + cbn [find_bytes]. rewrite <- W, firstn_app, firstn_all, Nat.sub_diag. cbn [firstn]. rewrite app_nil_r.
      now rewrite (proj2 (bytes_eqb_eq what what) eq_refl).
  - cbn [find_bytes]. destruct (bytes_eqb _ what); [eauto|]. rewrite IH. cbn. eauto.
Qed.

Lemma app_inj_len {A} (a b c d : list A) : a ++ b = c ++ d -> length a = length c -> a = c /\ b = d.
Proof.
  revert c. induction a as [|x a IH]; destruct c as [|y c]; cbn; intros E L; try discriminate; [auto|].
  injection E as -> E. destruct (IH c E) as [-> ->]; [lia|auto].
Qed.

Lemma first_unique m what b a b' a' : first_in m what b a -> first_in m what b' a' -> b = b' /\ a = a'.
Proof.
  intros (E & M) (E' & M'). pose proof (M b' a' E'). pose proof (M' b a E). assert (L : length b = length b') by lia.
  rewrite E in E'. apply app_inj_len in E' as [-> X]; [|exact L]. apply app_inj_len in X as [_ X]; auto.
Qed.

Lemma tamper_iff m k : find_bytes m test_payload = Some k -> exists b a, first_in m text_payload b a /\ tampered m k = b ++ text_hayload ++ a.
Proof.
  intro F. destruct (find_bytes_iff _ m k F) as (a & A & L & M). exists (firstn k m), a. split.
  - split; [exact A|]. intros b a' B. rewrite L. exact (M b a' B).
  - unfold tampered. f_equal. rewrite <- (firstn_skipn k m) in A at 1. apply app_inv_head in A.
    assert (X : skipn (S k) m = skipn 1 (skipn k m)) by (clear; revert m; induction k as [|k IH]; destruct m; cbn [skipn]; auto; apply IH). rewrite X, A. reflexivity.
Qed.

Lemma qcbor_no j n e : qcbor_positive j -> e <> QE_SUCCESS -> snd (xret (Z.pos n + i_qcbor j e)%Z) = Ret 0%Z -> False.
Proof. intros Q N H. specialize (Q e N). unfold xret in H. cbn [snd] in H. assert (X : (Z.pos n + i_qcbor j e = 0)%Z) by congruence. clear - X Q. lia. Qed.

Lemma fail_iff alg : qcbor_positive i -> snd (sig_fail_test i make alg) = Ret 0%Z <->
  exists key me u m b a w, makes make alg key /\
    signs_in_steps i (test_signer alg key NULL_UBUF (Some 100)) {| wb_null := false; wb_len := 300 |} [OpText (UBuf text_payload)] me u /\
    holds u m /\ first_in m text_payload b a /\ answers i (test_verifier key (Some 100)) (b ++ text_hayload ++ a) true false w.
Proof.
  intro Q. unfold sig_fail_test. rewrite with_key_iff by lia. split.
  - intros (key & K & H). apply steps_iff in H as (me1 & e1 & log & me & e2 & E & S & H); [|lia|lia].
    destruct (enc_finish e2) as [q r] eqn:EF. destruct q; [|exfalso; refine (qcbor_no i _ _ Q _ H); discriminate..].
    apply bind_iff in H as (m & B & H). cbn in B. apply the_bytes_iff in B as (u & -> & HM).
    destruct (find_bytes m test_payload) as [k|] eqn:F; [|discriminate].
    apply bind_iff in H as (w & V & _). apply snd_xcall in V as (l2 & V). destruct (tamper_iff m k F) as (b & a & FI & TA). rewrite TA in V.
    exists key, me, u, m, b, a, w. split; [exact K|]. split; [exists me1, e1, log, e2; auto|]. split; [exact HM|]. split; [exact FI|]. now exists l2.
  - intros (key & me & u & m & b & a & w & K & (me1 & e1 & log & e2 & E & S & EF) & HM & FI & (l2 & V)). exists key. split; [exact K|].
    apply steps_iff; [lia|lia|]. exists me1, e1, log, me, e2. split; [exact E|]. split; [exact S|]. rewrite EF.
    apply bind_iff. exists m. split; [apply the_bytes_iff; eauto|]. pose proof FI as (M & _).
    destruct (find_bytes_some test_payload b a) as (k & F). change test_payload with text_payload in F at 1. rewrite <- M in F. rewrite F.
    destruct (tamper_iff m k F) as (b' & a' & FI' & TA). destruct (first_unique _ _ _ _ _ _ FI FI') as [<- <-].
    apply bind_iff. exists w. split; [|reflexivity]. apply snd_xcall. exists l2. rewrite TA. exact V.
Qed.

Theorem fail_passes : qcbor_positive i -> passes (sign_verify_sig_fail_test i make) <->
  forall alg msg, In (alg, msg) test_cases -> i_supported i alg = true ->
  exists key me u m b a w, makes make alg key /\
    signs_in_steps i (test_signer alg key NULL_UBUF (Some 100)) {| wb_null := false; wb_len := 300 |} [OpText (UBuf text_payload)] me u /\
    holds u m /\ first_in m text_payload b a /\ answers i (test_verifier key (Some 100)) (b ++ text_hayload ++ a) true false w.
Proof.
  intro Q. unfold passes, sign_verify_sig_fail_test. rewrite for_each_iff; [|lia|intros; now apply range_fail].
  split; intros H alg m I S; specialize (H alg m I S); now apply fail_iff.
Qed.

Lemma unsupported_iff alg m : snd (unsupported_test_alg i make alg m) = Ret 0%Z <->
  exists key e w, makes make (-7) key /\ sign_error i (test_signer alg key NULL_UBUF (Some 100)) text_payload 300 e /\
    answers i (test_verifier key (Some 100)) m false false w /\ w_err w = ERR_UNSUPPORTED_SIGNING_ALG.
Proof.
  unfold unsupported_test_alg. rewrite with_key_iff by lia. split.
  - intros (key & K & H). apply bind_iff in H as ([[r me] sc] & S & H). apply snd_xcall in S as (l1 & S).
    apply bind_iff in H as (w & V & H). apply snd_xcall in V as (l2 & V).
    destruct (terr_eqb (w_err w) ERR_UNSUPPORTED_SIGNING_ALG) eqn:O; cbn [negb] in H; [|now apply failed_no in H]. apply terr_eqb_eq in O.
    exists key, r, w. unfold sign_error, answers. repeat split; eauto.
  - intros (key & e & w & K & (l1 & me & r & S) & (l2 & V) & O). exists key. split; [exact K|].
    apply bind_iff. exists (e, me, r). split; [apply snd_xcall; eauto|]. apply bind_iff. exists w. split; [apply snd_xcall; eauto|].
    rewrite O. reflexivity.
Qed.

Theorem unsupported_passes : passes (sign_verify_unsupported_test i make) <->
  forall alg msg, In (alg, msg) test_cases -> i_supported i alg = false ->
  exists key e w, makes make (-7) key /\ sign_error i (test_signer alg key NULL_UBUF (Some 100)) text_payload 300 e /\
    answers i (test_verifier key (Some 100)) msg false false w /\ w_err w = ERR_UNSUPPORTED_SIGNING_ALG.
Proof.
  unfold passes, sign_verify_unsupported_test. rewrite for_each_iff; [|lia|intros; apply range_unsupported].
  split; intros H alg m I S; apply unsupported_iff; apply H; auto; [now rewrite S|now apply negb_true_iff].
Qed.

Theorem bad_aux_passes : i_supported i (-8) = true -> passes (sign_verify_bad_auxiliary_buffer i make) <->
  exists key w w', makes make (-8) key /\
    answers i (test_verifier key None) signed_cose_made_by_pycose_eddsa false false w /\ w_err w = ERR_NEED_AUXILIARY_BUFFER /\
    answers i (test_verifier key (Some 5)) signed_cose_made_by_pycose_eddsa false false w' /\ w_err w' = ERR_AUXILIARY_BUFFER_SIZE /\
    sign_error i (test_signer (-8) key NULL_UBUF None) text_payload 300 ERR_NEED_AUXILIARY_BUFFER /\
    sign_error i (test_signer (-8) key NULL_UBUF (Some 5)) text_payload 300 ERR_AUXILIARY_BUFFER_SIZE.
Proof.
  intro SU. unfold passes, sign_verify_bad_auxiliary_buffer. change EDDSA with (-8)%Z. rewrite SU. cbn [negb]. rewrite with_key_iff by lia. split.
  - intros (key & K & H). apply bind_iff in H as (w & V & H). apply snd_xcall in V as (l & V).
    destruct (terr_eqb (w_err w) _) eqn:O1 in H; cbn [negb] in H; [|now apply failed_no in H]. apply terr_eqb_eq in O1.
    apply bind_iff in H as (w' & V' & H). apply snd_xcall in V' as (l' & V').
    destruct (terr_eqb (w_err w') _) eqn:O2 in H; cbn [negb] in H; [|now apply failed_no in H]. apply terr_eqb_eq in O2.
    apply bind_iff in H as ([[r me] sc] & S & H). apply snd_xcall in S as (l1 & S).
    destruct (terr_eqb r _) eqn:O3 in H; cbn [negb] in H; [|now apply failed_no in H]. apply terr_eqb_eq in O3 as ->.
    apply bind_iff in H as ([[r me2] sc2] & S2 & H). apply snd_xcall in S2 as (l2 & S2).
    destruct (terr_eqb r _) eqn:O4 in H; cbn [negb] in H; [|now apply failed_no in H]. apply terr_eqb_eq in O4 as ->.
    exists key, w, w'. unfold answers, sign_error. repeat split; eauto.
  - intros (key & w & w' & K & (l & V) & O1 & (l' & V') & O2 & (l1 & me & sc & S) & (l2 & me2 & sc2 & S2)). exists key. split; [exact K|].
    apply bind_iff. exists w. split; [apply snd_xcall; eauto|]. rewrite O1. cbn [terr_eqb negb].
    apply bind_iff. exists w'. split; [apply snd_xcall; eauto|]. rewrite O2. cbn [terr_eqb negb].
    apply bind_iff. eexists. split; [apply snd_xcall; exists l1; exact S|]. cbn [terr_eqb negb].
    apply bind_iff. eexists. split; [apply snd_xcall; exists l2; exact S2|]. reflexivity.
Qed.

Lemma head_yes u b : b <> [] -> u_equal (u_head u (blen b)) (UBuf b) = Ret true <-> exists rest, u = UBuf (b ++ rest).
Proof.
  intro N. rewrite (u_equal_yes _ _ N). unfold u_head. destruct (N.ltb_spec (u_len u) (blen b)) as [L|L]; split.
  - discriminate.
  - intros (r & ->). cbn [u_len] in L. unfold blen in L. rewrite app_length in L. lia.
  - destruct u as [n|d]; [discriminate|]. intro H. injection H as H. exists (skipn (N.to_nat (blen b)) d). f_equal. rewrite <- (firstn_skipn (N.to_nat (blen b)) d) at 1. now rewrite H.
  - intros (r & ->). f_equal. unfold blen. rewrite Nnat.Nat2N.id, firstn_app, firstn_all, Nat.sub_diag. cbn. apply app_nil_r.
Qed.

Theorem cwt_passes : qcbor_positive i -> passes (sign_verify_make_cwt_test i make) <->
  exists key me rest w p, makes make (-7) key /\
    signs_in_steps i (test_signer (-7) key (UBuf cwt_kid) None) {| wb_null := false; wb_len := 300 |} cwt_ops me (UBuf (rfc8392_first_part ++ rest)) /\
    answers i (test_verifier key None) (rfc8392_first_part ++ rest) true false w /\ w_err w = T_SUCCESS /\
    w_payload w = Some p /\ p <> UNull 80.
Proof.
  intro Q. unfold passes, sign_verify_make_cwt_test. rewrite with_key_iff by lia. split.
  - intros (key & K & H). apply steps_iff in H as (me1 & e1 & log & me & e2 & E & S & H); [|lia|lia].
    destruct (enc_finish e2) as [q r] eqn:EF. destruct q; [|exfalso; refine (qcbor_no i 4000 _ Q _ ltac:(rewrite Z.add_comm; exact H)); discriminate..].
    apply bind_iff in H as (u & U & H). apply the_value_iff in U as ->. apply bind_iff in H as (same & B & H). cbn [xlift snd] in B.
    destruct same; [|discriminate]. apply head_yes in B as (rest & ->); [|discriminate].
    cbn [negb] in H. apply bind_iff in H as (m & B & H). cbn [xlift snd the_bytes] in B. injection B as <-.
    apply bind_iff in H as (w & V & H). apply snd_xcall in V as (l2 & V).
    destruct (ok (w_err w)) eqn:O; cbn [negb] in H; [|now apply failed_no in H]. apply ok_iff in O.
    apply bind_iff in H as (p & P & H). apply the_value_iff in P. apply bind_iff in H as (same & B & _). cbn [xlift snd] in B.
    exists key, me, rest, w, p. split; [exact K|]. split; [exists me1, e1, log, e2; auto|]. split; [now exists l2|]. split; [exact O|]. split; [exact P|].
    intros ->. vm_compute in B. discriminate.
  - intros (key & me & rest & w & p & K & (me1 & e1 & log & e2 & E & S & EF) & (l2 & V) & O & P & NP). exists key. split; [exact K|].
    apply steps_iff; [lia|lia|]. exists me1, e1, log, me, e2. split; [exact E|]. split; [exact S|]. rewrite EF.
    apply bind_iff. eexists. split; [apply the_value_iff; reflexivity|]. apply bind_iff. exists true. split.
    { cbn [xlift snd]. apply head_yes; [discriminate|]. now exists rest. }
    cbn [negb]. apply bind_iff. eexists. split; [reflexivity|]. apply bind_iff. exists w. split; [apply snd_xcall; eauto|].
    rewrite O. cbn [ok terr_eqb negb]. apply bind_iff. exists p. split; [now apply the_value_iff|].
    assert (exists same, u_equal p (UBuf (skipn (1 + 1 + 1 + 18 + 8) rfc8392_first_part)) = Ret same) as (same & B).
    { unfold u_equal. change (u_len (UBuf (skipn (1 + 1 + 1 + 18 + 8) rfc8392_first_part))) with 80.
      destruct (N.eqb_spec (u_len p) 80) as [L|L]; cbn [negb]; [|eauto]. rewrite L. cbn [N.eqb]. destruct p; [|eauto].
      exfalso. apply NP. cbn in L. now subst. }
    apply bind_iff. exists same. split; [exact B|reflexivity].
Qed.

Lemma about_iff n m : about n m = true <-> roughly n m.
Proof. unfold about, roughly. rewrite negb_true_iff, orb_false_iff, !N.ltb_ge. lia. Qed.

Lemma finish_value e u : snd (the_value (snd (enc_finish e))) = Ret u <-> enc_finish e = (QE_SUCCESS, Some u).
Proof.
  rewrite the_value_iff. unfold enc_finish. destruct (enc_error e); [destruct (e_nest e)|..]; cbn; split; intro H; try discriminate; congruence.
Qed.

Lemma size_iff alg kid : qcbor_positive i -> snd (size_test i make alg kid) = Ret 0%Z <->
  exists key, makes make alg key /\ sizes_agree_for i key alg kid.
Proof.
  intro Q. unfold size_test. rewrite with_key_iff by lia. unfold sizes_agree_for. change EDDSA with (-8)%Z. change (blen test_payload) with 7. split.
  - intros (key & K & H). exists key. split; [exact K|]. destruct (i_sig_size i alg key) as [r n].
    destruct (ok r) eqn:O; cbn [negb] in H; [|now apply failed_no in H]. apply ok_iff in O as ->.
    apply steps_iff in H as (me1 & e1 & log & me & e2 & E & S & H); [|lia|lia].
    destruct (enc_finish e2) as [q r] eqn:EF. destruct q; [|exfalso; refine (qcbor_no i _ _ Q _ H); discriminate..].
    apply bind_iff in H as (measured & U & H). apply the_value_iff in U as ->.
    destruct (about (u_len measured) _) eqn:A1 in H; cbn [negb] in H; [|discriminate]. apply about_iff in A1.
    destruct ((alg =? -8)%Z && negb (about (i_sign_aux i me) (7 + u_len kid))) eqn:A2; [discriminate|].
    destruct (negb (alg =? -8)%Z && negb (i_sign_aux i me =? 0)) eqn:A3; [discriminate|].
    assert (X : (if 0 <? i_sign_aux i me then Some 100 else None) = (if (alg =? -8)%Z then Some 100 else None)).
    { destruct (alg =? -8)%Z; cbn [andb negb] in A2, A3.
      - apply negb_false_iff, about_iff in A2. unfold roughly in A2. now replace (0 <? _) with true by lia.
      - now replace (0 <? _) with false by lia. }
    rewrite X in H. apply steps_iff in H as (me3 & e3 & log3 & me4 & e4 & E3 & S3 & H); [|lia|lia].
    apply bind_iff in H as (made & F & H). apply finish_value in F.
    destruct (N.eqb_spec (u_len made) (u_len measured)) as [L1|L1]; cbn [negb] in H; [|discriminate].
    apply bind_iff in H as ([[r me5] sc] & S5 & H). apply snd_xcall in S5 as (l5 & S5).
    destruct (ok r) eqn:O; cbn [negb] in H; [|now apply failed_no in H]. apply ok_iff in O as ->.
    apply bind_iff in H as (again & U & H). apply the_value_iff in U as ->.
    destruct (N.eqb_spec (u_len again) (u_len measured)) as [L2|L2]; cbn [negb] in H; [|discriminate].
    exists n, me, measured, made, again. split; [reflexivity|]. split; [exists me1, e1, log, e2; auto|]. split; [exact A1|].
    split. { intros ->. cbn [Z.eqb Pos.eqb andb] in A2. now apply negb_false_iff, about_iff in A2. }
    split. { intro NE. apply Z.eqb_neq in NE. rewrite NE in A3. cbn [negb andb] in A3. clear - A3. lia. }
    split; [exists me4, me3, e3, log3, e4; auto|]. split; [exists l5, me5; exact S5|]. auto.
  - intros (key & K & n & me & measured & made & again & SZ & (me1 & e1 & log & e2 & E & S & EF) & A1 & A2 & A3 &
            (me4 & me3 & e3 & log3 & e4 & E3 & S3 & F) & (l5 & me5 & S5) & L1 & L2). exists key. split; [exact K|].
    rewrite SZ. cbn [ok terr_eqb negb]. apply steps_iff; [lia|lia|]. exists me1, e1, log, me, e2. split; [exact E|]. split; [exact S|]. rewrite EF.
    apply bind_iff. exists measured. split; [now apply the_value_iff|]. apply about_iff in A1. rewrite A1. cbn [negb].
    assert (B2 : (alg =? -8)%Z && negb (about (i_sign_aux i me) (7 + u_len kid)) = false).
    { destruct (Z.eqb_spec alg (-8)) as [X|X]; [|reflexivity]. apply A2, about_iff in X. now rewrite X. }
    assert (B3 : negb (alg =? -8)%Z && negb (i_sign_aux i me =? 0) = false).
    { destruct (Z.eqb_spec alg (-8)) as [X|X]; [reflexivity|]. now rewrite (A3 X). }
    assert (X : (if 0 <? i_sign_aux i me then Some 100 else None) = (if (alg =? -8)%Z then Some 100 else None)).
    { destruct (Z.eqb_spec alg (-8)) as [Y|Y].
      - specialize (A2 Y). unfold roughly in A2. now replace (0 <? _) with true by lia.
      - now rewrite (A3 Y). }
    rewrite B2, B3, X. apply steps_iff; [lia|lia|]. exists me3, e3, log3, me4, e4. split; [exact E3|]. split; [exact S3|].
    apply bind_iff. exists made. split; [now apply finish_value|]. rewrite L1, N.eqb_refl. cbn [negb].
    apply bind_iff. eexists. split; [apply snd_xcall; exists l5; exact S5|]. cbn [ok terr_eqb negb].
    apply bind_iff. exists again. split; [now apply the_value_iff|]. rewrite L2, N.eqb_refl. reflexivity.
Qed.

Theorem size_passes : qcbor_positive i -> passes (sign_verify_get_size_test i make) <->
  forall alg msg, In (alg, msg) test_cases -> i_supported i alg = true ->
  forall kid, kid = NULL_UBUF \/ kid = UBuf greasy -> exists key, makes make alg key /\ sizes_agree_for i key alg kid.
Proof.
  intro Q. unfold passes, sign_verify_get_size_test. rewrite for_each_iff; [|lia|].
  2:{ intros. apply range_bind. intros v V. destruct (negb (v =? 0)%Z); [apply range_ret; exact (range_size i make _ _ Q v V)|now apply range_size]. }
  split; intros H alg m IN S.
  - specialize (H alg m IN S). apply bind_iff in H as (v & V & H). destruct (Z.eqb_spec v 0) as [->|NV]; cbn [negb] in H.
    + intros kid [->| ->]; now apply size_iff.
    + exfalso. apply NV. unfold xret in H. cbn [snd] in H. congruence.
  - specialize (H alg m IN S). apply bind_iff. exists 0%Z. split; [apply size_iff; auto|]. cbn [Z.eqb negb]. apply size_iff; auto.
Qed.

Lemma good_iff alg m : snd (known_good_test i make alg m) = Ret 0%Z <->
  exists w p key w', answers i (verify_init OPT_DECODE_ONLY) m true true w /\ w_err w = T_SUCCESS /\ w_params w = Some p /\ p_alg p = alg /\
    makes make alg key /\
    (alg = (-8)%Z -> exists u, w_payload w = Some u /\ roughly (i_verify_aux i (w_ctx w)) (u_len u)) /\ (alg <> (-8)%Z -> i_verify_aux i (w_ctx w) = 0) /\
    answers i (test_verifier key (Some 100)) m true true w' /\ w_err w' = T_SUCCESS /\ w_payload w' = Some (UBuf text_payload).
Proof.
  unfold known_good_test. change EDDSA with (-8)%Z. split.
  - intro H. apply bind_iff in H as (w & V & H). apply snd_xcall in V as (l1 & V).
    destruct (ok (w_err w)) eqn:O; cbn [negb] in H; [|now apply failed_no in H]. apply ok_iff in O.
    apply bind_iff in H as (p & P & H). apply the_value_iff in P.
    destruct (Z.eqb_spec (p_alg p) alg) as [A|A]; cbn [negb] in H; [|now apply failed_no in H].
    apply with_key_iff in H as (key & K & H); [|lia]. apply bind_iff in H as (too & T & H).
    destruct (Z.eqb_spec too 0) as [->|NT]; cbn [negb] in H; [|exfalso; apply NT; unfold xret in H; cbn [snd] in H; congruence].
    apply bind_iff in H as (w' & V' & H). apply snd_xcall in V' as (l2 & V').
    destruct (ok (w_err w')) eqn:O'; cbn [negb] in H; [|now apply failed_no in H]. apply ok_iff in O'.
    apply bind_iff in H as (u & P' & H). apply the_value_iff in P'. apply bind_iff in H as (same & E & H). cbn [xlift snd] in E.
    destruct same; [|discriminate]. apply u_equal_yes in E as ->; [|discriminate].
    exists w, p, key, w'. split; [now exists l1|]. split; [exact O|]. split; [exact P|]. split; [exact A|]. split; [exact K|].
    split. { intros ->. change (-8 =? -8)%Z with true in T. cbn iota in T. apply bind_iff in T as (u & U & T). apply the_value_iff in U.
             exists u. split; [exact U|]. apply about_iff. destruct (about _ _); [reflexivity|discriminate]. }
    split. { intro NE. apply Z.eqb_neq in NE. rewrite NE in T. cbn [xret snd] in T. destruct (N.eqb_spec (i_verify_aux i (w_ctx w)) 0); [assumption|discriminate]. }
    split; [now exists l2|]. auto.
  - intros (w & p & key & w' & (l1 & V) & O & P & A & K & A1 & A2 & (l2 & V') & O' & P').
    apply bind_iff. exists w. split; [apply snd_xcall; eauto|]. rewrite O at 1. cbn [ok terr_eqb negb].
    apply bind_iff. exists p. split; [now apply the_value_iff|]. rewrite A, Z.eqb_refl. cbn [negb].
    apply with_key_iff; [lia|]. exists key. split; [exact K|]. apply bind_iff. exists 0%Z. split.
    { destruct (Z.eqb_spec alg (-8)) as [X|X].
      - destruct (A1 X) as (u & U & R). apply bind_iff. exists u. split; [now apply the_value_iff|]. apply about_iff in R. now rewrite R.
      - now rewrite (A2 X). }
    cbn [Z.eqb negb]. apply bind_iff. exists w'. split; [apply snd_xcall; eauto|]. rewrite O'. cbn [ok terr_eqb negb].
    apply bind_iff. exists (UBuf text_payload). split; [now apply the_value_iff|]. apply bind_iff. exists true. split; reflexivity.
Qed.

Theorem good_passes : passes (sign_verify_known_good_test i make) <->
  forall alg msg, In (alg, msg) test_cases -> i_supported i alg = true ->
  exists w p key w', answers i (verify_init OPT_DECODE_ONLY) msg true true w /\ w_err w = T_SUCCESS /\ w_params w = Some p /\ p_alg p = alg /\
    makes make alg key /\
    (alg = (-8)%Z -> exists u, w_payload w = Some u /\ roughly (i_verify_aux i (w_ctx w)) (u_len u)) /\ (alg <> (-8)%Z -> i_verify_aux i (w_ctx w) = 0) /\
    answers i (test_verifier key (Some 100)) msg true true w' /\ w_err w' = T_SUCCESS /\ w_payload w' = Some (UBuf text_payload).
Proof.
  unfold passes, sign_verify_known_good_test. rewrite for_each_iff; [|lia|intros; apply range_good].
  split; intros H alg m IN S; apply good_iff; auto.
Qed.
End Tests.
