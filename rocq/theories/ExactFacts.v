(** The algorithm used and the tags returned, exactly, for every message that
    verifies (C19, C23). *)
From Verif Require Import Base Const QEnc QDec Crypto Util ShortCircuit Params Verify Sign Spec SignSpec Toy.
From Verif Require Import BaseFacts UtilFacts SignFacts SignProofs SignMore SignMore3.
From Verif Require Import DecSpec VerifySafe VerifyFacts VerifyCheck Unique Parts VerifyTop VerifyMore VerifyMore2 VerifyMore3 VerifyMore4 RoundTrip VerifySpec ExactSpec.
From Coq Require Import Lia ZifyBool ZifyNat ZifyN.
Ltac Zify.zify_post_hook ::= Z.div_mod_to_equations.
Open Scope N_scope. Open Scope list_scope.
Local Strategy 100 [create_tbs create_tbs_hash verify_decode].

Theorem alg_used c cr me msg aad payload want dc log w ad gv g pm v :
  call_ok me aad ad dc payload gv -> message msg g pm -> succeeds c cr me msg aad payload want dc log w ->
  In v (values 1 (all_params g pm)) ->
  exists z, int_value v = Some z /\
    (forall p, w_params w = Some p -> p_alg p = low32 z) /\
    (forall a k kid h s, In (EvVerify a k kid h s) log -> a = low32 z).
Proof.
  intros O Hm S I. destruct (success_facts _ _ _ _ _ _ _ _ _ _ _ _ _ _ O Hm S) as (p & pl & Ac & D & _).
  pose proof (ac_params _ _ _ _ _ _ _ _ Ac) as R.
  unfold all_params in I. rewrite values_app, (rp_alg_prot _ _ _ _ R), app_nil_r in I.
  destruct (rp_alg _ _ _ _ R) as [[E _]|(v' & z & E & _ & Z & N & L & A)]; rewrite E in I; [destruct I|]; destruct I as [->|[]].
  exists z. split; [exact Z|].
  assert (PA : p_alg p = low32 z). { rewrite A. unfold to_int32, low32. clear. lia. }
  split.
  - intros p' E'. destruct D as (_ & D & _). rewrite D in E'. destruct want; [|discriminate]. injection E' as <-. exact PA.
  - intros a k kid h s J. destruct O as (Hv & HA & HG).
    destruct (verify_calls _ _ _ _ _ _ _ _ _ _ _ _ _ Hv HA HG (proj1 S NULL_UBUF)) as [->|(_ & g' & pm' & p' & pl' & Hm' & Ac' & _ & Ev & _)]; [destruct J|].
    destruct (message_unique _ _ _ _ _ Hm Hm') as [<- <-].
    pose proof (reported_det _ _ _ _ _ R (ac_params _ _ _ _ _ _ _ _ Ac')) as <-.
    specialize (Ev _ J). cbn in Ev. destruct Ev as [-> _]. exact PA.
Qed.

Lemma before_visible ts : before_invalid ts = before_last_number ts.
Proof. induction ts as [|t ts IH]; [reflexivity|]. cbn [before_invalid before_last_number]. rewrite IH. reflexivity. Qed.

Lemma before_number_len ts : (length (before_last_number ts) <= length ts)%nat.
Proof. rewrite <- before_visible. apply before_len. Qed.

Lemma returned_visible g : returned (g_tags g) = visible_tags g.
Proof. unfold returned, visible_tags. destruct (g_tags g) as [|t r]; [reflexivity|]. rewrite before_visible. reflexivity. Qed.

Theorem tags_exact c cr junk me msg aad payload want dc log w ad gv g pm n :
  length (v_tags me) = 4%nat -> holds aad ad -> detached_arg dc payload gv -> message msg g pm ->
  verify_internal c cr junk me msg aad payload want dc = (log, Ret w) -> w_err w = T_SUCCESS -> n <> 4 ->
  get_nth_tag (w_ctx w) n = Ret (nth (N.to_nat n) (visible_tags g) (2 ^ 64 - 1)).
Proof.
  intros Hv HA HG Hm H Hw N4.
  destruct (verify_sound_full _ _ _ _ _ _ _ _ _ _ _ _ _ Hv HA HG H Hw) as (g' & pm' & p & pl & Hm' & _ & _ & _ & _ & T & _).
  destruct (message_unique _ _ _ _ _ Hm Hm') as [<- <-]. rewrite returned_visible in T.
  assert (L : (length (visible_tags g) <= 4)%nat).
  { destruct Hm as (t & rest & _ & (_ & L & _) & _). unfold visible_tags. destruct (g_tags g) as [|t0 r]; [cbn; lia|].
    pose proof (before_number_len r). destruct (t0 =? 18); cbn [length] in *; lia. }
  unfold get_nth_tag. rewrite T. change MAX_TAGS_TO_RETURN with 4. destruct (N.ltb_spec 4 n) as [G|G].
  - rewrite nth_overflow by lia. reflexivity.
  - unfold arr_get, pad4. destruct (Nat.ltb_spec (N.to_nat n) (length (visible_tags g))) as [X|X].
    + rewrite nth_error_app1 by lia. now rewrite (nth_error_nth' _ (2 ^ 64 - 1) X).
    + rewrite nth_error_app2 by lia. rewrite nth_overflow by lia. rewrite nth_error_repeat by lia. reflexivity.
Qed.
