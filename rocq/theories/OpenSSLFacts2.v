(** The OpenSSL adapter's operations: results, safety and resources. *)
From Verif Require Import Base Const Crypto Algs OpenSSL BaseFacts Spec AdapterSpec OpenSSLFacts.
From Coq Require Import Lia ZifyBool ZifyNat ZifyN.
Ltac Zify.zify_post_hook ::= Z.div_mod_to_equations.
Open Scope N_scope. Open Scope list_scope. Open Scope lmon_scope.

Ltac check_list alg :=
  cbn [app t_cose_check_list];
  repeat match goal with
         | |- context [(Zneg ?x =? 0)%Z] => change (Zneg x =? 0)%Z with false
         | |- context [(0 =? 0)%Z] => change (0 =? 0)%Z with true
         end; cbv iota;
  repeat match goal with |- context [if (?x =? alg)%Z then _ else _] => destruct (Z.eqb_spec x alg) end; intuition (try congruence).

Lemma is_ecdsa_spec c alg : t_cose_algorithm_is_ecdsa c alg = true <-> ecdsa_enabled c alg.
Proof.
  unfold t_cose_algorithm_is_ecdsa, ecdsa_list, ecdsa_enabled, ifndef, ES256, ES384, ES512.
  destruct (dis_es384 c), (dis_es512 c); check_list alg.
Qed.

Lemma is_pss_spec c alg : t_cose_algorithm_is_rsassa_pss c alg = true <-> pss_enabled c alg.
Proof.
  unfold t_cose_algorithm_is_rsassa_pss, rsa_list, pss_enabled, ifndef, PS256, PS384, PS512.
  destruct (dis_ps256 c), (dis_ps384 c), (dis_ps512 c); check_list alg.
Qed.

Lemma not_both c alg : ecdsa_enabled c alg -> pss_enabled c alg -> False.
Proof. unfold ecdsa_enabled, pss_enabled. intuition congruence. Qed.

Lemma key_convert_spec k : key_convert k = T_SUCCESS <-> ossl_key k.
Proof.
  unfold key_convert, ossl_key. destruct (N.eqb_spec (k_lib k) 1); cbn [negb]; [|intuition congruence].
  destruct (N.eqb_spec (k_handle k) 0); intuition congruence.
Qed.

Lemma terr_eqb_success e : terr_eqb e T_SUCCESS = true <-> e = T_SUCCESS.
Proof. destruct e; cbn; intuition congruence. Qed.

(** Configuring a context. *)
Lemma configure_ecdsa c lib x alg : ecdsa_enabled c alg -> configure_pkey_context c lib x alg = (T_SUCCESS, x).
Proof. intro H. unfold configure_pkey_context. apply is_ecdsa_spec in H. now rewrite H. Qed.

Lemma configure_pss c lib x alg x' : pss_enabled c alg -> configure_pkey_context c lib x alg = (T_SUCCESS, x') ->
  x' = {| px_key := px_key x; px_verify := px_verify x; px_params := px_params x ++ pss_settings alg |}.
Proof.
  intros H. unfold configure_pkey_context.
  destruct (t_cose_algorithm_is_ecdsa c alg) eqn:E; [apply is_ecdsa_spec in E; destruct (not_both _ _ E H)|].
  pose proof (proj2 (is_pss_spec c alg) H) as P. rewrite P.
  assert (M : (if (alg =? PS256)%Z then Some SHA_256 else if (alg =? PS384)%Z then Some SHA_384 else if (alg =? PS512)%Z then Some SHA_512 else None)
              = Some (pss_hash alg)).
  { unfold pss_enabled in H. unfold pss_hash. destruct H as [[-> _]|[[-> _]|[-> _]]]; reflexivity. }
  rewrite M. unfold set_param. destruct (ctx_set lib x PadPSS); [|discriminate].
  destruct (ctx_set lib _ (SigMd _)); [|discriminate]. destruct (ctx_set lib _ (Mgf1Md _)); [|discriminate].
  destruct (ctx_set lib _ SaltlenDigest); [|discriminate]. cbn [px_key px_verify px_params]. intro I. injection I as <-.
  rewrite <- !app_assoc. reflexivity.
Qed.

Lemma configure_works c lib x alg : setup_works lib -> pss_enabled c alg -> exists x', configure_pkey_context c lib x alg = (T_SUCCESS, x').
Proof.
  intros (_ & _ & S) H. unfold configure_pkey_context.
  destruct (t_cose_algorithm_is_ecdsa c alg) eqn:E; [eauto|].
  pose proof (proj2 (is_pss_spec c alg) H) as P. rewrite P.
  assert (SP : forall y p, exists y', set_param lib y p = Some y') by (intros y p; unfold set_param; rewrite S; eauto).
  match goal with |- context [match ?o with Some md => _ | None => _ end] => assert (O : exists md, o = Some md) end.
  { unfold pss_enabled in H. destruct H as [[-> _]|[[-> _]|[-> _]]]; eexists; reflexivity. }
  destruct O as (md & ->). destruct (SP x PadPSS) as (x1 & ->). destruct (SP x1 (SigMd md)) as (x2 & ->).
  destruct (SP x2 (Mgf1Md md)) as (x3 & ->). destruct (SP x3 SaltlenDigest) as (x4 & ->). eauto.
Qed.

(** The encodings of signatures with a key fit the buffer for them. *)
Definition der_fits (c : cfg) (lib : ossl) (key : N) : Prop :=
  forall r s der, let len := coordinate_length (ev_bits lib key) in
    r < 256 ^ len -> s < 256 ^ len -> i2d_sig lib r s = Some der -> 0 < blen der <= der_buffer_size c.

(** ** Verification *)

Theorem ossl_verify_sound c lib alg k kid hash sig :
  snd (ossl_verify c lib alg k kid hash sig) = Ret T_SUCCESS -> ossl_key k /\ ossl_accepts c lib alg k hash sig.
Proof.
  unfold ossl_verify.
  destruct (t_cose_algorithm_is_ecdsa c alg) eqn:E.
  - apply is_ecdsa_spec in E. cbn [negb andb].
    destruct (terr_eqb (key_convert k) T_SUCCESS) eqn:K; cbn [negb lret snd];
      [|intro H; exfalso; injection H as H; rewrite H in K; discriminate].
    apply terr_eqb_success, key_convert_spec in K.
    destruct (N.eq_dec (blen sig) (2 * ecdsa_key_size lib (k_handle k))) as [L|L];
      [|rewrite cose_to_der_length by exact L; discriminate].
    destruct (cose_signature_onto _ _ L) as (r & s & Hr & Hs & ->).
    unfold ecdsa_signature_cose_to_der. destruct (cose_halves (ecdsa_key_size lib (k_handle k)) r s) as (E1 & E2 & E3).
    rewrite E1, E2, E3, N.eqb_refl. rewrite !bin2bn_big_endian by (rewrite N2Nat.id; assumption). cbn [negb].
    destruct (bn_ok lib true _); cbn [negb]; [|discriminate]. destruct (bn_ok lib false _); cbn [negb]; [|discriminate].
    destruct (sig_new lib); cbn [negb]; [|discriminate]. destruct (sig_set0 lib r s); cbn [negb]; [|discriminate].
    destruct (i2d_sig lib r s) as [der|] eqn:D; [|discriminate].
    cbn [lbind alloc free app]. destruct ((der_buffer_size c <? blen der) || (blen der =? 0)); [discriminate|].
    cbn [lbind alloc free lret app terr_eqb negb].
    destruct (ctx_new lib (k_handle k)); cbn [negb]; [|discriminate]. cbn [lbind alloc app].
    rewrite configure_ecdsa by exact E. cbn [terr_eqb negb].
    destruct (ctx_init lib _); cbn [negb]; [|discriminate].
    destruct (pkey_verify lib _ der hash) as [|p|p] eqn:V; cbn [Z.eqb]; try discriminate.
    destruct p; cbn [Z.eqb Pos.eqb negb]; try discriminate. intros _. split; [exact K|]. left. split; [exact E|].
    exists r, s, der. rewrite <- key_size_spec. cbn zeta. auto 10.
  - destruct (t_cose_algorithm_is_rsassa_pss c alg) eqn:P; cbn [negb andb]; [|discriminate].
    apply is_pss_spec in P.
    destruct (terr_eqb (key_convert k) T_SUCCESS) eqn:K; cbn [negb lret snd];
      [|intro H; exfalso; injection H as H; rewrite H in K; discriminate].
    apply terr_eqb_success, key_convert_spec in K. cbn [lbind lret terr_eqb negb].
    destruct (ctx_new lib (k_handle k)); cbn [negb]; [|discriminate]. cbn [lbind alloc app].
    destruct (ctx_init lib _); cbn [negb]; [|discriminate].
    destruct (configure_pkey_context c lib _ alg) as [err x] eqn:C.
    destruct (terr_eqb err T_SUCCESS) eqn:Er; cbn [negb];
      [|cbn [free lbind lret snd]; intro H; exfalso; injection H as H; rewrite H in Er; discriminate].
    apply terr_eqb_success in Er. subst err. apply configure_pss in C; [|exact P]. cbn [px_key px_verify px_params app] in C. subst x.
    destruct (pkey_verify lib _ sig hash) as [|p|p] eqn:V; cbn [Z.eqb]; try discriminate.
    destruct p; cbn [Z.eqb Pos.eqb negb]; try discriminate. intros _. split; [exact K|]. right. auto.
Qed.

Theorem ossl_verify_complete c lib alg k kid hash sig :
  setup_works lib -> enough_memory lib ->
  (ecdsa_enabled c alg -> der_fits c lib (k_handle k)) ->
  ossl_key k -> ossl_accepts c lib alg k hash sig ->
  snd (ossl_verify c lib alg k kid hash sig) = Ret T_SUCCESS.
Proof.
  intros SW M F K A. unfold ossl_verify. apply key_convert_spec in K.
  destruct A as [(E & r & s & der & Hr & Hs & -> & D & V)|[P V]].
  - pose proof (proj2 (is_ecdsa_spec _ _) E) as E'. rewrite E', K. cbn [negb andb terr_eqb].
    destruct (cose_to_der_ok lib (k_handle k) r s _ der (der_buffer_size c) (key_size_spec _ _) Hr Hs M D (F E _ _ _ Hr Hs D)) as (log & -> & _).
    cbn [lbind]. cbn [terr_eqb negb]. destruct SW as (S1 & S2 & S3). rewrite S1. cbn [negb lbind alloc free lret].
    rewrite S2. cbn [negb]. rewrite configure_ecdsa by exact E. cbn [terr_eqb negb]. rewrite V. reflexivity.
  - pose proof (proj2 (is_pss_spec _ _) P) as P'.
    destruct (t_cose_algorithm_is_ecdsa c alg) eqn:E; [apply is_ecdsa_spec in E; destruct (not_both _ _ E P)|].
    rewrite P', K. cbn [negb andb terr_eqb lbind lret]. pose proof SW as (S1 & S2 & S3). rewrite S1. cbn [negb lbind alloc free lret].
    rewrite S2. cbn [negb].
    destruct (configure_works c lib {| px_key := k_handle k; px_verify := true; px_params := [] |} alg SW P) as (x & C).
    rewrite C. cbn [terr_eqb negb]. apply configure_pss in C; [|exact P]. subst x. cbn [px_key px_verify px_params app].
    rewrite V. reflexivity.
Qed.

(** A library that says no. *)
Theorem ossl_verify_total c lib alg k kid hash sig : exists err, snd (ossl_verify c lib alg k kid hash sig) = Ret err.
Proof.
  unfold ossl_verify. destruct (_ && _)%bool; [eexists; reflexivity|].
  destruct (terr_eqb (key_convert k) T_SUCCESS); cbn [negb]; [|eexists; reflexivity].
  set (conv := if t_cose_algorithm_is_ecdsa c alg then _ else _).
  assert (T : exists log r, conv = (log, Ret r)).
  { unfold conv. destruct (t_cose_algorithm_is_ecdsa c alg).
    - unfold ecdsa_signature_cose_to_der.
      repeat (match goal with |- context [if negb ?b then _ else _] => destruct b; cbn [negb] end;
              try (cbn [lbind alloc free lret app]; do 2 eexists; reflexivity)).
      match goal with |- context [match i2d_sig ?l ?r ?s with _ => _ end] => destruct (i2d_sig l r s) end;
        [|cbn [lbind alloc free lret app]; do 2 eexists; reflexivity].
      match goal with |- context [if ?b then _ else _] => destruct b end; cbn [lbind alloc free lret app]; do 2 eexists; reflexivity.
    - destruct (t_cose_algorithm_is_rsassa_pss c alg); unfold lret; eauto. }
  destruct T as (log & [err o] & ->). cbn [lbind].
  destruct (terr_eqb err T_SUCCESS); cbn [negb]; [|eexists; reflexivity].
  destruct (ctx_new lib (k_handle k)); cbn [negb]; eexists; reflexivity.
Qed.

Theorem ossl_verify_eddsa_iff lib k kid tbs sig :
  snd (ossl_verify_eddsa lib k kid tbs sig) = Ret T_SUCCESS <->
  ossl_key k /\ md_new lib = true /\ dverify_init lib (k_handle k) = true /\ dverify lib (k_handle k) sig tbs = 1%Z.
Proof.
  unfold ossl_verify_eddsa. destruct (terr_eqb (key_convert k) T_SUCCESS) eqn:K; cbn [negb].
  - apply terr_eqb_success, key_convert_spec in K.
    destruct (md_new lib); cbn [negb lbind alloc free lret snd app]; [|intuition congruence].
    destruct (dverify_init lib (k_handle k)); cbn [negb]; [|intuition congruence].
    destruct (dverify lib (k_handle k) sig tbs) as [|p|p]; cbn [Z.eqb negb]; [intuition congruence| |intuition congruence].
    destruct p; cbn [Pos.eqb negb]; intuition congruence.
  - split.
    + cbn [lret snd]. intro H. exfalso. injection H as H. rewrite H in K. discriminate.
    + intros (H & _). exfalso. apply key_convert_spec in H. rewrite H in K. discriminate.
Qed.

Theorem ossl_verify_eddsa_total lib k kid tbs sig : exists err, snd (ossl_verify_eddsa lib k kid tbs sig) = Ret err.
Proof.
  unfold ossl_verify_eddsa. destruct (terr_eqb (key_convert k) T_SUCCESS); cbn [negb]; [|eexists; reflexivity].
  destruct (md_new lib); eexists; reflexivity.
Qed.

(** ** Signing *)

Theorem ossl_sign_result c lib alg k hash room sig :
  sign_library lib -> snd (ossl_sign c lib alg k hash room) = Ret (T_SUCCESS, sig) ->
  ossl_key k /\
  ((ecdsa_enabled c alg /\ exists der r s, let len := coordinate_length (ev_bits lib (k_handle k)) in
      pkey_sign lib {| px_key := k_handle k; px_verify := false; px_params := [] |} hash (der_buffer_size c) = Some der /\
      d2i_sig lib der = Some (r, s) /\ sig = cose_signature len r s /\ 2 * len <= room) \/
   (pss_enabled c alg /\
      pkey_sign lib {| px_key := k_handle k; px_verify := false; px_params := pss_settings alg |} hash room = Some sig)).
Proof.
  intros (SL1 & _ & SL). unfold ossl_sign.
  destruct (negb _ && negb _)%bool eqn:A; [discriminate|].
  destruct (terr_eqb (key_convert k) T_SUCCESS) eqn:K; cbn [negb];
    [|cbn [lret snd]; intro H; exfalso; injection H as H _; rewrite H in K; discriminate].
  apply terr_eqb_success, key_convert_spec in K.
  destruct (ctx_new lib (k_handle k)); cbn [negb]; [|discriminate]. cbn [lbind alloc].
  destruct (ctx_init lib _); cbn [negb]; [|discriminate].
  destruct (t_cose_algorithm_is_ecdsa c alg) eqn:E.
  - apply is_ecdsa_spec in E. rewrite configure_ecdsa by exact E. cbn [terr_eqb negb].
    destruct (pkey_sign lib _ hash (der_buffer_size c)) as [der|] eqn:PS; [|discriminate].
    unfold stored. destruct (der_buffer_size c <? blen der); [discriminate|]. cbn [lbind lret].
    destruct (d2i_sig lib der) as [[r s]|] eqn:D; [|unfold ecdsa_signature_der_to_cose; rewrite D; discriminate].
    destruct (fun e => SL _ _ _ _ r s e PS D) as (Hr & Hs); [reflexivity|]. cbn [px_key] in Hr, Hs. rewrite <- key_size_spec in Hr, Hs.
    destruct (N.le_gt_cases (2 * ecdsa_key_size lib (k_handle k)) room) as [R|R].
    + rewrite (der_to_cose_ok lib (k_handle k) der room r s _ eq_refl D Hr Hs R). cbn [lbind lret free snd app].
      intro H. injection H as <-. split; [exact K|]. left. split; [exact E|]. exists der, r, s. rewrite <- key_size_spec. auto.
    + intro H. exfalso. revert H. unfold ecdsa_signature_der_to_cose. rewrite D.
      destruct (room <? bn_num_bytes r + bn_num_bytes s); [cbn; discriminate|]. cbn [lbind alloc app].
      set (buf := repeat x00 (N.to_nat room)).
      assert (Lw : forall b off d b', write_at b off d = Ret b' -> blen b' = blen b).
      { clear. intros b off d b' H. unfold write_at in H. destruct d as [|d0 d]; [now injection H as <-|].
        destruct (_ && _)%bool eqn:C; [|discriminate]. injection H as <-. apply andb_true_iff in C as [C1 C2].
        unfold blen in *. rewrite app_length, firstn_length. cbn [app length] in *. rewrite app_length, skipn_length. lia. }
      destruct (write_at buf _ (bn_bn2bin r)) as [b1|u] eqn:W1; cbn [lbind snd]; [|discriminate].
      destruct (write_at b1 _ (bn_bn2bin s)) as [b2|u] eqn:W2; cbn [lbind snd]; [|discriminate].
      apply Lw in W1. apply Lw in W2.
      replace (blen b2 <? 2 * ecdsa_key_size lib (k_handle k)) with true; [discriminate|].
      rewrite W2, W1. unfold buf, blen. rewrite repeat_length. lia.
  - destruct (t_cose_algorithm_is_rsassa_pss c alg) eqn:P; [|discriminate]. apply is_pss_spec in P.
    destruct (configure_pkey_context c lib _ alg) as [err x] eqn:C.
    destruct (terr_eqb err T_SUCCESS) eqn:Er; cbn [negb];
      [|cbn [free lbind lret snd]; intro H; exfalso; injection H as H _; rewrite H in Er; discriminate].
    apply terr_eqb_success in Er. subst err. apply configure_pss in C; [|exact P]. cbn [px_key px_verify px_params app] in C. subst x.
    destruct (pkey_sign lib _ hash room) as [b|] eqn:PS; [|discriminate].
    unfold stored. destruct (room <? blen b); [discriminate|]. cbn [lbind lret free snd app]. intro H. injection H as <-. auto.
Qed.

Theorem ossl_sign_safe c lib alg k hash room :
  sign_library lib ->
  (ecdsa_enabled c alg -> 2 * coordinate_length (ev_bits lib (k_handle k)) <= room) ->
  exists res, snd (ossl_sign c lib alg k hash room) = Ret res.
Proof.
  intros (SL1 & _ & SL) R. unfold ossl_sign.
  destruct (negb _ && negb _)%bool eqn:A; [eexists; reflexivity|].
  destruct (terr_eqb (key_convert k) T_SUCCESS) eqn:K; cbn [negb]; [|eexists; reflexivity].
  destruct (ctx_new lib (k_handle k)); cbn [negb]; [|eexists; reflexivity]. cbn [lbind alloc].
  destruct (ctx_init lib _); cbn [negb]; [|eexists; reflexivity].
  destruct (t_cose_algorithm_is_ecdsa c alg) eqn:E.
  - apply is_ecdsa_spec in E. rewrite configure_ecdsa by exact E. cbn [terr_eqb negb].
    destruct (pkey_sign lib _ hash (der_buffer_size c)) as [der|] eqn:PS; [|eexists; reflexivity].
    unfold stored. pose proof (SL1 _ _ _ _ PS). replace (der_buffer_size c <? blen der) with false by lia. cbn [lbind lret].
    destruct (d2i_sig lib der) as [[r s]|] eqn:D; [|unfold ecdsa_signature_der_to_cose; rewrite D; eexists; reflexivity].
    destruct (fun e => SL _ _ _ _ r s e PS D) as (Hr & Hs); [reflexivity|]. cbn [px_key] in Hr, Hs.
    rewrite (der_to_cose_ok lib (k_handle k) der room r s _ (key_size_spec _ _) D Hr Hs (R E)). eexists. reflexivity.
  - destruct (configure_pkey_context c lib _ alg) as [err x].
    destruct (terr_eqb err T_SUCCESS); cbn [negb]; [|eexists; reflexivity].
    destruct (t_cose_algorithm_is_rsassa_pss c alg); [|eexists; reflexivity].
    destruct (pkey_sign lib x hash room) as [b|] eqn:PS; [|eexists; reflexivity].
    unfold stored. pose proof (SL1 _ _ _ _ PS). replace (room <? blen b) with false by lia. eexists. reflexivity.
Qed.

Theorem ossl_sign_eddsa_safe lib k tbs room : sign_library lib -> exists res, snd (ossl_sign_eddsa lib k tbs room) = Ret res.
Proof.
  intros (_ & SL & _). unfold ossl_sign_eddsa. destruct (terr_eqb (key_convert k) T_SUCCESS); cbn [negb]; [|eexists; reflexivity].
  destruct (md_new lib); cbn [negb lbind alloc]; [|eexists; reflexivity].
  destruct (dsign_init lib (k_handle k)); cbn [negb]; [|eexists; reflexivity].
  destruct (dsign lib (k_handle k) tbs room) as [b|] eqn:D; [|eexists; reflexivity].
  unfold stored. pose proof (SL _ _ _ _ D). replace (room <? blen b) with false by lia. eexists. reflexivity.
Qed.

(** ** Resources *)

Ltac leaves :=
  repeat match goal with
         | |- context [if ?b then _ else _] => destruct b
         | |- context [match ?o with Some _ => _ | None => _ end] => destruct o
         end.

Lemma der_to_cose_released lib key der room log res :
  ecdsa_signature_der_to_cose lib key der room = (log, Ret res) -> log = [] \/ log = [RAlloc RSig; RFree RSig].
Proof.
  unfold ecdsa_signature_der_to_cose. destruct (d2i_sig lib der) as [[r s]|]; [|intro H; injection H as <- _; auto].
  destruct (room <? _); cbn [lbind alloc free lret app]; [intro H; injection H as <- _; auto|].
  destruct (write_at _ _ (bn_bn2bin r)); cbn [lbind app]; [|discriminate].
  destruct (write_at _ _ (bn_bn2bin s)); cbn [lbind app]; [|discriminate].
  destruct (blen _ <? _); cbn [lub lbind free lret app]; intro H; inversion H; auto.
Qed.

Theorem ossl_sign_released c lib alg k hash room log res :
  ossl_sign c lib alg k hash room = (log, Ret res) -> released log.
Proof.
  unfold ossl_sign. destruct (negb _ && negb _)%bool; [intro H; injection H as <- _; reflexivity|].
  destruct (terr_eqb (key_convert k) T_SUCCESS); cbn [negb]; [|intro H; injection H as <- _; reflexivity].
  destruct (ctx_new lib (k_handle k)); cbn [negb]; [|intro H; injection H as <- _; reflexivity].
  set (inner := if negb (ctx_init lib _) then _ else _).
  assert (I : forall l r, inner = (l, Ret r) -> l = [] \/ l = [RAlloc RSig; RFree RSig]).
  { unfold inner. intros l r. destruct (ctx_init lib _); cbn [negb]; [|intro H; injection H as <- _; auto].
    destruct (configure_pkey_context c lib _ alg) as [err x].
    destruct (terr_eqb err T_SUCCESS); cbn [negb]; [|intro H; injection H as <- _; auto].
    destruct (t_cose_algorithm_is_ecdsa c alg).
    - destruct (pkey_sign lib x hash _) as [der|]; [|intro H; injection H as <- _; auto].
      unfold stored. destruct (_ <? blen der); cbn [lub lbind lret]; [discriminate|].
      destruct (ecdsa_signature_der_to_cose lib (k_handle k) der room) as [l1 [o|u]] eqn:D; cbn [lbind]; [|discriminate].
      apply der_to_cose_released in D. destruct o; cbn [lret app]; rewrite app_nil_r; intro H; injection H as <- _; exact D.
    - destruct (t_cose_algorithm_is_rsassa_pss c alg); [|intro H; injection H as <- _; auto].
      destruct (pkey_sign lib x hash room) as [b|]; [|intro H; injection H as <- _; auto].
      unfold stored. destruct (_ <? blen b); cbn [lub lbind lret app]; [discriminate|]. intro H; injection H as <- _; auto. }
  destruct inner as [l [r|u]] eqn:Ei; cbn [lbind alloc free lret app]; [|discriminate].
  destruct (I _ _ eq_refl) as [-> | ->]; intro H; injection H as <- _; reflexivity.
Qed.

Theorem ossl_sign_eddsa_released lib k tbs room log res :
  ossl_sign_eddsa lib k tbs room = (log, Ret res) -> released log.
Proof.
  unfold ossl_sign_eddsa. destruct (terr_eqb (key_convert k) T_SUCCESS); cbn [negb]; [|intro H; injection H as <- _; reflexivity].
  destruct (md_new lib); cbn [negb lbind alloc]; [|intro H; injection H as <- _; reflexivity].
  destruct (dsign_init lib (k_handle k)); cbn [negb lbind free lret app]; [|intro H; injection H as <- _; reflexivity].
  destruct (dsign lib (k_handle k) tbs room) as [b|]; cbn [lbind free lret app]; [|intro H; injection H as <- _; reflexivity].
  unfold stored. destruct (room <? blen b); cbn [lbind lub free lret app]; [discriminate|]. intro H; injection H as <- _; reflexivity.
Qed.

Theorem ossl_verify_eddsa_released lib k kid tbs sig log res :
  ossl_verify_eddsa lib k kid tbs sig = (log, Ret res) -> released log.
Proof.
  unfold ossl_verify_eddsa. destruct (terr_eqb (key_convert k) T_SUCCESS); cbn [negb]; [|intro H; injection H as <- _; reflexivity].
  destruct (md_new lib); cbn [negb lbind alloc free lret app]; intro H; injection H as <- _; reflexivity.
Qed.

(** What the conversion for verification leaves behind. *)
Lemma cose_to_der_log lib key sig room log res :
  ecdsa_signature_cose_to_der lib key sig room = (log, Ret res) ->
  live [] log = Some [] \/
  (live [] log = Some [RSig] /\ exists r s, sig_set0 lib r s = false) \/
  (live [] log = Some [RDer] /\ exists r s der, let len := coordinate_length (ev_bits lib key) in
     r < 256 ^ len /\ s < 256 ^ len /\ i2d_sig lib r s = Some der /\ (room < blen der \/ der = [])).
Proof.
  assert (B : forall n (b : bytes), bn_bin2bn (firstn (N.to_nat n) b) < 256 ^ n).
  { intros n b. eapply N.lt_le_trans; [apply bin2bn_bound|]. apply N.pow_le_mono_r; [discriminate|]. unfold blen. rewrite firstn_length. lia. }
  rewrite <- key_size_spec. cbv zeta. unfold ecdsa_signature_cose_to_der.
  set (r := bn_bin2bn _). set (s := bn_bin2bn (firstn _ (skipn _ _))).
  destruct (negb (blen sig =? _)); [intro H; injection H as <- _; auto|].
  destruct (negb (bn_ok lib true _)); [intro H; injection H as <- _; auto|].
  destruct (negb (bn_ok lib false _)); [intro H; injection H as <- _; auto|].
  destruct (negb (sig_new lib)); [intro H; injection H as <- _; auto|].
  destruct (sig_set0 lib r s) eqn:S0; cbn [negb].
  - destruct (i2d_sig lib r s) as [der|] eqn:D; [|intro H; injection H as <- _; auto].
    destruct ((room <? blen der) || (blen der =? 0)) eqn:F; cbn [lbind alloc free lret app]; intro H; injection H as <- _; [|auto].
    right. right. split; [reflexivity|]. exists r, s, der. split; [apply B|]. split; [apply B|]. split; [exact D|]. apply orb_true_iff in F as [F|F]; [left; lia|].
    right. destruct der; [reflexivity|cbn in F; discriminate].
  - intro H; injection H as <- _. right. left. split; [reflexivity|]. eauto.
Qed.

Lemma live_app a b l : live l (a ++ b) = match live l a with Some l' => live l' b | None => None end.
Proof.
  revert l. induction a as [|e a IH]; intro l; [reflexivity|]. cbn [app live]. destruct e as [o|o].
  - destruct (in_dec robj_eq_dec o l); [reflexivity|apply IH].
  - destruct (in_dec robj_eq_dec o l); [apply IH|reflexivity].
Qed.

Theorem ossl_verify_released c lib alg k kid hash sig log res :
  ossl_verify c lib alg k kid hash sig = (log, Ret res) ->
  (forall r s, sig_set0 lib r s = true) ->
  (ecdsa_enabled c alg -> der_fits c lib (k_handle k)) ->
  released log.
Proof.
  intros H S0 F. revert H. unfold ossl_verify.
  destruct (negb _ && negb _)%bool; [intro H; injection H as <- _; reflexivity|].
  destruct (terr_eqb (key_convert k) T_SUCCESS); cbn [negb]; [|intro H; injection H as <- _; reflexivity].
  set (conv := if t_cose_algorithm_is_ecdsa c alg then _ else _).
  assert (C : forall l r, conv = (l, Ret r) -> live [] l = Some []).
  { unfold conv. intros l r. destruct (t_cose_algorithm_is_ecdsa c alg) eqn:E.
    - apply is_ecdsa_spec in E. intro H. apply cose_to_der_log in H as [H|[(_ & r0 & s0 & H)|(_ & r0 & s0 & der & Hr & Hs & D & H)]]; [exact H|..].
      + rewrite S0 in H. discriminate.
      + apply (F E _ _ _ Hr Hs) in D. destruct H as [H| ->]; [lia|]. change (blen (@nil byte)) with 0 in D. lia.
    - destruct (t_cose_algorithm_is_rsassa_pss c alg); intro H; injection H as <- _; reflexivity. }
  destruct conv as [l [[err o]|u]] eqn:Ec; cbn [lbind]; [|discriminate].
  pose proof (C _ _ eq_refl) as Cl.
  destruct (terr_eqb err T_SUCCESS); cbn [negb lret];
    [|intro H; injection H as <- _; unfold released; rewrite app_nil_r; exact Cl].
  destruct (ctx_new lib (k_handle k)); cbn [negb lret lbind alloc free app]; intro H; injection H as <- _;
    unfold released; rewrite ?app_nil_r; [|exact Cl].
  rewrite live_app, Cl. reflexivity.
Qed.

(** Hashing: the context is allocated by a successful start and released by
    finish, whatever happened in between. *)
Theorem ossl_hash_lifecycle c lib halg log err h us room log2 res :
  ossl_hash_start c lib halg = (log, Ret (err, h)) ->
  (err <> T_SUCCESS -> released log) /\
  (err = T_SUCCESS -> ossl_hash_finish lib (fold_left (ossl_hash_update lib) us h) room = (log2, Ret res) -> released (log ++ log2)).
Proof.
  unfold ossl_hash_start. set (sup := (_ || _)%bool). intro H. split.
  - intro E. revert H. destruct sup; [|intro H; injection H as <- <- _; reflexivity].
    destruct (negb (md_known lib halg)); [intro H; injection H as <- <- _; reflexivity|].
    destruct (negb (md_new lib)); [intro H; injection H as <- <- _; reflexivity|].
    cbn [lbind alloc]. destruct (negb (md_init lib halg)); cbn [lbind free lret app]; intro H; injection H as <- <- _; [reflexivity|congruence].
  - intros -> F.
    assert (L : log = [RAlloc RMdCtx]).
    { revert H. destruct sup; [|discriminate]. destruct (negb (md_known lib halg)); [discriminate|].
      destruct (negb (md_new lib)); [discriminate|]. cbn [lbind alloc].
      destruct (negb (md_init lib halg)); cbn [lbind free lret app]; intro H; [discriminate|]. injection H as <- _. reflexivity. }
    subst log. revert F. unfold ossl_hash_finish. destruct (negb (oh_ok _)); [intro F; injection F as <- _; reflexivity|].
    destruct (md_final lib _ _) as [d|]; [|intro F; injection F as <- _; reflexivity].
    unfold stored. destruct (room <? blen d); cbn [lbind lub lret free app]; [discriminate|]. intro F; injection F as <- _; reflexivity.
Qed.
