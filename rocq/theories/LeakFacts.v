(** Facts for the exact versions of C31 and C33. *)
From Verif Require Import Base Const Algs OpenSSL Psa Spec AdapterSpec LeakSpec BaseFacts OpenSSLFacts OpenSSLFacts2 PsaFacts AdapterTop.
From Coq Require Import Lia ZifyBool ZifyNat ZifyN.
Open Scope N_scope. Open Scope list_scope.

Lemma der_room_spec c : der_buffer_size c = der_room c.
Proof. unfold der_buffer_size, der_room, max_ecdsa_sig_size. destruct (dis_es512 c), (dis_es384 c); reflexivity. Qed.

Lemma wrong_length_log lib key sig room : blen sig <> 2 * coordinate_length (ev_bits lib key) ->
  ecdsa_signature_cose_to_der lib key sig room = ([], Ret (ERR_SIG_VERIFY, [])).
Proof. exact (wrong_length_rejected lib key sig room). Qed.

(** The conversion of the signature of r and s. *)
Lemma cose_to_der_exact lib key r s room : let len := coordinate_length (ev_bits lib key) in
  r < 256 ^ len -> s < 256 ^ len ->
  let got := bn_ok lib true (big_endian (N.to_nat len) r) && bn_ok lib false (big_endian (N.to_nat len) s) && sig_new lib in
  exists log res, ecdsa_signature_cose_to_der lib key (cose_signature len r s) room = (log, Ret res) /\
  live [] log = Some (if got then
                        if sig_set0 lib r s then
                          match i2d_sig lib r s with
                          | Some der => if (room <? blen der) || (blen der =? 0) then [RDer] else []
                          | None => []
                          end
                        else [RSig]
                      else []) /\
  (live [] log <> Some [] -> fst res <> T_SUCCESS).
Proof.
  cbv zeta. intros Hr Hs. unfold ecdsa_signature_cose_to_der. rewrite key_size_spec.
  set (len := coordinate_length (ev_bits lib key)) in *.
  destruct (cose_halves len r s) as (E1 & E2 & E3). rewrite E1, E2, E3, N.eqb_refl. cbn [negb].
  rewrite !bin2bn_big_endian by (rewrite N2Nat.id; assumption).
  destruct (bn_ok lib true _); cbn [negb andb]; [|eexists _, _; split; [reflexivity|split; [reflexivity|intro X; exfalso; apply X; reflexivity]]].
  destruct (bn_ok lib false _); cbn [negb andb]; [|eexists _, _; split; [reflexivity|split; [reflexivity|intro X; exfalso; apply X; reflexivity]]].
  destruct (sig_new lib); cbn [negb]; [|eexists _, _; split; [reflexivity|split; [reflexivity|intro X; exfalso; apply X; reflexivity]]].
  destruct (sig_set0 lib r s); cbn [negb]; [|eexists _, _; split; [reflexivity|split; [reflexivity|discriminate]]].
  destruct (i2d_sig lib r s) as [der|]; [|eexists _, _; split; [reflexivity|split; [reflexivity|intro X; exfalso; apply X; reflexivity]]].
  destruct (_ || _); eexists _, _; (split; [reflexivity|split; [reflexivity|]]); [discriminate|intro X; exfalso; apply X; reflexivity].
Qed.

Theorem ossl_verify_lost c lib alg k kid hash sig log res :
  ossl_verify c lib alg k kid hash sig = (log, Ret res) ->
  (loses_sig c lib alg k sig /\ live [] log = Some [RSig]) \/
  (loses_der c lib alg k sig /\ live [] log = Some [RDer]) \/
  (~ loses_sig c lib alg k sig /\ ~ loses_der c lib alg k sig /\ released log).
Proof.
  assert (NS : ~ (ecdsa_enabled c alg /\ ossl_key k /\ exists r s, let len := coordinate_length (ev_bits lib (k_handle k)) in
                  r < 256 ^ len /\ s < 256 ^ len /\ sig = cose_signature len r s) ->
               ~ loses_sig c lib alg k sig /\ ~ loses_der c lib alg k sig).
  { intro X. split.
    - intros (r & s & (E & K & Hr & Hs & Es & _) & _). apply X. split; [exact E|]. split; [exact K|]. eauto.
    - intros (r & s & d & (E & K & Hr & Hs & Es & _) & _). apply X. split; [exact E|]. split; [exact K|]. eauto. }
  unfold ossl_verify.
  destruct (negb _ && negb _)%bool eqn:A.
  { intro H. injection H as <- _. right. right. apply andb_true_iff in A as [A _]. apply negb_true_iff in A.
    destruct NS as [N1 N2]; [|split; [exact N1|split; [exact N2|reflexivity]]].
    intros (E & _). apply is_ecdsa_spec in E. congruence. }
  destruct (terr_eqb (key_convert k) T_SUCCESS) eqn:KC; cbn [negb].
  2: { intro H. injection H as <- _. right. right.
       destruct NS as [N1 N2]; [|split; [exact N1|split; [exact N2|reflexivity]]].
       intros (_ & K & _). apply key_convert_spec in K. rewrite K in KC. discriminate. }
  assert (K : ossl_key k). { apply key_convert_spec. destruct (key_convert k); try discriminate KC. reflexivity. }
  destruct (t_cose_algorithm_is_ecdsa c alg) eqn:EC.
  - apply is_ecdsa_spec in EC. set (len := coordinate_length (ev_bits lib (k_handle k))) in *.
    destruct (N.eq_dec (blen sig) (2 * len)) as [L|L].
    2: { rewrite wrong_length_log by exact L. cbn [lbind]. intro H. injection H as <- _. right. right.
         destruct NS as [N1 N2]; [|split; [exact N1|split; [exact N2|reflexivity]]].
         intros (_ & _ & r & s & Hr & Hs & Es). apply L. rewrite Es. rewrite (proj1 (cose_halves len r s)). apply N.mul_comm. }
    destruct (cose_signature_onto len sig L) as (r & s & Hr & Hs & Es).
    destruct (cose_to_der_exact lib (k_handle k) r s (der_buffer_size c) Hr Hs) as (l1 & [e o] & X & Li & Fa).
    fold len in X, Li. rewrite Es at 1. rewrite X. cbn [lbind fst] in *.
    assert (Uni : forall r' s', reaches_sig c lib alg k sig r' s' -> r' = r /\ s' = s).
    { intros r' s' (_ & _ & Hr' & Hs' & Es' & _). fold len in Hr', Hs', Es'. rewrite Es in Es'.
      destruct (cose_signature_inj len r s r' s' Hr Hs Hr' Hs' Es'). auto. }
    assert (Rea : bn_ok lib true (big_endian (N.to_nat len) r) && bn_ok lib false (big_endian (N.to_nat len) s) && sig_new lib = true <->
                  reaches_sig c lib alg k sig r s).
    { unfold reaches_sig. fold len. rewrite !andb_true_iff. intuition. }
    assert (Sig : loses_sig c lib alg k sig <-> reaches_sig c lib alg k sig r s /\ sig_set0 lib r s = false).
    { split; [|intro Y; exists r, s; exact Y]. intros (r' & s' & R & Y). destruct (Uni _ _ R) as [-> ->]. auto. }
    assert (Der : loses_der c lib alg k sig <-> reaches_sig c lib alg k sig r s /\ sig_set0 lib r s = true /\
                  exists der, i2d_sig lib r s = Some der /\ (der_room c < blen der \/ der = [])).
    { split; [|intros (Y & Z & d & W & V); exists r, s, d; auto]. intros (r' & s' & d & R & Y & Z). destruct (Uni _ _ R) as [-> ->]. split; [exact R|]. split; [exact Y|]. exists d. exact Z. }
    assert (End : forall l', live [] log = live [] l' -> live [] l' = live [] l1 ->
              (loses_sig c lib alg k sig /\ live [] log = Some [RSig]) \/ (loses_der c lib alg k sig /\ live [] log = Some [RDer]) \/
              (~ loses_sig c lib alg k sig /\ ~ loses_der c lib alg k sig /\ released log)).
    { intros l' E1 E2. rewrite E2 in E1. unfold released. rewrite E1, Li, Sig, Der, <- Rea.
      destruct (_ && _ && _); [|right; right; split; [|split; [|reflexivity]]; intros [Y _]; discriminate].
      destruct (sig_set0 lib r s); [|left; auto].
      destruct (i2d_sig lib r s) as [der|].
      2: { right. right. split; [intros [_ Y]; discriminate|]. split; [intros (_ & _ & d & Y & _); discriminate|reflexivity]. }
      rewrite der_room_spec.
      assert (B : (der_room c <? blen der) || (blen der =? 0) = true <-> der_room c < blen der \/ der = []).
      { rewrite orb_true_iff, N.ltb_lt, N.eqb_eq. split; (intros [Y|Y]; [left; exact Y|right]); [|rewrite Y; reflexivity].
        destruct der; [reflexivity|discriminate Y]. }
      destruct ((der_room c <? blen der) || (blen der =? 0)).
      - right. left. split; [|reflexivity]. split; [reflexivity|]. split; [reflexivity|]. exists der. split; [reflexivity|]. now apply B.
      - right. right. split; [intros [_ Y]; discriminate|]. split; [|reflexivity]. intros (_ & _ & d & Y & Z). injection Y as <-. apply B in Z. discriminate. }
    destruct (terr_eqb e T_SUCCESS) eqn:Ee; cbn [negb lret].
    2: { intro H. injection H as <- _. apply (End l1); [now rewrite app_nil_r|reflexivity]. }
    assert (Clean : live [] l1 = Some []).
    { destruct (live [] l1) as [[|o' t]|] eqn:Y; [reflexivity|exfalso; apply Fa; [discriminate|destruct e; try discriminate Ee; reflexivity]|discriminate Li]. }
    destruct (ctx_new lib (k_handle k)); cbn [negb lret lbind alloc free app]; intro H; injection H as <- _.
    + apply (End l1); [rewrite live_app, Clean; reflexivity|reflexivity].
    + apply (End l1); [now rewrite app_nil_r|reflexivity].
  - intro H. right. right.
    destruct NS as [N1 N2]; [intros (E & _); apply is_ecdsa_spec in E; congruence|]. split; [exact N1|]. split; [exact N2|].
    revert H. destruct (t_cose_algorithm_is_rsassa_pss c alg); cbn [lbind lret negb terr_eqb app]; [|discriminate A].
    change (terr_eqb T_SUCCESS T_SUCCESS) with true. cbn [negb].
    destruct (ctx_new lib (k_handle k)); cbn [negb lret lbind alloc free app]; intro H; injection H as <- _; reflexivity.
Qed.

Theorem der_to_cose_bounds lib key der room r s : let len := coordinate_length (ev_bits lib key) in
  d2i_sig lib der = Some (r, s) -> r < 256 ^ len -> 0 < s < 256 ^ len ->
  (exists res, snd (ecdsa_signature_der_to_cose lib key der room) = Ret res) <->
  2 * len <= room \/ room < bn_num_bytes r + bn_num_bytes s.
Proof.
  cbv zeta. intros D Hr Hs. set (len := coordinate_length (ev_bits lib key)) in *. split.
  - intros [res E]. destruct (N.lt_ge_cases room (2 * len)) as [R|R]; [|auto].
    destruct (N.lt_ge_cases room (bn_num_bytes r + bn_num_bytes s)) as [F|F]; [auto|].
    rewrite (der_to_cose_overruns lib key der room r s D) in E; try assumption; [discriminate|lia].
  - intros [R|R].
    + rewrite (der_to_cose_ok lib key der room r s len (key_size_spec _ _) D Hr); [eexists; reflexivity|lia|exact R].
    + unfold ecdsa_signature_der_to_cose. rewrite D. cbn [lbind alloc]. replace (room <? bn_num_bytes r + bn_num_bytes s) with true by lia.
      eexists. reflexivity.
Qed.

(** PSA: a library that leaves aborting to its caller. *)
Lemma psa_updates_quiet lib (A : psa_aborts lib = false) us : forall h log h', psa_updates lib h us = (log, Ret h') -> log = [].
Proof.
  induction us as [|u us IH]; intros h log h'; cbn [psa_updates]; [unfold lret; congruence|].
  assert (Q : forall l h1, psa_update lib h u = (l, Ret h1) -> l = []).
  { unfold psa_update, failed_op, lret. rewrite A. intros l h1. destruct (negb _); [congruence|]. destruct u; [congruence|].
    destruct (_ =? _)%Z; congruence. }
  unfold lbind. destruct (psa_update lib h u) as [l [h1|]] eqn:E; [|discriminate].
  destruct (psa_updates lib h1 us) as [l' [h2|]] eqn:E'; [|discriminate].
  intro H. injection H as <- _. rewrite (Q _ _ eq_refl), (IH _ _ _ E'). reflexivity.
Qed.

Theorem psa_hash_lost c lib halg log h us log1 h' room log2 e d : psa_aborts lib = false ->
  psa_start c lib halg = (log, Ret (T_SUCCESS, h)) -> psa_updates lib h us = (log1, Ret h') ->
  psa_finish lib h' room = (log2, Ret (e, d)) ->
  live [] (log ++ log1 ++ log2) = Some (if terr_eqb e T_SUCCESS then [] else [RMdCtx]).
Proof.
  intros A S U F. rewrite (psa_updates_quiet lib A us _ _ _ U). cbn [app].
  assert (El : log = [RAlloc RMdCtx]).
  { revert S. unfold psa_start, lret, PSA_SUCCESS.
    destruct (Z.eqb_spec (psa_hash_setup lib (cose_hash_alg_id_to_psa c halg)) 0) as [Z|Z]; [congruence|].
    intro S. exfalso. apply Z, psa_hash_status_ok. congruence. }
  subst log. revert F. unfold psa_finish, failed_op, lret, lub, PSA_SUCCESS. rewrite A.
  assert (T : forall s, s <> 0%Z -> terr_eqb (psa_status_to_t_cose_error_hash s) T_SUCCESS = false).
  { intros s N. destruct (terr_eqb _ _) eqn:X; [|reflexivity]. exfalso. apply N, psa_hash_status_ok.
    destruct (psa_status_to_t_cose_error_hash s); try discriminate X. reflexivity. }
  destruct (Z.eqb_spec (ph_status h') 0) as [|N]; cbn [negb].
  - destruct (psa_hash_finish _ _ _ room) as [st x]. destruct (room <? blen x); [discriminate|].
    destruct (Z.eqb_spec st 0) as [->|N]; intro F; injection F as <- <- _; [reflexivity|]. rewrite (T _ N). reflexivity.
  - intro F. injection F as <- <- _. rewrite (T _ N). reflexivity.
Qed.
