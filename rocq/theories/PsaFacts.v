(** Facts about the PSA adapter. *)
From Verif Require Import Base Const Crypto Params Algs OpenSSL Psa AdapterSpec.
From Verif Require Import Spec SignSpec BaseFacts SignMore AdapterFacts VerifySpec.
From Coq Require Import Lia ZifyBool ZifyNat ZifyN.
Ltac Zify.zify_post_hook ::= Z.div_mod_to_equations.
Open Scope N_scope. Open Scope list_scope.

(** The PSA algorithm of a COSE algorithm. *)
Lemma psa_alg_spec c alg :
  (ecdsa_enabled c alg /\ exists halg, hash_for alg = Some halg /\ cose_alg_id_to_psa_alg_id c alg = PEcdsa halg) \/
  (pss_enabled c alg /\ exists halg, hash_for alg = Some halg /\ cose_alg_id_to_psa_alg_id c alg = PRsaPss halg) \/
  (~ ecdsa_enabled c alg /\ ~ pss_enabled c alg /\ cose_alg_id_to_psa_alg_id c alg = PNone).
Proof.
  unfold ecdsa_enabled, pss_enabled, cose_alg_id_to_psa_alg_id, ES256, ES384, ES512, PS256, PS384, PS512.
  destruct (Z.eqb_spec alg (-7)) as [->|N1]; [left; split; [auto|]; eexists; split; reflexivity|].
  destruct (Z.eqb_spec alg (-35)) as [->|N2].
  { destruct (dis_es384 c) eqn:D; cbn [negb andb].
    - right. right. cbn. rewrite !andb_false_r. repeat split; try reflexivity; intuition congruence.
    - left. split; [auto|]. eexists. split; reflexivity. }
  destruct (Z.eqb_spec alg (-36)) as [->|N3].
  { destruct (dis_es512 c) eqn:D; cbn [negb andb].
    - right. right. cbn. rewrite !andb_false_r. repeat split; try reflexivity; intuition congruence.
    - left. split; [auto|]. eexists. split; [reflexivity|]. cbn. now rewrite !andb_false_r. }
  destruct (Z.eqb_spec alg (-37)) as [->|N4].
  { destruct (dis_ps256 c) eqn:D; cbn [negb andb].
    - right. right. cbn. rewrite !andb_false_r. repeat split; try reflexivity; intuition congruence.
    - right. left. split; [auto|]. eexists. split; [reflexivity|]. cbn. now rewrite !andb_false_r. }
  destruct (Z.eqb_spec alg (-38)) as [->|N5].
  { destruct (dis_ps384 c) eqn:D; cbn [negb andb].
    - right. right. cbn. rewrite !andb_false_r. repeat split; try reflexivity; intuition congruence.
    - right. left. split; [auto|]. eexists. split; [reflexivity|]. cbn. now rewrite !andb_false_r. }
  destruct (Z.eqb_spec alg (-39)) as [->|N6].
  { destruct (dis_ps512 c) eqn:D; cbn [negb andb].
    - right. right. cbn. rewrite !andb_false_r. repeat split; try reflexivity; intuition congruence.
    - right. left. split; [auto|]. eexists. split; [reflexivity|]. cbn. now rewrite !andb_false_r. }
  right. right. rewrite !andb_false_r. repeat split; try reflexivity; intuition congruence.
Qed.

Lemma not_both' c alg : ecdsa_enabled c alg -> pss_enabled c alg -> False.
Proof. unfold ecdsa_enabled, pss_enabled. intuition congruence. Qed.

Lemma psa_status_ok s : psa_status_to_t_cose_error_signing s = T_SUCCESS <-> s = 0%Z.
Proof.
  unfold psa_status_to_t_cose_error_signing, PSA_SUCCESS.
  destruct (Z.eqb_spec s 0); [intuition|]. repeat (destruct (_ =? _)%Z; [intuition congruence|]). intuition congruence.
Qed.

Lemma psa_hash_status_ok s : psa_status_to_t_cose_error_hash s = T_SUCCESS <-> s = 0%Z.
Proof.
  unfold psa_status_to_t_cose_error_hash, PSA_SUCCESS.
  destruct (Z.eqb_spec s 0); [intuition|]. repeat (destruct (_ =? _)%Z; [intuition congruence|]). intuition congruence.
Qed.

Section Facts.
Context (c : cfg) (lib : psa).
Let cr := psa_crypto c lib.

Theorem psa_verify_iff alg k kid hash sig :
  psa_verify c lib alg k kid hash sig = T_SUCCESS <-> psa_accepts c lib alg k hash sig.
Proof.
  unfold psa_verify, psa_accepts.
  destruct (psa_alg_spec c alg) as [(E & halg & H & ->)|[(P & halg & H & ->)|(NE & NP & ->)]]; cbn [is_signing_alg negb].
  - rewrite psa_status_ok. split; [eauto|]. intros (halg' & H' & [[_ V]|[P _]]); [congruence|destruct (not_both' _ _ E P)].
  - rewrite psa_status_ok. split; [eauto|]. intros (halg' & H' & [[E _]|[_ V]]); [destruct (not_both' _ _ E P)|congruence].
  - split; [discriminate|]. intros (_ & _ & [[E _]|[P _]]); contradiction.
Qed.

Theorem psa_sign_iff alg k hash room sig : psa_within_room lib ->
  psa_sign c lib alg k hash room = Ret (T_SUCCESS, sig) <-> psa_makes c lib alg k hash room sig.
Proof.
  intros (W & _). unfold psa_sign, psa_makes.
  destruct (psa_alg_spec c alg) as [(E & halg & H & ->)|[(P & halg & H & ->)|(NE & NP & ->)]]; cbn [is_signing_alg negb].
  - pose proof (W (k_handle k) (PEcdsa halg) hash room) as L. destruct (psa_sign_hash lib _ _ hash room) as [st b] eqn:S. cbn [snd] in L.
    replace (room <? blen b) with false by lia.
    destruct (terr_eqb (psa_status_to_t_cose_error_signing st) T_SUCCESS) eqn:T.
    + assert (st = 0%Z) as -> by (apply psa_status_ok; destruct (psa_status_to_t_cose_error_signing st); discriminate || reflexivity).
      split.
      * intro X. injection X as <-. exists halg. auto.
      * intros (halg' & H' & [[_ V]|[P _]]); [|destruct (not_both' _ _ E P)]. rewrite H in H'. injection H' as <-. rewrite S in V. congruence.
    + split; [intro X; exfalso; injection X as X _; rewrite X in T; discriminate|].
      intros (halg' & H' & [[_ V]|[P _]]); [|destruct (not_both' _ _ E P)]. rewrite H in H'. injection H' as <-. rewrite S in V. injection V as -> ->. discriminate.
  - pose proof (W (k_handle k) (PRsaPss halg) hash room) as L. destruct (psa_sign_hash lib _ _ hash room) as [st b] eqn:S. cbn [snd] in L.
    replace (room <? blen b) with false by lia.
    destruct (terr_eqb (psa_status_to_t_cose_error_signing st) T_SUCCESS) eqn:T.
    + assert (st = 0%Z) as -> by (apply psa_status_ok; destruct (psa_status_to_t_cose_error_signing st); discriminate || reflexivity).
      split.
      * intro X. injection X as <-. exists halg. auto.
      * intros (halg' & H' & [[E _]|[_ V]]); [destruct (not_both' _ _ E P)|]. rewrite H in H'. injection H' as <-. rewrite S in V. congruence.
    + split; [intro X; exfalso; injection X as X _; rewrite X in T; discriminate|].
      intros (halg' & H' & [[E _]|[_ V]]); [destruct (not_both' _ _ E P)|]. rewrite H in H'. injection H' as <-. rewrite S in V. injection V as -> ->. discriminate.
  - split; [discriminate|]. intros (_ & _ & [[E _]|[P _]]); contradiction.
Qed.

Theorem psa_sign_safe alg k hash room : psa_within_room lib -> exists res, psa_sign c lib alg k hash room = Ret res.
Proof.
  intros (W & _). unfold psa_sign. destruct (negb _); [eauto|].
  pose proof (W (k_handle k) (cose_alg_id_to_psa_alg_id c alg) hash room) as L. destruct (psa_sign_hash lib _ _ hash room) as [st b]. cbn [snd] in L.
  replace (room <? blen b) with false by lia. destruct (terr_eqb _ _); eauto.
Qed.

(** ** Hashing *)

Lemma psa_halg_spec halg :
  (cose_hash_alg_id_to_psa c halg = PHash halg /\
   (halg = (-16)%Z \/ (halg = (-43)%Z /\ (dis_es384 c = false \/ dis_ps384 c = false)) \/
    (halg = (-44)%Z /\ (dis_es512 c = false \/ dis_ps512 c = false)))) \/
  cose_hash_alg_id_to_psa c halg = PUint16Max.
Proof.
  unfold cose_hash_alg_id_to_psa, SHA_256, SHA_384, SHA_512.
  destruct (Z.eqb_spec halg (-16)) as [->|]; [auto|].
  destruct (Z.eqb_spec halg (-43)) as [->|].
  { destruct (dis_es384 c), (dis_ps384 c); cbn; rewrite ?andb_false_r; auto; left; split; auto. }
  rewrite andb_false_r. destruct (Z.eqb_spec halg (-44)) as [->|]; [|rewrite andb_false_r; auto].
  destruct (dis_es512 c), (dis_ps512 c); cbn; auto; left; split; auto.
Qed.

Lemma psa_start_inv halg h : psa_hash_setup lib PUint16Max <> 0%Z -> cr_hash_start cr halg = (T_SUCCESS, h) ->
  h = {| ph_alg := PHash halg; ph_data := []; ph_status := 0 |} /\
  (halg = (-16)%Z \/ (halg = (-43)%Z /\ (dis_es384 c = false \/ dis_ps384 c = false)) \/
   (halg = (-44)%Z /\ (dis_es512 c = false \/ dis_ps512 c = false))).
Proof.
  intros U. cbn [cr cr_hash_start psa_crypto]. unfold psa_start.
  destruct (psa_halg_spec halg) as [[-> A]| ->].
  - destruct (psa_hash_setup lib (PHash halg)) as [|p|p] eqn:S; cbn [Z.eqb PSA_SUCCESS lret snd].
    + intro X. injection X as <-. auto.
    + intro X. assert (Y : psa_status_to_t_cose_error_hash (Z.pos p) = T_SUCCESS) by congruence. apply psa_hash_status_ok in Y. discriminate.
    + intro X. assert (Y : psa_status_to_t_cose_error_hash (Z.neg p) = T_SUCCESS) by congruence. apply psa_hash_status_ok in Y. discriminate.
  - replace (_ =? PSA_SUCCESS)%Z with false by (symmetry; apply Z.eqb_neq; exact U). cbn [lret snd]. intro X.
    assert (Y : psa_status_to_t_cose_error_hash (psa_hash_setup lib PUint16Max) = T_SUCCESS) by congruence. apply psa_hash_status_ok in Y. contradiction.
Qed.

Theorem psa_safe parts : psa_within_room lib -> adapter_safe c cr parts.
Proof.
  intros (_ & W). split; [|split]; [|intros; exact I|intros; exact I].
  intros halg h l _ _.
  assert (U : forall l (h : phash), exists h', update_all cr h l = Ret h').
  { clear. induction l as [|u l IH]; intros h; cbn [update_all]; [eauto|]. cbn [cr cr_hash_update psa_crypto].
    unfold psa_update. destruct (negb _); [apply IH|]. destruct u; [apply IH|]. destruct (_ =? _)%Z; apply IH. }
  destruct (U l h) as (h' & E). exists h'. split; [exact E|]. cbn [cr cr_hash_finish psa_crypto]. unfold psa_finish.
  destruct (negb _); [exact I|]. pose proof (W (ph_alg h') (ph_data h') (max_hash_size c)) as L.
  destruct (psa_hash_finish lib _ _ _) as [st d]. cbn [snd] in L. replace (_ <? _) with false by lia. destruct (_ =? _)%Z; exact I.
Qed.

Section Honest.
Context (H : Z -> bytes -> bytes) (HL : psa_hash_library lib H).

Lemma psa_update_ok h u : ph_status h = 0%Z ->
  psa_update lib h u = ([], Ret {| ph_alg := ph_alg h; ph_data := ph_data h ++ u_data u; ph_status := 0 |}).
Proof.
  intro O. destruct HL as (_ & U & _). unfold psa_update. rewrite O. cbn [negb Z.eqb PSA_SUCCESS].
  destruct u; cbn [u_data]; [|now rewrite U].
  rewrite app_nil_r. destruct h as [a d s]. cbn [ph_status] in O. now subst.
Qed.

Lemma psa_fed (h : phash) data h' : fed cr h data h' -> ph_status h = 0%Z ->
  h' = {| ph_alg := ph_alg h; ph_data := ph_data h ++ data; ph_status := 0 |}.
Proof.
  induction 1 as [h|h u b h1 data h2 Hu Up _ IH]; intro O.
  - rewrite app_nil_r. destruct h as [a d s]. cbn [ph_status] in O. now subst.
  - cbn [cr cr_hash_update psa_crypto] in Up. rewrite (psa_update_ok _ _ O) in Up. injection Up as <-.
    rewrite IH by reflexivity. cbn [ph_alg ph_data]. rewrite <- app_assoc. now destruct Hu as [->|[-> ->]].
Qed.

Theorem psa_hash_is : hash_is cr H.
Proof.
  intros halg data d (h & h' & n & S & F & Fi). destruct HL as (U & _ & Fin & _). apply psa_start_inv in S as [-> _]; [|exact U].
  rewrite (psa_fed _ _ _ F eq_refl) in Fi. cbn [ph_alg ph_data app] in Fi.
  cbn [cr cr_hash_finish psa_crypto] in Fi. unfold psa_finish in Fi. cbn [ph_status negb ph_alg ph_data Z.eqb PSA_SUCCESS] in Fi.
  rewrite Fin in Fi. destruct (blen (H halg data) <=? n); [|cbn in Fi; destruct (n <? 0); discriminate].
  destruct (n <? _); cbn [lub snd] in Fi; [discriminate|]. cbn in Fi. congruence.
Qed.

Lemma psa_updates_ok l : forall h, ph_status h = 0%Z ->
  exists data, update_all cr h l = Ret {| ph_alg := ph_alg h; ph_data := data; ph_status := 0 |}.
Proof.
  induction l as [|u l IH]; intros h O; cbn [update_all].
  - exists (ph_data h). destruct h as [a d s]. cbn [ph_status] in O. now subst.
  - cbn [cr cr_hash_update psa_crypto]. rewrite (psa_update_ok _ _ O).
    destruct (IH {| ph_alg := ph_alg h; ph_data := ph_data h ++ u_data u; ph_status := 0 |} eq_refl) as (data & E).
    exists data. exact E.
Qed.

Theorem psa_reliable parts : hash_reliable c cr parts.
Proof.
  intros halg h l S _. destruct HL as (U & _ & Fin & Len). apply psa_start_inv in S as [-> A]; [|exact U].
  destruct (psa_updates_ok l {| ph_alg := PHash halg; ph_data := []; ph_status := 0 |} eq_refl) as (data & E). cbn [ph_alg] in E.
  eexists _, (H halg data). split; [exact E|]. cbn [cr cr_hash_finish psa_crypto]. unfold psa_finish. cbn [ph_status negb ph_alg ph_data Z.eqb PSA_SUCCESS].
  pose proof (digest_fits c _ A) as B. rewrite <- (Len halg data) in B by tauto.
  rewrite Fin. replace (blen (H halg data) <=? max_hash_size c) with true by lia. replace (_ <? _) with false by lia. reflexivity.
Qed.

Theorem psa_null : null_is_empty cr.
Proof.
  intro h. cbn [cr cr_hash_update psa_crypto]. destruct (Z.eq_dec (ph_status h) 0) as [O|O].
  - rewrite !psa_update_ok by exact O. reflexivity.
  - unfold psa_update. replace (_ =? PSA_SUCCESS)%Z with false by (symmetry; apply Z.eqb_neq; exact O). reflexivity.
Qed.
End Honest.

Theorem psa_sizes q : psa_within_room lib -> psa_size_reported lib (k_handle (q_key q)) -> sizes_agree cr q.
Proof.
  intros W (ty & bits & K & S). split; cbn [cr cr_sign cr_sig_size cr_sign_eddsa psa_crypto]; [|discriminate].
  intros d room sig X. apply psa_sign_iff in X as (halg & H & X); [|exact W].
  assert (Y : exists a, psa_sign_hash lib (k_handle (q_key q)) a d room = (0%Z, sig)) by (destruct X as [[_ X]|[_ X]]; eauto).
  destruct Y as (a & Y). apply S in Y. unfold psa_sig_size.
  assert (Z : is_signing_alg (cose_alg_id_to_psa_alg_id c (q_alg q)) = true).
  { destruct (psa_alg_spec c (q_alg q)) as [(E & h' & H' & ->)|[(P & h' & H' & ->)|(NE & NP & ->)]]; try reflexivity.
    destruct X as [[E _]|[P _]]; contradiction. }
  rewrite Z, K. cbn [negb psa_status_to_t_cose_error_signing Z.eqb PSA_SUCCESS terr_eqb]. unfold coordinate_length in Y.
  destruct ty; cbn [PSA_SIGN_OUTPUT_SIZE]; rewrite ?Y; [reflexivity|reflexivity|contradiction].
Qed.

Theorem psa_rooms q : psa_within_room lib -> psa_room_no_matter lib (k_handle (q_key q)) -> room_irrelevant cr q.
Proof.
  intros W R. split; cbn [cr cr_sign cr_sign_eddsa psa_crypto]; [|discriminate].
  intros d room sig room' X L. apply psa_sign_iff in X as (halg & H & X); [|exact W]. apply psa_sign_iff; [exact W|].
  exists halg. split; [exact H|]. destruct X as [[E X]|[P X]]; [left|right]; split; eauto.
Qed.

Theorem psa_keys alg sk vk : psa_within_room lib -> psa_key_pair lib (k_handle sk) (k_handle vk) -> keys_match cr alg sk vk.
Proof.
  intros W P. split; cbn [cr cr_sign cr_verify cr_sign_eddsa cr_verify_eddsa psa_crypto]; [|discriminate].
  intros d room sig kid S. f_equal. apply psa_verify_iff. apply psa_sign_iff in S as (halg & H & S); [|exact W].
  exists halg. split; [exact H|]. destruct S as [[E S]|[E S]]; [left|right]; split; eauto.
Qed.

(** ** Releasing hash operations *)

Lemma psa_updates_log us : forall h log h', psa_aborts lib = true -> psa_updates lib h us = (log, Ret h') ->
  (ph_status h = 0%Z -> live [RMdCtx] log = Some (if (ph_status h' =? 0)%Z then [RMdCtx] else [])) /\
  (ph_status h <> 0%Z -> log = [] /\ h' = h).
Proof.
  induction us as [|u us IH]; intros h log h' A; cbn [psa_updates].
  - intro X. injection X as <- <-. split; [|auto]. intros ->. reflexivity.
  - unfold psa_update, PSA_SUCCESS. destruct (Z.eqb_spec (ph_status h) 0) as [O|O]; cbn [negb lret lbind].
    + destruct u as [n|d].
      * cbn [lret lbind]. destruct (psa_updates lib h us) as [l r] eqn:U. intro X. injection X as <- ->. cbn [app]. eapply IH; eauto.
      * set (h1 := {| ph_alg := _; ph_data := _; ph_status := _ |}). destruct (Z.eqb_spec (psa_hash_update lib (ph_alg h) (ph_data h) d) 0) as [Z|Z].
        -- cbn [lret lbind]. destruct (psa_updates lib h1 us) as [l r] eqn:U. intro X. injection X as <- ->. cbn [app].
           split; [|contradiction]. intros _. exact (proj1 (IH _ _ _ A U) Z).
        -- unfold failed_op. rewrite A. cbn [lbind]. destruct (psa_updates lib h1 us) as [l r] eqn:U. intro X. injection X as <- ->.
           split; [|contradiction]. intros _. destruct (proj2 (IH _ _ _ A U) Z) as [-> ->]. unfold h1. cbn [ph_status].
           replace (_ =? 0)%Z with false by (symmetry; apply Z.eqb_neq; exact Z). reflexivity.
    + destruct (psa_updates lib h us) as [l r] eqn:U. intro X. injection X as <- ->. cbn [app]. split; [contradiction|].
      intros _. exact (proj2 (IH _ _ _ A U) O).
Qed.

Lemma live_app' a b l : live l (a ++ b) = match live l a with Some l' => live l' b | None => None end.
Proof.
  revert l. induction a as [|e a IH]; intro l; [reflexivity|]. cbn [app live]. destruct e as [o|o].
  - destruct (in_dec robj_eq_dec o l); [reflexivity|apply IH].
  - destruct (in_dec robj_eq_dec o l); [apply IH|reflexivity].
Qed.

Theorem psa_hash_lifecycle halg log err h us log1 h' room log2 res :
  psa_aborts lib = true -> psa_start c lib halg = (log, Ret (err, h)) ->
  (err <> T_SUCCESS -> released log) /\
  (err = T_SUCCESS -> psa_updates lib h us = (log1, Ret h') -> psa_finish lib h' room = (log2, Ret res) ->
   released (log ++ log1 ++ log2)).
Proof.
  intros A S. unfold psa_start in S. set (st := psa_hash_setup lib _) in S.
  destruct (Z.eqb_spec st PSA_SUCCESS) as [O|O].
  - injection S as <- <- <-. split; [intro X; destruct X; now apply psa_hash_status_ok|]. intros _ U F.
    destruct (psa_updates_log _ _ _ _ A U) as [L _]. cbn [ph_status] in L. specialize (L O).
    unfold released. cbn [app live]. destruct (in_dec robj_eq_dec RMdCtx []) as [[]|_].
    rewrite live_app', L. unfold psa_finish, PSA_SUCCESS in F.
    destruct (Z.eqb_spec (ph_status h') 0) as [Z|Z]; cbn [negb lret] in F.
    + destruct (psa_hash_finish lib _ _ room) as [s d]. destruct (room <? blen d); [discriminate|].
      unfold failed_op in F. rewrite A in F. destruct (s =? 0)%Z; injection F as <- _; reflexivity.
    + injection F as <- _. reflexivity.
  - unfold lret in S. injection S as <- <- _. split; [reflexivity|]. intro X. apply psa_hash_status_ok in X. contradiction.
Qed.
End Facts.
