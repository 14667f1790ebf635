(** Facts about the hash functions of the adapters, for C72. *)
From Verif Require Import Base Const Crypto Params Sha256 Sha256Spec Sha256Facts Algs TestCrypto OpenSSL Psa AdapterSpec.
From Verif Require Import Spec SignSpec FaultSpec HashSpec BaseFacts OpenSSLFacts OpenSSLFacts2 PsaFacts AdapterFacts FaultFacts.
From Coq Require Import Lia ZifyBool ZifyNat ZifyN.
Open Scope N_scope. Open Scope list_scope.

Lemma present_updates cr (NU : forall h n, cr_hash_update cr h (UNull n) = Ret h) pieces : forall h,
  update_all cr h pieces = update_all cr h (present pieces).
Proof.
  induction pieces as [|[n|b] r IH]; intro h; cbn [update_all present filter]; [reflexivity| |].
  - rewrite NU. apply IH.
  - destruct (cr_hash_update cr h (UBuf b)); [apply IH|reflexivity].
Qed.

Lemma present_hash cr (NU : forall h n, cr_hash_update cr h (UNull n) = Ret h) halg pieces room :
  hash_all cr halg pieces room = hash_all cr halg (present pieces) room.
Proof. unfold hash_all. destruct (cr_hash_start cr halg) as [e h]. rewrite (present_updates cr NU). reflexivity. Qed.

Lemma ossl_null_update c lib h n : cr_hash_update (openssl c lib) h (UNull n) = Ret h.
Proof. cbn [cr_hash_update openssl]. unfold ossl_hash_update. destruct (oh_ok h); reflexivity. Qed.
Lemma psa_null_update c lib h n : cr_hash_update (psa_crypto c lib) h (UNull n) = Ret h.
Proof. cbn [cr_hash_update psa_crypto]. unfold psa_update. destruct (negb _); reflexivity. Qed.
Lemma test_null_update junk c h n : cr_hash_update (test_crypto true junk c) h (UNull n) = Ret h.
Proof. reflexivity. Qed.

(** ** Where hashing starts *)
Lemma ossl_start_ok c lib halg h : cr_hash_start (openssl c lib) halg = (T_SUCCESS, h) ->
  h = {| oh_md := halg; oh_data := []; oh_ok := true |} /\ offered c halg.
Proof. intro S. destruct (ossl_start_inv c lib halg h S) as [-> O]. split; [reflexivity|exact O]. Qed.

Lemma psa_start_ok c lib halg h : cr_hash_start (psa_crypto c lib) halg = (T_SUCCESS, h) ->
  h = {| ph_alg := cose_hash_alg_id_to_psa c halg; ph_data := []; ph_status := 0%Z |}.
Proof.
  cbn [cr_hash_start psa_crypto]. unfold psa_start, lret, PSA_SUCCESS.
  destruct (Z.eqb_spec (psa_hash_setup lib (cose_hash_alg_id_to_psa c halg)) 0) as [Z|Z]; cbn [snd]; intro S.
  - rewrite Z in S. injection S as <-. reflexivity.
  - exfalso. apply Z. apply psa_hash_status_ok. congruence.
Qed.

Theorem ossl_not_offered c lib halg pieces room : ~ offered c halg ->
  hash_all (openssl c lib) halg pieces room = Ret (ERR_UNSUPPORTED_HASH, []).
Proof.
  intro O. unfold hash_all. cbn [cr_hash_start openssl]. unfold ossl_hash_start.
  destruct (_ || _)%bool eqn:X; [|reflexivity]. exfalso. apply O, offered_spec, X.
Qed.

Theorem psa_not_offered c lib halg pieces room : ~ offered c halg ->
  psa_hash_setup lib PUint16Max = (-134)%Z \/ psa_hash_setup lib PUint16Max = (-135)%Z ->
  hash_all (psa_crypto c lib) halg pieces room = Ret (ERR_UNSUPPORTED_HASH, []).
Proof.
  intros O X. unfold hash_all. cbn [cr_hash_start psa_crypto]. unfold psa_start.
  destruct (psa_hash_of_spec c halg) as [[Y _]|[_ ->]]; [contradiction|].
  destruct X as [-> | ->]; reflexivity.
Qed.

Theorem test_not_offered junk c halg pieces room : halg <> (-16)%Z ->
  hash_all (test_crypto true junk c) halg pieces room = Ret (ERR_UNSUPPORTED_HASH, []).
Proof.
  intro O. unfold hash_all. cbn [cr_hash_start test_crypto]. unfold test_hash_start, SHA_256.
  destruct (Z.eqb_spec halg (-16)); [contradiction|reflexivity].
Qed.

(** ** What the digest is of *)
Lemma ossl_taken c lib (T : ossl_takes lib) pieces : forall md data,
  update_all (openssl c lib) {| oh_md := md; oh_data := data; oh_ok := true |} pieces =
  Ret {| oh_md := md; oh_data := data ++ all_data pieces; oh_ok := true |}.
Proof.
  induction pieces as [|u r IH]; intros md data; cbn [update_all].
  - unfold all_data. cbn [flat_map]. now rewrite app_nil_r.
  - destruct u as [n|b].
    + rewrite ossl_null_update. exact (IH md data).
    + cbn [cr_hash_update openssl]. unfold ossl_hash_update at 1. cbn [oh_ok oh_md oh_data]. rewrite T, IH.
      unfold all_data. cbn [flat_map u_data]. now rewrite app_assoc.
Qed.

Theorem ossl_digest c lib halg pieces room : ossl_takes lib ->
  hash_all (openssl c lib) halg pieces room = hash_all (openssl c lib) halg [UBuf (all_data pieces)] room.
Proof.
  intro T. unfold hash_all. destruct (cr_hash_start (openssl c lib) halg) as [e h] eqn:S.
  destruct e; try reflexivity. apply ossl_start_ok in S as [-> _]. rewrite !(ossl_taken c lib T).
  unfold all_data at 2. cbn [flat_map u_data]. now rewrite app_nil_r.
Qed.

Lemma psa_taken c lib (T : psa_takes lib) pieces : forall a data,
  update_all (psa_crypto c lib) {| ph_alg := a; ph_data := data; ph_status := 0%Z |} pieces =
  Ret {| ph_alg := a; ph_data := data ++ all_data pieces; ph_status := 0%Z |}.
Proof.
  induction pieces as [|u r IH]; intros a data; cbn [update_all].
  - unfold all_data. cbn [flat_map]. now rewrite app_nil_r.
  - destruct u as [n|b].
    + rewrite psa_null_update. exact (IH a data).
    + cbn [cr_hash_update psa_crypto]. unfold psa_update at 1, PSA_SUCCESS. cbn [ph_status ph_alg ph_data]. rewrite T.
      change (0 =? 0)%Z with true. cbn [negb lret snd]. rewrite IH.
      unfold all_data. cbn [flat_map u_data]. now rewrite app_assoc.
Qed.

Theorem psa_digest c lib halg pieces room : psa_takes lib ->
  hash_all (psa_crypto c lib) halg pieces room = hash_all (psa_crypto c lib) halg [UBuf (all_data pieces)] room.
Proof.
  intro T. unfold hash_all. destruct (cr_hash_start (psa_crypto c lib) halg) as [e h] eqn:S.
  destruct e; try reflexivity. apply psa_start_ok in S. rewrite S, !(psa_taken c lib T).
  unfold all_data at 2. cbn [flat_map u_data]. now rewrite app_nil_r.
Qed.

Lemma test_taken junk c pieces : sha_takes pieces -> forall h D, has_absorbed h D ->
  exists h', update_all (test_crypto true junk c) h pieces = Ret h' /\ has_absorbed h' (D ++ all_data pieces).
Proof.
  induction 1 as [|u l U W IH]; intros h D A; [exists h; split; [reflexivity|]; unfold all_data; cbn [flat_map]; now rewrite app_nil_r|].
  cbn [update_all cr_hash_update test_crypto].
  assert (X : exists h1, test_hash_update true h u = Ret h1 /\ has_absorbed h1 (D ++ u_data u)).
  { destruct u as [n|b]; cbn [test_hash_update u_data].
    - exists h. split; [reflexivity|]. now rewrite app_nil_r.
    - apply update_spec; [exact A|exact U]. }
  destruct X as (h1 & -> & A1). destruct (IH _ _ A1) as (h' & E & A'). exists h'. split; [exact E|].
  unfold all_data in *. cbn [flat_map]. now rewrite app_assoc.
Qed.

Theorem test_digest junk c pieces room : length junk = 64%nat -> sha_takes pieces -> 32 <= room ->
  hash_all (test_crypto true junk c) (-16) pieces room = Ret (T_SUCCESS, sha256 (all_data pieces)).
Proof.
  intros J T R. unfold hash_all. destruct (cr_hash_start (test_crypto true junk c) (-16)) as [e h] eqn:S.
  cbn in S. injection S as <- <-.
  destruct (test_taken junk c pieces T _ [] (init_absorbed junk J)) as (h' & E & A). rewrite E.
  cbn [cr_hash_finish test_crypto app] in *. unfold test_hash_finish.
  rewrite (final_spec _ _ _ A) by (rewrite repeat_length; lia). cbn [obind]. f_equal. f_equal. apply firstn_exact, sha256_length.
Qed.

(** ** A piece that is refused *)
Lemma ossl_failed_stays c lib h : oh_ok h = false -> forall pieces, update_all (openssl c lib) h pieces = Ret h.
Proof.
  intros F pieces. induction pieces as [|u r IH]; cbn [update_all]; [reflexivity|].
  cbn [cr_hash_update openssl]. unfold ossl_hash_update at 1. rewrite F. exact IH.
Qed.

Lemma updates_app cr a : forall b h, update_all cr h (a ++ b) = match update_all cr h a with Ret h => update_all cr h b | UB w => UB w end.
Proof.
  induction a as [|u r IH]; intros b h; cbn [update_all app]; [reflexivity|].
  destruct (cr_hash_update cr h u); [apply IH|reflexivity].
Qed.

Lemma ossl_updates_return c lib pieces : forall h, exists h', update_all (openssl c lib) h pieces = Ret h'.
Proof. induction pieces as [|u r IH]; intro h; cbn [update_all]; [eauto|apply IH]. Qed.

Theorem ossl_refused c lib halg l b l' room h : cr_hash_start (openssl c lib) halg = (T_SUCCESS, h) ->
  md_update lib halg (all_data l) b = false ->
  hash_all (openssl c lib) halg (l ++ UBuf b :: l') room = Ret (ERR_HASH_GENERAL_FAIL, []).
Proof.
  intros S R. unfold hash_all. rewrite S. apply ossl_start_ok in S as [-> _].
  assert (X : exists h', update_all (openssl c lib) {| oh_md := halg; oh_data := []; oh_ok := true |} (l ++ UBuf b :: l') = Ret h' /\ oh_ok h' = false).
  { rewrite updates_app. destruct (ossl_updates_return c lib l {| oh_md := halg; oh_data := []; oh_ok := true |}) as (h1 & E). rewrite E.
    pose proof (ossl_updates_fault c lib halg l [] h1 E) as [->|[O _]].
    - cbn [app update_all cr_hash_update openssl]. unfold ossl_hash_update at 1. cbn [oh_ok oh_md oh_data].
      unfold all_data in R. rewrite R. eexists. split; [|shelve]. apply ossl_failed_stays. reflexivity.
      Unshelve. reflexivity.
    - rewrite (ossl_failed_stays c lib h1 O). eauto. }
  destruct X as (h' & -> & F). cbn [cr_hash_finish openssl]. unfold ossl_hash_finish. rewrite F. reflexivity.
Qed.

Lemma psa_failed_stays c lib h : ph_status h <> 0%Z -> forall pieces, update_all (psa_crypto c lib) h pieces = Ret h.
Proof.
  intros F pieces. induction pieces as [|u r IH]; cbn [update_all]; [reflexivity|].
  cbn [cr_hash_update psa_crypto]. unfold psa_update at 1, PSA_SUCCESS.
  destruct (Z.eqb_spec (ph_status h) 0); [contradiction|]. cbn [negb lret snd]. exact IH.
Qed.

(** The first piece refused decides. *)
Theorem psa_refused c lib halg a l b l' room h : cr_hash_start (psa_crypto c lib) halg = (T_SUCCESS, h) ->
  psa_hash_of c halg a ->
  (forall x d y, l = x ++ UBuf d :: y -> psa_hash_update lib a (all_data x) d = 0%Z) ->
  psa_hash_update lib a (all_data l) b <> 0%Z ->
  exists e, hash_all (psa_crypto c lib) halg (l ++ UBuf b :: l') room = Ret (e, []) /\
            hash_status_means (psa_hash_update lib a (all_data l) b) e.
Proof.
  intros S A F R. unfold hash_all. rewrite S. apply psa_start_ok in S as ->.
  assert (EA : cose_hash_alg_id_to_psa c halg = a).
  { destruct (psa_hash_of_spec c halg) as [[O E]|[O E]], A as [[O' E']|[O' E']]; congruence || contradiction. }
  rewrite EA, updates_app.
  assert (U : update_all (psa_crypto c lib) {| ph_alg := a; ph_data := []; ph_status := 0%Z |} l =
              Ret {| ph_alg := a; ph_data := all_data l; ph_status := 0%Z |}).
  { assert (G : forall r d0, l = d0 ++ r ->
      update_all (psa_crypto c lib) {| ph_alg := a; ph_data := all_data d0; ph_status := 0%Z |} r =
      Ret {| ph_alg := a; ph_data := all_data l; ph_status := 0%Z |}); [|exact (G l [] eq_refl)].
    induction r as [|[n|d] r IH]; intros d0 E; cbn [update_all].
    - rewrite app_nil_r in E. now subst d0.
    - rewrite psa_null_update. specialize (IH (d0 ++ [UNull n])). unfold all_data in IH. rewrite flat_map_app in IH.
      cbn [flat_map u_data app] in IH. rewrite app_nil_r, <- app_assoc in IH. apply IH. exact E.
    - cbn [cr_hash_update psa_crypto]. unfold psa_update at 1, PSA_SUCCESS. cbn [ph_status ph_alg ph_data].
      rewrite (F _ _ _ E). change (0 =? 0)%Z with true. cbn [negb lret snd].
      specialize (IH (d0 ++ [UBuf d])). unfold all_data in *. rewrite flat_map_app in IH.
      cbn [flat_map u_data app] in IH. rewrite app_nil_r, <- app_assoc in IH. apply IH. exact E. }
  rewrite U. cbn [update_all cr_hash_update psa_crypto]. unfold psa_update at 1, PSA_SUCCESS. cbn [ph_status ph_alg ph_data].
  change (0 =? 0)%Z with true. cbn [negb].
  destruct (Z.eqb_spec (psa_hash_update lib a (all_data l) b) 0) as [|N]; [contradiction|]. cbn [snd].
  rewrite psa_failed_stays by exact N.
  cbn [cr_hash_finish psa_crypto]. unfold psa_finish, PSA_SUCCESS. cbn [ph_status].
  destruct (Z.eqb_spec (psa_hash_update lib a (all_data l) b) 0) as [|_]; [contradiction|]. cbn [negb lret snd].
  eexists. split; [reflexivity|]. apply psa_hash_status_means. intro X. apply N, psa_hash_status_ok, X.
Qed.

(** ** The buffer for the digest *)
Theorem ossl_in_room c lib halg pieces room d : hash_all (openssl c lib) halg pieces room = Ret (T_SUCCESS, d) -> blen d <= room.
Proof.
  unfold hash_all. destruct (cr_hash_start _ halg) as [e h]. destruct e; try discriminate.
  destruct (update_all _ h pieces) as [h'|]; [|discriminate]. cbn [cr_hash_finish openssl]. unfold ossl_hash_finish.
  destruct (negb _); [discriminate|]. destruct (md_final _ _ _) as [x|]; [|discriminate].
  unfold stored. destruct (N.ltb_spec room (blen x)); cbn; [discriminate|]. intro H'. injection H' as <-. assumption.
Qed.
Theorem psa_in_room c lib halg pieces room d : hash_all (psa_crypto c lib) halg pieces room = Ret (T_SUCCESS, d) -> blen d <= room.
Proof.
  unfold hash_all. destruct (cr_hash_start _ halg) as [e h]. destruct e; try discriminate.
  destruct (update_all _ h pieces) as [h'|]; [|discriminate]. cbn [cr_hash_finish psa_crypto]. unfold psa_finish, PSA_SUCCESS.
  destruct (Z.eqb_spec (ph_status h') 0) as [|N]; cbn [negb].
  - destruct (psa_hash_finish _ _ _ room) as [st x]. destruct (N.ltb_spec room (blen x)); [discriminate|].
    destruct (st =? 0)%Z; cbn [snd]; intro X; injection X as _ <-; assumption.
  - intro X. cbn [lret snd] in X. injection X as _ <-. change (blen []) with 0. lia.
Qed.

Theorem psa_too_small c lib halg a pieces room h : psa_takes lib ->
  cr_hash_start (psa_crypto c lib) halg = (T_SUCCESS, h) -> psa_hash_of c halg a ->
  psa_hash_finish lib a (all_data pieces) room = ((-138)%Z, []) ->
  hash_all (psa_crypto c lib) halg pieces room = Ret (ERR_HASH_BUFFER_SIZE, []).
Proof.
  intros T S A F. unfold hash_all. rewrite S. apply psa_start_ok in S as ->.
  assert (EA : cose_hash_alg_id_to_psa c halg = a).
  { destruct (psa_hash_of_spec c halg) as [[O E]|[O E]], A as [[O' E']|[O' E']]; congruence || contradiction. }
  rewrite EA, (psa_taken c lib T). cbn [app cr_hash_finish psa_crypto]. unfold psa_finish. cbn [ph_status ph_alg ph_data].
  change (negb (0 =? PSA_SUCCESS)%Z) with false. cbv iota. rewrite F. change (blen []) with 0.
  destruct (N.ltb_spec room 0); [lia|reflexivity].
Qed.

Theorem ossl_too_small c lib halg pieces room h d : ossl_takes lib ->
  cr_hash_start (openssl c lib) halg = (T_SUCCESS, h) -> md_final lib halg (all_data pieces) = Some d -> room < blen d ->
  hash_all (openssl c lib) halg pieces room = UB OOBWrite.
Proof.
  intros T S F R. unfold hash_all. rewrite S. apply ossl_start_ok in S as [-> _]. rewrite (ossl_taken c lib T).
  cbn [app cr_hash_finish openssl]. unfold ossl_hash_finish. cbn [oh_ok oh_md oh_data negb]. rewrite F.
  unfold stored. destruct (N.ltb_spec room (blen d)); [reflexivity|lia].
Qed.

Theorem test_too_small junk c pieces room : length junk = 64%nat -> sha_takes pieces -> room < 32 ->
  exists w, hash_all (test_crypto true junk c) (-16) pieces room = UB w.
Proof.
  intros J T R. unfold hash_all. destruct (cr_hash_start (test_crypto true junk c) (-16)) as [e h] eqn:S.
  cbn in S. injection S as <- <-.
  destruct (test_taken junk c pieces T _ [] (init_absorbed junk J)) as (h' & E & A). rewrite E.
  cbn [cr_hash_finish test_crypto]. unfold test_hash_finish.
  destruct (sha256_final true h' (repeat x00 (N.to_nat room))) as [x|w] eqn:X; [|exists w; reflexivity].
  apply final_room in X. rewrite repeat_length in X. lia.
Qed.
