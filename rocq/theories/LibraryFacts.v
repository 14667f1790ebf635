(** Success of the adapters means success of every library call. *)
From Verif Require Import Base Const QEnc QDec Crypto Util ShortCircuit Params Sign Verify Spec SignSpec.
From Verif Require Import BaseFacts UtilFacts SignFacts SignProofs SignMore VerifyTop VerifyMore VerifyMore2.
From Verif Require Import Algs OpenSSL Psa AdapterSpec OpenSSLFacts OpenSSLFacts2 AdapterFacts PsaFacts SupportFacts LibrarySpec VerifySpec.
From Coq Require Import Lia ZifyBool ZifyNat ZifyN.
Ltac Zify.zify_post_hook ::= Z.div_mod_to_equations.
Open Scope N_scope. Open Scope list_scope.

Lemma holds_data u b : holds u b -> u_data u = b.
Proof. now intros [->|[-> ->]]. Qed.

(** ** Hashing *)

Section OpenSSL.
Context (c : cfg) (lib : ossl).
Let cr := openssl c lib.

Lemma fed_stuck (h : ohash) data h' : fed cr h data h' -> oh_ok h = false -> oh_ok h' = false.
Proof.
  induction 1 as [h|h u b h1 data h2 _ Up _ IH]; intro O; [exact O|]. apply IH.
  cbn [cr cr_hash_update openssl] in Up. unfold ossl_hash_update in Up. rewrite O in Up. now injection Up as <-.
Qed.

Lemma fed_taken (h : ohash) data h' : fed cr h data h' -> oh_ok h = true -> oh_ok h' = true ->
  oh_md h' = oh_md h /\ oh_data h' = oh_data h ++ data /\
  exists pieces, concat pieces = data /\ taken (fun before b => md_update lib (oh_md h) before b = true) (oh_data h) pieces.
Proof.
  induction 1 as [h|h u b h1 data h2 Hu Up F IH]; intros O O'.
  - rewrite app_nil_r. split; [reflexivity|]. split; [reflexivity|]. exists []. split; [reflexivity|exact I].
  - cbn [cr cr_hash_update openssl] in Up. unfold ossl_hash_update in Up. rewrite O in Up. injection Up as E.
    assert (O1 : oh_ok h1 = true) by (destruct (oh_ok h1) eqn:X; [reflexivity|]; rewrite (fed_stuck _ _ _ F X) in O'; discriminate).
    destruct (IH O1 O') as (M & D & ps & C & T).
    destruct u as [n|x].
    + subst h1. destruct Hu as [Hu|[_ ->]]; [discriminate|]. cbn [app]. split; [exact M|]. split; [exact D|]. eauto.
    + apply holds_data in Hu. cbn [u_data] in Hu. subst x. subst h1. cbn [oh_md oh_data oh_ok] in *.
      split; [exact M|]. split; [rewrite D; symmetry; apply app_assoc|]. exists (b :: ps). cbn [concat taken]. rewrite C. auto.
Qed.

Theorem ossl_digest_hashed halg data d : digest_of cr halg data d -> ossl_hashed lib halg data d.
Proof.
  intros (h & h' & n & S & F & Fi). cbn [cr cr_hash_start openssl] in S. unfold ossl_hash_start in S.
  match type of S with context [if ?b then _ else _] => destruct b end; [|discriminate].
  destruct (md_known lib halg) eqn:K; cbn [negb lret snd] in S; [|discriminate].
  destruct (md_new lib) eqn:N; cbn [negb lret snd lbind alloc] in S; [|discriminate].
  destruct (md_init lib halg) eqn:I; cbn [negb lret snd lbind free] in S; [|discriminate]. injection S as <-.
  cbn [cr cr_hash_finish openssl] in Fi. unfold ossl_hash_finish in Fi.
  destruct (oh_ok h') eqn:O; cbn [negb] in Fi; [|discriminate].
  destruct (fed_taken _ _ _ F eq_refl O) as (M & D & T). cbn [oh_md oh_data app] in M, D, T.
  rewrite M, D in Fi. destruct (md_final lib halg data) as [x|] eqn:X; [|discriminate].
  unfold stored in Fi. destruct (n <? blen x); cbn [lbind lret lub free snd] in Fi; [discriminate|]. injection Fi as <-.
  repeat split; auto.
Qed.

(** ** Signatures *)

Lemma set_param_inv x p x' : set_param lib x p = Some x' ->
  ctx_set lib x p = true /\ x' = {| px_key := px_key x; px_verify := px_verify x; px_params := px_params x ++ [p] |}.
Proof. unfold set_param. destruct (ctx_set lib x p); [|discriminate]. intro H. injection H as <-. auto. Qed.

Lemma configure_taken x alg x' : pss_enabled c alg -> configure_pkey_context c lib x alg = (T_SUCCESS, x') ->
  settings_taken lib x (pss_settings alg).
Proof.
  intros P H. unfold configure_pkey_context in H.
  destruct (t_cose_algorithm_is_ecdsa c alg) eqn:E; [apply is_ecdsa_spec in E; destruct (not_both _ _ E P)|].
  rewrite (proj2 (is_pss_spec c alg) P) in H.
  assert (X : (if (alg =? PS256)%Z then Some SHA_256 else if (alg =? PS384)%Z then Some SHA_384
               else if (alg =? PS512)%Z then Some SHA_512 else None) = Some (pss_hash alg)).
  { destruct P as [[-> _]|[[-> _]|[-> _]]]; reflexivity. }
  rewrite X in H. clear X.
  destruct (set_param lib x PadPSS) as [x1|] eqn:S1; [|discriminate].
  destruct (set_param lib x1 _) as [x2|] eqn:S2; [|discriminate].
  destruct (set_param lib x2 _) as [x3|] eqn:S3; [|discriminate].
  destruct (set_param lib x3 _) as [x4|] eqn:S4; [|discriminate].
  apply set_param_inv in S1 as [A1 E1]. apply set_param_inv in S2 as [A2 E2].
  apply set_param_inv in S3 as [A3 E3]. apply set_param_inv in S4 as [A4 E4].
  subst x1. subst x2. subst x3. cbn [px_key px_verify px_params] in *. cbn [settings_taken pss_settings px_key px_verify px_params]. auto.
Qed.

Lemma sign_context alg k hash room sig : snd (ossl_sign c lib alg k hash room) = Ret (T_SUCCESS, sig) ->
  (ecdsa_enabled c alg -> context_made lib (k_handle k) false []) /\
  (pss_enabled c alg -> context_made lib (k_handle k) false (pss_settings alg)).
Proof.
  unfold ossl_sign. destruct (negb _ && negb _)%bool; [discriminate|].
  destruct (terr_eqb (key_convert k) T_SUCCESS) eqn:K; cbn [negb];
    [|cbn [lret snd]; intro H; exfalso; injection H as H _; rewrite H in K; discriminate].
  destruct (ctx_new lib (k_handle k)) eqn:N; cbn [negb]; [|discriminate]. cbn [lbind alloc].
  destruct (ctx_init lib _) eqn:I; cbn [negb]; [|discriminate].
  intro H. split; intro E; (split; [exact N|split; [exact I|]]); [exact Logic.I|].
  destruct (configure_pkey_context c lib _ alg) as [err x] eqn:C.
  destruct (terr_eqb err T_SUCCESS) eqn:Er; cbn [negb] in H;
    [|cbn [free lbind lret snd] in H; exfalso; injection H as H _; rewrite H in Er; discriminate].
  apply terr_eqb_success in Er. subst err. exact (configure_taken _ _ _ E C).
Qed.

Theorem ossl_sign_signed alg k hash room sig : sign_library lib ->
  cr_sign cr alg k hash room = Ret (T_SUCCESS, sig) -> ossl_signed c lib alg k hash sig.
Proof.
  intros SL H. cbn [cr cr_sign openssl] in H. destruct (sign_context _ _ _ _ _ H) as [CE CP].
  destruct (ossl_sign_result _ _ _ _ _ _ _ SL H) as (K & [(E & der & r & s & A & B & C & _)|(P & A)]).
  - split; [exact K|]. left. split; [exact E|]. split; [auto|]. exists (der_buffer_size c), der, r, s. auto.
  - split; [exact K|]. right. split; [exact P|]. split; [auto|]. eauto.
Qed.

Theorem ossl_sign_eddsa_signed k tbs room sig :
  cr_sign_eddsa cr k tbs room = Ret (T_SUCCESS, sig) -> ossl_signed_eddsa lib k tbs sig.
Proof.
  cbn [cr cr_sign_eddsa openssl]. unfold ossl_sign_eddsa.
  destruct (terr_eqb (key_convert k) T_SUCCESS) eqn:K; cbn [negb];
    [|cbn [lret snd]; intro H; exfalso; injection H as H _; rewrite H in K; discriminate].
  apply terr_eqb_success, key_convert_spec in K.
  destruct (md_new lib) eqn:N; cbn [negb]; [|discriminate]. cbn [lbind alloc].
  destruct (dsign_init lib (k_handle k)) eqn:I; cbn [negb]; [|discriminate].
  destruct (dsign lib (k_handle k) tbs room) as [b|] eqn:D; [|discriminate].
  unfold stored. destruct (room <? blen b); [discriminate|]. cbn [lbind lret free snd app]. intro H. injection H as <-.
  repeat split; try assumption; try apply K. eauto.
Qed.

Theorem ossl_verify_verified alg k kid hash sig :
  cr_verify cr alg k kid hash sig = Ret T_SUCCESS -> ossl_verified c lib alg k hash sig.
Proof.
  cbn [cr cr_verify openssl]. intro H. destruct (ossl_verify_sound _ _ _ _ _ _ _ H) as (K & A).
  split; [exact K|]. split; [exact A|]. revert H. unfold ossl_verify. destruct (negb _ && negb _)%bool; [discriminate|].
  rewrite (proj2 (key_convert_spec k) K). cbn [terr_eqb negb].
  match goal with |- context [lbind ?x _] => destruct x as [l [[err s]|w]] eqn:Cv end; cbn [lbind snd]; [|discriminate].
  destruct (terr_eqb err T_SUCCESS) eqn:Er; cbn [negb];
    [|cbn [lret snd]; intro H; exfalso; injection H as H; rewrite H in Er; discriminate].
  destruct (ctx_new lib (k_handle k)) eqn:N; cbn [negb]; [|discriminate]. cbn [lbind alloc].
  destruct (ctx_init lib _) eqn:I; cbn [negb]; [|discriminate].
  destruct (configure_pkey_context c lib _ alg) as [err2 x] eqn:C.
  destruct (terr_eqb err2 T_SUCCESS) eqn:Er2; cbn [negb];
    [|cbn [free lbind lret snd app]; intro H; exfalso; injection H as H; rewrite H in Er2; discriminate].
  apply terr_eqb_success in Er2. subst err2. intros _. split; [exact N|]. split; [exact I|].
  destruct A as [[E _]|[P _]].
  - replace (_ || _) with false; [exact Logic.I|]. destruct E as [->|[[-> _]|[-> _]]]; reflexivity.
  - replace (_ || _) with true; [exact (configure_taken _ _ _ P C)|]. destruct P as [[-> _]|[[-> _]|[-> _]]]; reflexivity.
Qed.

Theorem ossl_verify_eddsa_verified k kid tbs sig :
  cr_verify_eddsa cr k kid tbs sig = Ret T_SUCCESS -> ossl_verified_eddsa lib k tbs sig.
Proof.
  cbn [cr cr_verify_eddsa openssl]. unfold ossl_verify_eddsa.
  destruct (terr_eqb (key_convert k) T_SUCCESS) eqn:K; cbn [negb];
    [|cbn [lret snd]; intro H; exfalso; injection H as H; rewrite H in K; discriminate].
  apply terr_eqb_success, key_convert_spec in K.
  destruct (md_new lib) eqn:N; cbn [negb]; [|discriminate]. cbn [lbind alloc free lret snd app].
  destruct (dverify_init lib (k_handle k)) eqn:I; cbn [negb]; [|discriminate].
  destruct (Z.eqb_spec (dverify lib (k_handle k) sig tbs) 0); [discriminate|].
  destruct (Z.eqb_spec (dverify lib (k_handle k) sig tbs) 1) as [D|]; [|discriminate]. intros _.
  repeat split; try assumption; apply K.
Qed.
End OpenSSL.

Section PSA.
Context (c : cfg) (lib : psa).
Let cr := psa_crypto c lib.

Lemma psa_fed_stuck (h : phash) data h' : fed cr h data h' -> ph_status h <> 0%Z -> h' = h.
Proof.
  induction 1 as [h|h u b h1 data h2 _ Up _ IH]; intro O; [reflexivity|].
  cbn [cr cr_hash_update psa_crypto] in Up. unfold psa_update in Up.
  replace (ph_status h =? PSA_SUCCESS)%Z with false in Up by (symmetry; apply Z.eqb_neq; exact O). injection Up as <-. auto.
Qed.

Lemma psa_fed_taken (h : phash) data h' : fed cr h data h' -> ph_status h' = 0%Z ->
  ph_status h = 0%Z /\ ph_alg h' = ph_alg h /\ ph_data h' = ph_data h ++ data /\
  exists pieces, concat pieces = data /\ taken (fun before b => psa_hash_update lib (ph_alg h) before b = 0%Z) (ph_data h) pieces.
Proof.
  induction 1 as [h|h u b h1 data h2 Hu Up F IH]; intro O'.
  - rewrite app_nil_r. repeat split; auto. exists []. split; [reflexivity|exact I].
  - destruct (IH O') as (O1 & M & D & ps & C & T).
    cbn [cr cr_hash_update psa_crypto] in Up. unfold psa_update in Up.
    destruct (Z.eqb_spec (ph_status h) PSA_SUCCESS) as [O|O]; cbn [negb] in Up; [|injection Up as <-; contradiction].
    split; [exact O|]. destruct u as [n|x].
    + injection Up as <-. destruct Hu as [Hu|[_ ->]]; [discriminate|]. cbn [app]. repeat split; eauto.
    + apply holds_data in Hu. cbn [u_data] in Hu. subst x.
      assert (E : h1 = {| ph_alg := ph_alg h; ph_data := ph_data h ++ b; ph_status := psa_hash_update lib (ph_alg h) (ph_data h) b |})
        by (destruct (_ =? PSA_SUCCESS)%Z; cbn [lret snd] in Up; now injection Up as <-).
      subst h1. cbn [ph_alg ph_data ph_status] in *. split; [exact M|].
      split; [rewrite D; symmetry; apply app_assoc|]. exists (b :: ps). cbn [concat taken]. rewrite C. auto.
Qed.

Theorem psa_digest_hashed halg data d : hash_used c halg -> digest_of cr halg data d -> psa_hashed lib halg data d.
Proof.
  intros (alg & En & Hf) (h & h' & n & S & F & Fi).
  cbn [cr cr_hash_finish psa_crypto] in Fi. unfold psa_finish in Fi.
  destruct (Z.eqb_spec (ph_status h') PSA_SUCCESS) as [O|O]; cbn [negb] in Fi.
  2:{ cbn [lret snd] in Fi. injection Fi as Fi _. apply psa_hash_status_ok in Fi. contradiction. }
  destruct (psa_fed_taken _ _ _ F O) as (O1 & M & D & T).
  assert (Al : cose_hash_alg_id_to_psa c halg = PHash halg).
  { clear - En Hf. assert (U : hash_used c halg) by (exists alg; auto). apply hash_used_spec in U.
    unfold cose_hash_alg_id_to_psa, SHA_256, SHA_384, SHA_512.
    destruct U as [->|[[-> [E|E]]|[-> [E|E]]]]; rewrite ?E; cbn; rewrite ?orb_true_r, ?andb_false_r; reflexivity. }
  cbn [cr cr_hash_start psa_crypto] in S. unfold psa_start in S. rewrite Al in S.
  destruct (Z.eqb_spec (psa_hash_setup lib (PHash halg)) PSA_SUCCESS) as [St|St]; cbn [lret snd] in S.
  2:{ injection S as S _. apply psa_hash_status_ok in S. contradiction. }
  injection S as _ <-. cbn [ph_alg ph_data ph_status app] in *. split; [exact St|]. split; [exact T|].
  rewrite M, D in Fi. exists n. destruct (psa_hash_finish lib (PHash halg) data n) as [st x].
  destruct (n <? blen x); cbn [lub snd] in Fi; [discriminate|].
  destruct (Z.eqb_spec st PSA_SUCCESS) as [Z|Z]; cbn [snd] in Fi; injection Fi as Fi <-; [now rewrite Z|].
  apply psa_hash_status_ok in Fi. contradiction.
Qed.
End PSA.

(** ** Messages *)

Theorem ossl_signature_made c lib q tbs room sig : sign_library lib ->
  signature_of (openssl c lib) q tbs room sig -> ossl_made c lib q tbs sig.
Proof.
  intros SL. unfold signature_of, ossl_made. destruct (wants_short_circuit (q_flags q)).
  - intros (halg & d & A & B & C). exists halg, d. split; [exact A|]. split; [exact (ossl_digest_hashed _ _ _ _ _ B)|exact C].
  - destruct (q_alg q =? -8)%Z; [apply ossl_sign_eddsa_signed|].
    intros (halg & d & A & B & C). exists halg, d. split; [exact A|]. split; [exact (ossl_digest_hashed _ _ _ _ _ B)|].
    exact (ossl_sign_signed _ _ _ _ _ _ _ SL C).
Qed.

Theorem psa_signature_made c lib q tbs room sig : psa_within_room lib -> enabled c (q_alg q) ->
  signature_of (psa_crypto c lib) q tbs room sig -> psa_made c lib q tbs sig.
Proof.
  intros W En. unfold signature_of, psa_made. destruct (wants_short_circuit (q_flags q)).
  - intros (halg & d & A & B & C). exists halg, d. split; [exact A|]. split; [apply (psa_digest_hashed c); [exists (q_alg q); auto|exact B]|exact C].
  - destruct (q_alg q =? -8)%Z; [discriminate|].
    intros (halg & d & A & B & C). exists halg, d, room. split; [exact A|].
    split; [apply (psa_digest_hashed c); [exists (q_alg q); auto|exact B]|]. apply psa_sign_iff in C; auto.
Qed.

Theorem ossl_sign_made c lib q me det payload aad pl ad n log me' r : sign_library lib ->
  configured q me -> holds payload pl -> holds aad ad ->
  sign_aad_internal c (openssl c lib) me det payload aad {| wb_null := false; wb_len := n |} = (log, Ret (T_SUCCESS, me', r)) ->
  exists sig, r = Some (UBuf (requested_message c q (if det then None else Some pl) sig)) /\
    ossl_made c lib q (requested_tbs q ad pl) sig.
Proof.
  intros SL C P A H. destruct (sign_success_spec _ _ _ _ _ _ _ _ _ _ _ _ _ C P A H) as (sig & room & E & _ & _ & S & _).
  exists sig. split; [exact E|]. exact (ossl_signature_made _ _ _ _ _ _ SL S).
Qed.

Theorem psa_sign_made c lib q me det payload aad pl ad n log me' r : psa_within_room lib ->
  configured q me -> holds payload pl -> holds aad ad ->
  sign_aad_internal c (psa_crypto c lib) me det payload aad {| wb_null := false; wb_len := n |} = (log, Ret (T_SUCCESS, me', r)) ->
  exists sig, r = Some (UBuf (requested_message c q (if det then None else Some pl) sig)) /\
    psa_made c lib q (requested_tbs q ad pl) sig.
Proof.
  intros SL C P A H. destruct (sign_success_spec _ _ _ _ _ _ _ _ _ _ _ _ _ C P A H) as (sig & room & E & _ & _ & S & En).
  exists sig. split; [exact E|]. exact (psa_signature_made _ _ _ _ _ _ SL En S).
Qed.

Theorem ossl_verify_asked c lib junk me msg aad payload want dc log w ad gv :
  length (v_tags me) = 4%nat -> holds aad ad -> detached_arg dc payload gv ->
  verify_internal c (openssl c lib) junk me msg aad payload want dc = (log, Ret w) -> w_err w = T_SUCCESS ->
  decode_only (v_flags me) = false ->
  exists g pm p pl, message msg g pm /\ acceptable c (v_flags me) dc gv g pm p pl /\ delivered me payload want dc p pl w /\
  let tbs := sig_structure (g_prot g) ad pl in
  if short_circuit_kid c p then
    allows_short_circuit (v_flags me) = true /\
    exists halg d rest, hash_for (p_alg p) = Some halg /\ ossl_hashed lib halg tbs d /\ g_sig g = d ++ rest
  else if uses_eddsa c p then ossl_verified_eddsa lib (v_key me) tbs (g_sig g)
  else exists halg d, hash_for (p_alg p) = Some halg /\ ossl_hashed lib halg tbs d /\
    ossl_verified c lib (p_alg p) (v_key me) d (g_sig g).
Proof.
  intros Hv HA HG H Hw Dn.
  destruct (verify_asked _ _ _ _ _ _ _ _ _ _ _ _ _ Hv HA HG H Hw Dn) as (g & pm & p & pl & M & Ac & De & X).
  exists g, pm, p, pl. split; [exact M|]. split; [exact Ac|]. split; [exact De|]. cbv zeta in *.
  destruct (short_circuit_kid c p).
  - destruct X as (A & _ & halg & d & rest & B & _ & C & D). split; [exact A|]. exists halg, d, rest. split; [exact B|].
    split; [exact (ossl_digest_hashed _ _ _ _ _ C)|exact D].
  - destruct (uses_eddsa c p); [destruct X as (_ & X); exact (ossl_verify_eddsa_verified _ _ _ _ _ _ X)|].
    destruct X as (_ & halg & d & B & _ & C & _ & D). exists halg, d. split; [exact B|].
    split; [exact (ossl_digest_hashed _ _ _ _ _ C)|exact (ossl_verify_verified _ _ _ _ _ _ _ D)].
Qed.

Theorem psa_verify_asked c lib junk me msg aad payload want dc log w ad gv :
  length (v_tags me) = 4%nat -> holds aad ad -> detached_arg dc payload gv ->
  verify_internal c (psa_crypto c lib) junk me msg aad payload want dc = (log, Ret w) -> w_err w = T_SUCCESS ->
  decode_only (v_flags me) = false ->
  exists g pm p pl halg d, message msg g pm /\ acceptable c (v_flags me) dc gv g pm p pl /\ delivered me payload want dc p pl w /\
  hash_for (p_alg p) = Some halg /\ psa_hashed lib halg (sig_structure (g_prot g) ad pl) d /\
  if short_circuit_kid c p then allows_short_circuit (v_flags me) = true /\ exists rest, g_sig g = d ++ rest
  else psa_accepts c lib (p_alg p) (v_key me) d (g_sig g).
Proof.
  intros Hv HA HG H Hw Dn.
  destruct (verify_asked _ _ _ _ _ _ _ _ _ _ _ _ _ Hv HA HG H Hw Dn) as (g & pm & p & pl & M & Ac & De & X).
  cbv zeta in X. destruct (short_circuit_kid c p) eqn:S.
  - destruct X as (A & _ & halg & d & rest & B & En & C & D). exists g, pm, p, pl, halg, d. rewrite S.
    split; [exact M|]. split; [exact Ac|]. split; [exact De|]. split; [exact B|].
    split; [apply (psa_digest_hashed c); [exists (p_alg p); auto|exact C]|]. split; [exact A|eauto].
  - destruct (uses_eddsa c p); [destruct X as (_ & X); discriminate|].
    destruct X as (_ & halg & d & B & En & C & _ & D). exists g, pm, p, pl, halg, d. rewrite S.
    split; [exact M|]. split; [exact Ac|]. split; [exact De|]. split; [exact B|].
    split; [apply (psa_digest_hashed c); [exists (p_alg p); auto|exact C]|].
    cbn [cr_verify psa_crypto] in D. injection D as D. now apply psa_verify_iff in D.
Qed.
