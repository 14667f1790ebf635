(** The error codes of the crypto adapters name what went wrong. *)
From Verif Require Import Base Const QEnc Crypto Algs OpenSSL Psa Sign Verify BaseFacts Spec SignSpec AdapterSpec LibrarySpec FaultSpec OpenSSLFacts OpenSSLFacts2 AdapterFacts PsaFacts AdapterTop PassSpec PassFacts SignErrorSpec SignErrorFacts.
From Coq Require Import Lia ZifyBool ZifyNat ZifyN.
Ltac Zify.zify_post_hook ::= Z.div_mod_to_equations.
Open Scope N_scope. Open Scope list_scope. Open Scope lmon_scope.

Lemma key_convert_fault k : key_convert k <> T_SUCCESS -> key_fault k (key_convert k).
Proof.
  unfold key_convert, key_fault. destruct (N.eqb_spec (k_lib k) 1); cbn [negb]; [|auto].
  destruct (N.eqb_spec (k_handle k) 0); [auto|congruence].
Qed.

Lemma is_ecdsa_false c alg : t_cose_algorithm_is_ecdsa c alg = false -> ~ ecdsa_enabled c alg.
Proof. intros H E. apply is_ecdsa_spec in E. congruence. Qed.
Lemma is_pss_false c alg : t_cose_algorithm_is_rsassa_pss c alg = false -> ~ pss_enabled c alg.
Proof. intros H E. apply is_pss_spec in E. congruence. Qed.

(** The settings a context takes. *)
Lemma configure_fault c lib key verify alg e x :
  pss_enabled c alg -> ctx_init lib {| px_key := key; px_verify := verify; px_params := [] |} = true ->
  configure_pkey_context c lib {| px_key := key; px_verify := verify; px_params := [] |} alg = (e, x) -> e <> T_SUCCESS ->
  setup_fault c lib alg key verify e.
Proof.
  intros P _ H N. revert H. unfold configure_pkey_context.
  destruct (t_cose_algorithm_is_ecdsa c alg) eqn:E; [apply is_ecdsa_spec in E; destruct (not_both _ _ E P)|].
  rewrite (proj2 (is_pss_spec c alg) P).
  assert (M : (if (alg =? PS256)%Z then Some SHA_256 else if (alg =? PS384)%Z then Some SHA_384 else if (alg =? PS512)%Z then Some SHA_512 else None)
              = Some (pss_hash alg)).
  { destruct P as [[-> _]|[[-> _]|[-> _]]]; reflexivity. }
  rewrite M. unfold set_param. cbn [px_key px_verify px_params app]. unfold setup_fault.
  destruct (ctx_set lib _ PadPSS) eqn:E1.
  2: { intro H. injection H as <- <-. split; [reflexivity|]. right. split; [exact P|]. exists [], PadPSS. eexists. split; [reflexivity|exact E1]. }
  cbn [px_key px_verify px_params app].
  destruct (ctx_set lib _ (SigMd (pss_hash alg))) eqn:E2.
  2: { intro H. injection H as <- <-. split; [reflexivity|]. right. split; [exact P|]. exists [PadPSS], (SigMd (pss_hash alg)). eexists. split; [reflexivity|exact E2]. }
  cbn [px_key px_verify px_params app].
  destruct (ctx_set lib _ (Mgf1Md (pss_hash alg))) eqn:E3.
  2: { intro H. injection H as <- <-. split; [reflexivity|]. right. split; [exact P|]. exists [PadPSS; SigMd (pss_hash alg)], (Mgf1Md (pss_hash alg)). eexists. split; [reflexivity|exact E3]. }
  cbn [px_key px_verify px_params app].
  destruct (ctx_set lib _ SaltlenDigest) eqn:E4.
  2: { intro H. injection H as <- <-. split; [reflexivity|]. right. split; [exact P|]. exists [PadPSS; SigMd (pss_hash alg); Mgf1Md (pss_hash alg)], SaltlenDigest. eexists. split; [reflexivity|exact E4]. }
  congruence.
Qed.

(** The context as far as it gets. *)
Lemma setup_cases c lib key verify alg (A : ecdsa_enabled c alg \/ pss_enabled c alg) e x :
  ctx_init lib {| px_key := key; px_verify := verify; px_params := [] |} = true ->
  configure_pkey_context c lib {| px_key := key; px_verify := verify; px_params := [] |} alg = (e, x) ->
  (e = T_SUCCESS /\ exists l, settings c alg l /\ x = {| px_key := key; px_verify := verify; px_params := l |}) \/
  (e <> T_SUCCESS /\ setup_fault c lib alg key verify e).
Proof.
  intros I H. destruct A as [E|P].
  - rewrite configure_ecdsa in H by exact E. injection H as <- <-. left. split; [reflexivity|]. exists []. split; [left; auto|reflexivity].
  - destruct (terr_eqb e T_SUCCESS) eqn:T.
    + apply terr_eqb_success in T. subst e. left. split; [reflexivity|]. exists (pss_settings alg). split; [right; auto|].
      apply (configure_pss c lib _ alg x P) in H. exact H.
    + assert (N : e <> T_SUCCESS) by (intro X; apply terr_eqb_success in X; congruence).
      right. split; [exact N|]. exact (configure_fault _ _ _ _ _ _ _ P I H N).
Qed.

Lemma cose_to_der_fault c lib key sig log e der :
  ecdsa_signature_cose_to_der lib key sig (der_buffer_size c) = (log, Ret (e, der)) ->
  (e = T_SUCCESS /\ exists r s, let len := coordinate_length (ev_bits lib key) in
     r < 256 ^ len /\ s < 256 ^ len /\ sig = cose_signature len r s /\ i2d_sig lib r s = Some der) \/
  (e <> T_SUCCESS /\ convert_fault c lib key sig e).
Proof.
  unfold convert_fault. set (len := coordinate_length (ev_bits lib key)).
  assert (K : ecdsa_key_size lib key = len) by apply key_size_spec.
  destruct (N.eq_dec (blen sig) (2 * len)) as [L|L].
  2: { rewrite cose_to_der_length by (rewrite K; exact L). intro H. injection H as <- <- <-. right. split; [discriminate|]. left. auto. }
  destruct (cose_signature_onto _ _ L) as (r & s & Hr & Hs & ->).
  unfold ecdsa_signature_cose_to_der. rewrite K.
  destruct (cose_halves len r s) as (E1 & E2 & E3). rewrite E1, E2, E3, N.eqb_refl. cbn [negb].
  rewrite !bin2bn_big_endian by (rewrite N2Nat.id; assumption).
  intro H.
  destruct (bn_ok lib true _) eqn:M1; cbn [negb] in H.
  2: { injection H as <- <- <-. right. split; [discriminate|]. right. exists r, s. auto 8. }
  destruct (bn_ok lib false _) eqn:M2; cbn [negb lbind alloc free lret app] in H.
  2: { injection H as <- <- <-. right. split; [discriminate|]. right. exists r, s. auto 8. }
  destruct (sig_new lib) eqn:M3; cbn [negb lbind alloc free lret app] in H.
  2: { injection H as <- <- <-. right. split; [discriminate|]. right. exists r, s. auto 8. }
  destruct (sig_set0 lib r s) eqn:M4; cbn [negb lbind alloc free lret app] in H.
  2: { injection H as <- <- <-. right. split; [discriminate|]. right. exists r, s. auto 9. }
  destruct (i2d_sig lib r s) as [d|] eqn:D; cbn [negb lbind alloc free lret app] in H.
  2: { injection H as <- <- <-. right. split; [discriminate|]. right. exists r, s. auto 9. }
  destruct ((der_buffer_size c <? blen d) || (blen d =? 0))%bool eqn:F; cbn [negb lbind alloc free lret app] in H.
  - injection H as <- <- <-. right. split; [discriminate|]. right. exists r, s. repeat (split; [assumption || reflexivity|]). right.
    split; [reflexivity|]. right. right. exists d. split; [exact D|].
    destruct d; [left; reflexivity|right; unfold blen in *; cbn [length] in *; lia].
  - injection H as <- <- <-. left. split; [reflexivity|]. exists r, s. auto.
Qed.

Lemma answer_cases a :
  let e := if (a =? 0)%Z then ERR_SIG_VERIFY else if negb (a =? 1)%Z then ERR_SIG_FAIL else T_SUCCESS in
  e <> T_SUCCESS -> answer_fault a e.
Proof.
  unfold answer_fault. destruct (Z.eqb_spec a 0); [auto|]. destruct (Z.eqb_spec a 1); cbn [negb]; [congruence|auto].
Qed.

Theorem ossl_verify_faults c lib alg k kid hash sig e :
  cr_verify (openssl c lib) alg k kid hash sig = Ret e -> e <> T_SUCCESS -> ossl_verify_fault c lib alg k hash sig e.
Proof.
  cbn [cr_verify openssl]. unfold ossl_verify, ossl_verify_fault. intros H N. revert H.
  destruct (t_cose_algorithm_is_ecdsa c alg) eqn:E, (t_cose_algorithm_is_rsassa_pss c alg) eqn:P; cbn [negb andb lret snd].
  { apply is_ecdsa_spec in E. apply is_pss_spec in P. destruct (not_both _ _ E P). }
  3: { intro H. injection H as <-. left. split; [reflexivity|]. split; [apply is_ecdsa_false; exact E|apply is_pss_false; exact P]. }
  all: intro H; right.
  - apply is_ecdsa_spec in E. split; [auto|].
    destruct (terr_eqb (key_convert k) T_SUCCESS) eqn:K; cbn [negb snd] in H.
    2: { injection H as <-. left. apply key_convert_fault. intro X. apply terr_eqb_success in X. congruence. }
    apply terr_eqb_success, key_convert_spec in K. right. split; [exact K|].
    destruct (ecdsa_signature_cose_to_der lib (k_handle k) sig (der_buffer_size c)) as [log [[e1 der]|w]] eqn:C; cbn [lbind snd] in H; [|discriminate].
    destruct (cose_to_der_fault _ _ _ _ _ _ _ C) as [(-> & r & s & Hr & Hs & -> & D)|[N1 F]].
    2: { destruct (terr_eqb e1 T_SUCCESS) eqn:T; [apply terr_eqb_success in T; congruence|]. cbn [negb lret snd] in H. injection H as <-. left. auto. }
    cbn [terr_eqb negb] in H. right.
    destruct (ctx_new lib (k_handle k)) eqn:CN; cbn [negb] in H; [|cbn [lret snd] in H; injection H as <-; left; split; auto].
    right. cbn [lbind alloc lret snd] in H.
    destruct (ctx_init lib _) eqn:CI; cbn [negb] in H.
    2: { cbn [lret snd free lbind] in H. injection H as <-. left. split; [reflexivity|]. left. exact CI. }
    rewrite configure_ecdsa in H by exact E. cbn [terr_eqb negb lret snd free lbind] in H. injection H as <-.
    right. left. exists r, s, der. cbv zeta. repeat (split; [assumption || reflexivity|]). apply answer_cases. exact N.
  - apply is_pss_spec in P. split; [auto|].
    destruct (terr_eqb (key_convert k) T_SUCCESS) eqn:K; cbn [negb snd] in H.
    2: { injection H as <-. left. apply key_convert_fault. intro X. apply terr_eqb_success in X. congruence. }
    apply terr_eqb_success, key_convert_spec in K. right. split; [exact K|].
    cbn [lbind lret snd terr_eqb negb] in H. right.
    destruct (ctx_new lib (k_handle k)) eqn:CN; cbn [negb] in H; [|cbn [lret snd] in H; injection H as <-; left; split; auto].
    right. cbn [lbind alloc lret snd] in H.
    destruct (ctx_init lib _) eqn:CI; cbn [negb] in H.
    2: { cbn [lret snd free lbind] in H. injection H as <-. left. split; [reflexivity|]. left. exact CI. }
    destruct (configure_pkey_context c lib _ alg) as [e1 x] eqn:C.
    destruct (setup_cases c lib (k_handle k) true alg (or_intror P) e1 x CI C) as [(-> & l & S & ->)|[N1 F]].
    + cbn [terr_eqb negb lret snd free lbind] in H. injection H as <-. right. right. split; [exact P|].
      destruct S as [[X _]|[_ ->]]; [destruct (not_both _ _ X P)|]. apply answer_cases. exact N.
    + destruct (terr_eqb e1 T_SUCCESS) eqn:T; [apply terr_eqb_success in T; congruence|].
      cbn [negb lret snd free lbind] in H. injection H as <-. left. exact F.
Qed.

Lemma der_to_cose_fault lib key der room :
  snd (ecdsa_signature_der_to_cose lib key der room) = Ret None ->
  d2i_sig lib der = None \/ exists r s, d2i_sig lib der = Some (r, s) /\ forall m n, r < 256 ^ m -> s < 256 ^ n -> room < m + n.
Proof.
  unfold ecdsa_signature_der_to_cose. destruct (d2i_sig lib der) as [[r s]|]; [|auto].
  cbn [lbind alloc]. intro H. right. exists r, s. split; [reflexivity|]. intros m n Hm Hn.
  apply num_bytes_least in Hm. apply num_bytes_least in Hn.
  destruct (room <? bn_num_bytes r + bn_num_bytes s) eqn:R; [lia|]. exfalso.
  destruct (write_at _ _ (bn_bn2bin r)) as [b1|w]; [|cbn in H; discriminate H]. cbn [lbind] in H.
  destruct (write_at b1 _ (bn_bn2bin s)) as [b2|w]; [|cbn in H; discriminate H]. cbn [lbind] in H.
  destruct (blen b2 <? _); cbn [lub lret free lbind snd] in H; discriminate H.
Qed.

Theorem ossl_sign_faults c lib alg k hash room e sig :
  cr_sign (openssl c lib) alg k hash room = Ret (e, sig) -> e <> T_SUCCESS -> ossl_sign_fault c lib alg k hash room e.
Proof.
  cbn [cr_sign openssl]. unfold ossl_sign, ossl_sign_fault. intros H N. revert H.
  destruct (t_cose_algorithm_is_ecdsa c alg) eqn:E, (t_cose_algorithm_is_rsassa_pss c alg) eqn:P; cbn [negb andb lret snd].
  { apply is_ecdsa_spec in E. apply is_pss_spec in P. destruct (not_both _ _ E P). }
  3: { intro H. injection H as <- <-. left. split; [reflexivity|]. split; [apply is_ecdsa_false; exact E|apply is_pss_false; exact P]. }
  all: intro H; right.
  all: assert (A : ecdsa_enabled c alg \/ pss_enabled c alg)
    by (first [left; apply is_ecdsa_spec; exact E | right; apply is_pss_spec; exact P]); split; [exact A|].
  all: destruct (terr_eqb (key_convert k) T_SUCCESS) eqn:K; cbn [negb snd] in H;
    [|injection H as <- <-; left; apply key_convert_fault; intro X; apply terr_eqb_success in X; congruence].
  all: apply terr_eqb_success, key_convert_spec in K; right; split; [exact K|].
  all: destruct (ctx_new lib (k_handle k)) eqn:CN; cbn [negb] in H; [|cbn [lret snd] in H; injection H as <- <-; left; split; auto].
  all: right; cbn [lbind alloc] in H.
  all: destruct (ctx_init lib _) eqn:CI; cbn [negb] in H;
    [|cbn [lret snd free lbind] in H; injection H as <- <-; left; split; [reflexivity|]; left; exact CI].
  all: destruct (configure_pkey_context c lib _ alg) as [e1 x] eqn:C.
  all: destruct (setup_cases c lib (k_handle k) false alg A e1 x CI C) as [(-> & l & S & ->)|[N1 F]];
    [|destruct (terr_eqb e1 T_SUCCESS) eqn:T; [apply terr_eqb_success in T; congruence|];
      cbn [negb lret snd free lbind] in H; injection H as <- <-; left; exact F].
  all: cbn [terr_eqb negb] in H; right.
  - apply is_ecdsa_spec in E. destruct (pkey_sign lib _ hash (der_buffer_size c)) as [der|] eqn:PS.
    2: { cbn [lret snd free lbind] in H. injection H as <- <-. split; [reflexivity|]. exists l. split; [exact S|]. left. eexists. exact PS. }
    unfold stored in H. destruct (der_buffer_size c <? blen der); [cbn in H; discriminate H|]. cbn [lbind lret] in H.
    destruct (ecdsa_signature_der_to_cose lib (k_handle k) der room) as [lg [[sg|]|w]] eqn:DC; cbn [lbind lret snd free] in H; [congruence| |discriminate H].
    injection H as <- <-. split; [reflexivity|]. exists l. split; [exact S|]. right. split; [exact E|]. exists (der_buffer_size c), der. split; [exact PS|].
    apply (der_to_cose_fault lib (k_handle k)). rewrite DC. reflexivity.
  - destruct (pkey_sign lib _ hash room) as [sg|] eqn:PS.
    2: { cbn [lret snd free lbind] in H. injection H as <- <-. split; [reflexivity|]. exists l. split; [exact S|]. left. eexists. exact PS. }
    unfold stored in H. destruct (room <? blen sg); cbn in H; [discriminate H|congruence].
Qed.

Theorem ossl_size_faults c lib alg k e n :
  cr_sig_size (openssl c lib) alg k = (e, n) -> e <> T_SUCCESS -> ossl_size_fault c alg k e.
Proof.
  cbn [cr_sig_size openssl]. unfold ossl_sig_size, ossl_size_fault. intros H N. revert H.
  destruct (terr_eqb (key_convert k) T_SUCCESS) eqn:K; cbn [negb].
  2: { intro H. injection H as <- <-. left. apply key_convert_fault. exact N. }
  apply terr_eqb_success, key_convert_spec in K.
  destruct (t_cose_algorithm_is_ecdsa c alg) eqn:E; [congruence|].
  destruct (t_cose_algorithm_is_rsassa_pss c alg) eqn:P; [cbn [orb]; congruence|]. cbn [orb]. unfold EDDSA.
  destruct (Z.eqb_spec alg (-8)); [congruence|]. intro H. injection H as <- <-. right.
  split; [exact K|]. split; [|assumption]. split; [reflexivity|]. split; [apply is_ecdsa_false; exact E|apply is_pss_false; exact P].
Qed.

Theorem ossl_sign_eddsa_faults c lib k tbs room e sig :
  cr_sign_eddsa (openssl c lib) k tbs room = Ret (e, sig) -> e <> T_SUCCESS -> ossl_sign_eddsa_fault lib k tbs room e.
Proof.
  cbn [cr_sign_eddsa openssl]. unfold ossl_sign_eddsa, ossl_sign_eddsa_fault. intros H N. revert H.
  destruct (terr_eqb (key_convert k) T_SUCCESS) eqn:K; cbn [negb lret snd].
  2: { intro H. injection H as <- <-. left. apply key_convert_fault. exact N. }
  apply terr_eqb_success, key_convert_spec in K. intro H. right. split; [exact K|].
  destruct (md_new lib) eqn:M; cbn [negb lret snd] in H; [|injection H as <- <-; auto].
  cbn [lbind alloc] in H. destruct (dsign_init lib (k_handle k)) eqn:D; cbn [negb lbind lret free snd] in H; [|injection H as <- <-; auto].
  destruct (dsign lib (k_handle k) tbs room) as [sg|] eqn:S; cbn [negb lbind lret free snd] in H; [|injection H as <- <-; auto].
  unfold stored in H. destruct (room <? blen sg); cbn in H; [discriminate H|congruence].
Qed.

Theorem ossl_verify_eddsa_faults c lib k kid tbs sig e :
  cr_verify_eddsa (openssl c lib) k kid tbs sig = Ret e -> e <> T_SUCCESS -> ossl_verify_eddsa_fault lib k tbs sig e.
Proof.
  cbn [cr_verify_eddsa openssl]. unfold ossl_verify_eddsa, ossl_verify_eddsa_fault. intros H N. revert H.
  destruct (terr_eqb (key_convert k) T_SUCCESS) eqn:K; cbn [negb lret snd].
  2: { intro H. injection H as <-. left. apply key_convert_fault. exact N. }
  apply terr_eqb_success, key_convert_spec in K. intro H. right. split; [exact K|].
  destruct (md_new lib) eqn:M; cbn [negb lret snd] in H; [|injection H as <-; auto].
  cbn [lbind alloc] in H. destruct (dverify_init lib (k_handle k)) eqn:D; cbn [negb lbind lret free snd] in H; [|injection H as <-; auto].
  injection H as <-. right. right. apply answer_cases. exact N.
Qed.

(** Hashing. *)
Lemma offered_spec c halg :
  ((halg =? SHA_256)%Z || ((negb (dis_es384 c) || negb (dis_ps384 c)) && (halg =? SHA_384)%Z)
     || ((negb (dis_es512 c) || negb (dis_ps512 c)) && (halg =? SHA_512)%Z))%bool = true <-> offered c halg.
Proof.
  unfold offered, SHA_256, SHA_384, SHA_512.
  destruct (Z.eqb_spec halg (-16)), (Z.eqb_spec halg (-43)), (Z.eqb_spec halg (-44)), (dis_es384 c), (dis_ps384 c), (dis_es512 c), (dis_ps512 c);
    cbn [negb andb orb]; intuition congruence.
Qed.

Theorem ossl_start_faults c lib halg e h :
  cr_hash_start (openssl c lib) halg = (e, h) -> e <> T_SUCCESS -> ossl_start_fault c lib halg e.
Proof.
  cbn [cr_hash_start openssl]. unfold ossl_hash_start, ossl_start_fault. intros H N. revert H.
  destruct (_ || _)%bool eqn:O.
  2: { cbn [lret snd]. intro H. injection H as <- <-. left. split; [reflexivity|]. left. intro X. apply offered_spec in X. congruence. }
  destruct (md_known lib halg) eqn:M1; cbn [negb lret snd]; [|intro H; injection H as <- <-; auto].
  destruct (md_new lib) eqn:M2; cbn [negb lret snd]; [|intro H; injection H as <- <-; auto].
  cbn [lbind alloc]. destruct (md_init lib halg) eqn:M3; cbn [negb lret snd lbind free]; [congruence|intro H; injection H as <- <-; auto].
Qed.

Lemma ossl_updates_fault c lib halg : forall pieces done h',
  update_all (openssl c lib) {| oh_md := halg; oh_data := flat_map u_data done; oh_ok := true |} pieces = Ret h' ->
  (h' = {| oh_md := halg; oh_data := flat_map u_data (done ++ pieces); oh_ok := true |}) \/
  (oh_ok h' = false /\ exists l b l', done ++ pieces = l ++ UBuf b :: l' /\ md_update lib halg (flat_map u_data l) b = false).
Proof.
  induction pieces as [|u r IH]; intros done h'; cbn [update_all].
  - intro H. injection H as <-. rewrite app_nil_r. auto.
  - cbn [cr_hash_update openssl]. unfold ossl_hash_update at 1. cbn [oh_ok]. destruct u as [n|b].
    + intro H. specialize (IH (done ++ [UNull n]) h'). rewrite flat_map_app, <- !app_assoc in IH. cbn [flat_map u_data app] in IH.
      rewrite app_nil_r in IH. apply IH. exact H.
    + cbn [oh_md oh_data]. destruct (md_update lib halg (flat_map u_data done) b) eqn:U.
      * intro H. specialize (IH (done ++ [UBuf b]) h'). rewrite flat_map_app, <- !app_assoc in IH. cbn [flat_map u_data app] in IH.
        rewrite app_nil_r in IH. apply IH. exact H.
      * intro H. right. split; [|exists done, b, r; auto]. clear - H. revert H.
        set (h := {| oh_md := halg; oh_data := _; oh_ok := false |}). assert (F : oh_ok h = false) by reflexivity. clearbody h. revert h F.
        induction r as [|u r IH]; intros h F; cbn [update_all]; [congruence|].
        cbn [cr_hash_update openssl]. unfold ossl_hash_update at 1. rewrite F. apply IH. exact F.
Qed.

Theorem ossl_digest_faults c lib halg pieces room h h' e d :
  cr_hash_start (openssl c lib) halg = (T_SUCCESS, h) -> update_all (openssl c lib) h pieces = Ret h' ->
  cr_hash_finish (openssl c lib) h' room = Ret (e, d) -> e <> T_SUCCESS -> ossl_digest_fault lib halg pieces e.
Proof.
  intros S U F N. destruct (ossl_start_inv c lib halg h S) as [-> _].
  unfold ossl_digest_fault. cbn [cr_hash_finish openssl] in F. unfold ossl_hash_finish in F.
  destruct (ossl_updates_fault c lib halg pieces [] h' U) as [->|[O X]]; cbn [app] in *.
  - cbn [oh_ok negb oh_md oh_data] in F. destruct (md_final lib halg (flat_map u_data pieces)) as [dg|] eqn:M.
    + unfold stored in F. destruct (room <? blen dg); cbn in F; [discriminate F|congruence].
    + cbn in F. injection F as <- <-. auto.
  - rewrite O in F. cbn in F. injection F as <- <-. auto.
Qed.

(** PSA. *)
Lemma psa_status_means s : psa_status_to_t_cose_error_signing s <> T_SUCCESS -> status_means s (psa_status_to_t_cose_error_signing s).
Proof.
  unfold psa_status_to_t_cose_error_signing, PSA_SUCCESS, PSA_ERROR_INVALID_SIGNATURE, PSA_ERROR_NOT_SUPPORTED, PSA_ERROR_INSUFFICIENT_MEMORY, PSA_ERROR_CORRUPTION_DETECTED.
  repeat match goal with |- context [(s =? ?x)%Z] => destruct (Z.eqb_spec s x) end; cbn [status_means In]; try congruence. intuition congruence.
Qed.

Lemma psa_hash_status_means s : psa_status_to_t_cose_error_hash s <> T_SUCCESS -> hash_status_means s (psa_status_to_t_cose_error_hash s).
Proof.
  unfold psa_status_to_t_cose_error_hash, PSA_SUCCESS, PSA_ERROR_NOT_SUPPORTED, PSA_ERROR_INVALID_ARGUMENT, PSA_ERROR_BUFFER_TOO_SMALL.
  repeat match goal with |- context [(s =? ?x)%Z] => destruct (Z.eqb_spec s x) end; cbn [hash_status_means In]; try congruence; auto. intuition congruence.
Qed.

Lemma psa_alg_cases c alg :
  (exists a, psa_alg_of c alg a /\ cose_alg_id_to_psa_alg_id c alg = a /\ is_signing_alg a = true /\ (ecdsa_enabled c alg \/ pss_enabled c alg)) \/
  (alg_fault c alg ERR_UNSUPPORTED_SIGNING_ALG /\ is_signing_alg (cose_alg_id_to_psa_alg_id c alg) = false).
Proof.
  destruct (psa_alg_spec c alg) as [(E & halg & H & A)|[(P & halg & H & A)|(E & P & A)]].
  - left. exists (PEcdsa halg). repeat split; auto. exists halg. auto.
  - left. exists (PRsaPss halg). repeat split; auto. exists halg. auto.
  - right. rewrite A. repeat split; auto.
Qed.

Theorem psa_verify_faults c lib alg k kid hash sig e :
  cr_verify (psa_crypto c lib) alg k kid hash sig = Ret e -> e <> T_SUCCESS -> psa_verify_fault c lib alg k hash sig e.
Proof.
  cbn [cr_verify psa_crypto]. unfold psa_verify, psa_verify_fault. intros H N. revert H.
  destruct (psa_alg_cases c alg) as [(a & A & -> & -> & _)|[F ->]]; cbn [negb]; intro H; injection H as <-; [right|left; exact F].
  exists a. split; [exact A|]. apply psa_status_means. exact N.
Qed.

Theorem psa_sign_faults c lib alg k hash room e sig :
  cr_sign (psa_crypto c lib) alg k hash room = Ret (e, sig) -> e <> T_SUCCESS -> psa_sign_fault c lib alg k hash room e.
Proof.
  cbn [cr_sign psa_crypto]. unfold psa_sign, psa_sign_fault. intros H N. revert H.
  destruct (psa_alg_cases c alg) as [(a & A & -> & -> & _)|[F ->]]; cbn [negb]; [right|intro H; injection H as <- <-; left; exact F].
  exists a. split; [exact A|]. revert H. destruct (psa_sign_hash lib (k_handle k) a hash room) as [st sg]. cbn [fst].
  destruct (room <? blen sg); [discriminate|]. destruct (terr_eqb _ T_SUCCESS); [congruence|].
  intro H. injection H as <- <-. apply psa_status_means. exact N.
Qed.

Theorem psa_size_faults c lib alg k e n :
  cr_sig_size (psa_crypto c lib) alg k = (e, n) -> e <> T_SUCCESS -> psa_size_fault c lib alg k e.
Proof.
  cbn [cr_sig_size psa_crypto]. unfold psa_sig_size, psa_size_fault. intros H N. revert H.
  destruct (psa_alg_cases c alg) as [(a & A & -> & -> & B)|[F ->]]; cbn [negb]; [right|intro H; injection H as <- <-; left; exact F].
  split; [exact B|]. revert H. destruct (psa_key lib (k_handle k)) as [[st ty] bits]. cbn [fst].
  destruct (terr_eqb _ T_SUCCESS); cbn [negb]; [congruence|]. intro H. injection H as <- <-. apply psa_status_means. exact N.
Qed.

Lemma psa_hash_of_spec c halg : psa_hash_of c halg (cose_hash_alg_id_to_psa c halg).
Proof.
  unfold psa_hash_of, cose_hash_alg_id_to_psa, offered, SHA_256, SHA_384, SHA_512.
  destruct (Z.eqb_spec halg (-16)) as [->|]; [auto|].
  destruct (Z.eqb_spec halg (-43)) as [->|]; [destruct (dis_es384 c), (dis_ps384 c); change (-43 =? -44)%Z with false; change (-43 =? -43)%Z with true; rewrite ?andb_false_r; cbn [negb andb orb]; intuition congruence|].
  destruct (Z.eqb_spec halg (-44)) as [->|]; [destruct (dis_es512 c), (dis_ps512 c); change (-44 =? -44)%Z with true; rewrite ?andb_false_r; cbn [negb andb orb]; intuition congruence|].
  rewrite !andb_false_r. intuition congruence.
Qed.

Theorem psa_start_faults c lib halg e h :
  cr_hash_start (psa_crypto c lib) halg = (e, h) -> e <> T_SUCCESS -> psa_start_fault c lib halg e.
Proof.
  cbn [cr_hash_start psa_crypto]. unfold psa_start, psa_start_fault, lret. intros H N. revert H.
  destruct (_ =? _)%Z; cbn [snd]; intro H; injection H as <- <-; eexists; (split; [apply psa_hash_of_spec|]); apply psa_hash_status_means; exact N.
Qed.

Lemma psa_updates_fault c lib a : forall pieces done h',
  update_all (psa_crypto c lib) {| ph_alg := a; ph_data := flat_map u_data done; ph_status := 0%Z |} pieces = Ret h' ->
  (h' = {| ph_alg := a; ph_data := flat_map u_data (done ++ pieces); ph_status := 0%Z |}) \/
  (ph_status h' <> 0%Z /\ exists l b l', done ++ pieces = l ++ UBuf b :: l' /\ psa_hash_update lib a (flat_map u_data l) b = ph_status h').
Proof.
  induction pieces as [|u r IH]; intros done h'; cbn [update_all].
  - intro H. injection H as <-. rewrite app_nil_r. auto.
  - cbn [cr_hash_update psa_crypto]. unfold psa_update at 1. cbn [ph_status]. change (0 =? PSA_SUCCESS)%Z with true. cbn [negb]. destruct u as [n|b].
    + intro H. specialize (IH (done ++ [UNull n]) h'). rewrite flat_map_app, <- !app_assoc in IH. cbn [flat_map u_data app] in IH.
      rewrite app_nil_r in IH. apply IH. exact H.
    + cbn [ph_alg ph_data]. unfold PSA_SUCCESS. destruct (Z.eqb_spec (psa_hash_update lib a (flat_map u_data done) b) 0) as [U|U].
      * rewrite U. intro H. specialize (IH (done ++ [UBuf b]) h'). rewrite flat_map_app, <- !app_assoc in IH. cbn [flat_map u_data app] in IH.
        rewrite app_nil_r in IH. apply IH. exact H.
      * cbn [snd]. intro H. assert (X : ph_status h' = psa_hash_update lib a (flat_map u_data done) b).
        { revert H. generalize (psa_hash_update lib a (flat_map u_data done) b) as st, U. intros st U'.
          set (h := {| ph_alg := a; ph_data := _; ph_status := st |}). assert (F : ph_status h = st) by reflexivity. clearbody h. revert h F. clear - U'.
          induction r as [|u r IH]; intros h F; cbn [update_all]; [congruence|].
          cbn [cr_hash_update psa_crypto]. unfold psa_update at 1, PSA_SUCCESS. rewrite F. destruct (Z.eqb_spec st 0); [congruence|]. cbn [negb lret snd]. apply IH. exact F. }
        right. rewrite X. split; [exact U|]. exists done, b, r. auto.
Qed.

Theorem psa_digest_faults c lib halg pieces room h h' e d :
  cr_hash_start (psa_crypto c lib) halg = (T_SUCCESS, h) -> update_all (psa_crypto c lib) h pieces = Ret h' ->
  cr_hash_finish (psa_crypto c lib) h' room = Ret (e, d) -> e <> T_SUCCESS -> psa_digest_fault c lib halg pieces room e.
Proof.
  intros S U F N. exists (cose_hash_alg_id_to_psa c halg). split; [apply psa_hash_of_spec|].
  assert (SH : h = {| ph_alg := cose_hash_alg_id_to_psa c halg; ph_data := flat_map u_data []; ph_status := 0%Z |}).
  { revert S. cbn [cr_hash_start psa_crypto]. unfold psa_start, lret, PSA_SUCCESS.
    destruct (Z.eqb_spec (psa_hash_setup lib (cose_hash_alg_id_to_psa c halg)) 0) as [Z|Z]; cbn [snd]; intro S.
    - rewrite Z in S. injection S as <-. reflexivity.
    - exfalso. apply Z. apply psa_hash_status_ok. congruence. }
  subst h. cbn [cr_hash_finish psa_crypto] in F. unfold psa_finish, PSA_SUCCESS in F.
  destruct (psa_updates_fault c lib _ pieces [] h' U) as [->|(O & l & b & l' & E & X)]; cbn [app] in *.
  - right. cbn [ph_status ph_alg ph_data] in F. change (0 =? 0)%Z with true in F. cbn [negb] in F.
    destruct (psa_hash_finish lib _ (flat_map u_data pieces) room) as [st dg]. cbn [fst].
    destruct (room <? blen dg); [cbn in F; discriminate F|].
    destruct (st =? 0)%Z; cbn [snd] in F; injection F as <- <-; apply psa_hash_status_means; exact N.
  - left. exists l, b, l'. split; [exact E|]. rewrite X.
    destruct (Z.eqb_spec (ph_status h') 0); [contradiction|]. cbn [negb lret snd] in F. injection F as <- <-. apply psa_hash_status_means. exact N.
Qed.

(** Calls. *)
Theorem ossl_calls c lib ev e : answers (openssl c lib) ev e -> e <> T_SUCCESS -> ossl_call_fault c lib ev e.
Proof.
  intros A N. destruct ev; cbn [answers ossl_call_fault] in *.
  - destruct A as [h A]. exact (ossl_start_faults _ _ _ _ _ A N).
  - contradiction.
  - destruct A as (h & size & d & A). cbn [cr_hash_finish openssl] in A. unfold ossl_hash_finish in A.
    destruct (oh_ok h); cbn [negb] in A; [|cbn in A; congruence].
    destruct (md_final lib (oh_md h) (oh_data h)) as [dg|]; [|cbn in A; congruence].
    unfold stored in A. destruct (size <? blen dg); cbn in A; [discriminate A|congruence].
  - destruct A as [n A]. exact (ossl_size_faults _ _ _ _ _ _ A N).
  - destruct A as (room & sig & A). exists room. exact (ossl_sign_faults _ _ _ _ _ _ _ _ A N).
  - destruct A as (room & sig & A). exists room. exact (ossl_sign_eddsa_faults _ _ _ _ _ _ _ A N).
  - exact (ossl_verify_faults _ _ _ _ _ _ _ _ A N).
  - exact (ossl_verify_eddsa_faults _ _ _ _ _ _ _ A N).
Qed.

Theorem psa_calls c lib ev e : answers (psa_crypto c lib) ev e -> e <> T_SUCCESS -> psa_call_fault c lib ev e.
Proof.
  intros A N. destruct ev; cbn [answers psa_call_fault] in *.
  - destruct A as [h A]. exact (psa_start_faults _ _ _ _ _ A N).
  - contradiction.
  - destruct A as (h & size & d & A). cbn [cr_hash_finish psa_crypto] in A.
    assert (X : exists s, e = psa_status_to_t_cose_error_hash s).
    { revert A. unfold psa_finish, lret, lub. destruct (_ =? _)%Z; cbn [negb snd]; [|intro A; injection A as <- <-; eauto].
      destruct (psa_hash_finish lib _ _ size) as [st dg]. destruct (size <? blen dg); [discriminate|].
      destruct (st =? _)%Z; cbn [snd]; intro A; injection A as <- <-; eauto. }
    destruct X as [s ->]. unfold psa_status_to_t_cose_error_hash in *.
    repeat (match goal with |- context [if ?b then _ else _] => destruct b end; [cbn [In]; tauto || congruence|]). cbn [In]. tauto.
  - destruct A as [n A]. exact (psa_size_faults _ _ _ _ _ _ A N).
  - destruct A as (room & sig & A). exists room. exact (psa_sign_faults _ _ _ _ _ _ _ _ A N).
  - destruct A as (room & sig & A). cbn [cr_sign_eddsa psa_crypto] in A. unfold psa_sign_eddsa in A. congruence.
  - exact (psa_verify_faults _ _ _ _ _ _ _ _ A N).
  - cbn [cr_verify_eddsa psa_crypto] in A. unfold psa_verify_eddsa in A. congruence.
Qed.

(** Signing and verification as a whole. *)
Theorem ossl_signing_calls c lib q me (det : bool) payload aad pl ad buf log err me' r :
  configured q me -> holds payload pl -> holds aad ad -> (det = true -> u_is_null payload = false) ->
  let op := if det then None else Some pl in
  blen (requested_message c q op []) <= MAX_OFFSET ->
  sign_aad_internal c (openssl c lib) me det payload aad buf = (log, Ret (err, me', r)) -> err <> T_SUCCESS ->
  signing_fault c (openssl c lib) q op (requested_tbs q ad pl) buf log err \/
  exists before ev, log = before ++ [ev] /\ ossl_call_fault c lib ev err.
Proof.
  intros C P A D op L H N. destruct (signing_errors _ _ _ _ _ _ _ _ _ _ _ _ _ _ C P A D L H N) as [F|(before & ev & E & F)]; [left; exact F|].
  right. exists before, ev. split; [exact E|]. exact (ossl_calls _ _ _ _ F N).
Qed.

Theorem psa_signing_calls c lib q me (det : bool) payload aad pl ad buf log err me' r :
  configured q me -> holds payload pl -> holds aad ad -> (det = true -> u_is_null payload = false) ->
  let op := if det then None else Some pl in
  blen (requested_message c q op []) <= MAX_OFFSET ->
  sign_aad_internal c (psa_crypto c lib) me det payload aad buf = (log, Ret (err, me', r)) -> err <> T_SUCCESS ->
  signing_fault c (psa_crypto c lib) q op (requested_tbs q ad pl) buf log err \/
  exists before ev, log = before ++ [ev] /\ psa_call_fault c lib ev err.
Proof.
  intros C P A D op L H N. destruct (signing_errors _ _ _ _ _ _ _ _ _ _ _ _ _ _ C P A D L H N) as [F|(before & ev & E & F)]; [left; exact F|].
  right. exists before, ev. split; [exact E|]. exact (psa_calls _ _ _ _ F N).
Qed.

Theorem ossl_verifying_calls c lib junk me msg aad payload want dc log w before ev later :
  verify_internal c (openssl c lib) junk me msg aad payload want dc = (log, Ret w) -> log = before ++ ev :: later ->
  answers (openssl c lib) ev T_SUCCESS \/ (later = [] /\ ossl_call_fault c lib ev (w_err w)).
Proof.
  intros H E. destruct (verify_passes _ _ _ _ _ _ _ _ _ _ _ H before ev later E) as (a & A & X).
  destruct (terr_eqb a T_SUCCESS) eqn:T; [apply terr_eqb_success in T; subst; auto|].
  assert (N : a <> T_SUCCESS) by (intro Y; apply terr_eqb_success in Y; congruence).
  destruct (X N) as [-> ->]. right. split; [reflexivity|]. exact (ossl_calls _ _ _ _ A N).
Qed.

Theorem psa_verifying_calls c lib junk me msg aad payload want dc log w before ev later :
  verify_internal c (psa_crypto c lib) junk me msg aad payload want dc = (log, Ret w) -> log = before ++ ev :: later ->
  answers (psa_crypto c lib) ev T_SUCCESS \/ (later = [] /\ psa_call_fault c lib ev (w_err w)).
Proof.
  intros H E. destruct (verify_passes _ _ _ _ _ _ _ _ _ _ _ H before ev later E) as (a & A & X).
  destruct (terr_eqb a T_SUCCESS) eqn:T; [apply terr_eqb_success in T; subst; auto|].
  assert (N : a <> T_SUCCESS) by (intro Y; apply terr_eqb_success in Y; congruence).
  destruct (X N) as [-> ->]. right. split; [reflexivity|]. exact (psa_calls _ _ _ _ A N).
Qed.

(** A signature that is not accepted gives the error for that. *)
Theorem ossl_wrong_signature c lib alg k kid hash sig :
  setup_works lib -> enough_memory lib -> der_library lib -> on_curve lib alg (k_handle k) ->
  (forall x s h, pkey_verify lib x s h = 0%Z \/ pkey_verify lib x s h = 1%Z) ->
  ossl_key k -> ecdsa_enabled c alg \/ pss_enabled c alg -> ~ ossl_accepts c lib alg k hash sig ->
  cr_verify (openssl c lib) alg k kid hash sig = Ret ERR_SIG_VERIFY.
Proof.
  intros (W1 & W2 & W3) (M1 & M2 & M3) DL OC V K A NA.
  destruct (ossl_verify_total c lib alg k kid hash sig) as [e H].
  change (snd (ossl_verify c lib alg k kid hash sig)) with (cr_verify (openssl c lib) alg k kid hash sig) in H.
  rewrite H. f_equal.
  assert (N : e <> T_SUCCESS) by (intro X; subst; apply NA; exact (proj2 (ossl_verify_sound c lib alg k kid hash sig H))).
  destruct (ossl_verify_faults _ _ _ _ _ _ _ _ H N) as [(_ & NE & NP)|[_ F]]; [tauto|].
  destruct F as [[(_ & X)|(_ & _ & X)]|[_ F]]; [destruct K; contradiction|destruct K; contradiction|].
  destruct F as [(E & F)|[F|[F|[F|F]]]].
  - destruct F as [[-> _]|(r & s & Hr & Hs & -> & [[_ [X|[X|X]]]|[_ [X|[X|(der & D & X)]]]])]; [reflexivity|exfalso..].
    + rewrite M1 in X. discriminate X.
    + rewrite M1 in X. discriminate X.
    + congruence.
    + rewrite M3 in X. discriminate X.
    + rewrite (proj1 DL) in X. discriminate X.
    + pose proof (on_curve_fits c lib alg _ DL OC E r s der Hr Hs D) as Q.
      destruct X as [->|X]; [unfold blen in Q; cbn in Q; lia|lia].
  - destruct F as [_ X]. rewrite W1 in X. discriminate X.
  - destruct F as [_ [X|(_ & b & p & a & _ & X)]]; [rewrite W2 in X|rewrite W3 in X]; discriminate X.
  - destruct F as (r & s & der & _ & _ & _ & _ & _ & [[-> _]|(_ & X & Y)]); [reflexivity|]. exfalso.
    destruct (V {| px_key := k_handle k; px_verify := true; px_params := [] |} der hash); contradiction.
  - destruct F as (_ & [[-> _]|(_ & X & Y)]); [reflexivity|]. exfalso.
    destruct (V {| px_key := k_handle k; px_verify := true; px_params := pss_settings alg |} sig hash); contradiction.
Qed.
