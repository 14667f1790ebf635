(** The adapters of two builds do the same for algorithms of both. *)
From Verif Require Import Base Const QEnc QDec Crypto Util Algs Sign Params Verify OpenSSL Psa SignSpec AdapterSpec BuildSpec.
From Verif Require Import BaseFacts OpenSSLFacts OpenSSLFacts2 AdapterFacts PsaFacts BuildFacts VerifySpec.
From Coq Require Import Lia.
Open Scope N_scope. Open Scope list_scope.

Lemma ecdsa_both c c2 alg : in_both c c2 alg -> t_cose_algorithm_is_ecdsa c alg = t_cose_algorithm_is_ecdsa c2 alg.
Proof.
  intro A. unfold t_cose_algorithm_is_ecdsa, ecdsa_list.
  destruct A as [A B]. unfold enabled in *.
  destruct A as [->|[[-> A]|[[-> A]|[[-> A]|[[-> A]|[[-> A]|[-> A]]]]]]];
  repeat match goal with H : _ \/ _ |- _ => destruct H | H : _ /\ _ |- _ => destruct H end; try discriminate;
  rewrite ?A; repeat match goal with H : _ = false |- _ => rewrite H end; destruct c, c2; cbn;
  repeat match goal with |- context [ifndef ?b _] => destruct b; cbn end; reflexivity.
Qed.

Lemma pss_both c c2 alg : in_both c c2 alg -> t_cose_algorithm_is_rsassa_pss c alg = t_cose_algorithm_is_rsassa_pss c2 alg.
Proof.
  intro A. unfold t_cose_algorithm_is_rsassa_pss, rsa_list.
  destruct A as [A B]. unfold enabled in *.
  destruct A as [->|[[-> A]|[[-> A]|[[-> A]|[[-> A]|[[-> A]|[-> A]]]]]]];
  repeat match goal with H : _ \/ _ |- _ => destruct H | H : _ /\ _ |- _ => destruct H end; try discriminate;
  rewrite ?A; repeat match goal with H : _ = false |- _ => rewrite H end; destruct c, c2; cbn;
  repeat match goal with |- context [ifndef ?b _] => destruct b; cbn end; reflexivity.
Qed.

(** The hash of an algorithm of the build. *)
Lemma hash_here c alg halg : enabled c alg -> hash_for alg = Some halg ->
  halg = (-16)%Z \/ (halg = (-43)%Z /\ (dis_es384 c = false \/ dis_ps384 c = false)) \/
  (halg = (-44)%Z /\ (dis_es512 c = false \/ dis_ps512 c = false)).
Proof.
  unfold enabled. intros [->|[[-> A]|[[-> A]|[[-> A]|[[-> A]|[[-> A]|[-> A]]]]]]] H; cbn [hash_for] in H; try discriminate; injection H as <-; tauto.
Qed.

Theorem openssl_alike c c2 lib alg k : in_both c c2 alg -> der_library lib -> sign_library lib ->
  (forall md data d, md = (-16)%Z \/ md = (-43)%Z \/ md = (-44)%Z -> md_final lib md data = Some d -> blen d = digest_length md) ->
  fits_buffers c c2 lib alg (k_handle k) ->
  adapters_alike c (openssl c lib) c2 (openssl c2 lib) alg k.
Proof.
  intros A [DE _] [SR _] DL FB. pose proof (ecdsa_both c c2 alg A) as E. pose proof (pss_both c c2 alg A) as P.
  assert (CF : forall x, configure_pkey_context c lib x alg = configure_pkey_context c2 lib x alg).
  { intro x. unfold configure_pkey_context. now rewrite E, P. }
  exists (fun h h2 => h = h2 /\ hash_for alg = Some (oh_md h)). split; [|split; [|split; [|split; [|split; [|split]]]]].
  - intros halg F. assert (Q : ossl_hash_start c lib halg = ossl_hash_start c2 lib halg).
    { unfold ossl_hash_start. destruct (hash_here _ _ _ (proj1 A) F) as [->|[[-> D]|[-> D]]], (hash_here _ _ _ (proj2 A) F) as [X|[[X D2]|[X D2]]]; try discriminate X;
      try reflexivity; destruct D as [-> | ->], D2 as [-> | ->]; cbn [negb andb]; rewrite ?orb_true_r; reflexivity. }
    cbn [cr_hash_start openssl]. rewrite Q. split; [reflexivity|]. intros T. split; [reflexivity|]. revert T. clear Q.
    unfold ossl_hash_start. destruct (_ || _); [|discriminate]. destruct (negb _); [discriminate|]. destruct (negb _); [discriminate|].
    destruct (negb _); [discriminate|]. intros _. exact F.
  - intros h h2 u [<- F]. cbn [cr_hash_update openssl]. split; [reflexivity|]. unfold ossl_hash_update. destruct (oh_ok h); [|exact F]. destruct u; exact F.
  - intros h h2 [<- F]. cbn [cr_hash_finish openssl]. unfold ossl_hash_finish. destruct (negb (oh_ok h)); [reflexivity|].
    destruct (md_final lib (oh_md h) (oh_data h)) as [d|] eqn:M; [|reflexivity].
    pose proof (hash_here _ _ _ (proj1 A) F) as H1. pose proof (hash_here _ _ _ (proj2 A) F) as H2.
    apply DL in M; [|tauto]. apply digest_fits in H1, H2. unfold stored.
    replace (max_hash_size c <? blen d) with false by lia. replace (max_hash_size c2 <? blen d) with false by lia. reflexivity.
  - cbn [cr_sig_size openssl]. unfold ossl_sig_size. now rewrite E, P.
  - intros d room. cbn [cr_sign openssl]. f_equal. unfold ossl_sign. rewrite E, P. destruct (negb _ && _); [reflexivity|].
    destruct (negb _); [reflexivity|]. destruct (negb _); [reflexivity|]. f_equal. f_equal. f_equal. destruct (negb _); [reflexivity|]. rewrite CF.
    destruct (t_cose_algorithm_is_ecdsa c2 alg) eqn:EC.
    + apply is_ecdsa_spec in E as EN. destruct (FB EN) as (_ & _ & SG). rewrite <- CF, configure_ecdsa by exact EN.
      cbn [terr_eqb negb]. destruct (pkey_sign lib _ d (der_buffer_size c)) as [der|] eqn:K.
      * pose proof (SR _ _ _ _ K) as L1. rewrite SG in K. rewrite K. pose proof (SR _ _ _ _ K) as L2. unfold stored.
        replace (der_buffer_size c <? blen der) with false by lia. replace (der_buffer_size c2 <? blen der) with false by lia. reflexivity.
      * rewrite SG in K. now rewrite K.
    + reflexivity.
  - intros kid d sig. cbn [cr_verify openssl]. f_equal. unfold ossl_verify. rewrite E, P. destruct (negb _ && _); [reflexivity|].
    destruct (negb _); [reflexivity|]. 
    assert (CD : (if t_cose_algorithm_is_ecdsa c2 alg then ecdsa_signature_cose_to_der lib (k_handle k) sig (der_buffer_size c)
                  else if t_cose_algorithm_is_rsassa_pss c2 alg then lret (T_SUCCESS, sig) else lret (ERR_UNSUPPORTED_SIGNING_ALG, []))
               = (if t_cose_algorithm_is_ecdsa c2 alg then ecdsa_signature_cose_to_der lib (k_handle k) sig (der_buffer_size c2)
                  else if t_cose_algorithm_is_rsassa_pss c2 alg then lret (T_SUCCESS, sig) else lret (ERR_UNSUPPORTED_SIGNING_ALG, []))).
    { destruct (t_cose_algorithm_is_ecdsa c2 alg) eqn:EC; [|reflexivity]. apply is_ecdsa_spec in E as EN.
      destruct (FB EN) as (F1 & F2 & _). rewrite <- key_size_spec in F1, F2. set (key := k_handle k) in *. clear - F1 F2 DE.
      unfold ecdsa_signature_cose_to_der. set (len := ecdsa_key_size lib key) in *. destruct (blen sig =? len * 2) eqn:L; cbn [negb]; [|reflexivity].
      destruct (negb _); [reflexivity|]. destruct (negb _); [reflexivity|]. destruct (negb _); [reflexivity|]. destruct (negb _); [reflexivity|].
      rewrite DE. set (rb := firstn _ sig). set (sb := firstn _ (skipn _ sig)).
      assert (B1 : bn_bin2bn rb < 256 ^ len).
      { eapply N.lt_le_trans; [apply bin2bn_bound|]. apply N.pow_le_mono_r; [discriminate|]. unfold rb, blen. rewrite firstn_length. lia. }
      assert (B2 : bn_bin2bn sb < 256 ^ len).
      { eapply N.lt_le_trans; [apply bin2bn_bound|]. apply N.pow_le_mono_r; [discriminate|]. unfold sb, blen. rewrite firstn_length. lia. }
      assert (MX : forall c, max_ecdsa_sig_size c <= 132) by (intro c0; unfold max_ecdsa_sig_size, P512_SIG_SIZE, P384_SIG_SIZE, P256_SIG_SIZE; destruct (negb _); [lia|]; destruct (negb _); lia).
      pose proof (MX c). assert (len < 127) by lia. pose proof (der_signature_bound _ _ _ B1 B2 ltac:(assumption)) as DB.
      unfold der_buffer_size, DER_SIG_ENCODE_OVER_HEAD.
      replace (max_ecdsa_sig_size c + 16 <? _) with false by lia. replace (max_ecdsa_sig_size c2 + 16 <? _) with false by lia. reflexivity. }
    rewrite CD. clear CD.
    match goal with |- lbind ?x _ = lbind ?x _ => destruct x as [l [[e o]|w]] end; [|reflexivity]. cbn [lbind]. destruct (negb _); [reflexivity|].
    destruct (negb _); [reflexivity|]. rewrite CF. reflexivity.
  - intros _. split; reflexivity.
Qed.

Theorem psa_alike c c2 lib H alg k : in_both c c2 alg -> psa_hash_library lib H ->
  adapters_alike c (psa_crypto c lib) c2 (psa_crypto c2 lib) alg k.
Proof.
  intros A (PU & PD & PF & PL).
  assert (E : cose_alg_id_to_psa_alg_id c alg = cose_alg_id_to_psa_alg_id c2 alg).
  { unfold cose_alg_id_to_psa_alg_id. by_algorithm. }
  exists (fun h h2 => h = h2 /\ exists halg, hash_for alg = Some halg /\ ph_alg h = PHash halg). split; [|split; [|split; [|split; [|split; [|split]]]]].
  - intros halg F. assert (Q : cose_hash_alg_id_to_psa c halg = PHash halg /\ cose_hash_alg_id_to_psa c2 halg = PHash halg).
    { unfold cose_hash_alg_id_to_psa. destruct (hash_here _ _ _ (proj1 A) F) as [->|[[-> D]|[-> D]]], (hash_here _ _ _ (proj2 A) F) as [X|[[X D2]|[X D2]]]; try discriminate X;
      try (split; reflexivity); destruct D as [-> | ->], D2 as [-> | ->]; destruct c, c2; cbn;
      repeat match goal with |- context [negb ?b] => destruct b; cbn end; split; reflexivity. }
    destruct Q as [Q1 Q2]. cbn [cr_hash_start psa_crypto]. unfold psa_start. rewrite Q1, Q2. split; [reflexivity|]. intros _. split; [reflexivity|].
    exists halg. split; [exact F|]. destruct (_ =? _)%Z; reflexivity.
  - intros h h2 u [<- F]. cbn [cr_hash_update psa_crypto]. unfold psa_update. destruct (negb _); [split; [reflexivity|exact F]|].
    destruct u; [split; [reflexivity|exact F]|]. destruct (_ =? _)%Z; cbn [snd lret]; (split; [reflexivity|exact F]).
  - intros h h2 [<- (halg & F & G)]. cbn [cr_hash_finish psa_crypto]. unfold psa_finish. destruct (negb _); [reflexivity|].
    pose proof (hash_here _ _ _ (proj1 A) F) as H1. pose proof (hash_here _ _ _ (proj2 A) F) as H2.
    assert (L : blen (H halg (ph_data h)) = digest_length halg) by (apply PL; tauto). apply digest_fits in H1, H2.
    rewrite G, !PF. replace (blen _ <=? max_hash_size c) with true by lia. replace (blen _ <=? max_hash_size c2) with true by lia.
    replace (max_hash_size c <? _) with false by lia. replace (max_hash_size c2 <? _) with false by lia. reflexivity.
  - cbn [cr_sig_size psa_crypto]. unfold psa_sig_size. now rewrite E.
  - intros d room. cbn [cr_sign psa_crypto]. unfold psa_sign. now rewrite E.
  - intros kid d sig. cbn [cr_verify psa_crypto]. unfold psa_verify. now rewrite E.
  - intros _. split; reflexivity.
Qed.

(** ** The library with its adapter *)

Theorem openssl_sign_both c c2 lib q me (det : bool) payload aad buf :
  configured q me -> same_features c c2 -> in_both c c2 (q_alg q) -> der_library lib -> sign_library lib ->
  (forall md data d, md = (-16)%Z \/ md = (-43)%Z \/ md = (-44)%Z -> md_final lib md data = Some d -> blen d = digest_length md) ->
  fits_buffers c c2 lib (q_alg q) (k_handle (q_key q)) ->
  sign_aad_internal c (openssl c lib) me det payload aad buf = sign_aad_internal c2 (openssl c2 lib) me det payload aad buf.
Proof.
  intros C S A D G L F. exact (sign_both c c2 _ _ q me det payload aad buf C S A (openssl_alike c c2 lib _ _ A D G L F)).
Qed.

Theorem openssl_verify_more c c2 lib junk me msg aad payload want dc log w :
  same_features c c2 -> more_algorithms c c2 -> der_library lib -> sign_library lib ->
  (forall md data d, md = (-16)%Z \/ md = (-43)%Z \/ md = (-44)%Z -> md_final lib md data = Some d -> blen d = digest_length md) ->
  (forall alg, fits_buffers c c2 lib alg (k_handle (v_key me))) -> decode_only (v_flags me) = false ->
  verify_internal c (openssl c lib) junk me msg aad payload want dc = (log, Ret w) -> w_err w = T_SUCCESS ->
  verify_internal c2 (openssl c2 lib) junk me msg aad payload want dc = (log, Ret w).
Proof.
  intros S M D G L F DO. apply (verify_more c c2 _ _ junk me msg aad payload want dc log w S M); [|exact DO].
  intros alg A. exact (openssl_alike c c2 lib alg _ (conj A (M _ A)) D G L (F alg)).
Qed.

Theorem psa_sign_both c c2 lib H q me (det : bool) payload aad buf :
  configured q me -> same_features c c2 -> in_both c c2 (q_alg q) -> psa_hash_library lib H ->
  sign_aad_internal c (psa_crypto c lib) me det payload aad buf = sign_aad_internal c2 (psa_crypto c2 lib) me det payload aad buf.
Proof.
  intros C S A L. exact (sign_both c c2 _ _ q me det payload aad buf C S A (psa_alike c c2 lib H _ _ A L)).
Qed.

Theorem psa_verify_more c c2 lib H junk me msg aad payload want dc log w :
  same_features c c2 -> more_algorithms c c2 -> psa_hash_library lib H -> decode_only (v_flags me) = false ->
  verify_internal c (psa_crypto c lib) junk me msg aad payload want dc = (log, Ret w) -> w_err w = T_SUCCESS ->
  verify_internal c2 (psa_crypto c2 lib) junk me msg aad payload want dc = (log, Ret w).
Proof.
  intros S M L DO. apply (verify_more c c2 _ _ junk me msg aad payload want dc log w S M); [|exact DO].
  intros alg A. exact (psa_alike c c2 lib H alg _ (conj A (M _ A)) L).
Qed.
