(** The example programs as written. *)
From Verif Require Import Base Const QEnc Crypto Algs OpenSSL Psa AdapterSpec Sign Verify Spec SignSpec SignErrorSpec PieceSpec Examples LiveSpec.
From Verif Require Import BaseFacts EncFacts UtilFacts SignFacts SignProofs OpenSSLFacts OpenSSLFacts2 AdapterFacts PsaFacts SupportFacts AdapterTop.
From Verif Require Import SignSafe LiveFacts LiveAdapter ExampleFacts VerifySpec ExampleSpec.
From Coq Require Import Lia ZifyBool ZifyNat ZifyN.
Open Scope N_scope. Open Scope list_scope.

Lemma being_fits n : (1 <= n)%nat -> map_fits n being.
Proof. intro L. split; [reflexivity|]. split; [repeat split|exact L]. Qed.
Lemma being_ops : tree_ops (BMap being) = being_payload_ops.
Proof. reflexivity. Qed.

Lemma example_message c alg key pl sig :
  requested_message c (example_request alg key) (Some pl) sig = cose_sign1 true (protected_header alg) (CMap []) (Some pl) sig.
Proof.
  unfold requested_message. cbn [example_request q_flags q_alg]. replace (requested_ct c _) with CtNone; [reflexivity|].
  unfold requested_ct. cbn. now destruct (dis_content_type c).
Qed.

Theorem one_step_as_written c cr junk key : all_works c cr (-7) key being_payload 64 ->
  shows being_payload (one_step_sign_example c cr junk (T_SUCCESS, key)).
Proof.
  intro W. unfold one_step_sign_example. rewrite <- being_ops.
  apply (one_step_works c cr junk (-7) key being 300 300 64); [apply being_fits; lia|vm_compute; discriminate|exact W|discriminate| |reflexivity|].
  - unfold example_size, message_size. rewrite example_message. vm_compute. discriminate.
  - rewrite example_message. vm_compute. discriminate.
Qed.

Theorem two_step_as_written c cr junk key : all_works c cr (-7) key being_payload 64 ->
  shows being_payload (two_step_sign_example c cr junk (T_SUCCESS, key)).
Proof.
  intro W. unfold two_step_sign_example. rewrite <- being_ops.
  apply (two_step_works c cr junk (-7) key being 300 64); [apply being_fits; lia|exact W|discriminate| |reflexivity|].
  - unfold example_size, message_size. rewrite example_message. vm_compute. discriminate.
  - rewrite example_message. vm_compute. discriminate.
Qed.

Theorem dynamic_as_written c cr junk malloc key n :
  (forall k size, malloc k size = true) -> n < 2 ^ 32 -> all_works c cr (-8) key plain_payload n ->
  shows plain_payload (dynamic_buffer_example c cr junk malloc (T_SUCCESS, key)).
Proof.
  intros MA L W. apply (dynamic_works c cr junk malloc (-8) key plain_payload n MA W).
  - unfold example_size.
    rewrite (size_len c (example_request (-8) key) (signer (-8) key) false (UBuf plain_payload) plain_payload n (signer_configured _ _) (or_introl eq_refl)).
    pose proof (empty_message_len c (example_request (-8) key) (signer (-8) key) false (UBuf plain_payload) plain_payload (signer_configured _ _) (or_introl eq_refl)) as U.
    cbn iota in U. rewrite example_message in U.
    assert (blen (cose_sign1 true (protected_header (-8)) (CMap []) (Some plain_payload) []) = 16) as E by (vm_compute; reflexivity).
    rewrite E in U. pose proof (SignMore.short_head_len 2 n). clear - U H L. unfold SIZE_MAX. lia.
  - vm_compute. discriminate.
  - rewrite example_message. vm_compute. discriminate.
Qed.

(** ** With the libraries *)

Lemma ossl_all_works c lib H alg key pl :
  openssl_works lib H -> ossl_can_hash lib -> enabled c alg ->
  ossl_key key -> on_curve lib alg (k_handle key) -> ossl_can_sign lib alg (k_handle key) -> key_pair lib alg (k_handle key) (k_handle key) ->
  all_works c (openssl c lib) alg key pl (ossl_signature_size lib alg (k_handle key)).
Proof.
  intros OW CH EN K OC CS KP. pose proof OW as (SW & M & MN & DL & SL & HL). split; [exact EN|]. split.
  - refine (ossl_signer_works c lib H (example_request alg key) [[]; pl] OW CH EN (fun _ => _)). exact (conj K (conj OC CS)).
  - split; [|split].
    + apply (ossl_keys c lib SL); auto. intro E. exact (on_curve_fits c lib _ _ DL OC E).
    + apply (one_digest_of _ H). exact (ossl_hash_is c lib H HL).
    + exact (ossl_reliable c lib H HL _).
Qed.

Lemma psa_all_works c lib H alg key pl n :
  psa_hash_library lib H -> psa_within_room lib -> psa_can_hash lib -> enabled c alg -> alg <> (-8)%Z ->
  psa_can_sign lib alg (k_handle key) n -> psa_key_pair lib (k_handle key) (k_handle key) -> all_works c (psa_crypto c lib) alg key pl n.
Proof.
  intros HL WR CH EN N8 CS KP. split; [exact EN|]. split.
  - apply (psa_signer_works c lib H HL WR (example_request alg key) [[]; pl] n); [assumption|assumption|]. exact (conj N8 CS).
  - split; [|split].
    + apply psa_keys; auto.
    + apply (one_digest_of _ H). exact (psa_hash_is c lib H HL).
    + exact (psa_reliable c lib H HL _).
Qed.

Theorem ossl_examples c lib H junk key :
  openssl_works lib H -> ossl_can_hash lib -> ossl_key key -> coordinate_length (ev_bits lib (k_handle key)) = 32 ->
  ossl_can_sign lib (-7) (k_handle key) -> key_pair lib (-7) (k_handle key) (k_handle key) ->
  shows being_payload (one_step_sign_example c (openssl c lib) junk (T_SUCCESS, key)) /\
  shows being_payload (two_step_sign_example c (openssl c lib) junk (T_SUCCESS, key)).
Proof.
  intros OW CH K P CS KP.
  assert (W : all_works c (openssl c lib) (-7) key being_payload 64).
  { replace 64 with (ossl_signature_size lib (-7) (k_handle key)).
    - apply (ossl_all_works c lib H); auto; [now left|]. intros _. rewrite P. vm_compute. discriminate.
    - unfold ossl_signature_size. cbn [is_ecdsa_id]. change (is_ecdsa_id (-7)) with true. cbn iota. rewrite P. reflexivity. }
  split; [now apply one_step_as_written|now apply two_step_as_written].
Qed.

Theorem ossl_dynamic_example c lib H junk malloc key :
  openssl_works lib H -> ossl_can_hash lib -> ossl_key key -> dis_eddsa c = false -> ev_size lib (k_handle key) < 2 ^ 32 ->
  ossl_can_sign lib (-8) (k_handle key) -> key_pair lib (-8) (k_handle key) (k_handle key) -> (forall k size, malloc k size = true) ->
  shows plain_payload (dynamic_buffer_example c (openssl c lib) junk malloc (T_SUCCESS, key)).
Proof.
  intros OW CH K D SZ CS KP MA. apply (dynamic_as_written c _ junk malloc key _ MA SZ).
  apply (ossl_all_works c lib H (-8) key plain_payload); auto.
  - unfold enabled. auto 10.
  - intros [X|[X|X]]; discriminate X.
Qed.

Theorem psa_examples c lib H junk key :
  psa_hash_library lib H -> psa_within_room lib -> psa_can_hash lib ->
  psa_can_sign lib (-7) (k_handle key) 64 -> psa_key_pair lib (k_handle key) (k_handle key) ->
  shows being_payload (one_step_sign_example c (psa_crypto c lib) junk (T_SUCCESS, key)) /\
  shows being_payload (two_step_sign_example c (psa_crypto c lib) junk (T_SUCCESS, key)).
Proof.
  intros HL WR CH CS KP.
  assert (W : all_works c (psa_crypto c lib) (-7) key being_payload 64).
  { apply (psa_all_works c lib H); auto; [now left|discriminate]. }
  split; [now apply one_step_as_written|now apply two_step_as_written].
Qed.
