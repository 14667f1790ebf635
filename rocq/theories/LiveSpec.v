(** What is needed for signing to succeed: a request without faults and an
    adapter that works for it. *)
From Verif Require Import Base Const QEnc Crypto OpenSSL Psa AdapterSpec Sign Spec SignSpec SignErrorSpec.
Open Scope N_scope. Open Scope list_scope.

(** The hash of the algorithm can be started and then does not fail on pieces as
    long as those of [parts]. *)
Definition hash_works (c : cfg) (cr : crypto) (alg : Z) (parts : list bytes) : Prop :=
  (forall halg, hash_for alg = Some halg -> exists h, cr_hash_start cr halg = (T_SUCCESS, h)) /\ hash_reliable c cr parts.

(** The adapter makes signatures of [n] bytes with the key of [q], given room, and
    says so. Short-circuit signatures need only the hash. *)
Definition signer_works (c : cfg) (cr : crypto) (q : request) (parts : list bytes) (n : N) : Prop :=
  if wants_short_circuit (q_flags q) then
    hash_works c cr (q_alg q) parts /\ (forall halg data d, digest_of cr halg data d -> d <> []) /\ n = ecdsa_sig_size (q_alg q)
  else
    cr_sig_size cr (q_alg q) (q_key q) = (T_SUCCESS, n) /\
    if (q_alg q =? -8)%Z then
      forall t room, n <= room -> exists sig, cr_sign_eddsa cr (q_key q) t room = Ret (T_SUCCESS, sig) /\ blen sig = n
    else
      hash_works c cr (q_alg q) parts /\
      forall halg data d room, hash_for (q_alg q) = Some halg -> digest_of cr halg data d -> n <= room ->
        exists sig, cr_sign cr (q_alg q) (q_key q) d room = Ret (T_SUCCESS, sig) /\ blen sig = n.

(** No fault that signing reports (C60), but for the sizes of buffers. *)
Definition faultless (c : cfg) (q : request) : Prop :=
  enabled c (q_alg q) /\ ~ bad_short_circuit c q /\ ~ two_content_types c q /\ ~ no_hash q.

(** The size of the message, known before it is made. *)
Definition message_size (c : cfg) (q : request) (payload : option bytes) (n : N) : N :=
  blen (requested_message c q payload (some_bytes n)).

(** ** Libraries that can sign *)

Definition is_ecdsa_id (alg : Z) : bool := ((alg =? -7) || (alg =? -35) || (alg =? -36))%Z.

(** Size of a signature, from the key. *)
Definition ossl_signature_size (lib : ossl) (alg : Z) (key : N) : N :=
  if is_ecdsa_id alg then 2 * coordinate_length (ev_bits lib key) else ev_size lib key.

(** OpenSSL has the hashes, and signs digests (with EdDSA: anything) with [key],
    given room for the signature. An ECDSA signature in DER needs at most ten
    bytes more than its two numbers. *)
Definition ossl_can_hash (lib : ossl) : Prop := forall md, is_hash_id md -> md_known lib md = true /\ md_init lib md = true.
Definition ossl_can_sign (lib : ossl) (alg : Z) (key : N) : Prop :=
  if (alg =? -8)%Z then
    dsign_init lib key = true /\
    forall t room, ev_size lib key <= room -> exists sig, dsign lib key t room = Some sig /\ blen sig = ev_size lib key
  else forall halg d room, hash_for alg = Some halg -> blen d = digest_length halg ->
    if is_ecdsa_id alg then
      2 * coordinate_length (ev_bits lib key) + 10 <= room ->
      exists r s, pkey_sign lib {| px_key := key; px_verify := false; px_params := [] |} d room = Some (der_signature r s) /\
        r < 256 ^ coordinate_length (ev_bits lib key) /\ s < 256 ^ coordinate_length (ev_bits lib key)
    else
      ev_size lib key <= room ->
      exists sig, pkey_sign lib {| px_key := key; px_verify := false; px_params := pss_settings alg |} d room = Some sig /\ blen sig = ev_size lib key.

(** The same of PSA; the key is of the kind the algorithm needs. *)
Definition psa_can_hash (lib : psa) : Prop := forall md, is_hash_id md -> psa_hash_setup lib (PHash md) = 0%Z.
Definition psa_can_sign (lib : psa) (alg : Z) (key n : N) : Prop :=
  exists bits, psa_key lib key = (0%Z, if is_ecdsa_id alg then PKEcc else PKRsa, bits) /\
    n = (if is_ecdsa_id alg then 2 else 1) * coordinate_length bits /\
    forall halg d room, hash_for alg = Some halg -> blen d = digest_length halg -> n <= room ->
      exists sig, psa_sign_hash lib key (if is_ecdsa_id alg then PEcdsa halg else PRsaPss halg) d room = (0%Z, sig) /\ blen sig = n.
