(** Relations between build configurations. *)
From Verif Require Import Base Const Crypto SignSpec OpenSSL AdapterSpec.
Open Scope N_scope. Open Scope list_scope.

(** Two builds that may differ in the signing algorithms only. *)
Definition same_features (c c2 : cfg) : Prop :=
  dis_short_circuit c = dis_short_circuit c2 /\ dis_content_type c = dis_content_type c2.

(** The algorithm is in both builds. *)
Definition in_both (c c2 : cfg) (alg : Z) : Prop := enabled c alg /\ enabled c2 alg.

(** [c2] has every algorithm of [c]. *)
Definition more_algorithms (c c2 : cfg) : Prop := forall alg, enabled c alg -> enabled c2 alg.

(** The adapters of two builds do the same for one algorithm and key. [R]: hash
    contexts that correspond. Each build offers a digest buffer of its own size. *)
Definition adapters_alike (c : cfg) (cr : crypto) (c2 : cfg) (cr2 : crypto) (alg : Z) (k : tkey) : Prop :=
  exists R : cr_hctx cr -> cr_hctx cr2 -> Prop,
    (forall halg, hash_for alg = Some halg ->
       fst (cr_hash_start cr halg) = fst (cr_hash_start cr2 halg) /\
       (fst (cr_hash_start cr halg) = T_SUCCESS -> R (snd (cr_hash_start cr halg)) (snd (cr_hash_start cr2 halg)))) /\
    (forall h h2 u, R h h2 ->
       match cr_hash_update cr h u, cr_hash_update cr2 h2 u with
       | Ret a, Ret b => R a b
       | UB x, UB y => x = y
       | _, _ => False
       end) /\
    (forall h h2, R h h2 -> cr_hash_finish cr h (max_hash_size c) = cr_hash_finish cr2 h2 (max_hash_size c2)) /\
    cr_sig_size cr alg k = cr_sig_size cr2 alg k /\
    (forall d room, cr_sign cr alg k d room = cr_sign cr2 alg k d room) /\
    (forall kid d sig, cr_verify cr alg k kid d sig = cr_verify cr2 alg k kid d sig) /\
    (alg = (-8)%Z ->
       (forall t room, cr_sign_eddsa cr k t room = cr_sign_eddsa cr2 k t room) /\
       (forall kid t sig, cr_verify_eddsa cr k kid t sig = cr_verify_eddsa cr2 k kid t sig)).

(** OpenSSL keys for the ECDSA algorithm [alg] that are no longer than either
    build expects, so that its DER buffer does not matter. *)
Definition fits_buffers (c c2 : cfg) (lib : ossl) (alg : Z) (key : N) : Prop :=
  ecdsa_enabled c alg ->
  2 * coordinate_length (ev_bits lib key) <= max_ecdsa_sig_size c /\
  2 * coordinate_length (ev_bits lib key) <= max_ecdsa_sig_size c2 /\
  (forall h, pkey_sign lib {| px_key := key; px_verify := false; px_params := [] |} h (der_buffer_size c) =
             pkey_sign lib {| px_key := key; px_verify := false; px_params := [] |} h (der_buffer_size c2)).
