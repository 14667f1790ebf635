(** Keys that cannot be used, as the libraries report them. *)
From Verif Require Import Base Const Crypto OpenSSL Psa Spec SignSpec.
Open Scope N_scope. Open Scope list_scope.

(** PSA (psa/crypto_values.h): no such key (PSA_ERROR_DOES_NOT_EXIST,
    PSA_ERROR_INVALID_HANDLE); a key that is not for this (PSA_ERROR_NOT_PERMITTED,
    PSA_ERROR_INVALID_ARGUMENT); a buffer that is too small. *)
Definition psa_no_key (status : Z) : Prop := status = (-140)%Z \/ status = (-136)%Z.
Definition psa_wrong_key (status : Z) : Prop := status = (-133)%Z \/ status = (-135)%Z.
Definition psa_small_buffer (status : Z) : Prop := status = (-138)%Z.

(** OpenSSL: a context for this key cannot be used for this, or does not take the
    settings that go with the algorithm. *)
Definition ossl_wrong_key (lib : ossl) (verify : bool) (key : N) (settings : list pparam) : Prop :=
  ctx_init lib {| px_key := key; px_verify := verify; px_params := [] |} = false \/
  exists before p after, settings = before ++ p :: after /\
    ctx_set lib {| px_key := key; px_verify := verify; px_params := before |} p = false.

(** The codes t_cose_common.h and t_cose_crypto.h have for these. *)
Definition key_codes : list terr := [ERR_UNKNOWN_KEY; ERR_WRONG_TYPE_OF_KEY].

(** The OpenSSL adapter or the PSA adapter, with any library behaviour. *)
Definition own_adapter (c : cfg) (cr : crypto) : Prop :=
  (exists lib, cr = openssl c lib) \/ (exists lib, cr = psa_crypto c lib).
