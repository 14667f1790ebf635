(** The test crypto adapter, crypto_adapters/t_cose_test_crypto.c;
    [test_crypto] is built without T_COSE_ENABLE_HASH_FAIL_TEST. [wraps]: see Sha256.v. [junk]: what the hash
    context holds before it is initialised. *)
From Verif Require Import Base Const Crypto Params Sha256 Algs.
Open Scope N_scope. Open Scope list_scope. Open Scope mon_scope.

(** t_cose_crypto_is_algorithm_supported, 55-64 *)
Definition test_is_supported (alg : Z) : bool := t_cose_check_list alg [SHA_256; 0%Z].

(** t_cose_crypto_sig_size, 70-80 *)
Definition test_sig_size (c : cfg) (alg : Z) (k : tkey) : terr * N := (T_SUCCESS, max_ecdsa_sig_size c).

(** t_cose_crypto_sign, 86-99 *)
Definition test_sign (alg : Z) (k : tkey) (hash : bytes) (room : N) : out (terr * bytes) :=
  Ret (ERR_UNSUPPORTED_SIGNING_ALG, []).

(** t_cose_crypto_verify, 105-118 *)
Definition test_verify (alg : Z) (k : tkey) (kid : ubufc) (hash sig : bytes) : out terr :=
  Ret ERR_UNSUPPORTED_SIGNING_ALG.

(** t_cose_crypto_hash_start, 138-154 *)
Definition test_hash_start (junk : bytes) (halg : Z) : terr * sha_ctx :=
  if negb (halg =? SHA_256)%Z then (ERR_UNSUPPORTED_HASH, sha256_init junk)
  else (T_SUCCESS, sha256_init junk).

(** t_cose_crypto_hash_update, 159-167 *)
Definition test_hash_update (wraps : bool) (h : sha_ctx) (u : ubufc) : out sha_ctx :=
  match u with
  | UNull _ => Ret h
  | UBuf d => sha256_update wraps h d
  end.

(** t_cose_crypto_hash_finish, 172-187. The size of the buffer is not looked at. *)
Definition test_hash_finish (wraps : bool) (h : sha_ctx) (room : N) : out (terr * bytes) :=
  let? hash := sha256_final wraps h (repeat x00 (N.to_nat room)) in
  Ret (T_SUCCESS, firstn 32 hash).

(** t_cose_crypto_sign_eddsa, t_cose_crypto_verify_eddsa, 195-223 *)
Definition test_sign_eddsa (k : tkey) (tbs : bytes) (room : N) : out (terr * bytes) :=
  Ret (ERR_UNSUPPORTED_SIGNING_ALG, []).
Definition test_verify_eddsa (k : tkey) (kid : ubufc) (tbs sig : bytes) : out terr :=
  Ret ERR_UNSUPPORTED_SIGNING_ALG.

Definition test_crypto (wraps : bool) (junk : bytes) (c : cfg) : crypto := {|
  cr_hctx := sha_ctx;
  cr_hash_start := test_hash_start junk;
  cr_hash_update := test_hash_update wraps;
  cr_hash_finish := test_hash_finish wraps;
  cr_sig_size := test_sig_size c;
  cr_sign := test_sign;
  cr_verify := test_verify;
  cr_sign_eddsa := test_sign_eddsa;
  cr_verify_eddsa := test_verify_eddsa;
  cr_is_supported := test_is_supported |}.

(** The adapter built with T_COSE_ENABLE_HASH_FAIL_TEST, 42-47, 142-146, 177-181;
    [mode]: the global variable hash_test_mode, 0 unless a test sets it. A hash
    context whose start failed is left as it was; nothing uses it. *)
Definition test_crypto_failing (mode : Z) (wraps : bool) (junk : bytes) (c : cfg) : crypto := {|
  cr_hctx := sha_ctx;
  cr_hash_start := fun halg => if (mode =? 1)%Z then (ERR_HASH_GENERAL_FAIL, sha256_init junk) else test_hash_start junk halg;
  cr_hash_update := test_hash_update wraps;
  cr_hash_finish := fun h room => if (mode =? 2)%Z then Ret (ERR_HASH_GENERAL_FAIL, []) else test_hash_finish wraps h room;
  cr_sig_size := test_sig_size c;
  cr_sign := test_sign;
  cr_verify := test_verify;
  cr_sign_eddsa := test_sign_eddsa;
  cr_verify_eddsa := test_verify_eddsa;
  cr_is_supported := test_is_supported |}.
