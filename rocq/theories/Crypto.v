(** The crypto adapter interface, src/t_cose_crypto.h, as a record of
    functions. Theorems about t_cose proper quantify over this record; the
    adapters are modelled separately and supply instances. *)
From Verif Require Import Base Const.
Open Scope N_scope.

Record crypto := {
  (** struct t_cose_crypto_hash, 431-475 *)
  cr_hctx : Type;
  (** t_cose_crypto_hash_start, 537-539; the context matters only on success *)
  cr_hash_start : Z -> terr * cr_hctx;
  (** t_cose_crypto_hash_update, 563-566 *)
  cr_hash_update : cr_hctx -> ubufc -> out cr_hctx;
  (** t_cose_crypto_hash_finish, 596-599, given the size of the buffer *)
  cr_hash_finish : cr_hctx -> N -> out (terr * bytes);
  (** t_cose_crypto_sig_size, 163-166 *)
  cr_sig_size : Z -> tkey -> terr * N;
  (** t_cose_crypto_sign, 221-226, given the size of the buffer: bytes stored
      there, meaningful on success *)
  cr_sign : Z -> tkey -> bytes -> N -> out (terr * bytes);
  (** t_cose_crypto_verify, 279-284 *)
  cr_verify : Z -> tkey -> ubufc -> bytes -> bytes -> out terr;
  (** t_cose_crypto_sign_eddsa, t_cose_crypto_verify_eddsa, 335-386 *)
  cr_sign_eddsa : tkey -> bytes -> N -> out (terr * bytes);
  cr_verify_eddsa : tkey -> ubufc -> bytes -> bytes -> out terr;
  (** t_cose_crypto_is_algorithm_supported, 144 *)
  cr_is_supported : Z -> bool }.
