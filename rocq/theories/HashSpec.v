(** The hash functions of an adapter used by themselves, as t_cose_crypto.h
    documents them: start, any number of updates, finish. *)
From Verif Require Import Base Const Crypto OpenSSL Psa SignSpec.
Open Scope N_scope. Open Scope list_scope.

(** The error and the digest an application sees. Nothing more is called after a
    start that failed. *)
Definition hash_all (cr : crypto) (halg : Z) (pieces : list ubufc) (room : N) : out (terr * bytes) :=
  match cr_hash_start cr halg with
  | (T_SUCCESS, h) => match update_all cr h pieces with Ret h => cr_hash_finish cr h room | UB w => UB w end
  | (e, _) => Ret (e, [])
  end.

(** The pieces that are there. *)
Definition present (pieces : list ubufc) : list ubufc :=
  filter (fun u => match u with UNull _ => false | UBuf _ => true end) pieces.

(** The bytes of all of them. *)
Definition all_data (pieces : list ubufc) : bytes := flat_map u_data pieces.

(** A library that takes all data. *)
Definition ossl_takes (lib : ossl) : Prop := forall md before d, md_update lib md before d = true.
Definition psa_takes (lib : psa) : Prop := forall a before d, psa_hash_update lib a before d = 0%Z.
(** The loop of the bundled SHA-256 counts in 32 bits (C29). *)
Definition sha_takes (pieces : list ubufc) : Prop := Forall (fun u => blen (u_data u) < 2 ^ 32) pieces.
