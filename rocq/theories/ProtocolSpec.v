(** How an adapter is called in one signing or verification call, as
    src/t_cose_crypto.h describes its functions. *)
From Verif Require Import Base Const QEnc Crypto Util Spec SignSpec.
Open Scope N_scope. Open Scope list_scope.

(** Size of the largest digest of the signing algorithms in the build. *)
Definition largest_digest (c : cfg) (n : N) : Prop :=
  (exists alg, enabled c alg /\ exists halg, hash_for alg = Some halg /\
     In (halg, n) [((-16)%Z, 32); ((-43)%Z, 48); ((-44)%Z, 64)]) /\
  forall alg halg n', enabled c alg -> hash_for alg = Some halg ->
     In (halg, n') [((-16)%Z, 32); ((-43)%Z, 48); ((-44)%Z, 64)] -> n' <= n.

(** At most one hash operation and, after it, at most one call concerning a key.
    [direct]: such a call without a hash before it. [on_digest]: such a call
    after a hash operation that returned this digest. *)
Inductive orderly (c : cfg) (cr : crypto) (alg : Z) (direct : event -> Prop) (on_digest : bytes -> event -> Prop)
  : list event -> Prop :=
| nothing_called : orderly c cr alg direct on_digest []
| key_only ev : direct ev -> orderly c cr alg direct on_digest [ev]
| hash_not_started halg : hash_for alg = Some halg -> fst (cr_hash_start cr halg) <> T_SUCCESS ->
    orderly c cr alg direct on_digest [EvHashStart halg]
| hashed_only halg h pieces h' :
    hash_for alg = Some halg -> cr_hash_start cr halg = (T_SUCCESS, h) ->
    length pieces = 7%nat -> update_all cr h pieces = Ret h' ->
    orderly c cr alg direct on_digest (EvHashStart halg :: map EvHashUpdate pieces ++ [EvHashFinish])
| hashed_and_key halg h pieces h' room d ev :
    hash_for alg = Some halg -> cr_hash_start cr halg = (T_SUCCESS, h) ->
    length pieces = 7%nat -> update_all cr h pieces = Ret h' ->
    largest_digest c room -> cr_hash_finish cr h' room = Ret (T_SUCCESS, d) -> on_digest d ev ->
    orderly c cr alg direct on_digest (EvHashStart halg :: map EvHashUpdate pieces ++ [EvHashFinish; ev]).

(** Calls of signing for algorithm [alg] and key [k]. *)
Definition signs_directly (alg : Z) (k : tkey) (ev : event) : Prop :=
  alg = (-8)%Z /\ (ev = EvSigSize alg k \/ exists tbs, ev = EvSignEddsa k tbs).
Definition signs_digest (alg : Z) (k : tkey) (d : bytes) (ev : event) : Prop :=
  ev = EvSigSize alg k \/ ev = EvSign alg k d.

(** Calls of verification. *)
Definition verifies_directly (alg : Z) (k : tkey) (kid : ubufc) (sig : bytes) (ev : event) : Prop :=
  alg = (-8)%Z /\ exists tbs, ev = EvVerifyEddsa k kid tbs sig.
Definition verifies_digest (alg : Z) (k : tkey) (kid : ubufc) (sig : bytes) (d : bytes) (ev : event) : Prop :=
  ev = EvVerify alg k kid d sig.

(** Nothing is signed. *)
Definition no_signature (log : list event) : Prop :=
  forall ev, In ev log -> match ev with EvSign _ _ _ | EvSignEddsa _ _ => False | _ => True end.
