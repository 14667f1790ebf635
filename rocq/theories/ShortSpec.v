(** Adapters that differ in public-key cryptography only. *)
From Verif Require Import Base Const Crypto.
Open Scope N_scope. Open Scope list_scope.

(** The other parts of an adapter than its hashes. *)
Record public_key_functions := {
  pk_sig_size : Z -> tkey -> terr * N;
  pk_sign : Z -> tkey -> bytes -> N -> out (terr * bytes);
  pk_verify : Z -> tkey -> ubufc -> bytes -> bytes -> out terr;
  pk_sign_eddsa : tkey -> bytes -> N -> out (terr * bytes);
  pk_verify_eddsa : tkey -> ubufc -> bytes -> bytes -> out terr;
  pk_is_supported : Z -> bool }.

(** [cr] with its public-key functions replaced. *)
Definition with_public_key (cr : crypto) (pk : public_key_functions) : crypto :=
  {| cr_hctx := cr_hctx cr; cr_hash_start := cr_hash_start cr; cr_hash_update := cr_hash_update cr; cr_hash_finish := cr_hash_finish cr;
     cr_sig_size := pk_sig_size pk; cr_sign := pk_sign pk; cr_verify := pk_verify pk; cr_sign_eddsa := pk_sign_eddsa pk;
     cr_verify_eddsa := pk_verify_eddsa pk; cr_is_supported := pk_is_supported pk |}.

(** Calls of hash functions. *)
Definition hash_call (e : event) : Prop :=
  match e with EvHashStart _ | EvHashUpdate _ | EvHashFinish => True | _ => False end.

(** Functions that are not connected up: the first call is the end. *)
Definition not_connected : public_key_functions :=
  {| pk_sig_size := fun _ _ => (ERR_FAIL, 0); pk_sign := fun _ _ _ _ => UB NullDeref; pk_verify := fun _ _ _ _ _ => UB NullDeref;
     pk_sign_eddsa := fun _ _ _ => UB NullDeref; pk_verify_eddsa := fun _ _ _ _ => UB NullDeref; pk_is_supported := fun _ => false |}.
