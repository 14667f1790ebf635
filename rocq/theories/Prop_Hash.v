(** C72: the hash functions of the adapters, as documented in t_cose_crypto.h. *)
From Verif Require Import Base Const Crypto Sha256Spec TestCrypto OpenSSL Psa SignSpec FaultSpec HashSpec.
From Verif Require Import HashFacts Toy DemoLib Demo.
Open Scope N_scope. Open Scope list_scope.

(** A hash that is not in the build, T_COSE_INVALID_ALGORITHM_ID among them, is
    refused with the documented error; with PSA if the library refuses an
    algorithm that does not exist. *)
Theorem C72_unsupported : forall c halg pieces room,
  (forall lib, ~ offered c halg -> hash_all (openssl c lib) halg pieces room = Ret (ERR_UNSUPPORTED_HASH, [])) /\
  (forall lib, ~ offered c halg -> psa_hash_setup lib PUint16Max = (-134)%Z \/ psa_hash_setup lib PUint16Max = (-135)%Z ->
     hash_all (psa_crypto c lib) halg pieces room = Ret (ERR_UNSUPPORTED_HASH, [])) /\
  (forall junk, halg <> (-16)%Z -> hash_all (test_crypto true junk c) halg pieces room = Ret (ERR_UNSUPPORTED_HASH, [])).
Proof.
  intros c halg pieces room. split; [|split].
  - intros lib. exact (ossl_not_offered c lib halg pieces room).
  - intros lib. exact (psa_not_offered c lib halg pieces room).
  - intros junk. exact (test_not_offered junk c halg pieces room).
Qed.
Print Assumptions C72_unsupported.

(** NULL pieces, whatever length comes with them, do nothing. *)
Theorem C72_null : forall c halg pieces room,
  (forall lib, hash_all (openssl c lib) halg pieces room = hash_all (openssl c lib) halg (present pieces) room) /\
  (forall lib, hash_all (psa_crypto c lib) halg pieces room = hash_all (psa_crypto c lib) halg (present pieces) room) /\
  (forall junk, hash_all (test_crypto true junk c) halg pieces room = hash_all (test_crypto true junk c) halg (present pieces) room).
Proof.
  intros c halg pieces room. split; [|split]; intro x; apply present_hash.
  - exact (ossl_null_update c x).
  - exact (psa_null_update c x).
  - exact (test_null_update x c).
Qed.
Print Assumptions C72_null.

(** How the data is cut into pieces does not matter. *)
Theorem C72_pieces : forall c halg pieces room,
  (forall lib, ossl_takes lib ->
     hash_all (openssl c lib) halg pieces room = hash_all (openssl c lib) halg [UBuf (all_data pieces)] room) /\
  (forall lib, psa_takes lib ->
     hash_all (psa_crypto c lib) halg pieces room = hash_all (psa_crypto c lib) halg [UBuf (all_data pieces)] room) /\
  (forall junk, length junk = 64%nat -> sha_takes pieces -> 32 <= room ->
     hash_all (test_crypto true junk c) (-16) pieces room = Ret (T_SUCCESS, sha256 (all_data pieces))).
Proof.
  intros c halg pieces room. split; [|split].
  - intros lib. exact (ossl_digest c lib halg pieces room).
  - intros lib. exact (psa_digest c lib halg pieces room).
  - intros junk. exact (test_digest junk c pieces room).
Qed.
Print Assumptions C72_pieces.

(** Data the library refuses makes the hash fail at the end, whatever follows and
    whatever the library says of it. With PSA the first refusal names the error. *)
Theorem C72_refused : forall c halg l b l' room,
  (forall lib h, cr_hash_start (openssl c lib) halg = (T_SUCCESS, h) -> md_update lib halg (all_data l) b = false ->
     hash_all (openssl c lib) halg (l ++ UBuf b :: l') room = Ret (ERR_HASH_GENERAL_FAIL, [])) /\
  (forall lib h a, cr_hash_start (psa_crypto c lib) halg = (T_SUCCESS, h) -> psa_hash_of c halg a ->
     (forall x d y, l = x ++ UBuf d :: y -> psa_hash_update lib a (all_data x) d = 0%Z) ->
     psa_hash_update lib a (all_data l) b <> 0%Z ->
     exists e, hash_all (psa_crypto c lib) halg (l ++ UBuf b :: l') room = Ret (e, []) /\
               hash_status_means (psa_hash_update lib a (all_data l) b) e).
Proof.
  intros c halg l b l' room. split.
  - intros lib h. exact (ossl_refused c lib halg l b l' room h).
  - intros lib h a. exact (psa_refused c lib halg a l b l' room h).
Qed.
Print Assumptions C72_refused.

(** The digest returned lies within the buffer given. *)
Theorem C72_within : forall c halg pieces room d,
  (forall lib, hash_all (openssl c lib) halg pieces room = Ret (T_SUCCESS, d) -> blen d <= room) /\
  (forall lib, hash_all (psa_crypto c lib) halg pieces room = Ret (T_SUCCESS, d) -> blen d <= room).
Proof. intros. split; intro lib; [exact (ossl_in_room c lib halg pieces room d)|exact (psa_in_room c lib halg pieces room d)]. Qed.
Print Assumptions C72_within.

(** A buffer that is too small is reported by the PSA adapter. *)
Theorem C72_small_buffer_partial : forall c lib halg a pieces room h, psa_takes lib ->
  cr_hash_start (psa_crypto c lib) halg = (T_SUCCESS, h) -> psa_hash_of c halg a ->
  psa_hash_finish lib a (all_data pieces) room = ((-138)%Z, []) ->
  hash_all (psa_crypto c lib) halg pieces room = Ret (ERR_HASH_BUFFER_SIZE, []).
Proof. exact psa_too_small. Qed.
Print Assumptions C72_small_buffer_partial.

(** The OpenSSL and test adapters do not look at its size: they write past its
    end, for every digest longer than it. *)
Theorem C72_small_buffer_refuted :
  (forall c lib halg pieces room h d, ossl_takes lib -> cr_hash_start (openssl c lib) halg = (T_SUCCESS, h) ->
     md_final lib halg (all_data pieces) = Some d -> room < blen d ->
     hash_all (openssl c lib) halg pieces room = UB OOBWrite) /\
  (forall c junk pieces room, length junk = 64%nat -> sha_takes pieces -> room < 32 ->
     exists w, hash_all (test_crypto true junk c) (-16) pieces room = UB w) /\
  hash_all (openssl cfg_full (faulty FNone)) (-16) [UBuf [x01]] 31 = UB OOBWrite /\
  hash_all (test_crypto true (zeros 64) cfg_full) (-16) [UBuf [x01]] 31 = UB OOBWrite.
Proof.
  split; [exact ossl_too_small|]. split; [intros c junk; exact (test_too_small junk c)|].
  split; vm_compute; reflexivity.
Qed.
Print Assumptions C72_small_buffer_refuted.

(** Pieces, NULL and empty ones, hashes not in the build, refusals. *)
Definition cut : list ubufc := [UBuf [x01; x02]; UNull 7; UBuf []; UBuf [x03]].
Example C72_case :
  all_data cut = [x01; x02; x03] /\ present cut = [UBuf [x01; x02]; UBuf []; UBuf [x03]] /\ sha_takes cut /\
  ~ offered cfg_full 0 /\ offered cfg_full (-44) /\ ossl_takes (faulty FNone) /\ psa_takes (faulty_psa PFNone) /\
  hash_all (test_crypto true (zeros 64) cfg_full) (-16) cut 32 = Ret (T_SUCCESS, sha256 [x01; x02; x03]).
Proof.
  split; [reflexivity|]. split; [reflexivity|]. split; [repeat constructor|].
  split; [unfold offered; intuition discriminate|]. split; [unfold offered; cbn; auto|].
  split; [intros md before d; reflexivity|]. split; [intros a before d; reflexivity|]. vm_compute. reflexivity.
Qed.

Example C72_adapters_case :
  let o f halg room := hash_all (openssl cfg_full (faulty f)) halg cut room in
  let p f halg room := hash_all (psa_crypto cfg_full (faulty_psa f)) halg cut room in
  o FNone (-16)%Z 32 = hash_all (openssl cfg_full (faulty FNone)) (-16) [UBuf [x01; x02; x03]] 32 /\
  match o FNone (-16)%Z 32 with Ret (T_SUCCESS, d) => blen d = 32 | _ => False end /\
  p PFNone (-16)%Z 32 = hash_all (psa_crypto cfg_full (faulty_psa PFNone)) (-16) [UBuf [x01; x02; x03]] 32 /\
  o FNone 0%Z 32 = Ret (ERR_UNSUPPORTED_HASH, []) /\ p PFNone 0%Z 32 = Ret (ERR_UNSUPPORTED_HASH, []) /\
  o (FUpdate 2) (-16)%Z 32 = Ret (ERR_HASH_GENERAL_FAIL, []) /\
  p (PFUpdate 2 (-132)) (-16)%Z 32 = Ret (ERR_HASH_GENERAL_FAIL, []) /\
  p PFNone (-16)%Z 31 = Ret (ERR_HASH_BUFFER_SIZE, []).
Proof. vm_compute. repeat split. Qed.
