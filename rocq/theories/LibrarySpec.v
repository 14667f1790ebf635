(** What OpenSSL and PSA were asked and answered when t_cose reports success. *)
From Verif Require Import Base Const Crypto OpenSSL Psa Spec SignSpec AdapterSpec.
Open Scope N_scope. Open Scope list_scope.

(** Every piece was taken by a context that had taken the pieces before it. *)
Fixpoint taken (ok : bytes -> bytes -> Prop) (before : bytes) (pieces : list bytes) : Prop :=
  match pieces with
  | [] => True
  | b :: r => ok before b /\ taken ok (before ++ b) r
  end.

(** OpenSSL hashed [data] to [d], no call failing. *)
Definition ossl_hashed (lib : ossl) (md : Z) (data d : bytes) : Prop :=
  md_known lib md = true /\ md_new lib = true /\ md_init lib md = true /\
  (exists pieces, concat pieces = data /\ taken (fun before b => md_update lib md before b = true) [] pieces) /\
  md_final lib md data = Some d.

(** The same for PSA. *)
Definition psa_hashed (lib : psa) (md : Z) (data d : bytes) : Prop :=
  psa_hash_setup lib (PHash md) = 0%Z /\
  (exists pieces, concat pieces = data /\ taken (fun before b => psa_hash_update lib (PHash md) before b = 0%Z) [] pieces) /\
  exists room, psa_hash_finish lib (PHash md) data room = (0%Z, d).

(** An EVP_PKEY_CTX for [key] was made, initialised and took the settings. *)
Fixpoint settings_taken (lib : ossl) (x : pctx) (l : list pparam) : Prop :=
  match l with
  | [] => True
  | p :: r => ctx_set lib x p = true /\
      settings_taken lib {| px_key := px_key x; px_verify := px_verify x; px_params := px_params x ++ [p] |} r
  end.
Definition context_made (lib : ossl) (key : N) (verify : bool) (settings : list pparam) : Prop :=
  let x := {| px_key := key; px_verify := verify; px_params := [] |} in
  ctx_new lib key = true /\ ctx_init lib x = true /\ settings_taken lib x settings.

(** OpenSSL made the signature [sig] of the digest [d]. *)
Definition ossl_signed (c : cfg) (lib : ossl) (alg : Z) (k : tkey) (d sig : bytes) : Prop :=
  ossl_key k /\
  ((ecdsa_enabled c alg /\ context_made lib (k_handle k) false [] /\
    exists room der r s, let len := coordinate_length (ev_bits lib (k_handle k)) in
      pkey_sign lib {| px_key := k_handle k; px_verify := false; px_params := [] |} d room = Some der /\
      d2i_sig lib der = Some (r, s) /\ sig = cose_signature len r s) \/
   (pss_enabled c alg /\ context_made lib (k_handle k) false (pss_settings alg) /\
    exists room, pkey_sign lib {| px_key := k_handle k; px_verify := false; px_params := pss_settings alg |} d room = Some sig)).

Definition ossl_signed_eddsa (lib : ossl) (k : tkey) (tbs sig : bytes) : Prop :=
  ossl_key k /\ md_new lib = true /\ dsign_init lib (k_handle k) = true /\ exists room, dsign lib (k_handle k) tbs room = Some sig.

(** OpenSSL accepted [sig]. *)
Definition ossl_verified (c : cfg) (lib : ossl) (alg : Z) (k : tkey) (d sig : bytes) : Prop :=
  ossl_key k /\ ossl_accepts c lib alg k d sig /\
  context_made lib (k_handle k) true (if (alg =? -37)%Z || (alg =? -38)%Z || (alg =? -39)%Z then pss_settings alg else []).

Definition ossl_verified_eddsa (lib : ossl) (k : tkey) (tbs sig : bytes) : Prop :=
  ossl_key k /\ md_new lib = true /\ dverify_init lib (k_handle k) = true /\ dverify lib (k_handle k) sig tbs = 1%Z.

(** [sig] is the signature that request [q] asks for over [tbs], made by OpenSSL;
    short-circuit signatures take only the digest from it. *)
Definition ossl_made (c : cfg) (lib : ossl) (q : request) (tbs sig : bytes) : Prop :=
  if wants_short_circuit (q_flags q) then
    exists halg d, hash_for (q_alg q) = Some halg /\ ossl_hashed lib halg tbs d /\ sig = repeat_to d (ecdsa_sig_size (q_alg q))
  else if (q_alg q =? -8)%Z then ossl_signed_eddsa lib (q_key q) tbs sig
  else exists halg d, hash_for (q_alg q) = Some halg /\ ossl_hashed lib halg tbs d /\ ossl_signed c lib (q_alg q) (q_key q) d sig.

(** The same for PSA, which has no EdDSA. *)
Definition psa_made (c : cfg) (lib : psa) (q : request) (tbs sig : bytes) : Prop :=
  if wants_short_circuit (q_flags q) then
    exists halg d, hash_for (q_alg q) = Some halg /\ psa_hashed lib halg tbs d /\ sig = repeat_to d (ecdsa_sig_size (q_alg q))
  else exists halg d room, hash_for (q_alg q) = Some halg /\ psa_hashed lib halg tbs d /\ psa_makes c lib (q_alg q) (q_key q) d room sig.
