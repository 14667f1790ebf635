(** Crypto libraries seen from outside: which signatures they make and accept,
    whatever their interfaces. *)
From Verif Require Import Base Const Crypto OpenSSL Psa AdapterSpec Params Spec SignSpec LiveSpec VerifySpec.
Open Scope N_scope. Open Scope list_scope.

(** A key pair with an algorithm: which byte strings are signatures, in the COSE
    format, of which digests (for EdDSA: of which inputs). *)
Definition scheme := bytes -> bytes -> Prop.

(** One of the two libraries, and the adapter for it in a build. *)
Inductive library := LOssl (lib : ossl) | LPsa (lib : psa).
Definition adapter (c : cfg) (l : library) : crypto :=
  match l with LOssl lib => openssl c lib | LPsa lib => psa_crypto c lib end.

(** The library does its work; its hashes are the function [H]. *)
Definition library_works (l : library) (H : Z -> bytes -> bytes) : Prop :=
  match l with
  | LOssl lib => openssl_works lib H /\ ossl_can_hash lib
  | LPsa lib => psa_hash_library lib H /\ psa_within_room lib /\ psa_can_hash lib
  end.

(** The PSA algorithm that goes with a COSE algorithm. *)
Definition psa_alg (alg halg : Z) : palg := if is_ecdsa_id alg then PEcdsa halg else PRsaPss halg.

(** What the library makes with [key] for [alg] are signatures of [V]. OpenSSL
    makes ECDSA signatures in DER. *)
Definition makes (l : library) (alg : Z) (key : N) (V : scheme) : Prop :=
  match l with
  | LOssl lib =>
      if is_ecdsa_id alg then
        forall h room der r s, pkey_sign lib {| px_key := key; px_verify := false; px_params := [] |} h room = Some der ->
          d2i_sig lib der = Some (r, s) -> V h (cose_signature (coordinate_length (ev_bits lib key)) r s)
      else if (alg =? -8)%Z then forall t room sig, dsign lib key t room = Some sig -> V t sig
      else forall h room sig,
        pkey_sign lib {| px_key := key; px_verify := false; px_params := pss_settings alg |} h room = Some sig -> V h sig
  | LPsa lib =>
      forall halg h room sig, hash_for alg = Some halg -> psa_sign_hash lib key (psa_alg alg halg) h room = (0%Z, sig) -> V h sig
  end.

(** The library accepts with [k] for [alg] the signatures of [V] and no others.
    ECDSA signatures are two coordinates of the length the key has; OpenSSL is
    given them in DER. PSA does not do EdDSA here. *)
Definition accepts (l : library) (alg : Z) (k : tkey) (V : scheme) : Prop :=
  match l with
  | LOssl lib =>
      ossl_key k /\
      if is_ecdsa_id alg then
        let len := coordinate_length (ev_bits lib (k_handle k)) in
        on_curve lib alg (k_handle k) /\
        (forall h r s, r < 256 ^ len -> s < 256 ^ len ->
           (pkey_verify lib {| px_key := k_handle k; px_verify := true; px_params := [] |} (der_signature r s) h = 1%Z <->
            V h (cose_signature len r s))) /\
        (forall h sig, V h sig -> exists r s, r < 256 ^ len /\ s < 256 ^ len /\ sig = cose_signature len r s)
      else if (alg =? -8)%Z then
        dverify_init lib (k_handle k) = true /\ forall t sig, dverify lib (k_handle k) sig t = 1%Z <-> V t sig
      else forall h sig,
        pkey_verify lib {| px_key := k_handle k; px_verify := true; px_params := pss_settings alg |} sig h = 1%Z <-> V h sig
  | LPsa lib =>
      alg <> (-8)%Z /\
      forall halg h sig, hash_for alg = Some halg -> (psa_verify_hash lib (k_handle k) (psa_alg alg halg) h sig = 0%Z <-> V h sig)
  end.

(** What a verifier of build [c2] reports for request [q] signed with build [c]:
    a content type only if both know of them. *)
Definition seen_params (c c2 : cfg) (q : request) : params :=
  if dis_content_type c2 then asked_params c2 q else asked_params c q.
