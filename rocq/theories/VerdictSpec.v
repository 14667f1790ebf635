(** Whether a signature is right, as seen from outside. *)
From Verif Require Import Base Const Crypto OpenSSL Psa AdapterSpec Params Spec SignSpec LiveSpec VerifySpec InterSpec.
Open Scope N_scope. Open Scope list_scope.

(** Asked about a signature, the library says yes or no (OpenSSL 1 or 0, PSA 0 or
    PSA_ERROR_INVALID_SIGNATURE) and never reports another error. *)
Definition yes_or_no (l : library) : Prop :=
  match l with
  | LOssl lib => (forall x sig h, pkey_verify lib x sig h = 0%Z \/ pkey_verify lib x sig h = 1%Z) /\
                 (forall key sig t, dverify lib key sig t = 0%Z \/ dverify lib key sig t = 1%Z)
  | LPsa lib => forall key a h sig, psa_verify_hash lib key a h sig = 0%Z \/ psa_verify_hash lib key a h sig = (-149)%Z
  end.

(** [sig] is right for [tbs]: a signature of its digest (for EdDSA: of itself), or
    with the short-circuit key id the digest. *)
Definition right_signature (c : cfg) (H : Z -> bytes -> bytes) (V : scheme) (p : params) (tbs sig : bytes) : Prop :=
  if short_circuit_kid c p then exists halg rest, hash_for (p_alg p) = Some halg /\ sig = H halg tbs ++ rest
  else if (p_alg p =? -8)%Z then V tbs sig
  else exists halg, hash_for (p_alg p) = Some halg /\ V (H halg tbs) sig.

(** A signature that is right for two different inputs: a collision of the hash, or
    a signature of two digests (for EdDSA: of both inputs). *)
Definition serves_twice (H : Z -> bytes -> bytes) (V : scheme) (alg : Z) (tbs tbs2 sig : bytes) : Prop :=
  tbs <> tbs2 /\
  if (alg =? -8)%Z then V tbs sig /\ V tbs2 sig
  else exists halg, hash_for alg = Some halg /\ V (H halg tbs) sig /\ V (H halg tbs2) sig.
