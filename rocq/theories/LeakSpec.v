(** Exactly when the OpenSSL adapter loses something it allocated, and exactly
    when its signature conversion leaves the buffer (C31, C33). *)
From Verif Require Import Base Const OpenSSL Spec AdapterSpec.
Open Scope N_scope. Open Scope list_scope.

(** Verification gets as far as putting r and s into an ECDSA_SIG. *)
Definition reaches_sig (c : cfg) (lib : ossl) (alg : Z) (k : tkey) (sig : bytes) (r s : N) : Prop :=
  let len := coordinate_length (ev_bits lib (k_handle k)) in
  ecdsa_enabled c alg /\ ossl_key k /\ r < 256 ^ len /\ s < 256 ^ len /\ sig = cose_signature len r s /\
  bn_ok lib true (big_endian (N.to_nat len) r) = true /\ bn_ok lib false (big_endian (N.to_nat len) s) = true /\
  sig_new lib = true.

(** Size of the buffer for the DER form: the longest ECDSA signature of the build
    and 16. *)
Definition der_room (c : cfg) : N := (if dis_es512 c then if dis_es384 c then 64 else 96 else 132) + 16.

Definition loses_sig (c : cfg) (lib : ossl) (alg : Z) (k : tkey) (sig : bytes) : Prop :=
  exists r s, reaches_sig c lib alg k sig r s /\ sig_set0 lib r s = false.
Definition loses_der (c : cfg) (lib : ossl) (alg : Z) (k : tkey) (sig : bytes) : Prop :=
  exists r s der, reaches_sig c lib alg k sig r s /\ sig_set0 lib r s = true /\ i2d_sig lib r s = Some der /\
    (der_room c < blen der \/ der = []).
