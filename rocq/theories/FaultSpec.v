(** What the error codes of the crypto adapters mean, in terms of what was asked
    of the library and what it answered. *)
From Verif Require Import Base Const Crypto OpenSSL Psa Spec SignSpec AdapterSpec LibrarySpec.
Open Scope N_scope. Open Scope list_scope.

(** ** OpenSSL *)

(** The key or the algorithm is not for this adapter. *)
Definition key_fault (k : tkey) (e : terr) : Prop :=
  (e = ERR_INCORRECT_KEY_FOR_LIB /\ k_lib k <> 1) \/ (e = ERR_EMPTY_KEY /\ k_lib k = 1 /\ k_handle k = 0).
Definition alg_fault (c : cfg) (alg : Z) (e : terr) : Prop :=
  e = ERR_UNSUPPORTED_SIGNING_ALG /\ ~ ecdsa_enabled c alg /\ ~ pss_enabled c alg.

(** Setting up a context for [key] fails: for want of memory, or otherwise. *)
Definition new_fault (lib : ossl) (key : N) (e : terr) : Prop := e = ERR_INSUFFICIENT_MEMORY /\ ctx_new lib key = false.
Definition setup_fault (c : cfg) (lib : ossl) (alg : Z) (key : N) (verify : bool) (e : terr) : Prop :=
  e = ERR_SIG_FAIL /\
  (ctx_init lib {| px_key := key; px_verify := verify; px_params := [] |} = false \/
   pss_enabled c alg /\ exists before p after, pss_settings alg = before ++ p :: after /\
     ctx_set lib {| px_key := key; px_verify := verify; px_params := before |} p = false).

(** The settings that go with an algorithm. *)
Definition settings (c : cfg) (alg : Z) (l : list pparam) : Prop :=
  (ecdsa_enabled c alg /\ l = []) \/ (pss_enabled c alg /\ l = pss_settings alg).

(** Signing: OpenSSL does not sign, what it made is no ECDSA signature, or the
    signature does not fit: no [m] bytes for r and [n] for s do. *)
Definition sign_fault (c : cfg) (lib : ossl) (alg : Z) (key : N) (hash : bytes) (room : N) (e : terr) : Prop :=
  e = ERR_SIG_FAIL /\
  exists l, settings c alg l /\
    let x := {| px_key := key; px_verify := false; px_params := l |} in
    ((exists n, pkey_sign lib x hash n = None) \/
     ecdsa_enabled c alg /\ exists l der, pkey_sign lib x hash l = Some der /\
       (d2i_sig lib der = None \/ exists r s, d2i_sig lib der = Some (r, s) /\
          forall m n, r < 256 ^ m -> s < 256 ^ n -> room < m + n)).

Definition ossl_sign_fault (c : cfg) (lib : ossl) (alg : Z) (k : tkey) (hash : bytes) (room : N) (e : terr) : Prop :=
  alg_fault c alg e \/
  (ecdsa_enabled c alg \/ pss_enabled c alg) /\
  (key_fault k e \/
   ossl_key k /\ (new_fault lib (k_handle k) e \/ setup_fault c lib alg (k_handle k) false e \/ sign_fault c lib alg (k_handle k) hash room e)).

(** Verifying ECDSA: the signature has the wrong length; OpenSSL cannot make its
    own form of it. [len]: length of a coordinate. *)
Definition convert_fault (c : cfg) (lib : ossl) (key : N) (sig : bytes) (e : terr) : Prop :=
  let len := coordinate_length (ev_bits lib key) in
  (e = ERR_SIG_VERIFY /\ blen sig <> 2 * len) \/
  exists r s, r < 256 ^ len /\ s < 256 ^ len /\ sig = cose_signature len r s /\
    ((e = ERR_INSUFFICIENT_MEMORY /\
      (bn_ok lib true (big_endian (N.to_nat len) r) = false \/ bn_ok lib false (big_endian (N.to_nat len) s) = false \/ sig_new lib = false)) \/
     (e = ERR_SIG_FAIL /\
      (sig_set0 lib r s = false \/ i2d_sig lib r s = None \/
       exists der, i2d_sig lib r s = Some der /\ (der = [] \/ der_buffer_size c < blen der)))).

(** OpenSSL's answer: 0 for a wrong signature, 1 for a right one, else an error. *)
Definition answer_fault (answer : Z) (e : terr) : Prop :=
  (e = ERR_SIG_VERIFY /\ answer = 0%Z) \/ (e = ERR_SIG_FAIL /\ answer <> 0%Z /\ answer <> 1%Z).

Definition ossl_verify_fault (c : cfg) (lib : ossl) (alg : Z) (k : tkey) (hash sig : bytes) (e : terr) : Prop :=
  alg_fault c alg e \/
  (ecdsa_enabled c alg \/ pss_enabled c alg) /\
  (key_fault k e \/
   ossl_key k /\
   ((ecdsa_enabled c alg /\ convert_fault c lib (k_handle k) sig e) \/
    new_fault lib (k_handle k) e \/ setup_fault c lib alg (k_handle k) true e \/
    (exists r s der, let len := coordinate_length (ev_bits lib (k_handle k)) in
       ecdsa_enabled c alg /\ r < 256 ^ len /\ s < 256 ^ len /\ sig = cose_signature len r s /\ i2d_sig lib r s = Some der /\
       answer_fault (pkey_verify lib {| px_key := k_handle k; px_verify := true; px_params := [] |} der hash) e) \/
    (pss_enabled c alg /\
       answer_fault (pkey_verify lib {| px_key := k_handle k; px_verify := true; px_params := pss_settings alg |} sig hash) e))).

Definition ossl_size_fault (c : cfg) (alg : Z) (k : tkey) (e : terr) : Prop :=
  key_fault k e \/ (ossl_key k /\ alg_fault c alg e /\ alg <> (-8)%Z).

(** EdDSA. *)
Definition ossl_sign_eddsa_fault (lib : ossl) (k : tkey) (tbs : bytes) (room : N) (e : terr) : Prop :=
  key_fault k e \/
  ossl_key k /\
  ((e = ERR_INSUFFICIENT_MEMORY /\ md_new lib = false) \/
   (e = ERR_SIG_FAIL /\ (dsign_init lib (k_handle k) = false \/ dsign lib (k_handle k) tbs room = None))).
Definition ossl_verify_eddsa_fault (lib : ossl) (k : tkey) (tbs sig : bytes) (e : terr) : Prop :=
  key_fault k e \/
  ossl_key k /\
  ((e = ERR_INSUFFICIENT_MEMORY /\ md_new lib = false) \/
   (e = ERR_SIG_FAIL /\ dverify_init lib (k_handle k) = false) \/
   answer_fault (dverify lib (k_handle k) sig tbs) e).

(** Hashing [data] in some pieces. [offered]: some algorithm of the build uses
    the hash. *)
Definition offered (c : cfg) (halg : Z) : Prop :=
  halg = (-16)%Z \/ (halg = (-43)%Z /\ (dis_es384 c = false \/ dis_ps384 c = false)) \/
  (halg = (-44)%Z /\ (dis_es512 c = false \/ dis_ps512 c = false)).

Definition ossl_start_fault (c : cfg) (lib : ossl) (halg : Z) (e : terr) : Prop :=
  (e = ERR_UNSUPPORTED_HASH /\ (~ offered c halg \/ md_known lib halg = false)) \/
  (e = ERR_INSUFFICIENT_MEMORY /\ md_new lib = false) \/
  (e = ERR_HASH_GENERAL_FAIL /\ md_init lib halg = false).

Definition ossl_digest_fault (lib : ossl) (halg : Z) (pieces : list ubufc) (e : terr) : Prop :=
  e = ERR_HASH_GENERAL_FAIL /\
  ((exists l b l', pieces = l ++ UBuf b :: l' /\ md_update lib halg (flat_map u_data l) b = false) \/
   md_final lib halg (flat_map u_data pieces) = None).

(** ** PSA *)

(** PSA's own codes (psa/crypto_values.h): invalid signature -149, not supported
    -134, insufficient memory -141, corruption detected -151, invalid argument
    -135, buffer too small -138. *)
Definition status_means (status : Z) (e : terr) : Prop :=
  match e with
  | ERR_SIG_VERIFY => status = (-149)%Z
  | ERR_UNSUPPORTED_SIGNING_ALG => status = (-134)%Z
  | ERR_INSUFFICIENT_MEMORY => status = (-141)%Z
  | ERR_TAMPERING_DETECTED => status = (-151)%Z
  | ERR_SIG_FAIL => ~ In status [0; -149; -134; -141; -151]%Z
  | _ => False
  end.
Definition hash_status_means (status : Z) (e : terr) : Prop :=
  match e with
  | ERR_UNSUPPORTED_HASH => status = (-134)%Z \/ status = (-135)%Z
  | ERR_HASH_BUFFER_SIZE => status = (-138)%Z
  | ERR_HASH_GENERAL_FAIL => ~ In status [0; -134; -135; -138]%Z
  | _ => False
  end.

Definition psa_alg_of (c : cfg) (alg : Z) (a : palg) : Prop :=
  exists halg, hash_for alg = Some halg /\
    ((ecdsa_enabled c alg /\ a = PEcdsa halg) \/ (pss_enabled c alg /\ a = PRsaPss halg)).

Definition psa_sign_fault (c : cfg) (lib : psa) (alg : Z) (k : tkey) (hash : bytes) (room : N) (e : terr) : Prop :=
  alg_fault c alg e \/ exists a, psa_alg_of c alg a /\ status_means (fst (psa_sign_hash lib (k_handle k) a hash room)) e.
Definition psa_verify_fault (c : cfg) (lib : psa) (alg : Z) (k : tkey) (hash sig : bytes) (e : terr) : Prop :=
  alg_fault c alg e \/ exists a, psa_alg_of c alg a /\ status_means (psa_verify_hash lib (k_handle k) a hash sig) e.
Definition psa_size_fault (c : cfg) (lib : psa) (alg : Z) (k : tkey) (e : terr) : Prop :=
  alg_fault c alg e \/ (ecdsa_enabled c alg \/ pss_enabled c alg) /\ status_means (fst (fst (psa_key lib (k_handle k)))) e.

(** A hash that is not offered goes to PSA as an algorithm PSA does not have. *)
Definition psa_hash_of (c : cfg) (halg : Z) (a : palg) : Prop :=
  (offered c halg /\ a = PHash halg) \/ (~ offered c halg /\ a = PUint16Max).
Definition psa_start_fault (c : cfg) (lib : psa) (halg : Z) (e : terr) : Prop :=
  exists a, psa_hash_of c halg a /\ hash_status_means (psa_hash_setup lib a) e.
Definition psa_digest_fault (c : cfg) (lib : psa) (halg : Z) (pieces : list ubufc) (room : N) (e : terr) : Prop :=
  exists a, psa_hash_of c halg a /\
  ((exists l b l', pieces = l ++ UBuf b :: l' /\ hash_status_means (psa_hash_update lib a (flat_map u_data l) b) e) \/
   hash_status_means (fst (psa_hash_finish lib a (flat_map u_data pieces) room)) e).

(** ** Calls in the log of adapter calls *)

(** The log does not record hash contexts, see [ossl_digest_fault]. *)
Definition ossl_call_fault (c : cfg) (lib : ossl) (ev : event) (e : terr) : Prop :=
  match ev with
  | EvHashStart halg => ossl_start_fault c lib halg e
  | EvHashUpdate _ => False
  | EvHashFinish => e = ERR_HASH_GENERAL_FAIL
  | EvSigSize alg k => ossl_size_fault c alg k e
  | EvSign alg k hash => exists room, ossl_sign_fault c lib alg k hash room e
  | EvSignEddsa k tbs => exists room, ossl_sign_eddsa_fault lib k tbs room e
  | EvVerify alg k _ hash sig => ossl_verify_fault c lib alg k hash sig e
  | EvVerifyEddsa k _ tbs sig => ossl_verify_eddsa_fault lib k tbs sig e
  end.
Definition psa_call_fault (c : cfg) (lib : psa) (ev : event) (e : terr) : Prop :=
  match ev with
  | EvHashStart halg => psa_start_fault c lib halg e
  | EvHashUpdate _ => False
  | EvHashFinish => In e [ERR_UNSUPPORTED_HASH; ERR_HASH_BUFFER_SIZE; ERR_HASH_GENERAL_FAIL]
  | EvSigSize alg k => psa_size_fault c lib alg k e
  | EvSign alg k hash => exists room, psa_sign_fault c lib alg k hash room e
  | EvVerify alg k _ hash sig => psa_verify_fault c lib alg k hash sig e
  | EvSignEddsa _ _ | EvVerifyEddsa _ _ _ _ => e = ERR_UNSUPPORTED_SIGNING_ALG
  end.
