(** What the crypto adapters are to achieve, independent of their code. *)
From Verif Require Import Base Const Crypto OpenSSL Psa Spec SignSpec.
Open Scope N_scope. Open Scope list_scope. Open Scope lmon_scope.

(** ** DER (X.690) of an ECDSA signature, ECDSA-Sig-Value of RFC 3279 *)

(** The least number of bytes that hold [n]. *)
Definition byte_width (n : N) : nat := N.to_nat ((N.size n + 7) / 8).

(** Definite length, shortest form (8.1.3, 10.1). *)
Definition der_length (n : N) : bytes :=
  if n <? 128 then [byte_of_N n]
  else byte_of_N (128 + N.of_nat (byte_width n)) :: big_endian (byte_width n) n.

(** INTEGER (8.3): two's complement, shortest; non-negative, so a zero byte
    precedes when the first bit would be set. *)
Definition der_uint (n : N) : bytes :=
  let w := S (N.to_nat (N.size n / 8)) in
  [x02] ++ der_length (N.of_nat w) ++ big_endian w n.

(** SEQUENCE of r and s. *)
Definition der_signature (r s : N) : bytes :=
  let content := der_uint r ++ der_uint s in
  [x30] ++ der_length (blen content) ++ content.

(** The library reads and writes this format (numbers far beyond any key). *)
Definition der_library (lib : ossl) : Prop :=
  (forall r s, i2d_sig lib r s = Some (der_signature r s)) /\
  (forall r s, r < 256 ^ 200 -> s < 256 ^ 200 -> d2i_sig lib (der_signature r s) = Some (r, s)).

(** Nothing the library allocates in a conversion fails. *)
Definition enough_memory (lib : ossl) : Prop :=
  (forall f b, bn_ok lib f b = true) /\ sig_new lib = true /\ (forall r s, sig_set0 lib r s = true).

(** ** COSE signature format (RFC 8152 section 8.1) *)

(** Length of a coordinate: the bits of the key, rounded up to whole bytes. *)
Definition coordinate_length (bits : N) : N := (bits + 7) / 8.

Definition cose_signature (len : N) (r s : N) : bytes :=
  big_endian (N.to_nat len) r ++ big_endian (N.to_nat len) s.

(** ** Resources *)

Definition robj_eq_dec (a b : robj) : {a = b} + {a <> b}.
Proof. decide equality. Defined.

(** Objects live after a log, given those live before; [None]: something was
    released that was not live, or allocated twice. *)
Fixpoint live (l : list robj) (log : list revent) : option (list robj) :=
  match log with
  | [] => Some l
  | RAlloc o :: log => if in_dec robj_eq_dec o l then None else live (o :: l) log
  | RFree o :: log => if in_dec robj_eq_dec o l then live (remove robj_eq_dec o l) log else None
  end.

(** Everything allocated is released, once. *)
Definition released (log : list revent) : Prop := live [] log = Some [].

(** ** Using the library *)

(** ECDSA and RSASSA-PSS algorithms a configuration enables (README, build
    options). *)
Definition ecdsa_enabled (c : cfg) (alg : Z) : Prop :=
  alg = (-7)%Z \/ (alg = (-35)%Z /\ dis_es384 c = false) \/ (alg = (-36)%Z /\ dis_es512 c = false).
Definition pss_enabled (c : cfg) (alg : Z) : Prop :=
  (alg = (-37)%Z /\ dis_ps256 c = false) \/ (alg = (-38)%Z /\ dis_ps384 c = false) \/
  (alg = (-39)%Z /\ dis_ps512 c = false).

(** Settings RFC 8230 section 2 prescribes: PSS padding, the algorithm's hash
    for the message and for MGF1, a salt as long as the hash. *)
Definition pss_hash (alg : Z) : Z :=
  if (alg =? -37)%Z then (-16)%Z else if (alg =? -38)%Z then (-43)%Z else (-44)%Z.
Definition pss_settings (alg : Z) : list pparam :=
  [PadPSS; SigMd (pss_hash alg); Mgf1Md (pss_hash alg); SaltlenDigest].

(** A key handed over for OpenSSL. *)
Definition ossl_key (k : tkey) : Prop := k_lib k = 1 /\ k_handle k <> 0.

(** OpenSSL holds [sig] to be a signature of [hash] under [k] for [alg]. *)
Definition ossl_accepts (c : cfg) (lib : ossl) (alg : Z) (k : tkey) (hash sig : bytes) : Prop :=
  (ecdsa_enabled c alg /\
   exists r s der, let len := coordinate_length (ev_bits lib (k_handle k)) in
     r < 256 ^ len /\ s < 256 ^ len /\ sig = cose_signature len r s /\ i2d_sig lib r s = Some der /\
     pkey_verify lib {| px_key := k_handle k; px_verify := true; px_params := [] |} der hash = 1%Z) \/
  (pss_enabled c alg /\
   pkey_verify lib {| px_key := k_handle k; px_verify := true; px_params := pss_settings alg |} sig hash = 1%Z).

(** Nothing the library needs to set up an operation fails. *)
Definition setup_works (lib : ossl) : Prop :=
  (forall key, ctx_new lib key = true) /\ (forall x, ctx_init lib x = true) /\ (forall x p, ctx_set lib x p = true).

(** The library honours buffer sizes; signatures made without PSS that decode as
    ECDSA signatures decode to numbers that fit the key. *)
Definition sign_library (lib : ossl) : Prop :=
  (forall x h room b, pkey_sign lib x h room = Some b -> blen b <= room) /\
  (forall key t room b, dsign lib key t room = Some b -> blen b <= room) /\
  (forall x h room b r s, px_params x = [] -> pkey_sign lib x h room = Some b -> d2i_sig lib b = Some (r, s) ->
     r < 256 ^ coordinate_length (ev_bits lib (px_key x)) /\ s < 256 ^ coordinate_length (ev_bits lib (px_key x))).

(** ** Libraries that work *)

(** Length of a digest, by COSE hash identifier (FIPS 180-4). *)
Definition digest_length (halg : Z) : N :=
  if (halg =? -16)%Z then 32 else if (halg =? -43)%Z then 48 else if (halg =? -44)%Z then 64 else 0.

(** OpenSSL's hashes are the function [H]. *)
Definition hash_library (lib : ossl) (H : Z -> bytes -> bytes) : Prop :=
  (forall md data more, md_update lib md data more = true) /\
  (forall md data, md_final lib md data = Some (H md data)) /\
  (forall md data, md = (-16)%Z \/ md = (-43)%Z \/ md = (-44)%Z -> blen (H md data) = digest_length md).

(** What OpenSSL signs with key [sk] it verifies with key [vk]; both keys are of
    one size. *)
Definition key_pair (lib : ossl) (alg : Z) (sk vk : N) : Prop :=
  ev_bits lib sk = ev_bits lib vk /\
  (forall h room der r s, pkey_sign lib {| px_key := sk; px_verify := false; px_params := [] |} h room = Some der ->
     d2i_sig lib der = Some (r, s) ->
     exists der', i2d_sig lib r s = Some der' /\
       pkey_verify lib {| px_key := vk; px_verify := true; px_params := [] |} der' h = 1%Z) /\
  (forall h room sig, pkey_sign lib {| px_key := sk; px_verify := false; px_params := pss_settings alg |} h room = Some sig ->
     pkey_verify lib {| px_key := vk; px_verify := true; px_params := pss_settings alg |} sig h = 1%Z) /\
  (forall tbs room sig, dsign lib sk tbs room = Some sig ->
     dverify_init lib vk = true /\ dverify lib vk sig tbs = 1%Z).

(** RSA and EdDSA signatures have the size OpenSSL reports for the key. *)
Definition size_reported (lib : ossl) (key : N) : Prop :=
  (forall x h room b, px_key x = key -> px_params x <> [] -> pkey_sign lib x h room = Some b -> blen b = ev_size lib key) /\
  (forall tbs room b, dsign lib key tbs room = Some b -> blen b = ev_size lib key).

(** OpenSSL doing its work, nothing failing. *)
Definition openssl_works (lib : ossl) (H : Z -> bytes -> bytes) : Prop :=
  setup_works lib /\ enough_memory lib /\ md_new lib = true /\ der_library lib /\ sign_library lib /\ hash_library lib H.

(** A signature that fits is made whatever the room, the same one. *)
Definition room_no_matter (lib : ossl) (key : N) : Prop :=
  (forall x h room room' b, px_key x = key -> pkey_sign lib x h room = Some b -> blen b <= room' -> pkey_sign lib x h room' = Some b) /\
  (forall tbs room room' b, dsign lib key tbs room = Some b -> blen b <= room' -> dsign lib key tbs room' = Some b).

(** ** PSA *)

(** PSA holds [sig] to be a signature of [hash] under [k] for [alg]; the hash in
    the PSA algorithm is the one that goes with [alg]. *)
Definition psa_accepts (c : cfg) (lib : psa) (alg : Z) (k : tkey) (hash sig : bytes) : Prop :=
  exists halg, hash_for alg = Some halg /\
    ((ecdsa_enabled c alg /\ psa_verify_hash lib (k_handle k) (PEcdsa halg) hash sig = 0%Z) \/
     (pss_enabled c alg /\ psa_verify_hash lib (k_handle k) (PRsaPss halg) hash sig = 0%Z)).

(** PSA makes [sig] of [hash] with [k] for [alg]. *)
Definition psa_makes (c : cfg) (lib : psa) (alg : Z) (k : tkey) (hash : bytes) (room : N) (sig : bytes) : Prop :=
  exists halg, hash_for alg = Some halg /\
    ((ecdsa_enabled c alg /\ psa_sign_hash lib (k_handle k) (PEcdsa halg) hash room = (0%Z, sig)) \/
     (pss_enabled c alg /\ psa_sign_hash lib (k_handle k) (PRsaPss halg) hash room = (0%Z, sig))).

(** The library honours buffer sizes. *)
Definition psa_within_room (lib : psa) : Prop :=
  (forall key a h room, blen (snd (psa_sign_hash lib key a h room)) <= room) /\
  (forall a data room, blen (snd (psa_hash_finish lib a data room)) <= room).

(** PSA's hashes are the function [H]; it does not know an algorithm UINT16_MAX. *)
Definition psa_hash_library (lib : psa) (H : Z -> bytes -> bytes) : Prop :=
  psa_hash_setup lib PUint16Max <> 0%Z /\
  (forall a data more, psa_hash_update lib a data more = 0%Z) /\
  (forall md data room, psa_hash_finish lib (PHash md) data room =
     if blen (H md data) <=? room then (0%Z, H md data) else ((-138)%Z, [])) /\
  (forall md data, md = (-16)%Z \/ md = (-43)%Z \/ md = (-44)%Z -> blen (H md data) = digest_length md).

(** What PSA signs with [sk] it verifies with [vk]. *)
Definition psa_key_pair (lib : psa) (sk vk : N) : Prop :=
  forall a h room sig, psa_sign_hash lib sk a h room = (0%Z, sig) -> psa_verify_hash lib vk a h sig = 0%Z.

(** Signatures have the size that follows from type and bits of the key: an ECDSA
    signature two coordinates, an RSA signature the modulus. *)
Definition psa_size_reported (lib : psa) (key : N) : Prop :=
  exists ty bits, psa_key lib key = (0%Z, ty, bits) /\
  forall a h room sig, psa_sign_hash lib key a h room = (0%Z, sig) ->
    match ty with
    | PKEcc => blen sig = 2 * coordinate_length bits
    | PKRsa => blen sig = coordinate_length bits
    | PKOther => False
    end.

Definition psa_room_no_matter (lib : psa) (key : N) : Prop :=
  forall a h room room' sig, psa_sign_hash lib key a h room = (0%Z, sig) -> blen sig <= room' ->
    psa_sign_hash lib key a h room' = (0%Z, sig).

(** The hash operation the application's pieces go through. *)
Fixpoint psa_updates (lib : psa) (h : phash) (us : list ubufc) : L phash :=
  match us with
  | [] => lret h
  | u :: us => let* h := psa_update lib h u in psa_updates lib h us
  end.

(** ** Supporting an algorithm *)

(** No function of the adapter turns [alg] down. EdDSA has functions of its own. *)
Definition never_refuses (cr : crypto) (alg : Z) : Prop :=
  (forall k, fst (cr_sig_size cr alg k) <> ERR_UNSUPPORTED_SIGNING_ALG) /\
  (alg <> (-8)%Z ->
     (forall k d room b, cr_sign cr alg k d room <> Ret (ERR_UNSUPPORTED_SIGNING_ALG, b)) /\
     (forall k kid d sig, cr_verify cr alg k kid d sig <> Ret ERR_UNSUPPORTED_SIGNING_ALG)) /\
  (alg = (-8)%Z ->
     (forall k t room b, cr_sign_eddsa cr k t room <> Ret (ERR_UNSUPPORTED_SIGNING_ALG, b)) /\
     (forall k kid t sig, cr_verify_eddsa cr k kid t sig <> Ret ERR_UNSUPPORTED_SIGNING_ALG)).

(** Signing and verifying with [alg] always fail, saying so. *)
Definition always_refuses (cr : crypto) (alg : Z) : Prop :=
  (forall k d room, exists b, cr_sign cr alg k d room = Ret (ERR_UNSUPPORTED_SIGNING_ALG, b)) /\
  (forall k kid d sig, cr_verify cr alg k kid d sig = Ret ERR_UNSUPPORTED_SIGNING_ALG).

(** A hash some enabled signing algorithm uses. *)
Definition hash_used (c : cfg) (halg : Z) : Prop := exists alg, enabled c alg /\ hash_for alg = Some halg.

(** COSE identifiers of the hashes. *)
Definition is_hash_id (alg : Z) : Prop := alg = (-16)%Z \/ alg = (-43)%Z \/ alg = (-44)%Z.

(** Size of a signature with the curve that goes with an ECDSA algorithm. *)
Definition curve_coordinate (alg : Z) : N :=
  if (alg =? -7)%Z then 32 else if (alg =? -35)%Z then 48 else 66.

(** An ECDSA key is of the curve that goes with the algorithm, or a smaller one. *)
Definition on_curve (lib : ossl) (alg : Z) (key : N) : Prop :=
  alg = (-7)%Z \/ alg = (-35)%Z \/ alg = (-36)%Z -> coordinate_length (ev_bits lib key) <= curve_coordinate alg.
