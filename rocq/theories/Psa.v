(** The PSA crypto adapter, crypto_adapters/t_cose_psa_crypto.c.

    The PSA library is a record of functions over which the theorems quantify.
    PSA algorithm identifiers are represented by constructors; a hash operation
    by its algorithm and the data taken in so far. *)
From Verif Require Import Base Const Crypto Algs OpenSSL.
Open Scope N_scope. Open Scope list_scope. Open Scope lmon_scope.

(** psa_status_t values used, psa/crypto_values.h *)
Definition PSA_SUCCESS : Z := 0.
Definition PSA_ERROR_NOT_SUPPORTED : Z := -134.
Definition PSA_ERROR_INVALID_ARGUMENT : Z := -135.
Definition PSA_ERROR_BUFFER_TOO_SMALL : Z := -138.
Definition PSA_ERROR_INSUFFICIENT_MEMORY : Z := -141.
Definition PSA_ERROR_INVALID_SIGNATURE : Z := -149.
Definition PSA_ERROR_CORRUPTION_DETECTED : Z := -151.

(** psa_algorithm_t: PSA_ALG_ECDSA(hash), PSA_ALG_RSA_PSS(hash), the hashes,
    0 and UINT16_MAX; hashes named by their COSE identifiers. *)
Inductive palg := PEcdsa (hash : Z) | PRsaPss (hash : Z) | PHash (hash : Z) | PNone | PUint16Max.

Inductive pkey_type := PKRsa | PKEcc | PKOther.

Record psa := {
  (** psa_verify_hash: key, algorithm, hash, signature *)
  psa_verify_hash : N -> palg -> bytes -> bytes -> Z;
  (** psa_sign_hash given the room: status and bytes stored *)
  psa_sign_hash : N -> palg -> bytes -> N -> Z * bytes;
  (** psa_get_key_attributes: status, psa_get_key_type, psa_get_key_bits *)
  psa_key : N -> Z * pkey_type * N;
  (** psa_hash_setup, psa_hash_update, psa_hash_finish given the room *)
  psa_hash_setup : palg -> Z;
  psa_hash_update : palg -> bytes -> bytes -> Z;
  psa_hash_finish : palg -> bytes -> N -> Z * bytes;
  (** A failing call releases the operation itself. Mbed TLS does so; the PSA
      specification has the caller call psa_hash_abort. *)
  psa_aborts : bool }.

Section Adapter.
Context (c : cfg) (lib : psa).

(** t_cose_crypto_is_algorithm_supported, 51-80 *)
Definition psa_supported_algs : list Z :=
  [SHA_256; SHA_384; SHA_512; ES256] ++ ifndef (dis_es384 c) ES384 ++ ifndef (dis_es512 c) ES512 ++
  ifndef (dis_ps256 c) PS256 ++ ifndef (dis_ps384 c) PS384 ++ ifndef (dis_ps512 c) PS512 ++ [0%Z].
Definition psa_is_supported (alg : Z) : bool := t_cose_check_list alg psa_supported_algs.

(** cose_alg_id_to_psa_alg_id, 90-113 *)
Definition cose_alg_id_to_psa_alg_id (alg : Z) : palg :=
  if (alg =? ES256)%Z then PEcdsa SHA_256
  else if negb (dis_es384 c) && (alg =? ES384)%Z then PEcdsa SHA_384
  else if negb (dis_es512 c) && (alg =? ES512)%Z then PEcdsa SHA_512
  else if negb (dis_ps256 c) && (alg =? PS256)%Z then PRsaPss SHA_256
  else if negb (dis_ps384 c) && (alg =? PS384)%Z then PRsaPss SHA_384
  else if negb (dis_ps512 c) && (alg =? PS512)%Z then PRsaPss SHA_512
  else PNone.

(** PSA_ALG_IS_ECDSA, PSA_ALG_IS_RSA_PSS *)
Definition is_signing_alg (a : palg) : bool := match a with PEcdsa _ | PRsaPss _ => true | _ => false end.

(** psa_status_to_t_cose_error_signing, 123-132 *)
Definition psa_status_to_t_cose_error_signing (err : Z) : terr :=
  if (err =? PSA_SUCCESS)%Z then T_SUCCESS
  else if (err =? PSA_ERROR_INVALID_SIGNATURE)%Z then ERR_SIG_VERIFY
  else if (err =? PSA_ERROR_NOT_SUPPORTED)%Z then ERR_UNSUPPORTED_SIGNING_ALG
  else if (err =? PSA_ERROR_INSUFFICIENT_MEMORY)%Z then ERR_INSUFFICIENT_MEMORY
  else if (err =? PSA_ERROR_CORRUPTION_DETECTED)%Z then ERR_TAMPERING_DETECTED
  else ERR_SIG_FAIL.

(** t_cose_crypto_verify, 138-174. The key's crypto_lib is not looked at. *)
Definition psa_verify (alg : Z) (k : tkey) (kid : ubufc) (hash sig : bytes) : terr :=
  let a := cose_alg_id_to_psa_alg_id alg in
  if negb (is_signing_alg a) then ERR_UNSUPPORTED_SIGNING_ALG
  else psa_status_to_t_cose_error_signing (psa_verify_hash lib (k_handle k) a hash sig).

(** t_cose_crypto_sign, 180-223 *)
Definition psa_sign (alg : Z) (k : tkey) (hash : bytes) (room : N) : out (terr * bytes) :=
  let a := cose_alg_id_to_psa_alg_id alg in
  if negb (is_signing_alg a) then Ret (ERR_UNSUPPORTED_SIGNING_ALG, [])
  else
    let (status, sig) := psa_sign_hash lib (k_handle k) a hash room in
    let err := psa_status_to_t_cose_error_signing status in
    if room <? blen sig then UB OOBWrite
    else if terr_eqb err T_SUCCESS then Ret (T_SUCCESS, sig) else Ret (err, []).

(** PSA_SIGN_OUTPUT_SIZE, psa/crypto_sizes.h: the size of an RSA key, twice that
    of an elliptic curve key *)
Definition PSA_SIGN_OUTPUT_SIZE (t : pkey_type) (bits : N) : N :=
  match t with
  | PKRsa => (bits + 7) / 8
  | PKEcc => 2 * ((bits + 7) / 8)
  | PKOther => 0
  end.

(** t_cose_crypto_sig_size, 229-263 *)
Definition psa_sig_size (alg : Z) (k : tkey) : terr * N :=
  let a := cose_alg_id_to_psa_alg_id alg in
  if negb (is_signing_alg a) then (ERR_UNSUPPORTED_SIGNING_ALG, 0)
  else
    let '(status, ty, bits) := psa_key lib (k_handle k) in
    let err := psa_status_to_t_cose_error_signing status in
    if negb (terr_eqb err T_SUCCESS) then (err, 0)
    else (T_SUCCESS, PSA_SIGN_OUTPUT_SIZE ty bits).

(** cose_hash_alg_id_to_psa, 276-287 *)
Definition cose_hash_alg_id_to_psa (halg : Z) : palg :=
  if (halg =? SHA_256)%Z then PHash SHA_256
  else if (negb (dis_es384 c) || negb (dis_ps384 c)) && (halg =? SHA_384)%Z then PHash SHA_384
  else if (negb (dis_es512 c) || negb (dis_ps512 c)) && (halg =? SHA_512)%Z then PHash SHA_512
  else PUint16Max.

(** psa_status_to_t_cose_error_hash, 297-308 *)
Definition psa_status_to_t_cose_error_hash (status : Z) : terr :=
  if (status =? PSA_SUCCESS)%Z then T_SUCCESS
  else if (status =? PSA_ERROR_NOT_SUPPORTED)%Z then ERR_UNSUPPORTED_HASH
  else if (status =? PSA_ERROR_INVALID_ARGUMENT)%Z then ERR_UNSUPPORTED_HASH
  else if (status =? PSA_ERROR_BUFFER_TOO_SMALL)%Z then ERR_HASH_BUFFER_SIZE
  else ERR_HASH_GENERAL_FAIL.

(** struct t_cose_crypto_hash for PSA, src/t_cose_crypto.h 445-446 *)
Record phash := { ph_alg : palg; ph_data : bytes; ph_status : Z }.

(** A failing call on an active operation. *)
Definition failed_op : list revent := if psa_aborts lib then [RFree RMdCtx] else [].

(** t_cose_crypto_hash_start, 314-330 *)
Definition psa_start (halg : Z) : L (terr * phash) :=
  let a := cose_hash_alg_id_to_psa halg in
  let status := psa_hash_setup lib a in
  let h := {| ph_alg := a; ph_data := []; ph_status := status |} in
  let res := (psa_status_to_t_cose_error_hash status, h) in
  if (status =? PSA_SUCCESS)%Z then ([RAlloc RMdCtx], Ret res) else lret res.

(** t_cose_crypto_hash_update, 336-356 *)
Definition psa_update (h : phash) (u : ubufc) : L phash :=
  if negb (ph_status h =? PSA_SUCCESS)%Z then lret h
  else
    match u with
    | UNull _ => lret h
    | UBuf d =>
        let status := psa_hash_update lib (ph_alg h) (ph_data h) d in
        let h := {| ph_alg := ph_alg h; ph_data := ph_data h ++ d; ph_status := status |} in
        if (status =? PSA_SUCCESS)%Z then lret h else (failed_op, Ret h)
    end.

(** t_cose_crypto_hash_finish, 362-382 *)
Definition psa_finish (h : phash) (room : N) : L (terr * bytes) :=
  if negb (ph_status h =? PSA_SUCCESS)%Z then lret (psa_status_to_t_cose_error_hash (ph_status h), [])
  else
    let (status, d) := psa_hash_finish lib (ph_alg h) (ph_data h) room in
    if room <? blen d then lub OOBWrite
    else
      let err := psa_status_to_t_cose_error_hash status in
      if (status =? PSA_SUCCESS)%Z then ([RFree RMdCtx], Ret (err, d)) else (failed_op, Ret (err, d)).

(** t_cose_crypto_sign_eddsa, t_cose_crypto_verify_eddsa, 389-421 *)
Definition psa_sign_eddsa (k : tkey) (tbs : bytes) (room : N) : out (terr * bytes) :=
  Ret (ERR_UNSUPPORTED_SIGNING_ALG, []).
Definition psa_verify_eddsa (k : tkey) (kid : ubufc) (tbs sig : bytes) : out terr :=
  Ret ERR_UNSUPPORTED_SIGNING_ALG.

(** The adapter as t_cose calls it. *)
Definition psa_crypto : crypto := {|
  cr_hctx := phash;
  cr_hash_start := fun a => match snd (psa_start a) with Ret r => r | UB _ => (ERR_FAIL, {| ph_alg := PNone; ph_data := []; ph_status := 1%Z |}) end;
  cr_hash_update := fun h u => snd (psa_update h u);
  cr_hash_finish := fun h n => snd (psa_finish h n);
  cr_sig_size := psa_sig_size;
  cr_sign := psa_sign;
  cr_verify := fun a k kid h s => Ret (psa_verify a k kid h s);
  cr_sign_eddsa := psa_sign_eddsa;
  cr_verify_eddsa := psa_verify_eddsa;
  cr_is_supported := psa_is_supported |}.

End Adapter.
