(** Model of src/t_cose_util.c. *)
From Verif Require Import Base Const QEnc Crypto.
Open Scope N_scope.
Local Open Scope mon_scope.

(** signature_algorithm_id_is_supported, src/t_cose_util.c 30-52 *)
Definition signature_algorithm_id_is_supported (c : cfg) (alg : Z) : bool :=
  (alg =? ES256)%Z
  || (negb (dis_es384 c) && (alg =? ES384)%Z)
  || (negb (dis_es512 c) && (alg =? ES512)%Z)
  || (negb (dis_ps256 c) && (alg =? PS256)%Z)
  || (negb (dis_ps384 c) && (alg =? PS384)%Z)
  || (negb (dis_ps512 c) && (alg =? PS512)%Z)
  || (negb (dis_eddsa c) && (alg =? EDDSA)%Z).

(** t_cose_is_algorithm_supported, src/t_cose_util.c 58-63 *)
Definition t_cose_is_algorithm_supported (cr : crypto) (alg : Z) : bool := cr_is_supported cr alg.

(** hash_alg_id_from_sig_alg_id, src/t_cose_util.c 68-95 *)
Definition hash_alg_id_from_sig_alg_id (c : cfg) (alg : Z) : Z :=
  if (alg =? ES256)%Z then SHA_256
  else if negb (dis_es384 c) && (alg =? ES384)%Z then SHA_384
  else if negb (dis_es512 c) && (alg =? ES512)%Z then SHA_512
  else if negb (dis_ps256 c) && (alg =? PS256)%Z then SHA_256
  else if negb (dis_ps384 c) && (alg =? PS384)%Z then SHA_384
  else if negb (dis_ps512 c) && (alg =? PS512)%Z then SHA_512
  else INVALID_ALGORITHM_ID.

(** COSE_SIG_CONTEXT_STRING_SIGNATURE1 "Signature1",
    src/t_cose_standard_constants.h *)
Definition SIGNATURE1 : bytes :=
  [x53; x69; x67; x6e; x61; x74; x75; x72; x65; x31].

(** create_tbs, src/t_cose_util.c 100-125. Second result: what is left in
    [*tbs] ([None]: not set). *)
Definition create_tbs (prot aad payload : ubufc) (buf : wbuf) : terr * option ubufc :=
  let e := enc_init buf in
  let e := enc_open_array e in
  let e := enc_add_text e (UBuf SIGNATURE1) in
  let e := enc_add_bytes e prot in
  let e := enc_add_bytes e aad in
  let e := enc_add_bytes e payload in
  let e := enc_close_array e in
  match enc_finish e with
  | (QE_SUCCESS, r) => (T_SUCCESS, r)
  | (QE_BUFFER_TOO_SMALL, r) => (ERR_TOO_SMALL, r)
  | (_, r) => (ERR_CBOR_FORMATTING, r)
  end.

(** t_cose_crypto_hash_update, logged *)
Definition m_hash_update (cr : crypto) (h : cr_hctx cr) (u : ubufc) : M (cr_hctx cr) :=
  mlog (EvHashUpdate u) (cr_hash_update cr h u).

(** hash_bstr, src/t_cose_util.c 136-159 *)
Definition hash_bstr (cr : crypto) (h : cr_hctx cr) (u : ubufc) : M (cr_hctx cr) :=
  let! h := m_hash_update cr h (UBuf (encode_head MT_BSTR (u_len u))) in
  m_hash_update cr h u.

(** create_tbs_hash, src/t_cose_util.c 182-259. [hsize]: size of the
    buffer_for_hash. *)
Definition create_tbs_hash (c : cfg) (cr : crypto) (alg : Z) (prot aad payload : ubufc) (hsize : N)
  : M (terr * bytes) :=
  let halg := hash_alg_id_from_sig_alg_id c alg in
  if (halg =? INVALID_ALGORITHM_ID)%Z then mret (ERR_UNSUPPORTED_SIGNING_ALG, [])
  else
    let! (err, h) := mlog (EvHashStart halg) (Ret (cr_hash_start cr halg)) in
    if negb (terr_eqb err T_SUCCESS) then mret (err, [])
    else
      let! h := m_hash_update cr h (UBuf (x84 :: x6a :: SIGNATURE1)) in
      let! h := hash_bstr cr h prot in
      let! h := hash_bstr cr h aad in
      let! h := hash_bstr cr h payload in
      mlog EvHashFinish (cr_hash_finish cr h hsize).

(** defined_short_circuit_kid, get_short_circuit_kid, src/t_cose_util.c 269-286 *)
Definition short_circuit_kid_bytes : bytes :=
  [xef; x95; x4b; x4b; xd9; xbd; xf6; x70;
   xd0; x33; x60; x82; xf5; xef; x15; x2a;
   xf8; xf3; x5b; x6a; x6c; x00; xef; xa6;
   xa9; xa7; x1f; x49; x51; x7e; x18; xc6].
Definition get_short_circuit_kid : ubufc := UBuf short_circuit_kid_bytes.
