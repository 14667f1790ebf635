(** Model of src/t_cose_sign1_sign.c and the inline functions of
    inc/t_cose/t_cose_sign1_sign.h. *)
From Verif Require Import Base Const QEnc Crypto Util ShortCircuit.
Open Scope N_scope.
Local Open Scope mon_scope.

(** struct t_cose_sign1_sign_ctx, inc/t_cose/t_cose_sign1_sign.h 69-95. The
    protected parameters are a part of the output buffer. *)
Record sctx := {
  c_alg : Z; c_key : tkey; c_flags : N; c_kid : ubufc;
  c_ct_uint : N; c_ct_tstr : option bytes;
  c_prot : slice; c_aux : wbuf; c_aux_size : N }.

Definition sc_set_prot (me : sctx) (p : slice) : sctx :=
  {| c_alg := c_alg me; c_key := c_key me; c_flags := c_flags me; c_kid := c_kid me;
     c_ct_uint := c_ct_uint me; c_ct_tstr := c_ct_tstr me;
     c_prot := p; c_aux := c_aux me; c_aux_size := c_aux_size me |}.
Definition sc_set_aux_size (me : sctx) (n : N) : sctx :=
  {| c_alg := c_alg me; c_key := c_key me; c_flags := c_flags me; c_kid := c_kid me;
     c_ct_uint := c_ct_uint me; c_ct_tstr := c_ct_tstr me;
     c_prot := c_prot me; c_aux := c_aux me; c_aux_size := n |}.

(** t_cose_sign1_sign_init, inc/t_cose/t_cose_sign1_sign.h 484-503 *)
Definition sign_init (flags : N) (alg : Z) : sctx :=
  {| c_alg := alg; c_key := NULL_KEY; c_flags := flags; c_kid := NULL_UBUF;
     c_ct_uint := EMPTY_UINT_CONTENT_TYPE; c_ct_tstr := None;
     c_prot := NULL_SLICE;
     c_aux := {| wb_null := true; wb_len := SIZE_MAX |}; c_aux_size := 0 |}.

(** t_cose_sign1_set_signing_key, inc/t_cose/t_cose_sign1_sign.h 506-513 *)
Definition set_signing_key (me : sctx) (k : tkey) (kid : ubufc) : sctx :=
  {| c_alg := c_alg me; c_key := k; c_flags := c_flags me; c_kid := kid;
     c_ct_uint := c_ct_uint me; c_ct_tstr := c_ct_tstr me;
     c_prot := c_prot me; c_aux := c_aux me; c_aux_size := c_aux_size me |}.

(** t_cose_sign1_sign_set_auxiliary_buffer / _auxiliary_buffer_size, 515-531 *)
Definition sign_set_auxiliary_buffer (me : sctx) (b : wbuf) : sctx :=
  {| c_alg := c_alg me; c_key := c_key me; c_flags := c_flags me; c_kid := c_kid me;
     c_ct_uint := c_ct_uint me; c_ct_tstr := c_ct_tstr me;
     c_prot := c_prot me; c_aux := b; c_aux_size := c_aux_size me |}.
Definition sign_auxiliary_buffer_size (c : cfg) (me : sctx) : N :=
  if dis_eddsa c then 0 else c_aux_size me.

(** t_cose_sign1_set_content_type_uint / _tstr, 697-712 *)
Definition set_content_type_uint (me : sctx) (n : N) : sctx :=
  {| c_alg := c_alg me; c_key := c_key me; c_flags := c_flags me; c_kid := c_kid me;
     c_ct_uint := n; c_ct_tstr := c_ct_tstr me;
     c_prot := c_prot me; c_aux := c_aux me; c_aux_size := c_aux_size me |}.
Definition set_content_type_tstr (me : sctx) (s : bytes) : sctx :=
  {| c_alg := c_alg me; c_key := c_key me; c_flags := c_flags me; c_kid := c_kid me;
     c_ct_uint := c_ct_uint me; c_ct_tstr := Some s;
     c_prot := c_prot me; c_aux := c_aux me; c_aux_size := c_aux_size me |}.

(** encode_protected_parameters, src/t_cose_sign1_sign.c 83-104 *)
Definition encode_protected_parameters (alg : Z) (e : enc) : enc * slice :=
  let e := enc_open_bstr e in
  let e := enc_open_map e in
  let e := enc_add_int_to_map e LABEL_ALG alg in
  let e := enc_close_map e in
  enc_close_bstr e.

(** add_unprotected_parameters, src/t_cose_sign1_sign.c 122-167 *)
Definition add_unprotected_parameters (c : cfg) (me : sctx) (kid : ubufc) (e : enc) : terr * enc :=
  let e := enc_open_map e in
  let e := if negb (u_is_null_or_empty kid) then enc_add_bytes_to_map e LABEL_KID kid else e in
  if dis_content_type c then (T_SUCCESS, enc_close_map e)
  else
    match negb (c_ct_uint me =? EMPTY_UINT_CONTENT_TYPE), c_ct_tstr me with
    | true, Some _ => (ERR_DUPLICATE_PARAMETER, e)
    | u, t =>
      let e := if u then enc_add_uint_to_map e LABEL_CONTENT_TYPE (c_ct_uint me) else e in
      let e := match t with
               | Some s => enc_add_text_to_map e LABEL_CONTENT_TYPE (UBuf s)
               | None => e
               end in
      (T_SUCCESS, enc_close_map e)
    end.

(** t_cose_sign1_encode_parameters_internal, src/t_cose_sign1_sign.c 173-230 *)
Definition encode_parameters_internal (c : cfg) (me : sctx) (detached : bool) (e : enc)
  : terr * sctx * enc :=
  if negb (signature_algorithm_id_is_supported c (c_alg me))
  then (ERR_UNSUPPORTED_SIGNING_ALG, me, e)
  else
    let e := if negb (has_flag (c_flags me) OPT_OMIT_CBOR_TAG)
             then enc_add_tag e TAG_COSE_SIGN1 else e in
    let e := enc_open_array e in
    let (e, prot) := encode_protected_parameters (c_alg me) e in
    let me := sc_set_prot me prot in
    if has_flag (c_flags me) OPT_SHORT_CIRCUIT_SIG && dis_short_circuit c
    then (ERR_SHORT_CIRCUIT_SIG_DISABLED, me, e)
    else
      let kid := if has_flag (c_flags me) OPT_SHORT_CIRCUIT_SIG && u_is_null_or_empty (c_kid me)
                 then get_short_circuit_kid else c_kid me in
      let (err, e) := add_unprotected_parameters c me kid e in
      if negb (terr_eqb err T_SUCCESS) then (err, me, e)
      else (T_SUCCESS, me, if detached then e else enc_open_bstr e).

(** A signing function's result: error, context, signature length, bytes it
    stored in the signature buffer. *)
Definition sigres : Type := (terr * sctx * N * bytes)%type.

(** sign1_sign_short_circuit, src/t_cose_sign1_sign.c 250-292 *)
Definition sign1_sign_short_circuit (c : cfg) (cr : crypto) (me : sctx)
           (prot aad payload : ubufc) (buf : wbuf) : M sigres :=
  let! (err, hash) := create_tbs_hash c cr (c_alg me) prot aad payload (max_hash_size c) in
  if negb (terr_eqb err T_SUCCESS) then mret (err, me, 0, [])
  else if wb_null buf then
    let (err, n) := short_circuit_sig_size (c_alg me) in mret (err, me, n, [])
  else
    let! (err, sig) := mlift (short_circuit_sign (c_alg me) hash (wb_len buf)) in
    mret (err, me, blen sig, sig).

(** t_cose_crypto_sig_size, logged *)
Definition m_sig_size (cr : crypto) (alg : Z) (k : tkey) : M (terr * N) :=
  mlog (EvSigSize alg k) (Ret (cr_sig_size cr alg k)).

(** sign1_sign_eddsa, src/t_cose_sign1_sign.c 318-373 *)
Definition sign1_sign_eddsa (cr : crypto) (me : sctx)
           (prot aad payload : ubufc) (buf : wbuf) : M sigres :=
  let (err, tbs) := create_tbs prot aad payload (c_aux me) in
  let err := if terr_eqb err ERR_TOO_SMALL then ERR_AUXILIARY_BUFFER_SIZE else err in
  if negb (terr_eqb err T_SUCCESS) then mret (err, me, 0, [])
  else match tbs with
       | None => mub Uninit
       | Some tbs =>
         let me := sc_set_aux_size me (u_len tbs) in
         if wb_null buf then
           let! (err, n) := m_sig_size cr (c_alg me) (c_key me) in mret (err, me, n, [])
         else if wb_null (c_aux me) then mret (ERR_NEED_AUXILIARY_BUFFER, me, 0, [])
         else
           let! (err, sig) := mlog (EvSignEddsa (c_key me) (u_data tbs))
                                   (cr_sign_eddsa cr (c_key me) (u_data tbs) (wb_len buf)) in
           mret (err, me, blen sig, sig)
       end.

(** sign1_sign_default, src/t_cose_sign1_sign.c 399-443 *)
Definition sign1_sign_default (c : cfg) (cr : crypto) (me : sctx)
           (prot aad payload : ubufc) (buf : wbuf) : M sigres :=
  let! (err, hash) := create_tbs_hash c cr (c_alg me) prot aad payload (max_hash_size c) in
  if negb (terr_eqb err T_SUCCESS) then mret (err, me, 0, [])
  else if wb_null buf then
    let! (err, n) := m_sig_size cr (c_alg me) (c_key me) in mret (err, me, n, [])
  else
    let! (err, sig) := mlog (EvSign (c_alg me) (c_key me) hash)
                            (cr_sign cr (c_alg me) (c_key me) hash (wb_len buf)) in
    mret (err, me, blen sig, sig).

(** Mapping of an encoder error, src/t_cose_sign1_sign.c 474-481 and 596-603 *)
Definition enc_error_to_terr (x : qe_err) : terr :=
  match x with
  | QE_SUCCESS => T_SUCCESS
  | QE_BUFFER_TOO_SMALL => ERR_TOO_SMALL
  | _ => ERR_CBOR_FORMATTING
  end.

(** t_cose_sign1_encode_signature_aad_internal, src/t_cose_sign1_sign.c 448-532 *)
Definition encode_signature_aad_internal (c : cfg) (cr : crypto) (me : sctx)
           (aad detached_payload : ubufc) (e : enc) : M (terr * sctx * enc) :=
  let '(e, signed_payload) :=
    if u_is_null detached_payload
    then let (e', s) := enc_close_bstr e in (e', resolve e' s)
    else (e, detached_payload) in
  let err := enc_error_to_terr (enc_error e) in
  if negb (terr_eqb err T_SUCCESS) then mret (err, me, e)
  else
    let prot := resolve e (c_prot me) in
    let (e, buf) := enc_open_bytes e in
    let! (err, me, sig_len, sig) :=
      if has_flag (c_flags me) OPT_SHORT_CIRCUIT_SIG && negb (dis_short_circuit c)
      then sign1_sign_short_circuit c cr me prot aad signed_payload buf
      else if (c_alg me =? EDDSA)%Z && negb (dis_eddsa c)
      then sign1_sign_eddsa cr me prot aad signed_payload buf
      else sign1_sign_default c cr me prot aad signed_payload buf in
    if negb (terr_eqb err T_SUCCESS) then mret (err, me, e)
    else
      let e := enc_close_bytes e sig_len sig in
      let e := enc_close_array e in
      mret (T_SUCCESS, me, e).

(** t_cose_sign1_sign_aad_internal, src/t_cose_sign1_sign.c 538-613; arguments
    in the order of the definition (payload, then aad). The third result is
    what is left in [*result] ([None]: not set). *)
Definition sign_aad_internal (c : cfg) (cr : crypto) (me : sctx) (detached : bool)
           (payload aad : ubufc) (out_buf : wbuf) : M (terr * sctx * option ubufc) :=
  let e := enc_init out_buf in
  let '(err, me, e) := encode_parameters_internal c me detached e in
  if negb (terr_eqb err T_SUCCESS) then mret (err, me, None)
  else
    let e := if detached then enc_add_null e else enc_add_encoded e payload in
    let payload := if detached then payload else NULL_UBUF in
    let! (err, me, e) := encode_signature_aad_internal c cr me aad payload e in
    if negb (terr_eqb err T_SUCCESS) then mret (err, me, None)
    else
      let err := enc_error_to_terr (enc_error e) in
      if negb (terr_eqb err T_SUCCESS) then mret (err, me, None)
      else match enc_finish e with
           | (QE_SUCCESS, r) => mret (T_SUCCESS, me, r)
           | (_, r) => mret (ERR_CBOR_NOT_WELL_FORMED, me, r)
           end.

(** t_cose_sign1_sign_aad, inc/t_cose/t_cose_sign1_sign.h 627-640. The inline
    function passes (aad, payload), as the declaration at 618-624 names them, to
    a function whose definition takes (payload, aad). *)
Definition sign_aad (c : cfg) (cr : crypto) (me : sctx) (aad payload : ubufc) (out_buf : wbuf)
  : M (terr * sctx * option ubufc) :=
  sign_aad_internal c cr me false aad payload out_buf.

(** t_cose_sign1_sign, inc/t_cose/t_cose_sign1_sign.h 643-655 *)
Definition sign (c : cfg) (cr : crypto) (me : sctx) (payload : ubufc) (out_buf : wbuf)
  : M (terr * sctx * option ubufc) :=
  sign_aad_internal c cr me false payload NULL_UBUF out_buf.

(** t_cose_sign1_sign_detached, inc/t_cose/t_cose_sign1_sign.h 658-671 *)
Definition sign_detached (c : cfg) (cr : crypto) (me : sctx) (aad detached_payload : ubufc)
           (out_buf : wbuf) : M (terr * sctx * option ubufc) :=
  sign_aad_internal c cr me true detached_payload aad out_buf.

(** t_cose_sign1_encode_parameters, inc/t_cose/t_cose_sign1_sign.h 561-566 *)
Definition encode_parameters (c : cfg) (me : sctx) (e : enc) : terr * sctx * enc :=
  encode_parameters_internal c me false e.

(** t_cose_sign1_encode_signature_aad / _signature, 674-694 *)
Definition encode_signature_aad (c : cfg) (cr : crypto) (me : sctx) (aad : ubufc) (e : enc)
  : M (terr * sctx * enc) :=
  encode_signature_aad_internal c cr me aad NULL_UBUF e.
Definition encode_signature (c : cfg) (cr : crypto) (me : sctx) (e : enc)
  : M (terr * sctx * enc) :=
  encode_signature_aad_internal c cr me NULL_UBUF NULL_UBUF e.
