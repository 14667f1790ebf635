(** The maker of test messages, /repo/test/t_cose_make_test_messages.c: replicas
    of t_cose_sign1_sign and of what it calls, changed so as to make good and bad
    messages. RepoTests3.v runs the repository's tests with it. *)
From Coq Require Import String.
From Verif Require Import Base Const QEnc Crypto Util ShortCircuit Sign.
Open Scope N_scope. Open Scope list_scope. Open Scope mon_scope.

(** test/t_cose_make_test_messages.h 43-132 *)
Definition T_PARAMETER_LABEL : N := 0x80000000.
Definition T_BAD_CRIT_PARAMETER : N := 0x40000000.
Definition T_EXTRA_PARAMETER : N := 0x20000000.
Definition T_NO_PROTECTED_PARAMETERS : N := 0x10000000.
Definition T_NO_UNPROTECTED_PARAMETERS : N := 0x08000000.
Definition T_NOT_WELL_FORMED_1 : N := 0x04000000.
Definition T_NOT_WELL_FORMED_2 : N := 0x02000000.
Definition T_UNKNOWN_CRIT_UINT_PARAMETER : N := 0x01000000.
Definition T_CRIT_PARAMETER_EXIST : N := 0x00800000.
Definition T_TOO_MANY_CRIT_PARAMETER_EXIST : N := 0x00400000.
Definition T_BAD_CRIT_LABEL : N := 0x00200000.
Definition T_CRIT_NOT_PROTECTED : N := 0x00100000.
Definition T_TOO_MANY_UNKNOWN : N := 0x00080000.
Definition T_UNKNOWN_CRIT_TSTR_PARAMETER : N := 0x00040000.
Definition T_ALL_PARAMETERS : N := 0x00020000.
Definition T_BAD_PROTECTED : N := 0x00010000.
Definition T_UNPROTECTED_NOT_MAP : N := 0x00008000.
Definition T_KID_IN_PROTECTED : N := 0x00004000.
Definition T_TOO_LARGE_CONTENT_TYPE : N := 0x00002000.
Definition T_UNCLOSED_PROTECTED : N := 0x00001000.
Definition T_DUP_CONTENT_ID : N := 0x00000800.
Definition T_EMPTY_PROTECTED_PARAMETERS : N := 0x00000400.
Definition T_EMPTY_CRIT_PARAMETER : N := 0x00000200.
Definition T_TOO_MANY_TSTR_CRIT_LABLELS : N := 0x00000100.
Definition T_INDEFINITE_MAPS_ARRAYS : N := 0x80.

(** Encoder calls: those of QEnc.v and opening and closing with indefinite length. *)
Inductive top := Q (o : eop) | OpenIndef (t : ntype) | CloseIndef.

(** QCBOREncode_OpenMapIndefiniteLength, _OpenArrayIndefiniteLength and the
    closing calls (the type of what is closed is not checked here) *)
Definition top_run (e : enc) (o : top) : enc :=
  match o with
  | Q o => eop_run e o
  | OpenIndef t => enc_open (enc_append e (UBuf [match t with NMap => xbf | _ => x9f end])) t
  | CloseIndef => let e := enc_append e (UBuf [xff]) in
                  match e_nest e with [] => set_err e QE_TOO_MANY_CLOSES | _ :: r => set_nest e r end
  end.
Definition tops_run (e : enc) (l : list top) : enc := fold_left top_run l e.

Definition when (b : bool) (l : list top) : list top := if b then l else [].
Definition ints (l : list Z) : list top := map (fun z => Q (OpInt z)) l.
Definition text (x : string) : bytes := list_byte_of_string x.
Definition t_str (x : string) : top := Q (OpText (UBuf (text x))).
Definition t_bytes (x : bytes) : top := Q (OpBytes (UBuf x)).
Definition t_int (z : Z) : top := Q (OpInt z).
Definition t_true : top := Q (OpEncoded (UBuf [xf5])).
Definition oa := Q OpOpenArray.
Definition ca := Q OpCloseArray.
Definition om := Q OpOpenMap.
Definition cm := Q OpCloseMap.
Definition upto (k : nat) (from : Z) : list Z := map (fun i => (Z.of_nat i + from)%Z) (seq 0 k).

(** s_protected_params, test/t_cose_make_test_messages.c 419 *)
Definition S_PROTECTED_PARAMS : wbuf := {| wb_null := false; wb_len := 40 |}.

(** encode_protected_parameters, test/t_cose_make_test_messages.c 122-268: the
    calls made on the encoder, 147-255 *)
Definition protected_calls (o : N) (alg : Z) : list top :=
  let f x := has_flag o x in
  let ind := f T_INDEFINITE_MAPS_ARRAYS in
  if f T_BAD_PROTECTED then [oa; t_int 42; ca]
  else
    [if ind then OpenIndef NMap else om; t_int LABEL_ALG; t_int alg] ++
    when (f T_UNKNOWN_CRIT_UINT_PARAMETER)
      [t_int 42; t_int 43; t_int LABEL_CRIT; if ind then OpenIndef NArray else oa; t_int 42; t_int 43; t_int 44; if ind then CloseIndef else ca] ++
    when (f T_UNKNOWN_CRIT_TSTR_PARAMETER) [t_str "hh"; t_int 43; t_int LABEL_CRIT; oa; t_str "hh"; t_str "h"; t_str "hhh"; ca] ++
    when (f T_BAD_CRIT_LABEL) [t_int LABEL_CRIT; oa; t_true; ca] ++
    when (f T_CRIT_PARAMETER_EXIST) ([t_int LABEL_CRIT; oa] ++ ints (upto 10 10) ++ [ca]) ++
    when (f T_TOO_MANY_CRIT_PARAMETER_EXIST) ([t_int LABEL_CRIT; oa] ++ ints (upto 11 10) ++ [ca]) ++
    when (f T_TOO_MANY_TSTR_CRIT_LABLELS) ([t_int LABEL_CRIT; oa] ++ repeat (t_str "") 11 ++ [ca]) ++
    when (f T_EMPTY_CRIT_PARAMETER) [t_int LABEL_CRIT; oa; ca] ++
    when (f T_KID_IN_PROTECTED) [t_int LABEL_KID; t_bytes (text "kid")] ++
    when (f T_DUP_CONTENT_ID) [t_int LABEL_CONTENT_TYPE; Q (OpUInt 3)] ++
    [if ind then CloseIndef else cm].

(** encode_protected_parameters, 122-268 *)
Definition protected_of (o : N) (alg : Z) : ubufc :=
  if has_flag o T_EMPTY_PROTECTED_PARAMETERS then UBuf []
  else if has_flag o T_UNCLOSED_PROTECTED then UBuf [xa1]
  else match enc_finish (tops_run (enc_init S_PROTECTED_PARAMS) (protected_calls o alg)) with
       | (QE_SUCCESS, Some u) => u
       | _ => NULL_UBUF
       end.

(** add_unprotected_parameters, 284-410 *)
Definition unprotected_of (o : N) (kid : ubufc) : list top :=
  let f x := has_flag o x in
  let ind := f T_INDEFINITE_MAPS_ARRAYS in
  let k := Q (OpBytes kid) in
  if f T_UNPROTECTED_NOT_MAP then [oa; k; ca]
  else
    [if ind then OpenIndef NMap else om] ++
    when (f T_NOT_WELL_FORMED_1) [Q (OpEncoded (UBuf (text "xxxxxx")))] ++
    when (f T_PARAMETER_LABEL) [k; k] ++
    when (f T_BAD_CRIT_PARAMETER) [t_int LABEL_CRIT; t_str "hi"] ++
    when (f T_EXTRA_PARAMETER) [t_int 55; oa; om; t_int 66; t_str "hi"; cm; ca] ++
    when (f T_NOT_WELL_FORMED_2) [t_int 55; oa; om; t_int 66; t_str "hi"; Q (OpEncoded (UBuf [xff])); t_int 67; t_str "bye"; cm; ca] ++
    when (f T_CRIT_NOT_PROTECTED)
      ([t_int LABEL_CRIT; oa] ++ flat_map (fun z => [t_int z; t_str "xxxx"]) (upto 10 100) ++ [ca]) ++
    when (f T_TOO_MANY_UNKNOWN) (flat_map (fun z => [t_int z; t_true]) (upto 11 10)) ++
    when (negb (u_is_null_or_empty kid)) [t_int LABEL_KID; k] ++
    when (f T_ALL_PARAMETERS)
      [t_int LABEL_IV; t_bytes (text "iv"); t_int LABEL_PARTIAL_IV; t_bytes (text "partial_iv"); t_int LABEL_CONTENT_TYPE; t_int 1;
       t_int 55; oa; om; t_int 66; t_str "hi"; t_int 67; t_str "bye"; cm; oa; om; cm; ca; ca] ++
    when (f T_TOO_LARGE_CONTENT_TYPE) [t_int LABEL_CONTENT_TYPE; t_int 65536] ++
    when (f T_DUP_CONTENT_ID) [t_int LABEL_CONTENT_TYPE; Q (OpUInt 3)] ++
    [if ind then CloseIndef else cm].

(** What t_cose_sign1_test_message_encode_parameters leaves in
    me->protected_parameters, 449-456. Without protected parameters it is what
    was there before: taken to be the NULL left by t_cose_sign1_sign_init. *)
Definition protected_left (o : N) (alg : Z) : ubufc :=
  if has_flag o T_NO_PROTECTED_PARAMETERS then NULL_UBUF else protected_of o alg.

(** t_cose_sign1_test_message_encode_parameters, 425-490 *)
Definition maker_encode_parameters (c : cfg) (me : sctx) (o : N) (e : enc) : terr * enc :=
  let ind := has_flag o T_INDEFINITE_MAPS_ARRAYS in
  if (hash_alg_id_from_sig_alg_id c (c_alg me) =? INVALID_ALGORITHM_ID)%Z
  then (ERR_UNSUPPORTED_SIGNING_ALG, e)
  else
    let e := tops_run e
      (when (negb (has_flag (c_flags me) OPT_OMIT_CBOR_TAG)) [Q (OpTag TAG_COSE_SIGN1)] ++
       [if ind then OpenIndef NArray else oa] ++
       when (negb (has_flag o T_NO_PROTECTED_PARAMETERS)) [Q (OpBytes (protected_of o (c_alg me)))]) in
    if has_flag (c_flags me) OPT_SHORT_CIRCUIT_SIG && dis_short_circuit c
    then (ERR_SHORT_CIRCUIT_SIG_DISABLED, e)
    else
      let kid := if has_flag (c_flags me) OPT_SHORT_CIRCUIT_SIG then get_short_circuit_kid else c_kid me in
      (T_SUCCESS,
       tops_run e (when (negb (has_flag o T_NO_UNPROTECTED_PARAMETERS)) (unprotected_of o kid) ++ [Q OpOpenBstr])).

(** short_circuit_sign, 51-101 *)
Definition maker_short_circuit_sign (alg : Z) (hash : bytes) (buf : wbuf) : out (terr * bytes) :=
  let sig_size := if (alg =? ES256)%Z then P256_SIG_SIZE
                  else if (alg =? ES384)%Z then P384_SIG_SIZE
                  else if (alg =? ES512)%Z then P512_SIG_SIZE
                  else 0 in
  if sig_size =? 0 then Ret (ERR_UNSUPPORTED_SIGNING_ALG, [])
  else if wb_len buf <? sig_size then Ret (ERR_SIG_BUFFER_SIZE, [])
  else if wb_null buf then UB NullDeref
  else
    let? sig := sc_copy (N.to_nat sig_size) hash sig_size 0 in
    Ret (T_SUCCESS, sig).

(** t_cose_sign1_test_message_output_signature, 500-605. When the short circuit
    is requested but not built in, 580-586 leave return_value T_COSE_SUCCESS and
    the signature unset; the parameters have then been refused before. An
    adapter handed NULL for a buffer of non-zero length would write to it. *)
Definition maker_output_signature (c : cfg) (cr : crypto) (me : sctx) (o : N) (e : enc) : M (terr * enc) :=
  let ind := has_flag o T_INDEFINITE_MAPS_ARRAYS in
  let (e, pl) := enc_close_bstr e in
  match enc_error e with
  | QE_SUCCESS =>
    let! (err, hash) := create_tbs_hash c cr (c_alg me) (protected_left o (c_alg me)) NULL_UBUF
                          (resolve e pl) (max_hash_size c) in
    if negb (terr_eqb err T_SUCCESS) then mret (err, e)
    else
      let (e, buf) := enc_open_bytes e in
      let! (err, sig) :=
        if negb (has_flag (c_flags me) OPT_SHORT_CIRCUIT_SIG)
        then if wb_null buf && negb (wb_len buf =? 0) then mub NullDeref
             else mlog (EvSign (c_alg me) (c_key me) hash)
                       (cr_sign cr (c_alg me) (c_key me) hash (wb_len buf))
        else if dis_short_circuit c then mub Uninit
        else mlift (maker_short_circuit_sign (c_alg me) hash buf) in
      if negb (terr_eqb err T_SUCCESS) then mret (err, e)
      else
        let e := enc_close_bytes e (blen sig) sig in
        mret (T_SUCCESS, top_run e (if ind then CloseIndef else ca))
  | QE_BUFFER_TOO_SMALL => mret (ERR_TOO_SMALL, e)
  | _ => mret (ERR_CBOR_FORMATTING, e)
  end.

(** t_cose_test_message_sign1_sign, 611-658. Second result: what is left in
    [*result] ([None]: not set). *)
Definition test_message_sign1_sign (c : cfg) (cr : crypto) (me : sctx) (o : N) (payload : ubufc) (out_buf : wbuf)
  : M (terr * option ubufc) :=
  let (err, e) := maker_encode_parameters c me o (enc_init out_buf) in
  if negb (terr_eqb err T_SUCCESS) then mret (err, None)
  else
    let! (err, e) := maker_output_signature c cr me o (enc_add_encoded e payload) in
    if negb (terr_eqb err T_SUCCESS) then mret (err, None)
    else match enc_finish e with
         | (QE_SUCCESS, r) => mret (T_SUCCESS, r)
         | _ => mret (ERR_CBOR_NOT_WELL_FORMED, None)
         end.
