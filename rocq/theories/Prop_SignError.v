(** C60: error codes of signing are true of the request. *)
From Verif Require Import Base Const QEnc QDec Crypto Util Sign Spec SignSpec PassSpec SignErrorSpec Toy TestCrypto Demo SignErrorFacts PieceSpec Piece PieceErrorFacts Prop_Sign Prop_Pass.
Open Scope N_scope. Open Scope list_scope.

(** An error is true of the request and buffers, or is the answer of the adapter
    to the last call made to it. So a request with no fault, for which the
    adapter does not fail, is signed. *)
Theorem C60_signing_errors : forall c cr q me (det : bool) payload aad pl ad buf log err me' r,
  configured q me -> holds payload pl -> holds aad ad -> (det = true -> u_is_null payload = false) ->
  let op := if det then None else Some pl in
  blen (requested_message c q op []) <= MAX_OFFSET ->
  sign_aad_internal c cr me det payload aad buf = (log, Ret (err, me', r)) -> err <> T_SUCCESS ->
  signing_fault c cr q op (requested_tbs q ad pl) buf log err \/ adapter_failed cr log err.
Proof. exact signing_errors. Qed.
Print Assumptions C60_signing_errors.

(** Faults that do not depend on the signature are reported before the adapter is
    asked anything, the first of them in the order given here. *)
Theorem C60_faults_reported : forall c cr q me (det : bool) payload aad pl ad buf,
  configured q me -> holds payload pl -> holds aad ad -> (det = true -> u_is_null payload = false) ->
  let op := if det then None else Some pl in
  let tbs := requested_tbs q ad pl in
  blen (requested_message c q op []) <= MAX_OFFSET ->
  let no := refused c cr me det payload aad buf in
  (bad_algorithm c q -> no ERR_UNSUPPORTED_SIGNING_ALG) /\
  (~ bad_algorithm c q ->
    (bad_short_circuit c q -> no ERR_SHORT_CIRCUIT_SIG_DISABLED) /\
    (~ bad_short_circuit c q ->
      (two_content_types c q -> no ERR_DUPLICATE_PARAMETER) /\
      (~ two_content_types c q ->
        (no_room c q op buf -> no ERR_TOO_SMALL) /\
        (~ no_room c q op buf ->
          (no_hash q -> no ERR_UNSUPPORTED_SIGNING_ALG) /\
          (plain_eddsa q -> wb_len (q_aux q) < blen tbs -> no ERR_AUXILIARY_BUFFER_SIZE) /\
          (plain_eddsa q -> blen tbs <= wb_len (q_aux q) -> wb_null (q_aux q) = true ->
           wb_null buf = false -> blen (requested_message c q op []) < wb_len buf + 2 -> no ERR_NEED_AUXILIARY_BUFFER))))).
Proof. exact signing_faults. Qed.
Print Assumptions C60_faults_reported.

(** The first step of piecewise signing, whatever was encoded before it: which
    error, if any, depends on the request alone. *)
Theorem C60_parameters_step : forall c q me e err me' e',
  configured q me -> encode_parameters c me e = (err, me', e') ->
  (bad_algorithm c q -> err = ERR_UNSUPPORTED_SIGNING_ALG) /\
  (~ bad_algorithm c q -> bad_short_circuit c q -> err = ERR_SHORT_CIRCUIT_SIG_DISABLED) /\
  (~ bad_algorithm c q -> ~ bad_short_circuit c q -> two_content_types c q -> err = ERR_DUPLICATE_PARAMETER) /\
  (~ bad_algorithm c q -> ~ bad_short_circuit c q -> ~ two_content_types c q -> err = T_SUCCESS).
Proof. exact parameters_errors. Qed.
Print Assumptions C60_parameters_step.

(** Each error arises. The message before the signature is 17 bytes here. *)
Definition sign_try (c : cfg) (me : sctx) (n : N) : M (terr * sctx * option ubufc) :=
  sign_aad_internal c toy me false (UBuf toy_payload) (UBuf toy_aad) (out_buf n).
Definition cfg_no_sc : cfg :=
  {| dis_es384 := false; dis_es512 := false; dis_ps256 := false; dis_ps384 := false; dis_ps512 := false;
     dis_eddsa := false; dis_short_circuit := true; dis_content_type := false |}.
Definition code (x : M (terr * sctx * option ubufc)) : option terr :=
  match snd x with Ret (e, _, _) => Some e | UB _ => None end.

Example C60_case :
  code (sign_try cfg_full (toy_signer (-7) 0) 200) = Some T_SUCCESS /\
  code (sign_try cfg_full (toy_signer (-99) 0) 200) = Some ERR_UNSUPPORTED_SIGNING_ALG /\
  code (sign_try cfg_full (toy_signer (-8) 1) 200) = Some ERR_UNSUPPORTED_SIGNING_ALG /\
  code (sign_try cfg_full (set_content_type_tstr (toy_signer (-7) 0) [x61]) 200) = Some ERR_DUPLICATE_PARAMETER /\
  code (sign_try cfg_full (toy_signer (-7) 0) 5) = Some ERR_TOO_SMALL /\
  fst (sign_try cfg_full (toy_signer (-7) 0) 5) = [] /\
  code (sign_try cfg_full (toy_signer (-7) 1) 40) = Some ERR_SIG_BUFFER_SIZE /\
  code (sign_try cfg_full (sign_set_auxiliary_buffer (toy_signer (-8) 0) (out_buf 10)) 200) = Some ERR_AUXILIARY_BUFFER_SIZE /\
  code (sign_try cfg_full (sign_set_auxiliary_buffer (toy_signer (-8) 0) {| wb_null := true; wb_len := 100 |}) 200)
    = Some ERR_NEED_AUXILIARY_BUFFER /\
  code (sign_try cfg_no_sc (toy_signer (-7) 1) 200) = Some ERR_SHORT_CIRCUIT_SIG_DISABLED /\
  code (failing_sign 1) = Some ERR_HASH_GENERAL_FAIL.
Proof. vm_compute. repeat split. Qed.

(** One byte too few for the message with its signature; not one byte for the signature. *)
Example C60_exact_size_case :
  blen (requested_message cfg_full (toy_request (-7) 0) (Some toy_payload) (some_bytes 64)) = 84 /\
  code (sign_try cfg_full (toy_signer (-7) 0) 84) = Some T_SUCCESS /\
  code (sign_try cfg_full (toy_signer (-7) 0) 83) = Some ERR_TOO_SMALL /\
  code (sign_try cfg_full (toy_signer (-7) 0) 17) = Some ERR_TOO_SMALL /\
  In (EvSigSize (-7) toy_key) (fst (sign_try cfg_full (toy_signer (-7) 0) 17)).
Proof. vm_compute. repeat split. tauto. Qed.

(** The same for a payload put into the encoder by the caller, item by item. *)
Theorem C60_piecewise_errors : forall c cr q me aad ad f buf log err me' r,
  configured q me -> holds aad ad ->
  (forest_depth f <= 13)%nat -> forest_fits f -> bcount f < 65534 ->
  let pl := forest_bytes f in
  blen (requested_message c q (Some pl) []) <= MAX_OFFSET ->
  piecewise c cr me aad (forest_ops f) buf = (log, Ret (err, me', r)) -> err <> T_SUCCESS ->
  signing_fault c cr q (Some pl) (requested_tbs q ad pl) buf log err \/ adapter_failed cr log err.
Proof. exact piecewise_errors. Qed.
Print Assumptions C60_piecewise_errors.

(** The last step of piecewise signing, whatever was encoded before it. If the
    encoder is in error, that is the answer and the adapter is asked nothing:
    ERR_TOO_SMALL if the buffer is full, ERR_CBOR_FORMATTING for anything else,
    such as nesting that does not match. *)
Theorem C60_signature_step_encoder : forall c cr me aad dp e,
  let e' := if u_is_null dp then fst (enc_close_bstr e) else e in
  (enc_error e' = QE_BUFFER_TOO_SMALL ->
   encode_signature_aad_internal c cr me aad dp e = ([], Ret (ERR_TOO_SMALL, me, e'))) /\
  (enc_error e' <> QE_BUFFER_TOO_SMALL -> enc_error e' <> QE_SUCCESS ->
   encode_signature_aad_internal c cr me aad dp e = ([], Ret (ERR_CBOR_FORMATTING, me, e'))).
Proof. exact signature_step_encoder. Qed.
Print Assumptions C60_signature_step_encoder.

(** If it is not, an error is true of the request or is the adapter's. *)
Theorem C60_signature_step : forall c cr q me aad dp e log err me2 e2,
  configured q me ->
  enc_error (if u_is_null dp then fst (enc_close_bstr e) else e) = QE_SUCCESS ->
  encode_signature_aad_internal c cr me aad dp e = (log, Ret (err, me2, e2)) -> err <> T_SUCCESS ->
  step_fault c q log err \/ adapter_failed cr log err.
Proof. exact signature_step_errors. Qed.
Print Assumptions C60_signature_step.

Definition piece_try (me : sctx) (ops : list eop) (n : N) : M (terr * sctx * option ubufc) :=
  piecewise cfg_full toy me (UBuf toy_aad) ops (out_buf n).
Example C60_piecewise_case :
  map (fun n => code (piece_try (toy_signer (-7) 0) (forest_ops toy_forest) n)) [200; 83; 20]
    = [Some T_SUCCESS; Some ERR_SIG_BUFFER_SIZE; Some ERR_TOO_SMALL] /\
  fst (piece_try (toy_signer (-7) 0) (forest_ops toy_forest) 20) = [] /\
  code (piece_try (toy_signer (-8) 1) (forest_ops toy_forest) 200) = Some ERR_UNSUPPORTED_SIGNING_ALG /\
  code (piece_try (sign_set_auxiliary_buffer (toy_signer (-8) 0) (out_buf 10)) (forest_ops toy_forest) 200)
    = Some ERR_AUXILIARY_BUFFER_SIZE /\
  code (piece_try (toy_signer (-7) 1) (forest_ops toy_forest) 60) = Some ERR_SIG_BUFFER_SIZE /\
  code (piece_try (toy_signer (-7) 0) [OpOpenMap; OpUInt 1] 200) = Some ERR_CBOR_FORMATTING /\
  fst (piece_try (toy_signer (-7) 0) [OpOpenMap; OpUInt 1] 200) = [].
Proof. vm_compute. repeat split. Qed.
