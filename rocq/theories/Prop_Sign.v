(** Properties of signing. Each theorem is followed by a concrete case that
    meets its hypotheses. *)
From Verif Require Import Base Const QEnc Crypto Util ShortCircuit Sign Spec SignSpec PieceSpec Toy.
From Verif Require Import UtilFacts SignFacts SignProofs SignMore SignMore2 SignMore3 Piece.
Open Scope N_scope. Open Scope list_scope.

(** A successful call on the toy adapter. *)
Definition toy_run (alg : Z) (flags : N) (det : bool) (n : N) :=
  sign_aad_internal cfg_full toy (toy_signer alg flags) det (UBuf toy_payload) (UBuf toy_aad) (out_buf n).

(** ** C01, C02, C03: what is signed *)

(** Every adapter call made while signing, whether or not signing succeeds,
    concerns the requested algorithm and key and the Sig_structure of RFC 8152
    over the protected header, the AAD and the payload. *)
Theorem C01_signing_covers_sig_structure : forall c cr q me det payload aad pl ad buf log r,
  configured q me -> holds payload pl -> holds aad ad ->
  sign_aad_internal c cr me det payload aad buf = (log, r) ->
  (forall e, In e log -> event_ok cr (q_alg q) (q_key q) (requested_tbs q ad pl) e) /\
  (wb_null buf = false -> In EvHashFinish log -> hashed log = requested_tbs q ad pl).
Proof. exact sign_events. Qed.
Print Assumptions C01_signing_covers_sig_structure.

Example C01_case : exists log, fst (toy_run (-7) 0 false 200) = log /\
  In EvHashFinish log /\ hashed log = requested_tbs (toy_request (-7) 0) toy_aad toy_payload.
Proof. eexists. split; [reflexivity|]. split; [vm_compute; tauto|vm_compute; reflexivity]. Qed.

(** What is fed to the hash piece by piece is what EdDSA serialises in one go. *)
Theorem C02_hash_path_is_eddsa_path : forall c cr alg prot aad payload p a m n log d aux tbs,
  holds prot p -> holds aad a -> holds payload m ->
  create_tbs_hash c cr alg prot aad payload n = (log, Ret (T_SUCCESS, d)) ->
  create_tbs prot aad payload aux = (T_SUCCESS, Some (UBuf tbs)) ->
  hashed log = tbs.
Proof. exact hash_path_is_eddsa_path. Qed.
Print Assumptions C02_hash_path_is_eddsa_path.

Example C02_case : exists log d tbs,
  create_tbs_hash cfg_full toy (-7) (UBuf [xa1; x01; x26]) (UNull 0) (UBuf toy_payload) 32
    = (log, Ret (T_SUCCESS, d)) /\
  create_tbs (UBuf [xa1; x01; x26]) (UNull 0) (UBuf toy_payload) toy_aux = (T_SUCCESS, Some (UBuf tbs)).
Proof. do 3 eexists. split; vm_compute; reflexivity. Qed.

(** The bytes signed determine the protected header, the AAD and the payload;
    the length of a C buffer is below 2^64. *)
Theorem C03_sig_structure_injective : forall p a m p' a' m',
  blen p < 2 ^ 64 -> blen a < 2 ^ 64 -> blen m < 2 ^ 64 ->
  blen p' < 2 ^ 64 -> blen a' < 2 ^ 64 -> blen m' < 2 ^ 64 ->
  sig_structure p a m = sig_structure p' a' m' -> p = p' /\ a = a' /\ m = m'.
Proof. exact sig_structure_inj. Qed.
Print Assumptions C03_sig_structure_injective.

(** Bytes cannot be moved between fields. *)
Example C03_case : sig_structure [x01] [x02; x03] [x04] <> sig_structure [x01; x02] [x03] [x04].
Proof. discriminate. Qed.

(** ** C04: the message *)

Theorem C04_message_is_cose_sign1 : forall c cr q me det payload aad pl ad n log me' r,
  configured q me -> holds payload pl -> holds aad ad ->
  sign_aad_internal c cr me det payload aad {| wb_null := false; wb_len := n |}
    = (log, Ret (T_SUCCESS, me', r)) ->
  exists sig room,
    let m := requested_message c q (if det then None else Some pl) sig in
    r = Some (UBuf m) /\ blen m <= n /\ room <= n /\
    signature_of cr q (requested_tbs q ad pl) room sig /\ enabled c (q_alg q).
Proof. exact sign_success_spec. Qed.
Print Assumptions C04_message_is_cose_sign1.

Example C04_case : exists log me m, toy_run (-7) 0 false 200 = (log, Ret (T_SUCCESS, me, Some (UBuf m))) /\
  m = requested_message cfg_full (toy_request (-7) 0) (Some toy_payload)
        (toy_sig (toy_digest (requested_tbs (toy_request (-7) 0) toy_aad toy_payload))).
Proof. do 3 eexists. split; vm_compute; reflexivity. Qed.

(** ** C07: t_cose_sign1_sign_aad *)

(** The property fails: the arguments are swapped. Whatever is asked for, the
    AAD becomes the payload of the message and the payload becomes the AAD. *)
Theorem C07_sign_aad_swaps_its_arguments : forall c cr q me payload aad pl ad n log me' r,
  configured q me -> holds payload pl -> holds aad ad ->
  sign_aad c cr me aad payload {| wb_null := false; wb_len := n |} = (log, Ret (T_SUCCESS, me', r)) ->
  exists sig room,
    r = Some (UBuf (requested_message c q (Some ad) sig)) /\
    signature_of cr q (requested_tbs q pl ad) room sig.
Proof. exact sign_aad_swaps. Qed.
Print Assumptions C07_sign_aad_swaps_its_arguments.

(** With a NULL AAD it is not t_cose_sign1_sign: the payload is lost. *)
Theorem C07_sign_aad_refuted : exists c cr q me payload pl buf log me' r log2 me2 r2 sig,
  configured q me /\ holds payload pl /\
  sign_aad c cr me NULL_UBUF payload buf = (log, Ret (T_SUCCESS, me', r)) /\
  sign c cr me payload buf = (log2, Ret (T_SUCCESS, me2, r2)) /\
  r <> r2 /\ r = Some (UBuf (requested_message c q (Some []) sig)) /\ pl <> [].
Proof. exact sign_aad_refuted. Qed.
Print Assumptions C07_sign_aad_refuted.

(** ** C08: EdDSA and the auxiliary buffer, signing side *)

Theorem C08_eddsa_auxiliary_buffer_signing : forall c cr q me det payload aad pl ad n,
  configured q me -> holds payload pl -> holds aad ad -> (det = true -> u_is_null payload = false) ->
  q_alg q = (-8)%Z -> dis_eddsa c = false -> wants_short_circuit (q_flags q) = false ->
  ~ (dis_content_type c = false /\ q_ct_uint q <> None /\ q_ct_text q <> None) ->
  let tbs := requested_tbs q ad pl in
  blen (requested_message c q (if det then None else Some pl) []) <= n -> n <= MAX_OFFSET ->
  forall log err me' r,
  sign_aad_internal c cr me det payload aad {| wb_null := false; wb_len := n |} = (log, Ret (err, me', r)) ->
  (blen tbs <= wb_len (q_aux q) -> sign_auxiliary_buffer_size c me' = blen tbs) /\
  (wb_len (q_aux q) < blen tbs -> err = ERR_AUXILIARY_BUFFER_SIZE /\ log = []) /\
  (blen tbs <= wb_len (q_aux q) -> wb_null (q_aux q) = true -> err = ERR_NEED_AUXILIARY_BUFFER /\ log = []) /\
  (blen tbs <= wb_len (q_aux q) -> wb_null (q_aux q) = false -> log = [EvSignEddsa (q_key q) tbs]).
Proof. exact eddsa_aux. Qed.
Print Assumptions C08_eddsa_auxiliary_buffer_signing.

Theorem C08_eddsa_auxiliary_size_calculation : forall c cr q me det payload aad (pl ad : bytes) n,
  configured q me -> u_len payload = blen pl -> u_len aad = blen ad -> (det = true -> u_is_null payload = false) ->
  q_alg q = (-8)%Z -> dis_eddsa c = false -> wants_short_circuit (q_flags q) = false ->
  ~ (dis_content_type c = false /\ q_ct_uint q <> None /\ q_ct_text q <> None) ->
  let tbs := requested_tbs q ad pl in
  blen (requested_message c q (if det then None else Some pl) []) <= n -> n <= MAX_OFFSET ->
  blen tbs <= wb_len (q_aux q) ->
  forall log err me' r,
  sign_aad_internal c cr me det payload aad {| wb_null := true; wb_len := n |} = (log, Ret (err, me', r)) ->
  sign_auxiliary_buffer_size c me' = blen tbs.
Proof. exact eddsa_aux_size_calculation. Qed.
Print Assumptions C08_eddsa_auxiliary_size_calculation.

Example C08_case : exists log me m,
  toy_run (-8) 0 true 200 = (log, Ret (T_SUCCESS, me, Some (UBuf m))) /\
  sign_auxiliary_buffer_size cfg_full me = blen (requested_tbs (toy_request (-8) 0) toy_aad toy_payload) /\
  blen (requested_message cfg_full (toy_request (-8) 0) None []) <= 200.
Proof. do 3 eexists. split; [vm_compute; reflexivity|]. split; [vm_compute; reflexivity|]. vm_compute. discriminate. Qed.

(** ** C10, C11: sizes *)

Theorem C10_size_calculation_exact : forall c cr q me det payload aad payload' aad' (pl ad : bytes) n n0 log me' m,
  configured q me -> holds payload pl -> holds aad ad ->
  u_len payload' = blen pl -> u_len aad' = blen ad -> (det = true -> u_is_null payload' = false) ->
  hash_reliable c cr [ad; pl] -> sizes_agree cr q ->
  (wants_short_circuit (q_flags q) = true -> forall halg data d, digest_of cr halg data d -> d <> []) ->
  sign_aad_internal c cr me det payload aad {| wb_null := false; wb_len := n |}
    = (log, Ret (T_SUCCESS, me', Some (UBuf m))) ->
  blen m <= n0 ->
  exists log2 me2,
    sign_aad_internal c cr me det payload' aad' {| wb_null := true; wb_len := n0 |}
    = (log2, Ret (T_SUCCESS, me2, Some (UNull (blen m)))).
Proof. exact size_calculation. Qed.
Print Assumptions C10_size_calculation_exact.

Example C10_case : hash_reliable cfg_full toy [toy_aad; toy_payload] /\ sizes_agree toy (toy_request (-7) 1) /\
  (forall halg data d, digest_of toy halg data d -> d <> []) /\
  exists log me m, toy_run (-7) 1 false 200 = (log, Ret (T_SUCCESS, me, Some (UBuf m))) /\
  exists log2 me2, sign_aad_internal cfg_full toy (toy_signer (-7) 1) false (UNull 3) (UNull 2)
     {| wb_null := true; wb_len := SIZE_MAX |} = (log2, Ret (T_SUCCESS, me2, Some (UNull (blen m)))).
Proof.
  split; [apply toy_reliable|]. split; [apply toy_sizes|]. split; [apply toy_digest_nonempty|].
  do 3 eexists. split; [vm_compute; reflexivity|]. do 2 eexists. vm_compute. reflexivity.
Qed.

Theorem C11_buffer_threshold : forall c cr q me det payload aad pl ad n log me' m,
  configured q me -> holds payload pl -> holds aad ad ->
  sizes_agree cr q -> room_irrelevant cr q ->
  (wants_short_circuit (q_flags q) = true -> forall halg data d, digest_of cr halg data d -> d <> []) ->
  sign_aad_internal c cr me det payload aad {| wb_null := false; wb_len := n |}
    = (log, Ret (T_SUCCESS, me', Some (UBuf m))) ->
  forall n',
    (blen m <= n' -> exists me2,
       sign_aad_internal c cr me det payload aad {| wb_null := false; wb_len := n' |}
       = (log, Ret (T_SUCCESS, me2, Some (UBuf m)))) /\
    (n' < blen m -> forall log2 me2 r,
       sign_aad_internal c cr me det payload aad {| wb_null := false; wb_len := n' |}
       <> (log2, Ret (T_SUCCESS, me2, r))).
Proof. exact buffer_threshold. Qed.
Print Assumptions C11_buffer_threshold.

Example C11_case : sizes_agree toy (toy_request (-7) 0) /\ room_irrelevant toy (toy_request (-7) 0) /\
  exists log me m, toy_run (-7) 0 false 200 = (log, Ret (T_SUCCESS, me, Some (UBuf m))) /\
  (exists log me, toy_run (-7) 0 false (blen m - 1) = (log, Ret (ERR_TOO_SMALL, me, None))).
Proof.
  split; [apply toy_sizes|]. split; [apply toy_room|].
  do 3 eexists. split; [vm_compute; reflexivity|]. do 2 eexists. vm_compute. reflexivity.
Qed.

(** ** C12, C47: signing piecewise *)

Theorem C12_piecewise_is_one_shot : forall c cr me aad f buf,
  (forest_depth f <= 13)%nat -> forest_fits f -> bcount f < 65534 ->
  blen (unsigned c me false (UBuf (forest_bytes f))) <= MAX_OFFSET ->
  piecewise c cr me aad (forest_ops f) buf
  = sign_aad_internal c cr me false (UBuf (forest_bytes f)) aad buf.
Proof. exact piecewise_eq. Qed.
Print Assumptions C12_piecewise_is_one_shot.

Definition toy_forest : bforest :=
  BCons (BMap (BCons (BInt (-3)) (BCons (BArray (BCons (BText [x41]) (BCons (BTag 1 (BUInt 1000)) BNil)))
        (BCons (BUInt 2) (BCons (BWrap (BCons BNull BNil)) BNil))))) (BCons (BEncoded [xf6]) BNil).

Example C12_case : (forest_depth toy_forest <= 13)%nat /\ forest_fits toy_forest /\
  blen (unsigned cfg_full (toy_signer (-7) 0) false (UBuf (forest_bytes toy_forest))) <= MAX_OFFSET /\
  exists log me m, piecewise cfg_full toy (toy_signer (-7) 0) (UBuf toy_aad) (forest_ops toy_forest) (out_buf 200)
    = (log, Ret (T_SUCCESS, me, Some (UBuf m))).
Proof.
  split; [vm_compute; repeat constructor|]. split; [vm_compute; tauto|].
  split; [vm_compute; discriminate|]. do 3 eexists. vm_compute. reflexivity.
Qed.

(** In the middle of a larger encoding the same message is appended, with the
    same adapter calls. *)
Theorem C47_embedded_is_one_shot : forall c cr me aad f e log r m,
  e_err e = QE_SUCCESS -> e_oerr e = false -> e_null e = false ->
  e_cap e <= MAX_OFFSET -> e_pos e <= e_cap e ->
  (length (e_nest e) <= 12)%nat -> (2 + length (e_nest e) + forest_depth f <= 15)%nat ->
  forest_fits f -> bcount f < 65534 ->
  match e_nest e with [] => e_top e | n :: _ => n_count n end + 1 < 65534 ->
  sign_aad_internal c cr me false (UBuf (forest_bytes f)) aad
     {| wb_null := false; wb_len := e_cap e - e_pos e |} = (log, Ret (T_SUCCESS, r, Some (UBuf m))) ->
  exists me2,
    piecewise_on c cr me aad (forest_ops f) e =
    (log, Ret (T_SUCCESS, me2,
       {| e_null := false; e_cap := e_cap e; e_data := e_data e ++ m; e_oerr := false;
          e_top := match e_nest e with [] => e_top e + 1 | _ => e_top e end;
          e_nest := match e_nest e with
                    | [] => []
                    | n :: l => {| n_type := n_type n; n_start := n_start n; n_count := n_count n + 1 |} :: l
                    end;
          e_err := QE_SUCCESS |})).
Proof. exact embedded. Qed.
Print Assumptions C47_embedded_is_one_shot.

Example C47_case :
  let e := eops_run (enc_init (out_buf 300)) [OpOpenArray; OpUInt 5; OpOpenMap; OpInt (-1)] in
  e_err e = QE_SUCCESS /\ e_oerr e = false /\ e_null e = false /\ e_pos e = 2 /\ length (e_nest e) = 2%nat /\
  exists log r m, sign_aad_internal cfg_full toy (toy_signer (-7) 0) false (UBuf (forest_bytes toy_forest))
     (UBuf toy_aad) {| wb_null := false; wb_len := e_cap e - e_pos e |} = (log, Ret (T_SUCCESS, r, Some (UBuf m))).
Proof. cbv zeta. repeat (split; [vm_compute; reflexivity|]). do 3 eexists. vm_compute. reflexivity. Qed.

(** ** C36: the tag option *)

Theorem C36_omit_tag : forall c cr q q' me me' det payload aad pl n log m,
  configured q me -> configured q' me' -> holds payload pl ->
  q_alg q = q_alg q' -> q_key q = q_key q' -> q_kid q = q_kid q' ->
  q_ct_uint q = q_ct_uint q' -> q_ct_text q = q_ct_text q' -> q_aux q = q_aux q' ->
  wants_short_circuit (q_flags q) = wants_short_circuit (q_flags q') ->
  wants_tag (q_flags q) = true -> wants_tag (q_flags q') = false ->
  n + 1 <= MAX_OFFSET ->
  (exists r, sign_aad_internal c cr me' det payload aad {| wb_null := false; wb_len := n |}
    = (log, Ret (T_SUCCESS, r, Some (UBuf m)))) <->
  (exists r, sign_aad_internal c cr me det payload aad {| wb_null := false; wb_len := n + 1 |}
    = (log, Ret (T_SUCCESS, r, Some (UBuf (xd2 :: m))))).
Proof. exact omit_tag. Qed.
Print Assumptions C36_omit_tag.

Example C36_case : wants_tag 0 = true /\ wants_tag 2 = false /\ wants_short_circuit 0 = wants_short_circuit 2 /\
  exists log r m, toy_run (-7) 2 false 200 = (log, Ret (T_SUCCESS, r, Some (UBuf m))).
Proof. repeat (split; [reflexivity|]). do 3 eexists. vm_compute. reflexivity. Qed.

(** ** C39: NULL and empty *)

Theorem C39_inline_null_payload : forall c cr me aad buf,
  sign_aad_internal c cr me false (UNull 0) aad buf = sign_aad_internal c cr me false (UBuf []) aad buf.
Proof. exact inline_null_payload. Qed.
Print Assumptions C39_inline_null_payload.

Theorem C39_null_aad : forall c cr me det payload buf,
  null_is_empty cr ->
  snd (sign_aad_internal c cr me det payload (UNull 0) buf)
  = snd (sign_aad_internal c cr me det payload (UBuf []) buf).
Proof. exact null_aad. Qed.
Print Assumptions C39_null_aad.

Example C39_case : null_is_empty toy /\
  exists me r, snd (sign_detached cfg_full toy (toy_signer (-7) 0) (UNull 0) (UBuf toy_payload) (out_buf 200))
    = Ret (T_SUCCESS, me, Some (UBuf r)).
Proof. split; [intro; reflexivity|]. do 2 eexists. vm_compute. reflexivity. Qed.

(** Fails for a detached payload: NULL is an error where empty succeeds. *)
Theorem C39_detached_null_payload_refuted : exists c cr me aad buf log me1 r log2 me2,
  sign_detached c cr me aad (UBuf []) buf = (log, Ret (T_SUCCESS, me1, Some r)) /\
  sign_detached c cr me aad (UNull 0) buf = (log2, Ret (ERR_CBOR_FORMATTING, me2, None)).
Proof. exact detached_null_refuted. Qed.
Print Assumptions C39_detached_null_payload_refuted.

(** ** C43: history *)

Theorem C43_signing_history : forall c cr me me2 det payload aad buf,
  same_config me me2 ->
  mmap res_only (sign_aad_internal c cr me det payload aad buf)
  = mmap res_only (sign_aad_internal c cr me2 det payload aad buf).
Proof. exact sign_history. Qed.
Print Assumptions C43_signing_history.

(** A context just used, even with another buffer, is such a context. *)
Example C43_case : exists log me m,
  toy_run (-8) 0 true 200 = (log, Ret (T_SUCCESS, me, Some (UBuf m))) /\
  me <> toy_signer (-8) 0 /\ same_config me (toy_signer (-8) 0).
Proof. do 3 eexists. split; [vm_compute; reflexivity|]. split; [vm_compute; discriminate|]. repeat split. now left. Qed.

(** ** C45: unsupported algorithms *)

Theorem C45_unsupported_refused : forall c cr me det payload aad buf,
  ~ enabled c (c_alg me) ->
  sign_aad_internal c cr me det payload aad buf = ([], Ret (ERR_UNSUPPORTED_SIGNING_ALG, me, None)).
Proof. exact sign_unsupported. Qed.
Print Assumptions C45_unsupported_refused.

Theorem C45_unsupported_refused_piecewise : forall c me e,
  ~ enabled c (c_alg me) -> encode_parameters c me e = (ERR_UNSUPPORTED_SIGNING_ALG, me, e).
Proof. exact params_unsupported. Qed.
Print Assumptions C45_unsupported_refused_piecewise.

Example C45_case : ~ enabled cfg_full 5 /\ enabled cfg_full (-39).
Proof.
  split; [|unfold enabled; cbn; tauto].
  intros [H|[[H _]|[[H _]|[[H _]|[[H _]|[[H _]|[H _]]]]]]]; discriminate.
Qed.

(** ** C46: errors while building the payload *)

(** An encoder error makes encode_signature fail before any adapter call. *)
Theorem C46_encoder_error_reported : forall c cr me aad e,
  enc_error e <> QE_SUCCESS ->
  exists err e', encode_signature_aad c cr me aad e = ([], Ret (err, me, e')) /\
                 err <> T_SUCCESS /\ enc_error e' <> QE_SUCCESS.
Proof. exact encoder_error_reported. Qed.
Print Assumptions C46_encoder_error_reported.

(** Levels left open or closed wrongly: no message can be finished; a wrong
    close is reported by encode_signature, before any adapter call. *)
Theorem C46_unbalanced_not_finished : forall c cr me me' aad e ops s,
  encode_parameters c me (enc_init s) = (T_SUCCESS, me', e) ->
  (nesting_of ops = Mismatched \/ exists k l, nesting_of ops = Open (k :: l)) ->
  forall log err me2 e2, encode_signature_aad c cr me' aad (eops_run e ops) = (log, Ret (err, me2, e2)) ->
    (nesting_of ops = Mismatched -> err <> T_SUCCESS /\ log = []) /\
    (err = T_SUCCESS -> fst (enc_finish e2) <> QE_SUCCESS).
Proof. exact unbalanced_not_finished. Qed.
Print Assumptions C46_unbalanced_not_finished.

Example C46_case : nesting_of [OpOpenArray; OpOpenMap; OpUInt 1; OpCloseArray] = Mismatched /\
  nesting_of [OpOpenArray; OpOpenMap; OpUInt 1] = Open [LMap; LArray] /\
  exists me e, encode_parameters cfg_full (toy_signer (-7) 0) (enc_init (out_buf 200)) = (T_SUCCESS, me, e).
Proof. split; [reflexivity|]. split; [reflexivity|]. do 2 eexists. vm_compute. reflexivity. Qed.

(** encode_signature itself does not notice a wrapped byte string left open:
    it signs the inner string and reports success. *)
Theorem C46_open_bstr_unnoticed_refuted : exists c cr me me' aad e s ops log me2 e2,
  encode_parameters c me (enc_init s) = (T_SUCCESS, me', e) /\
  nesting_of ops = Open [LBstr] /\
  encode_signature_aad c cr me' aad (eops_run e ops) = (log, Ret (T_SUCCESS, me2, e2)).
Proof. exact open_bstr_unnoticed. Qed.
Print Assumptions C46_open_bstr_unnoticed_refuted.

(** Closing the payload byte string itself and opening another is not noticed
    at all: the finished message is an array of five. *)
Theorem C46_payload_closed_unnoticed_refuted : exists c cr me aad buf ops log me' m rest,
  nesting_of ops = Escaped /\
  piecewise c cr me aad ops buf = (log, Ret (T_SUCCESS, me', Some (UBuf m))) /\
  m = xd2 :: x85 :: rest.
Proof. exact payload_closed_unnoticed. Qed.
Print Assumptions C46_payload_closed_unnoticed_refuted.
