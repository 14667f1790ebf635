(** C70: the documented sizes of buffers are enough. *)
From Verif Require Import Base Const QEnc Crypto Sign Spec SignSpec SignErrorSpec Toy LiveSpec LiveDemo SizeSpec SizeFacts.
Open Scope N_scope. Open Scope list_scope.

(** The size of every message that is made can be counted by hand, and there are at
    most 30 bytes in it that are not payload, signature, kid or text content type. *)
Theorem C70_message_size : forall c cr q me (det : bool) payload aad pl ad n log me' r,
  configured q me -> holds payload pl -> holds aad ad ->
  sign_aad_internal c cr me det payload aad {| wb_null := false; wb_len := n |} = (log, Ret (T_SUCCESS, me', r)) ->
  let op := if det then None else Some pl in
  exists m sig, r = Some (UBuf m) /\ m = requested_message c q op sig /\ blen m = counted_size c q op (blen sig) /\
    (n < 4294967296 -> blen m <= carried c q op (blen sig) + 30).
Proof. exact made_size. Qed.
Print Assumptions C70_message_size.

(** Measuring gives that size, and the size counted for the auxiliary buffer. *)
Theorem C70_measured_size : forall c cr q me (det : bool) payload aad (pl ad : bytes) n room,
  configured q me -> u_len payload = blen pl -> u_len aad = blen ad -> (det = true -> u_is_null payload = false) ->
  faultless c q -> signer_works c cr q [ad; pl] n ->
  (plain_eddsa q -> counted_aux q ad pl <= wb_len (q_aux q)) ->
  let op := if det then None else Some pl in
  counted_size c q op n <= room -> room <= MAX_OFFSET ->
  exists log me', sign_aad_internal c cr me det payload aad {| wb_null := true; wb_len := room |}
    = (log, Ret (T_SUCCESS, me', Some (UNull (counted_size c q op n)))) /\
    (plain_eddsa q -> sign_auxiliary_buffer_size c me' = counted_aux q ad pl).
Proof. exact measured_size. Qed.
Print Assumptions C70_measured_size.

(** A buffer with 30 bytes more than the data is enough, and for EdDSA an auxiliary
    buffer with 35 bytes more than AAD and payload. *)
Theorem C70_enough : forall c cr q me (det : bool) payload aad pl ad n room,
  configured q me -> holds payload pl -> holds aad ad -> (det = true -> u_is_null payload = false) ->
  faultless c q -> signer_works c cr q [ad; pl] n ->
  (plain_eddsa q -> wb_null (q_aux q) = false /\ blen ad + blen pl + 35 <= wb_len (q_aux q)) ->
  let op := if det then None else Some pl in
  carried c q op n + 30 <= room -> room <= MAX_OFFSET ->
  exists log me' m, sign_aad_internal c cr me det payload aad {| wb_null := false; wb_len := room |}
    = (log, Ret (T_SUCCESS, me', Some (UBuf m))).
Proof. exact enough_room. Qed.
Print Assumptions C70_enough.

(** ES256 and a kid of up to 32 bytes: 150 bytes more than the payload are enough. *)
Theorem C70_es256 : forall c cr q me payload aad pl ad room,
  configured q me -> holds payload pl -> holds aad ad -> q_alg q = (-7)%Z -> blen (requested_kid q) <= 32 ->
  q_ct_text q = None -> faultless c q -> signer_works c cr q [ad; pl] 64 ->
  blen pl + 150 <= room -> room <= MAX_OFFSET ->
  exists log me' m, sign_aad_internal c cr me false payload aad {| wb_null := false; wb_len := room |}
    = (log, Ret (T_SUCCESS, me', Some (UBuf m))).
Proof. exact enough_es256. Qed.
Print Assumptions C70_es256.

(** Cases. The toy request has a kid of two bytes and content type 42; its messages
    have 84 bytes. The last message reaches the 30 bytes but for what lengths of two
    bytes save. *)
Definition made_length (x : M (terr * sctx * option ubufc)) : option N :=
  match snd x with Ret (T_SUCCESS, _, Some (UBuf m)) => Some (blen m) | _ => None end.
Definition measured_length (x : M (terr * sctx * option ubufc)) : option N :=
  match snd x with Ret (T_SUCCESS, _, Some (UNull n)) => Some n | _ => None end.
Example C70_case :
  let q alg := toy_request alg 0 in
  configured (q (-7)%Z) (toy_signer (-7) 0) /\ signer_works cfg_full toy (q (-7)%Z) [toy_aad; toy_payload] 64 /\
  faultless cfg_full (q (-7)%Z) /\ blen (requested_kid (q (-7)%Z)) <= 32 /\
  map (fun alg => counted_size cfg_full (q alg) (Some toy_payload) 64) [-7; -8; -37]%Z = [84; 84; 85] /\
  let s alg b := sign_aad_internal cfg_full toy (toy_signer alg 0) false (UBuf toy_payload) (UBuf toy_aad) b in
  map (fun alg => made_length (s alg (out_buf 200))) [-7; -8; -37]%Z = [Some 84; Some 84; Some 85] /\
  map (fun alg => measured_length (s alg {| wb_null := true; wb_len := 1000 |})) [-7; -8; -37]%Z = [Some 84; Some 84; Some 85] /\
  counted_aux (q (-8)%Z) toy_aad toy_payload = blen (requested_tbs (q (-8)%Z) toy_aad toy_payload) /\
  blen (requested_tbs (q (-8)%Z) toy_aad toy_payload) <= 200 /\
  carried cfg_full (q (-7)%Z) (Some toy_payload) 64 + 30 <= 200.
Proof.
  split; [apply toy_configured|]. split; [now apply toy_works|].
  split. { split; [now left|]. split; [intros [X _]; discriminate|]. split; [intros (_ & _ & X); now apply X|intros [X _]; discriminate]. }
  split; [vm_compute; discriminate|].
  repeat split; vm_compute; try reflexivity; discriminate.
Qed.
Definition long_request : request :=
  {| q_alg := -37; q_flags := 0; q_key := toy_key; q_kid := repeat x41 300; q_ct_uint := None;
     q_ct_text := Some (repeat x42 300); q_aux := toy_aux |}.
Example C70_long_case :
  let me := set_content_type_tstr (sign_set_auxiliary_buffer
              (set_signing_key (sign_init 0 (-37)) toy_key (UBuf (repeat x41 300))) toy_aux) (repeat x42 300) in
  configured long_request me /\ carried cfg_full long_request (Some (repeat x43 300)) 64 = 964 /\
  counted_size cfg_full long_request (Some (repeat x43 300)) 64 = 985 /\
  map (fun n => made_length (sign_aad_internal cfg_full toy me false (UBuf (repeat x43 300)) (UBuf []) (out_buf n))) [984; 985; 994] =
    [None; Some 985; Some 985].
Proof. split; [repeat split; now left|]. repeat split; vm_compute; reflexivity. Qed.
