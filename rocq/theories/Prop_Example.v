(** C62: the example programs. *)
From Verif Require Import Base Const QEnc Crypto OpenSSL Psa AdapterSpec Sign Verify Spec SignSpec SignErrorSpec PieceSpec Toy Demo LiveSpec LiveDemo.
From Verif Require Import Examples ExampleFacts ExampleFacts2 VerifyMore4 VerifySpec ExampleSpec.
Open Scope N_scope. Open Scope list_scope.

(** ** They work *)

(** one_step_sign_example, for any map within the limits of the encoder, any
    algorithm that needs no auxiliary buffer, any buffer sizes that suffice. *)
Theorem C62_one_step : forall c cr junk alg key f payload_size size n,
  map_fits 15 f -> let pl := tree_bytes (BMap f) in blen pl <= payload_size ->
  all_works c cr alg key pl n -> alg <> (-8)%Z -> example_size c alg key pl n <= size -> size < 2 ^ 64 ->
  blen (requested_message c (example_request alg key) (Some pl) []) <= MAX_OFFSET ->
  shows pl (one_step_sign c cr junk alg (T_SUCCESS, key) (tree_ops (BMap f)) payload_size size).
Proof. exact one_step_works. Qed.
Print Assumptions C62_one_step.

(** two_step_sign_example; two levels are taken by the message. *)
Theorem C62_two_step : forall c cr junk alg key f size n,
  map_fits 13 f -> let pl := tree_bytes (BMap f) in
  all_works c cr alg key pl n -> alg <> (-8)%Z -> example_size c alg key pl n <= size -> size < 2 ^ 64 ->
  blen (requested_message c (example_request alg key) (Some pl) []) <= MAX_OFFSET ->
  shows pl (two_step_sign c cr junk alg (T_SUCCESS, key) (tree_ops (BMap f)) size).
Proof. exact two_step_works. Qed.
Print Assumptions C62_two_step.

(** dynamic_buffer_example, for any algorithm and payload. *)
Theorem C62_dynamic : forall c cr junk malloc alg key pl n,
  (forall k size, malloc k size = true) -> all_works c cr alg key pl n ->
  example_size c alg key pl n <= SIZE_MAX -> blen (requested_tbs (example_request alg key) [] pl) <= SIZE_MAX ->
  blen (requested_message c (example_request alg key) (Some pl) []) <= MAX_OFFSET ->
  shows pl (dynamic_buffer c cr junk malloc alg (T_SUCCESS, key) pl).
Proof. exact dynamic_works. Qed.
Print Assumptions C62_dynamic.

(** As written: 300 bytes are enough for 64 bytes of signature. *)
Theorem C62_one_step_as_written : forall c cr junk key, all_works c cr (-7) key being_payload 64 ->
  shows being_payload (one_step_sign_example c cr junk (T_SUCCESS, key)).
Proof. exact one_step_as_written. Qed.
Print Assumptions C62_one_step_as_written.
Theorem C62_two_step_as_written : forall c cr junk key, all_works c cr (-7) key being_payload 64 ->
  shows being_payload (two_step_sign_example c cr junk (T_SUCCESS, key)).
Proof. exact two_step_as_written. Qed.
Print Assumptions C62_two_step_as_written.
Theorem C62_dynamic_as_written : forall c cr junk malloc key n,
  (forall k size, malloc k size = true) -> n < 2 ^ 32 -> all_works c cr (-8) key plain_payload n ->
  shows plain_payload (dynamic_buffer_example c cr junk malloc (T_SUCCESS, key)).
Proof. exact dynamic_as_written. Qed.
Print Assumptions C62_dynamic_as_written.

(** With OpenSSL and a key on a 256-bit curve, with OpenSSL and an EdDSA key, with
    PSA and a key on a 256-bit curve. *)
Theorem C62_openssl : forall c lib H junk key,
  openssl_works lib H -> ossl_can_hash lib -> ossl_key key -> coordinate_length (ev_bits lib (k_handle key)) = 32 ->
  ossl_can_sign lib (-7) (k_handle key) -> key_pair lib (-7) (k_handle key) (k_handle key) ->
  shows being_payload (one_step_sign_example c (openssl c lib) junk (T_SUCCESS, key)) /\
  shows being_payload (two_step_sign_example c (openssl c lib) junk (T_SUCCESS, key)).
Proof. exact ossl_examples. Qed.
Print Assumptions C62_openssl.
Theorem C62_openssl_dynamic : forall c lib H junk malloc key,
  openssl_works lib H -> ossl_can_hash lib -> ossl_key key -> dis_eddsa c = false -> ev_size lib (k_handle key) < 2 ^ 32 ->
  ossl_can_sign lib (-8) (k_handle key) -> key_pair lib (-8) (k_handle key) (k_handle key) -> (forall k size, malloc k size = true) ->
  shows plain_payload (dynamic_buffer_example c (openssl c lib) junk malloc (T_SUCCESS, key)).
Proof. exact ossl_dynamic_example. Qed.
Print Assumptions C62_openssl_dynamic.
Theorem C62_psa : forall c lib H junk key,
  psa_hash_library lib H -> psa_within_room lib -> psa_can_hash lib ->
  psa_can_sign lib (-7) (k_handle key) 64 -> psa_key_pair lib (k_handle key) (k_handle key) ->
  shows being_payload (one_step_sign_example c (psa_crypto c lib) junk (T_SUCCESS, key)) /\
  shows being_payload (two_step_sign_example c (psa_crypto c lib) junk (T_SUCCESS, key)).
Proof. exact psa_examples. Qed.
Print Assumptions C62_psa.

(** ** What they show when they say it went well, with any adapter *)

(** The payload that was signed is shown. *)
Theorem C62_one_step_shows : forall c cr junk alg made ops payload_size size log x p,
  size < 2 ^ 64 -> one_step_sign c cr junk alg made ops payload_size size = (log, Ret x) -> x_code x = TCose T_SUCCESS ->
  enc_finish (eops_run (enc_init {| wb_null := false; wb_len := payload_size |}) ops) = (QE_SUCCESS, Some (UBuf p)) ->
  x_payload x = Some (UBuf p).
Proof. exact one_step_shows. Qed.
Print Assumptions C62_one_step_shows.
Theorem C62_dynamic_shows : forall c cr junk malloc alg made pl log x,
  dynamic_buffer c cr junk malloc alg made pl = (log, Ret x) -> x_code x = TCose T_SUCCESS -> x_payload x = Some (UBuf pl).
Proof. exact dynamic_shows. Qed.
Print Assumptions C62_dynamic_shows.

(** two_step_sign_example: the same, or nothing was verified. *)
Theorem C62_two_step_shows_partial : forall c cr junk alg made f size log x,
  map_fits 13 f -> let pl := tree_bytes (BMap f) in blen (requested_message c (example_request alg (snd made)) (Some pl) []) <= MAX_OFFSET ->
  size < 2 ^ 64 -> two_step_sign c cr junk alg made (tree_ops (BMap f)) size = (log, Ret x) -> x_code x = TCose T_SUCCESS ->
  x_payload x = Some (UBuf pl) \/ x_payload x = None.
Proof. exact two_step_shows. Qed.
Print Assumptions C62_two_step_shows_partial.

Definition shown_of (x : M shown) : option (code * option ubufc) :=
  match snd x with Ret s => Some (x_code s, x_payload s) | UB _ => None end.

(** The latter does happen: an error of QCBOREncode_Finish is not returned. The
    message has 172 bytes; with one byte less the program says that all went well,
    having verified nothing. *)
Theorem C62_two_step_shows_refuted : ~ (forall c cr junk alg made f size log x,
  map_fits 13 f -> let pl := tree_bytes (BMap f) in blen (requested_message c (example_request alg (snd made)) (Some pl) []) <= MAX_OFFSET ->
  size < 2 ^ 64 -> two_step_sign c cr junk alg made (tree_ops (BMap f)) size = (log, Ret x) -> x_code x = TCose T_SUCCESS ->
  x_payload x = Some (UBuf pl)).
Proof.
  intro H.
  pose (r := two_step_sign cfg_full toy (UNull 0) (-7) (T_SUCCESS, toy_key) (tree_ops (BMap being)) 171).
  assert (E : r = (fst r, Ret {| x_code := TCose T_SUCCESS; x_payload := None |})) by (vm_compute; reflexivity).
  refine (_ (H cfg_full toy (UNull 0) (-7)%Z (T_SUCCESS, toy_key) being 171 (fst r) _ (being_fits 13 _) _ _ E eq_refl)).
  - discriminate.
  - repeat constructor.
  - vm_compute. discriminate.
  - reflexivity.
Qed.
Print Assumptions C62_two_step_shows_refuted.

Lemma toy_all_works alg key pl : enabled cfg_full alg -> all_works cfg_full toy alg key pl 64.
Proof.
  intro E. split; [exact E|]. split; [now apply toy_works|]. split; [|split; [exact toy_one_digest|apply toy_reliable]].
  split; cbn [cr_sign cr_sign_eddsa cr_verify cr_verify_eddsa toy]; intros d room sig kid H;
    (destruct (room <? 64); [discriminate|]); injection H as <-;
    rewrite (proj2 (BaseFacts.bytes_eqb_eq _ _) eq_refl); reflexivity.
Qed.

Example C62_case :
  all_works cfg_full toy (-7) toy_key being_payload 64 /\ all_works cfg_full toy (-8) toy_key plain_payload 64 /\ map_fits 13 being /\
  example_size cfg_full (-7) toy_key being_payload 64 = 172 /\
  let ok p := Some (TCose T_SUCCESS, Some (UBuf p)) in
  shown_of (one_step_sign_example cfg_full toy (UNull 9) (T_SUCCESS, toy_key)) = ok being_payload /\
  shown_of (two_step_sign_example cfg_full toy (UNull 9) (T_SUCCESS, toy_key)) = ok being_payload /\
  shown_of (dynamic_buffer_example cfg_full toy (UNull 9) (fun _ _ => true) (T_SUCCESS, toy_key)) = ok plain_payload /\
  map (fun n => shown_of (one_step_sign cfg_full toy (UNull 9) (-7) (T_SUCCESS, toy_key) being_payload_ops 300 n)) [172; 171]
    = [ok being_payload; Some (TCose ERR_TOO_SMALL, None)] /\
  map (fun k => shown_of (dynamic_buffer_example cfg_full toy (UNull 9) (fun j _ => negb (Nat.eqb j k)) (T_SUCCESS, toy_key))) [0; 1; 2]%nat
    = repeat (Some (TCose ERR_INSUFFICIENT_MEMORY, None)) 3.
Proof.
  split; [apply toy_all_works; now left|]. split; [apply toy_all_works; unfold enabled; auto 10|]. split; [apply being_fits; repeat constructor|].
  split; [vm_compute; reflexivity|]. split; [vm_compute; reflexivity|]. split; [vm_compute; reflexivity|]. split; [vm_compute; reflexivity|].
  split; vm_compute; reflexivity.
Qed.
(** Which program is meant to be used with which library: ES256 with the
    demonstration libraries; the first example with a payload buffer too small. *)
Example C62_libraries_case :
  openssl_works demo_ossl demo_hash /\ ossl_can_hash demo_ossl /\ ossl_key toy_key /\ coordinate_length (ev_bits demo_ossl 7) = 32 /\
  ossl_can_sign demo_ossl (-7) 7 /\ key_pair demo_ossl (-7) 7 7 /\ ossl_can_sign demo_ossl (-8) 7 /\ key_pair demo_ossl (-8) 7 7 /\
  psa_can_sign demo_psa (-7) 7 64 /\ psa_key_pair demo_psa 7 7 /\
  shown_of (two_step_sign_example cfg_full (openssl cfg_full demo_ossl) (UNull 9) (T_SUCCESS, toy_key)) = Some (TCose T_SUCCESS, Some (UBuf being_payload)) /\
  shown_of (one_step_sign_example cfg_full (psa_crypto cfg_full demo_psa) (UNull 9) (T_SUCCESS, toy_key)) = Some (TCose T_SUCCESS, Some (UBuf being_payload)) /\
  shown_of (one_step_sign cfg_full toy (UNull 9) (-7) (T_SUCCESS, toy_key) being_payload_ops 90 300) = Some (QCbor QE_BUFFER_TOO_SMALL, None).
Proof.
  split; [apply demo_works|]. split; [apply demo_can_hash|]. split; [split; [reflexivity|discriminate]|]. split; [reflexivity|].
  split; [apply demo_can_sign|]. split; [apply demo_pair|]. split; [apply demo_can_sign|]. split; [apply demo_pair|].
  split; [now apply demo_psa_can_sign|]. split; [apply demo_psa_pair|].
  split; [vm_compute; reflexivity|]. split; vm_compute; reflexivity.
Qed.
