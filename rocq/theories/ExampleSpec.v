(** What the example programs are to achieve. *)
From Verif Require Import Base Const QEnc Crypto Params Sign Verify Spec SignSpec PieceSpec Examples LiveSpec VerifySpec.
Open Scope N_scope. Open Scope list_scope.

(** What an example asks for: no options, no kid, no content type. *)
Definition example_request (alg : Z) (key : tkey) : request :=
  {| q_alg := alg; q_flags := 0; q_key := key; q_kid := []; q_ct_uint := None; q_ct_text := None;
     q_aux := {| wb_null := true; wb_len := 18446744073709551615 |} |}.

(** A build with the algorithm and an adapter that works with the key, for
    signatures of [n] bytes. *)
Definition all_works (c : cfg) (cr : crypto) (alg : Z) (key : tkey) (payload : bytes) (n : N) : Prop :=
  enabled c alg /\ signer_works c cr (example_request alg key) [[]; payload] n /\
  keys_match cr alg key key /\ one_digest cr /\ hash_reliable c cr [[]; payload].

(** Size of the message an example makes. *)
Definition example_size (c : cfg) (alg : Z) (key : tkey) (payload : bytes) (n : N) : N :=
  message_size c (example_request alg key) (Some payload) n.

(** The example ended well and printed [payload]. *)
Definition shows (payload : bytes) (r : M shown) : Prop :=
  exists log, r = (log, Ret {| x_code := TCose T_SUCCESS; x_payload := Some (UBuf payload) |}).

(** Maps within the encoder's limits; [levels]: how deep. *)
Definition map_fits (levels : nat) (f : bforest) : Prop :=
  bcount f < 65534 /\ forest_fits f /\ (tree_depth (BMap f) <= levels)%nat.

(** The map that the first two examples sign. *)
Definition being : bforest :=
  let t s f := BCons (BText s) f in
  t [x42; x65; x69; x6e; x67; x54; x79; x70; x65] (t [x48; x75; x6d; x61; x6e; x6f; x69; x64]
  (t [x47; x72; x65; x65; x74; x69; x6e; x67] (t [x57; x65; x20; x63; x6f; x6d; x65; x20; x69; x6e; x20; x70; x65; x61; x63; x65]
  (t [x41; x72; x6d; x43; x6f; x75; x6e; x74] (BCons (BInt 2)
  (t [x48; x65; x61; x64; x43; x6f; x75; x6e; x74] (BCons (BInt 1)
  (t [x42; x72; x61; x69; x6e; x53; x69; x7a; x65] (t [x6d; x65; x64; x69; x75; x6d]
  (t [x44; x72; x69; x6e; x6b; x73; x57; x61; x74; x65; x72] (BCons (BEncoded [xf5]) BNil))))))))))).
Definition being_payload : bytes := tree_bytes (BMap being).
(** The text that the third signs. *)
Definition plain_payload : bytes := [x70; x61; x79; x6c; x6f; x61; x64].
