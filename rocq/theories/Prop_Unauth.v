(** C66: unprotected parameters have no influence on the verdict. *)
From Verif Require Import Base Const QEnc QDec Crypto Util Params Verify Spec DecSpec SignSpec OpenSSL Psa TestCrypto AdapterSpec MessageSpec UnauthSpec Toy DemoLib UnauthFacts VerifySpec.
Open Scope N_scope. Open Scope list_scope.

Theorem C66_unprotected_irrelevant : forall c cr junk junk2 me msg msg2 aad payload want dc gv g pm p pl g2 p2 pl2,
  ignores_kid cr -> length (v_tags me) = 4%nat -> detached_arg dc payload gv ->
  message msg g pm -> acceptable c (v_flags me) dc gv g pm p pl -> short_circuit_kid c p = false ->
  message msg2 g2 pm -> acceptable c (v_flags me) dc gv g2 pm p2 pl2 -> short_circuit_kid c p2 = false ->
  other_unprotected g g2 ->
  same_outcome (verify_internal c cr junk me msg aad payload want dc) (verify_internal c cr junk2 me msg2 aad payload want dc).
Proof. exact unprotected_irrelevant. Qed.
Print Assumptions C66_unprotected_irrelevant.

(** None of the adapters looks at the key id. *)
Theorem C66_adapters : forall c,
  (forall lib, ignores_kid (openssl c lib)) /\ (forall lib, ignores_kid (psa_crypto c lib)) /\
  (forall wraps junk, ignores_kid (test_crypto wraps junk c)).
Proof. intro c. split; [apply openssl_ignores_kid|]. split; [apply psa_ignores_kid|intros; apply test_ignores_kid]. Qed.
Print Assumptions C66_adapters.

(** One signed message with four sets of unprotected parameters: the first three
    are treated alike, with a good and with a bad signature. A key id marked as that of a short-circuit
    signature is not. *)
Definition hdr : bytes := encode (CMap [(CUInt 1, CNInt 6)]).
Definition hdr_sig : bytes := demo_sig (demo_hash (-16) (sig_structure hdr toy_aad toy_payload)).
Definition with_unprot (u : list (cbor * cbor)) (sig : bytes) : bytes :=
  encode (CArray [CBytes hdr; CMap u; CBytes toy_payload; CBytes sig]).
Definition try (u : list (cbor * cbor)) (sig : bytes) : option (terr * option ubufc) :=
  match verify_internal cfg_full (openssl cfg_full demo_ossl) NULL_UBUF (toy_verifier 0) (with_unprot u sig) (UBuf toy_aad) (Some NULL_UBUF) true false with
  | (_, Ret w) => Some (w_err w, w_payload w) | _ => None end.

Example C66_case :
  let kid := [(CUInt 4, CBytes [x41; x42])] in
  let rest := [(CUInt 4, CBytes [x43]); (CUInt 5, CBytes [x01]); (CUInt 3, CUInt 50); (CText [x78], CNull)] in
  let bad := zeros 64 in
  try [] hdr_sig = Some (T_SUCCESS, Some (UBuf toy_payload)) /\ try kid hdr_sig = try [] hdr_sig /\ try rest hdr_sig = try [] hdr_sig /\
  try [] bad = Some (ERR_SIG_VERIFY, None) /\ try kid bad = try [] bad /\ try rest bad = try [] bad /\
  try [(CUInt 4, CBytes reserved_kid)] hdr_sig = Some (ERR_SHORT_CIRCUIT_SIG, None).
Proof. vm_compute. repeat split. Qed.

(** ** C26: without REQUIRE_KID *)

(** A message that is accepted is accepted with any other key id, and with none,
    with the same result. *)
Theorem C26_kid_irrelevant : forall c cr junk me msg msg2 aad payload dc ad gv g pm g2 u log w p,
  ignores_kid cr -> length (v_tags me) = 4%nat -> holds aad ad -> detached_arg dc payload gv ->
  requires_kid (v_flags me) = false ->
  message msg g pm -> message msg2 g2 pm -> other_unprotected g g2 -> without_kid (g_unprot g2) = without_kid (g_unprot g) ->
  bytes_from (values 4 (all_params g2 pm)) u -> u_data u <> reserved_kid ->
  verify_internal c cr junk me msg aad payload true dc = (log, Ret w) -> w_err w = T_SUCCESS ->
  w_params w = Some p -> u_data (p_kid p) <> reserved_kid ->
  exists log2 w2, verify_internal c cr junk me msg2 aad payload true dc = (log2, Ret w2) /\ same_calls log log2 /\
    w_err w2 = T_SUCCESS /\ w_ctx w2 = w_ctx w /\ w_payload w2 = w_payload w /\ w_params w2 = Some (with_kid u p).
Proof. exact kid_irrelevant. Qed.
Print Assumptions C26_kid_irrelevant.

Definition try_kid (flags : N) (u : list (cbor * cbor)) : option (terr * option (Z * ubufc * ubufc)) :=
  match verify_internal cfg_full (openssl cfg_full demo_ossl) NULL_UBUF (toy_verifier flags) (with_unprot u hdr_sig) (UBuf toy_aad) (Some NULL_UBUF) true false with
  | (_, Ret w) => Some (w_err w, option_map (fun p => (p_alg p, p_kid p, p_iv p)) (w_params w)) | _ => None end.

(** With one key id, another, none; then with the flag. *)
Example C26_kid_irrelevant_case :
  let iv := (CUInt 5, CBytes [x01]) in
  try_kid 0 [(CUInt 4, CBytes [x41; x42]); iv] = Some (T_SUCCESS, Some ((-7)%Z, UBuf [x41; x42], UBuf [x01])) /\
  try_kid 0 [iv; (CUInt 4, CBytes [x43])] = Some (T_SUCCESS, Some ((-7)%Z, UBuf [x43], UBuf [x01])) /\
  try_kid 0 [iv] = Some (T_SUCCESS, Some ((-7)%Z, UNull 0, UBuf [x01])) /\
  try_kid 2 [iv; (CUInt 4, CBytes [x43])] = Some (T_SUCCESS, Some ((-7)%Z, UBuf [x43], UBuf [x01])) /\
  try_kid 2 [iv] = Some (ERR_NO_KID, None).
Proof. vm_compute. repeat split. Qed.
