(** C73: the adapter is called as its interface describes. *)
From Verif Require Import Base Const QEnc QDec Crypto Util Sign Params Verify Spec SignSpec DecSpec VerifySpec VerifyTop Toy TestCrypto Demo.
From Verif Require Import ProtocolSpec ProtocolFacts ProtocolVerify.
Open Scope N_scope. Open Scope list_scope.

(** Signing, whatever its result. A short-circuit signature makes no call that
    concerns a key, and nothing is signed when only the size is asked for. *)
Theorem C73_signing : forall c cr q me det payload aad buf log r,
  configured q me ->
  sign_aad_internal c cr me det payload aad buf = (log, Ret r) ->
  orderly c cr (q_alg q) (signs_directly (q_alg q) (q_key q)) (signs_digest (q_alg q) (q_key q)) log /\
  (wants_short_circuit (q_flags q) = true -> orderly c cr (q_alg q) (fun _ => False) (fun _ _ => False) log) /\
  (wb_null buf = true -> no_signature log).
Proof. exact sign_orderly_request. Qed.
Print Assumptions C73_signing.

(** The last step of piecewise signing, whatever the state of the encoder. The
    first step calls nothing: its type has no adapter. *)
Theorem C73_signature_step : forall c cr q me aad dp e log r,
  configured q me ->
  encode_signature_aad_internal c cr me aad dp e = (log, Ret r) ->
  orderly c cr (q_alg q) (signs_directly (q_alg q) (q_key q)) (signs_digest (q_alg q) (q_key q)) log /\
  (wants_short_circuit (q_flags q) = true -> dis_short_circuit c = false ->
   orderly c cr (q_alg q) (fun _ => False) (fun _ _ => False) log) /\
  (e_null e = true -> no_signature log).
Proof. exact step_orderly_request. Qed.
Print Assumptions C73_signature_step.

(** Verification of any bytes: nothing is called, or they are a message that is
    acceptable but for its signature, and the calls carry its algorithm, key id
    and signature and the key of the context. *)
Theorem C73_verification : forall c cr junk me msg aad payload want dc log r ad gv,
  length (v_tags me) = 4%nat -> holds aad ad -> detached_arg dc payload gv ->
  verify_internal c cr junk me msg aad payload want dc = (log, Ret r) ->
  log = [] \/
  exists g pm p pl, message msg g pm /\ acceptable c (v_flags me) dc gv g pm p pl /\
    orderly c cr (p_alg p) (verifies_directly (p_alg p) (v_key me) (p_kid p) (g_sig g))
      (verifies_digest (p_alg p) (v_key me) (p_kid p) (g_sig g)) log /\
    (short_circuit_kid c p = true -> orderly c cr (p_alg p) (fun _ => False) (fun _ _ => False) log).
Proof. exact verify_orderly. Qed.
Print Assumptions C73_verification.

(** So there are at most ten calls. *)
Theorem C73_few_calls : forall c cr alg direct on_digest log,
  orderly c cr alg direct on_digest log -> (length log <= 10)%nat.
Proof. exact orderly_few. Qed.
Print Assumptions C73_few_calls.

(** Names of the calls. *)
Definition call_name (e : event) : N :=
  match e with
  | EvHashStart _ => 1 | EvHashUpdate _ => 2 | EvHashFinish => 3 | EvSigSize _ _ => 4
  | EvSign _ _ _ => 5 | EvSignEddsa _ _ => 6 | EvVerify _ _ _ _ _ => 7 | EvVerifyEddsa _ _ _ _ => 8
  end.
Definition sign_calls (alg : Z) (flags : N) (buf : wbuf) : list N :=
  map call_name (fst (sign_aad_internal cfg_full toy (toy_signer alg flags) false (UBuf toy_payload) (UBuf toy_aad) buf)).

Example C73_case :
  sign_calls (-7) 0 (out_buf 200) = [1; 2; 2; 2; 2; 2; 2; 2; 3; 5] /\
  sign_calls (-7) 0 {| wb_null := true; wb_len := 200 |} = [1; 2; 2; 2; 2; 2; 2; 2; 3; 4] /\
  sign_calls (-7) 1 (out_buf 200) = [1; 2; 2; 2; 2; 2; 2; 2; 3] /\
  sign_calls (-8) 0 (out_buf 200) = [6] /\
  sign_calls (-8) 0 {| wb_null := true; wb_len := 200 |} = [4] /\
  sign_calls (-99) 0 (out_buf 200) = [].
Proof. vm_compute. repeat split. Qed.

(** Verification of what was signed. A short-circuit signature under an ordinary
    key id, the last, is checked with the key like any other. *)
Definition verify_calls_of (alg : Z) (flags : N) : list N :=
  match snd (sign_aad_internal cfg_full toy (toy_signer alg flags) false (UBuf toy_payload) (UBuf toy_aad) (out_buf 200)) with
  | Ret (_, Some (UBuf m)) => map call_name (fst (verify_internal cfg_full toy NULL_UBUF (verify_set_auxiliary_buffer (toy_verifier 0) (out_buf 300)) m (UBuf toy_aad) None false false))
  | _ => []
  end.
Example C73_verification_case :
  verify_calls_of (-7) 0 = [1; 2; 2; 2; 2; 2; 2; 2; 3; 7] /\
  verify_calls_of (-8) 0 = [8] /\
  verify_calls_of (-7) 1 = [1; 2; 2; 2; 2; 2; 2; 2; 3; 7].
Proof. vm_compute. repeat split. Qed.
