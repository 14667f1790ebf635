(** C57: what an error code of verification says is true of the message. *)
From Verif Require Import Base Const QEnc QDec Crypto Util ShortCircuit Params Verify Sign Spec DecSpec SignSpec Toy.
From Verif Require Import PassSpec ErrorSpec ErrorFacts ErrorTop VerifySpec.
Open Scope N_scope. Open Scope list_scope.

(** For bytes that are a message, each error of decoding names a fault the
    message has; every later error is one of a message with no such fault, and
    names the check that failed or is the answer of the last adapter call. *)
Theorem C57_errors_true : forall c cr junk me msg aad payload want dc log w ad gv,
  length (v_tags me) = 4%nat -> holds aad ad -> detached_arg dc payload gv ->
  verify_internal c cr junk me msg aad payload want dc = (log, Ret w) -> w_err w <> T_SUCCESS ->
  error_true c cr (v_flags me) (v_aux me) msg ad dc gv log (w_err w).
Proof. exact verify_error. Qed.
Print Assumptions C57_errors_true.

(** A message that meets all requirements but the signature never gives an
    error of decoding or of the checks of parameters. *)
Theorem C57_only_signature : forall c cr junk me msg aad payload want dc log w ad gv g pm p pl,
  length (v_tags me) = 4%nat -> holds aad ad -> detached_arg dc payload gv ->
  message msg g pm -> acceptable c (v_flags me) dc gv g pm p pl ->
  verify_internal c cr junk me msg aad payload want dc = (log, Ret w) -> w_err w <> T_SUCCESS ->
  signature_fault c cr (v_flags me) (v_aux me) p (sig_structure (g_prot g) ad pl) (g_sig g) log (w_err w).
Proof. exact acceptable_error. Qed.
Print Assumptions C57_only_signature.

Definition outcome (flags : N) (m : bytes) (payload : option ubufc) (dc : bool) : option terr :=
  match verify_internal cfg_full toy NULL_UBUF (toy_verifier flags) m (UBuf toy_aad) payload true dc with
  | (_, Ret w) => Some (w_err w) | _ => None end.
Definition with_prot (m u : list (cbor * cbor)) : option terr :=
  outcome 0 (toy_built [] (encode (CMap m)) u []) (Some NULL_UBUF) false.
Definition alg : cbor * cbor := (CUInt 1, CNInt 6).
Definition with_payload (pl : cbor) (dc : bool) : option terr :=
  let h := encode (CMap [alg]) in
  outcome 0 (encode (CArray [CBytes h; CMap []; pl; CBytes (toy_sig (toy_digest (sig_structure h toy_aad toy_payload)))]))
    (Some (UBuf toy_payload)) dc.
Definition many (n : nat) : list (cbor * cbor) := map (fun i => (CUInt (N.of_nat (100 + i)), CNull)) (seq 0 n).

(** Errors of decoding. *)
Example C57_case :
  with_prot [alg] [] = Some T_SUCCESS /\
  outcome 4 (toy_built [] (encode (CMap [alg])) [] []) (Some NULL_UBUF) false = Some ERR_INCORRECTLY_TAGGED /\
  with_prot [alg] [(CUInt 4, CUInt 1)] = Some ERR_PARAMETER_CBOR /\
  with_prot [alg] [(CNull, CUInt 1)] = Some ERR_PARAMETER_CBOR /\
  with_prot [alg] (many 11) = Some ERR_TOO_MANY_PARAMETERS /\
  with_prot [(CUInt 1, CUInt 2147483648)] [] = Some ERR_NON_INTEGER_ALG_ID /\
  with_prot [alg] [alg] = Some ERR_PARAMETER_NOT_PROTECTED /\
  with_prot [alg; (CUInt 4, CBytes [x41])] [(CUInt 4, CBytes [x41])] = Some ERR_DUPLICATE_PARAMETER /\
  with_prot [alg] [(CUInt 3, CUInt 65536)] = Some ERR_BAD_CONTENT_TYPE /\
  with_prot [alg; (CUInt 2, CArray [])] [] = Some ERR_CRIT_PARAMETER /\
  with_payload CNull true = Some T_SUCCESS /\ with_payload (CBytes toy_payload) true = Some ERR_CBOR_FORMATTING /\
  with_payload CNull false = Some ERR_SIGN1_FORMAT /\
  with_payload (CTag 1 (CTag 1 (CTag 1 (CTag 1 (CTag 1 (CBytes toy_payload)))))) false = Some ERR_TOO_MANY_TAGS /\
  outcome 0 [x01] (Some NULL_UBUF) false = Some ERR_SIGN1_FORMAT /\
  outcome 0 [xff] (Some NULL_UBUF) false = Some ERR_CBOR_NOT_WELL_FORMED.
Proof. vm_compute. repeat split. Qed.

(** Checks and signature. *)
Definition eddsa_out (aux : wbuf) : option terr :=
  match verify_internal cfg_full toy NULL_UBUF (verify_set_auxiliary_buffer (toy_verifier 0) aux)
          (toy_built [] (encode (CMap [(CUInt 1, CNInt 7)])) [] []) (UBuf toy_aad) (Some NULL_UBUF) true false with
  | (_, Ret w) => Some (w_err w) | _ => None end.
Example C57_case_signature :
  let sc := toy_built [] (encode (CMap [alg])) [(CUInt 4, CBytes reserved_kid)] [] in
  outcome 2 (toy_built [] (encode (CMap [alg])) [] []) (Some NULL_UBUF) false = Some ERR_NO_KID /\
  with_prot [alg; (CUInt 2, CArray [CUInt 9]); (CUInt 9, CNull)] [] = Some ERR_UNKNOWN_CRITICAL_PARAMETER /\
  outcome 0 sc (Some NULL_UBUF) false = Some ERR_SHORT_CIRCUIT_SIG /\
  with_prot [(CUInt 1, CNInt 99)] [] = Some ERR_UNSUPPORTED_SIGNING_ALG /\
  eddsa_out {| wb_null := true; wb_len := 200 |} = Some ERR_NEED_AUXILIARY_BUFFER /\
  eddsa_out (out_buf 5) = Some ERR_AUXILIARY_BUFFER_SIZE /\ eddsa_out (out_buf 200) = Some ERR_SIG_VERIFY.
Proof. vm_compute. repeat split. Qed.

(** Where the code departs from the descriptions in t_cose_common.h: a parameter
    twice in one bucket gives PARAMETER_CBOR, a missing algorithm gives
    UNSUPPORTED_SIGNING_ALG, a well-formed crit array with many tags on an element
    or a very negative label gives CBOR_NOT_WELL_FORMED. *)
Theorem C57_documented_codes_refuted :
  let kid := (CUInt 4, CBytes [x41]) in
  let crit x := with_prot [alg; (CUInt 2, CArray [x])] [] in
  with_prot [alg; kid; kid] [] = Some ERR_PARAMETER_CBOR /\ with_prot [alg] [kid; kid] = Some ERR_PARAMETER_CBOR /\
  with_prot [] [] = Some ERR_UNSUPPORTED_SIGNING_ALG /\ with_prot [kid] [] = Some ERR_UNSUPPORTED_SIGNING_ALG /\
  crit (CTag 1 (CTag 1 (CTag 1 (CTag 1 (CTag 1 (CUInt 50)))))) = Some ERR_CBOR_NOT_WELL_FORMED /\
  crit (CNInt 9223372036854775808) = Some ERR_CBOR_NOT_WELL_FORMED.
Proof. vm_compute. repeat split. Qed.
Print Assumptions C57_documented_codes_refuted.
