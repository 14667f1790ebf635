(** The tests of /repo/test/t_cose_test.c that use the maker of test messages
    (MakeMessage.v), run against the model with the
    test crypto adapter. Like RepoTests.v and RepoTests2.v these check the model;
    they are not proofs of any property. *)
From Coq Require Import String.
From Verif Require Import Base Const QEnc Crypto Util Sha256 TestCrypto ShortCircuit Sign QDec Params Verify MakeMessage RepoTests2.
Open Scope N_scope. Open Scope list_scope. Open Scope mon_scope.

(** The context the tests use: T_COSE_OPT_SHORT_CIRCUIT_SIG and ES256. *)
Definition test_message (o : N) (payload : bytes) (size : N) : M (terr * option ubufc) :=
  test_message_sign1_sign cfg_full adapter (sign_init OPT_SHORT_CIRCUIT_SIG ES256) o (UBuf payload) (buffer size).

(** run_test_sign_and_verify, 718-766: None is undefined behaviour *)
Definition run_test_sign_and_verify (o vo : N) : option terr :=
  match snd (test_message o (str "payload") 200) with
  | Ret (T_SUCCESS, r) =>
    match snd (verify cfg_full adapter NULL_UBUF (verify_init (N.lor OPT_ALLOW_SHORT_CIRCUIT vo)) (the_bytes r) (Some NULL_UBUF) false) with
    | Ret w => Some (w_err w)
    | UB _ => None
    end
  | Ret (err, _) => Some err
  | UB _ => None
  end.

(** bad_parameters_test, 847-900 *)
Example test_bad_parameters :
  map (fun o => run_test_sign_and_verify o 0)
    [T_EMPTY_PROTECTED_PARAMETERS; T_UNCLOSED_PROTECTED; T_DUP_CONTENT_ID; T_TOO_LARGE_CONTENT_TYPE;
     T_NOT_WELL_FORMED_2; T_KID_IN_PROTECTED; T_TOO_MANY_UNKNOWN; T_UNPROTECTED_NOT_MAP; T_BAD_CRIT_PARAMETER;
     T_NOT_WELL_FORMED_1; T_NO_UNPROTECTED_PARAMETERS; T_NO_PROTECTED_PARAMETERS; T_EXTRA_PARAMETER;
     T_PARAMETER_LABEL; T_BAD_PROTECTED] =
  map Some
    [ERR_UNSUPPORTED_SIGNING_ALG; ERR_PARAMETER_CBOR; ERR_DUPLICATE_PARAMETER; ERR_BAD_CONTENT_TYPE;
     ERR_CBOR_NOT_WELL_FORMED; ERR_DUPLICATE_PARAMETER; ERR_TOO_MANY_PARAMETERS; ERR_PARAMETER_CBOR; ERR_CRIT_PARAMETER;
     ERR_CBOR_NOT_WELL_FORMED; ERR_PARAMETER_CBOR; ERR_PARAMETER_CBOR; T_SUCCESS;
     ERR_PARAMETER_CBOR; ERR_PARAMETER_CBOR].
Proof. vm_compute. reflexivity. Qed.

(** crit_parameters_test, 904-956 *)
Example test_crit_parameters :
  map (fun x => run_test_sign_and_verify (fst x) (snd x))
    [(T_CRIT_PARAMETER_EXIST, 0); (T_TOO_MANY_CRIT_PARAMETER_EXIST, 0); (T_BAD_CRIT_LABEL, 0);
     (T_UNKNOWN_CRIT_UINT_PARAMETER, 0); (T_UNKNOWN_CRIT_TSTR_PARAMETER, 0);
     (T_UNKNOWN_CRIT_UINT_PARAMETER, OPT_UNKNOWN_CRIT_ALLOWED); (T_UNKNOWN_CRIT_TSTR_PARAMETER, OPT_UNKNOWN_CRIT_ALLOWED);
     (T_CRIT_NOT_PROTECTED, 0); (T_EMPTY_CRIT_PARAMETER, 0); (T_TOO_MANY_TSTR_CRIT_LABLELS, 0)] =
  map Some
    [T_SUCCESS; ERR_CRIT_PARAMETER; ERR_CRIT_PARAMETER; ERR_UNKNOWN_CRITICAL_PARAMETER; ERR_UNKNOWN_CRITICAL_PARAMETER;
     T_SUCCESS; T_SUCCESS; ERR_PARAMETER_NOT_PROTECTED; ERR_CRIT_PARAMETER; ERR_CRIT_PARAMETER].
Proof. vm_compute. reflexivity. Qed.

(** indef_array_and_map_test, 1627-1660 *)
Example test_indef_array_and_map :
  map (fun o => run_test_sign_and_verify (N.lor T_INDEFINITE_MAPS_ARRAYS o) 0)
    [0; T_UNKNOWN_CRIT_UINT_PARAMETER; T_ALL_PARAMETERS] =
  map Some [T_SUCCESS; ERR_UNKNOWN_CRITICAL_PARAMETER; T_SUCCESS].
Proof. vm_compute. reflexivity. Qed.

(** all_header_parameters_test, 770-836. The message carries the short-circuit kid, not that of the context. *)
Example test_all_header_parameters :
  match snd (test_message T_ALL_PARAMETERS input_payload 300) with
  | Ret (T_SUCCESS, r) =>
    match snd (verify cfg_full adapter NULL_UBUF (verify_init OPT_ALLOW_SHORT_CIRCUIT) (the_bytes r) (Some NULL_UBUF) true) with
    | Ret w => option_map (fun p => (p_kid p, p_alg p, p_ct_uint p, p_iv p, p_partial_iv p)) (w_params w)
    | UB _ => None
    end
  | _ => None
  end = Some (get_short_circuit_kid, ES256, 1, UBuf (str "iv"), UBuf (str "partial_iv")).
Proof. vm_compute. reflexivity. Qed.
