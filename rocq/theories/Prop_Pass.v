(** Errors of the crypto adapter. Each theorem is followed by a concrete case
    that meets its hypotheses. *)
From Verif Require Import Base Const QEnc QDec Crypto Util Params Verify Sign TestCrypto PassSpec Toy Demo PassFacts.
Open Scope N_scope. Open Scope list_scope.

(** ** C51: an error of the adapter is the result of the call and ends it *)

Theorem C51_signing : forall c cr me (det : bool) payload aad buf log err me' r,
  sign_aad_internal c cr me det payload aad buf = (log, Ret (err, me', r)) -> errors_passed_on cr log err.
Proof. exact sign_passes. Qed.
Print Assumptions C51_signing.

Theorem C51_piecewise_signing : forall c cr me aad payload e log err me' e',
  encode_signature_aad_internal c cr me aad payload e = (log, Ret (err, me', e')) -> errors_passed_on cr log err.
Proof. exact encode_signature_passes. Qed.
Print Assumptions C51_piecewise_signing.

Theorem C51_verification : forall c cr junk me msg aad payload want dc log w,
  verify_internal c cr junk me msg aad payload want dc = (log, Ret w) -> errors_passed_on cr log (w_err w).
Proof. exact verify_passes. Qed.
Print Assumptions C51_verification.

(** The test adapter told to fail, which is what the repository's test of failing
    hashes uses: whatever is signed or verified. *)
Theorem C51_failing_start : forall wraps junk c log err halg,
  errors_passed_on (test_crypto_failing 1 wraps junk c) log err -> In (EvHashStart halg) log -> err = ERR_HASH_GENERAL_FAIL.
Proof. exact failing_start. Qed.
Print Assumptions C51_failing_start.

Theorem C51_failing_finish : forall wraps junk c log err,
  errors_passed_on (test_crypto_failing 2 wraps junk c) log err -> In EvHashFinish log -> err = ERR_HASH_GENERAL_FAIL.
Proof. exact failing_finish. Qed.
Print Assumptions C51_failing_finish.

(** Not told to fail, it is the adapter of the other builds. *)
Theorem C51_failing_off : forall mode wraps junk c, mode <> 1%Z -> mode <> 2%Z ->
  test_crypto_failing mode wraps junk c = test_crypto wraps junk c.
Proof. exact failing_off. Qed.
Print Assumptions C51_failing_off.

(** short_circuit_hash_fail_test, test/t_cose_test.c 1128-1182: both modes, and
    the adapter without failure for comparison. *)
Definition failing (mode : Z) := test_crypto_failing mode true (repeat x00 64) cfg_full.
Definition failing_sign (mode : Z) :=
  sign cfg_full (failing mode) (sign_init OPT_SHORT_CIRCUIT_SIG (-7)) (UBuf toy_payload) (out_buf 200).
Definition failing_verify (mode : Z) :=
  match failing_sign 0 with
  | (_, Ret (_, _, Some (UBuf m))) =>
    verify cfg_full (failing mode) NULL_UBUF (verify_init OPT_ALLOW_SHORT_CIRCUIT) m None false
  | _ => mub Uninit
  end.
Definition sign_code (x : M (terr * sctx * option ubufc)) := match snd x with Ret (e, _, _) => Some e | UB _ => None end.
Definition verify_code (x : M vres) := match snd x with Ret w => Some (w_err w) | UB _ => None end.

Example C51_case :
  sign_code (failing_sign 0) = Some T_SUCCESS /\ verify_code (failing_verify 0) = Some T_SUCCESS /\
  sign_code (failing_sign 1) = Some ERR_HASH_GENERAL_FAIL /\ verify_code (failing_verify 1) = Some ERR_HASH_GENERAL_FAIL /\
  sign_code (failing_sign 2) = Some ERR_HASH_GENERAL_FAIL /\ verify_code (failing_verify 2) = Some ERR_HASH_GENERAL_FAIL /\
  fst (failing_sign 1) = [EvHashStart (-16)] /\ In EvHashFinish (fst (failing_verify 2)).
Proof. vm_compute. repeat split. tauto. Qed.
