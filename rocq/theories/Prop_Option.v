(** C63: options of verification and signing do what their names say and no more. *)
From Verif Require Import Base Const QEnc QDec Crypto Util ShortCircuit Params Sign Verify Spec SignSpec Toy VerifySpec OptionSpec OptionFacts.
Open Scope N_scope. Open Scope list_scope.

(** What verifies with some options verifies alike with less strict ones: the same
    payload, parameters and tags, and the same adapter calls (none if only decoded). *)
Theorem C63_options_widen : forall c cr junk me f f' msg aad payload want dc log w,
  no_stricter f f' ->
  verify_internal c cr junk (with_options me f) msg aad payload want dc = (log, Ret w) -> w_err w = T_SUCCESS ->
  exists w', verify_internal c cr junk (with_options me f') msg aad payload want dc = (if decode_only f' then [] else log, Ret w') /\
             same_outcome w w' /\ (decode_only f = true -> log = []).
Proof. exact options_widen. Qed.
Print Assumptions C63_options_widen.

Example C63_case :
  let m := toy_built [] es256_prot [(CUInt 4, CBytes [x41; x42])] [] in
  let v f := toy_result (verify_internal cfg_full toy NULL_UBUF (with_options (toy_verifier 0) f) m (UBuf toy_aad) (Some NULL_UBUF) true false) in
  no_stricter 18 0 /\ (* kid required and tag prohibited *)
  v 18 = v 0 /\ v 18 = v 8 /\ (exists p, v 18 = Some (T_SUCCESS, Some (UBuf toy_payload), Some p)) /\
  v 4 = Some (ERR_INCORRECTLY_TAGGED, None, None).
Proof.
  cbv zeta. split; [repeat split; vm_compute; auto|]. split; [vm_compute; reflexivity|]. split; [vm_compute; reflexivity|].
  split; [eexists; vm_compute; reflexivity|]. vm_compute. reflexivity.
Qed.

(** Bits of the options that have no meaning change nothing, whatever the outcome. *)
Theorem C63_unused_bits_verifying : forall c cr junk me f f' msg aad payload want dc log r,
  same_options f f' -> verify_internal c cr junk (with_options me f) msg aad payload want dc = (log, r) ->
  match r with
  | UB u => verify_internal c cr junk (with_options me f') msg aad payload want dc = (log, UB u)
  | Ret w => exists w', verify_internal c cr junk (with_options me f') msg aad payload want dc = (log, Ret w') /\ same_outcome w w'
  end.
Proof. exact options_ignored. Qed.
Print Assumptions C63_unused_bits_verifying.

Example C63_unused_case :
  let m := toy_built [] es256_prot [(CUInt 4, CBytes [x41; x42])] [] in
  same_options 18 0xffffffd2 /\ same_options 4 0xffffffc4 /\
  toy_result (toy_verify 0xffffffd2 m) = toy_result (toy_verify 18 m) /\
  toy_result (toy_verify 0xffffffc4 m) = Some (ERR_INCORRECTLY_TAGGED, None, None).
Proof.
  assert (K : forall f f' : N, N.land f 63 = N.land f' 63 -> same_options f f').
  { intros f f' H i L. apply (f_equal (fun x => N.testbit x i)) in H. rewrite !N.land_spec in H.
    change 63 with (N.ones 6) in H. rewrite (N.ones_spec_low 6 i L), !Bool.andb_true_r in H. exact H. }
  cbv zeta. split; [apply K; reflexivity|]. split; [apply K; reflexivity|]. split; vm_compute; reflexivity.
Qed.

Theorem C63_unused_bits_signing : forall c cr me f f' det payload aad buf log r,
  same_sign_options f f' -> sign_aad_internal c cr (sign_with_options me f) det payload aad buf = (log, r) ->
  sign_aad_internal c cr (sign_with_options me f') det payload aad buf =
    (log, match r with Ret (e, me', o) => Ret (e, sign_with_options me' f', o) | UB u => UB u end).
Proof. exact sign_options_ignored. Qed.
Print Assumptions C63_unused_bits_signing.

Example C63_signing_case :
  let s f := sign cfg_full toy (toy_signer (-7) f) (UBuf toy_payload) (out_buf 200) in
  let res f := match s f with (l, Ret (e, _, o)) => Some (l, e, o) | _ => None end in
  same_sign_options 2 0xfffffffe /\ toy_signer (-7) 6 = sign_with_options (toy_signer (-7) 2) 6 /\
  res 0xfffffffe = res 2 /\ res 2 <> None /\ res 2 <> res 0.
Proof.
  cbv zeta. split; [intros i L; destruct i as [|[]]; [reflexivity| | |reflexivity]; destruct p; discriminate|].
  split; [reflexivity|]. split; [vm_compute; reflexivity|]. split; vm_compute; discriminate.
Qed.
