(** C59: a verified message was signed, or a primitive is broken. *)
From Verif Require Import Base Const QEnc QDec Crypto Util ShortCircuit Params Verify Sign Spec SignSpec PieceSpec Toy.
From Verif Require Import VerifyTop ForgerySpec ForgeryFacts VerifySpec Prop_Verify.
Open Scope N_scope. Open Scope list_scope.

(** [calls]: everything signed so far with the signer's build and adapter. [sk] is
    the key that belongs to the verifier's. A message verified without the
    short-circuit permission either has the protected parameters, AAD and payload
    of one of those calls with that key and algorithm; or two Sig_structures
    collide; or the verifier's adapter accepts a signature for a digest (for
    EdDSA: an input) that was never given to the signer's adapter to be signed
    with that key and algorithm. *)
Theorem C59_only_signed_verified : forall c c2 cr cr2 H calls sk junk me msg aad payload want dc log w ad gv,
  Forall (fun s => signing_run c cr s /\ sizes_ok s) calls -> hash_is cr H -> hash_is cr2 H ->
  length (v_tags me) = 4%nat -> holds aad ad -> detached_arg dc payload gv ->
  blen msg < 2 ^ 64 -> blen ad < 2 ^ 64 -> blen gv < 2 ^ 64 ->
  verify_internal c2 cr2 junk me msg aad payload want dc = (log, Ret w) -> w_err w = T_SUCCESS ->
  decode_only (v_flags me) = false -> allows_short_circuit (v_flags me) = false ->
  exists g pm p pl, message msg g pm /\ acceptable c2 (v_flags me) dc gv g pm p pl /\ delivered me payload want dc p pl w /\
  let tbs := sig_structure (g_prot g) ad pl in
  (exists s, In s calls /\ q_key (sg_request s) = sk /\ q_alg (sg_request s) = p_alg p /\
     g_prot g = protected_header (q_alg (sg_request s)) /\ ad = sg_aad s /\ pl = sg_payload s) \/
  (exists s halg, In s calls /\ hash_for (p_alg p) = Some halg /\ sg_tbs s <> tbs /\ H halg (sg_tbs s) = H halg tbs) \/
  (exists halg, hash_for (p_alg p) = Some halg /\ ~ signed_digest calls (p_alg p) sk (H halg tbs) /\
     cr_verify cr2 (p_alg p) (v_key me) (p_kid p) (H halg tbs) (g_sig g) = Ret T_SUCCESS) \/
  (p_alg p = (-8)%Z /\ ~ signed_input calls sk tbs /\
     cr_verify_eddsa cr2 (v_key me) (p_kid p) tbs (g_sig g) = Ret T_SUCCESS).
Proof. exact only_signed_verified. Qed.
Print Assumptions C59_only_signed_verified.

(** One signing call, whose message verifies. *)
Definition one_signing : signing :=
  {| sg_request := toy_request (-7) 0; sg_aad := toy_aad; sg_payload := toy_payload;
     sg_log := fst (sign_aad_internal cfg_full toy (toy_signer (-7) 0) false (UBuf toy_payload) (UBuf toy_aad) (out_buf 200)) |}.

Example C59_case : Forall (fun s => signing_run cfg_full toy s /\ sizes_ok s) [one_signing] /\
  hash_is toy (fun _ => toy_digest) /\
  signed_digest [one_signing] (-7) toy_key (toy_digest (sig_structure es256_prot toy_aad toy_payload)) /\
  ~ signed_digest [one_signing] (-7) toy_key (toy_digest (sig_structure es256_prot toy_aad [x00])) /\
  exists log w, verify_internal cfg_full toy NULL_UBUF (toy_verifier 0) plain_msg (UBuf toy_aad) None false false = (log, Ret w) /\ w_err w = T_SUCCESS.
Proof.
  split; [|split; [exact toy_hash_is|split; [|split]]].
  - constructor; [|constructor]. split; [|split; vm_compute; reflexivity].
    eapply run_one_call with (me := toy_signer (-7) 0) (det := false) (payload := UBuf toy_payload) (aad := UBuf toy_aad) (buf := out_buf 200).
    + repeat split; try reflexivity. now left.
    + now left.
    + now left.
    + unfold one_signing. cbn [sg_log]. apply surjective_pairing.
  - exists one_signing. split; [now left|]. vm_compute. auto 20.
  - intros (s & [<-|[]] & I). vm_compute in I. repeat (destruct I as [I|I]; [discriminate I|]). exact I.
  - do 2 eexists. split; vm_compute; reflexivity.
Qed.

(** With the short-circuit permission nothing needs to have been signed. *)
Theorem C59_short_circuit_verifies_unsigned : exists msg log w,
  verify_internal cfg_full toy NULL_UBUF (toy_verifier 1) msg (UBuf toy_aad) (Some NULL_UBUF) true false = (log, Ret w) /\
  w_err w = T_SUCCESS /\ w_payload w = Some (UBuf toy_payload) /\
  (forall alg k kid d s, ~ In (EvVerify alg k kid d s) log) /\ (forall k kid t s, ~ In (EvVerifyEddsa k kid t s) log).
Proof.
  exists (encode (CArray [CBytes es256_prot; CMap [(CUInt 4, CBytes reserved_kid)]; CBytes toy_payload;
            CBytes (toy_digest (sig_structure es256_prot toy_aad toy_payload))])).
  do 2 eexists. split; [vm_compute; reflexivity|]. split; [reflexivity|]. split; [reflexivity|].
  split; intros; intro I; repeat (destruct I as [I|I]; [discriminate I|]); exact I.
Qed.
Print Assumptions C59_short_circuit_verifies_unsigned.
