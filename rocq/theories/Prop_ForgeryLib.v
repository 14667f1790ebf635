(** C59 for the crypto libraries: a verified message was signed, or a hash
    collides, or a signature was forged. *)
From Verif Require Import Base Const QEnc QDec Crypto Util ShortCircuit Params Verify Sign OpenSSL Psa AdapterSpec Spec SignSpec PieceSpec LiveSpec.
From Verif Require Import BaseFacts VerifyTop OpenSSLFacts AdapterTop Toy DemoLib Demo LiveDemo ForgerySpec VerifySpec InterSpec ForgeryLib Prop_Inter.
Open Scope N_scope. Open Scope list_scope.

(** Nothing but the libraries' primitives is left in the exceptions: [V] says what
    is a signature for the verifier's key and the algorithm of the message,
    [H] are the hash functions. [p] are the parameters verification reports. *)
Theorem C59_libraries : forall c c2 l l2 H V calls sk junk me msg aad payload dc log w p ad gv,
  library_works l H -> library_works l2 H -> Forall (fun s => signing_run c (adapter c l) s /\ sizes_ok s) calls ->
  length (v_tags me) = 4%nat -> holds aad ad -> detached_arg dc payload gv ->
  blen msg < 2 ^ 64 -> blen ad < 2 ^ 64 -> blen gv < 2 ^ 64 ->
  verify_internal c2 (adapter c2 l2) junk me msg aad payload true dc = (log, Ret w) -> w_err w = T_SUCCESS ->
  decode_only (v_flags me) = false -> allows_short_circuit (v_flags me) = false ->
  w_params w = Some p -> accepts l2 (p_alg p) (v_key me) V ->
  exists g pm pl, message msg g pm /\ acceptable c2 (v_flags me) dc gv g pm p pl /\ delivered me payload true dc p pl w /\
  let tbs := sig_structure (g_prot g) ad pl in
  (exists s, In s calls /\ q_key (sg_request s) = sk /\ q_alg (sg_request s) = p_alg p /\
     g_prot g = protected_header (q_alg (sg_request s)) /\ ad = sg_aad s /\ pl = sg_payload s) \/
  (exists s halg, In s calls /\ hash_for (p_alg p) = Some halg /\ sg_tbs s <> tbs /\ H halg (sg_tbs s) = H halg tbs) \/
  (exists halg, hash_for (p_alg p) = Some halg /\ ~ signed_digest calls (p_alg p) sk (H halg tbs) /\ V (H halg tbs) (g_sig g)) \/
  (p_alg p = (-8)%Z /\ ~ signed_input calls sk tbs /\ V tbs (g_sig g)).
Proof. exact library_forgery. Qed.
Print Assumptions C59_libraries.

(** Signed with OpenSSL, verified with PSA. *)
Definition ossl_signing : signing :=
  {| sg_request := toy_request (-7) 0; sg_aad := toy_aad; sg_payload := toy_payload;
     sg_log := fst (sign_aad_internal cfg_full (adapter cfg_full (LOssl demo_ossl)) (toy_signer (-7) 0) false
                      (UBuf toy_payload) (UBuf toy_aad) (out_buf 200)) |}.
Definition ossl_signed : bytes :=
  match snd (sign_aad_internal cfg_full (adapter cfg_full (LOssl demo_ossl)) (toy_signer (-7) 0) false
               (UBuf toy_payload) (UBuf toy_aad) (out_buf 200)) with
  | Ret (_, _, Some (UBuf m)) => m
  | _ => []
  end.

Example C59_libraries_case :
  Forall (fun s => signing_run cfg_full (adapter cfg_full (LOssl demo_ossl)) s /\ sizes_ok s) [ossl_signing] /\
  accepts (LPsa demo_psa) (-7) toy_key demo_scheme /\
  (exists log w, verify_internal cfg_full (adapter cfg_full (LPsa demo_psa)) NULL_UBUF (toy_verifier 0) ossl_signed
     (UBuf toy_aad) (Some NULL_UBUF) true false = (log, Ret w) /\ w_err w = T_SUCCESS /\
     exists p, w_params w = Some p /\ p_alg p = (-7)%Z) /\
  signed_digest [ossl_signing] (-7) toy_key (demo_hash (-16) (sg_tbs ossl_signing)) /\
  exists log w, verify_internal cfg_full (adapter cfg_full (LPsa demo_psa)) NULL_UBUF (toy_verifier 0) ossl_signed
     (UBuf [x00]) (Some NULL_UBUF) true false = (log, Ret w) /\ w_err w = ERR_SIG_VERIFY.
Proof.
  split; [|split; [|split; [|split]]].
  - constructor; [|constructor]. split; [|split; vm_compute; reflexivity].
    eapply run_one_call with (me := toy_signer (-7) 0) (det := false) (payload := UBuf toy_payload) (aad := UBuf toy_aad) (buf := out_buf 200).
    + repeat split; try reflexivity. now left.
    + now left.
    + now left.
    + unfold ossl_signing. cbn [sg_log]. apply surjective_pairing.
  - apply (demo_psa_scheme (-7) toy_key). discriminate.
  - do 2 eexists. split; [vm_compute; reflexivity|]. split; [reflexivity|]. eexists. split; reflexivity.
  - exists ossl_signing. split; [now left|]. vm_compute. auto 20.
  - do 2 eexists. split; vm_compute; reflexivity.
Qed.
