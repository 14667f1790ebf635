(** C75: finding the key by its id. *)
From Verif Require Import Base Const QEnc QDec Crypto Util Sign Params Verify Spec SignSpec DecSpec VerifySpec VerifyTop ProtocolSpec KidSpec.
From Verif Require Import KidFacts Toy Demo.
Open Scope N_scope. Open Scope list_scope.

(** What the two calls accept was signed with the key for its key id, and only
    that key was used. *)
Theorem C75_by_kid_sound : forall c cr junk flags lookup msg aad payload dc ad gv log w,
  decode_only flags = false -> holds aad ad -> detached_arg dc payload gv ->
  verify_by_kid c cr junk flags lookup msg aad payload dc = (log, Ret (Some w)) -> w_err w = T_SUCCESS ->
  exists g pm p pl k, message msg g pm /\ acceptable c flags dc gv g pm p pl /\ lookup (p_kid p) = Some k /\
    w_params w = Some p /\ w_payload w = match payload with Some _ => if dc then None else Some (UBuf pl) | None => None end /\
    accepted c cr flags k p (sig_structure (g_prot g) ad pl) (g_sig g) /\
    orderly c cr (p_alg p) (verifies_directly (p_alg p) k (p_kid p) (g_sig g)) (verifies_digest (p_alg p) k (p_kid p) (g_sig g)) log.
Proof. exact by_kid_sound. Qed.
Print Assumptions C75_by_kid_sound.

(** They accept every such message; the buffer allocated in between is enough. *)
Theorem C75_by_kid_exact : forall c cr junk flags lookup msg aad payload dc ad gv,
  decode_only flags = false -> holds aad ad -> detached_arg dc payload gv -> one_digest cr -> hash_reliable c cr [msg; ad; gv] ->
  (exists log w, verify_by_kid c cr junk flags lookup msg aad payload dc = (log, Ret (Some w)) /\ w_err w = T_SUCCESS) <->
  (exists g pm p pl k, message msg g pm /\ acceptable c flags dc gv g pm p pl /\ lookup (p_kid p) = Some k /\
     accepted c cr flags k p (sig_structure (g_prot g) ad pl) (g_sig g) /\
     (short_circuit_kid c p = false -> uses_eddsa c p = true -> blen (sig_structure (g_prot g) ad pl) <= SIZE_MAX)).
Proof. exact by_kid_exact. Qed.
Print Assumptions C75_by_kid_exact.

(** Without a key for the message the adapter is not called. *)
Theorem C75_unknown_kid : forall c cr junk flags lookup msg aad payload dc ad gv log r,
  holds aad ad -> detached_arg dc payload gv ->
  verify_by_kid c cr junk flags lookup msg aad payload dc = (log, Ret r) ->
  (forall g pm p pl, message msg g pm -> acceptable c flags dc gv g pm p pl -> lookup (p_kid p) = None) ->
  log = [] /\ (r = None \/ exists w, r = Some w /\ w_err w <> T_SUCCESS).
Proof. exact by_kid_unknown. Qed.
Print Assumptions C75_unknown_kid.

(** A key for one id only; messages with that id, another id and none, one signed
    with EdDSA. *)
Definition one_key (kid : ubufc) : option tkey :=
  match kid with UBuf [x41] => Some toy_key | _ => None end.
Definition kid_outcome (m : bytes) : option (option terr) :=
  match verify_by_kid cfg_full toy NULL_UBUF 0 one_key m (UBuf toy_aad) (Some NULL_UBUF) false with
  | (_, Ret (Some w)) => Some (Some (w_err w)) | (_, Ret None) => Some None | _ => None end.
Definition signed_with (alg : Z) (kid : ubufc) : bytes :=
  match snd (sign_aad_internal cfg_full toy (set_signing_key (toy_signer alg 0) toy_key kid) false (UBuf toy_payload) (UBuf toy_aad) (out_buf 200)) with
  | Ret (_, _, Some (UBuf m)) => m | _ => [] end.
Example C75_case :
  map (fun kid => kid_outcome (signed_with (-7) kid)) [UBuf [x41]; UBuf [x42]; NULL_UBUF] = [Some (Some T_SUCCESS); Some None; Some None] /\
  kid_outcome (signed_with (-8) (UBuf [x41])) = Some (Some T_SUCCESS) /\
  kid_outcome (removelast (signed_with (-8) (UBuf [x41])) ++ [x01]) = Some (Some ERR_SIG_VERIFY).
Proof. vm_compute. repeat split. Qed.
