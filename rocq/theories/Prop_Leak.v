(** C31 and C33 again, with the exact conditions under which they fail. *)
From Verif Require Import Base Const OpenSSL Psa Spec AdapterSpec LeakSpec LeakFacts Toy DemoLib Demo.
Open Scope N_scope. Open Scope list_scope.

(** The conversion of a signature stays within the buffer exactly when the whole
    signature fits or r and s, without leading zeros, do not. *)
Theorem C31_conversion_exact : forall lib key der room r s, let len := coordinate_length (ev_bits lib key) in
  d2i_sig lib der = Some (r, s) -> r < 256 ^ len -> 0 < s < 256 ^ len ->
  (exists res, snd (ecdsa_signature_der_to_cose lib key der room) = Ret res) <->
  2 * len <= room \/ room < bn_num_bytes r + bn_num_bytes s.
Proof. exact der_to_cose_bounds. Qed.
Print Assumptions C31_conversion_exact.

Example C31_conversion_case :
  d2i_sig demo_ossl (der_signature 1 (256 ^ 31)) = Some (1, 256 ^ 31) /\ coordinate_length (ev_bits demo_ossl 5) = 32 /\
  map (fun n => match snd (ecdsa_signature_der_to_cose demo_ossl 5 (der_signature 1 (256 ^ 31)) n) with
                | Ret (Some sig) => Some (blen sig) | Ret None => Some 0 | UB _ => None end) [32; 33; 63; 64; 70] =
  [Some 0; None; None; Some 64; Some 64].
Proof. vm_compute. repeat split. Qed.

(** Verification loses the ECDSA_SIG exactly when ECDSA_SIG_set0 is reached and
    fails, the DER form exactly when it does not fit (or is empty), and in every
    other case nothing. *)
Theorem C33_openssl_verify_exact : forall c lib alg k kid hash sig log res,
  ossl_verify c lib alg k kid hash sig = (log, Ret res) ->
  (loses_sig c lib alg k sig /\ live [] log = Some [RSig]) \/
  (loses_der c lib alg k sig /\ live [] log = Some [RDer]) \/
  (~ loses_sig c lib alg k sig /\ ~ loses_der c lib alg k sig /\ released log).
Proof. exact ossl_verify_lost. Qed.
Print Assumptions C33_openssl_verify_exact.

(** With a PSA library that leaves aborting to its caller, a hash operation is
    lost exactly when hashing ends with an error. *)
Theorem C33_psa_hash_exact : forall c lib halg log h us log1 h' room log2 e d, psa_aborts lib = false ->
  psa_start c lib halg = (log, Ret (T_SUCCESS, h)) -> psa_updates lib h us = (log1, Ret h') ->
  psa_finish lib h' room = (log2, Ret (e, d)) ->
  live [] (log ++ log1 ++ log2) = Some (if terr_eqb e T_SUCCESS then [] else [RMdCtx]).
Proof. exact psa_hash_lost. Qed.
Print Assumptions C33_psa_hash_exact.

Example C33_exact_case :
  let lost f sig := live [] (fst (ossl_verify cfg_full (faulty f) (-7) toy_key NULL_UBUF (zeros 32) sig)) in
  map (fun f => lost f (cose_signature 32 7 9)) [FNone; FBn true; FBn false; FSigNew; FSet0; FI2d; FCtxNew; FCtxInit] =
    [Some []; Some []; Some []; Some []; Some [RSig]; Some []; Some []; Some []] /\
  lost FSet0 (zeros 63) = Some [] /\ der_room cfg_full = 148 /\
  loses_sig cfg_full (faulty FSet0) (-7) toy_key (cose_signature 32 7 9).
Proof.
  split; [vm_compute; reflexivity|]. split; [vm_compute; reflexivity|]. split; [reflexivity|].
  exists 7, 9. split; [|reflexivity]. unfold reaches_sig.
  split; [left; reflexivity|]. split; [split; [reflexivity|discriminate]|]. repeat split.
Qed.
