(** C01, C04, C10, C11, C13 for the functions of the API by name: t_cose_sign1_sign,
    t_cose_sign1_sign_detached, t_cose_sign1_verify, t_cose_sign1_verify_aad and
    t_cose_sign1_verify_detached. (What t_cose_sign1_sign_aad does is C07.) *)
From Verif Require Import Base Const QEnc Crypto Util ShortCircuit Params Sign Verify Spec SignSpec PieceSpec Toy SignFacts.
From Verif Require Import VerifySpec Prop_Sign Prop_Verify.
Open Scope N_scope. Open Scope list_scope.
Local Strategy 100 [create_tbs create_tbs_hash verify_decode sign_aad_internal verify_internal].

(** The calls that sign a payload, inline or detached, with additional data: what is left
    open is the context and the output buffer. *)
Inductive signs (c : cfg) (cr : crypto) : bool -> bytes -> bytes -> (sctx -> wbuf -> M (terr * sctx * option ubufc)) -> Prop :=
| signs_inline payload pl : holds payload pl -> signs c cr false pl [] (fun me out => sign c cr me payload out)
| signs_detached payload pl aad ad : holds payload pl -> holds aad ad -> signs c cr true pl ad (fun me out => sign_detached c cr me aad payload out).

(** The calls that verify a message with additional data; a detached payload is given. *)
Inductive verifies (c : cfg) (cr : crypto) (junk : ubufc) : bool -> bytes -> bytes -> (vctx -> bytes -> M vres) -> Prop :=
| verifies_plain out want : verifies c cr junk false [] [] (fun me msg => verify c cr junk me msg out want)
| verifies_aad aad ad out want : holds aad ad -> verifies c cr junk false [] ad (fun me msg => verify_aad c cr junk me msg aad out want)
| verifies_detached payload pl aad ad want : holds payload pl -> holds aad ad ->
    verifies c cr junk true pl ad (fun me msg => verify_detached c cr junk me msg aad payload want).

Lemma nothing : holds NULL_UBUF [].
Proof. now right. Qed.

Theorem C01_signing_entry_points : forall c cr det pl ad call q me out log r,
  signs c cr det pl ad call -> configured q me -> call me out = (log, r) ->
  (forall e, In e log -> event_ok cr (q_alg q) (q_key q) (requested_tbs q ad pl) e) /\
  (wb_null out = false -> In EvHashFinish log -> hashed log = requested_tbs q ad pl).
Proof.
  intros c cr det pl ad call q me out log r [payload p P|payload p aad a P A] Q H.
  - exact (C01_signing_covers_sig_structure _ _ _ _ _ _ _ _ _ _ _ _ Q P nothing H).
  - exact (C01_signing_covers_sig_structure _ _ _ _ _ _ _ _ _ _ _ _ Q P A H).
Qed.
Print Assumptions C01_signing_entry_points.

Theorem C04_entry_points : forall c cr det pl ad call q me n log me' r,
  signs c cr det pl ad call -> configured q me ->
  call me {| wb_null := false; wb_len := n |} = (log, Ret (T_SUCCESS, me', r)) ->
  exists sig room,
    let m := requested_message c q (if det then None else Some pl) sig in
    r = Some (UBuf m) /\ blen m <= n /\ room <= n /\
    signature_of cr q (requested_tbs q ad pl) room sig /\ enabled c (q_alg q).
Proof.
  intros c cr det pl ad call q me n log me' r [payload p P|payload p aad a P A] Q H.
  - exact (C04_message_is_cose_sign1 _ _ _ _ _ _ _ _ _ _ _ _ _ Q P nothing H).
  - exact (C04_message_is_cose_sign1 _ _ _ _ _ _ _ _ _ _ _ _ _ Q P A H).
Qed.
Print Assumptions C04_entry_points.

(** The size is calculated by the same call with a NULL output buffer. *)
Theorem C10_entry_points : forall c cr det pl ad call q me n n0 log me' m,
  signs c cr det pl ad call -> configured q me -> hash_reliable c cr [ad; pl] -> sizes_agree cr q ->
  (wants_short_circuit (q_flags q) = true -> forall halg data d, digest_of cr halg data d -> d <> []) ->
  call me {| wb_null := false; wb_len := n |} = (log, Ret (T_SUCCESS, me', Some (UBuf m))) -> blen m <= n0 ->
  exists log2 me2, call me {| wb_null := true; wb_len := n0 |} = (log2, Ret (T_SUCCESS, me2, Some (UNull (blen m)))).
Proof.
  assert (L : forall u b, holds u b -> u_len u = blen b) by (intros u b [->|[-> ->]]; reflexivity).
  intros c cr det pl ad call q me n n0 log me' m [payload p P|payload p aad a P A] Q HR SA SC H N.
  - exact (C10_size_calculation_exact c cr q me false payload NULL_UBUF payload NULL_UBUF p [] n n0 log me' m Q P nothing (L _ _ P) eq_refl
      (fun x => match Bool.diff_false_true x with end) HR SA SC H N).
  - exact (C10_size_calculation_exact c cr q me true payload aad payload aad p a n n0 log me' m Q P A (L _ _ P) (L _ _ A)
      (proj1 (sign_success_domain _ _ _ _ _ _ _ _ _ _ H)) HR SA SC H N).
Qed.
Print Assumptions C10_entry_points.

Theorem C11_entry_points : forall c cr det pl ad call q me n log me' m,
  signs c cr det pl ad call -> configured q me -> sizes_agree cr q -> room_irrelevant cr q ->
  (wants_short_circuit (q_flags q) = true -> forall halg data d, digest_of cr halg data d -> d <> []) ->
  call me {| wb_null := false; wb_len := n |} = (log, Ret (T_SUCCESS, me', Some (UBuf m))) ->
  forall n',
    (blen m <= n' -> exists me2, call me {| wb_null := false; wb_len := n' |} = (log, Ret (T_SUCCESS, me2, Some (UBuf m)))) /\
    (n' < blen m -> forall log2 me2 r, call me {| wb_null := false; wb_len := n' |} <> (log2, Ret (T_SUCCESS, me2, r))).
Proof.
  intros c cr det pl ad call q me n log me' m [payload p P|payload p aad a P A] Q SA RI SC H.
  - exact (C11_buffer_threshold _ _ _ _ _ _ _ _ _ _ _ _ _ Q P nothing SA RI SC H).
  - exact (C11_buffer_threshold _ _ _ _ _ _ _ _ _ _ _ _ _ Q P A SA RI SC H).
Qed.
Print Assumptions C11_entry_points.

(** A NULL detached payload is never signed, whatever its length. *)
Theorem C39_detached_null_payload_never_signed : forall c cr me aad k out log me' r,
  sign_detached c cr me aad (UNull k) out <> (log, Ret (T_SUCCESS, me', r)).
Proof. intros c cr me aad k out log me' r H. discriminate (proj1 (sign_success_domain _ _ _ _ _ _ _ _ _ _ H) eq_refl). Qed.
Print Assumptions C39_detached_null_payload_never_signed.

Theorem C01_verification_entry_points : forall c cr junk det gv ad call me msg log r,
  verifies c cr junk det gv ad call -> length (v_tags me) = 4%nat -> call me msg = (log, r) ->
  log = [] \/
  decode_only (v_flags me) = false /\
  exists g pm p pl, message msg g pm /\ acceptable c (v_flags me) det gv g pm p pl /\
    (short_circuit_kid c p = true -> allows_short_circuit (v_flags me) = true) /\
    (forall e, In e log -> verify_event_ok cr (v_key me) p (sig_structure (g_prot g) ad pl) (g_sig g) e) /\
    (In EvHashFinish log -> hashed log = sig_structure (g_prot g) ad pl).
Proof.
  intros c cr junk det gv ad call me msg log r [out want|aad a out want A|payload p aad a want P A] L H.
  - exact (C01_verification_covers_sig_structure _ _ _ _ _ _ _ _ _ _ _ _ _ L nothing (fun x => match Bool.diff_false_true x with end) H).
  - exact (C01_verification_covers_sig_structure _ _ _ _ _ _ _ _ _ _ _ _ _ L A (fun x => match Bool.diff_false_true x with end) H).
  - exact (C01_verification_covers_sig_structure _ _ _ _ _ _ _ _ _ _ _ _ _ L A (fun _ => ex_intro _ _ (conj eq_refl P)) H).
Qed.
Print Assumptions C01_verification_entry_points.

(** ** Calls that succeed *)

Example C01_C04_C10_C11_entry_points_case :
  signs cfg_full toy false toy_payload [] (fun me out => sign cfg_full toy me (UBuf toy_payload) out) /\
  signs cfg_full toy true toy_payload toy_aad (fun me out => sign_detached cfg_full toy me (UBuf toy_aad) (UBuf toy_payload) out) /\
  let inline := sign cfg_full toy (toy_signer (-7) 0) (UBuf toy_payload) in
  let detached := sign_detached cfg_full toy (toy_signer (-7) 0) (UBuf toy_aad) (UBuf toy_payload) in
  let none := {| wb_null := true; wb_len := SIZE_MAX |} in
  let message_of (x : M (terr * sctx * option ubufc)) := match snd x with Ret (T_SUCCESS, _, r) => r | _ => None end in
  let q := toy_request (-7) 0 in
  let m := requested_message cfg_full q (Some toy_payload) (toy_sig (toy_digest (requested_tbs q [] toy_payload))) in
  let d := requested_message cfg_full q None (toy_sig (toy_digest (requested_tbs q toy_aad toy_payload))) in
  message_of (inline (out_buf 200)) = Some (UBuf m) /\ message_of (detached (out_buf 200)) = Some (UBuf d) /\
  message_of (inline none) = Some (UNull (blen m)) /\ message_of (detached none) = Some (UNull (blen d)) /\
  map (fun n => message_of (inline (out_buf n))) [blen m; blen m - 1] = [Some (UBuf m); None] /\
  map (fun n => message_of (detached (out_buf n))) [blen d; blen d - 1] = [Some (UBuf d); None] /\
  verifies cfg_full toy NULL_UBUF true toy_payload toy_aad
    (fun me msg => verify_detached cfg_full toy NULL_UBUF me msg (UBuf toy_aad) (UBuf toy_payload) false) /\
  hashed (fst (verify_detached cfg_full toy NULL_UBUF (toy_verifier 0) d (UBuf toy_aad) (UBuf toy_payload) false)) = requested_tbs q toy_aad toy_payload /\
  hashed (fst (verify cfg_full toy NULL_UBUF (toy_verifier 0) m None false)) = requested_tbs q [] toy_payload.
Proof.
  split; [constructor; now left|]. split; [constructor; now left|]. cbv zeta.
  do 6 (split; [vm_compute; reflexivity|]). split; [constructor; now left|]. split; vm_compute; reflexivity.
Qed.
