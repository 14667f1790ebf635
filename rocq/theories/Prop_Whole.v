(** C78: a message is read in one way only. C79: outputs that are not asked for. *)
From Verif Require Import Base Const QEnc QDec Crypto Util ShortCircuit Params Verify Sign Spec DecSpec SignSpec Toy.
From Verif Require Import WholeSpec WholeFacts VerifySpec.
Open Scope N_scope. Open Scope list_scope.

(** ** C78 *)

(** A part of a data item, cut off anywhere before its end, is refused without a
    call of the adapter; *)
Theorem C78_truncated : forall c cr junk me m n t aad payload want dc ad gv,
  length (v_tags me) = 4%nat -> holds aad ad -> detached_arg dc payload gv -> reads 0 t (m ++ n) -> n <> [] ->
  refused (verify_internal c cr junk me m aad payload want dc).
Proof. exact truncated_refused. Qed.
Print Assumptions C78_truncated.

(** so is a data item with anything appended. *)
Theorem C78_appended : forall c cr junk me m n t aad payload want dc ad gv,
  length (v_tags me) = 4%nat -> holds aad ad -> detached_arg dc payload gv -> reads 0 t m -> n <> [] ->
  refused (verify_internal c cr junk me (m ++ n) aad payload want dc).
Proof. exact appended_refused. Qed.
Print Assumptions C78_appended.

(** A message that is accepted with its payload inside is refused with a detached
    payload, whichever it is, and the other way round, also by other contexts,
    options, builds and adapters. *)
Theorem C78_other_mode : forall c c2 cr cr2 junk junk2 me me2 msg aad aad2 payload payload2 want want2 dc ad gv ad2 gv2 log w,
  length (v_tags me) = 4%nat -> holds aad ad -> detached_arg dc payload gv ->
  length (v_tags me2) = 4%nat -> holds aad2 ad2 -> detached_arg (negb dc) payload2 gv2 ->
  verify_internal c cr junk me msg aad payload want dc = (log, Ret w) -> w_err w = T_SUCCESS ->
  refused (verify_internal c2 cr2 junk2 me2 msg aad2 payload2 want2 (negb dc)).
Proof. exact other_mode_refused. Qed.
Print Assumptions C78_other_mode.

(** The codes. *)
Theorem C78_other_mode_detached : forall c cr cr2 junk junk2 me msg aad aad2 payload pl2 want want2 log w log2 w2,
  verify_aad c cr junk me msg aad payload want = (log, Ret w) -> w_err w = T_SUCCESS ->
  verify_detached c cr2 junk2 me msg aad2 pl2 want2 = (log2, Ret w2) -> log2 = [] /\ w_err w2 = ERR_CBOR_FORMATTING.
Proof. intros c cr cr2 junk junk2 me msg aad aad2 payload pl2 want want2 log w log2 w2. exact (other_mode_code c cr cr2 junk junk2 me msg aad aad2 payload (Some pl2) want want2 false log w log2 w2). Qed.
Print Assumptions C78_other_mode_detached.

Theorem C78_other_mode_attached : forall c cr cr2 junk junk2 me msg aad aad2 pl payload2 want want2 log w log2 w2,
  verify_detached c cr junk me msg aad pl want = (log, Ret w) -> w_err w = T_SUCCESS ->
  verify_aad c cr2 junk2 me msg aad2 payload2 want2 = (log2, Ret w2) -> log2 = [] /\ w_err w2 = ERR_SIGN1_FORMAT.
Proof. intros c cr cr2 junk junk2 me msg aad aad2 pl payload2 want want2 log w log2 w2. exact (other_mode_code c cr cr2 junk junk2 me msg aad aad2 (Some pl) payload2 want want2 true log w log2 w2). Qed.
Print Assumptions C78_other_mode_attached.

(** A message with its payload and one without it, in both modes; all parts of the
    first, and the first with a byte more. *)
Definition with_payload (p : cbor) : bytes :=
  encode (CTag 18 (CArray [CBytes es256_prot; CMap [(CUInt 4, CBytes [x41])]; p; CBytes (toy_sig (toy_digest (sig_structure es256_prot toy_aad toy_payload)))])).
Definition got (x : M vres) : option (terr * nat) := match x with (l, Ret w) => Some (w_err w, length l) | _ => None end.
Definition attached_try (m : bytes) := got (verify_aad cfg_full toy NULL_UBUF (toy_verifier 0) m (UBuf toy_aad) None false).
Definition detached_try (m : bytes) := got (verify_detached cfg_full toy NULL_UBUF (toy_verifier 0) m (UBuf toy_aad) (UBuf toy_payload) false).

Example C78_case :
  let a := with_payload (CBytes toy_payload) in let d := with_payload CNull in
  attached_try a = Some (T_SUCCESS, 10%nat) /\ detached_try a = Some (ERR_CBOR_FORMATTING, 0%nat) /\
  detached_try d = Some (T_SUCCESS, 10%nat) /\ attached_try d = Some (ERR_SIGN1_FORMAT, 0%nat) /\
  forallb (fun n => match attached_try (firstn n a) with Some (T_SUCCESS, _) => false | Some (_, O) => true | _ => false end)
    (seq 0%nat (length a)) = true /\
  attached_try (a ++ [x00]) = Some (ERR_CBOR_NOT_WELL_FORMED, 0%nat) /\ attached_try (a ++ a) = Some (ERR_CBOR_NOT_WELL_FORMED, 0%nat).
Proof. vm_compute. repeat split. Qed.

(** ** C79 *)

(** The verdict does not depend on the outputs asked for. For detached content the
    payload is an input. *)
Theorem C79_outputs_irrelevant : forall c cr junk me msg aad payload payload2 want want2 dc, dc = false \/ payload2 = payload ->
  same_but_outputs (asked payload) (asked payload2) want want2
    (verify_internal c cr junk me msg aad payload want dc) (verify_internal c cr junk me msg aad payload2 want2 dc).
Proof. exact outputs_irrelevant. Qed.
Print Assumptions C79_outputs_irrelevant.

(** An accepted and a refused message, with all combinations of pointers. *)
Definition shown (m : bytes) (payload : option ubufc) (want : bool) : option (terr * option ubufc * option ubufc) :=
  match verify_aad cfg_full toy NULL_UBUF (toy_verifier 0) m (UBuf toy_aad) payload want with
  | (_, Ret w) => Some (w_err w, w_payload w, option_map p_kid (w_params w)) | _ => None end.
Example C79_case :
  let a := with_payload (CBytes toy_payload) in let bad := with_payload (CBytes [x01]) in
  let p := Some NULL_UBUF in let out := Some (UBuf toy_payload) in let kid := Some (UBuf [x41]) in
  shown a p true = Some (T_SUCCESS, out, kid) /\ shown a p false = Some (T_SUCCESS, out, None) /\
  shown a None true = Some (T_SUCCESS, None, kid) /\ shown a None false = Some (T_SUCCESS, None, None) /\
  shown a (Some (UBuf [x01])) true = Some (T_SUCCESS, out, kid) /\
  shown bad p true = Some (ERR_SIG_VERIFY, None, None) /\ shown bad None false = Some (ERR_SIG_VERIFY, None, None).
Proof. vm_compute. repeat split. Qed.
