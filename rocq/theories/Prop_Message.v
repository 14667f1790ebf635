(** C53 to C56: messages compared with each other. In each theorem the second
    message is any message with the parts stated, however it is encoded. *)
From Verif Require Import Base Const QEnc QDec Crypto Util ShortCircuit Params Verify Sign Spec DecSpec SignSpec Toy.
From Verif Require Import MessageSpec MessageFacts VerifySpec.
From Coq Require Import Permutation.
Open Scope N_scope. Open Scope list_scope.

(** ** C53: unprotected parameters *)

(** Other unprotected parameters, with the same values for the labels t_cose
    processes: the calls of the adapter and the outputs are the same. *)
Theorem C53_unknown_parameters_ignored : forall c cr junk me msg msg2 aad payload want dc ad gv g pm g2 log w,
  length (v_tags me) = 4%nat -> holds aad ad -> detached_arg dc payload gv ->
  message msg g pm -> message msg2 g2 pm -> other_unprotected g g2 -> same_understood (g_unprot g) (g_unprot g2) ->
  labels_ok (all_params g2 pm) -> nothing_critical (v_flags me) pm (all_params g2 pm) ->
  verify_internal c cr junk me msg aad payload want dc = (log, Ret w) -> w_err w = T_SUCCESS ->
  exists w2, verify_internal c cr junk me msg2 aad payload want dc = (log, Ret w2) /\
    w_err w2 = T_SUCCESS /\ w_payload w2 = w_payload w /\ w_params w2 = w_params w.
Proof. exact unprotected_change. Qed.
Print Assumptions C53_unknown_parameters_ignored.

(** Parameters added anywhere among the unprotected ones. *)
Theorem C53_added_parameters : forall c cr junk me msg msg2 aad payload want dc ad gv g pm g2 before extra after log w,
  length (v_tags me) = 4%nat -> holds aad ad -> detached_arg dc payload gv ->
  message msg g pm -> message msg2 g2 pm -> other_unprotected g g2 ->
  g_unprot g = before ++ after -> g_unprot g2 = before ++ extra ++ after ->
  Forall (fun kv => understood (fst kv) = false) extra ->
  labels_ok (all_params g2 pm) -> nothing_critical (v_flags me) pm extra ->
  verify_internal c cr junk me msg aad payload want dc = (log, Ret w) -> w_err w = T_SUCCESS ->
  exists w2, verify_internal c cr junk me msg2 aad payload want dc = (log, Ret w2) /\
    w_err w2 = T_SUCCESS /\ w_payload w2 = w_payload w /\ w_params w2 = w_params w.
Proof. exact unprotected_extra. Qed.
Print Assumptions C53_added_parameters.

(** The unprotected parameters in another order. *)
Theorem C53_any_order : forall c cr junk me msg msg2 aad payload want dc ad gv g pm g2 log w,
  length (v_tags me) = 4%nat -> holds aad ad -> detached_arg dc payload gv ->
  message msg g pm -> message msg2 g2 pm -> other_unprotected g g2 -> Permutation (g_unprot g) (g_unprot g2) ->
  ~ In 0%Z (int_labels (g_unprot g)) ->
  verify_internal c cr junk me msg aad payload want dc = (log, Ret w) -> w_err w = T_SUCCESS ->
  exists w2, verify_internal c cr junk me msg2 aad payload want dc = (log, Ret w2) /\
    w_err w2 = T_SUCCESS /\ w_payload w2 = w_payload w /\ w_params w2 = w_params w.
Proof. exact unprotected_order. Qed.
Print Assumptions C53_any_order.

Definition result (c : cfg) (flags : N) (m : bytes) (payload : option ubufc) (dc : bool) : option (list event * terr * option params) :=
  match verify_internal c toy NULL_UBUF (toy_verifier flags) m (UBuf toy_aad) payload true dc with
  | (log, Ret w) => Some (log, w_err w, w_params w) | _ => None end.
Definition code (x : option (list event * terr * option params)) : option terr :=
  match x with Some (_, e, _) => Some e | None => None end.
Definition alg_header : bytes := encode (CMap [(CUInt 1, CNInt 6)]).
Definition ints (n : nat) : list (cbor * cbor) := map (fun i => (CUInt (N.of_nat (100 + i)), CNull)) (seq 0 n).

Example C53_case :
  let kid := (CUInt 4, CBytes [x41]) in let iv := (CUInt 5, CBytes [x42]) in
  let other := [(CText [x61], CArray [CUInt 1]); (CUInt 99, CNull)] in
  let r u := result cfg_full 0 (toy_built [] alg_header u []) (Some NULL_UBUF) false in
  code (r [kid; iv]) = Some T_SUCCESS /\ r [iv; kid] = r [kid; iv] /\ r (kid :: other ++ [iv]) = r [kid; iv] /\
  r (other ++ [iv; kid]) = r [kid; iv] /\ r [kid] <> r [kid; iv].
Proof. vm_compute. repeat split. discriminate. Qed.

(** At the limit a label 0 makes the order matter: it is not recorded, but
    there must be room to record it. *)
Theorem C53_order_label_zero_refuted :
  let zero := (CUInt 0, CNull) in
  let r u := result cfg_full 0 (toy_built [] alg_header u []) (Some NULL_UBUF) false in
  code (r (zero :: ints 10)) = Some T_SUCCESS /\ code (r (ints 10 ++ [zero])) = Some ERR_TOO_MANY_PARAMETERS.
Proof. vm_compute. split; reflexivity. Qed.
Print Assumptions C53_order_label_zero_refuted.

(** ** C54: the build without content types *)

Theorem C54_content_type_build : forall c cr junk junk2 me msg aad payload want dc ad gv log w,
  length (v_tags me) = 4%nat -> holds aad ad -> detached_arg dc payload gv ->
  verify_internal c cr junk me msg aad payload want dc = (log, Ret w) -> w_err w = T_SUCCESS ->
  exists w2, verify_internal (drop_content_type c) cr junk2 me msg aad payload want dc = (log, Ret w2) /\
    w_err w2 = T_SUCCESS /\ w_payload w2 = w_payload w /\
    w_params w2 = match w_params w with Some p => Some (no_content_type p) | None => None end.
Proof. exact content_type_dropped. Qed.
Print Assumptions C54_content_type_build.

(** The converse does not hold and need not: without content types their values
    are not looked at. *)
Example C54_case :
  let m v := toy_built [] alg_header [(CUInt 3, v); (CUInt 4, CBytes [x41])] [] in
  let r c v := result c 0 (m v) (Some NULL_UBUF) false in
  let full := cfg_full in let less := drop_content_type cfg_full in
  code (r full (CUInt 42)) = Some T_SUCCESS /\ code (r less (CUInt 42)) = Some T_SUCCESS /\
  r full (CUInt 42) <> r less (CUInt 42) /\
  code (r full (CUInt 70000)) = Some ERR_BAD_CONTENT_TYPE /\ code (r less (CUInt 70000)) = Some T_SUCCESS.
Proof. vm_compute. repeat split. discriminate. Qed.

(** ** C55: payload inside or outside of the message *)

Theorem C55_detach : forall c cr junk junk2 me msg msg2 aad payload want ad g pm g2 pl log w,
  length (v_tags me) = 4%nat -> holds aad ad ->
  message msg g pm -> message msg2 g2 pm -> other_payload g g2 -> g_payload g = CBytes pl -> g_payload g2 = CNull ->
  verify_internal c cr junk me msg aad payload want false = (log, Ret w) -> w_err w = T_SUCCESS ->
  exists w2, verify_internal c cr junk2 me msg2 aad (Some (UBuf pl)) want true = (log, Ret w2) /\
    w_err w2 = T_SUCCESS /\ w_params w2 = w_params w.
Proof. exact detach. Qed.
Print Assumptions C55_detach.

Theorem C55_attach : forall c cr junk junk2 me msg msg2 aad payload want ad g pm g2 pl log w,
  length (v_tags me) = 4%nat -> holds aad ad ->
  message msg g pm -> message msg2 g2 pm -> other_payload g g2 -> g_payload g2 = CBytes pl ->
  verify_internal c cr junk me msg aad (Some (UBuf pl)) want true = (log, Ret w) -> w_err w = T_SUCCESS ->
  exists w2, verify_internal c cr junk2 me msg2 aad payload want false = (log, Ret w2) /\
    w_err w2 = T_SUCCESS /\ w_params w2 = w_params w /\ (payload <> None -> w_payload w2 = Some (UBuf pl)).
Proof. exact attach. Qed.
Print Assumptions C55_attach.

Example C55_case :
  let m pl := encode (CArray [CBytes alg_header; CMap [(CUInt 4, CBytes [x41])]; pl;
                              CBytes (toy_sig (toy_digest (sig_structure alg_header toy_aad toy_payload)))]) in
  let inside := result cfg_full 0 (m (CBytes toy_payload)) (Some NULL_UBUF) false in
  let outside p := result cfg_full 0 (m CNull) (Some (UBuf p)) true in
  code inside = Some T_SUCCESS /\ outside toy_payload = inside /\ code (outside [x01]) = Some ERR_SIG_VERIFY /\
  code (result cfg_full 0 (m CNull) (Some NULL_UBUF) false) = Some ERR_SIGN1_FORMAT.
Proof. vm_compute. auto. Qed.

(** ** C56: tags *)

Theorem C56_tags : forall c cr junk me msg msg2 aad payload want dc ad gv g pm g2 log w,
  length (v_tags me) = 4%nat -> holds aad ad -> detached_arg dc payload gv ->
  message msg g pm -> message msg2 g2 pm -> other_tags g g2 -> tag_accepted (v_flags me) g2 ->
  verify_internal c cr junk me msg aad payload want dc = (log, Ret w) -> w_err w = T_SUCCESS ->
  exists w2, verify_internal c cr junk me msg2 aad payload want dc = (log, Ret w2) /\
    w_err w2 = T_SUCCESS /\ w_payload w2 = w_payload w /\ w_params w2 = w_params w.
Proof. exact tags_change. Qed.
Print Assumptions C56_tags.

Example C56_case :
  let r tags := result cfg_full 0 (toy_built tags alg_header [] []) (Some NULL_UBUF) false in
  code (r []) = Some T_SUCCESS /\ r [18] = r [] /\ r [61] = r [] /\ r [18; 61; 7; 2000] = r [] /\
  code (r [18; 61; 7; 8; 9]) = Some ERR_TOO_MANY_TAGS.
Proof. vm_compute. auto. Qed.
