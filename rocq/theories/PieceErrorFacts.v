(** C60 for piecewise signing. *)
From Coq Require Import Lia.
From Verif Require Import Base Const QEnc Crypto Util Sign Spec SignSpec PassSpec SignErrorSpec PieceSpec.
From Verif Require Import BaseFacts EncFacts UtilFacts SignFacts SignProofs SignMore SignSafe PassFacts SupportFacts SignErrorFacts Piece.
Open Scope N_scope. Open Scope list_scope.

Theorem piecewise_errors c cr q me aad ad f buf log err me' r :
  configured q me -> holds aad ad ->
  (forest_depth f <= 13)%nat -> forest_fits f -> bcount f < 65534 ->
  let pl := forest_bytes f in
  blen (requested_message c q (Some pl) []) <= MAX_OFFSET ->
  piecewise c cr me aad (forest_ops f) buf = (log, Ret (err, me', r)) -> err <> T_SUCCESS ->
  signing_fault c cr q (Some pl) (requested_tbs q ad pl) buf log err \/ adapter_failed cr log err.
Proof.
  intros C A D F BC pl B H N.
  assert (P : holds (UBuf pl) pl) by now left.
  pose proof (empty_message_len c q me false _ pl C P) as U. cbv beta iota in U.
  rewrite (piecewise_eq c cr me aad f buf D F BC) in H; [|fold pl; lia].
  refine (signing_errors c cr q me false (UBuf pl) aad pl ad buf log err me' r C P A _ B H N). discriminate.
Qed.

Theorem signature_step_encoder c cr me aad dp e :
  let e' := if u_is_null dp then fst (enc_close_bstr e) else e in
  (enc_error e' = QE_BUFFER_TOO_SMALL ->
   encode_signature_aad_internal c cr me aad dp e = ([], Ret (ERR_TOO_SMALL, me, e'))) /\
  (enc_error e' <> QE_BUFFER_TOO_SMALL -> enc_error e' <> QE_SUCCESS ->
   encode_signature_aad_internal c cr me aad dp e = ([], Ret (ERR_CBOR_FORMATTING, me, e'))).
Proof.
  intro e'. unfold encode_signature_aad_internal. subst e'.
  destruct (u_is_null dp); [destruct (enc_close_bstr e) as [e1 s]; cbn [fst]|rename e into e1];
    split; intros H; try intro H'; (destruct (enc_error e1); try congruence; reflexivity).
Qed.

Theorem signature_step_errors c cr q me aad dp e log err me2 e2 : configured q me ->
  enc_error (if u_is_null dp then fst (enc_close_bstr e) else e) = QE_SUCCESS ->
  encode_signature_aad_internal c cr me aad dp e = (log, Ret (err, me2, e2)) -> err <> T_SUCCESS ->
  step_fault c q log err \/ adapter_failed cr log err.
Proof.
  intros C B H N. pose proof (sc_on_spec _ _ C) as SO. unfold encode_signature_aad_internal in H.
  assert (exists e1 sp, (if u_is_null dp then let (e', s) := enc_close_bstr e in (e', resolve e' s) else (e, dp)) = (e1, sp)
          /\ enc_error e1 = QE_SUCCESS) as (e1 & sp & X & B1).
  { destruct (u_is_null dp); [destruct (enc_close_bstr e) as [e1 s]|]; do 2 eexists; (split; [reflexivity|exact B]). }
  rewrite X, B1 in H. cbn [enc_error_to_terr] in H.
  replace (terr_eqb T_SUCCESS T_SUCCESS) with true in H by reflexivity. cbn [negb] in H.
  destruct (enc_open_bytes e1) as [e3 buf].
  apply mbind_ret_inv in H as (l1 & [[[e4 m1] n] w] & l2 & H1 & H & ->).
  destruct (terr_eqb e4 T_SUCCESS) eqn:E4; cbn [negb] in H.
  { unfold mret in H. injection H as _ <- _ _. now elim N. }
  unfold mret in H. injection H as <- <- _ _. rewrite app_nil_r.
  apply core_blame in H1; [|exact N]. destruct H1 as [H1|H1]; [left|now right]. unfold core_own in H1.
  destruct C as (CA & _).
  destruct H1 as [(-> & -> & H1 & HE)|[(-> & H1 & _)|[(-> & -> & _ & H2 & _)|(-> & -> & _ & H2 & _)]]]; cbn [step_fault].
  - split; [reflexivity|]. rewrite CA in *. 
    destruct (signature_algorithm_id_is_supported c (q_alg q)) eqn:SA.
    + apply supported_spec in SA. right. pose proof (no_hash_alg c _ SA H1) as E8. split; [|exact E8]. rewrite <- SO.
      destruct HE as [HE|[HE|HE]]; [exact HE|congruence|].
      exfalso. rewrite E8 in SA. unfold enabled in SA. rewrite HE in SA. intuition discriminate.
    + left. intro E. apply supported_spec in E. congruence.
  - congruence.
  - split; [reflexivity|congruence].
  - split; [reflexivity|congruence].
Qed.
