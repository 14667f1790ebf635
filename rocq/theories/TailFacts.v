(** C57: a data item followed by further bytes. *)
From Verif Require Import Base Const QEnc QDec Crypto Params Verify Spec DecSpec VerifyDec VerifySafe VerifySpec BaseFacts VerifyTop.
Open Scope N_scope. Open Scope list_scope.

Theorem trailing_error c cr junk me msg t tail aad payload want dc gv log w :
  length (v_tags me) = 4%nat -> detached_arg dc payload gv -> reads 0 t msg -> tail <> [] ->
  verify_internal c cr junk me (msg ++ tail) aad payload want dc = (log, Ret w) ->
  log = [] /\ w_err w <> T_SUCCESS /\
  (w_err w = ERR_CBOR_NOT_WELL_FORMED \/
   exists w', verify_internal c cr junk me msg aad payload want dc = ([], Ret w') /\ w_err w' = w_err w).
Proof.
  intros Hv HG Ht Nt H. unfold verify_internal in *.
  destruct (decode_ret c junk me msg payload dc) as (r & me' & E & _); [exact Hv| |].
  { intros D ->. destruct (HG D) as (u & X & _). discriminate X. }
  rewrite E. rewrite (decode_reads c junk me t msg payload dc Ht) in E.
  rewrite (decode_reads_tail c junk me t msg tail payload dc Ht) in H by eauto. rewrite E in H.
  destruct tail as [|b tail]; [contradiction|]. cbn [followed] in H.
  destruct r as [e|m]; cbn in H; injection H as <- <-; cbn [w_err].
  - split; [reflexivity|]. split; [|right; eexists; split; reflexivity].
    intros ->. rewrite <- (decode_reads c junk me t msg payload dc Ht) in E. exact (decode_no_success _ _ _ _ _ _ _ E).
  - split; [reflexivity|]. split; [discriminate|now left].
Qed.
