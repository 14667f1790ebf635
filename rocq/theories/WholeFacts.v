(** One message read in two ways. *)
From Verif Require Import Base Const QEnc QDec Crypto Util ShortCircuit Params Verify Spec SignSpec.
From Verif Require Import BaseFacts UtilFacts SignFacts SignProofs SignMore SignMore3.
From Verif Require Import DecSpec DecFacts DecSkip DecCtx ParamFacts DecSim VerifyDec BucketFacts LabelFacts VerifySafe VerifyFacts VerifyCheck Unique VerifyTop VerifyMore VerifyMore2 VerifyMore3 VerifyMore4.
From Verif Require Import BrokenFacts IndefSpec IndefFacts ProtocolSpec ProtocolFacts ProtocolVerify WholeSpec VerifySpec.
From Coq Require Import Lia.
Open Scope N_scope. Open Scope list_scope.
Local Strategy 100 [create_tbs create_tbs_hash verify_decode].

(** What was not accepted has no outputs, and the adapter is called for messages only. *)
Lemma refused_unless c cr junk me msg aad payload want dc ad gv :
  length (v_tags me) = 4%nat -> holds aad ad -> detached_arg dc payload gv ->
  (forall g pm p pl, message msg g pm -> acceptable c (v_flags me) dc gv g pm p pl -> False) ->
  refused (verify_internal c cr junk me msg aad payload want dc).
Proof.
  intros Hv HA HG N log w H.
  assert (L : log = []).
  { destruct (verify_orderly _ _ _ _ _ _ _ _ _ _ _ _ _ Hv HA HG H) as [L|(g & pm & p & pl & M & A & _)]; [exact L|destruct (N _ _ _ _ M A)]. }
  assert (E : w_err w <> T_SUCCESS).
  { intro E. destruct (verify_sound_full _ _ _ _ _ _ _ _ _ _ _ _ _ Hv HA HG H E) as (g & pm & p & pl & M & A & _). exact (N _ _ _ _ M A). }
  split; [exact L|]. split; [exact E|]. exact (proj1 (outputs_on_success _ _ _ _ _ _ _ _ _ _ _ H) E).
Qed.

Theorem truncated_refused c cr junk me m n t aad payload want dc ad gv :
  length (v_tags me) = 4%nat -> holds aad ad -> detached_arg dc payload gv -> reads 0 t (m ++ n) -> n <> [] ->
  refused (verify_internal c cr junk me m aad payload want dc).
Proof.
  intros Hv HA HG R N. apply (refused_unless _ _ _ _ _ _ _ _ _ ad gv Hv HA HG).
  intros g pm p pl (t' & rest & R' & _) _.
  destruct (reads_unique _ _ _ _ _ _ [] n R R') as (_ & _ & E); [now rewrite app_nil_r|congruence].
Qed.

Theorem appended_refused c cr junk me m n t aad payload want dc ad gv :
  length (v_tags me) = 4%nat -> holds aad ad -> detached_arg dc payload gv -> reads 0 t m -> n <> [] ->
  refused (verify_internal c cr junk me (m ++ n) aad payload want dc).
Proof.
  intros Hv HA HG R N. apply (refused_unless _ _ _ _ _ _ _ _ _ ad gv Hv HA HG).
  intros g pm p pl (t' & rest & R' & _) _.
  destruct (reads_unique _ _ _ _ _ _ n [] R R') as (_ & _ & E); [now rewrite app_nil_r|congruence].
Qed.

(** The payload is in the message or it is not. *)
Theorem other_mode_refused c c2 cr cr2 junk junk2 me me2 msg aad aad2 payload payload2 want want2 dc ad gv ad2 gv2 log w :
  length (v_tags me) = 4%nat -> holds aad ad -> detached_arg dc payload gv ->
  length (v_tags me2) = 4%nat -> holds aad2 ad2 -> detached_arg (negb dc) payload2 gv2 ->
  verify_internal c cr junk me msg aad payload want dc = (log, Ret w) -> w_err w = T_SUCCESS ->
  refused (verify_internal c2 cr2 junk2 me2 msg aad2 payload2 want2 (negb dc)).
Proof.
  intros Hv HA HG Hv2 HA2 HG2 H E. apply (refused_unless _ _ _ _ _ _ _ _ _ ad2 gv2 Hv2 HA2 HG2).
  intros g2 pm2 p2 pl2 M2 A2.
  destruct (verify_sound_full _ _ _ _ _ _ _ _ _ _ _ _ _ Hv HA HG H E) as (g & pm & p & pl & M & A & _).
  destruct (message_unique _ _ _ _ _ M M2) as [<- <-].
  pose proof (ac_payload _ _ _ _ _ _ _ _ A) as P. pose proof (ac_payload _ _ _ _ _ _ _ _ A2) as P2. unfold payload_is in P, P2.
  destruct dc; cbn [negb] in P2.
  - destruct P as (_ & B & _). rewrite P2 in B. discriminate B.
  - destruct P2 as (_ & B & _). rewrite P in B. discriminate B.
Qed.

Lemma other_mode_decode c junk junk2 me msg payload payload2 dc m me1 r me2 :
  verify_decode c junk me msg payload dc = Ret (DOk m, me1) ->
  verify_decode c junk2 me msg payload2 (negb dc) = Ret (r, me2) ->
  r = DErr (if dc then ERR_SIGN1_FORMAT else ERR_CBOR_FORMATTING).
Proof.
  intros H H2. destruct (decode_inv _ _ _ _ _ _ _ _ H) as (t & Ht).
  rewrite (decode_reads c junk me t) in H by exact Ht. rewrite (decode_reads c junk2 me t) in H2 by exact Ht. unfold tree_decode in H, H2.
  destruct (good t); [|discriminate H]. destruct (body t); try discriminate H.
  destruct (process_tags me _) as [[err me']|u]; cbn [obind] in *; [|discriminate H].
  destruct (negb (terr_eqb err T_SUCCESS)); [discriminate H|].
  unfold elems_decode in *. destruct (bstr_at (nth_error l 0)) as [e|prot]; [discriminate H|].
  destruct (prot_bucket c prot) as [[[[e1 p1] crit] unk1]|u]; cbn [obind] in *; [|discriminate H].
  destruct (negb (terr_eqb e1 T_SUCCESS)); [discriminate H|].
  destruct (unprot_bucket c (nth_error l 1) p1 unk1) as [[[e2 p2] unk2]|u]; cbn [obind] in *; [|discriminate H].
  destruct (negb (terr_eqb e2 T_SUCCESS)); [discriminate H|].
  unfold pay_part in *. destruct dc; cbn [negb] in *.
  - destruct payload as [pl|]; cbn [obind] in H; [|discriminate H].
    destruct (nth_error l 2) as [x|]; [|discriminate H]. destruct (is_null x) eqn:N; [|discriminate H].
    unfold is_null in N. apply andb_prop in N as [G N]. cbn [bstr_at] in H2.
    assert (P : plain_bytes x = None) by (destruct x; try reflexivity; discriminate N).
    rewrite P in H2. cbn [obind] in H2. unfold bstr_err in H2. rewrite G in H2. injection H2 as <- _. reflexivity.
  - destruct payload2 as [pl|]; cbn [obind] in H2; [|discriminate H2].
    destruct (nth_error l 2) as [x|]; [|injection H2 as <- _; reflexivity]. destruct (is_null x) eqn:N; [|injection H2 as <- _; reflexivity].
    exfalso. cbn [bstr_at] in H. assert (P : plain_bytes x = None).
    { unfold is_null in N. destruct x; try reflexivity. cbn [body] in N. rewrite andb_false_r in N. discriminate N. }
    rewrite P in H. discriminate H.
Qed.

Theorem other_mode_code c cr cr2 junk junk2 me msg aad aad2 payload payload2 want want2 dc log w log2 w2 :
  verify_internal c cr junk me msg aad payload want dc = (log, Ret w) -> w_err w = T_SUCCESS ->
  verify_internal c cr2 junk2 me msg aad2 payload2 want2 (negb dc) = (log2, Ret w2) ->
  log2 = [] /\ w_err w2 = if dc then ERR_SIGN1_FORMAT else ERR_CBOR_FORMATTING.
Proof.
  intros H E H2. destruct (accepted_decodes _ _ _ _ _ _ _ _ _ _ _ H E) as (m & me1 & D).
  unfold verify_internal in H2. apply mbind_ret_inv in H2 as (l1 & [r me3] & l2 & H1 & H2 & ->).
  unfold mlift in H1. injection H1 as <- H1. rewrite (other_mode_decode _ _ _ _ _ _ _ _ _ _ _ _ D H1) in H2.
  injection H2 as <- <-. auto.
Qed.

(** ** Outputs *)

Lemma decode_payload c junk me msg payload payload2 :
  verify_decode c junk me msg payload false = verify_decode c junk me msg payload2 false.
Proof. reflexivity. Qed.

Theorem outputs_irrelevant c cr junk me msg aad payload payload2 want want2 dc : dc = false \/ payload2 = payload ->
  same_but_outputs (asked payload) (asked payload2) want want2 (verify_internal c cr junk me msg aad payload want dc) (verify_internal c cr junk me msg aad payload2 want2 dc).
Proof.
  intro D. unfold verify_internal.
  assert (E : verify_decode c junk me msg payload2 dc = verify_decode c junk me msg payload dc) by (destruct D as [->| ->]; reflexivity).
  rewrite E. clear E. destruct (verify_decode c junk me msg payload dc) as [[[e|m] me1]|u]; unfold mlift; cbn [mbind app].
  - split; [reflexivity|]. cbn [snd mret w_err w_ctx w_payload w_params]. auto 8.
  - destruct (verify_check c cr me1 m aad) as [l [[err me2]|u]]; cbn [mbind]; [|split; reflexivity].
    destruct (terr_eqb err T_SUCCESS); unfold mret; (split; [reflexivity|]); cbn [snd w_err w_ctx w_payload w_params].
    + split; [reflexivity|]. split; [reflexivity|]. split; [|split; [now intros ->|split; [|now intros ->]]].
      * destruct payload, payload2; auto; discriminate.
      * destruct payload; [discriminate|reflexivity].
    + auto 8.
  - split; reflexivity.
Qed.
