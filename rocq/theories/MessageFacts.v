(** Verification of one message, given that of a similar one. *)
From Verif Require Import Base Const QEnc QDec Crypto Util ShortCircuit Params Verify Spec SignSpec.
From Verif Require Import BaseFacts UtilFacts SignFacts SignProofs SignMore SignMore3.
From Verif Require Import DecSpec LabelFacts VerifyDec VerifySafe VerifyFacts VerifyCheck Unique Parts VerifyTop VerifyMore MessageSpec VerifySpec.
From Coq Require Import Lia Permutation.
Open Scope N_scope. Open Scope list_scope.
Local Strategy 100 [create_tbs create_tbs_hash verify_decode].

Lemma core_params c cr me p p2 sig prot aad pay : p_alg p2 = p_alg p -> p_kid p2 = p_kid p ->
  check_core c cr me p2 sig prot aad pay = check_core c cr me p sig prot aad pay.
Proof.
  intros A K. unfold check_core, short_circuit_kid, uses_eddsa, sign1_verify_short_circuit, sign1_verify_eddsa, sign1_verify_default.
  now rewrite A, K.
Qed.

(** The payload handed to the signature check. *)
Definition handed (dc : bool) (payload : option ubufc) (pl : bytes) : option ubufc :=
  if dc then payload else Some (UBuf pl).

Theorem accepted_transfer c c2 cr junk junk2 me msg msg2 aad payload payload2 want want2 dc dc2 ad gv gv2 log w g pm p pl g2 p2 :
  length (v_tags me) = 4%nat -> holds aad ad -> detached_arg dc payload gv -> detached_arg dc2 payload2 gv2 ->
  message msg g pm -> acceptable c (v_flags me) dc gv g pm p pl ->
  verify_internal c cr junk me msg aad payload want dc = (log, Ret w) -> w_err w = T_SUCCESS ->
  message msg2 g2 pm -> acceptable c2 (v_flags me) dc2 gv2 g2 pm p2 pl ->
  g_prot g2 = g_prot g -> g_sig g2 = g_sig g -> p_alg p2 = p_alg p -> p_kid p2 = p_kid p ->
  (forall me p sig prot aad pay, check_core c2 cr me p sig prot aad pay = check_core c cr me p sig prot aad pay) ->
  handed dc2 payload2 pl = handed dc payload pl ->
  exists w2, verify_internal c2 cr junk2 me msg2 aad payload2 want2 dc2 = (log, Ret w2) /\ delivered me payload2 want2 dc2 p2 pl w2.
Proof.
  intros Hv HA HG HG2 Hm Acc H Hw Hm2 [A1 A2 A3 (ci & ct & A4 & A5) A6 A7 A8] EP ES EA EK EC EH.
  destruct (verify_inv _ _ _ _ _ _ _ _ _ _ _ _ _ Hv HA HG H Hw) as (g' & pm' & m & me1 & pl' & Hm' & Hd & HP & HH & Ac & De & Co).
  destruct (message_unique _ _ _ _ _ Hm Hm') as [<- <-]. clear Hm'.
  pose proof (reported_det _ _ _ _ _ (ac_params _ _ _ _ _ _ _ _ Acc) (dc_params _ _ _ _ _ _ _ _ Hd)) as ->.
  assert (pl' = pl) as -> by exact (payload_det _ _ _ _ _ HP (ac_payload _ _ _ _ _ _ _ _ Acc)).
  assert (PM : handed dc payload pl = Some (m_payload m)).
  { pose proof (dc_payload _ _ _ _ _ _ _ _ Hd) as X. unfold handed. destruct dc; [destruct X as (_ & _ & ->); reflexivity|].
    destruct X as (b & X1 & X2). rewrite X2. unfold payload_is in HP. congruence. }
  set (me3 := v_set_tags me (pad4 (returned (g_tags g2)))).
  assert (M : exists m2, decodes c2 me payload2 dc2 g2 pm m2 me3 /\ m_params m2 = p2 /\ m_payload m2 = m_payload m /\ m_crit m2 = ll_of ci ct).
  { exists {| m_params := p2; m_prot := UBuf (g_prot g2); m_payload := m_payload m; m_sig := g_sig g2; m_crit := ll_of ci ct;
              m_unknown := ll_of (nonzero (int_labels (all_params g2 pm))) (text_labels (all_params g2 pm)) |}.
    split; [|auto]. constructor; auto; cbn [m_params m_crit m_unknown m_prot m_sig m_payload].
    - split; [exact A3|]. exists ci, ct. auto.
    - unfold payload_is in A7. unfold handed in EH at 1. destruct dc2; rewrite ?PM in EH.
      + destruct A7 as (B1 & B2 & _). auto.
      + exists pl. split; [exact A7|]. now injection EH as <-. }
  destruct M as (m2 & Hd2 & Ep & Epl & Ec).
  assert (D : verify_decode c2 junk2 me msg2 payload2 dc2 = Ret (DOk m2, me3)) by (apply decode_iff; [exact Hv|eauto]).
  assert (CE := check_eq c2 cr me3 g2 pm m2 aad ci ct (dc_params _ _ _ _ _ _ _ _ Hd2) A4 Ec A6 (dc_unknown _ _ _ _ _ _ _ _ Hd2)).
  rewrite (dc_prot _ _ _ _ _ _ _ _ Hd2), (dc_sig _ _ _ _ _ _ _ _ Hd2), Ep, Epl in CE. cbn [v_flags me3 v_set_tags] in CE.
  replace (requires_kid (v_flags me) && u_is_null (p_kid p2)) with false in CE.
  2:{ symmetry. apply andb_false_iff. unfold kid_ok in A8. destruct (requires_kid (v_flags me)); [right|now left].
      specialize (A8 eq_refl). apply not_true_is_false. rewrite (kid_null_iff _ _ _ _ A2). exact A8. }
  replace (negb (allows_unknown_crit (v_flags me)) && crit_hit ci ct (all_params g2 pm)) with false in CE.
  2:{ symmetry. apply andb_false_iff. destruct A5 as [->|A5]; [now left|]. right. now apply crit_hit_iff. }
  rewrite EC, (core_params c cr me3 (m_params m) p2 _ _ _ _ EA EK), EP, ES in CE.
  assert (X : strip (check_core c cr me3 (m_params m) (g_sig g) (UBuf (g_prot g)) aad (m_payload m)) = (log, Ret T_SUCCESS)).
  { rewrite <- (core_ext c cr me1).
    - rewrite Co. unfold strip, mret. cbn [mbind]. now rewrite app_nil_r.
    - rewrite (dc_ctx _ _ _ _ _ _ _ _ Hd). repeat split; reflexivity. }
  unfold strip in X. destruct (check_core _ _ me3 _ _ _ _ _) as [l [[e y]|u]]; [|discriminate].
  unfold mret in X. cbn [mbind] in X. rewrite app_nil_r in X. injection X as -> ->.
  unfold verify_internal. rewrite D. unfold mlift. cbn [mbind app]. rewrite CE. cbn [mbind terr_eqb]. unfold mret. rewrite app_nil_r.
  eexists. split; [reflexivity|]. unfold delivered. cbn [w_err w_payload w_params]. split; [reflexivity|]. split; [now rewrite Ep|].
  destruct payload2; [|reflexivity]. destruct dc2; [reflexivity|]. cbn [handed] in EH. rewrite PM in EH. injection EH as EH. now rewrite Epl, <- EH.
Qed.

(** ** Unprotected parameters *)

Lemma values_app z a b : values z (a ++ b) = values z a ++ values z b.
Proof. unfold values. now rewrite filter_app, map_app. Qed.

Lemma reported_understood c g g2 pm p : same_understood (g_unprot g) (g_unprot g2) -> reported c g pm p -> reported c g2 pm p.
Proof.
  intros S [R1 R2 R3 R4 R5 R6]. unfold all_params in *. rewrite !values_app in *.
  assert (V : forall z, In z [1; 2; 3; 4; 5; 6]%Z -> values z (g_unprot g2) = values z (g_unprot g)) by exact S.
  constructor; unfold all_params; rewrite ?values_app; rewrite ?V by (cbn; tauto); auto.
  unfold ct_from in *. rewrite ?V by (cbn; tauto). exact R6.
Qed.

Theorem unprotected_change c cr junk me msg msg2 aad payload want dc ad gv g pm g2 log w :
  length (v_tags me) = 4%nat -> holds aad ad -> detached_arg dc payload gv ->
  message msg g pm -> message msg2 g2 pm -> other_unprotected g g2 -> same_understood (g_unprot g) (g_unprot g2) ->
  labels_ok (all_params g2 pm) -> nothing_critical (v_flags me) pm (all_params g2 pm) ->
  verify_internal c cr junk me msg aad payload want dc = (log, Ret w) -> w_err w = T_SUCCESS ->
  exists w2, verify_internal c cr junk me msg2 aad payload want dc = (log, Ret w2) /\
    w_err w2 = T_SUCCESS /\ w_payload w2 = w_payload w /\ w_params w2 = w_params w.
Proof.
  intros Hv HA HG Hm Hm2 (T & P & Y & G) SU L NC H Hw.
  destruct (verify_inv _ _ _ _ _ _ _ _ _ _ _ _ _ Hv HA HG H Hw) as (g' & pm' & m & me1 & pl & Hm' & Hd & HP & HH & Ac & De & Co).
  destruct (message_unique _ _ _ _ _ Hm Hm') as [<- <-]. clear Hm'.
  destruct (accepted_transfer c c cr junk junk me msg msg2 aad payload payload want want dc dc ad gv gv log w g pm (m_params m) pl g2 (m_params m))
    as (w2 & E & D1 & D2 & D3); auto.
  - destruct Ac as [A1 A2 A3 (ci & ct & A4 & A5) A6 A7 A8]. constructor; auto.
    + unfold tag_accepted, tagged in *. now rewrite T.
    + exact (reported_understood c g g2 pm _ SU A2).
    + rewrite SU by (cbn; tauto). exact A3.
    + exists ci, ct. split; [exact A4|]. exact (NC ci ct A4).
    + unfold payload_is in *. now rewrite Y.
  - exists w2. destruct De as (_ & De1 & De2). rewrite D2, D3, De1, De2. auto.
Qed.

(** Order. *)

Lemma perm_short {A} (l l2 : list A) : Permutation l l2 -> (length l <= 1)%nat -> l2 = l.
Proof.
  intros P L. destruct l as [|x [|y l]]; cbn in L; [now apply Permutation_nil in P|now apply Permutation_length_1_inv in P|lia].
Qed.

Lemma values_perm z m m2 : Permutation m m2 -> Permutation (values z m) (values z m2).
Proof.
  intro P. unfold values. apply Permutation_map. induction P; cbn [filter].
  - constructor.
  - destruct (has_int z (fst x)); [now constructor|assumption].
  - destruct (has_int z (fst x)), (has_int z (fst y)); try apply Permutation_refl; constructor.
  - eapply Permutation_trans; eassumption.
Qed.

Lemma flat_map_perm {A B} (f : A -> list B) l l2 : Permutation l l2 -> Permutation (flat_map f l) (flat_map f l2).
Proof.
  induction 1; cbn [flat_map].
  - constructor.
  - now apply Permutation_app_head.
  - rewrite !app_assoc. apply Permutation_app_tail. apply Permutation_app_comm.
  - eapply Permutation_trans; eassumption.
Qed.

Lemma fit_app n a b : ints_fit n (a ++ b) <-> ints_fit n a /\ ints_fit (n + length (nonzero a)) b.
Proof.
  revert n. induction a as [|z a IH]; intro n; cbn [app ints_fit].
  - cbn [nonzero filter length]. rewrite Nat.add_0_r. tauto.
  - rewrite IH. replace (nonzero (z :: a)) with (nonzero [z] ++ nonzero a) by (unfold nonzero; rewrite <- filter_app; reflexivity).
    rewrite app_length, Nat.add_assoc. tauto.
Qed.

Lemma fit_nonzero n zs : ~ In 0%Z zs -> ints_fit n zs <-> (zs = [] \/ (n + length zs <= 10)%nat).
Proof.
  revert n. induction zs as [|z zs IH]; intros n N; cbn [ints_fit length].
  - tauto.
  - assert (z <> 0)%Z by (intro; apply N; now left). assert (~ In 0%Z zs) by (intro; apply N; now right).
    rewrite IH by assumption. cbn [nonzero filter]. destruct (Z.eqb_spec z 0); [contradiction|]. cbn [negb length].
    split.
    + intros [A [->|B]]; right; cbn [length]; lia.
    + intros [A|A]; [discriminate|]. split; [lia|]. right. lia.
Qed.

Lemma labels_app a b : int_labels (a ++ b) = int_labels a ++ int_labels b /\ text_labels (a ++ b) = text_labels a ++ text_labels b.
Proof. unfold int_labels, text_labels. now rewrite !flat_map_app. Qed.

Lemma reported_short c g pm p z : reported c g pm p -> values 2 (g_unprot g) = [] -> In z [1; 2; 3; 4; 5; 6]%Z -> (length (values z (g_unprot g)) <= 1)%nat.
Proof.
  intros [R1 R2 R3 R4 R5 R6] C I. unfold all_params in *. rewrite values_app in R3, R4, R5.
  assert (B : forall a b u, bytes_from (a ++ b) u -> (length b <= 1)%nat).
  { intros a b u [[E _]|(v & x & E & _)]; apply (f_equal (@length _)) in E; rewrite app_length in E; cbn in E; lia. }
  cbn in I. destruct I as [<-|[<-|[<-|[<-|[<-|[<-|[]]]]]]]; try (now rewrite ?R1, ?C; cbn; lia); eauto.
  destruct (dis_content_type c).
  - destruct R6 as (_ & [->|(v & -> & _)] & _); cbn; lia.
  - destruct R6 as (y & _ & S). inversion S; cbn; lia.
Qed.

Theorem unprotected_order c cr junk me msg msg2 aad payload want dc ad gv g pm g2 log w :
  length (v_tags me) = 4%nat -> holds aad ad -> detached_arg dc payload gv ->
  message msg g pm -> message msg2 g2 pm -> other_unprotected g g2 -> Permutation (g_unprot g) (g_unprot g2) ->
  ~ In 0%Z (int_labels (g_unprot g)) ->
  verify_internal c cr junk me msg aad payload want dc = (log, Ret w) -> w_err w = T_SUCCESS ->
  exists w2, verify_internal c cr junk me msg2 aad payload want dc = (log, Ret w2) /\
    w_err w2 = T_SUCCESS /\ w_payload w2 = w_payload w /\ w_params w2 = w_params w.
Proof.
  intros Hv HA HG Hm Hm2 O P Z H Hw.
  destruct (verify_inv _ _ _ _ _ _ _ _ _ _ _ _ _ Hv HA HG H Hw) as (g' & pm' & m & me1 & pl & Hm' & Hd & HP & HH & Ac & De & Co).
  destruct (message_unique _ _ _ _ _ Hm Hm') as [<- <-]. clear Hm'.
  destruct Ac as [A1 A2 A3 (ci & ct & A4 & A5) A6 A7 A8].
  assert (PI : Permutation (int_labels (g_unprot g)) (int_labels (g_unprot g2))) by (apply flat_map_perm; exact P).
  assert (PT : Permutation (text_labels (g_unprot g)) (text_labels (g_unprot g2))) by (apply flat_map_perm; exact P).
  unfold all_params in *. destruct (labels_app pm (g_unprot g)) as [LI LT], (labels_app pm (g_unprot g2)) as [LI2 LT2].
  apply (unprotected_change c cr junk me msg msg2 aad payload want dc ad gv g pm g2 log w); auto.
  - intros z I. apply perm_short; [now apply values_perm|]. exact (reported_short c g pm _ z A2 A3 I).
  - destruct A6 as (B1 & B2 & B3). unfold all_params. split; [|split].
    + apply Forall_app in B1 as [X Y]. apply Forall_app. split; [exact X|]. exact (Permutation_Forall P Y).
    + rewrite LI in B2. rewrite LI2. apply fit_app in B2 as [X Y]. apply fit_app. split; [exact X|].
      apply fit_nonzero in Y; [|exact Z]. apply fit_nonzero.
      * intro I. apply Z. exact (Permutation_in _ (Permutation_sym PI) I).
      * destruct Y as [Y|Y]; [left|right; now rewrite <- (Permutation_length PI)].
        rewrite Y in PI. now apply Permutation_nil in PI.
    + rewrite LT, app_length in B3. rewrite LT2, app_length. now rewrite <- (Permutation_length PT).
  - intros ci' ct' C. destruct (crit_from_det _ _ _ _ _ A4 C) as [<- <-]. unfold all_params.
    destruct A5 as [A5|[X Y]]; [now left|]. right. rewrite LI in X. rewrite LT in Y. rewrite LI2, LT2. split.
    + intros z I J. apply (X z I). apply in_app_iff in J. apply in_app_iff. destruct J as [J|J]; [now left|right]. exact (Permutation_in _ (Permutation_sym PI) J).
    + intros s I J. apply (Y s I). apply in_app_iff in J. apply in_app_iff. destruct J as [J|J]; [now left|right]. exact (Permutation_in _ (Permutation_sym PT) J).
Qed.

(** ** Tags *)

Theorem tags_change c cr junk me msg msg2 aad payload want dc ad gv g pm g2 log w :
  length (v_tags me) = 4%nat -> holds aad ad -> detached_arg dc payload gv ->
  message msg g pm -> message msg2 g2 pm -> other_tags g g2 -> tag_accepted (v_flags me) g2 ->
  verify_internal c cr junk me msg aad payload want dc = (log, Ret w) -> w_err w = T_SUCCESS ->
  exists w2, verify_internal c cr junk me msg2 aad payload want dc = (log, Ret w2) /\
    w_err w2 = T_SUCCESS /\ w_payload w2 = w_payload w /\ w_params w2 = w_params w.
Proof.
  intros Hv HA HG Hm Hm2 (P & U & Y & G) TA H Hw.
  destruct (verify_inv _ _ _ _ _ _ _ _ _ _ _ _ _ Hv HA HG H Hw) as (g' & pm' & m & me1 & pl & Hm' & Hd & HP & HH & Ac & De & Co).
  destruct (message_unique _ _ _ _ _ Hm Hm') as [<- <-]. clear Hm'.
  destruct (accepted_transfer c c cr junk junk me msg msg2 aad payload payload want want dc dc ad gv gv log w g pm (m_params m) pl g2 (m_params m))
    as (w2 & E & D1 & D2 & D3); auto.
  - destruct Ac as [A1 A2 A3 (ci & ct & A4 & A5) A6 A7 A8]. unfold all_params in *. constructor; auto; unfold all_params; rewrite ?U; auto.
    + apply (reported_understood c g g2 pm); [|exact A2]. intros z _. now rewrite U.
    + eauto.
    + unfold payload_is in *. now rewrite Y.
  - exists w2. destruct De as (_ & De1 & De2). rewrite D2, D3, De1, De2. auto.
Qed.

(** ** Payload inside or outside of the message *)

Theorem detach c cr junk junk2 me msg msg2 aad payload want ad g pm g2 pl log w :
  length (v_tags me) = 4%nat -> holds aad ad ->
  message msg g pm -> message msg2 g2 pm -> other_payload g g2 -> g_payload g = CBytes pl -> g_payload g2 = CNull ->
  verify_internal c cr junk me msg aad payload want false = (log, Ret w) -> w_err w = T_SUCCESS ->
  exists w2, verify_internal c cr junk2 me msg2 aad (Some (UBuf pl)) want true = (log, Ret w2) /\
    w_err w2 = T_SUCCESS /\ w_params w2 = w_params w.
Proof.
  intros Hv HA Hm Hm2 (T & P & U & G) Y Y2 H Hw.
  assert (HG : detached_arg false payload []) by discriminate.
  assert (HG2 : detached_arg true (Some (UBuf pl)) pl) by (intros _; exists (UBuf pl); split; [reflexivity|now left]).
  destruct (verify_inv _ _ _ _ _ _ _ _ _ _ _ _ _ Hv HA HG H Hw) as (g' & pm' & m & me1 & pl' & Hm' & Hd & HP & HH & Ac & De & Co).
  destruct (message_unique _ _ _ _ _ Hm Hm') as [<- <-]. clear Hm'.
  assert (pl' = pl) as -> by (unfold payload_is in HP; congruence).
  destruct (accepted_transfer c c cr junk junk2 me msg msg2 aad payload (Some (UBuf pl)) want want false true ad [] pl log w g pm (m_params m) pl g2 (m_params m))
    as (w2 & E & D1 & D2 & D3); auto.
  - destruct Ac as [A1 A2 A3 (ci & ct & A4 & A5) A6 A7 A8]. unfold all_params in *. constructor; auto; unfold all_params; rewrite ?U; auto.
    + unfold tag_accepted, tagged in *. now rewrite T.
    + apply (reported_understood c g g2 pm); [|exact A2]. intros z _. now rewrite U.
    + eauto.
    + unfold payload_is. rewrite Y2. split; [split; [cbn; lia|exact I]|auto].
  - exists w2. destruct De as (_ & De1 & _). rewrite D2, De1. auto.
Qed.

Theorem attach c cr junk junk2 me msg msg2 aad payload want ad g pm g2 pl log w :
  length (v_tags me) = 4%nat -> holds aad ad ->
  message msg g pm -> message msg2 g2 pm -> other_payload g g2 -> g_payload g2 = CBytes pl ->
  verify_internal c cr junk me msg aad (Some (UBuf pl)) want true = (log, Ret w) -> w_err w = T_SUCCESS ->
  exists w2, verify_internal c cr junk2 me msg2 aad payload want false = (log, Ret w2) /\
    w_err w2 = T_SUCCESS /\ w_params w2 = w_params w /\ (payload <> None -> w_payload w2 = Some (UBuf pl)).
Proof.
  intros Hv HA Hm Hm2 (T & P & U & G) Y2 H Hw.
  assert (HG2 : detached_arg false payload []) by discriminate.
  assert (HG : detached_arg true (Some (UBuf pl)) pl) by (intros _; exists (UBuf pl); split; [reflexivity|now left]).
  destruct (verify_inv _ _ _ _ _ _ _ _ _ _ _ _ _ Hv HA HG H Hw) as (g' & pm' & m & me1 & pl' & Hm' & Hd & HP & HH & Ac & De & Co).
  destruct (message_unique _ _ _ _ _ Hm Hm') as [<- <-]. clear Hm'.
  assert (pl' = pl) as -> by (unfold payload_is in HP; tauto).
  destruct (accepted_transfer c c cr junk junk2 me msg msg2 aad (Some (UBuf pl)) payload want want true false ad pl [] log w g pm (m_params m) pl g2 (m_params m))
    as (w2 & E & D1 & D2 & D3); auto.
  - destruct Ac as [A1 A2 A3 (ci & ct & A4 & A5) A6 A7 A8]. unfold all_params in *. constructor; auto; unfold all_params; rewrite ?U; auto.
    + unfold tag_accepted, tagged in *. now rewrite T.
    + apply (reported_understood c g g2 pm); [|exact A2]. intros z _. now rewrite U.
    + eauto.
  - exists w2. destruct De as (_ & De1 & _). rewrite D2, D3, De1. split; [exact E|]. split; [exact D1|]. split; [reflexivity|].
    intro N. destruct payload; [reflexivity|now elim N].
Qed.

(** ** Builds without content types *)

Lemma core_drop c cr me p sig prot aad pay :
  check_core (drop_content_type c) cr me p sig prot aad pay = check_core c cr me p sig prot aad pay.
Proof. destruct c. reflexivity. Qed.

Lemma ct_step_short vs x y : ct_step vs x y -> ct_ignored vs.
Proof. intros [|v s u n R|v n u R]; [now left|right; eauto|right; eauto]. Qed.

Theorem content_type_dropped c cr junk junk2 me msg aad payload want dc ad gv log w :
  length (v_tags me) = 4%nat -> holds aad ad -> detached_arg dc payload gv ->
  verify_internal c cr junk me msg aad payload want dc = (log, Ret w) -> w_err w = T_SUCCESS ->
  exists w2, verify_internal (drop_content_type c) cr junk2 me msg aad payload want dc = (log, Ret w2) /\
    w_err w2 = T_SUCCESS /\ w_payload w2 = w_payload w /\
    w_params w2 = match w_params w with Some p => Some (no_content_type p) | None => None end.
Proof.
  intros Hv HA HG H Hw.
  destruct (verify_inv _ _ _ _ _ _ _ _ _ _ _ _ _ Hv HA HG H Hw) as (g & pm & m & me1 & pl & Hm & Hd & HP & HH & Ac & De & Co).
  destruct (accepted_transfer c (drop_content_type c) cr junk junk2 me msg msg aad payload payload want want dc dc ad gv gv log w g pm (m_params m) pl g
    (no_content_type (m_params m))) as (w2 & E & D1 & D2 & D3); auto.
  - destruct Ac as [A1 A2 A3 A4 A6 A7 A8]. constructor; auto. destruct A2 as [R1 R2 R3 R4 R5 R6]. constructor; auto.
    cbn [dis_content_type drop_content_type no_content_type p_ct_tstr p_ct_uint]. destruct (dis_content_type c).
    + destruct R6 as (X & Y & _). auto.
    + destruct R6 as (y & X & Y). apply ct_step_short in X, Y. auto.
  - exists w2. destruct De as (_ & De1 & De2). rewrite D2, D3, De1, De2. destruct want; auto.
Qed.

(** ** More unprotected parameters *)

Lemma values_unknown z m : In z [1; 2; 3; 4; 5; 6]%Z -> Forall (fun kv => understood (fst kv) = false) m -> values z m = [].
Proof.
  intros I. induction 1 as [|kv m H _ IH]; [reflexivity|]. unfold values in *. cbn [filter].
  assert (E : has_int z (fst kv) = false).
  { destruct (has_int z (fst kv)) eqn:E; [|reflexivity]. rewrite <- H. symmetry. unfold understood. apply existsb_exists. eauto. }
  now rewrite E.
Qed.

Theorem unprotected_extra c cr junk me msg msg2 aad payload want dc ad gv g pm g2 before extra after log w :
  length (v_tags me) = 4%nat -> holds aad ad -> detached_arg dc payload gv ->
  message msg g pm -> message msg2 g2 pm -> other_unprotected g g2 ->
  g_unprot g = before ++ after -> g_unprot g2 = before ++ extra ++ after ->
  Forall (fun kv => understood (fst kv) = false) extra ->
  labels_ok (all_params g2 pm) -> nothing_critical (v_flags me) pm extra ->
  verify_internal c cr junk me msg aad payload want dc = (log, Ret w) -> w_err w = T_SUCCESS ->
  exists w2, verify_internal c cr junk me msg2 aad payload want dc = (log, Ret w2) /\
    w_err w2 = T_SUCCESS /\ w_payload w2 = w_payload w /\ w_params w2 = w_params w.
Proof.
  intros Hv HA HG Hm Hm2 O U U2 F L NC H Hw.
  destruct (verify_inv _ _ _ _ _ _ _ _ _ _ _ _ _ Hv HA HG H Hw) as (g' & pm' & m & me1 & pl & Hm' & Hd & HP & HH & Ac & De & Co).
  destruct (message_unique _ _ _ _ _ Hm Hm') as [<- <-]. clear Hm'.
  destruct Ac as [A1 A2 A3 (ci & ct & A4 & A5) A6 A7 A8].
  apply (unprotected_change c cr junk me msg msg2 aad payload want dc ad gv g pm g2 log w); auto.
  - intros z I. rewrite U, U2, !values_app, (values_unknown z extra I F). reflexivity.
  - intros ci' ct' C. destruct (crit_from_det _ _ _ _ _ A4 C) as [<- <-].
    unfold all_params in *. rewrite U in A5. rewrite U2. destruct A5 as [A5|[X Y]]; [now left|].
    destruct (NC ci ct A4) as [N|[X2 Y2]]; [now left|]. right.
    unfold int_labels, text_labels in *. setoid_rewrite flat_map_app in X. setoid_rewrite flat_map_app in X.
    setoid_rewrite flat_map_app in Y. setoid_rewrite flat_map_app in Y. rewrite !flat_map_app. split.
    + intros z I J. specialize (X z I). specialize (X2 z I). rewrite !in_app_iff in *. tauto.
    + intros s I J. specialize (Y s I). specialize (Y2 s I). rewrite !in_app_iff in *. tauto.
Qed.
