(** Verification of messages that differ in unprotected parameters only. *)
From Verif Require Import Base Const QEnc QDec Crypto Util ShortCircuit Params Verify Spec SignSpec OpenSSL Psa TestCrypto.
From Verif Require Import BaseFacts UtilFacts SignFacts SignProofs SignMore SignMore3.
From Verif Require Import DecSpec DecFacts DecSkip DecCtx ParamFacts DecSim VerifyDec BucketFacts LabelFacts VerifySafe VerifyFacts VerifyCheck Unique VerifyTop VerifyMore MessageSpec MessageFacts UnauthSpec VerifySpec.
From Coq Require Import Lia.
Open Scope N_scope. Open Scope list_scope.
Local Strategy 100 [create_tbs create_tbs_hash verify_decode].

(** [VerifyMore2.verify_core_eq] with the payload named. *)
Lemma core_eq c cr junk me msg aad payload want dc gv g pm p pl :
  length (v_tags me) = 4%nat -> detached_arg dc payload gv -> message msg g pm ->
  acceptable c (v_flags me) dc gv g pm p pl ->
  exists pay, handed dc payload pl = Some pay /\
    verify_internal c cr junk me msg aad payload want dc =
    mbind (check_core c cr (v_set_tags me (pad4 (returned (g_tags g)))) p (g_sig g) (UBuf (g_prot g)) aad pay)
      (fun '(err, me') =>
         mret (if terr_eqb err T_SUCCESS
               then {| w_err := err; w_ctx := me';
                       w_payload := match payload with Some _ => if dc then None else Some (UBuf pl) | None => None end;
                       w_params := if want then Some p else None |}
               else {| w_err := err; w_ctx := me'; w_payload := None; w_params := None |})).
Proof.
  intros Hv HG Hm [A1 A2 A3 (ci & ct & A4 & A5) A6 A7 A8].
  set (me1 := v_set_tags me (pad4 (returned (g_tags g)))).
  assert (M : exists m, decodes c me payload dc g pm m me1 /\ m_params m = p /\ handed dc payload pl = Some (m_payload m) /\ m_crit m = ll_of ci ct /\
               (dc = false -> m_payload m = UBuf pl)).
  { unfold payload_is in A7. destruct dc.
    - destruct (HG eq_refl) as (u & -> & Hu). destruct A7 as (P1 & P2 & ->).
      exists {| m_params := p; m_prot := UBuf (g_prot g); m_payload := u; m_sig := g_sig g; m_crit := ll_of ci ct;
                m_unknown := ll_of (nonzero (int_labels (all_params g pm))) (text_labels (all_params g pm)) |}.
      split; [|split; [reflexivity|split; [reflexivity|split; [reflexivity|discriminate]]]].
      constructor; auto. split; [exact A3|]. exists ci, ct. auto.
    - exists {| m_params := p; m_prot := UBuf (g_prot g); m_payload := UBuf pl; m_sig := g_sig g; m_crit := ll_of ci ct;
                m_unknown := ll_of (nonzero (int_labels (all_params g pm))) (text_labels (all_params g pm)) |}.
      split; [|split; [reflexivity|split; [reflexivity|split; [reflexivity|auto]]]].
      constructor; auto; [|eauto]. split; [exact A3|]. exists ci, ct. auto. }
  destruct M as (m & Hd & Ep & HH & Ec & HU).
  assert (D : verify_decode c junk me msg payload dc = Ret (DOk m, me1)) by (apply decode_iff; [exact Hv|eauto]).
  assert (CE := check_eq c cr me1 g pm m aad ci ct (dc_params _ _ _ _ _ _ _ _ Hd) A4 Ec A6 (dc_unknown _ _ _ _ _ _ _ _ Hd)).
  rewrite (dc_prot _ _ _ _ _ _ _ _ Hd), (dc_sig _ _ _ _ _ _ _ _ Hd), Ep in CE. change (v_flags me1) with (v_flags me) in CE.
  assert (K : requires_kid (v_flags me) && u_is_null (p_kid p) = false).
  { destruct (requires_kid (v_flags me)) eqn:K; [|reflexivity]. specialize (A8 K).
    destruct (u_is_null (p_kid p)) eqn:N; [|reflexivity]. exfalso. apply A8. now apply (kid_null_iff _ _ _ _ A2). }
  assert (C : negb (allows_unknown_crit (v_flags me)) && crit_hit ci ct (all_params g pm) = false).
  { destruct A5 as [->|A5]; [reflexivity|]. apply crit_hit_iff in A5. rewrite A5. apply andb_false_r. }
  rewrite K, C in CE.
  exists (m_payload m). split; [exact HH|].
  unfold verify_internal. rewrite D. unfold mlift. cbn [mbind app]. rewrite CE, Ep.
  destruct (check_core c cr me1 p (g_sig g) (UBuf (g_prot g)) aad (m_payload m)) as [l [[err me2]|w]]; cbn [mbind]; [|reflexivity].
  destruct (terr_eqb err T_SUCCESS); unfold mret; [|reflexivity]. do 3 f_equal.
  destruct payload; [|reflexivity]. destruct dc; [reflexivity|]. now rewrite HU.
Qed.

Lemma same_calls_refl l : same_calls l l.
Proof. induction l; constructor; auto. left. reflexivity. Qed.
Lemma same_calls_app l l' m m' : same_calls l l' -> same_calls m m' -> same_calls (l ++ m) (l' ++ m').
Proof. apply Forall2_app. Qed.

(** Outside of short-circuit signatures the key id is for the adapter only. *)
Lemma core_kid c cr me p p2 sig prot aad pay : ignores_kid cr -> p_alg p2 = p_alg p ->
  short_circuit_kid c p = false -> short_circuit_kid c p2 = false ->
  same_calls (fst (check_core c cr me p sig prot aad pay)) (fst (check_core c cr me p2 sig prot aad pay)) /\
  snd (check_core c cr me p2 sig prot aad pay) = snd (check_core c cr me p sig prot aad pay).
Proof.
  intros (K1 & K2) A S S2. unfold check_core. rewrite S, S2. unfold uses_eddsa. rewrite A.
  destruct (negb (dis_eddsa c) && (p_alg p =? -8)%Z).
  - unfold sign1_verify_eddsa. destruct (create_tbs prot aad pay (v_aux me)) as [err tbs].
    destruct (negb (terr_eqb _ T_SUCCESS)); [split; [apply same_calls_refl|reflexivity]|].
    destruct tbs as [tbs|]; [|split; [apply same_calls_refl|reflexivity]].
    destruct (has_flag _ _); [split; [apply same_calls_refl|reflexivity]|].
    destruct (wb_null _); [split; [apply same_calls_refl|reflexivity]|].
    unfold mlog. rewrite (K2 _ (p_kid p2) (p_kid p)).
    destruct (cr_verify_eddsa cr _ (p_kid p) (u_data tbs) sig); cbn [mbind mret fst snd app]; (split; [|reflexivity]);
      (constructor; [right; right; eauto 8|constructor]).
  - unfold sign1_verify_default. rewrite A. destruct (has_flag _ _); [split; [apply same_calls_refl|reflexivity]|].
    destruct (create_tbs_hash c cr (p_alg p) prot aad pay (max_hash_size c)) as [l [[err hash]|w]]; cbn [mbind];
      [|split; [apply same_calls_refl|reflexivity]].
    destruct (negb (terr_eqb err T_SUCCESS)); [split; [apply same_calls_refl|reflexivity]|].
    unfold mlog. rewrite (K1 _ _ (p_kid p2) (p_kid p)).
    destruct (cr_verify cr _ _ (p_kid p) hash sig); cbn [mbind mret fst snd app];
      (split; [|reflexivity]); rewrite <- ?app_assoc; (apply same_calls_app; [apply same_calls_refl|]); cbn [app];
      (constructor; [right; left; eauto 8|constructor]).
Qed.

Theorem unprotected_irrelevant c cr junk junk2 me msg msg2 aad payload want dc gv g pm p pl g2 p2 pl2 :
  ignores_kid cr -> length (v_tags me) = 4%nat -> detached_arg dc payload gv ->
  message msg g pm -> acceptable c (v_flags me) dc gv g pm p pl -> short_circuit_kid c p = false ->
  message msg2 g2 pm -> acceptable c (v_flags me) dc gv g2 pm p2 pl2 -> short_circuit_kid c p2 = false ->
  other_unprotected g g2 ->
  same_outcome (verify_internal c cr junk me msg aad payload want dc) (verify_internal c cr junk2 me msg2 aad payload want dc).
Proof.
  intros IK Hv HG Hm Ac S Hm2 Ac2 S2 (T & P & Y & G).
  assert (pl2 = pl) as ->.
  { pose proof (ac_payload _ _ _ _ _ _ _ _ Ac) as X. pose proof (ac_payload _ _ _ _ _ _ _ _ Ac2) as X2.
    unfold payload_is in *. rewrite Y in X2. exact (payload_det _ _ _ _ _ X2 X). }
  assert (A : p_alg p2 = p_alg p).
  { destruct Ac as [_ [_ A _ _ _ _] _ _ _ _ _], Ac2 as [_ [_ A2 _ _ _ _] _ _ _ _ _]. exact (alg_from_det _ _ _ A2 A). }
  destruct (core_eq c cr junk me msg aad payload want dc gv g pm p pl Hv HG Hm Ac) as (pay & E & ->).
  destruct (core_eq c cr junk2 me msg2 aad payload want dc gv g2 pm p2 pl Hv HG Hm2 Ac2) as (pay2 & E2 & ->).
  assert (pay2 = pay) as -> by congruence. rewrite T, P, G.
  destruct (core_kid c cr (v_set_tags me (pad4 (returned (g_tags g)))) p p2 (g_sig g) (UBuf (g_prot g)) aad pay IK A S S2) as [X1 X2].
  destruct (check_core c cr _ p _ _ _ _) as [l [[err me1]|u]], (check_core c cr _ p2 _ _ _ _) as [l2 [[err2 me2]|u2]];
    cbn [fst snd] in *; try discriminate X2.
  - injection X2 as -> ->. cbn [mbind]. destruct (terr_eqb err T_SUCCESS); unfold mret; rewrite !app_nil_r; (split; [exact X1|]);
      cbn [snd w_err w_ctx w_payload]; auto.
  - injection X2 as ->. cbn [mbind]. split; [exact X1|reflexivity].
Qed.

Lemma openssl_ignores_kid c lib : ignores_kid (openssl c lib).
Proof. split; reflexivity. Qed.
Lemma psa_ignores_kid c lib : ignores_kid (psa_crypto c lib).
Proof. split; reflexivity. Qed.
Lemma test_ignores_kid wraps junk c : ignores_kid (test_crypto wraps junk c).
Proof. split; reflexivity. Qed.

(** ** The key id alone *)

Lemma kid_label k : has_int 4 k = true -> understood k = true /\ odd_label k = false /\ (forall s, body k <> CText s).
Proof.
  unfold has_int, understood, odd_label, existsb, has_int, int_value. intro H.
  destruct (body k); try discriminate H; (destruct (_ <? _); [|discriminate H]); apply Z.eqb_eq in H; rewrite <- H; repeat split; discriminate.
Qed.

Lemma without_kid_app a b : without_kid (a ++ b) = without_kid a ++ without_kid b.
Proof. apply filter_app. Qed.

Lemma has_int_fun y z k : has_int y k = true -> has_int z k = true -> y = z.
Proof. unfold has_int. destruct (int_value k); [|discriminate]. intros A B. apply Z.eqb_eq in A, B. congruence. Qed.

Lemma values_without z m : z <> 4%Z -> values z (without_kid m) = values z m.
Proof.
  intro Z4. unfold values, without_kid. induction m as [|[k v] m IH]; [reflexivity|]. cbn [filter fst].
  destruct (has_int 4 k) eqn:E; cbn [negb filter fst].
  - destruct (has_int z k) eqn:F; [destruct (Z4 (has_int_fun _ _ _ F E))|exact IH].
  - destruct (has_int z k); cbn [map]; now rewrite IH.
Qed.

Lemma int_labels_without m : int_labels (without_kid m) = int_labels m.
Proof.
  unfold int_labels, without_kid. induction m as [|[k v] m IH]; [reflexivity|]. cbn [filter fst flat_map].
  destruct (has_int 4 k) eqn:E; cbn [negb flat_map fst]; rewrite IH; [|reflexivity].
  destruct (kid_label _ E) as [-> _]. reflexivity.
Qed.

Lemma text_labels_without m : text_labels (without_kid m) = text_labels m.
Proof.
  unfold text_labels, without_kid. induction m as [|[k v] m IH]; [reflexivity|]. cbn [filter fst flat_map].
  destruct (has_int 4 k) eqn:E; cbn [negb flat_map fst]; rewrite IH; [|reflexivity].
  destruct (kid_label _ E) as (_ & _ & N). destruct (body k); try reflexivity. destruct (N _ eq_refl).
Qed.

Lemma labels_without m : labels_ok (without_kid m) <-> labels_ok m.
Proof.
  unfold labels_ok. rewrite int_labels_without, text_labels_without.
  assert (F : Forall (fun kv : cbor * cbor => understood (fst kv) = false -> odd_label (fst kv) = false) (without_kid m) <->
              Forall (fun kv : cbor * cbor => understood (fst kv) = false -> odd_label (fst kv) = false) m); [|now rewrite F].
  rewrite !Forall_forall. split; intros H x I; [|apply H; apply filter_In in I; tauto].
  destruct (has_int 4 (fst x)) eqn:E; [intros _; now destruct (kid_label _ E) as (_ & ? & _)|].
  apply H. apply filter_In. now rewrite E.
Qed.

Lemma acceptable_kid c flags dc gv g g2 pm p pl u : requires_kid flags = false ->
  other_unprotected g g2 -> without_kid (g_unprot g2) = without_kid (g_unprot g) ->
  bytes_from (values 4 (all_params g2 pm)) u ->
  acceptable c flags dc gv g pm p pl -> acceptable c flags dc gv g2 pm (with_kid u p) pl.
Proof.
  intros RK (T & P & Y & G) WK K [A1 [R1 R2 R3 R4 R5 R6] A3 (ci & ct & A4 & A5) A6 A7 A8].
  assert (V : forall z, z <> 4%Z -> values z (g_unprot g2) = values z (g_unprot g)).
  { intros z Z4. now rewrite <- (values_without z (g_unprot g2)), WK, values_without. }
  assert (W : without_kid (all_params g2 pm) = without_kid (all_params g pm)).
  { unfold all_params. now rewrite !without_kid_app, WK. }
  assert (VA : forall z, z <> 4%Z -> values z (all_params g2 pm) = values z (all_params g pm)).
  { intros z Z4. now rewrite <- (values_without z (all_params g2 pm)), W, values_without. }
  constructor.
  - unfold tag_accepted, tagged in *. now rewrite T.
  - constructor; cbn [with_kid p_alg p_kid p_iv p_partial_iv p_ct_tstr p_ct_uint]; rewrite ?V, ?VA by discriminate; auto.
    unfold ct_from in *. rewrite ?V by discriminate. exact R6.
  - now rewrite V.
  - exists ci, ct. split; [exact A4|]. unfold crit_ok in *.
    now rewrite <- (int_labels_without (all_params g2 pm)), <- (text_labels_without (all_params g2 pm)), W, int_labels_without, text_labels_without.
  - apply labels_without. rewrite W. now apply labels_without.
  - unfold payload_is in *. now rewrite Y.
  - intro X. rewrite RK in X. discriminate X.
Qed.

Theorem kid_irrelevant c cr junk me msg msg2 aad payload dc ad gv g pm g2 u log w p :
  ignores_kid cr -> length (v_tags me) = 4%nat -> holds aad ad -> detached_arg dc payload gv ->
  requires_kid (v_flags me) = false ->
  message msg g pm -> message msg2 g2 pm -> other_unprotected g g2 -> without_kid (g_unprot g2) = without_kid (g_unprot g) ->
  bytes_from (values 4 (all_params g2 pm)) u -> u_data u <> reserved_kid ->
  verify_internal c cr junk me msg aad payload true dc = (log, Ret w) -> w_err w = T_SUCCESS ->
  w_params w = Some p -> u_data (p_kid p) <> reserved_kid ->
  exists log2 w2, verify_internal c cr junk me msg2 aad payload true dc = (log2, Ret w2) /\ same_calls log log2 /\
    w_err w2 = T_SUCCESS /\ w_ctx w2 = w_ctx w /\ w_payload w2 = w_payload w /\ w_params w2 = Some (with_kid u p).
Proof.
  intros IK Hv HA HG RK Hm Hm2 OU WK BK NK H Hw HP NP.
  destruct (verify_sound_full _ _ _ _ _ _ _ _ _ _ _ _ _ Hv HA HG H Hw) as (g' & pm' & p' & pl & Hm' & Ac & (_ & D2 & _) & _).
  destruct (message_unique _ _ _ _ _ Hm Hm') as [<- <-]. clear Hm'. rewrite HP in D2. injection D2 as <-.
  pose proof (acceptable_kid _ _ _ _ _ _ _ _ _ _ RK OU WK BK Ac) as Ac2.
  assert (NE : forall b, b <> reserved_kid -> bytes_eqb b reserved_kid = false).
  { intros b N. destruct (bytes_eqb b reserved_kid) eqn:E; [|reflexivity]. apply bytes_eqb_eq in E. contradiction. }
  assert (S1 : short_circuit_kid c p = false) by (unfold short_circuit_kid; rewrite NE by exact NP; apply andb_false_r).
  assert (S2 : short_circuit_kid c (with_kid u p) = false) by (unfold short_circuit_kid; cbn [with_kid p_kid]; rewrite NE by exact NK; apply andb_false_r).
  pose proof (unprotected_irrelevant c cr junk junk me msg msg2 aad payload true dc gv g pm p pl g2 _ pl IK Hv HG Hm Ac S1 Hm2 Ac2 S2 OU) as (C & X).
  rewrite H in C, X. cbn [fst snd] in C, X.
  destruct (verify_internal c cr junk me msg2 aad payload true dc) as [log2 [w2|ub]] eqn:H2; [|destruct X]. cbn [snd fst] in *.
  destruct X as (X1 & X2 & X3). rewrite Hw in X1. exists log2, w2. repeat (split; [auto|]).
  destruct (verify_sound_full _ _ _ _ _ _ _ _ _ _ _ _ _ Hv HA HG H2 X1) as (g' & pm' & p' & pl' & Hm' & Ac' & (_ & D2 & _) & _).
  destruct (message_unique _ _ _ _ _ Hm2 Hm') as [<- <-]. rewrite D2. f_equal.
  exact (reported_det _ _ _ _ _ (ac_params _ _ _ _ _ _ _ _ Ac') (ac_params _ _ _ _ _ _ _ _ Ac2)).
Qed.
