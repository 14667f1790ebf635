(** The example programs. *)
From Verif Require Import Base Const QEnc QDec Crypto Util ShortCircuit Sign Params Verify Spec SignSpec PieceSpec Examples.
From Verif Require Import BaseFacts EncFacts UtilFacts SignFacts SignProofs SignMore SignMore2 SignMore3 SignSafe Piece SignErrorSpec SignErrorFacts ApiSpec ApiFacts.
From Verif Require Import LiveSpec LiveFacts VerifyTop VerifyMore2 RoundTrip VerifySpec ExampleSpec.
From Coq Require Import Lia ZifyBool ZifyNat ZifyN.
Open Scope N_scope. Open Scope list_scope.
Local Open Scope mon_scope.
Local Strategy 100 [create_tbs create_tbs_hash verify_decode].

Definition signer (alg : Z) (key : tkey) : sctx := set_signing_key (sign_init 0 alg) key NULL_UBUF.
Lemma signer_configured alg key : configured (example_request alg key) (signer alg key).
Proof. repeat split. right. split; reflexivity. Qed.

Lemma example_faultless c alg key : enabled c alg -> faultless c (example_request alg key).
Proof.
  intro E. split; [exact E|]. split; [intros [X _]; discriminate|]. split; [|intros [X _]; discriminate].
  intros (_ & _ & X). now apply X.
Qed.

(** ** Building the payload *)

Lemma build_map f cap : map_fits 15 f -> blen (tree_bytes (BMap f)) <= MAX_OFFSET ->
  enc_finish (eops_run (enc_init {| wb_null := false; wb_len := cap |}) (tree_ops (BMap f)))
  = if blen (tree_bytes (BMap f)) <=? cap then (QE_SUCCESS, Some (UBuf (tree_bytes (BMap f)))) else (QE_BUFFER_TOO_SMALL, None).
Proof.
  intros (BC & F & D) B. pose proof (R_init {| wb_null := false; wb_len := cap |}) as H. cbn [wb_null wb_len] in H.
  cbn [tree_ops tree_bytes tree_depth] in *. change (OpOpenMap :: ?a ++ ?b) with ([OpOpenMap] ++ a ++ b).
  rewrite !eops_run_app. rewrite blen_app in B.
  set (e1 := eops_run _ [OpOpenMap]).
  assert (H1 : R false cap e1 [] 1 [{| n_type := NMap; n_start := 0; n_count := 0 |}]).
  { apply (R_open_top _ _ _ [] 0 NMap H); unfold MAX_ITEMS, MAX_OFFSET; cbn; lia. }
  apply (proj2 (R_build false cap) f) in H1; [|exact BC|cbn [length]; unfold MAX_NESTING; lia|exact F|
                        rewrite blen_app; unfold MAX_OFFSET in *; change (blen (@nil byte)) with 0; lia].
  apply (R_close_map false cap _ [] (forest_bytes f)) in H1; [|reflexivity|reflexivity].
  cbn [incn n_count app] in H1. rewrite N.add_0_l in H1.
  change (eops_run (eops_run e1 (forest_ops f)) [OpCloseMap]) with (enc_close_map (eops_run e1 (forest_ops f))).
  unfold enc_finish, enc_error. rewrite (R_oerr _ _ _ _ _ _ H1).
  destruct (N.leb_spec (blen (short_head 5 (bcount f / 2) ++ forest_bytes f)) cap) as [L|L].
  - rewrite (R_fits _ _ _ _ _ _ H1 L). replace (cap <? _) with false by lia.
    cbn [mk e_err e_nest]. unfold enc_out, e_pos. cbn [mk e_oerr e_null e_data]. reflexivity.
  - replace (cap <? _) with true by lia. reflexivity.
Qed.

(** ** Verifying what was signed *)

Lemma example_shown c cr junk q me vme alg key pl n log me' m :
  configured q me -> q_alg q = alg -> q_flags q = 0 -> q_key q = key -> q_kid q = [] ->
  n < 2 ^ 64 -> sign c cr me (UBuf pl) {| wb_null := false; wb_len := n |} = (log, Ret (T_SUCCESS, me', Some (UBuf m))) ->
  length (v_tags vme) = 4%nat -> v_flags vme = 0 -> v_key vme = key ->
  keys_match cr alg key key -> one_digest cr -> hash_reliable c cr [[]; pl] ->
  (alg = (-8)%Z -> wb_null (v_aux vme) = false /\ blen (requested_tbs q [] pl) <= wb_len (v_aux vme)) ->
  shows pl (verify_and_show c cr junk vme (Some (UBuf m))).
Proof.
  intros C A F K I L S T VF VK KM OD HR AX.
  destruct (round_trip c cr q me false (UBuf pl) NULL_UBUF pl [] n log me' m vme junk NULL_UBUF (Some junk) false C (or_introl eq_refl)
    (or_intror (conj eq_refl eq_refl)) L S T (or_intror (conj eq_refl eq_refl))) as (log' & w & V & D1 & _ & D3).
  - discriminate.
  - rewrite VF. split; [discriminate|split; discriminate].
  - intros _. now rewrite A, K, VK.
  - exact OD.
  - exact HR.
  - rewrite F. left. rewrite I. discriminate.
  - intros _ E8. apply AX. congruence.
  - exists (log' ++ []). unfold verify_and_show. cbn [the_bytes mlift mbind]. unfold verify. unfold mlift. cbn [mbind].
    rewrite V. cbn [mbind app mret]. rewrite D1. cbn [terr_eqb]. rewrite D3. reflexivity.
Qed.

Lemma shows_after {A} (x : M A) log a pl f : x = (log, Ret a) -> shows pl (f a) -> shows pl (mbind x f).
Proof. intros -> (l & E). unfold shows. cbn [mbind]. rewrite E. eexists. reflexivity. Qed.

Lemma unsigned_small c alg key pl : blen (requested_message c (example_request alg key) (Some pl) []) <= MAX_OFFSET ->
  blen (unsigned c (signer alg key) false (UBuf pl)) <= MAX_OFFSET.
Proof.
  intro B. pose proof (empty_message_len c (example_request alg key) (signer alg key) false (UBuf pl) pl (signer_configured _ _) (or_introl eq_refl)) as U.
  cbn iota in U. lia.
Qed.

Lemma payload_small c alg key pl : blen (requested_message c (example_request alg key) (Some pl) []) <= MAX_OFFSET -> blen pl <= MAX_OFFSET.
Proof.
  intro B. apply unsigned_small in B. unfold unsigned in B. rewrite !blen_app in B. unfold payload_item in B. cbn [src_bytes] in B.
  cbn [encode] in B. rewrite blen_app in B. clear - B. lia.
Qed.

Theorem one_step_works c cr junk alg key f payload_size size n :
  map_fits 15 f -> let pl := tree_bytes (BMap f) in blen pl <= payload_size ->
  all_works c cr alg key pl n -> alg <> (-8)%Z -> example_size c alg key pl n <= size -> size < 2 ^ 64 ->
  blen (requested_message c (example_request alg key) (Some pl) []) <= MAX_OFFSET ->
  shows pl (one_step_sign c cr junk alg (T_SUCCESS, key) (tree_ops (BMap f)) payload_size size).
Proof.
  intros MF pl PS (EN & SW & KM & OD & HR) N8 SZ S64 B.
  pose proof (payload_small _ _ _ _ B) as BP.
  unfold one_step_sign. rewrite (build_map f payload_size MF BP). fold pl. replace (_ <=? _) with true by lia. cbn [terr_eqb negb].
  destruct (signing_succeeds c cr (example_request alg key) (signer alg key) false (UBuf pl) NULL_UBUF pl [] n size (signer_configured _ _)
    (or_introl eq_refl) (or_intror (conj eq_refl eq_refl))) as (log & me' & sig & E & _); auto.
  - now apply example_faultless.
  - intros [_ X]. contradiction.
  - eapply shows_after; [exact E|]. cbn [terr_eqb negb].
    apply (example_shown c cr junk (example_request alg key) (signer alg key) _ alg key pl size log me'); auto.
    + apply signer_configured.
    + intro. contradiction.
Qed.

(** Piecewise signing of a map, seen from the example. *)
Lemma two_step_eq c cr junk alg key ops size :
  two_step_sign c cr junk alg (T_SUCCESS, key) ops size
  = let! (err, me, e) := piecewise_on c cr (signer alg key) NULL_UBUF ops (enc_init {| wb_null := false; wb_len := size |}) in
    if negb (terr_eqb err T_SUCCESS) then stop err
    else match enc_finish e with
         | (QE_SUCCESS, signed_cose) => verify_and_show c cr junk (set_verification_key (verify_init 0) key) signed_cose
         | _ => stop err
         end.
Proof.
  unfold two_step_sign, piecewise_on. cbn [terr_eqb negb]. fold (signer alg key).
  destruct (encode_parameters c (signer alg key) _) as [[err me] e]. destruct (negb (terr_eqb err T_SUCCESS)) eqn:E; [|reflexivity].
  rewrite mbind_ret_l. cbn beta iota. now rewrite E.
Qed.

(** A run of [piecewise] that succeeds, taken apart. *)
Lemma piecewise_split c cr me aad ops buf log me' r :
  piecewise c cr me aad ops buf = (log, Ret (T_SUCCESS, me', r)) ->
  exists l1 e, piecewise_on c cr me aad ops (enc_init buf) = (l1, Ret (T_SUCCESS, me', e)) /\ enc_finish e = (QE_SUCCESS, r).
Proof.
  unfold piecewise. intro H. apply mbind_ret_inv in H as (l1 & [[err m1] e] & l2 & P & H & _).
  destruct (negb (terr_eqb err T_SUCCESS)) eqn:E.
  { unfold mret in H. injection H as _ -> _ _. discriminate. }
  destruct (enc_finish e) as [q u] eqn:EF. exists l1, e.
  destruct q; unfold mret in H; try discriminate. injection H as _ <- <-.
  assert (err = T_SUCCESS) as -> by (destruct err; discriminate || reflexivity). auto.
Qed.

Lemma map_forest f : forest_bytes (BCons (BMap f) BNil) = tree_bytes (BMap f) /\ forest_ops (BCons (BMap f) BNil) = tree_ops (BMap f).
Proof. cbn [forest_bytes forest_ops]. now rewrite !app_nil_r. Qed.

Lemma piecewise_map c cr me aad f buf :
  map_fits 13 f -> blen (unsigned c me false (UBuf (tree_bytes (BMap f)))) <= MAX_OFFSET ->
  piecewise c cr me aad (tree_ops (BMap f)) buf = sign_aad_internal c cr me false (UBuf (tree_bytes (BMap f))) aad buf.
Proof.
  intros (BC & F & D) B. destruct (map_forest f) as [<- <-]. apply piecewise_eq.
  - cbn [forest_depth]. rewrite Nat.max_0_r. exact D.
  - cbn [forest_fits tree_fits]. auto.
  - cbn. lia.
  - destruct (map_forest f) as [-> _]. exact B.
Qed.

Theorem two_step_works c cr junk alg key f size n :
  map_fits 13 f -> let pl := tree_bytes (BMap f) in
  all_works c cr alg key pl n -> alg <> (-8)%Z -> example_size c alg key pl n <= size -> size < 2 ^ 64 ->
  blen (requested_message c (example_request alg key) (Some pl) []) <= MAX_OFFSET ->
  shows pl (two_step_sign c cr junk alg (T_SUCCESS, key) (tree_ops (BMap f)) size).
Proof.
  intros MF pl (EN & SW & KM & OD & HR) N8 SZ S64 B.
  destruct (signing_succeeds c cr (example_request alg key) (signer alg key) false (UBuf pl) NULL_UBUF pl [] n size (signer_configured _ _)
    (or_introl eq_refl) (or_intror (conj eq_refl eq_refl))) as (log & me' & sig & E & _); auto.
  - now apply example_faultless.
  - intros [_ X]. contradiction.
  - pose proof E as E2. unfold pl in E2. rewrite <- (piecewise_map c cr _ _ f _ MF (unsigned_small _ _ _ _ B)) in E2.
    apply piecewise_split in E2 as (l1 & e & PO & EF).
    rewrite two_step_eq. eapply shows_after; [exact PO|]. cbn [terr_eqb negb]. rewrite EF.
    apply (example_shown c cr junk (example_request alg key) (signer alg key) _ alg key pl size log me'); auto.
    + apply signer_configured.
    + intro. contradiction.
Qed.

(** What the first verification of dynamic_buffer_example reports. *)
Lemma decode_only_ok c cr junk q sig pl :
  enabled c (q_alg q) -> q_flags q = 0 -> q_kid q = [] -> q_ct_uint q = None ->
  let m := requested_message c q (Some pl) sig in blen m < 2 ^ 64 -> blen (requested_tbs q [] pl) <= SIZE_MAX ->
  exists log w, verify c cr junk (verify_init OPT_DECODE_ONLY) m None false = (log, Ret w) /\ w_err w = T_SUCCESS /\
    (q_alg q = (-8)%Z -> verify_auxiliary_buffer_size c (w_ctx w) = blen (requested_tbs q [] pl)).
Proof.
  intros EN QF QK QC m L T. set (vme := verify_init OPT_DECODE_ONLY).
  assert (CT : match q_ct_uint q with Some n => n < 65536 | None => True end) by (rewrite QC; exact I).
  pose proof (asked_message c q (Some pl) sig EN CT L) as AM.
  assert (RK : requested_kid q = []) by (unfold requested_kid; now rewrite QF, QK).
  assert (AA : acceptable c (v_flags vme) false [] (asked c q (Some pl) sig) (asked_prot q) (asked_params c q) pl).
  { apply asked_acceptable; auto; try discriminate. }
  assert (SK : short_circuit_kid c (asked_params c q) = false).
  { unfold short_circuit_kid. cbn [asked_params p_kid]. rewrite RK. cbn. now destruct (dis_short_circuit c). }
  unfold verify. unfold m in *. destruct (uses_eddsa c (asked_params c q)) eqn:UE.
  - destruct (verify_eddsa_aux c cr junk vme (requested_message c q (Some pl) sig) NULL_UBUF None false false [] _ _ _ pl [] eq_refl
      (or_intror (conj eq_refl eq_refl)) (fun X => ltac:(discriminate X)) AM AA SK UE) as (w & log & V & R).
    cbn [asked g_prot] in R. fold (requested_tbs q [] pl) in R. change (wb_len (v_aux vme)) with SIZE_MAX in R.
    replace (_ <? _) with false in R by lia. change (decode_only (v_flags vme)) with true in R.
    destruct R as (-> & w' & -> & W1 & W2). eauto.
  - destruct (verify_complete c cr junk vme (requested_message c q (Some pl) sig) NULL_UBUF None false false [] [] _ _ _ pl eq_refl
      (or_intror (conj eq_refl eq_refl)) (fun X => ltac:(discriminate X)) AM AA) as (log & w & V & D1 & _).
    + discriminate.
    + intros _ X. congruence.
    + exists log, w. split; [exact V|]. split; [exact D1|]. intro E8. exfalso.
      unfold uses_eddsa in UE. cbn [asked_params p_alg] in UE. rewrite E8 in UE, EN. unfold enabled in EN.
      assert (dis_eddsa c = false) as X by (clear - EN; intuition discriminate). rewrite X in UE. discriminate.
Qed.

Lemma mlift_the_bytes m : mlift (the_bytes (Some (UBuf m))) = ([], Ret m).
Proof. reflexivity. Qed.

Theorem dynamic_works c cr junk malloc alg key pl n :
  (forall k size, malloc k size = true) -> all_works c cr alg key pl n ->
  example_size c alg key pl n <= SIZE_MAX -> blen (requested_tbs (example_request alg key) [] pl) <= SIZE_MAX ->
  blen (requested_message c (example_request alg key) (Some pl) []) <= MAX_OFFSET ->
  shows pl (dynamic_buffer c cr junk malloc alg (T_SUCCESS, key) pl).
Proof.
  intros MA (EN & SW & KM & OD & HR) SZ TZ B. set (q := example_request alg key).
  destruct (measuring_succeeds c cr q (signer alg key) false (UBuf pl) NULL_UBUF pl [] n SIZE_MAX (signer_configured _ _)
    eq_refl eq_refl ltac:(discriminate) (example_faultless _ _ _ EN) SW) as (l1 & me1 & E1 & C1 & Z1); auto.
  unfold dynamic_buffer. cbn [terr_eqb negb]. fold (signer alg key).
  eapply shows_after; [exact E1|]. cbn [terr_eqb negb u_len]. rewrite !MA. cbn [negb orb].
  set (aux := {| wb_null := false; wb_len := sign_auxiliary_buffer_size c me1 |}).
  set (size := message_size c q (Some pl) n).
  set (q2 := ApiSpec.then_asked q (ApiSpec.SetAux aux)).
  assert (C2 : configured q2 (sign_set_auxiliary_buffer me1 aux)).
  { destruct C1 as (A1 & A2 & A3 & A4 & A5 & A6 & A7). repeat split; assumption. }
  destruct (signing_succeeds c cr q2 (sign_set_auxiliary_buffer me1 aux) false (UBuf pl) NULL_UBUF pl [] n size C2
    (or_introl eq_refl) (or_intror (conj eq_refl eq_refl))) as (log & me' & sig & E & SL); auto.
  - now apply (example_faultless c alg key).
  - intro PE. split; [reflexivity|]. cbn [aux q2 ApiSpec.then_asked q_aux wb_len]. rewrite (Z1 PE). apply N.le_refl.
  - apply N.le_refl.
  - eapply shows_after; [exact E|]. cbn [terr_eqb negb].
    eapply shows_after; [apply mlift_the_bytes|].
    destruct (decode_only_ok c cr junk q2 sig pl EN eq_refl eq_refl eq_refl) as (l3 & w & V & W1 & W2).
    + rewrite SL. change (message_size c q2 (Some pl) n) with size. unfold example_size in SZ. fold q size in SZ. clear - SZ. unfold SIZE_MAX in SZ. lia.
    + exact TZ.
    + eapply shows_after; [exact V|]. cbn beta. rewrite W1. cbn [terr_eqb negb]. rewrite MA. cbn [negb].
      apply (example_shown c cr junk q2 (sign_set_auxiliary_buffer me1 aux) _ alg key pl size log me'); auto.
      * clear - SZ. unfold example_size in SZ. fold q size in SZ. unfold SIZE_MAX in SZ. lia.
      * intro E8. cbn [verify_set_auxiliary_buffer v_aux wb_null wb_len]. rewrite (W2 E8). split; [reflexivity|apply N.le_refl].
Qed.

(** ** What is shown is what was signed *)

Lemma shown_is_signed c cr junk q me vme pl n log me' r log' x :
  configured q me -> n < 2 ^ 64 -> sign c cr me (UBuf pl) {| wb_null := false; wb_len := n |} = (log, Ret (T_SUCCESS, me', r)) ->
  length (v_tags vme) = 4%nat ->
  verify_and_show c cr junk vme r = (log', Ret x) -> x_code x = TCose T_SUCCESS -> x_payload x = Some (UBuf pl).
Proof.
  intros C L S T H X.
  destruct (sign_success_spec c cr q me false (UBuf pl) NULL_UBUF pl [] n log me' r C (or_introl eq_refl)
    (or_intror (conj eq_refl eq_refl)) S) as (sig & room & -> & Lm & _ & _ & EN).
  unfold verify_and_show in H. rewrite mlift_the_bytes in H. apply mbind_ret_inv in H as (l1 & m & l2 & E1 & H & _).
  injection E1 as _ <-. apply mbind_ret_inv in H as (l3 & w & l4 & V & H & _). injection H as _ <-. cbn [x_code x_payload] in *.
  injection X as X.
  assert (CT : match q_ct_uint q with Some n => n < 65536 | None => True end).
  { destruct C as (_ & _ & _ & _ & U & _). destruct (q_ct_uint q); [exact (proj1 U)|exact I]. }
  assert (LM : blen (requested_message c q (Some pl) sig) < 2 ^ 64) by (clear - Lm L; lia).
  destruct (verify_sound_message c cr junk vme _ NULL_UBUF (Some junk) false false l3 w [] [] _ _ T (or_intror (conj eq_refl eq_refl))
    ltac:(discriminate) (asked_message c q (Some pl) sig EN CT LM) V X) as (p & pl' & A & (_ & _ & D) & _).
  rewrite X. cbn [terr_eqb]. rewrite D. pose proof (ac_payload _ _ _ _ _ _ _ _ A) as P. unfold payload_is in P. cbn [asked g_payload] in P. injection P as <-. reflexivity.
Qed.

Theorem one_step_shows c cr junk alg made ops payload_size size log x p :
  size < 2 ^ 64 -> one_step_sign c cr junk alg made ops payload_size size = (log, Ret x) -> x_code x = TCose T_SUCCESS ->
  enc_finish (eops_run (enc_init {| wb_null := false; wb_len := payload_size |}) ops) = (QE_SUCCESS, Some (UBuf p)) ->
  x_payload x = Some (UBuf p).
Proof.
  unfold one_step_sign. intros L H X E. rewrite E in H. destruct made as [err key].
  destruct (negb (terr_eqb err T_SUCCESS)) eqn:EE.
  { injection H as _ <-. injection X as ->. discriminate. }
  apply mbind_ret_inv in H as (l1 & [[err2 me] r] & l2 & S & H & _).
  destruct (negb (terr_eqb err2 T_SUCCESS)) eqn:EE2.
  { injection H as _ <-. injection X as ->. discriminate. }
  assert (err2 = T_SUCCESS) as -> by (destruct err2; discriminate || reflexivity).
  exact (shown_is_signed c cr junk (example_request alg key) _ (set_verification_key (verify_init 0) key) p size _ _ r _ _ (signer_configured _ _) L S eq_refl H X).
Qed.

Lemma sign_fits c cr me det payload aad buf log me' r :
  sign_aad_internal c cr me det payload aad buf = (log, Ret (T_SUCCESS, me', r)) -> exists m, r = Some (inbuf (wb_null buf) m) /\ blen m <= wb_len buf.
Proof.
  intro H. destruct (sign_success_domain _ _ _ _ _ _ _ _ _ _ H) as [D1 D2]. rewrite (sign_eq c cr me det payload aad _ D1 D2) in H.
  destruct (negb (signature_algorithm_id_is_supported c (c_alg me))); [discriminate|].
  destruct (sc_on me && dis_short_circuit c); [discriminate|]. destruct (ct_clash c me); [discriminate|].
  destruct (wb_len buf <? _); [discriminate|].
  apply mbind_ret_inv in H as (l1 & [[[err m1] n] w] & l2 & _ & H & _).
  destruct (negb (terr_eqb err T_SUCCESS)) eqn:E. { injection H as _ -> _ _. discriminate. }
  cbv zeta in H. destruct (N.leb_spec (blen (SignFacts.message c me det payload (sigw n w))) (wb_len buf)) as [L|L]; [|discriminate].
  injection H as _ _ <-. eauto.
Qed.

Lemma no_error e log x (P : Prop) : negb (terr_eqb e T_SUCCESS) = true -> stop e = (log, Ret x) -> x_code x = TCose T_SUCCESS -> P.
Proof. intros E H X. injection H as _ <-. injection X as ->. discriminate. Qed.
Lemma is_success e : negb (terr_eqb e T_SUCCESS) = false -> e = T_SUCCESS.
Proof. destruct e; discriminate || reflexivity. Qed.

Theorem dynamic_shows c cr junk malloc alg made pl log x :
  dynamic_buffer c cr junk malloc alg made pl = (log, Ret x) -> x_code x = TCose T_SUCCESS -> x_payload x = Some (UBuf pl).
Proof.
  unfold dynamic_buffer. intros H X. destruct made as [err key].
  destruct (negb (terr_eqb err T_SUCCESS)) eqn:EE; [exact (no_error _ _ _ _ EE H X)|].
  fold (signer alg key) in H. apply mbind_ret_inv in H as (l1 & [[e1 me1] r1] & l2 & S1 & H & _).
  destruct (negb (terr_eqb e1 T_SUCCESS)) eqn:E1; [exact (no_error _ _ _ _ E1 H X)|]. apply is_success in E1. subst e1.
  destruct (sign_fits _ _ _ _ _ _ _ _ _ _ S1) as (m1 & -> & L1). cbn [inbuf wb_null wb_len u_len] in *.
  destruct (_ || _); [exact (no_error _ _ _ _ (eq_refl : negb (terr_eqb ERR_INSUFFICIENT_MEMORY T_SUCCESS) = true) H X)|].
  set (aux := {| wb_null := false; wb_len := sign_auxiliary_buffer_size c me1 |}) in *.
  apply mbind_ret_inv in H as (l3 & [[e2 me2] r2] & l4 & S2 & H & _).
  destruct (negb (terr_eqb e2 T_SUCCESS)) eqn:E2; [exact (no_error _ _ _ _ E2 H X)|]. apply is_success in E2. subst e2.
  apply mbind_ret_inv in H as (l5 & m & l6 & _ & H & _). apply mbind_ret_inv in H as (l7 & w & l8 & _ & H & _).
  destruct (negb (terr_eqb (w_err w) T_SUCCESS)) eqn:E3; [exact (no_error _ _ _ _ E3 H X)|].
  destruct (negb (malloc 2%nat _)); [exact (no_error _ _ _ _ (eq_refl : negb (terr_eqb ERR_INSUFFICIENT_MEMORY T_SUCCESS) = true) H X)|].
  assert (C1 : configured (example_request alg key) me1).
  { apply (used_configured _ (signer alg key) me1); [exact (sign_used _ _ _ _ _ _ _ _ _ _ _ S1)|apply signer_configured]. }
  assert (C2 : configured (ApiSpec.then_asked (example_request alg key) (ApiSpec.SetAux aux)) (sign_set_auxiliary_buffer me1 aux)).
  { destruct C1 as (A1 & A2 & A3 & A4 & A5 & A6 & A7). repeat split; assumption. }
  refine (shown_is_signed c cr junk _ _ _ pl (blen m1) _ _ r2 _ _ C2 _ S2 _ H X); [|reflexivity].
  clear - L1. unfold SIZE_MAX in L1. lia.
Qed.

Theorem two_step_shows c cr junk alg made f size log x :
  map_fits 13 f -> let pl := tree_bytes (BMap f) in blen (requested_message c (example_request alg (snd made)) (Some pl) []) <= MAX_OFFSET ->
  size < 2 ^ 64 -> two_step_sign c cr junk alg made (tree_ops (BMap f)) size = (log, Ret x) -> x_code x = TCose T_SUCCESS ->
  x_payload x = Some (UBuf pl) \/ x_payload x = None.
Proof.
  intros MF pl B L H X. destruct made as [err key]. cbn [snd] in B.
  destruct (negb (terr_eqb err T_SUCCESS)) eqn:EE.
  { unfold two_step_sign in H. rewrite EE in H. exact (no_error _ _ _ _ EE H X). }
  apply is_success in EE. subst err. rewrite two_step_eq in H.
  apply mbind_ret_inv in H as (l1 & [[e1 me1] e] & l2 & S1 & H & _).
  destruct (negb (terr_eqb e1 T_SUCCESS)) eqn:E1; [exact (no_error _ _ _ _ E1 H X)|]. apply is_success in E1. subst e1.
  destruct (enc_finish e) as [qe r] eqn:EF.
  destruct qe; try (injection H as _ <-; right; reflexivity).
  left. assert (S : piecewise c cr (signer alg key) NULL_UBUF (tree_ops (BMap f)) {| wb_null := false; wb_len := size |} = (l1 ++ [], Ret (T_SUCCESS, me1, r))).
  { unfold piecewise. rewrite S1. cbn [mbind terr_eqb negb]. rewrite EF. reflexivity. }
  rewrite (piecewise_map c cr _ _ f _ MF (unsigned_small _ _ _ _ B)) in S.
  exact (shown_is_signed c cr junk (example_request alg key) _ (set_verification_key (verify_init 0) key) pl size _ _ r _ _ (signer_configured _ _) L S eq_refl H X).
Qed.
