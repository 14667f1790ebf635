(** Further facts about signing: size calculation, buffer sizes, options,
    history, injectivity of the signed bytes. *)
From Verif Require Import Base Const QEnc Crypto Util ShortCircuit Sign Spec SignSpec.
From Verif Require Import BaseFacts EncFacts UtilFacts SignFacts SignProofs.
From Coq Require Import Lia ZifyBool ZifyNat ZifyN.
Open Scope N_scope. Open Scope list_scope.
Local Open Scope mon_scope.
Local Strategy 100 [create_tbs create_tbs_hash].

(** ** Injectivity of the signed bytes *)

Lemma short_head_inj mt n n' x x' :
  mt < 8 -> n < 2 ^ 64 -> n' < 2 ^ 64 ->
  short_head mt n ++ x = short_head mt n' ++ x' -> n = n' /\ x = x'.
Proof.
  intros MT B B' H.
  assert (IN : forall a b, a < 32 -> b < 32 -> initial mt a = initial mt b -> a = b).
  { intros a b La Lb E. unfold initial in E. apply (f_equal Byte.to_N) in E. rewrite !to_of_N in E. lia. }
  assert (BE : forall w a b (y y' : bytes), a < 256 ^ N.of_nat w -> b < 256 ^ N.of_nat w ->
             big_endian w a ++ y = big_endian w b ++ y' -> a = b /\ y = y').
  { intros w a b y y' La Lb E.
    assert (E1 : big_endian w a = big_endian w b).
    { apply (f_equal (firstn w)) in E. rewrite !firstn_app, !big_endian_length, Nat.sub_diag in E.
      cbn [firstn] in E. rewrite !app_nil_r in E.
      rewrite !firstn_all2 in E by (rewrite big_endian_length; lia). exact E. }
    rewrite E1 in E. apply app_inv_head in E. split; [|exact E].
    apply (f_equal be_val) in E1. rewrite !be_val_big_endian in E1.
    rewrite !N.mod_small in E1 by assumption. exact E1. }
  assert (CI : forall (u v : byte) (y y' : bytes), u :: y = v :: y' -> u = v /\ y = y').
  { intros u v y y' E. now injection E as -> ->. }
  unfold short_head in H.
  destruct (N.ltb_spec n 24), (N.ltb_spec n' 24);
  [| | |destruct (N.ltb_spec n (2 ^ 8)), (N.ltb_spec n' (2 ^ 8));
     [| | |destruct (N.ltb_spec n (2 ^ 16)), (N.ltb_spec n' (2 ^ 16));
       [| | |destruct (N.ltb_spec n (2 ^ 32)), (N.ltb_spec n' (2 ^ 32))]]];
  repeat match goal with
  | H : context [if ?b then _ else _] |- _ => destruct b eqn:?
  end;
  cbn [app] in H; apply CI in H as [HI HR];
  try (apply IN in HI; [|lia|lia]; lia);
  try (apply BE in HR; [exact HR|cbn; lia|cbn; lia]).
  apply IN in HI; [|lia|lia]. auto.
Qed.

Lemma bstr_inj b b' x x' :
  blen b < 2 ^ 64 -> blen b' < 2 ^ 64 ->
  encode (CBytes b) ++ x = encode (CBytes b') ++ x' -> b = b' /\ x = x'.
Proof.
  intros L L' H. cbn [encode] in H. rewrite <- !app_assoc in H.
  apply short_head_inj in H as [HL HR]; auto; [|lia].
  assert (E : b = b').
  { apply (f_equal (firstn (N.to_nat (blen b)))) in HR. rewrite firstn_blen, HL, firstn_blen in HR. exact HR. }
  subst b'. apply app_inv_head in HR. auto.
Qed.

Theorem sig_structure_inj p a m p' a' m' :
  blen p < 2 ^ 64 -> blen a < 2 ^ 64 -> blen m < 2 ^ 64 ->
  blen p' < 2 ^ 64 -> blen a' < 2 ^ 64 -> blen m' < 2 ^ 64 ->
  sig_structure p a m = sig_structure p' a' m' -> p = p' /\ a = a' /\ m = m'.
Proof.
  intros ? ? ? ? ? ? H. rewrite !sig_structure_eq in H. 
  assert (CI : forall (u v : byte) (y y' : bytes), u :: y = v :: y' -> y = y').
  { intros u v y y' E. now injection E as -> ->. }
  apply CI, CI, app_inv_head in H.
  change (short_head 2 (blen ?b) ++ ?b) with (encode (CBytes b)) in H.
  apply bstr_inj in H as [E1 H]; auto.
  apply bstr_inj in H as [E2 H]; auto.
  rewrite <- (app_nil_r (encode (CBytes m))), <- (app_nil_r (encode (CBytes m'))) in H.
  apply bstr_inj in H as [E3 _]; auto.
Qed.

(** ** Size calculation *)

Lemma feed_update_all cr h l : snd (feed cr h l) = update_all cr h l.
Proof.
  revert h. induction l as [|u l IH]; intro h; [reflexivity|].
  cbn [feed update_all]. unfold m_hash_update, mlog. cbn [mbind].
  destruct (cr_hash_update cr h u) as [h'|w]; [|reflexivity].
  rewrite <- IH. now destruct (feed cr h' l).
Qed.

Lemma short_head_len mt n : blen (short_head mt n) <= 9.
Proof. unfold short_head. repeat destruct (_ <? _); cbn; lia. Qed.

Lemma longest_32 parts : 32 <= longest parts.
Proof. induction parts as [|b parts IH]; cbn [longest fold_right]; [lia|]. change (fold_right _ 32 parts) with (longest parts). lia. Qed.
Lemma longest_in parts b : In b parts -> blen b <= longest parts.
Proof.
  induction parts as [|x parts IH]; [contradiction|]. cbn [longest fold_right]. change (fold_right _ 32 parts) with (longest parts).
  intros [->|I]; [lia|]. apply IH in I. lia.
Qed.

Lemma hash_reliable_mono c cr parts parts' : longest parts' <= longest parts -> hash_reliable c cr parts -> hash_reliable c cr parts'.
Proof.
  intros L H halg h l S P. apply (H halg h l S). eapply Forall_impl; [|exact P]. cbn. intros u U. lia.
Qed.

(** What is fed to a hash is within bounds that hold for the caller's buffers. *)
Lemma chunks_within parts prot aad payload :
  u_len prot <= longest parts -> u_len aad <= longest parts -> u_len payload <= longest parts ->
  pieces_within parts (tbs_chunks prot aad payload).
Proof.
  intros P A Y. pose proof (longest_32 parts) as L. unfold tbs_chunks.
  repeat (apply Forall_cons; [|]); try apply Forall_nil; try assumption; rewrite ?encode_head_short; cbn [u_len];
    try (pose proof (short_head_len MT_BSTR (u_len prot)); pose proof (short_head_len MT_BSTR (u_len aad));
         pose proof (short_head_len MT_BSTR (u_len payload)); lia).
  change (blen (x84 :: x6a :: SIGNATURE1)) with 12. lia.
Qed.

(** Hashing anything succeeds if hashing something did. *)
Lemma hash_any c cr parts alg prot aad payload prot' aad' payload' ev d :
  hash_reliable c cr parts -> pieces_within parts (tbs_chunks prot' aad' payload') ->
  create_tbs_hash c cr alg prot aad payload (max_hash_size c) = (ev, Ret (T_SUCCESS, d)) ->
  exists ev' d', create_tbs_hash c cr alg prot' aad' payload' (max_hash_size c)
                 = (ev', Ret (T_SUCCESS, d')).
Proof.
  intros HR PW H. apply create_tbs_hash_log in H as (halg & h & h' & E & NI & S & _).
  rewrite create_tbs_hash_feed. cbv zeta. rewrite E.
  destruct (Z.eqb_spec halg INVALID_ALGORITHM_ID); [contradiction|].
  unfold mlog at 1. unfold mbind at 1. rewrite S. cbn [terr_eqb negb].
  destruct (HR halg h (tbs_chunks prot' aad' payload') S PW) as (h2 & d' & U & F).
  rewrite <- feed_update_all in U. destruct (feed cr h _) as [lf rf]. cbn [snd] in U. subst rf.
  unfold mbind, mlog. rewrite F. eauto.
Qed.

Lemma sign_core_size c cr parts q me prot aad payload prot' aad' payload' room log me' n w room0 :
  configured q me -> hash_reliable c cr parts -> pieces_within parts (tbs_chunks prot' aad' payload') -> sizes_agree cr q ->
  blen (src_bytes prot) = blen (src_bytes prot') ->
  blen (src_bytes aad) = blen (src_bytes aad') ->
  blen (src_bytes payload) = blen (src_bytes payload') ->
  (forall d, (exists halg data, digest_of cr halg data d) -> d <> []) \/ sc_on me = false ->
  (sc_on me && negb (dis_short_circuit c) = true ->
     exists p a m, holds prot p /\ holds aad a /\ holds payload m) ->
  sign_core c cr me prot aad payload {| wb_null := false; wb_len := room |}
    = (log, Ret (T_SUCCESS, me', n, w)) ->
  exists log2 me2,
    sign_core c cr me prot' aad' payload' {| wb_null := true; wb_len := room0 |}
    = (log2, Ret (T_SUCCESS, me2, blen w, [])).
Proof.
  intros C HR PW SA LP LA LY HD HH H. unfold sign_core in *. fold (sc_on me) in *.
  destruct C as (CA & _ & CK & _).
  destruct (sc_on me && negb (dis_short_circuit c)) eqn:SC.
  - destruct (HH eq_refl) as (p & a & m & P & A & Y).
    pose proof (sign_sc_success _ _ _ _ _ _ _ _ _ _ _ _ _ _ P A Y H) as [_ (halg & d & _ & DG & W)].
    assert (NE : d <> []).
    { destruct HD as [HD|HD]; [apply HD; eauto|]. rewrite HD in SC. discriminate. }
    unfold sign1_sign_short_circuit in *.
    apply mbind_ret_inv in H as (l1 & [err h] & l2 & H1 & H2 & _).
    destruct (terr_eqb err T_SUCCESS) eqn:E; cbn [negb] in H2.
    2:{ unfold mret in H2. injection H2 as _ H2 _ _. subst err. discriminate. }
    apply terr_eqb_eq in E. subst err.
    destruct (hash_any _ _ _ _ _ _ _ prot' aad' payload' _ _ HR PW H1) as (ev & d' & E').
    rewrite E'. cbn [mbind terr_eqb negb wb_null]. rewrite sc_size_spec.
    rewrite W, repeat_to_len by exact NE. unfold mret. rewrite app_nil_r. eauto.
  - destruct ((c_alg me =? EDDSA)%Z && negb (dis_eddsa c)) eqn:ED.
    + unfold sign1_sign_eddsa in *.
      pose proof (create_tbs_spec prot aad payload (c_aux me)) as TS. cbv zeta in TS.
      pose proof (create_tbs_spec prot' aad' payload' (c_aux me)) as TS'. cbv zeta in TS'.
      destruct (create_tbs prot aad payload (c_aux me)) as [err tbs].
      destruct (create_tbs prot' aad' payload' (c_aux me)) as [err' tbs'].
      set (T := sig_structure (src_bytes prot) _ _) in *.
      set (T' := sig_structure (src_bytes prot') _ _) in *.
      assert (LT : blen T' = blen T).
      { unfold T, T'. rewrite !sig_structure_eq, !blen_cons, !blen_app, LP, LA, LY. reflexivity. }
      rewrite LT in TS'.
      destruct (blen T <=? wb_len (c_aux me)); injection TS as -> ->; injection TS' as -> ->;
        cbn [terr_eqb negb] in *; [|discriminate].
      cbn [wb_null] in *.
      change (c_aux (sc_set_aux_size me _)) with (c_aux me) in H.
      destruct (wb_null (c_aux me)); [discriminate|].
      apply mbind_ret_inv in H as (l3 & [err s] & l4 & H3 & H4 & _).
      unfold mret in H4. injection H4 as _ ->  _ _ <-.
      unfold mlog in H3. injection H3 as _ H3. cbn [sc_set_aux_size c_key u_data] in H3.
      rewrite CK in H3. apply SA in H3.
      apply andb_prop in ED as [ED _]. apply Z.eqb_eq in ED.
      unfold m_sig_size, mlog. cbn [sc_set_aux_size c_alg c_key]. rewrite ED, CK.
      change EDDSA with (-8)%Z. rewrite H3. cbn [mbind mret app]. eauto.
    + unfold sign1_sign_default in *.
      apply mbind_ret_inv in H as (l1 & [err h] & l2 & H1 & H2 & _).
      destruct (terr_eqb err T_SUCCESS) eqn:E; cbn [negb] in H2.
      2:{ unfold mret in H2. injection H2 as _ H2 _ _. subst err. discriminate. }
      apply terr_eqb_eq in E. subst err.
      destruct (hash_any _ _ _ _ _ _ _ prot' aad' payload' _ _ HR PW H1) as (ev & d' & E').
      rewrite E'. cbn [mbind terr_eqb negb wb_null] in *.
      apply mbind_ret_inv in H2 as (l3 & [err s] & l4 & H3 & H4 & _).
      unfold mret in H4. injection H4 as _ ->  _ _ <-.
      unfold mlog in H3. injection H3 as _ H3.
      rewrite CA, CK in H3. apply SA in H3.
      unfold m_sig_size, mlog. rewrite CA, CK, H3. cbn [mbind mret app]. eauto.
Qed.

Lemma message_len c me det payload sig :
  blen (message c me det payload sig) =
  blen (unsigned c me det payload) + 1 + blen (short_head 2 (blen sig)) + blen sig.
Proof.
  unfold message. rewrite cose_sign1_eq. unfold unsigned, payload_item. cbn [encode].
  change (short_head 4 4) with [x84].
  destruct det; rewrite !blen_app, blen_cons, blen_nil; lia.
Qed.

Lemma unsigned_len c me det payload payload' :
  blen (src_bytes payload) = blen (src_bytes payload') ->
  blen (unsigned c me det payload) = blen (unsigned c me det payload').
Proof.
  intro L. unfold unsigned, payload_item. destruct det; [reflexivity|].
  cbn [encode]. rewrite !blen_app, L. reflexivity.
Qed.

Lemma short_head_pos mt k : 1 <= blen (short_head mt k).
Proof. unfold short_head. repeat destruct (_ <? _); rewrite ?blen_cons; lia. Qed.

(** A successful call with a buffer, taken apart. *)
Lemma sign_success_parts c cr q me det payload aad pl n log me' r :
  configured q me -> holds payload pl ->
  sign_aad_internal c cr me det payload aad {| wb_null := false; wb_len := n |}
    = (log, Ret (T_SUCCESS, me', r)) ->
  exists w k,
    (det = true -> u_is_null payload = false) /\
    blen (unsigned c me det payload) <= MAX_OFFSET /\
    signature_algorithm_id_is_supported c (c_alg me) = true /\
    sc_on me && dis_short_circuit c = false /\ ct_clash c me = false /\
    blen (unsigned c me det payload) < n /\
    r = Some (UBuf (message c me det payload (sigw k w))) /\
    blen (message c me det payload (sigw k w)) <= n /\
    sign_core c cr (with_prot me {| wb_null := false; wb_len := n |})
      (UBuf (protected_header (c_alg me))) aad
      (if det then payload else UBuf pl)
      {| wb_null := false; wb_len := n - blen (unsigned c me det payload) |}
    = (log, Ret (T_SUCCESS, me', k, w)).
Proof.
  intros C P H.
  pose proof (sign_success_domain _ _ _ _ _ _ _ _ _ _ H) as [D1 D2].
  rewrite (sign_eq c cr me det payload aad _ D1 D2) in H.
  cbn [wb_null wb_len] in H.
  destruct (signature_algorithm_id_is_supported c (c_alg me)) eqn:AL; cbn [negb] in H; [|discriminate].
  destruct (sc_on me && dis_short_circuit c) eqn:SC; [discriminate|].
  destruct (ct_clash c me); [discriminate|].
  destruct (N.ltb_spec n (blen (unsigned c me det payload))) as [L|L]; [discriminate|].
  apply mbind_ret_inv in H as (l1 & [[[err me2] k] w] & l2 & H1 & H2 & ->).
  destruct (terr_eqb err T_SUCCESS) eqn:E; cbn [negb] in H2.
  2:{ unfold mret in H2. injection H2 as _ H2 _ _. subst err. discriminate. }
  apply terr_eqb_eq in E. subst err.
  pose proof (message_len c me det payload (sigw k w)) as ML.
  pose proof (short_head_pos 2 (blen (sigw k w))).
  destruct (N.leb_spec (blen (message c me det payload (sigw k w))) n) as [F|F]; [|discriminate].
  unfold mret in H2. injection H2 as <- <- <-.
  exists w, k.
  unfold place, inbuf in H1. cbn [orb] in H1.
  replace (n - blen (unsigned c me det payload) =? 0) with false in H1 by lia.
  rewrite (holds_src _ _ P) in H1. rewrite app_nil_r.
  split; [exact D1|]. split; [exact D2|]. do 3 (split; [reflexivity|]). split; [lia|].
  split; [reflexivity|]. split; [exact F|]. exact H1.
Qed.

Lemma sc_nonempty_ok q me cr :
  configured q me ->
  (wants_short_circuit (q_flags q) = true -> forall halg data d, digest_of cr halg data d -> d <> []) ->
  (forall d, (exists halg data, digest_of cr halg data d) -> d <> []) \/ sc_on me = false.
Proof.
  intros C H. rewrite (sc_on_spec _ _ C).
  destruct (wants_short_circuit (q_flags q)); [left|now right].
  intros d (halg & data & D). eapply H; eauto.
Qed.

Theorem size_calculation c cr q me det payload aad payload' aad' pl ad n n0 log me' m :
  configured q me -> holds payload pl -> holds aad ad ->
  u_len payload' = blen pl -> u_len aad' = blen ad -> (det = true -> u_is_null payload' = false) ->
  hash_reliable c cr [ad; pl] -> sizes_agree cr q ->
  (wants_short_circuit (q_flags q) = true -> forall halg data d, digest_of cr halg data d -> d <> []) ->
  sign_aad_internal c cr me det payload aad {| wb_null := false; wb_len := n |}
    = (log, Ret (T_SUCCESS, me', Some (UBuf m))) ->
  blen m <= n0 ->
  exists log2 me2,
    sign_aad_internal c cr me det payload' aad' {| wb_null := true; wb_len := n0 |}
    = (log2, Ret (T_SUCCESS, me2, Some (UNull (blen m)))).
Proof.
  intros C P A LP LA ND HR SA NE H Ln.
  destruct (sign_success_parts _ _ _ _ _ _ _ _ _ _ _ _ C P H)
    as (w & k & D1 & D2 & AL & SC & CT & L & RM & F & CORE).
  injection RM as ->.
  assert (LU : blen (unsigned c me det payload') = blen (unsigned c me det payload)).
  { symmetry. apply unsigned_len. rewrite (holds_src _ _ P), src_bytes_len. now symmetry. }
  rewrite (sign_eq c cr me det payload' aad' _ ND) by (rewrite LU; exact D2).
  rewrite AL, SC, CT, LU. cbn [negb wb_null wb_len].
  pose proof (message_len c me det payload (sigw k w)) as ML.
  replace (n0 <? blen (unsigned c me det payload)) with false by lia.
  assert (K : k = blen w).
  { apply (sign_core_success c cr q _ _ _ _ (protected_header (c_alg me)) ad pl) in CORE; auto.
    - now destruct CORE.
    - now left.
    - destruct det; [exact P|now left].
    - now apply supported_spec. }
  subst k. rewrite sigw_exact in *.
  assert (WP : forall b, configured q (with_prot me b)) by (intro; exact C).
  assert (E2 : exists l2 me2,
       sign_core c cr (with_prot me {| wb_null := false; wb_len := n |})
         (inbuf true (protected_header (c_alg me))) aad'
         (if det then payload' else inbuf true (src_bytes payload'))
         {| wb_null := true; wb_len := n0 - blen (unsigned c me det payload) |}
       = (l2, Ret (T_SUCCESS, me2, blen w, []))).
  { eapply sign_core_size; [exact (WP _)|exact HR| |exact SA| | | | | |exact CORE].
    - pose proof (longest_32 [ad; pl]). pose proof (longest_in [ad; pl] ad (or_introl eq_refl)).
      pose proof (longest_in [ad; pl] pl (or_intror (or_introl eq_refl))). pose proof (protected_header_len (c_alg me)).
      apply chunks_within; [cbn [inbuf u_len]; lia|lia|]. destruct det; [lia|]. cbn [inbuf u_len]. rewrite src_bytes_len. lia.
    - cbn [inbuf]. rewrite !src_bytes_len. reflexivity.
    - rewrite !src_bytes_len. rewrite LA. now apply holds_len.
    - rewrite !src_bytes_len. destruct det.
      + rewrite LP. now apply holds_len.
      + cbn [inbuf u_len]. now rewrite src_bytes_len, LP.
    - eapply sc_nonempty_ok; eauto.
    - intros _. exists (protected_header (c_alg me)), ad, pl.
      split; [now left|]. split; [exact A|]. destruct det; [exact P|now left]. }
  destruct E2 as (l2 & me2 & E2).
  assert (E3 : exists l3 me3,
       sign_core c cr (with_prot me {| wb_null := true; wb_len := n0 |})
         (inbuf true (protected_header (c_alg me))) aad'
         (if det then payload' else inbuf true (src_bytes payload'))
         (place true (n0 - blen (unsigned c me det payload)))
       = (l3, Ret (T_SUCCESS, me3, blen w, []))).
    { unfold place. cbn [orb].
      revert E2. unfold sign_core.
      change (c_flags (with_prot me ?b)) with (c_flags me).
      change (c_alg (with_prot me ?b)) with (c_alg me).
      generalize (inbuf true (protected_header (c_alg me))) as pp. intro pp.
      generalize (if det then payload' else inbuf true (src_bytes payload')) as py. intro py.
      destruct (has_flag _ _ && _); [|destruct ((c_alg me =? EDDSA)%Z && _)]; intro E2.
      - unfold sign1_sign_short_circuit in *. change (c_alg (with_prot me ?b)) with (c_alg me) in *.
        cbn [wb_null] in *.
        destruct (create_tbs_hash _ _ _ _ _ _ _) as [l5 [[err h]|]]; cbn [mbind] in *; [|discriminate].
        destruct (terr_eqb err T_SUCCESS) eqn:Er; cbn [negb] in *.
        + rewrite sc_size_spec in *. unfold mret in *. injection E2 as _ _ ->. eauto.
        + unfold mret in E2. injection E2 as _ -> _ _. discriminate.
      - unfold sign1_sign_eddsa in *. cbn [wb_null] in *.
        change (c_aux (with_prot me ?b)) with (c_aux me) in *.
        destruct (create_tbs pp aad' py (c_aux me)) as [err tbs].
        destruct (terr_eqb (if terr_eqb err ERR_TOO_SMALL then _ else _) T_SUCCESS) eqn:ER0; cbn [negb] in *;
          [|unfold mret in *; injection E2 as _ ER _ _; rewrite ER in ER0; discriminate].
        destruct tbs; [|discriminate].
        change (c_alg (sc_set_aux_size (with_prot me ?b) ?x)) with (c_alg me) in *.
        change (c_key (sc_set_aux_size (with_prot me ?b) ?x)) with (c_key me) in *.
        unfold m_sig_size, mlog in *. cbn [mbind] in *. destruct (cr_sig_size _ _ _) as [er k].
        unfold mret in *. injection E2 as _ -> _ ->. eauto.
      - unfold sign1_sign_default in *. change (c_alg (with_prot me ?b)) with (c_alg me) in *.
        cbn [wb_null] in *.
        destruct (create_tbs_hash _ _ _ _ _ _ _) as [l5 [[err h]|]]; cbn [mbind] in *; [|discriminate].
        destruct (terr_eqb err T_SUCCESS) eqn:Er; cbn [negb] in *.
        + change (c_key (with_prot me ?b)) with (c_key me) in *.
          unfold m_sig_size, mlog in *. cbn [mbind] in *. destruct (cr_sig_size _ _ _) as [er k].
          unfold mret in *. cbn [app] in *. injection E2 as _ -> _ ->. eauto.
        + unfold mret in E2. injection E2 as _ -> _ _. discriminate. }
    destruct E3 as (l3 & me3 & E3). rewrite E3. cbn [mbind terr_eqb negb].
    assert (LM : blen (message c me det payload' (sigw (blen w) [])) = blen (message c me det payload w)).
    { rewrite !message_len, sigw_len, LU. reflexivity. }
    rewrite LM. replace (blen (message c me det payload w) <=? n0) with true by lia.
    unfold mret, inbuf. rewrite LM, app_nil_r. eauto.
Qed.
