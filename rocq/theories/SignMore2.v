(** Further facts about signing: buffer threshold, tag option, NULL and empty,
    history, unsupported algorithms, auxiliary buffer. *)
From Verif Require Import Base Const QEnc Crypto Util ShortCircuit Sign Spec SignSpec.
From Verif Require Import BaseFacts EncFacts UtilFacts SignFacts SignProofs SignMore.
From Coq Require Import Lia ZifyBool ZifyNat ZifyN.
Open Scope N_scope. Open Scope list_scope.
Local Open Scope mon_scope.
Local Strategy 100 [create_tbs create_tbs_hash].

(** ** Independence of left-over context fields *)

(** A NULL and an empty kid are the same kid. *)
Definition same_kid (a b : ubufc) : Prop :=
  a = b \/ (u_is_null_or_empty a = true /\ u_is_null_or_empty b = true).

Definition same_config (me me2 : sctx) : Prop :=
  c_alg me = c_alg me2 /\ c_key me = c_key me2 /\ c_flags me = c_flags me2 /\
  same_kid (c_kid me) (c_kid me2) /\ c_ct_uint me = c_ct_uint me2 /\ c_ct_tstr me = c_ct_tstr me2 /\
  c_aux me = c_aux me2.

Definition mmap {A B} (f : A -> B) (x : M A) : M B := mbind x (fun a => mret (f a)).

Lemma mmap_ret {A B} (f : A -> B) a : mmap f (mret a) = mret (f a).
Proof. reflexivity. Qed.

Lemma mmap_bind {A B C} (f : B -> C) (x : M A) (g : A -> M B) :
  mmap f (mbind x g) = mbind x (fun a => mmap f (g a)).
Proof. apply mbind_assoc. Qed.

Lemma mbind_mmap {A B C} (f : A -> B) (x : M A) (g : B -> M C) :
  mbind (mmap f x) g = mbind x (fun a => g (f a)).
Proof. unfold mmap. rewrite mbind_assoc. apply mbind_ext. intro. apply mbind_ret_l. Qed.

Definition sig_only (x : sigres) : terr * N * bytes := let '(e, _, n, w) := x in (e, n, w).

Lemma sign_core_history c cr me me2 prot aad pl buf :
  same_config me me2 ->
  mmap sig_only (sign_core c cr me prot aad pl buf) = mmap sig_only (sign_core c cr me2 prot aad pl buf).
Proof.
  intros (A & K & F & KI & U & T & X). unfold sign_core. rewrite <- A, <- F.
  destruct (has_flag _ _ && _); [|destruct ((c_alg me =? EDDSA)%Z && _)].
  - unfold sign1_sign_short_circuit. rewrite <- A, !mmap_bind. apply mbind_ext. intros [err h].
    destruct (negb _); [reflexivity|]. destruct (wb_null buf).
    + destruct (short_circuit_sig_size _). reflexivity.
    + rewrite !mmap_bind. apply mbind_ext. intros [er s]. reflexivity.
  - unfold sign1_sign_eddsa. rewrite <- X.
    destruct (create_tbs prot aad pl (c_aux me)) as [err tbs].
    destruct (negb _); [reflexivity|]. destruct tbs; [|reflexivity].
    cbn [sc_set_aux_size c_alg c_key c_aux]. rewrite <- A, <- K, <- X.
    destruct (wb_null buf); [|destruct (wb_null (c_aux me)); [reflexivity|]];
      rewrite !mmap_bind; apply mbind_ext; intros [er s]; reflexivity.
  - unfold sign1_sign_default. rewrite <- A, <- K, !mmap_bind. apply mbind_ext. intros [err h].
    destruct (negb _); [reflexivity|].
    destruct (wb_null buf); rewrite !mmap_bind; apply mbind_ext; intros [er s]; reflexivity.
Qed.

Lemma params_history c me me2 det e :
  same_config me me2 ->
  exists err me' me2' e',
    encode_parameters_internal c me det e = (err, me', e') /\
    encode_parameters_internal c me2 det e = (err, me2', e') /\
    same_config me' me2' /\ (err = T_SUCCESS -> c_prot me' = c_prot me2').
Proof.
  intros S. pose proof S as (A & K & F & KI & U & T & X).
  unfold encode_parameters_internal. rewrite <- A, <- F.
  destruct (negb (signature_algorithm_id_is_supported c (c_alg me))).
  { do 4 eexists. split; [reflexivity|]. split; [reflexivity|]. split; [exact S|]. discriminate. }
  destruct (encode_protected_parameters _ _) as [e1 p]. cbn [sc_set_prot c_flags c_kid].
  rewrite <- F.
  assert (S' : same_config (sc_set_prot me p) (sc_set_prot me2 p)) by exact S.
  destruct (has_flag (c_flags me) OPT_SHORT_CIRCUIT_SIG && dis_short_circuit c).
  { do 4 eexists. split; [reflexivity|]. split; [reflexivity|]. split; [exact S'|]. discriminate. }
  set (kid := if _ && _ then _ else _). set (kid2 := if has_flag _ _ && u_is_null_or_empty (c_kid me2) then _ else _).
  assert (SK : same_kid kid kid2).
  { unfold kid, kid2. destruct KI as [->|[Z1 Z2]]; [now left|]. rewrite Z1, Z2.
    destruct (has_flag _ _ && true); [now left|right; now split]. }
  clearbody kid kid2.
  assert (E : add_unprotected_parameters c (sc_set_prot me p) kid e1
              = add_unprotected_parameters c (sc_set_prot me2 p) kid2 e1).
  { unfold add_unprotected_parameters. cbn [sc_set_prot c_ct_uint c_ct_tstr]. rewrite U, T.
    destruct SK as [->|[Z1 Z2]]; [reflexivity|]. rewrite Z1, Z2. cbn [negb]. reflexivity. }
  rewrite <- E. clear E. destruct (add_unprotected_parameters c (sc_set_prot me p) kid e1) as [err e2].
  destruct (terr_eqb err T_SUCCESS) eqn:Er; cbn [negb];
    do 4 eexists; (split; [reflexivity|]); (split; [reflexivity|]); (split; [exact S'|]); auto.
Qed.

Definition sig_only3 (x : terr * sctx * enc) : terr * enc := let '(e, _, n) := x in (e, n).
Definition res_only (x : terr * sctx * option ubufc) : terr * option ubufc := let '(e, _, r) := x in (e, r).

Lemma signature_history c cr me me2 aad dp e :
  same_config me me2 -> c_prot me = c_prot me2 ->
  mmap sig_only3 (encode_signature_aad_internal c cr me aad dp e)
  = mmap sig_only3 (encode_signature_aad_internal c cr me2 aad dp e).
Proof.
  intros S P. unfold encode_signature_aad_internal. rewrite <- P.
  destruct (if u_is_null dp then _ else _) as [e1 sp].
  destruct (negb _); [reflexivity|].
  destruct (enc_open_bytes e1) as [e2 buf].
  change (if has_flag (c_flags me) OPT_SHORT_CIRCUIT_SIG && negb (dis_short_circuit c) then ?a
          else if (c_alg me =? EDDSA)%Z && negb (dis_eddsa c) then ?b else ?d)
    with (sign_core c cr me (resolve e1 (c_prot me)) aad sp buf).
  change (if has_flag (c_flags me2) OPT_SHORT_CIRCUIT_SIG && negb (dis_short_circuit c) then ?a
          else if (c_alg me2 =? EDDSA)%Z && negb (dis_eddsa c) then ?b else ?d)
    with (sign_core c cr me2 (resolve e1 (c_prot me)) aad sp buf).
  set (g := fun x : terr * N * bytes => let '(err, n, w) := x in
     if negb (terr_eqb err T_SUCCESS) then mret (err, e2)
     else mret (T_SUCCESS, enc_close_array (enc_close_bytes e2 n w)) : M (terr * enc)).
  assert (G : forall m, mmap sig_only3 (let! (err, me, sig_len, sig) := sign_core c cr m (resolve e1 (c_prot me)) aad sp buf in
        if negb (terr_eqb err T_SUCCESS) then mret (err, me, e2)
        else mret (T_SUCCESS, me, enc_close_array (enc_close_bytes e2 sig_len sig)))
     = mbind (mmap sig_only (sign_core c cr m (resolve e1 (c_prot me)) aad sp buf)) g).
  { intro m. rewrite mmap_bind, mbind_mmap. apply mbind_ext. intros [[[err m2] n] w].
    unfold g, sig_only. destruct (negb _); reflexivity. }
  rewrite !G. rewrite (sign_core_history _ _ _ _ _ _ _ _ S). reflexivity.
Qed.

Theorem sign_history c cr me me2 det payload aad buf :
  same_config me me2 ->
  mmap res_only (sign_aad_internal c cr me det payload aad buf)
  = mmap res_only (sign_aad_internal c cr me2 det payload aad buf).
Proof.
  intro S. unfold sign_aad_internal.
  destruct (params_history c me me2 det (enc_init buf) S) as (err & m1 & m2 & e & E1 & E2 & S' & P).
  rewrite E1, E2. destruct (terr_eqb err T_SUCCESS) eqn:Er; cbn [negb]; [|reflexivity].
  apply terr_eqb_eq in Er. specialize (P Er).
  set (e3 := if det then enc_add_null e else enc_add_encoded e payload).
  set (dp := if det then payload else NULL_UBUF).
  set (g := fun x : terr * enc => let '(err, e) := x in
     if negb (terr_eqb err T_SUCCESS) then mret (err, None)
     else let err := enc_error_to_terr (enc_error e) in
      if negb (terr_eqb err T_SUCCESS) then mret (err, None)
      else match enc_finish e with
           | (QE_SUCCESS, r) => mret (T_SUCCESS, r)
           | (_, r) => mret (ERR_CBOR_NOT_WELL_FORMED, r)
           end : M (terr * option ubufc)).
  assert (G : forall m, mmap res_only (let! (err, me, e) := encode_signature_aad_internal c cr m aad dp e3 in
       if negb (terr_eqb err T_SUCCESS) then mret (err, me, None)
       else
      let err := enc_error_to_terr (enc_error e) in
      if negb (terr_eqb err T_SUCCESS) then mret (err, me, None)
      else match enc_finish e with
           | (QE_SUCCESS, r) => mret (T_SUCCESS, me, r)
           | (_, r) => mret (ERR_CBOR_NOT_WELL_FORMED, me, r)
           end)
      = mbind (mmap sig_only3 (encode_signature_aad_internal c cr m aad dp e3)) g).
  { intro m. rewrite mmap_bind, mbind_mmap. apply mbind_ext. intros [[er m3] e4].
    unfold g, sig_only3. destruct (negb _); [reflexivity|].
    destruct (negb _); [reflexivity|]. destruct (enc_finish e4) as [[] r]; reflexivity. }
  rewrite !G, (signature_history _ _ _ _ _ _ _ S' P). reflexivity.
Qed.

(** ** Success, as an equivalence *)

Lemma sign_success_iff c cr me det payload aad pl n log m :
  holds payload pl ->
  (exists me', sign_aad_internal c cr me det payload aad {| wb_null := false; wb_len := n |}
    = (log, Ret (T_SUCCESS, me', Some (UBuf m)))) <->
  exists w k,
    (det = true -> u_is_null payload = false) /\
    blen (unsigned c me det payload) <= MAX_OFFSET /\
    signature_algorithm_id_is_supported c (c_alg me) = true /\
    sc_on me && dis_short_circuit c = false /\ ct_clash c me = false /\
    blen (unsigned c me det payload) < n /\
    m = message c me det payload (sigw k w) /\ blen m <= n /\
    mmap sig_only (sign_core c cr me (UBuf (protected_header (c_alg me))) aad
      (if det then payload else UBuf pl)
      {| wb_null := false; wb_len := n - blen (unsigned c me det payload) |})
    = (log, Ret (T_SUCCESS, k, w)).
Proof.
  intros P.
  assert (SC : forall b, same_config (with_prot me b) me) by (intro; repeat split; now left).
  split.
  - intros (me' & H).
    pose proof (sign_success_domain _ _ _ _ _ _ _ _ _ _ H) as [D1 D2].
    rewrite (sign_eq c cr me det payload aad _ D1 D2) in H.
    cbn [wb_null wb_len] in H.
    destruct (signature_algorithm_id_is_supported c (c_alg me)) eqn:AL; cbn [negb] in H; [|discriminate].
    destruct (sc_on me && dis_short_circuit c) eqn:S1; [discriminate|].
    destruct (ct_clash c me); [discriminate|].
    destruct (N.ltb_spec n (blen (unsigned c me det payload))) as [L|L]; [discriminate|].
    apply mbind_ret_inv in H as (l1 & [[[err me2] k] w] & l2 & H1 & H2 & ->).
    destruct (terr_eqb err T_SUCCESS) eqn:E; cbn [negb] in H2.
    2:{ unfold mret in H2. injection H2 as _ H2 _ _. subst err. discriminate. }
    apply terr_eqb_eq in E. subst err.
    pose proof (message_len c me det payload (sigw k w)) as ML.
    pose proof (short_head_pos 2 (blen (sigw k w))).
    destruct (N.leb_spec (blen (message c me det payload (sigw k w))) n) as [F|F]; [|discriminate].
    unfold mret in H2. injection H2 as <- _ <-.
    exists w, k. rewrite app_nil_r.
    split; [exact D1|]. split; [exact D2|]. do 3 (split; [reflexivity|]). split; [lia|].
    split; [reflexivity|]. split; [exact F|].
    rewrite <- (sign_core_history _ _ _ _ _ _ _ _ (SC {| wb_null := false; wb_len := n |})).
    unfold place, inbuf in H1. cbn [orb] in H1.
    replace (n - blen (unsigned c me det payload) =? 0) with false in H1 by lia.
    rewrite (holds_src _ _ P) in H1. rewrite H1. unfold mmap, mret. cbn [mbind]. now rewrite app_nil_r.
  - intros (w & k & D1 & D2 & AL & S1 & CT & L & -> & F & CORE).
    rewrite (sign_eq c cr me det payload aad _ D1 D2). cbn [wb_null wb_len].
    rewrite AL, S1, CT. cbn [negb].
    replace (n <? blen (unsigned c me det payload)) with false by lia.
    unfold place, inbuf. cbn [orb].
    replace (n - blen (unsigned c me det payload) =? 0) with false by lia.
    rewrite (holds_src _ _ P).
    rewrite <- (sign_core_history _ _ _ _ _ _ _ _ (SC {| wb_null := false; wb_len := n |})) in CORE.
    apply mbind_ret_inv in CORE as (l1 & [[[err me2] k'] w'] & l2 & H1 & H2 & ->).
    cbn [sig_only] in H2. unfold mret in H2. injection H2 as <- -> -> ->.
    rewrite H1. cbn [mbind terr_eqb negb].
    replace (blen (message c me det payload (sigw k w)) <=? n) with true by lia.
    unfold mret. rewrite !app_nil_r. eauto.
Qed.

(** ** Buffer threshold *)

Lemma sign_core_room c cr q me prot aad payload room room' log me' k w :
  configured q me -> room_irrelevant cr q ->
  sign_core c cr me prot aad payload {| wb_null := false; wb_len := room |}
    = (log, Ret (T_SUCCESS, me', k, w)) ->
  blen w <= room' -> ecdsa_sig_size (c_alg me) <= room' \/ sc_on me = false ->
  sign_core c cr me prot aad payload {| wb_null := false; wb_len := room' |}
    = (log, Ret (T_SUCCESS, me', k, w)).
Proof.
  intros (CA & _ & CK & _) [R1 R2] H L HS. unfold sign_core in *. fold (sc_on me) in *.
  destruct (sc_on me && negb (dis_short_circuit c)) eqn:SC.
  - destruct HS as [HS|HS]; [|rewrite HS in SC; discriminate].
    unfold sign1_sign_short_circuit in *.
    destruct (create_tbs_hash _ _ _ _ _ _ _) as [l5 [[err h]|]]; cbn [mbind] in *; [|discriminate].
    destruct (terr_eqb err T_SUCCESS); cbn [negb] in *; [|exact H]. cbn [wb_null wb_len] in *. unfold mlift in *.
    rewrite short_circuit_sign_spec in *.
    replace (room' <? ecdsa_sig_size (c_alg me)) with false by lia.
    destruct (room <? _); [cbn in H; discriminate|]. exact H.
  - destruct ((c_alg me =? EDDSA)%Z && negb (dis_eddsa c)).
    + unfold sign1_sign_eddsa in *. cbn [wb_null wb_len] in *.
      destruct (create_tbs prot aad payload (c_aux me)) as [err tbs].
      set (err' := if terr_eqb err ERR_TOO_SMALL then _ else _) in *.
      destruct (terr_eqb err' T_SUCCESS); cbn [negb] in *; [|exact H]. destruct tbs as [tbs|]; [|exact H].
      change (c_aux (sc_set_aux_size me _)) with (c_aux me) in *.
      destruct (wb_null (c_aux me)); [exact H|].
      change (c_key (sc_set_aux_size me _)) with (c_key me) in *. rewrite CK in *.
      unfold mlog in *. cbn [mbind] in *.
      destruct (cr_sign_eddsa cr (q_key q) (u_data tbs) room) as [[er s]|] eqn:E; [|discriminate].
      unfold mret in H. assert (er = T_SUCCESS /\ s = w) as [-> ->] by now injection H as _ -> _ _ ->.
      rewrite (R2 _ _ _ room' E L). exact H.
    + unfold sign1_sign_default in *. cbn [wb_null wb_len] in *. rewrite CA, CK in *.
      destruct (create_tbs_hash _ _ _ _ _ _ _) as [l5 [[err h]|]]; cbn [mbind] in *; [|discriminate].
      destruct (terr_eqb err T_SUCCESS); cbn [negb] in *; [|exact H].
      unfold mlog in *. cbn [mbind] in *.
      destruct (cr_sign cr (q_alg q) (q_key q) h room) as [[er s]|] eqn:E; [|discriminate].
      unfold mret in H. assert (er = T_SUCCESS /\ s = w) as [-> ->] by now injection H as _ -> _ _ ->.
      rewrite (R1 _ _ _ room' E L). exact H.
Qed.

Lemma signature_of_size cr q tbs room sig tbs' room' sig' :
  sizes_agree cr q ->
  (wants_short_circuit (q_flags q) = true -> forall halg data d, digest_of cr halg data d -> d <> []) ->
  signature_of cr q tbs room sig -> signature_of cr q tbs' room' sig' -> blen sig = blen sig'.
Proof.
  intros [S1 S2] NE. unfold signature_of. destruct (wants_short_circuit (q_flags q)).
  - intros (h & d & _ & D & ->) (h' & d' & _ & D' & ->).
    rewrite !repeat_to_len; eauto.
  - destruct (Z.eqb_spec (q_alg q) (-8)).
    + intros H H'. apply S2 in H. apply S2 in H'. congruence.
    + intros (h & d & _ & D & H) (h' & d' & _ & D' & H'). apply S1 in H. apply S1 in H'. congruence.
Qed.

Lemma sign_core_sc_size c cr q me prot aad payload p a m room log me' k w :
  configured q me -> holds prot p -> holds aad a -> holds payload m ->
  sc_on me && dis_short_circuit c = false -> enabled c (c_alg me) ->
  (wants_short_circuit (q_flags q) = true -> forall halg data d, digest_of cr halg data d -> d <> []) ->
  sign_core c cr me prot aad payload {| wb_null := false; wb_len := room |}
    = (log, Ret (T_SUCCESS, me', k, w)) ->
  ecdsa_sig_size (c_alg me) = blen w \/ sc_on me = false.
Proof.
  intros C P A Y SC EN NE H.
  pose proof (sign_core_success _ _ _ _ _ _ _ _ _ _ _ _ _ _ _ C P A Y SC EN H) as [_ SG].
  unfold signature_of in SG. rewrite (sc_on_spec _ _ C).
  destruct (wants_short_circuit (q_flags q)) eqn:W; [|now right]. left.
  destruct SG as (h & d & _ & D & ->). destruct C as (CA & _). rewrite CA.
  rewrite repeat_to_len; [reflexivity|]. eapply NE; eauto.
Qed.

Theorem buffer_threshold c cr q me det payload aad pl ad n log me' m :
  configured q me -> holds payload pl -> holds aad ad ->
  sizes_agree cr q -> room_irrelevant cr q ->
  (wants_short_circuit (q_flags q) = true -> forall halg data d, digest_of cr halg data d -> d <> []) ->
  sign_aad_internal c cr me det payload aad {| wb_null := false; wb_len := n |}
    = (log, Ret (T_SUCCESS, me', Some (UBuf m))) ->
  forall n',
    (blen m <= n' -> exists me2,
       sign_aad_internal c cr me det payload aad {| wb_null := false; wb_len := n' |}
       = (log, Ret (T_SUCCESS, me2, Some (UBuf m)))) /\
    (n' < blen m -> forall log2 me2 r,
       sign_aad_internal c cr me det payload aad {| wb_null := false; wb_len := n' |}
       <> (log2, Ret (T_SUCCESS, me2, r))).
Proof.
  intros C P A SA RI NE H n'. split.
  - intro L. apply (sign_success_iff c cr me det payload aad pl n' log m P).
    assert (H0 : exists me', sign_aad_internal c cr me det payload aad {| wb_null := false; wb_len := n |}
             = (log, Ret (T_SUCCESS, me', Some (UBuf m)))) by eauto.
    apply (sign_success_iff c cr me det payload aad pl n log m P) in H0.
    destruct H0 as (w & k & D1 & D2 & AL & S1 & CT & Ln & -> & F & CORE).
    exists w, k.
    pose proof (message_len c me det payload (sigw k w)) as ML.
    pose proof (short_head_pos 2 (blen (sigw k w))) as SP.
    split; [exact D1|]. split; [exact D2|]. do 3 (split; [assumption|]). split; [lia|].
    split; [reflexivity|]. split; [exact L|].
    apply mbind_ret_inv in CORE as (l1 & [[[err me2] k'] w'] & l2 & H1 & H2 & ->).
    cbn [sig_only] in H2. unfold mret in H2. injection H2 as <- -> -> ->.
    assert (HP : holds (UBuf (protected_header (c_alg me))) (protected_header (c_alg me))) by now left.
    assert (HY : holds (if det then payload else UBuf pl) pl) by (destruct det; [exact P|now left]).
    apply supported_spec in AL.
    pose proof (sign_core_success _ _ _ _ _ _ _ _ _ _ _ _ _ _ _ C HP A HY S1 AL H1) as [KW _].
    pose proof (sign_core_sc_size _ _ _ _ _ _ _ _ _ _ _ _ _ _ _ C HP A HY S1 AL NE H1) as SZ.
    rewrite KW, sigw_exact in *.
    rewrite (sign_core_room _ _ _ _ _ _ _ _ (n' - blen (unsigned c me det payload)) _ _ _ _ C RI H1);
      [reflexivity|lia|].
    destruct SZ as [SZ|SZ]; [left; lia|now right].
  - intros L log2 me2 r H2.
    pose proof (sign_success_spec _ _ _ _ _ _ _ _ _ _ _ _ _ C P A H) as (sig & room & E & B & _ & SG & _).
    pose proof (sign_success_spec _ _ _ _ _ _ _ _ _ _ _ _ _ C P A H2) as (sig2 & room2 & E2 & B2 & _ & SG2 & _).
    pose proof (signature_of_size _ _ _ _ _ _ _ _ SA NE SG SG2) as SZ.
    injection E as ->.
    rewrite <- (message_spec c q me det payload pl _ C P) in L.
    cbv zeta in B2. rewrite <- (message_spec c q me det payload pl _ C P) in B2.
    rewrite message_len in L, B2. rewrite SZ in L. lia.
Qed.

(** ** Tag option *)

Theorem omit_tag c cr q q' me me' det payload aad pl n log m :
  configured q me -> configured q' me' -> holds payload pl ->
  q_alg q = q_alg q' -> q_key q = q_key q' -> q_kid q = q_kid q' ->
  q_ct_uint q = q_ct_uint q' -> q_ct_text q = q_ct_text q' -> q_aux q = q_aux q' ->
  wants_short_circuit (q_flags q) = wants_short_circuit (q_flags q') ->
  wants_tag (q_flags q) = true -> wants_tag (q_flags q') = false ->
  n + 1 <= MAX_OFFSET ->
  (exists r, sign_aad_internal c cr me' det payload aad {| wb_null := false; wb_len := n |}
    = (log, Ret (T_SUCCESS, r, Some (UBuf m)))) <->
  (exists r, sign_aad_internal c cr me det payload aad {| wb_null := false; wb_len := n + 1 |}
    = (log, Ret (T_SUCCESS, r, Some (UBuf (xd2 :: m))))).
Proof.
  intros C C' P EA EK EI EU ET EX ES T1 T2 BN.
  rewrite !(sign_success_iff _ _ _ _ _ _ pl _ _ _ P).
  assert (CA : c_alg me = c_alg me') by (destruct C as (-> & _); destruct C' as (-> & _); exact EA).
  assert (CK : c_key me = c_key me') by (destruct C as (_ & _ & -> & _); destruct C' as (_ & _ & -> & _); exact EK).
  assert (CX : c_aux me = c_aux me') by (destruct C as (_ & _ & _ & _ & _ & _ & ->);
      destruct C' as (_ & _ & _ & _ & _ & _ & ->); exact EX).
  assert (SO : sc_on me = sc_on me') by (rewrite (sc_on_spec _ _ C), (sc_on_spec _ _ C'); exact ES).
  assert (CC : ct_clash c me = ct_clash c me').
  { destruct C as (_ & _ & _ & _ & U & T & _). destruct C' as (_ & _ & _ & _ & U' & T' & _).
    unfold ct_clash. rewrite T, T', ET. rewrite EU in U. destruct (q_ct_uint q').
    - destruct U as [_ ->], U' as [_ ->]. reflexivity.
    - now rewrite U, U'. }
  assert (TG : tagged me = true) by (rewrite (tagged_spec _ _ C); exact T1).
  assert (TG' : tagged me' = false) by (rewrite (tagged_spec _ _ C'); exact T2).
  assert (UP : unprot_of c me = unprot_of c me').
  { unfold unprot_of. rewrite (kid_spec _ _ C), (kid_spec _ _ C'), (ct_spec _ _ _ C), (ct_spec _ _ _ C').
    unfold requested_kid, requested_ct. now rewrite EI, ES, EU, ET. }
  assert (UN : unsigned c me det payload = xd2 :: unsigned c me' det payload).
  { unfold unsigned, tag_bytes, heads. rewrite TG, TG', CA, UP. reflexivity. }
  assert (MS : forall s, message c me det payload s = xd2 :: message c me' det payload s).
  { intro s. unfold message. rewrite CA, UP, TG, TG'. reflexivity. }
  assert (CORE : forall p a b w, mmap sig_only (sign_core c cr me p a b w)
                                 = mmap sig_only (sign_core c cr me' p a b w)).
  { intros p a b w. unfold sign_core. fold (sc_on me) (sc_on me'). rewrite SO, <- CA.
    destruct (sc_on me' && _); [|destruct ((c_alg me =? EDDSA)%Z && _)].
    - unfold sign1_sign_short_circuit. rewrite <- CA, !mmap_bind. apply mbind_ext. intros [err h].
      destruct (negb _); [reflexivity|]. destruct (wb_null w).
      + destruct (short_circuit_sig_size _). reflexivity.
      + rewrite !mmap_bind. apply mbind_ext. intros [er s]. reflexivity.
    - unfold sign1_sign_eddsa. rewrite <- CX.
      destruct (create_tbs p a b (c_aux me)) as [err tbs].
      destruct (negb _); [reflexivity|]. destruct tbs; [|reflexivity].
      cbn [sc_set_aux_size c_alg c_key c_aux]. rewrite <- CA, <- CK, <- CX.
      destruct (wb_null w); [|destruct (wb_null (c_aux me)); [reflexivity|]];
        rewrite !mmap_bind; apply mbind_ext; intros [er s]; reflexivity.
    - unfold sign1_sign_default. rewrite <- CA, <- CK, !mmap_bind. apply mbind_ext. intros [err h].
      destruct (negb _); [reflexivity|].
      destruct (wb_null w); rewrite !mmap_bind; apply mbind_ext; intros [er s]; reflexivity. }
  assert (RM : n + 1 - (1 + blen (unsigned c me' det payload)) = n - blen (unsigned c me' det payload))
    by (clear; lia).
  clear C C' T1 T2.
  split.
  - intros (w & k & D1 & D2 & AL & S1 & CT & Ln & -> & F & CR).
    exists w, k. rewrite MS, UN, blen_cons, RM, CA, SO, CC, CORE, blen_cons.
    split; [exact D1|]. split; [clear - D2 Ln BN; lia|]. split; [exact AL|].
    split; [exact S1|]. split; [exact CT|]. split; [clear - Ln; lia|].
    split; [reflexivity|]. split; [clear - F; lia|]. exact CR.
  - intros (w & k & D1 & D2 & AL & S1 & CT & Ln & E & F & CR).
    rewrite MS in E. rewrite UN, blen_cons in D2, Ln, CR. rewrite RM, CA, CORE in CR.
    rewrite CA in AL. rewrite SO in S1. rewrite CC in CT.
    rewrite blen_cons in F. assert (E' : m = message c me' det payload (sigw k w)) by congruence.
    exists w, k.
    split; [exact D1|]. split; [clear - D2; lia|]. split; [exact AL|].
    split; [exact S1|]. split; [exact CT|]. split; [clear - Ln; lia|].
    split; [exact E'|]. split; [clear - F; lia|]. exact CR.
Qed.
