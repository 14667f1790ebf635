(** The tests of signing and verifying: their keys, and t_cose. *)
From Verif Require Import Base Const QEnc QDec Crypto Util ShortCircuit Params Sign Verify Psa Spec SignSpec PieceSpec SignErrorSpec Examples ExampleRun.
From Verif Require Import BaseFacts EncFacts UtilFacts SignFacts SignProofs SignMore SignMore2 SignMore3 SignSafe Piece SignErrorFacts ApiSpec ApiFacts.
From Verif Require Import LiveSpec LiveFacts VerifyTop VerifyMore2 RoundTrip VerifySpec ExampleSpec ExampleFacts ExampleRunSpec ExampleRunFacts SvTests SvSpec SvFacts.
From Coq Require Import Lia ZifyBool ZifyNat ZifyN.
Open Scope N_scope. Open Scope list_scope. Open Scope xmon_scope.
Local Strategy 100 [create_tbs create_tbs_hash verify_decode].

(** ** Keys *)

Definition only_uses {A} (t : X A) : Prop := forall e, In e (fst t) -> e = XUse XKey.
Lemma fst_bind {A B} (x : X A) (f : A -> X B) : fst (xbind x f) = fst x ++ match snd x with Ret a => fst (f a) | UB _ => [] end.
Proof. destruct x as [l [a|w]]; cbn; [now destruct (f a)|]. now rewrite app_nil_r. Qed.
Lemma uses_bind {A B} (x : X A) (f : A -> X B) : only_uses x -> (forall a, only_uses (f a)) -> only_uses (xbind x f).
Proof.
  intros U F e. rewrite fst_bind. intro I. apply in_app_or in I as [I|I]; [now apply U|]. destruct (snd x); [|destruct I]. exact (F a e I).
Qed.
Lemma uses_ret {A} (a : A) : only_uses (xret a).
Proof. intros e []. Qed.
Lemma uses_lift {A} (a : out A) : only_uses (xlift a).
Proof. intros e []. Qed.
Lemma uses_call {A} (x : M A) : only_uses (xcall [XKey] x).
Proof. intros e [<-|[]]. reflexivity. Qed.
Lemma uses_steps i me buf ops b1 b2 f : (forall me e, only_uses (f me e)) -> only_uses (in_steps i me buf ops b1 b2 f).
Proof.
  intro F. unfold in_steps. destruct (i_parameters i me (enc_init buf)) as [[r m] e]. destruct (negb (ok r)); [apply uses_ret|].
  apply uses_bind; [apply uses_call|]. intros [[r2 m2] e2]. destruct (negb (ok r2)); [apply uses_ret|apply F].
Qed.
Ltac uses :=
  repeat match goal with
  | |- only_uses (let _ := _ in _) => cbv zeta
  | |- only_uses (in_steps _ _ _ _ _ _ _) => apply uses_steps; intros
  | |- only_uses (xbind _ _) => apply uses_bind; [|intros]
  | |- only_uses (xcall _ _) => apply uses_call
  | |- only_uses (failed _ _) => apply uses_ret
  | |- only_uses (xret _) => apply uses_ret
  | |- only_uses (xlift _) => apply uses_lift
  | |- only_uses (the_value _) => apply uses_lift
  | |- only_uses (if ?b then _ else _) => destruct b
  | |- only_uses (match ?x with _ => _ end) => destruct x
  end.

Lemma held_uses l : (forall e, In e l -> e = XUse XKey) -> held [XKey] l = Some [XKey].
Proof.
  induction l as [|e l IH]; [reflexivity|]. intro H. rewrite (H e (or_introl eq_refl)). cbn [held].
  destruct (in_dec xobj_eq_dec XKey [XKey]) as [_|N]; [|exfalso; apply N; now left]. apply IH. intros. apply H. now right.
Qed.

Definition tidy {A} (t : X A) : Prop := forall v, snd t = Ret v -> held [] (fst t) = Some [].
Lemma tidy_ret {A} (v : A) : tidy (xret v).
Proof. intros w _. reflexivity. Qed.
Lemma tidy_lift {A} (v : out A) : tidy (xlift v).
Proof. intros w _. reflexivity. Qed.
Lemma tidy_bind {A B} (t : X A) (f : A -> X B) : tidy t -> (forall v, tidy (f v)) -> tidy (xbind t f).
Proof.
  intros T F v H. apply bind_iff in H as (a & E & H). rewrite fst_bind, E, held_app, (T a E). exact (F a v H).
Qed.
Lemma tidy_with_key make alg base body : makes_one_key make -> (forall key, only_uses (body key)) -> tidy (with_key make alg base body).
Proof.
  intros M U v H. unfold with_key in *. apply bind_iff in H as ([err k] & E & H). rewrite fst_bind, E, held_app.
  specialize (M alg). destruct (make alg) as [log r]. cbn [fst snd] in *. subst r.
  destruct (ok err) eqn:O; cbn [negb] in *.
  - apply ok_iff in O as ->. destruct k as [key|]; [|destruct M]. rewrite M.
    apply bind_iff in H as (key' & K & H). cbn in K. injection K as <-. rewrite fst_bind. cbn [the_key xlift fst snd app].
    apply bind_iff in H as (w & W & H). rewrite fst_bind, W, held_app, (held_uses _ (U key)). reflexivity.
  - replace (held [] log) with (Some (@nil xobj)) by (destruct err; try discriminate; now destruct k). reflexivity.
Qed.
Lemma tidy_each table select test : (forall alg m, tidy (test alg m)) -> forall k, tidy (for_each table k select test).
Proof.
  intro T. induction table as [|[alg m] r IH]; intro k; cbn [for_each]; [apply tidy_ret|]. destruct (select alg); [|apply IH].
  apply tidy_bind; [apply T|]. intro v. destruct (negb _); [apply tidy_ret|apply IH].
Qed.

Theorem keys_returned i make t v : makes_one_key make -> In t (sign_verify_tests i make) -> snd t = Ret v -> leaves t [].
Proof.
  intros M I0 H0. enough (T : tidy t) by exact (T v H0). clear v H0. rename I0 into I.
  assert (K1 : forall alg kid, tidy (size_test i make alg kid)).
  { intros. apply tidy_with_key; [exact M|]. intro. uses. }
  cbn [In sign_verify_tests] in I. destruct I as [<-|[<-|[<-|[<-|[<-|[<-|[<-|[]]]]]]]].
  - apply tidy_each. intros. apply tidy_with_key; [exact M|]. intro. uses.
  - apply tidy_with_key; [exact M|]. intro. uses.
  - apply tidy_each. intros. apply tidy_with_key; [exact M|]. intro. uses.
  - apply tidy_each. intros. apply tidy_bind; [apply K1|]. intro v. destruct (negb _); [apply tidy_ret|apply K1].
  - apply tidy_each. intros alg m. unfold known_good_test. apply tidy_bind; [intros v _; reflexivity|]. intro w.
    destruct (negb _); [apply tidy_ret|]. apply tidy_bind; [apply tidy_lift|]. intro p. destruct (negb _); [apply tidy_ret|].
    apply tidy_with_key; [exact M|]. intro. uses.
  - apply tidy_each. intros. apply tidy_with_key; [exact M|]. intro. uses.
  - unfold sign_verify_bad_auxiliary_buffer. destruct (negb _); [apply tidy_ret|]. apply tidy_with_key; [exact M|]. intro. uses.
Qed.

Lemma ossl_one_key d2i : makes_one_key (test_key_ossl d2i).
Proof.
  intro alg. unfold test_key_ossl. destruct (if (alg =? ES256)%Z then _ else _) as [k|]; [|reflexivity]. destruct (d2i k); reflexivity.
Qed.
Lemma psa_one_key ks : makes_one_key (test_key_psa ks).
Proof.
  intro alg. unfold test_key_psa. destruct (if (alg =? ES256)%Z then _ else _) as [k|]; [|reflexivity].
  destruct (negb _); [reflexivity|]. destruct (ks_import ks k) as [r h]. destruct (negb _); reflexivity.
Qed.

(** ** t_cose passes *)

(** What the tests ask for. *)
Definition test_request (alg : Z) (key : tkey) (kid : bytes) (aux : wbuf) : request :=
  {| q_alg := alg; q_flags := 0; q_key := key; q_kid := kid; q_ct_uint := None; q_ct_text := None; q_aux := aux |}.
Definition aux_of (a : option N) : wbuf := match a with Some n => stack_buf n | None => {| wb_null := true; wb_len := 18446744073709551615 |} end.
Lemma test_configured alg key kid b a : holds kid b -> configured (test_request alg key b (aux_of a)) (test_signer alg key kid a).
Proof. intro H. destruct a; repeat split; exact H. Qed.
Lemma test_faultless c alg key kid aux : enabled c alg -> faultless c (test_request alg key kid aux).
Proof.
  intro E. split; [exact E|]. split; [intros [X _]; discriminate|]. split; [|intros [X _]; discriminate].
  intros (_ & _ & X). now apply X.
Qed.
Lemma test_message c alg key kid aux pl sig :
  requested_message c (test_request alg key kid aux) (Some pl) sig
  = cose_sign1 true (protected_header alg) (unprotected_header kid CtNone) (Some pl) sig.
Proof.
  unfold requested_message. cbn [test_request q_flags q_alg]. replace (requested_ct c _) with CtNone; [now destruct kid|].
  unfold requested_ct. cbn. now destruct (dis_content_type c).
Qed.
Lemma test_works c cr alg key kid aux parts n :
  signer_works c cr (example_request alg key) parts n -> signer_works c cr (test_request alg key kid aux) parts n.
Proof. exact (fun x => x). Qed.

(** Algorithms in the table. *)
Lemma in_table alg m : In (alg, m) test_cases -> In alg [-7; -35; -36; -37; -38; -39; -8]%Z.
Proof.
  intro H. apply (in_map fst) in H. cbn [fst] in H. exact H.
Qed.

(** A signature of [n] bytes, behind the rest of the message. *)
Lemma test_size c alg key b a pl n :
  let q := test_request alg key b (aux_of a) in
  message_size c q (Some pl) n = blen (requested_message c q (Some pl) []) - 1 + blen (short_head 2 n) + n.
Proof.
  intro q. pose proof (test_configured alg key (UBuf b) b a (or_introl eq_refl)) as C. fold q in C.
  pose proof (size_len c q _ false (UBuf pl) pl n C (or_introl eq_refl)) as SL. cbn iota in SL.
  pose proof (empty_message_len c q _ false (UBuf pl) pl C (or_introl eq_refl)) as U. cbn iota in U. lia.
Qed.

Section T.
Context (c : cfg) (cr : crypto) (junk : ubufc) (qcbor : qe_err -> Z) (make : Z -> X (terr * option tkey)).
Let i := t_cose c cr junk qcbor.


Definition test_bytes (alg : Z) (kid pl sig : bytes) : bytes := cose_sign1 true (protected_header alg) (unprotected_header kid CtNone) (Some pl) sig.

(** There is room for the message and for the bytes to be signed. *)
Definition fits (alg : Z) (kid pl : bytes) (n : N) : Prop :=
  blen (test_bytes alg kid pl []) - 1 + blen (short_head 2 n) + n <= 300 /\ blen (sig_structure (protected_header alg) [] pl) <= 100.
Lemma head_256 n : n <= 256 -> blen (short_head 2 n) <= 3.
Proof.
  intro L. unfold short_head. destruct (n <? 24); [unfold blen; cbn [length]; lia|]. destruct (n <? 2 ^ 8); [unfold blen; cbn [length]; rewrite big_endian_length; lia|].
  replace (n <? 2 ^ 16) with true by lia. unfold blen. cbn [length]. rewrite big_endian_length. lia.
Qed.
Lemma fits_small alg kid pl n : In alg [-7; -35; -36; -37; -38; -39; -8]%Z -> In kid [[]; greasy] ->
  In pl [text_payload; x67 :: text_payload] -> n <= 256 -> fits alg kid pl n.
Proof.
  intros IA IK IP L. pose proof (head_256 n L) as H. split.
  - enough (blen (test_bytes alg kid pl []) <= 42) by lia.
    cbn [In] in IA, IK, IP. repeat (destruct IA as [<-|IA]); try destruct IA;
      (destruct IK as [<-|[<-|[]]]; destruct IP as [<-|[<-|[]]]; vm_compute; discriminate).
  - cbn [In] in IA, IP. repeat (destruct IA as [<-|IA]); try destruct IA; (destruct IP as [<-|[<-|[]]]; vm_compute; discriminate).
Qed.

Lemma fits_max alg kid pl n : fits alg kid pl n -> blen (test_bytes alg kid pl []) <= MAX_OFFSET.
Proof. intros [F _]. unfold MAX_OFFSET. lia. Qed.

(** Signing at once. *)
Lemma test_signs alg key kid b a pl n : holds kid b -> all_works c cr alg key pl n -> fits alg b pl n -> (alg = (-8)%Z -> a = Some 100) ->
  exists log me' sig, sign c cr (test_signer alg key kid a) (UBuf pl) (stack_buf 300) = (log, Ret (T_SUCCESS, me', Some (UBuf (test_bytes alg b pl sig)))) /\
    blen (test_bytes alg b pl sig) = blen (test_bytes alg b pl []) - 1 + blen (short_head 2 n) + n.
Proof.
  intros HK (EN & SW & _) F A. set (q := test_request alg key b (aux_of a)).
  pose proof (fun sig => test_message c alg key b (aux_of a) pl sig) as MSG. pose proof (test_size c alg key b a pl n) as SZ. cbv zeta in SZ.
  fold q in MSG, SZ. rewrite MSG in SZ. fold (test_bytes alg b pl []) in SZ.
  destruct (signing_succeeds c cr q (test_signer alg key kid a) false (UBuf pl) NULL_UBUF pl [] n 300 (test_configured _ _ _ _ a HK)
    (or_introl eq_refl) (or_intror (conj eq_refl eq_refl))) as (log & me' & sig & E & S).
  - discriminate.
  - now apply test_faultless.
  - exact SW.
  - intros [_ E8]. cbn [q test_request q_alg] in E8. cbn [q test_request q_aux]. rewrite (A E8). split; [reflexivity|]. cbn [aux_of stack_buf wb_len].
    exact (proj2 F).
  - cbn iota. rewrite MSG. exact (fits_max _ _ _ _ F).
  - cbn iota. rewrite SZ. exact (proj1 F).
  - cbn iota in E, S. rewrite MSG in E, S. rewrite SZ in S. exists log, me', sig. split; [exact E|exact S].
Qed.

(** Verifying what was signed. *)
Lemma test_verifies alg key kid b a pl n va log me' m want_payload want :
  holds kid b -> all_works c cr alg key pl n -> fits alg b pl n -> (alg = (-8)%Z -> va = Some 100) -> b <> reserved_kid ->
  sign c cr (test_signer alg key kid a) (UBuf pl) (stack_buf 300) = (log, Ret (T_SUCCESS, me', Some (UBuf m))) ->
  exists w, answers i (test_verifier key va) m want_payload want w /\ w_err w = T_SUCCESS /\
    w_payload w = if want_payload then Some (UBuf pl) else None.
Proof.
  intros HK (EN & SW & KM & OD & HR) F A NK S. set (q := test_request alg key b (aux_of a)).
  destruct (round_trip c cr q (test_signer alg key kid a) false (UBuf pl) NULL_UBUF pl [] 300 log me' m (test_verifier key va) junk NULL_UBUF
    (if want_payload then Some junk else None) want (test_configured _ _ _ _ a HK) (or_introl eq_refl) (or_intror (conj eq_refl eq_refl)))
    as (log' & w & V & D1 & _ & D3).
  - reflexivity.
  - exact S.
  - destruct va; reflexivity.
  - right. split; reflexivity.
  - discriminate.
  - destruct va; (split; [discriminate|split; discriminate]).
  - intros _. destruct va; exact KM.
  - exact OD.
  - exact HR.
  - left. exact NK.
  - intros _ E8. rewrite (A E8). split; [reflexivity|exact (proj2 F)].
  - exists w. split; [exists log'; exact V|]. split; [exact D1|]. rewrite D3. now destruct want_payload.
Qed.

(** Signing in steps is signing at once. *)
Lemma test_steps alg key kid b a f buf log me' u :
  (forest_depth f <= 13)%nat -> forest_fits f -> bcount f < 65534 -> holds kid b -> blen (test_bytes alg b (forest_bytes f) []) <= MAX_OFFSET ->
  sign c cr (test_signer alg key kid a) (UBuf (forest_bytes f)) buf = (log, Ret (T_SUCCESS, me', Some u)) ->
  signs_in_steps i (test_signer alg key kid a) buf (forest_ops f) me' u.
Proof.
  intros D F B HK L S. unfold sign in S.
  pose proof (empty_message_len c _ _ false (UBuf (forest_bytes f)) (forest_bytes f) (test_configured alg key kid b a HK) (or_introl eq_refl)) as U.
  cbn iota in U. rewrite test_message in U. fold (test_bytes alg b (forest_bytes f) []) in U.
  rewrite <- (piecewise_eq c cr _ NULL_UBUF f buf D F B) in S; [|lia].
  apply piecewise_split in S as (l1 & e & P & EF). unfold piecewise_on in P.
  destruct (encode_parameters c (test_signer alg key kid a) (enc_init buf)) as [[err m1] e1] eqn:EP.
  destruct (negb (terr_eqb err T_SUCCESS)) eqn:O.
  { unfold mret in P. injection P as _ -> _ _. discriminate. }
  apply negb_false_iff, terr_eqb_eq in O as ->. exists m1, e1, l1, e. split; [exact EP|]. split; [exact P|exact EF].
Qed.

Theorem t_cose_basic : library_for_tests c cr make ->
  passes (sign_verify_basic_test i make).
Proof.
  intro W. apply basic_passes. intros alg msg IN SU. apply in_table in IN. destruct (W alg IN SU) as (key & n & MK & L & _ & AW).
  assert (F : fits alg [] text_payload n) by (apply fits_small; cbn; auto).
  assert (HK : holds NULL_UBUF []) by (right; split; reflexivity).
  destruct (test_signs alg key NULL_UBUF [] (Some 100) text_payload n HK (AW _) F (fun _ => eq_refl)) as (log & me' & sig & S & _).
  destruct (test_verifies alg key NULL_UBUF [] (Some 100) text_payload n (Some 100) _ _ _ true false HK (AW _) F (fun _ => eq_refl)
    ltac:(discriminate) S) as (w & V & E & P).
  do 4 eexists. split; [exact MK|]. split; [do 2 eexists; exact S|]. split; [left; reflexivity|]. eauto.
Qed.

(** ** The CWT *)
Let cwt : bforest :=
  BCons (BMap (
    BCons (BInt 1) (BCons (BText [x63; x6f; x61; x70; x3a; x2f; x2f; x61; x73; x2e; x65; x78; x61; x6d; x70; x6c; x65; x2e; x63; x6f; x6d])
    (BCons (BInt 2) (BCons (BText [x65; x72; x69; x6b; x77])
    (BCons (BInt 3) (BCons (BText [x63; x6f; x61; x70; x3a; x2f; x2f; x6c; x69; x67; x68; x74; x2e; x65; x78; x61; x6d; x70; x6c; x65; x2e; x63; x6f; x6d])
    (BCons (BInt 4) (BCons (BInt 1444064944) (BCons (BInt 5) (BCons (BInt 1443944944) (BCons (BInt 6) (BCons (BInt 1443944944)
    (BCons (BInt 7) (BCons (BBytes [x0b; x71]) BNil))))))))))))))) BNil.

Theorem t_cose_cwt : qcbor_positive i -> works_with_test_key c cr make (-7) -> passes (sign_verify_make_cwt_test i make).
Proof.
  intros Q (key & n & MK & _ & E & AW). rewrite (E eq_refl) in AW. apply cwt_passes; [exact Q|].
  assert (F : fits (-7) cwt_kid (forest_bytes cwt) 64) by (split; vm_compute; discriminate).
  assert (HK : holds (UBuf cwt_kid) cwt_kid) by (left; reflexivity).
  destruct (test_signs (-7) key (UBuf cwt_kid) cwt_kid None (forest_bytes cwt) 64 HK (AW _) F) as (log & me' & sig & S & _); [discriminate|].
  destruct (test_verifies (-7) key (UBuf cwt_kid) cwt_kid None (forest_bytes cwt) 64 None log me' _ true false HK (AW _) F ltac:(discriminate)
    ltac:(discriminate) S) as (w & V & EW & P).
  assert (M : test_bytes (-7) cwt_kid (forest_bytes cwt) sig = rfc8392_first_part ++ encode (CBytes sig) ++ []) by reflexivity.
  exists key, me', (encode (CBytes sig) ++ []), w, (UBuf (forest_bytes cwt)). split; [exact MK|].
  apply (test_steps (-7) key (UBuf cwt_kid) cwt_kid None cwt) in S.
  - change (forest_ops cwt) with cwt_ops in S. rewrite M in S, V. repeat split; auto. discriminate.
  - vm_compute. lia.
  - vm_compute. tauto.
  - reflexivity.
  - exact HK.
  - exact (fits_max _ _ _ _ F).
Qed.

(** ** Sizes *)
Lemma params_keep me det e : let '(_, me', _) := encode_parameters_internal c me det e in c_alg me' = c_alg me /\ c_aux_size me' = c_aux_size me.
Proof.
  unfold encode_parameters_internal. destruct (negb _); [auto|]. destruct (encode_protected_parameters _ _) as [e' prot].
  destruct (_ && _); [split; reflexivity|]. destruct (add_unprotected_parameters _ _ _ _) as [err e2]. destruct (negb _); split; reflexivity.
Qed.
Lemma mbind_inv {A B} (x : M A) (f : A -> M B) log b : mbind x f = (log, Ret b) -> exists l1 a l2, x = (l1, Ret a) /\ f a = (l2, Ret b).
Proof. intro H. apply mbind_ret_inv in H as (l1 & a & l2 & X & F & _). eauto. Qed.
Lemma signature_keeps me aad dp e log r me' e' : c_alg me <> (-8)%Z ->
  encode_signature_aad_internal c cr me aad dp e = (log, Ret (r, me', e')) -> c_aux_size me' = c_aux_size me.
Proof.
  intro N8. unfold encode_signature_aad_internal. destruct (if u_is_null dp then _ else _) as [e1 sp].
  destruct (negb _); [unfold mret; intro H; injection H; intros; now subst|]. destruct (enc_open_bytes e1) as [e2 buf].
  change EDDSA with (-8)%Z. replace (c_alg me =? -8)%Z with false by lia. cbn [andb]. intro H.
  apply mbind_inv in H as (l1 & [[[err m1] n] sg] & l2 & X & H).
  assert (K : c_aux_size m1 = c_aux_size me).
  { destruct (_ && _).
    - unfold sign1_sign_short_circuit in X. apply mbind_inv in X as (? & [er h] & ? & _ & X).
      destruct (negb _); [cbv beta iota zeta in X; unfold mret in X; injection X; intros; now subst|]. destruct (wb_null buf).
      + destruct (short_circuit_sig_size _). cbv beta iota zeta in X; unfold mret in X; injection X; intros; now subst.
      + apply mbind_inv in X as (? & [er' sg'] & ? & _ & X). cbv beta iota zeta in X; unfold mret in X; injection X; intros; now subst.
    - unfold sign1_sign_default in X. apply mbind_inv in X as (? & [er h] & ? & _ & X).
      destruct (negb _); [cbv beta iota zeta in X; unfold mret in X; injection X; intros; now subst|]. destruct (wb_null buf);
        apply mbind_inv in X as (? & [er' sg'] & ? & _ & X); cbv beta iota zeta in X; unfold mret in X; injection X; intros; now subst. }
  destruct (negb (terr_eqb err T_SUCCESS)); cbv beta iota zeta in H; unfold mret in H; injection H; intros; now subst.
Qed.
Lemma sign_keeps me payload buf log r me' u : c_alg me <> (-8)%Z -> sign c cr me payload buf = (log, Ret (r, me', u)) -> c_aux_size me' = c_aux_size me.
Proof.
  intro N8. unfold sign, sign_aad_internal. pose proof (params_keep me false (enc_init buf)) as P.
  destruct (encode_parameters_internal _ _ _ _) as [[err m1] e1]. destruct P as [P1 P2].
  destruct (negb _); [unfold mret; intro H; injection H; intros; now subst|]. intro H.
  apply mbind_inv in H as (l1 & [[r2 m2] e2] & l2 & X & H). apply signature_keeps in X; [|congruence].
  destruct (negb _); [cbv beta iota zeta in H; unfold mret in H; injection H; intros; subst; congruence|].
  destruct (negb _); [cbv beta iota zeta in H; unfold mret in H; injection H; intros; subst; congruence|].
  destruct (enc_finish e2) as [[] ?]; cbv beta iota zeta in H; unfold mret in H; injection H; intros; subst; congruence.
Qed.

Lemma head_1 n : 1 <= blen (short_head 2 n).
Proof. unfold short_head. repeat destruct (_ <? _); rewrite ?blen_cons; rewrite ?blen_cons; unfold blen; cbn [length]; lia. Qed.

Lemma test_measures alg key kid b n : holds kid b -> all_works c cr alg key text_payload n -> fits alg b text_payload n ->
  exists log me', sign c cr (test_signer alg key kid None) (UBuf text_payload) {| wb_null := true; wb_len := 2147483647 |}
    = (log, Ret (T_SUCCESS, me', Some (UNull (blen (test_bytes alg b text_payload []) - 1 + blen (short_head 2 n) + n)))) /\
    (alg = (-8)%Z -> sign_auxiliary_buffer_size c me' = blen (sig_structure (protected_header alg) [] text_payload)) /\
    (alg <> (-8)%Z -> sign_auxiliary_buffer_size c me' = 0).
Proof.
  intros HK (EN & SW & _) F. set (q := test_request alg key b (aux_of None)).
  pose proof (fun sig => test_message c alg key b (aux_of None) text_payload sig) as MSG.
  pose proof (test_size c alg key b None text_payload n) as SZ. cbv zeta in SZ.
  fold q in MSG, SZ. rewrite MSG in SZ. fold (test_bytes alg b text_payload []) in SZ.
  destruct (measuring_succeeds c cr q (test_signer alg key kid None) false (UBuf text_payload) NULL_UBUF text_payload [] n 2147483647
    (test_configured _ _ _ _ None HK) eq_refl eq_refl) as (log & me' & E & _ & Z).
  - discriminate.
  - now apply test_faultless.
  - exact SW.
  - intros _. pose proof (proj2 F) as F2. change (blen (sig_structure (protected_header alg) [] text_payload) <= 18446744073709551615). lia.
  - cbn iota. rewrite MSG. exact (fits_max _ _ _ _ F).
  - cbn iota. rewrite SZ. pose proof (proj1 F). lia.
  - cbn iota in E. rewrite SZ in E. exists log, me'. split; [exact E|]. split.
    + intro E8. apply Z. split; [reflexivity|exact E8].
    + intro N8. unfold sign_auxiliary_buffer_size. destruct (dis_eddsa c); [reflexivity|].
      exact (sign_keeps (test_signer alg key kid None) _ _ _ _ _ _ N8 E).
Qed.

Theorem t_cose_sizes : qcbor_positive i ->
  library_for_tests c cr make ->
  passes (sign_verify_get_size_test i make).
Proof.
  intros Q W. apply size_passes; [exact Q|]. intros alg msg IN SU kid KID. apply in_table in IN.
  destruct (W alg IN SU) as (key & n & MK & L & _ & AW). exists key. split; [exact MK|].
  assert (B : exists b, holds kid b /\ In b [[]; greasy] /\ u_len kid = blen b).
  { destruct KID as [->| ->]; [exists []|exists greasy]; (split; [|split; [cbn; auto|reflexivity]]); [right; split; reflexivity|left; reflexivity]. }
  destruct B as (b & HK & IB & LB). assert (F : fits alg b text_payload n) by (apply fits_small; cbn; auto).
  set (f := BCons (BEncoded text_payload) BNil). assert (FB : forest_bytes f = text_payload) by reflexivity.
  assert (ST : forall a buf log me' u, sign c cr (test_signer alg key kid a) (UBuf text_payload) buf = (log, Ret (T_SUCCESS, me', Some u)) ->
    signs_in_steps i (test_signer alg key kid a) buf [OpEncoded (UBuf text_payload)] me' u).
  { intros a buf log me' u S. apply (test_steps alg key kid b a f buf log me' u); auto.
    - cbn. lia.
    - cbn. auto.
    - reflexivity.
    - rewrite FB. exact (fits_max _ _ _ _ F). }
  destruct (test_measures alg key kid b n HK (AW _) F) as (l1 & me1 & S1 & Z1 & Z2).
  destruct (test_signs alg key kid b (if (alg =? -8)%Z then Some 100 else None) text_payload n HK (AW _) F) as (l2 & me2 & sig & S2 & SZ).
  { intros ->. reflexivity. }
  assert (BND : blen b + 8 <= blen (test_bytes alg b text_payload []) <= blen b + 7 + 28).
  { cbn [In] in IN, IB. clear - IN IB. repeat (destruct IN as [<-|IN]); try destruct IN;
      (destruct IB as [<-|[<-|[]]]; vm_compute; split; discriminate). }
  pose proof (head_256 n L) as H3. pose proof (head_1 n) as H1.
  exists n, me1, (UNull (blen (test_bytes alg b text_payload []) - 1 + blen (short_head 2 n) + n)), (UBuf (test_bytes alg b text_payload sig)), (UBuf (test_bytes alg b text_payload sig)).
  destruct (AW text_payload) as (_ & SW & _). unfold signer_works in SW. cbn [example_request q_flags q_alg q_key] in SW.
  change (wants_short_circuit 0) with false in SW. cbn iota in SW.
  split; [exact (proj1 SW)|]. split; [exact (ST _ _ _ _ _ S1)|]. split; [unfold roughly; cbn [u_len]; rewrite LB; lia|].
  split; [|split; [exact Z2|]].
  - intro E8. cbn [i t_cose i_sign_aux]. rewrite (Z1 E8), LB, E8. cbn [In] in IB. destruct IB as [<-|[<-|[]]]; split; vm_compute; discriminate.
  - cbv zeta. split; [exists me2; exact (ST _ _ _ _ _ S2)|]. split; [do 2 eexists; exact S2|]. cbn [u_len]. rewrite SZ. auto.
Qed.

(** ** A wrong payload *)
Lemma payload_inside alg kid pl sig : exists b a, test_bytes alg kid pl sig = b ++ pl ++ a.
Proof.
  unfold test_bytes, cose_sign1. cbn [encode flat_map].
  exists (short_head 6 18 ++ short_head 4 4 ++ encode (CBytes (protected_header alg)) ++ encode (unprotected_header kid CtNone) ++ short_head 2 (blen pl)),
    (encode (CBytes sig) ++ []).
  cbn [encode]. rewrite !app_assoc_reverse. reflexivity.
Qed.

Theorem t_cose_sig_fail : qcbor_positive i -> safe_for_tests c cr ->
  library_for_tests c cr make ->
  passes (sign_verify_sig_fail_test i make).
Proof.
  intros Q SAFE W. apply fail_passes; [exact Q|]. intros alg msg IN SU. apply in_table in IN.
  destruct (W alg IN SU) as (key & n & MK & L & _ & AW). set (f := BCons (BText text_payload) BNil).
  assert (FB : forest_bytes f = x67 :: text_payload) by reflexivity.
  assert (F : fits alg [] (x67 :: text_payload) n) by (apply fits_small; cbn; auto).
  assert (HK : holds NULL_UBUF []) by (right; split; reflexivity).
  destruct (test_signs alg key NULL_UBUF [] (Some 100) (x67 :: text_payload) n HK (AW _) F (fun _ => eq_refl)) as (log & me' & sig & S & SZ).
  set (m := test_bytes alg [] (x67 :: text_payload) sig) in *.
  destruct (payload_inside alg [] (x67 :: text_payload) sig) as (b0 & a0 & E0). fold m in E0.
  destruct (find_bytes_some test_payload (b0 ++ [x67]) a0) as (k & K).
  replace ((b0 ++ [x67]) ++ test_payload ++ a0) with m in K by (rewrite E0, app_assoc_reverse; reflexivity).
  destruct (tamper_iff m k K) as (b & a & FI & _).
  assert (LM : blen (b ++ text_hayload ++ a) <= 300).
  { destruct FI as [FI _]. assert (blen m = blen (b ++ text_hayload ++ a)) as <- by (rewrite FI, !blen_app; reflexivity).
    rewrite SZ. exact (proj1 F). }
  destruct (verify_safe c cr junk (test_verifier key (Some 100)) (b ++ text_hayload ++ a) NULL_UBUF (Some junk) false false [] []) as (lv & w & V & _).
  - reflexivity.
  - right. split; reflexivity.
  - discriminate.
  - now apply SAFE.
  - exists key, me', (UBuf m), m, b, a, w. split; [exact MK|]. split; [|split; [left; reflexivity|split; [exact FI|exists lv; exact V]]].
    rewrite <- FB in S. apply (test_steps alg key NULL_UBUF [] (Some 100) f) in S; auto.
    + cbn. lia.
    + vm_compute. tauto.
    + reflexivity.
    + exact (fits_max _ _ _ _ F).
Qed.

(** ** Auxiliary buffers *)
Theorem t_cose_bad_aux : safe_for_tests c cr -> library_for_tests c cr make ->
  passes (sign_verify_bad_auxiliary_buffer i make).
Proof.
  intros SAFE W. destruct (cr_is_supported cr (-8)) eqn:SU.
  2:{ unfold passes, sign_verify_bad_auxiliary_buffer. cbn [i t_cose i_supported]. change EDDSA with (-8)%Z. now rewrite SU. }
  destruct (W (-8)%Z ltac:(cbn; tauto) SU) as (key & n & MK & L & _ & AW). apply bad_aux_passes; [exact SU|].
  destruct (AW text_payload) as (EN & SW & _).
  assert (DE : dis_eddsa c = false) by (unfold enabled in EN; clear - EN; intuition discriminate).
  assert (HK : holds NULL_UBUF []) by (right; split; reflexivity).
  assert (F : fits (-8) [] text_payload n) by (apply fits_small; cbn; auto 10).
  set (tbs := sig_structure (protected_header (-8)) [] text_payload).
  assert (SG : forall a e, (e = ERR_AUXILIARY_BUFFER_SIZE /\ wb_len (aux_of a) < blen tbs) \/
     (e = ERR_NEED_AUXILIARY_BUFFER /\ blen tbs <= wb_len (aux_of a) /\ wb_null (aux_of a) = true) ->
     sign_error i (test_signer (-8) key NULL_UBUF a) text_payload 300 e).
  { intros a e H. set (q := test_request (-8) key [] (aux_of a)).
    assert (C : configured q (test_signer (-8) key NULL_UBUF a)) by (apply test_configured; exact HK).
    pose proof (test_message c (-8) key [] (aux_of a) text_payload []) as MSG. fold q in MSG.
    assert (R : is_ret (snd (sign_aad_internal c cr (test_signer (-8) key NULL_UBUF a) false (UBuf text_payload) NULL_UBUF (stack_buf 300)))).
    { apply (sign_safe c cr q _ false _ _ text_payload []); auto.
      - left. reflexivity.
      - assert (X : adapter_safe c cr [text_payload; []; []]) by (apply SAFE; vm_compute; discriminate).
        destruct X as [X _]. intros halg h l HS PW. apply (X halg h l HS). clear - PW. unfold pieces_within in *.
        cbn [longest fold_right] in *. lia || exact PW.
      - discriminate.
      - intros _ _ room RM POS. split; [intro X; now contradiction X|]. intros _ t. cbn iota in RM. rewrite MSG in RM.
        unfold signer_works in SW. cbn in SW. destruct SW as [_ SW].
        assert (LR : n <= room).
        { fold (test_bytes (-8) [] text_payload []) in RM. change (blen (test_bytes (-8) [] text_payload [])) with 16 in RM. cbn [stack_buf wb_len] in RM. lia. }
        destruct (SW t room LR) as (sg & E & _). cbn [q test_request q_key]. now rewrite E. }
    destruct (sign_aad_internal c cr (test_signer (-8) key NULL_UBUF a) false (UBuf text_payload) NULL_UBUF (stack_buf 300)) as [log [[[err me'] r]|w]] eqn:E; [|destruct R].
    destruct (eddsa_aux c cr q _ false (UBuf text_payload) NULL_UBUF text_payload [] 300 C (or_introl eq_refl) HK ltac:(discriminate) eq_refl DE eq_refl
      ltac:(intros (_ & _ & X); now apply X)) with (3 := E) as (_ & X1 & X2 & _).
    { cbn iota. rewrite MSG. vm_compute. discriminate. }
    { vm_compute. discriminate. }
    exists log, me', r. cbn [i t_cose i_sign]. unfold sign. unfold stack_buf in E. rewrite E.
    destruct H as [[-> H]|(-> & H1 & H2)]; [destruct (X1 H) as [-> _]|destruct (X2 H1 H2) as [-> _]]; reflexivity. }
  assert (VG : forall a e, (e = ERR_AUXILIARY_BUFFER_SIZE /\ wb_len (aux_of a) < blen tbs) \/
     (e = ERR_NEED_AUXILIARY_BUFFER /\ blen tbs <= wb_len (aux_of a) /\ wb_null (aux_of a) = true) ->
     exists w, answers i (test_verifier key a) signed_cose_made_by_pycose_eddsa false false w /\ w_err w = e).
  { intros a e H. set (q := test_request (-8) key [] (aux_of a)). set (vme := test_verifier key a).
    set (sg := skipn 17 signed_cose_made_by_pycose_eddsa).
    assert (MSG : signed_cose_made_by_pycose_eddsa = requested_message c q (Some text_payload) sg) by (unfold q; rewrite test_message; reflexivity).
    pose proof (asked_message c q (Some text_payload) sg EN I) as AM. rewrite <- MSG in AM. specialize (AM eq_refl).
    assert (AA : acceptable c (v_flags vme) false [] (asked c q (Some text_payload) sg) (asked_prot q) (asked_params c q) text_payload).
    { apply asked_acceptable; auto; try exact I; destruct a; discriminate. }
    assert (SK : short_circuit_kid c (asked_params c q) = false).
    { unfold short_circuit_kid. cbn. now destruct (dis_short_circuit c). }
    assert (UE : uses_eddsa c (asked_params c q) = true) by (unfold uses_eddsa; cbn; now rewrite DE).
    assert (VA : v_aux vme = aux_of a) by (destruct a; reflexivity).
    destruct (verify_eddsa_aux c cr junk vme signed_cose_made_by_pycose_eddsa NULL_UBUF None false false [] _ _ _ text_payload []
      ltac:(destruct a; reflexivity) (or_intror (conj eq_refl eq_refl)) ltac:(discriminate) AM AA SK UE) as (w & log & V & R).
    cbn [asked g_prot] in R. change (q_alg q) with (-8)%Z in R. fold tbs in R. rewrite VA in R.
    replace (decode_only (v_flags vme)) with false in R by (destruct a; reflexivity).
    destruct H as [[-> H]|(-> & H1 & H2)].
    - replace (_ <? _) with true in R by lia. destruct R as (_ & w' & -> & E & _). exists w'. split; [exists log; exact V|exact E].
    - replace (_ <? _) with false in R by lia. rewrite H2 in R. destruct R as (_ & w' & -> & E & _). exists w'. split; [exists log; exact V|exact E]. }
  destruct (VG None ERR_NEED_AUXILIARY_BUFFER) as (w1 & V1 & E1); [right; split; [reflexivity|split; [vm_compute; discriminate|reflexivity]]|].
  destruct (VG (Some 5) ERR_AUXILIARY_BUFFER_SIZE) as (w2 & V2 & E2); [left; split; [reflexivity|vm_compute; reflexivity]|].
  exists key, w1, w2. repeat (split; [assumption|]). split; apply SG.
  - right. split; [reflexivity|split; [vm_compute; discriminate|reflexivity]].
  - left. split; [reflexivity|vm_compute; reflexivity].
Qed.
End T.
