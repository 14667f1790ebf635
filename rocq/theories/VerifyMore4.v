(** What success of a verification says about the header parameters and tags. *)
From Verif Require Import Base Const QEnc QDec Crypto Util ShortCircuit Params Verify Sign Spec SignSpec Toy.
From Verif Require Import BaseFacts UtilFacts SignFacts SignProofs SignMore SignMore3.
From Verif Require Import DecSpec VerifySafe VerifyFacts VerifyCheck Unique Parts VerifyTop VerifyMore VerifyMore2 VerifyMore3 RoundTrip VerifySpec.
From Coq Require Import Lia ZifyBool ZifyNat ZifyN.
Ltac Zify.zify_post_hook ::= Z.div_mod_to_equations.
Open Scope N_scope. Open Scope list_scope.
Local Strategy 100 [create_tbs create_tbs_hash verify_decode].

Lemma succeeds_run c cr junk me msg aad payload want dc log w :
  verify_internal c cr junk me msg aad payload want dc = (log, Ret w) -> w_err w = T_SUCCESS ->
  succeeds c cr me msg aad payload want dc log w.
Proof. intros H E. split; [|exact E]. intro j. rewrite <- H. apply verify_junk. Qed.

(** The full consequences of success for a given message. *)
Lemma success_facts c cr me msg aad payload want dc log w ad gv g pm :
  call_ok me aad ad dc payload gv -> message msg g pm -> succeeds c cr me msg aad payload want dc log w ->
  exists p pl, acceptable c (v_flags me) dc gv g pm p pl /\ delivered me payload want dc p pl w /\
    (decode_only (v_flags me) = false ->
     accepted c cr (v_flags me) (v_key me) p (sig_structure (g_prot g) ad pl) (g_sig g)) /\
    aux_enough c me p (sig_structure (g_prot g) ad pl) /\
    v_tags (w_ctx w) = pad4 (returned (g_tags g)) /\
    v_aux_size (w_ctx w) = (if negb (short_circuit_kid c p) && uses_eddsa c p
                            then blen (sig_structure (g_prot g) ad pl) else v_aux_size me).
Proof.
  intros (Hv & HA & HG) Hm [H Hw].
  destruct (verify_sound_full _ _ _ _ _ _ _ _ _ _ _ _ _ Hv HA HG (H NULL_UBUF) Hw) as (g' & pm' & p & pl & Hm' & R).
  destruct (message_unique _ _ _ _ _ Hm Hm') as [<- <-]. eauto.
Qed.

Lemma success_message c cr me msg aad payload want dc log w ad gv :
  call_ok me aad ad dc payload gv -> succeeds c cr me msg aad payload want dc log w -> exists g pm, message msg g pm.
Proof.
  intros (Hv & HA & HG) [H Hw]. destruct (verify_sound _ _ _ _ _ _ _ _ _ _ _ _ _ Hv HA HG (H NULL_UBUF) Hw) as (g & pm & p & pl & Hm & _). eauto.
Qed.

Lemma bytes_from_one vs u : bytes_from vs u -> (length vs <= 1)%nat.
Proof. intros [[-> _]|(v & b & -> & _)]; cbn; lia. Qed.
Lemma alg_from_one vs a : alg_from vs a -> (length vs <= 1)%nat.
Proof. intros [[-> _]|(v & b & -> & _)]; cbn; lia. Qed.
Lemma crit_from_one vs ci ct : crit_from vs ci ct -> (length vs <= 1)%nat.
Proof. intros [[-> _]|(v & b & -> & _)]; cbn; lia. Qed.
Lemma ct_step_one vs x y : ct_step vs x y -> (length vs <= 1)%nat.
Proof. intro H. inversion H; cbn; lia. Qed.
Lemma ct_ignored_one vs : ct_ignored vs -> (length vs <= 1)%nat.
Proof. intros [->|(v & -> & _)]; cbn; lia. Qed.

(** C17 *)
Theorem protected_only c cr me msg aad payload want dc log w ad gv g pm :
  call_ok me aad ad dc payload gv -> message msg g pm -> succeeds c cr me msg aad payload want dc log w ->
  values 1 (g_unprot g) = [] /\ values 2 (g_unprot g) = [].
Proof.
  intros O Hm S. destruct (success_facts _ _ _ _ _ _ _ _ _ _ _ _ _ _ O Hm S) as (p & pl & [_ R A _ _ _ _] & _).
  split; [exact (rp_alg_prot _ _ _ _ R)|exact A].
Qed.

(** C18 *)
Lemma upto0_all zs : ~ In 0%Z zs -> upto0 zs = zs.
Proof.
  induction zs as [|z zs IH]; intro H; [reflexivity|]. cbn [upto0]. destruct (Z.eqb_spec z 0) as [->|E].
  - exfalso. apply H. now left.
  - f_equal. apply IH. intro I. apply H. now right.
Qed.

Theorem unknown_critical c cr me msg aad payload want dc log w ad gv g pm v xs :
  call_ok me aad ad dc payload gv -> message msg g pm -> succeeds c cr me msg aad payload want dc log w ->
  allows_unknown_crit (v_flags me) = false ->
  In v (values 2 pm) -> body v = CArray xs ->
  (forall s, In s (listed_texts xs) -> ~ In s (text_labels (all_params g pm))) /\
  (forall z, In z (upto0 (listed_ints xs)) -> ~ In z (int_labels (all_params g pm))) /\
  (~ In 0%Z (listed_ints xs) -> forall z, In z (listed_ints xs) -> ~ In z (int_labels (all_params g pm))).
Proof.
  intros O Hm S U I B. destruct (success_facts _ _ _ _ _ _ _ _ _ _ _ _ _ _ O Hm S) as (p & pl & [_ _ _ (ci & ct & C & K) _ _ _] & _).
  destruct C as [(E & _)|(v' & xs' & E & _ & B' & _ & -> & -> & _)]; [rewrite E in I; destruct I|].
  rewrite E in I. destruct I as [->|[]]. rewrite B in B'. injection B' as <-.
  destruct K as [K|[K1 K2]]; [congruence|]. split; [exact K2|]. split; [exact K1|].
  intros N. rewrite <- (upto0_all _ N). exact K1.
Qed.

(** C19 *)
Theorem alg_exact c cr me msg aad payload want dc log w ad gv g pm v :
  call_ok me aad ad dc payload gv -> message msg g pm -> succeeds c cr me msg aad payload want dc log w ->
  In v (values 1 (all_params g pm)) ->
  exists z, int_value v = Some z /\ (z <= 2147483647)%Z /\ z <> 0%Z /\
    ((-2147483648 <= z)%Z ->
      (forall p, w_params w = Some p -> p_alg p = z) /\
      (forall a k kid h s, In (EvVerify a k kid h s) log -> a = z)).
Proof.
  intros O Hm S I. destruct (success_facts _ _ _ _ _ _ _ _ _ _ _ _ _ _ O Hm S) as (p & pl & Ac & D & _).
  pose proof (ac_params _ _ _ _ _ _ _ _ Ac) as R.
  unfold all_params in I. rewrite values_app, (rp_alg_prot _ _ _ _ R), app_nil_r in I.
  destruct (rp_alg _ _ _ _ R) as [[E _]|(v' & z & E & _ & Z & N & L & A)]; rewrite E in I; [destruct I|]; destruct I as [->|[]].
  exists z. split; [exact Z|]. split; [exact L|]. split; [exact N|]. intro G.
  assert (PA : p_alg p = z). { rewrite A. unfold to_int32. clear - L G. lia. }
  split.
  - intros p' E'. destruct D as (_ & D & _). rewrite D in E'. destruct want; [|discriminate]. injection E' as <-. exact PA.
  - intros a k kid h s J. destruct O as (Hv & HA & HG).
    destruct (verify_calls _ _ _ _ _ _ _ _ _ _ _ _ _ Hv HA HG (proj1 S NULL_UBUF)) as [->|(_ & g' & pm' & p' & pl' & Hm' & Ac' & _ & Ev & _)]; [destruct J|].
    destruct (message_unique _ _ _ _ _ Hm Hm') as [<- <-].
    pose proof (reported_det _ _ _ _ _ R (ac_params _ _ _ _ _ _ _ _ Ac')) as <-.
    specialize (Ev _ J). cbn in Ev. destruct Ev as [-> _]. exact PA.
Qed.

(** C20 *)
Lemma ct_both vs ws y x : ct_step vs (UNull 0, 65536) y -> ct_step ws y x -> forall v v', In v vs -> In v' ws ->
  (exists s n, body v = CText s /\ body v' = CUInt n) \/ (exists s n, body v = CUInt n /\ body v' = CText s) \/
  (exists s, body v = CText [] /\ body v' = CText s).
Proof.
  intros T1 T2 v v' I I'. destruct y as [u n]. inversion T1; subst; [destruct I| |]; destruct I as [<-|[]];
    (inversion T2; subst; [destruct I'| |]; destruct I' as [<-|[]]); try lia; eauto 10.
  match goal with H : UBuf ?s = UNull 0 \/ UBuf ?s = UBuf [] |- _ => destruct H as [H|H]; [discriminate|injection H as ->] end. eauto 10.
Qed.

Lemma ct_reported vs ws y u n : ct_step vs (UNull 0, 65536) y -> ct_step ws y (u, n) ->
  (forall v, In v (vs ++ ws) -> (exists n', body v = CUInt n' /\ n' < 65536 /\ n = n') \/ exists s, body v = CText s) /\
  (n = 65536 \/ n < 65536 /\ exists v, In v (vs ++ ws) /\ body v = CUInt n) /\
  (u = UNull 0 \/ exists v s, In v (vs ++ ws) /\ body v = CText s /\ u = UBuf s) /\
  (forall v s, In v (vs ++ ws) -> body v = CText s -> s <> [] -> u = UBuf s) /\
  (vs ++ ws = [] -> u = UNull 0 /\ n = 65536).
Proof.
  intros T1 T2. destruct y as [u1 n1]. inversion T1; subst; inversion T2; subst; cbn [app];
    (split; [intros vv I; cbn [In] in I; intuition (subst; try lia; eauto 10)|]);
    (split; [first [left; reflexivity | right; split; [assumption|]; eexists; split; [|eassumption]; cbn [In]; now auto]|]);
    (split; [first [left; reflexivity | right; do 2 eexists; split; [|split; [eassumption|reflexivity]]; cbn [In]; now auto]|]);
    (split; [intros vv ss I B NE; cbn [In] in I; intuition (subst; try congruence)|intros X; try discriminate; auto]).
Qed.

Theorem no_duplicates c cr me msg aad payload want dc log w ad gv g pm :
  call_ok me aad ad dc payload gv -> message msg g pm -> succeeds c cr me msg aad payload want dc log w ->
  (forall z, In z [1; 2; 4; 5; 6]%Z -> (length (values z (all_params g pm)) <= 1)%nat) /\
  (length (values 3 pm) <= 1)%nat /\ (length (values 3 (g_unprot g)) <= 1)%nat /\
  (dis_content_type c = false -> forall v v', In v (values 3 pm) -> In v' (values 3 (g_unprot g)) ->
     (exists s n, body v = CText s /\ body v' = CUInt n) \/ (exists s n, body v = CUInt n /\ body v' = CText s) \/
     (exists s, body v = CText [] /\ body v' = CText s)).
Proof.
  intros O Hm S. destruct (success_facts _ _ _ _ _ _ _ _ _ _ _ _ _ _ O Hm S) as (p & pl & [_ R A2 (ci & ct & C & _) _ _ _] & _).
  destruct R as [A1 A K V Q T]. split; [|].
  - intros z I. unfold all_params. destruct I as [<-|[<-|[<-|[<-|[<-|[]]]]]].
    + rewrite values_app, A1, app_nil_r. exact (alg_from_one _ _ A).
    + rewrite values_app, A2, app_nil_r. exact (crit_from_one _ _ _ C).
    + exact (bytes_from_one _ _ K).
    + exact (bytes_from_one _ _ V).
    + exact (bytes_from_one _ _ Q).
  - destruct (dis_content_type c).
    + destruct T as (T1 & T2 & _). split; [now apply ct_ignored_one|]. split; [now apply ct_ignored_one|discriminate].
    + destruct T as (y & T1 & T2). split; [exact (ct_step_one _ _ _ T1)|]. split; [exact (ct_step_one _ _ _ T2)|]. intros _ v v' I I'.
      exact (ct_both _ _ _ _ T1 T2 _ _ I I').
Qed.

(** C21 *)
Theorem content_type_exact c cr me msg aad payload want dc log w ad gv g pm p :
  call_ok me aad ad dc payload gv -> message msg g pm -> succeeds c cr me msg aad payload want dc log w ->
  w_params w = Some p -> dis_content_type c = false ->
  let vs := values 3 (all_params g pm) in
  (forall v, In v vs -> (exists n, body v = CUInt n /\ n < 65536 /\ p_ct_uint p = n) \/ exists s, body v = CText s) /\
  (p_ct_uint p = 65536 \/ p_ct_uint p < 65536 /\ exists v, In v vs /\ body v = CUInt (p_ct_uint p)) /\
  (p_ct_tstr p = UNull 0 \/ exists v s, In v vs /\ body v = CText s /\ p_ct_tstr p = UBuf s) /\
  (forall v s, In v vs -> body v = CText s -> s <> [] -> p_ct_tstr p = UBuf s) /\
  (vs = [] -> p_ct_tstr p = UNull 0 /\ p_ct_uint p = 65536).
Proof.
  intros O Hm S W Dc vs. destruct (success_facts _ _ _ _ _ _ _ _ _ _ _ _ _ _ O Hm S) as (p' & pl & [_ R _ _ _ _ _] & (_ & D & _) & _).
  rewrite D in W. destruct want; [|discriminate]. injection W as ->.
  pose proof (rp_ct _ _ _ _ R) as T. rewrite Dc in T. unfold vs, all_params. rewrite values_app.
  destruct T as (y & T1 & T2). exact (ct_reported _ _ _ _ _ T1 T2).
Qed.

(** C22 *)
Theorem tag_policy c cr me me2 msg aad payload want dc log w ad gv g pm :
  call_ok me aad ad dc payload gv -> message msg g pm -> succeeds c cr me msg aad payload want dc log w ->
  v_key me2 = v_key me -> v_aux me2 = v_aux me -> length (v_tags me2) = 4%nat ->
  (forall n, n <> 2 -> n <> 4 -> N.testbit (v_flags me2) n = N.testbit (v_flags me) n) ->
  tag_accepted (v_flags me) g /\
  ((exists w2, succeeds c cr me2 msg aad payload want dc log w2 /\ w_payload w2 = w_payload w /\ w_params w2 = w_params w)
     <-> tag_accepted (v_flags me2) g).
Proof.
  intros O Hm S K A L B. destruct (success_facts _ _ _ _ _ _ _ _ _ _ _ _ _ _ O Hm S) as (p & pl & Ac & _).
  pose proof O as (Hv & HA & HG). destruct S as [S Hw].
  split; [exact (ac_tag _ _ _ _ _ _ _ _ Ac)|]. split.
  - intros (w2 & [S2 Hw2] & _).
    destruct (verify_sound_message _ _ _ _ _ _ _ _ _ _ _ _ _ _ _ L HA HG Hm (S2 NULL_UBUF) Hw2) as (p2 & pl2 & Ac2 & _).
    exact (ac_tag _ _ _ _ _ _ _ _ Ac2).
  - intro T. destruct Ac as [_ A2 A3 A4 A5 A6 A7].
    destruct (verify_transfer c cr NULL_UBUF me me2 msg aad payload want dc log w ad gv g pm p pl) as (w2 & E & E1 & E2 & E3); auto.
    + unfold alike, allows_short_circuit, decode_only. rewrite !B by lia. auto.
    + constructor; auto.
      * unfold crit_ok, allows_unknown_crit in *. rewrite B by lia. exact A4.
      * unfold kid_ok, requires_kid in *. rewrite B by lia. exact A7.
    + exists w2. split; [eapply succeeds_run; eassumption|auto].
Qed.

(** C25 *)
Theorem limits c cr me msg aad payload want dc log w ad gv g pm :
  call_ok me aad ad dc payload gv -> message msg g pm -> succeeds c cr me msg aad payload want dc log w ->
  (length (nonzero (int_labels (all_params g pm))) <= 10)%nat /\ (length (text_labels (all_params g pm)) <= 10)%nat /\
  (forall v xs, In v (values 2 pm) -> body v = CArray xs ->
     (length (listed_ints xs) <= 10)%nat /\ (length (listed_texts xs) <= 10)%nat).
Proof.
  intros O Hm S. destruct (success_facts _ _ _ _ _ _ _ _ _ _ _ _ _ _ O Hm S) as (p & pl & [_ _ _ (ci & ct & C & _) L _ _] & _).
  destruct (labels_len _ L). split; [assumption|]. split; [assumption|]. intros v xs I B.
  destruct C as [(E & _)|(v' & xs' & E & _ & B' & _ & -> & -> & ? & ? & _)]; [rewrite E in I; destruct I|].
  rewrite E in I. destruct I as [->|[]]. rewrite B in B'. injection B' as <-. auto.
Qed.

(** Parameters within the limits are accepted. *)
Theorem limits_suffice c cr me msg aad payload want dc ad gv g pm p pl ci ct :
  call_ok me aad ad dc payload gv -> message msg g pm ->
  decode_only (v_flags me) = true -> uses_eddsa c p = false ->
  tag_accepted (v_flags me) g -> reported c g pm p -> kid_ok (v_flags me) p -> payload_is g dc gv pl ->
  values 2 (g_unprot g) = [] ->
  (values 2 pm = [] /\ ci = [] /\ ct = [] \/
   exists v xs, values 2 pm = [v] /\ readable v /\ body v = CArray xs /\ Forall label_item xs /\ ci = listed_ints xs /\ ct = listed_texts xs /\
     (hd 0%Z ci <> 0%Z \/ hd [] ct <> [])) ->
  (length ci <= 10)%nat -> (length ct <= 10)%nat -> crit_ok (v_flags me) ci ct (all_params g pm) ->
  Forall (fun kv => understood (fst kv) = false -> odd_label (fst kv) = false) (all_params g pm) ->
  ~ In 0%Z (int_labels (all_params g pm)) ->
  (length (int_labels (all_params g pm)) <= 10)%nat -> (length (text_labels (all_params g pm)) <= 10)%nat ->
  exists w, succeeds c cr me msg aad payload want dc [] w.
Proof.
  intros (Hv & HA & HG) Hm Do NE T R K P C2 C L1 L2 CO F Z L3 L4.
  destruct (verify_complete c cr NULL_UBUF me msg aad payload want dc ad gv g pm p pl) as (log & w & E & D & _); auto.
  - constructor; auto.
    + exists ci, ct. split; [|exact CO]. destruct C as [C|(v & xs & C1 & Cr & CB & CL & Ei & Et & CH)]; [left; exact C|].
      right. exists v, xs. auto 10.
    + split; [exact F|]. split; [|exact L4]. apply ints_fit_iff; [exact Z|lia|lia].
  - intro X. congruence.
  - intros _ X. congruence.
  - exists w. assert (log = []).
    { pose proof (decode_only_independent c cr cr NULL_UBUF me me msg aad payload want dc eq_refl eq_refl eq_refl Do) as [_ N]. now rewrite E in N. }
    subst log. eapply succeeds_run; eassumption.
Qed.

(** C26 *)
Theorem require_kid c cr me msg aad payload want dc log w ad gv g pm :
  call_ok me aad ad dc payload gv -> message msg g pm -> succeeds c cr me msg aad payload want dc log w ->
  requires_kid (v_flags me) = true -> exists v b, values 4 (all_params g pm) = [v] /\ body v = CBytes b.
Proof.
  intros O Hm S Q. destruct (success_facts _ _ _ _ _ _ _ _ _ _ _ _ _ _ O Hm S) as (p & pl & [_ [_ _ K _ _ _] _ _ _ _ Kk] & _).
  specialize (Kk Q). destruct K as [[_ K]|(v & b & E & _ & B & _)]; [contradiction|eauto].
Qed.

Theorem require_kid_only c cr me me2 msg aad payload want dc log w ad gv g pm :
  call_ok me aad ad dc payload gv -> message msg g pm -> succeeds c cr me msg aad payload want dc log w ->
  v_key me2 = v_key me -> v_aux me2 = v_aux me -> length (v_tags me2) = 4%nat ->
  (forall n, n <> 1 -> N.testbit (v_flags me2) n = N.testbit (v_flags me) n) ->
  requires_kid (v_flags me2) = false \/ values 4 (all_params g pm) <> [] ->
  exists w2, succeeds c cr me2 msg aad payload want dc log w2 /\ w_payload w2 = w_payload w /\ w_params w2 = w_params w.
Proof.
  intros O Hm S K A L B Q. destruct (success_facts _ _ _ _ _ _ _ _ _ _ _ _ _ _ O Hm S) as (p & pl & Ac & _).
  pose proof O as (Hv & HA & HG). destruct S as [S Hw]. destruct Ac as [A1 A2 A3 A4 A5 A6 A7].
  destruct (verify_transfer c cr NULL_UBUF me me2 msg aad payload want dc log w ad gv g pm p pl) as (w2 & E & E1 & E2 & E3); auto.
  - unfold alike, allows_short_circuit, decode_only. rewrite !B by lia. auto.
  - constructor; auto.
    + unfold tag_accepted, requires_tag, prohibits_tag in *. rewrite !B by lia. exact A1.
    + unfold crit_ok, allows_unknown_crit in *. rewrite B by lia. exact A4.
    + unfold kid_ok. destruct Q as [-> |Q]; [discriminate|]. intros _. destruct (rp_kid _ _ _ _ A2) as [[X _]|(v & b & _ & _ & _ & ->)]; [contradiction|discriminate].
  - exists w2. split; [eapply succeeds_run; eassumption|auto].
Qed.

(** C27 *)
Theorem aux_size_reported c cr me msg aad payload want dc log w ad gv g pm p :
  call_ok me aad ad dc payload gv -> message msg g pm -> succeeds c cr me msg aad payload want dc log w ->
  reported c g pm p ->
  exists pl, payload_is g dc gv pl /\
  verify_auxiliary_buffer_size c (w_ctx w) =
    if negb (short_circuit_kid c p) && uses_eddsa c p then blen (sig_structure (g_prot g) ad pl)
    else verify_auxiliary_buffer_size c me.
Proof.
  intros O Hm S R. destruct (success_facts _ _ _ _ _ _ _ _ _ _ _ _ _ _ O Hm S) as (p' & pl & Ac & _ & _ & _ & _ & X).
  pose proof (reported_det _ _ _ _ _ R (ac_params _ _ _ _ _ _ _ _ Ac)) as <-. exists pl. split; [exact (ac_payload _ _ _ _ _ _ _ _ Ac)|].
  unfold verify_auxiliary_buffer_size. destruct (dis_eddsa c) eqn:E.
  - unfold uses_eddsa. rewrite E. cbn [negb andb]. rewrite andb_false_r. reflexivity.
  - exact X.
Qed.

Theorem aux_size_first c cr flags k aux msg aad payload want dc log w ad gv g pm p :
  let me := verify_set_auxiliary_buffer (set_verification_key (verify_init flags) k) aux in
  call_ok me aad ad dc payload gv -> message msg g pm -> succeeds c cr me msg aad payload want dc log w ->
  reported c g pm p ->
  exists pl, payload_is g dc gv pl /\
  verify_auxiliary_buffer_size c (w_ctx w) =
    if negb (short_circuit_kid c p) && uses_eddsa c p then blen (sig_structure (g_prot g) ad pl) else 0.
Proof.
  intros me O Hm S R. destruct (aux_size_reported _ _ _ _ _ _ _ _ _ _ _ _ _ _ _ O Hm S R) as (pl & P & E).
  exists pl. split; [exact P|]. rewrite E. destruct (negb _ && _); [reflexivity|].
  unfold verify_auxiliary_buffer_size. now destruct (dis_eddsa c).
Qed.

(** C16 *)
Theorem outputs_on_success c cr junk me msg aad payload want dc log w :
  verify_internal c cr junk me msg aad payload want dc = (log, Ret w) ->
  (w_err w <> T_SUCCESS -> w_payload w = None /\ w_params w = None) /\ (dc = true -> w_payload w = None).
Proof.
  intro H. unfold verify_internal in H. apply mbind_ret_inv in H as (l1 & [[e|m] me1] & l2 & _ & H2 & ->).
  - injection H2 as _ <-. cbn. auto.
  - apply mbind_ret_inv in H2 as (l3 & [err me2] & l4 & _ & H4 & ->). destruct (terr_eqb err T_SUCCESS) eqn:T.
    + injection H4 as _ <-. cbn. apply terr_eqb_eq in T. split; [contradiction|]. intros ->. destruct payload; reflexivity.
    + injection H4 as _ <-. cbn. auto.
Qed.

(** C14 *)
Theorem short_circuit_refused c cr me msg aad payload want dc ad gv :
  call_ok me aad ad dc payload gv -> allows_short_circuit (v_flags me) = false -> decode_only (v_flags me) = false ->
  forall g pm v b, message msg g pm -> In v (values 4 (all_params g pm)) -> body v = CBytes b -> b = reserved_kid -> dis_short_circuit c = false ->
  forall junk log r, verify_internal c cr junk me msg aad payload want dc = (log, r) ->
  log = [] /\ (forall w, r = Ret w -> w_err w <> T_SUCCESS).
Proof.
  intros (Hv & HA & HG) NA ND g pm v b Hm I B Eb Ds junk log r H.
  assert (SK : forall p, reported c g pm p -> short_circuit_kid c p = true).
  { intros p R. unfold short_circuit_kid. rewrite Ds. cbn [negb andb].
    destruct (rp_kid _ _ _ _ R) as [[E _]|(v' & b' & E & _ & B' & ->)]; rewrite E in I; [destruct I|]; destruct I as [->|[]].
    rewrite B in B'. injection B' as <-. subst b. reflexivity. }
  split.
  - destruct (verify_calls _ _ _ _ _ _ _ _ _ _ _ _ _ Hv HA HG H) as [->|(_ & g' & pm' & p & pl & Hm' & Ac & Sc & _)]; [reflexivity|].
    destruct (message_unique _ _ _ _ _ Hm Hm') as [<- <-]. specialize (Sc (SK p (ac_params _ _ _ _ _ _ _ _ Ac))). congruence.
  - intros w -> Hw. destruct (verify_sound_message _ _ _ _ _ _ _ _ _ _ _ _ _ _ _ Hv HA HG Hm H Hw) as (p & pl & Ac & _ & Acc).
    specialize (Acc ND). unfold accepted in Acc. rewrite (SK p (ac_params _ _ _ _ _ _ _ _ Ac)) in Acc. destruct Acc as [Acc _]. congruence.
Qed.

(** ** Facts about the toy adapter *)

Lemma toy_one_digest : one_digest toy.
Proof. intros halg data d d' H H'. rewrite (toy_hash_is _ _ _ H). symmetry. exact (toy_hash_is _ _ _ H'). Qed.

Lemma toy_safe c parts : adapter_safe c toy parts.
Proof.
  split; [|split; intros; exact I]. intros halg h l _ _. destruct (toy_updates l h) as [h' H]. exists h'. split; [exact H|].
  cbn [cr_hash_finish toy]. destruct (_ <? 32); exact I.
Qed.

Lemma toy_null : null_is_empty toy.
Proof. intro h. reflexivity. Qed.

Lemma toy_keys alg k k' : keys_match toy alg k k'.
Proof.
  split; intros d room sig kid H; cbn [cr_sign cr_sign_eddsa toy] in H; destruct (room <? 64); try discriminate; injection H as <-;
    cbn [cr_verify cr_verify_eddsa toy]; rewrite bytes_eqb_refl; reflexivity.
Qed.

Lemma toy_call flags : call_ok (toy_verifier flags) (UBuf toy_aad) toy_aad false (Some NULL_UBUF) [].
Proof. split; [reflexivity|]. split; [now left|discriminate]. Qed.

(** ** Round trips through the public functions *)

Theorem inline_round_trip c cr q me payload pl n log me' m vme junk out want :
  configured q me -> holds payload pl -> n < 2 ^ 64 ->
  sign c cr me payload {| wb_null := false; wb_len := n |} = (log, Ret (T_SUCCESS, me', Some (UBuf m))) ->
  length (v_tags vme) = 4%nat -> demands_met q (v_flags vme) ->
  keys_match cr (q_alg q) (q_key q) (v_key vme) -> one_digest cr -> hash_reliable c cr [pl] ->
  wants_short_circuit (q_flags q) = false -> q_kid q <> reserved_kid \/ dis_short_circuit c = true ->
  (q_alg q = (-8)%Z -> wb_null (v_aux vme) = false /\ blen (requested_tbs q [] pl) <= wb_len (v_aux vme)) ->
  exists log' w, verify c cr junk vme m out want = (log', Ret w) /\
    w_err w = T_SUCCESS /\
    w_params w = (if want then Some (asked_params c q) else None) /\
    w_payload w = match out with Some _ => Some (UBuf pl) | None => None end.
Proof.
  intros C P L S V D K O R W Q A. unfold sign in S. unfold verify.
  assert (N0 : holds NULL_UBUF []) by (right; auto).
  destruct (round_trip c cr q me false payload NULL_UBUF pl [] n log me' m vme junk NULL_UBUF out want) as (log' & w & E & X); auto.
  - discriminate.
  - eapply hash_reliable_mono; [|exact R]. cbn [longest fold_right]. change (blen (@nil byte)) with 0. lia.
  - rewrite W. exact Q.
  - exists log', w. split; [exact E|]. exact X.
Qed.

Theorem detached_round_trip c cr q me payload aad pl ad n log me' m vme junk aad' payload' want :
  configured q me -> holds payload pl -> holds aad ad -> n < 2 ^ 64 ->
  sign_detached c cr me aad payload {| wb_null := false; wb_len := n |} = (log, Ret (T_SUCCESS, me', Some (UBuf m))) ->
  length (v_tags vme) = 4%nat -> holds aad' ad -> holds payload' pl -> demands_met q (v_flags vme) ->
  keys_match cr (q_alg q) (q_key q) (v_key vme) -> one_digest cr -> hash_reliable c cr [ad; pl] ->
  wants_short_circuit (q_flags q) = false -> q_kid q <> reserved_kid \/ dis_short_circuit c = true ->
  (q_alg q = (-8)%Z -> wb_null (v_aux vme) = false /\ blen (requested_tbs q ad pl) <= wb_len (v_aux vme)) ->
  exists log' w, verify_detached c cr junk vme m aad' payload' want = (log', Ret w) /\
    w_err w = T_SUCCESS /\
    w_params w = (if want then Some (asked_params c q) else None) /\ w_payload w = None.
Proof.
  intros C P HA L S V HA' P' D K O R W Q A. unfold sign_detached in S. unfold verify_detached.
  destruct (round_trip c cr q me true payload aad pl ad n log me' m vme junk aad' (Some payload') want) as (log' & w & E & X); auto.
  - intros _. eauto.
  - rewrite W. exact Q.
  - exists log', w. split; [exact E|]. exact X.
Qed.

Theorem sc_round_trip c cr q me (det : bool) payload aad pl ad n log me' m vme junk aad' payload' want :
  configured q me -> holds payload pl -> holds aad ad -> n < 2 ^ 64 ->
  sign_aad_internal c cr me det payload aad {| wb_null := false; wb_len := n |} = (log, Ret (T_SUCCESS, me', Some (UBuf m))) ->
  wants_short_circuit (q_flags q) = true -> requested_kid q = reserved_kid ->
  (forall halg data d, hash_for (q_alg q) = Some halg -> digest_of cr halg data d -> d <> [] /\ blen d <= ecdsa_sig_size (q_alg q)) ->
  length (v_tags vme) = 4%nat -> holds aad' ad -> detached_arg det payload' pl -> demands_met q (v_flags vme) ->
  allows_short_circuit (v_flags vme) = true -> one_digest cr -> hash_reliable c cr [ad; pl] ->
  exists log' w, verify_internal c cr junk vme m aad' payload' want det = (log', Ret w) /\
    delivered vme payload' want det (asked_params c q) pl w.
Proof.
  intros C P HA L S W K D V HA' P' De Al O R.
  apply (round_trip c cr q me det payload aad pl ad n log me' m vme junk aad' payload' want); auto; rewrite W; try discriminate. auto.
Qed.

Theorem asked_params_spec c q :
  p_alg (asked_params c q) = q_alg q /\
  u_data (p_kid (asked_params c q)) = requested_kid q /\
  (q_kid q <> [] -> requested_kid q = q_kid q) /\
  (dis_content_type c = false -> forall n, q_ct_uint q = Some n -> q_ct_text q = None -> p_ct_uint (asked_params c q) = n) /\
  (dis_content_type c = false -> forall s, q_ct_text q = Some s -> q_ct_uint q = None -> p_ct_tstr (asked_params c q) = UBuf s).
Proof.
  unfold asked_params, requested_ct. cbn [p_alg p_kid p_ct_uint p_ct_tstr]. split; [reflexivity|]. split; [destruct (requested_kid q); reflexivity|].
  split; [unfold requested_kid; destruct (q_kid q); [contradiction|reflexivity]|].
  split; intros -> x E1 E2; rewrite ?E1, ?E2, ?E1; reflexivity.
Qed.

Theorem sign_output_on_success c cr me det payload aad buf log err me' r :
  sign_aad_internal c cr me det payload aad buf = (log, Ret (err, me', r)) -> err <> T_SUCCESS -> r = None.
Proof.
  unfold sign_aad_internal. intros H E.
  destruct (encode_parameters_internal c me det (enc_init buf)) as [[e1 me1] en]. destruct (negb (terr_eqb e1 T_SUCCESS)); [injection H as _ _ _ <-; reflexivity|].
  apply mbind_ret_inv in H as (l1 & [[e2 me2] en2] & l2 & _ & H & ->). destruct (negb (terr_eqb e2 T_SUCCESS)); [injection H as _ _ _ <-; reflexivity|].
  destruct (negb (terr_eqb (enc_error_to_terr (enc_error en2)) T_SUCCESS)); [injection H as _ _ _ <-; reflexivity|].
  unfold enc_finish in H. destruct (enc_error en2); try (injection H as _ _ _ <-; reflexivity).
  destruct (e_nest en2); injection H as _ <- _ <-; [contradiction|reflexivity].
Qed.

Theorem fresh_tags flags n : n < 4 -> get_nth_tag (verify_init flags) n = Ret 0.
Proof.
  intro L. assert (E : n = 0 \/ n = 1 \/ n = 2 \/ n = 3) by lia.
  destruct E as [->|[->|[->| ->]]]; reflexivity.
Qed.

Theorem decoding_safe c junk me msg payload is_dc :
  length (v_tags me) = 4%nat -> (is_dc = true -> payload <> None) ->
  exists r me', verify_decode c junk me msg payload is_dc = Ret (r, me') /\ length (v_tags me') = 4%nat.
Proof. intros V P. destruct (decode_ret c junk me msg payload is_dc V P) as (r & me' & E & K & _). eauto. Qed.

Theorem sc_tamper c cr H size me me2 msg msg2 aad aad2 payload payload2 want want2 dc dc2 log log2 w w2 ad ad2 gv gv2 g g2 pm pm2 p p2 :
  hash_is cr H -> (forall halg data, length (H halg data) = size halg) ->
  call_ok me aad ad dc payload gv -> call_ok me2 aad2 ad2 dc2 payload2 gv2 ->
  message msg g pm -> message msg2 g2 pm2 -> reported c g pm p -> reported c g2 pm2 p2 ->
  short_circuit_kid c p = true -> short_circuit_kid c p2 = true -> p_alg p = p_alg p2 ->
  decode_only (v_flags me) = false -> decode_only (v_flags me2) = false ->
  succeeds c cr me msg aad payload want dc log w -> succeeds c cr me2 msg2 aad2 payload2 want2 dc2 log2 w2 ->
  blen msg < 2 ^ 64 -> blen ad < 2 ^ 64 -> blen gv < 2 ^ 64 -> blen msg2 < 2 ^ 64 -> blen ad2 < 2 ^ 64 -> blen gv2 < 2 ^ 64 ->
  (forall halg, hash_for (p_alg p) = Some halg -> firstn (size halg) (g_sig g) = firstn (size halg) (g_sig g2)) ->
  exists pl pl2, payload_is g dc gv pl /\ payload_is g2 dc2 gv2 pl2 /\
  ((g_prot g = g_prot g2 /\ ad = ad2 /\ pl = pl2) \/
   exists halg x y, hash_for (p_alg p) = Some halg /\ x <> y /\ H halg x = H halg y).
Proof.
  intros HI HS O O2 Hm Hm2 R R2 SC SC2 EA D D2 S S2 L1 L2 L3 L4 L5 L6 F.
  destruct (success_facts _ _ _ _ _ _ _ _ _ _ _ _ _ _ O Hm S) as (q & pl & Ac & _ & Acc & _).
  destruct (success_facts _ _ _ _ _ _ _ _ _ _ _ _ _ _ O2 Hm2 S2) as (q2 & pl2 & Ac2 & _ & Acc2 & _).
  pose proof (reported_det _ _ _ _ _ R (ac_params _ _ _ _ _ _ _ _ Ac)) as <-.
  pose proof (reported_det _ _ _ _ _ R2 (ac_params _ _ _ _ _ _ _ _ Ac2)) as <-.
  exists pl, pl2. pose proof (ac_payload _ _ _ _ _ _ _ _ Ac) as Y. pose proof (ac_payload _ _ _ _ _ _ _ _ Ac2) as Y2.
  split; [exact Y|]. split; [exact Y2|].
  specialize (Acc D). specialize (Acc2 D2). unfold accepted in Acc, Acc2. rewrite SC in Acc. rewrite SC2 in Acc2.
  destruct Acc as (_ & halg & d & rest & Hf & _ & Hd & Es), Acc2 as (_ & halg2 & d2 & rest2 & Hf2 & _ & Hd2 & Es2).
  assert (halg2 = halg) by congruence. subst halg2. specialize (F _ Hf). rewrite Es, Es2 in F.
  rewrite (HI _ _ _ Hd), (HI _ _ _ Hd2) in F.
  rewrite <- (HS halg (sig_structure (g_prot g) ad pl)) in F at 1.
  rewrite <- (HS halg (sig_structure (g_prot g2) ad2 pl2)) in F.
  rewrite !firstn_app, !firstn_all, !PeanoNat.Nat.sub_diag in F. cbn [firstn] in F. rewrite !app_nil_r in F.
  destruct (list_eq_dec Byte.byte_eq_dec (sig_structure (g_prot g) ad pl) (sig_structure (g_prot g2) ad2 pl2)) as [E|E].
  - left. destruct (message_lens _ _ _ Hm) as (M1 & _ & M2), (message_lens _ _ _ Hm2) as (M3 & _ & M4).
    specialize (M2 _ _ _ Y). specialize (M4 _ _ _ Y2). apply sig_structure_inj in E; [exact E|lia..].
  - right. exists halg. do 2 eexists. split; [exact Hf|]. split; [exact E|exact F].
Qed.
