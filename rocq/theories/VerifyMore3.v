(** NULL buffers, returned buffers, message ends, tags, limits, collisions. *)
From Verif Require Import Base Const QEnc QDec Crypto Util ShortCircuit Params Verify Spec SignSpec.
From Verif Require Import BaseFacts UtilFacts SignFacts SignProofs SignMore SignMore3.
From Verif Require Import DecSpec VerifySafe VerifyFacts VerifyCheck Unique Parts VerifyTop VerifyMore VerifyMore2 VerifySpec.
From Coq Require Import Lia ZifyBool ZifyNat ZifyN.
Ltac Zify.zify_post_hook ::= Z.div_mod_to_equations.
Open Scope N_scope. Open Scope list_scope.
Local Strategy 100 [create_tbs create_tbs_hash verify_decode].

(** ** NULL and empty *)

(** Buffers that mean the same: equal, or NULL with length 0 and empty. *)
Definition nullish (u u' : ubufc) : Prop :=
  u = u' \/ (u = UNull 0 /\ u' = UBuf []) \/ (u = UBuf [] /\ u' = UNull 0).

Lemma hash_bstr_nullish cr h u u' : null_is_empty cr -> nullish u u' ->
  snd (hash_bstr cr h u) = snd (hash_bstr cr h u').
Proof.
  intros N [->|[[-> ->]|[-> ->]]]; [reflexivity| |]; unfold hash_bstr; (apply snd_mbind; [reflexivity|]); intro h3; cbn; rewrite N; reflexivity.
Qed.

Lemma tbs_hash_nullish c cr alg prot a a' y y' n :
  null_is_empty cr -> nullish a a' -> nullish y y' ->
  snd (create_tbs_hash c cr alg prot a y n) = snd (create_tbs_hash c cr alg prot a' y' n).
Proof.
  intros N A Y. unfold create_tbs_hash. destruct (_ =? _)%Z; [reflexivity|].
  apply snd_mbind; [reflexivity|]. intros [err h]. destruct (negb _); [reflexivity|].
  apply snd_mbind; [reflexivity|]. intro h1. apply snd_mbind; [reflexivity|]. intro h2.
  apply snd_mbind; [now apply hash_bstr_nullish|]. intro h3.
  apply snd_mbind; [now apply hash_bstr_nullish|]. intro h4. reflexivity.
Qed.

Lemma src_nullish u u' : nullish u u' -> src_bytes u = src_bytes u'.
Proof. intros [->|[[-> ->]|[-> ->]]]; reflexivity. Qed.

Lemma create_tbs_nullish prot a a' y y' buf : nullish a a' -> nullish y y' ->
  create_tbs prot a y buf = create_tbs prot a' y' buf.
Proof. intros A Y. rewrite !create_tbs_spec, (src_nullish _ _ A), (src_nullish _ _ Y). reflexivity. Qed.

Definition with_payload (m : decoded) (u : ubufc) : decoded :=
  {| m_params := m_params m; m_prot := m_prot m; m_payload := u; m_sig := m_sig m; m_crit := m_crit m; m_unknown := m_unknown m |}.

Lemma check_nullish c cr me m a a' y :
  null_is_empty cr -> nullish a a' -> nullish (m_payload m) y ->
  snd (verify_check c cr me m a) = snd (verify_check c cr me (with_payload m y) a').
Proof.
  intros N A Y. unfold verify_check. cbv zeta. cbn [with_payload m_params m_crit m_unknown m_sig m_prot m_payload].
  destruct (_ && _); [reflexivity|]. apply snd_mbind; [reflexivity|]. intro e.
  destruct (negb _); [reflexivity|]. apply snd_mbind; [reflexivity|]. intro sc. destruct sc; [|destruct (_ && _)].
  - apply snd_mbind; [|reflexivity]. unfold sign1_verify_short_circuit. destruct (has_flag _ _); [reflexivity|].
    destruct (negb _); [reflexivity|]. apply snd_mbind; [now apply tbs_hash_nullish|]. intros [e2 h]. reflexivity.
  - unfold sign1_verify_eddsa. rewrite (create_tbs_nullish _ a a' (m_payload m) y) by assumption. reflexivity.
  - apply snd_mbind; [|reflexivity]. unfold sign1_verify_default. destruct (has_flag _ _); [reflexivity|].
    apply snd_mbind; [now apply tbs_hash_nullish|]. intros [e2 h]. reflexivity.
Qed.

Lemma decode_detached c junk me msg y y' :
  match verify_decode c junk me msg (Some y) true, verify_decode c junk me msg (Some y') true with
  | Ret (DErr e, x), Ret (DErr e2, x2) => e = e2 /\ x = x2
  | Ret (DOk m, x), Ret (DOk m2, x2) => m_payload m = y /\ m2 = with_payload m y' /\ x = x2
  | UB a, UB b => a = b
  | _, _ => False
  end.
Proof.
  unfold verify_decode. cbv zeta.
  destruct (negb _); [auto|]. destruct (process_tags me _) as [[e x]|a]; cbn [obind]; [|reflexivity].
  destruct (negb _); [auto|].
  destruct (enter_bstr_wrapped _) as [d1 oprot]. match goal with |- context [obind ?u _] => destruct u as [r1|]; cbn [obind]; [|reflexivity] end.
  destruct (negb _); [auto|]. destruct (parse_cose_header_parameters _ _ _ _ _) as [r2|]; cbn [obind]; [|reflexivity].
  destruct (negb _); [auto|]. destruct (get_next _) as [[e1 it] d2]. cbn [obind].
  destruct (match i_val it with VNullV => false | _ => true end); [auto|].
  destruct (get_byte_string d2) as [d3 osig]. destruct (negb _); [auto|]. cbn [need obind].
  destruct (need osig); cbn [obind]; [|reflexivity]. destruct (need (r_crit r1)); cbn [obind]; [|reflexivity]. auto.
Qed.

Lemma finish_nullish (me : vctx) (payload payload' : option ubufc) (want dc : bool) (m m' : decoded) (x x' : M (terr * vctx)) :
  snd x = snd x' -> m_params m = m_params m' ->
  (match payload with Some _ => if dc then None else Some (m_payload m) | None => None end) =
  (match payload' with Some _ => if dc then None else Some (m_payload m') | None => None end) ->
  let fin := fun (payload : option ubufc) m '(err, me) =>
    if terr_eqb err T_SUCCESS then
      mret {| w_err := err; w_ctx := me;
              w_payload := match payload with Some _ => if dc then None else Some (m_payload m) | None => None end;
              w_params := if want then Some (m_params m) else None |}
    else mret {| w_err := err; w_ctx := me; w_payload := None; w_params := None |} in
  snd (mbind x (fin payload m)) = snd (mbind x' (fin payload' m')).
Proof.
  intros E P W fin. apply snd_mbind; [exact E|]. intros [err me']. unfold fin. destruct (terr_eqb err T_SUCCESS); [|reflexivity].
  rewrite P, W. reflexivity.
Qed.

Theorem verify_null_aad c cr junk me msg aad aad' payload want dc :
  null_is_empty cr -> nullish aad aad' ->
  snd (verify_internal c cr junk me msg aad payload want dc) = snd (verify_internal c cr junk me msg aad' payload want dc).
Proof.
  intros N A. unfold verify_internal. apply snd_mbind; [reflexivity|]. intros [[e|m] me1]; [reflexivity|].
  apply (finish_nullish me1 payload payload want dc m m); [|reflexivity|reflexivity].
  rewrite (check_nullish c cr me1 m aad aad' (m_payload m) N A (or_introl eq_refl)). destruct m. reflexivity.
Qed.

Theorem verify_null_payload c cr junk me msg aad y y' want :
  null_is_empty cr -> nullish y y' ->
  snd (verify_internal c cr junk me msg aad (Some y) want true) = snd (verify_internal c cr junk me msg aad (Some y') want true).
Proof.
  intros N Y. unfold verify_internal. pose proof (decode_detached c junk me msg y y') as D. unfold mlift.
  destruct (verify_decode c junk me msg (Some y) true) as [[[e|m] x]|a], (verify_decode c junk me msg (Some y') true) as [[[e2|m2] x2]|b];
    try contradiction; cbn [mbind app].
  - now destruct D as [<- <-].
  - destruct D as (Em & -> & <-).
    pose proof (finish_nullish x (Some y) (Some y') want true m (with_payload m y') (verify_check c cr x m aad) (verify_check c cr x (with_payload m y') aad)) as F.
    cbv zeta in F. assert (X : nullish (m_payload m) y') by (rewrite Em; exact Y).
    specialize (F (check_nullish c cr x m aad aad y' N (or_introl eq_refl) X) eq_refl eq_refl).
    match goal with |- snd (let (l, r) := ?a in ([] ++ l, r)) = _ => idtac | _ => idtac end.
    destruct (mbind (verify_check c cr x m aad) _) as [l1 r1]; destruct (mbind (verify_check c cr x (with_payload m y') aad) _) as [l2 r2]; exact F.
  - now subst.
Qed.

(** ** Returned buffers are parts of the message *)

Lemma values_in z m v : In v (values z m) -> exists k, In (k, v) m.
Proof.
  unfold values. intro H. apply in_map_iff in H as ([k v'] & E & I). apply filter_In in I as [I _]. cbn in E. subst. eauto.
Qed.

Lemma value_part msg g pm z v b :
  message msg g pm -> In v (values z (all_params g pm)) -> body v = CBytes b \/ body v = CText b -> part b msg.
Proof.
  intros Hm I B. destruct (values_in _ _ _ I) as (k & I2). destruct (message_value _ _ _ _ _ Hm I2) as (d & m' & P & R).
  destruct (part_body _ _ _ R) as (d2 & m2 & P2 & R2). apply (part_trans _ m2); [|apply (part_trans _ m'); assumption].
  exact (part_string _ _ _ _ R2 B).
Qed.

Lemma bytes_from_part msg g pm z u b :
  message msg g pm -> bytes_from (values z (all_params g pm)) u -> u = UBuf b -> part b msg.
Proof.
  intros Hm [[_ ->]|(v & b' & E & _ & B & ->)] X; [discriminate|]. injection X as ->.
  apply (value_part msg g pm z v); [exact Hm|rewrite E; now left|now left].
Qed.

(** Where a reported text content type comes from. *)
Lemma ct_text_source pm um u n : ct_from pm um (u, n) ->
  u = UNull 0 \/ exists v b, In v (values 3 pm ++ values 3 um) /\ body v = CText b /\ u = UBuf b.
Proof.
  intros (y & A & B). generalize dependent (values 3 um). generalize dependent (values 3 pm). intros vs A ws B.
  inversion A; subst; inversion B; subst; auto; right;
    first [match goal with H : body ?v = CText ?s |- exists _ _, In _ (_ ++ [?v]) /\ _ /\ UBuf ?s = _ => exists v, s; rewrite in_app_iff; cbn; auto end
          |match goal with H : body ?v = CText ?s |- exists _ _, In _ ([?v] ++ _) /\ _ /\ UBuf ?s = _ => exists v, s; rewrite in_app_iff; cbn; auto end].
Qed.

Theorem returned_parts c cr junk me msg aad payload want dc log w ad gv :
  length (v_tags me) = 4%nat -> holds aad ad -> detached_arg dc payload gv ->
  verify_internal c cr junk me msg aad payload want dc = (log, Ret w) -> w_err w = T_SUCCESS ->
  (forall b, w_payload w = Some (UBuf b) -> part b msg) /\
  (forall p b, w_params w = Some p -> In (UBuf b) [p_kid p; p_iv p; p_partial_iv p; p_ct_tstr p] -> part b msg).
Proof.
  intros Hv HA HG H Hw. destruct (verify_sound _ _ _ _ _ _ _ _ _ _ _ _ _ Hv HA HG H Hw) as (g & pm & p & pl & Hm & Ac & (_ & D1 & D2) & _).
  split.
  - intros b E. rewrite D2 in E. destruct payload; [|discriminate]. destruct dc eqn:Edc; [discriminate|]. injection E as ->.
    pose proof (ac_payload _ _ _ _ _ _ _ _ Ac) as P. cbn [payload_is] in P.
    destruct (message_element _ _ _ (g_payload g) Hm) as (d & m' & P1 & R1); [right; now left|]. rewrite P in R1.
    apply (part_trans _ m'); [|exact P1]. exact (part_string _ _ _ _ R1 (or_introl eq_refl)).
  - intros p' b E I. rewrite D1 in E. destruct want; [|discriminate]. injection E as <-.
    destruct (ac_params _ _ _ _ _ _ _ _ Ac) as [_ _ K V Q C].
    destruct I as [I|[I|[I|[I|[]]]]]; [exact (bytes_from_part _ _ _ _ _ _ Hm K I)|exact (bytes_from_part _ _ _ _ _ _ Hm V I)|exact (bytes_from_part _ _ _ _ _ _ Hm Q I)|].
    destruct (dis_content_type c); [destruct C as (_ & _ & C & _); congruence|].
    apply ct_text_source in C as [C|(v & b' & I2 & B & C)]; [congruence|].
    rewrite <- values_app in I2. fold (all_params g pm) in I2. assert (b' = b) by congruence. subst b'.
    apply (value_part msg g pm 3 v); auto.
Qed.

(** ** Ends of messages and of arrays *)

Theorem no_trailing c cr junk me msg x t aad payload want dc log w ad gv :
  length (v_tags me) = 4%nat -> holds aad ad -> detached_arg dc payload gv ->
  reads 0 t msg -> x <> [] ->
  verify_internal c cr junk me (msg ++ x) aad payload want dc = (log, Ret w) -> w_err w <> T_SUCCESS.
Proof.
  intros Hv HA HG Ht Hx H Hw. destruct (verify_sound _ _ _ _ _ _ _ _ _ _ _ _ _ Hv HA HG H Hw) as (g & pm & p & pl & (t' & rest & Ht' & _) & _).
  destruct (reads_unique _ _ _ _ _ _ x [] Ht Ht') as (_ & _ & E); [now rewrite app_nil_r|contradiction].
Qed.

Theorem four_elements c cr junk me msg t aad payload want dc log w ad gv :
  length (v_tags me) = 4%nat -> holds aad ad -> detached_arg dc payload gv ->
  reads 0 t msg ->
  verify_internal c cr junk me msg aad payload want dc = (log, Ret w) -> w_err w = T_SUCCESS ->
  exists prot u pay sig extra, body t = CArray (CBytes prot :: u :: pay :: CBytes sig :: extra).
Proof.
  intros Hv HA HG Ht H Hw. destruct (verify_sound _ _ _ _ _ _ _ _ _ _ _ _ _ Hv HA HG H Hw) as (g & pm & p & pl & (t' & rest & Ht' & (_ & _ & u & _ & _ & B) & _) & _).
  destruct (reads_unique _ _ _ _ _ _ [] [] Ht Ht' eq_refl) as (<- & _ & _). eauto 10.
Qed.

(** ** Returned tags *)

Lemma before_invalid_all ts : ~ In TAG_INVALID64 ts -> before_invalid ts = ts.
Proof.
  induction ts as [|t ts IH]; intro H; [reflexivity|]. cbn [before_invalid]. destruct (N.eqb_spec t TAG_INVALID64) as [->|E].
  - exfalso. apply H. now left.
  - rewrite IH; [reflexivity|]. intro I. apply H. now right.
Qed.

Lemma returned_outer g : ~ In (2 ^ 64 - 1) (g_tags g) -> returned (g_tags g) = outer_tags g.
Proof.
  change (2 ^ 64 - 1) with TAG_INVALID64. unfold returned, outer_tags. destruct (g_tags g) as [|t r]; [reflexivity|]. intro H.
  rewrite before_invalid_all by (intro I; apply H; now right). reflexivity.
Qed.

Theorem tags_returned c cr junk me msg aad payload want dc log w ad gv g pm n :
  length (v_tags me) = 4%nat -> holds aad ad -> detached_arg dc payload gv -> message msg g pm ->
  verify_internal c cr junk me msg aad payload want dc = (log, Ret w) -> w_err w = T_SUCCESS ->
  ~ In (2 ^ 64 - 1) (g_tags g) -> n <> 4 ->
  get_nth_tag (w_ctx w) n = Ret (nth (N.to_nat n) (outer_tags g) (2 ^ 64 - 1)).
Proof.
  intros Hv HA HG Hm H Hw NI N4.
  destruct (verify_sound_full _ _ _ _ _ _ _ _ _ _ _ _ _ Hv HA HG H Hw) as (g' & pm' & p & pl & Hm' & _ & _ & _ & _ & T & _).
  destruct (message_unique _ _ _ _ _ Hm Hm') as [<- <-]. rewrite (returned_outer _ NI) in T.
  assert (L : (length (outer_tags g) <= 4)%nat).
  { destruct Hm as (t & rest & _ & (_ & L & _) & _). unfold outer_tags. destruct (g_tags g) as [|t0 r]; [cbn; lia|].
    destruct (t0 =? 18); cbn [length] in *; lia. }
  unfold get_nth_tag. rewrite T. change MAX_TAGS_TO_RETURN with 4. destruct (N.ltb_spec 4 n) as [G|G].
  - rewrite nth_overflow by lia. reflexivity.
  - unfold arr_get, pad4. destruct (Nat.ltb_spec (N.to_nat n) (length (outer_tags g))) as [X|X].
    + rewrite nth_error_app1 by lia. now rewrite (nth_error_nth' _ (2 ^ 64 - 1) X).
    + rewrite nth_error_app2 by lia. rewrite nth_overflow by lia. rewrite nth_error_repeat by lia. reflexivity.
Qed.

(** Exactly what is left in the context, whatever the tags. *)
Theorem tag_index_four c cr junk me msg aad payload want dc log w ad gv :
  length (v_tags me) = 4%nat -> holds aad ad -> detached_arg dc payload gv -> adapter_safe c cr [msg; ad; gv] ->
  verify_internal c cr junk me msg aad payload want dc = (log, Ret w) ->
  get_nth_tag (w_ctx w) 4 = UB OOBRead /\ (forall n, n <> 4 -> is_ret (get_nth_tag (w_ctx w) n)).
Proof.
  intros Hv HA HG A H. destruct (verify_safe c cr junk me msg aad payload want dc ad gv Hv HA HG A) as (log' & w' & H' & L & _).
  rewrite H in H'. injection H' as <- <-. unfold get_nth_tag, arr_get. change MAX_TAGS_TO_RETURN with 4. split.
  - change (4 <? 4) with false. cbv iota. replace (nth_error (v_tags (w_ctx w)) (N.to_nat 4)) with (@None N); [reflexivity|].
    symmetry. apply nth_error_None. lia.
  - intros n Hn. destruct (N.ltb_spec 4 n); [exact I|]. destruct (nth_error (v_tags (w_ctx w)) (N.to_nat n)) eqn:E; [exact I|].
    apply nth_error_None in E. lia.
Qed.

(** ** Limits *)

Lemma nonzero_all zs : ~ In 0%Z zs -> nonzero zs = zs.
Proof.
  induction zs as [|z zs IH]; intro H; [reflexivity|]. cbn [nonzero filter]. destruct (Z.eqb_spec z 0) as [->|E].
  - exfalso. apply H. now left.
  - cbn [negb]. f_equal. apply IH. intro I. apply H. now right.
Qed.

Lemma ints_fit_iff n zs : ~ In 0%Z zs -> (n <= 10)%nat -> ints_fit n zs <-> (n + length zs <= 10)%nat.
Proof.
  revert n. induction zs as [|z zs IH]; intros n H Hn; cbn [ints_fit length]; [split; [lia|auto]|].
  rewrite (nonzero_all [z]) by (intros [->|[]]; apply H; now left). cbn [length].
  assert (H' : ~ In 0%Z zs) by (intro I; apply H; now right). split.
  - intros [A B]. apply IH in B; [lia|exact H'|lia].
  - intro A. split; [lia|]. apply IH; [exact H'|lia|lia].
Qed.

(** ** Two messages with one signature *)

Lemma same_prefix (d d' r r' : bytes) : length d = length d' -> d ++ r = d' ++ r' -> d = d'.
Proof.
  revert d'. induction d as [|x d IH]; intros [|x' d'] L E; try discriminate; [reflexivity|].
  cbn in *. injection E as -> E. f_equal. apply IH; [lia|exact E].
Qed.

(** Two successful verifications with the same key, algorithm and signature:
    they cover the same protected header, AAD and payload, or the hash collides,
    or the back end accepts the signature for two different inputs. *)
Theorem no_substitution c cr H size me me2 key p p2 (pr ad pl pr2 ad2 pl2 : bytes) sig :
  hash_is cr H -> (forall halg data, length (H halg data) = size halg) ->
  blen pr < 2 ^ 64 -> blen ad < 2 ^ 64 -> blen pl < 2 ^ 64 ->
  blen pr2 < 2 ^ 64 -> blen ad2 < 2 ^ 64 -> blen pl2 < 2 ^ 64 ->
  p_alg p = p_alg p2 -> short_circuit_kid c p = short_circuit_kid c p2 ->
  accepted c cr me key p (sig_structure pr ad pl) sig ->
  accepted c cr me2 key p2 (sig_structure pr2 ad2 pl2) sig ->
  (pr = pr2 /\ ad = ad2 /\ pl = pl2) \/
  (exists halg x y, hash_for (p_alg p) = Some halg /\ x <> y /\ H halg x = H halg y) \/
  (exists d d2, d <> d2 /\ cr_verify cr (p_alg p) key (p_kid p) d sig = Ret T_SUCCESS /\
     cr_verify cr (p_alg p) key (p_kid p2) d2 sig = Ret T_SUCCESS) \/
  (exists t t2, t <> t2 /\ cr_verify_eddsa cr key (p_kid p) t sig = Ret T_SUCCESS /\
     cr_verify_eddsa cr key (p_kid p2) t2 sig = Ret T_SUCCESS).
Proof.
  intros HI HS L1 L2 L3 L4 L5 L6 EA ES A A2.
  destruct (list_eq_dec Byte.byte_eq_dec (sig_structure pr ad pl) (sig_structure pr2 ad2 pl2)) as [E|E].
  { left. now apply sig_structure_inj in E. }
  right. unfold accepted in A, A2. rewrite <- ES, <- EA in A2. assert (EU : uses_eddsa c p2 = uses_eddsa c p) by (unfold uses_eddsa; now rewrite EA).
  rewrite EU in A2. destruct (short_circuit_kid c p); [|destruct (uses_eddsa c p)].
  - left. destruct A as (_ & halg & d & rest & Hf & _ & Hd & ->), A2 as (_ & halg2 & d2 & rest2 & Hf2 & _ & Hd2 & Es).
    assert (halg2 = halg) by congruence. subst halg2. exists halg, (sig_structure pr ad pl), (sig_structure pr2 ad2 pl2).
    split; [exact Hf|]. split; [exact E|]. rewrite <- (HI _ _ _ Hd), <- (HI _ _ _ Hd2).
    apply (same_prefix _ _ rest rest2); [|exact Es]. rewrite (HI _ _ _ Hd), (HI _ _ _ Hd2), !HS. reflexivity.
  - right. right. do 2 eexists. split; [exact E|]. split; eassumption.
  - destruct A as (halg & d & Hf & _ & Hd & V), A2 as (halg2 & d2 & Hf2 & _ & Hd2 & V2).
    assert (halg2 = halg) by congruence. subst halg2.
    destruct (list_eq_dec Byte.byte_eq_dec d d2) as [Ed|Ed].
    + left. exists halg, (sig_structure pr ad pl), (sig_structure pr2 ad2 pl2). split; [exact Hf|]. split; [exact E|].
      rewrite <- (HI _ _ _ Hd), <- (HI _ _ _ Hd2). exact Ed.
    + right. left. exists d, d2. auto.
Qed.
