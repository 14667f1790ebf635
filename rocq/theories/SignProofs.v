(** Signing: from the equations of SignFacts to the specification. *)
From Verif Require Import Base Const QEnc Crypto Util ShortCircuit Sign Spec SignSpec.
From Verif Require Import BaseFacts EncFacts UtilFacts SignFacts.
From Coq Require Import Lia ZifyBool ZifyNat ZifyN.
Open Scope N_scope. Open Scope list_scope.
Local Open Scope mon_scope.
Local Strategy 100 [create_tbs create_tbs_hash].

(** ** Translation of the request *)

Lemma land1_testbit f : negb (N.land f 1 =? 0) = N.testbit f 0.
Proof.
  destruct f as [|p]; [reflexivity|]. destruct p; reflexivity.
Qed.
Lemma land2_testbit f : negb (N.land f 2 =? 0) = N.testbit f 1.
Proof. destruct f as [|p]; [reflexivity|]. destruct p as [p|p|]; try destruct p; reflexivity. Qed.

Lemma sc_on_spec q me : configured q me -> sc_on me = wants_short_circuit (q_flags q).
Proof. intros (_ & F & _). unfold sc_on, has_flag. rewrite F. apply land1_testbit. Qed.

Lemma tagged_spec q me : configured q me -> tagged me = wants_tag (q_flags q).
Proof. intros (_ & F & _). unfold tagged, wants_tag, has_flag. rewrite F. f_equal. apply land2_testbit. Qed.

Lemma holds_data u b : holds u b -> u_data u = b.
Proof. intros [->|[-> ->]]; reflexivity. Qed.
Lemma holds_src u b : holds u b -> src_bytes u = b.
Proof. intros [->|[-> ->]]; reflexivity. Qed.
Lemma holds_len u b : holds u b -> u_len u = blen b.
Proof. intros [->|[-> ->]]; reflexivity. Qed.
Lemma holds_solid u b : holds u b -> solid u.
Proof. intros [->|[-> ->]]; reflexivity. Qed.

Lemma kid_spec q me : configured q me -> kid_bytes me = requested_kid q.
Proof.
  intro C. unfold kid_bytes. rewrite (sc_on_spec _ _ C). destruct C as (_ & _ & _ & K & _).
  unfold requested_kid. destruct K as [K|[K E]]; rewrite K.
  - destruct (q_kid q) as [|b k]; cbn [u_is_null_or_empty u_is_null u_len u_data orb].
    + change (blen [] =? 0) with true. cbn [orb]. rewrite andb_true_r. reflexivity.
    + rewrite blen_cons. replace (1 + blen k =? 0) with false by lia. cbn [orb].
      rewrite andb_false_r. reflexivity.
  - rewrite E. cbn [u_is_null_or_empty u_is_null u_data orb]. rewrite andb_true_r. reflexivity.
Qed.

Lemma ct_spec c q me : configured q me -> ct_of c me = requested_ct c q.
Proof.
  intros (_ & _ & _ & _ & U & T & _). unfold ct_of, requested_ct. rewrite T.
  destruct (dis_content_type c); [reflexivity|]. destruct (q_ct_text q); [reflexivity|].
  destruct (q_ct_uint q) as [n|].
  - destruct U as [L ->]. unfold EMPTY_UINT_CONTENT_TYPE.
    destruct (N.eqb_spec n 65536); [lia|reflexivity].
  - rewrite U. reflexivity.
Qed.

Lemma message_spec c q me det payload pl sig :
  configured q me -> holds payload pl ->
  message c me det payload sig = requested_message c q (if det then None else Some pl) sig.
Proof.
  intros C P. unfold message, requested_message, unprot_of.
  rewrite (tagged_spec _ _ C), (kid_spec _ _ C), (ct_spec _ _ _ C), (holds_src _ _ P).
  destruct C as (-> & _). reflexivity.
Qed.

Lemma supported_spec c alg : signature_algorithm_id_is_supported c alg = true <-> enabled c alg.
Proof.
  unfold signature_algorithm_id_is_supported, enabled, ES256, ES384, ES512, PS256, PS384, PS512, EDDSA.
  rewrite !orb_true_iff, !andb_true_iff, !negb_true_iff, !Z.eqb_eq. intuition.
Qed.

Lemma hash_alg_spec c alg halg :
  hash_alg_id_from_sig_alg_id c alg = halg -> halg <> INVALID_ALGORITHM_ID ->
  hash_for alg = Some halg /\ enabled c alg.
Proof.
  unfold hash_alg_id_from_sig_alg_id, enabled. intros <- N.
  repeat match goal with
  | H : context [(alg =? ?x)%Z] |- _ =>
      let E := fresh in destruct (Z.eqb_spec alg x) as [E|E]
  | |- context [(alg =? ?x)%Z] =>
      let E := fresh in destruct (Z.eqb_spec alg x) as [E|E]
  end; subst; try (unfold ES256, ES384, ES512, PS256, PS384, PS512 in *; discriminate);
  rewrite ?andb_false_r, ?andb_true_r in *; try (now split; [reflexivity|left]);
  repeat match goal with
  | |- context [if negb ?b then _ else _] => destruct b eqn:?; cbn [negb] in *
  | H : context [if negb ?b then _ else _] |- _ => destruct b eqn:?; cbn [negb] in *
  end; try congruence; unfold ES384, ES512, PS256, PS384, PS512 in *; split; (reflexivity || tauto).
Qed.

Lemma hash_alg_enabled c alg halg : enabled c alg -> hash_for alg = Some halg ->
  hash_alg_id_from_sig_alg_id c alg = halg /\ halg <> INVALID_ALGORITHM_ID.
Proof.
  unfold enabled. intros E H.
  destruct E as [E|[[E D]|[[E D]|[[E D]|[[E D]|[[E D]|[E D]]]]]]]; subst alg; cbn in H; try discriminate H;
    injection H as <-; unfold hash_alg_id_from_sig_alg_id; rewrite ?D; cbn;
    rewrite ?andb_false_r; split; (reflexivity || discriminate).
Qed.

(** ** Digests *)

Lemma feed_fed cr h l bs ev h' :
  Forall2 holds l bs -> feed cr h l = (ev, Ret h') -> fed cr h (concat bs) h'.
Proof.
  intro F. revert h ev h'. induction F as [|u b l bs HU F IH]; intros h ev h' H; cbn [feed] in H.
  - injection H as _ <-. constructor.
  - apply mbind_ret_inv in H as (l1 & a & l2 & H1 & H2 & _).
    unfold m_hash_update, mlog in H1. injection H1 as _ H1.
    cbn [concat]. econstructor; eauto.
Qed.

Lemma create_tbs_hash_digest c cr alg prot aad payload p a m n ev h :
  holds prot p -> holds aad a -> holds payload m ->
  create_tbs_hash c cr alg prot aad payload n = (ev, Ret (T_SUCCESS, h)) ->
  exists halg, hash_for alg = Some halg /\ digest_of cr halg (sig_structure p a m) h.
Proof.
  intros P A Y H. apply create_tbs_hash_log in H as (halg & ctx & ctx' & E & NI & S & F & Fi & _).
  apply hash_alg_spec in E as [E _]; [|exact NI].
  exists halg. split; [exact E|]. exists ctx, ctx', n. split; [exact S|]. split; [|exact Fi].
  set (bs := [x84 :: x6a :: SIGNATURE1; encode_head MT_BSTR (u_len prot); p;
              encode_head MT_BSTR (u_len aad); a; encode_head MT_BSTR (u_len payload); m]).
  assert (FB : Forall2 holds (tbs_chunks prot aad payload) bs).
  { unfold tbs_chunks, bs. repeat (apply Forall2_cons || apply Forall2_nil); auto; now left. }
  apply (feed_fed _ _ _ _ _ _ FB) in F.
  replace (sig_structure p a m) with (concat bs); [exact F|].
  unfold bs. cbn [concat]. rewrite !encode_head_short, sig_structure_eq.
  rewrite (holds_len _ _ P), (holds_len _ _ A), (holds_len _ _ Y).
  cbn [app]. rewrite app_nil_r, <- !app_assoc. reflexivity.
Qed.

(** ** Short-circuit signatures *)

Lemma repeat_to_step hash n : hash <> [] -> blen hash < n ->
  repeat_to hash n = hash ++ repeat_to hash (n - blen hash).
Proof.
  intros NE L. unfold repeat_to.
  destruct (N.to_nat n) as [|k] eqn:E; [lia|].
  cbn [repeat concat]. rewrite firstn_app.
  rewrite firstn_all2 by (unfold blen in L; lia). f_equal.
  assert (G : forall a b k, (k <= a * length hash)%nat -> (a <= b)%nat ->
            firstn k (concat (repeat hash a)) = firstn k (concat (repeat hash b))).
  { intros a b j J AB. replace b with (a + (b - a))%nat by lia.
    rewrite repeat_app, concat_app, firstn_app.
    assert (LC : length (concat (repeat hash a)) = (a * length hash)%nat).
    { clear. induction a as [|a IH]; [reflexivity|]. cbn [repeat concat]. rewrite app_length, IH. lia. }
    rewrite LC. replace (j - a * length hash)%nat with 0%nat by lia. cbn [firstn]. now rewrite app_nil_r. }
  assert (1 <= length hash)%nat by (destruct hash; [congruence|cbn; lia]).
  replace (S k - length hash)%nat with (N.to_nat (n - blen hash)) by (unfold blen; lia).
  symmetry. apply G; [|unfold blen; lia].
  unfold blen. nia.
Qed.

Lemma sc_copy_spec fuel hash size i :
  hash <> [] -> (N.to_nat (size - i) <= fuel)%nat ->
  sc_copy fuel hash size i = Ret (if i <? size then repeat_to hash (size - i) else []).
Proof.
  intro NE. revert i. induction fuel as [|f IH]; intros i L; cbn [sc_copy].
  - destruct (N.ltb_spec i size); [lia|reflexivity].
  - destruct (N.ltb_spec i size) as [H|H]; [|reflexivity].
    assert (1 <= blen hash) by (destruct hash; [congruence|rewrite blen_cons; lia]).
    rewrite IH by lia. cbn [obind]. f_equal.
    destruct (N.leb_spec (size - i) (blen hash)) as [B|B].
    + destruct (N.ltb_spec (i + blen hash) size); [lia|].
      rewrite N.min_l by lia. rewrite app_nil_r. unfold repeat_to.
      destruct (N.to_nat (size - i)) as [|k] eqn:E; [lia|].
      cbn [repeat concat]. rewrite firstn_app.
      replace (S k - length hash)%nat with 0%nat by (unfold blen in B; lia).
      cbn [firstn]. now rewrite app_nil_r.
    + destruct (N.ltb_spec (i + blen hash) size); [|lia].
      rewrite N.min_r by lia. rewrite to_nat_blen, firstn_all.
      rewrite (repeat_to_step hash (size - i)) by assumption.
      do 2 f_equal. lia.
Qed.

Lemma sc_copy_empty fuel size i : sc_copy fuel [] size i = if i <? size then UB Diverges else Ret [].
Proof.
  revert i. induction fuel as [|f IH]; intro i; cbn [sc_copy]; destruct (i <? size) eqn:E; try reflexivity.
  rewrite blen_nil, N.add_0_r, IH, E. reflexivity.
Qed.

Lemma sc_size_spec alg : short_circuit_sig_size alg = (T_SUCCESS, ecdsa_sig_size alg).
Proof. reflexivity. Qed.

Lemma short_circuit_sign_spec alg hash room :
  short_circuit_sign alg hash room =
  if room <? ecdsa_sig_size alg then Ret (ERR_SIG_BUFFER_SIZE, [])
  else match hash with
       | [] => if 0 <? ecdsa_sig_size alg then UB Diverges else Ret (T_SUCCESS, [])
       | _ => Ret (T_SUCCESS, repeat_to hash (ecdsa_sig_size alg))
       end.
Proof.
  unfold short_circuit_sign. rewrite sc_size_spec. cbn [terr_eqb negb].
  destruct (_ <? _); [reflexivity|]. destruct hash as [|b h].
  - rewrite sc_copy_empty. destruct (0 <? _); reflexivity.
  - rewrite sc_copy_spec; [|discriminate|lia]. rewrite N.sub_0_r.
    destruct (N.ltb_spec 0 (ecdsa_sig_size alg)) as [H|H]; [reflexivity|].
    cbn [obind]. replace (ecdsa_sig_size alg) with 0 by lia. reflexivity.
Qed.

Lemma repeat_to_len hash n : hash <> [] -> blen (repeat_to hash n) = n.
Proof.
  intro NE. unfold repeat_to. unfold blen.
  rewrite firstn_length.
  assert (LC : forall a, length (concat (repeat hash a)) = (a * length hash)%nat).
  { clear. induction a as [|a IH]; [reflexivity|]. cbn [repeat concat]. rewrite app_length, IH. lia. }
  rewrite LC. assert (1 <= length hash)%nat by (destruct hash; [congruence|cbn; lia]). nia.
Qed.

(** ** Logs *)

Definition is_hash_event (e : event) : Prop :=
  match e with EvHashStart _ | EvHashUpdate _ | EvHashFinish => True | _ => False end.

Lemma mbind_in {A B} (x : M A) (f : A -> M B) l r e :
  mbind x f = (l, r) -> In e l ->
  In e (fst x) \/ exists a l1 l2, x = (l1, Ret a) /\ f a = (l2, r) /\ l = l1 ++ l2 /\ In e l2.
Proof.
  destruct x as [l1 [a|w]]; cbn [mbind fst].
  - destruct (f a) as [l2 r2] eqn:E. intros H I. injection H as <- <-.
    apply in_app_or in I as [I|I]; [now left|right]. exists a, l1, l2. auto.
  - intros H I. injection H as <- _. now left.
Qed.

Lemma feed_hash_only cr h l e : In e (fst (feed cr h l)) -> exists u, e = EvHashUpdate u.
Proof.
  revert h. induction l as [|u l IH]; intros h I; cbn [feed] in I; [destruct I|].
  destruct (mbind (m_hash_update cr h u) (fun h => feed cr h l)) as [lg r] eqn:E.
  destruct (mbind_in _ _ _ _ _ E I) as [J|(a & l1 & l2 & _ & F & _ & J)].
  - destruct J as [<-|[]]. eauto.
  - apply (IH a). now rewrite F.
Qed.

Lemma create_tbs_hash_events c cr alg prot aad payload n log r :
  create_tbs_hash c cr alg prot aad payload n = (log, r) ->
  (forall e, In e log -> is_hash_event e) /\
  (forall halg, In (EvHashStart halg) log -> hash_for alg = Some halg) /\
  (In EvHashFinish log -> hashed log = flat_map u_data (tbs_chunks prot aad payload)).
Proof.
  rewrite create_tbs_hash_feed. cbv zeta.
  destruct (Z.eqb_spec (hash_alg_id_from_sig_alg_id c alg) INVALID_ALGORITHM_ID) as [E|E].
  - intro H. injection H as <- _. repeat split; intros; contradiction.
  - assert (HF : hash_for alg = Some (hash_alg_id_from_sig_alg_id c alg)).
    { destruct (hash_alg_spec c alg _ eq_refl E) as [X _]. exact X. }
    unfold mbind at 1, mlog at 1. cbv beta iota.
    destruct (cr_hash_start cr _) as [err h].
    destruct (terr_eqb err T_SUCCESS); cbn [negb].
    + destruct (feed cr h (tbs_chunks prot aad payload)) as [l [h'|w]] eqn:F.
      * pose proof (feed_log _ _ _ _ _ F) as L. cbn [mbind mlog].
        intro H. injection H as <- _. subst l. split; [|split].
        -- intros e [<-|I]; [exact I|]. apply in_app_or in I as [I|I].
           ++ apply in_map_iff in I as (u & <- & _). exact I.
           ++ destruct I as [<-|[]]. exact I.
        -- intros halg [I|I]; [congruence|]. apply in_app_or in I as [I|I].
           ++ apply in_map_iff in I as (u & I & _). discriminate.
           ++ destruct I as [I|[]]. discriminate.
        -- intros _. change (EvHashStart ?x :: ?y) with ([EvHashStart x] ++ y).
           rewrite !hashed_app, hashed_updates. cbn [hashed flat_map app].
           rewrite app_nil_r. reflexivity.
      * cbn [mbind]. intro H. injection H as <- _.
        assert (FH : forall e, In e l -> exists u, e = EvHashUpdate u).
        { intros e I. apply (feed_hash_only cr h (tbs_chunks prot aad payload)). now rewrite F. }
        split; [|split].
        -- intros e [<-|I]; [exact I|]. apply FH in I as (u & ->). exact I.
        -- intros halg [I|I]; [congruence|]. apply FH in I as (u & I). discriminate.
        -- intros [I|I]; [discriminate|]. apply FH in I as (u & I). discriminate.
    + intro H. injection H as <- _. split; [|split].
      * intros e [<-|[]]. exact I.
      * intros halg [I|[]]. congruence.
      * intros [I|[]]; discriminate.
Qed.

(** ** sign_core *)

Definition same_request (me me' : sctx) : Prop :=
  c_alg me = c_alg me' /\ c_key me = c_key me' /\ c_flags me = c_flags me'.

Lemma sign_sc_success c cr me prot aad payload p a m room log me' n w :
  holds prot p -> holds aad a -> holds payload m ->
  sign1_sign_short_circuit c cr me prot aad payload {| wb_null := false; wb_len := room |}
    = (log, Ret (T_SUCCESS, me', n, w)) ->
  n = blen w /\ exists halg d, hash_for (c_alg me) = Some halg /\
     digest_of cr halg (sig_structure p a m) d /\ w = repeat_to d (ecdsa_sig_size (c_alg me)).
Proof.
  intros P A Y H. unfold sign1_sign_short_circuit in H.
  apply mbind_ret_inv in H as (l1 & [err h] & l2 & H1 & H2 & _).
  destruct (terr_eqb err T_SUCCESS) eqn:E; cbn [negb] in H2.
  2:{ unfold mret in H2. injection H2 as _ H2 _ _. subst err. discriminate. }
  apply terr_eqb_eq in E. subst err. cbn [wb_null wb_len] in H2.
  apply mbind_ret_inv in H2 as (l3 & [err s] & l4 & H3 & H4 & _).
  unfold mret in H4. injection H4 as _ ->  _ <- <-. split; [reflexivity|].
  destruct (create_tbs_hash_digest _ _ _ _ _ _ _ _ _ _ _ _ P A Y H1) as (halg & HH & HD).
  exists halg, h. split; [exact HH|]. split; [exact HD|].
  unfold mlift in H3. injection H3 as _ H3. rewrite short_circuit_sign_spec in H3.
  destruct (room <? _); [discriminate|]. destruct h as [|b h].
  - destruct (0 <? ecdsa_sig_size (c_alg me)) eqn:Z; [discriminate|]. injection H3 as <-.
    replace (ecdsa_sig_size (c_alg me)) with 0 by lia. reflexivity.
  - injection H3 as <-. reflexivity.
Qed.

Lemma sign_eddsa_success cr me prot aad payload p a m room log me' n w :
  holds prot p -> holds aad a -> holds payload m ->
  sign1_sign_eddsa cr me prot aad payload {| wb_null := false; wb_len := room |}
    = (log, Ret (T_SUCCESS, me', n, w)) ->
  n = blen w /\ cr_sign_eddsa cr (c_key me) (sig_structure p a m) room = Ret (T_SUCCESS, w).
Proof.
  intros P A Y H. unfold sign1_sign_eddsa in H.
  pose proof (create_tbs_spec prot aad payload (c_aux me)) as TS. cbv zeta in TS.
  rewrite (holds_src _ _ P), (holds_src _ _ A), (holds_src _ _ Y) in TS.
  destruct (create_tbs prot aad payload (c_aux me)) as [err tbs].
  set (T := sig_structure p a m) in *. clearbody T.
  destruct (blen T <=? wb_len (c_aux me)); injection TS as -> ->; cbn [terr_eqb negb] in H; [|discriminate].
  cbn [wb_null] in H.
  change (c_aux (sc_set_aux_size me _)) with (c_aux me) in H.
  destruct (wb_null (c_aux me)); [discriminate|].
  apply mbind_ret_inv in H as (l3 & [err s] & l4 & H3 & H4 & _).
  unfold mret in H4. injection H4 as _ ->  _ <- <-. split; [reflexivity|].
  unfold mlog in H3. injection H3 as _ H3. exact H3.
Qed.

Lemma sign_default_success c cr me prot aad payload p a m room log me' n w :
  holds prot p -> holds aad a -> holds payload m ->
  sign1_sign_default c cr me prot aad payload {| wb_null := false; wb_len := room |}
    = (log, Ret (T_SUCCESS, me', n, w)) ->
  n = blen w /\ exists halg d, hash_for (c_alg me) = Some halg /\
     digest_of cr halg (sig_structure p a m) d /\
     cr_sign cr (c_alg me) (c_key me) d room = Ret (T_SUCCESS, w).
Proof.
  intros P A Y H. unfold sign1_sign_default in H.
  apply mbind_ret_inv in H as (l1 & [err h] & l2 & H1 & H2 & _).
  destruct (terr_eqb err T_SUCCESS) eqn:E; cbn [negb] in H2.
  2:{ unfold mret in H2. injection H2 as _ H2 _ _. subst err. discriminate. }
  apply terr_eqb_eq in E. subst err. cbn [wb_null wb_len] in H2.
  apply mbind_ret_inv in H2 as (l3 & [err s] & l4 & H3 & H4 & _).
  unfold mret in H4. injection H4 as _ ->  _ <- <-. split; [reflexivity|].
  destruct (create_tbs_hash_digest _ _ _ _ _ _ _ _ _ _ _ _ P A Y H1) as (halg & HH & HD).
  exists halg, h. split; [exact HH|]. split; [exact HD|].
  unfold mlog in H3. injection H3 as _ H3. exact H3.
Qed.

Lemma sign_core_success c cr q me prot aad payload p a m room log me' n w :
  configured q me -> holds prot p -> holds aad a -> holds payload m ->
  sc_on me && dis_short_circuit c = false -> enabled c (c_alg me) ->
  sign_core c cr me prot aad payload {| wb_null := false; wb_len := room |}
    = (log, Ret (T_SUCCESS, me', n, w)) ->
  n = blen w /\ signature_of cr q (sig_structure p a m) room w.
Proof.
  intros C P A Y D EN H. unfold sign_core in H. fold (sc_on me) in H.
  unfold signature_of. rewrite <- (sc_on_spec _ _ C).
  destruct C as (CA & CF & CK & _). rewrite <- CA, <- CK.
  destruct (sc_on me) eqn:SC; cbn [andb] in H, D.
  - rewrite D in H. cbn [negb] in H. exact (sign_sc_success _ _ _ _ _ _ _ _ _ _ _ _ _ _ P A Y H).
  - cbn [andb] in H. change (-8)%Z with EDDSA.
    destruct (Z.eqb_spec (c_alg me) EDDSA) as [EA|EA]; cbn [andb] in H.
    + destruct (dis_eddsa c) eqn:DE; cbn [negb] in H.
      { exfalso. unfold enabled in EN. rewrite EA, DE in EN. unfold EDDSA in EN.
        intuition discriminate. }
      exact (sign_eddsa_success _ _ _ _ _ _ _ _ _ _ _ _ _ P A Y H).
    + exact (sign_default_success _ _ _ _ _ _ _ _ _ _ _ _ _ _ P A Y H).
Qed.

Lemma sign_core_events c cr me prot aad payload p a m buf nul log r :
  (nul = false -> holds prot p /\ holds aad a /\ holds payload m) ->
  (wb_null buf = false -> nul = false) ->
  sign_core c cr me prot aad payload buf = (log, r) ->
  (forall e, In e log -> event_ok cr (c_alg me) (c_key me) (sig_structure p a m) e) /\
  (nul = false -> In EvHashFinish log -> hashed log = sig_structure p a m).
Proof.
  intros HB HN H. unfold sign_core in H.
  assert (EV : forall n l r0, create_tbs_hash c cr (c_alg me) prot aad payload n = (l, r0) ->
     (forall e, In e l -> event_ok cr (c_alg me) (c_key me) (sig_structure p a m) e) /\
     (nul = false -> In EvHashFinish l -> hashed l = sig_structure p a m)).
  { intros n l r0 Hl. apply create_tbs_hash_events in Hl as (V1 & V2 & V3). split.
    - intros e I. specialize (V1 e I). destruct e; try contradiction; cbn; auto.
    - intros N I. destruct (HB N) as (P & A & Y). rewrite (V3 I).
      rewrite chunks_data by (eapply holds_solid; eauto).
      now rewrite (holds_data _ _ P), (holds_data _ _ A), (holds_data _ _ Y). }
  destruct (has_flag _ _ && negb _).
  - unfold sign1_sign_short_circuit in H.
    destruct (create_tbs_hash c cr (c_alg me) prot aad payload (max_hash_size c)) as [l1 r1] eqn:E1.
    destruct (EV _ _ _ E1) as [V1 V2].
    destruct r1 as [[err h]|w]; cbn [mbind] in H.
    + assert (NL : log = l1 ++ []).
      { destruct (negb _) in H; [injection H as <- _; reflexivity|].
        destruct (wb_null buf).
        - rewrite sc_size_spec in H. injection H as <- _. reflexivity.
        - unfold mlift in H. destruct (short_circuit_sign _ _ _) as [[er s]|w] in H;
            cbn [mbind mret app] in H; injection H as <- _; reflexivity. }
      rewrite app_nil_r in NL. subst log. auto.
    + injection H as <- _. auto.
  - destruct (Z.eqb_spec (c_alg me) EDDSA) as [EA|EA]; cbn [andb] in H.
    1:destruct (negb (dis_eddsa c)).
    + assert (Z0 : forall l (r1 : out sigres), ([], r1) = (l, r) -> l = log -> 
                (forall e, In e log -> event_ok cr (c_alg me) (c_key me) (sig_structure p a m) e) /\
                (nul = false -> In EvHashFinish log -> hashed log = sig_structure p a m)).
      { intros l r1 X <-. injection X as <- _. split; intros; contradiction. }
      unfold sign1_sign_eddsa in H. rewrite create_tbs_spec in H. cbv zeta in H.
      set (T := sig_structure (src_bytes prot) (src_bytes aad) (src_bytes payload)) in *.
      destruct (blen T <=? wb_len (c_aux me)); cbn [terr_eqb negb] in H; [|eapply Z0; eauto].
      destruct (wb_null buf) eqn:NB.
      * unfold m_sig_size, mlog in H. cbn [mbind] in H.
        destruct (cr_sig_size cr _ _) in H. cbn in H. injection H as <- _. split; [|intros _ [I|[]]; discriminate I].
        intros e [<-|[]]. cbn. auto.
      * change (c_aux (sc_set_aux_size me _)) with (c_aux me) in H.
        destruct (wb_null (c_aux me)) eqn:NA; [eapply Z0; eauto|].
        destruct (HB (HN eq_refl)) as (P & A & Y).
        assert (TT : T = sig_structure p a m).
        { unfold T. now rewrite (holds_src _ _ P), (holds_src _ _ A), (holds_src _ _ Y). }
        cbn [u_data sc_set_aux_size c_key] in H. rewrite TT in H.
        unfold mlog in H.
        assert (L : log = [EvSignEddsa (c_key me) (sig_structure p a m)]).
        { cbn [mbind] in H. destruct (cr_sign_eddsa cr _ _ _) as [[er s]|w] in H;
            cbn in H; injection H as <- _; reflexivity. }
        subst log. split.
        -- intros e [<-|[]]. cbn. auto.
        -- intros _ [I|[]]. discriminate.
    + unfold sign1_sign_default in H.
      destruct (create_tbs_hash c cr (c_alg me) prot aad payload (max_hash_size c)) as [l1 r1] eqn:E1.
      destruct (EV _ _ _ E1) as [V1 V2].
      pose proof E1 as E1'. rewrite EA in E1'. unfold create_tbs_hash in E1'.
      replace (hash_alg_id_from_sig_alg_id c EDDSA) with INVALID_ALGORITHM_ID in E1'.
      2:{ unfold hash_alg_id_from_sig_alg_id. cbn. now rewrite !andb_false_r. }
      cbn in E1'. injection E1' as <- <-. cbn in H. injection H as <- _. split; intros; contradiction.
    + unfold sign1_sign_default in H.
      destruct (create_tbs_hash c cr (c_alg me) prot aad payload (max_hash_size c)) as [l1 r1] eqn:E1.
      destruct (EV _ _ _ E1) as [V1 V2].
      destruct r1 as [[err h]|w]; cbn [mbind] in H; [|injection H as <- _; auto].
      destruct (terr_eqb err T_SUCCESS) eqn:Er; cbn [negb] in H.
      2:{ injection H as <- _. rewrite app_nil_r. auto. }
      apply terr_eqb_eq in Er. subst err.
      destruct (wb_null buf) eqn:NB.
      * unfold m_sig_size, mlog in H. cbn [mbind] in H.
        destruct (cr_sig_size cr _ _) in H. cbn in H. injection H as <- _. split; [|intros N I; rewrite hashed_app; apply in_app_or in I as [I|[I|[]]]; [|discriminate]; rewrite (V2 N I); apply app_nil_r].
        intros e I. apply in_app_or in I as [I|[<-|[]]]; auto. cbn. auto.
      * unfold mlog in H. cbn [mbind] in H. destruct (HB (HN eq_refl)) as (P & A & Y).
        assert (L : log = l1 ++ [EvSign (c_alg me) (c_key me) h]).
        { destruct (cr_sign cr _ _ _ _) as [[er s]|w] in H; cbn in H; injection H as <- _; reflexivity. }
        subst log. split.
        -- intros e I. apply in_app_or in I as [I|[<-|[]]]; auto. cbn.
           repeat split; auto. eapply create_tbs_hash_digest; eauto.
        -- intros _ I. rewrite hashed_app. apply in_app_or in I as [I|[I|[]]]; [|discriminate].
           rewrite (V2 (HN eq_refl) I). cbn [hashed flat_map]. apply app_nil_r.
Qed.

(** ** Logs of whole calls, whatever the sizes *)

(** The undefined behaviour a call ends in, if any. *)
Definition ub_of {A} (r : out A) : option ub := match r with Ret _ => None | UB w => Some w end.

Lemma mbind_mret_log {A B} (x : M A) (f : A -> M B) l r :
  (forall a, exists b, f a = ([], Ret b)) -> mbind x f = (l, r) -> exists r', x = (l, r') /\ ub_of r = ub_of r'.
Proof.
  intros F. destruct x as [l1 [a|w]]; cbn [mbind].
  - destruct (F a) as (b & ->).
    rewrite app_nil_r. intro H. injection H as <- <-. eexists. split; reflexivity.
  - intro H. injection H as <- <-. eexists. split; reflexivity.
Qed.

Lemma signature_call_log c cr me aad dp e l r nul cap D1 P rest X top ns sp :
  encode_signature_aad_internal c cr me aad dp e = (l, r) ->
  X = D1 ++ encode (CBytes P) ++ rest ->
  c_prot me = bstr_slice nul cap D1 P ->
  (let '(e1, s) := if u_is_null dp
                   then let (e', s) := enc_close_bstr e in (e', resolve e' s)
                   else (e, dp) in
   bad e1 \/ (blen X <= cap /\ e1 = mk nul cap X top ns /\ s = sp)) ->
  (l = [] /\ ub_of r = None) \/
  (blen X <= cap /\ exists r', sign_core c cr me (inbuf nul P) aad sp (place nul (cap - blen X)) = (l, r') /\ ub_of r = ub_of r').
Proof.
  intros H EX CP HE. unfold encode_signature_aad_internal in H.
  destruct (if u_is_null dp then _ else _) as [e1 s].
  destruct (terr_eqb (enc_error_to_terr (enc_error e1)) T_SUCCESS) eqn:Er; cbn [negb] in H.
  2:{ left. unfold mret in H. now injection H as <- <-. }
  destruct HE as [B|(L & E1 & ->)]; [apply bad_terr in B; congruence|].
  right. split; [exact L|].
  assert (RP : resolve e1 (c_prot me) = inbuf nul P).
  { rewrite CP. unfold bstr_slice.
    replace (blen (D1 ++ encode (CBytes P)) <=? cap) with true.
    - rewrite E1, EX. apply resolve_mid.
    - rewrite EX, app_assoc, blen_app in L. symmetry. apply N.leb_le. lia. }
  rewrite RP in H. unfold enc_open_bytes in H.
  replace {| wb_null := e_null e1 || (e_room e1 =? 0); wb_len := e_room e1 |}
    with (place nul (cap - blen X)) in H by now rewrite E1.
  apply mbind_mret_log in H.
  - exact H.
  - intros [[[err me2] n] w]. destruct (terr_eqb err T_SUCCESS); eexists; reflexivity.
Qed.

Theorem sign_runs c cr me det payload aad buf l r :
  sign_aad_internal c cr me det payload aad buf = (l, r) ->
  (l = [] /\ ub_of r = None) \/
  (signature_algorithm_id_is_supported c (c_alg me) = true /\ sc_on me && dis_short_circuit c = false /\
   blen (unsigned c me det payload) <= wb_len buf /\ exists r',
    sign_core c cr (with_prot me buf) (inbuf (wb_null buf) (protected_header (c_alg me))) aad
              (if det then payload else inbuf (wb_null buf) (src_bytes payload))
              (place (wb_null buf) (wb_len buf - blen (unsigned c me det payload))) = (l, r') /\ ub_of r = ub_of r').
Proof.
  intro H.
  destruct (signature_algorithm_id_is_supported c (c_alg me)) eqn:A.
  2:{ left. unfold sign_aad_internal, encode_parameters_internal in H. rewrite A in H.
      cbn in H. now injection H as <- <-. }
  assert (EARLY : forall err' me2 e2, terr_eqb err' T_SUCCESS = false ->
     encode_parameters_internal c me det (enc_init buf) = (err', me2, e2) -> l = [] /\ ub_of r = None).
  { intros err' me2 e2 F E. unfold sign_aad_internal in H. rewrite E in H. cbv zeta in H.
    rewrite F in H. cbn [negb] in H. unfold mret in H. now injection H as <- <-. }
  destruct (sc_on me && dis_short_circuit c) eqn:S.
  { left. unfold encode_parameters_internal in EARLY. rewrite A in EARLY. cbn [negb] in EARLY.
    destruct (encode_protected_parameters _ _) as [e1 p] in EARLY.
    change (has_flag (c_flags (sc_set_prot me ?p)) OPT_SHORT_CIRCUIT_SIG) with (sc_on me) in EARLY.
    rewrite S in EARLY. eapply EARLY; [|reflexivity]. reflexivity. }
  destruct (ct_clash c me) eqn:T.
  { left. unfold encode_parameters_internal in EARLY. rewrite A in EARLY. cbn [negb] in EARLY.
    destruct (encode_protected_parameters _ _) as [e1 p] in EARLY.
    change (has_flag (c_flags (sc_set_prot me ?p)) OPT_SHORT_CIRCUIT_SIG) with (sc_on me) in EARLY.
    rewrite S in EARLY. unfold add_unprotected_parameters in EARLY.
    cbn [sc_set_prot c_ct_uint c_ct_tstr] in EARLY.
    unfold ct_clash in T. apply andb_prop in T as [T T3]. apply andb_prop in T as [T1 T2].
    destruct (dis_content_type c); [discriminate|]. rewrite T2 in EARLY.
    destruct (c_ct_tstr me); [|discriminate].
    eapply EARLY; [|reflexivity]. reflexivity. }
  clear EARLY.
  destruct (det && u_is_null payload) eqn:DN.
  { apply andb_prop in DN as [-> U]. left.
    rewrite (sign_detached_null c cr me payload aad buf U A S T) in H. now injection H as <- <-. }
  unfold sign_aad_internal in H.
  destruct (params_gen c me det buf A S T) as (e1 & E1 & H1). rewrite E1 in H. cbn [terr_eqb negb] in H.
  apply mbind_mret_log in H.
  2:{ intros [[err me2] e2]. destruct (terr_eqb err T_SUCCESS); cbn [negb]; [|eexists; reflexivity].
      destruct (terr_eqb _ T_SUCCESS); cbn [negb]; [|eexists; reflexivity].
      destruct (enc_finish e2) as [[] o]; eexists; reflexivity. }
  destruct H as (r1 & H & ->).
  apply (signature_call_log _ _ _ _ _ _ _ _ (wb_null buf) (wb_len buf) (tag_bytes me)
           (protected_header (c_alg me))
           (encode (unprot_of c me) ++ encode (payload_item det payload))
           (unsigned c me det payload) 1 [arr (blen (tag_bytes me)) 3]
           (if det then payload else inbuf (wb_null buf) (src_bytes payload))) in H.
  - destruct H as [H|H]; [left|right]; auto.
  - unfold unsigned, heads. now rewrite <- !app_assoc.
  - reflexivity.
  - destruct det; cbn [andb] in DN.
    + rewrite DN. apply R_add_null in H1; [|now compute].
      rewrite <- app_assoc in H1. change CNull with (payload_item true payload) in H1.
      fold (unsigned c me true payload) in H1.
      destruct (N.leb_spec (blen (unsigned c me true payload)) (wb_len buf)) as [L|L].
      * right. split; [exact L|]. split; [|reflexivity]. apply (R_fits _ _ _ _ _ _ H1 L).
      * left. left. apply (R_over _ _ _ _ _ _ H1 L).
    + cbn [u_is_null NULL_UBUF].
      destruct (N.leb_spec (blen (tag_bytes me ++ heads c me)) MAX_OFFSET) as [M|M].
      * apply R_open with (t := NBstr) in H1; [|now compute|unfold MAX_NESTING; cbn [length]; lia|exact M].
        apply R_add_encoded with (u := payload) in H1; [|now compute].
        apply R_close_bstr in H1; [|reflexivity|reflexivity]. destruct H1 as [H1 H2].
        fold (enc_open_bstr e1) in H1, H2.
        destruct (enc_close_bstr (enc_add_encoded (enc_open_bstr e1) payload)) as [e3 s].
        cbn [fst snd] in H1, H2.
        rewrite <- app_assoc in H1. change (CBytes (src_bytes payload)) with (payload_item false payload) in H1.
        fold (unsigned c me false payload) in H1.
        destruct (N.leb_spec (blen (unsigned c me false payload)) (wb_len buf)) as [L|L].
        -- right. split; [exact L|]. pose proof (R_fits _ _ _ _ _ _ H1 L) as E3.
           split; [exact E3|]. rewrite H2. unfold bstr_slice.
           assert (EU : (tag_bytes me ++ heads c me) ++ encode (CBytes (src_bytes payload))
                        = unsigned c me false payload).
           { unfold unsigned, payload_item. now rewrite app_assoc. }
           rewrite EU. replace (blen (unsigned c me false payload) <=? wb_len buf) with true by lia.
           rewrite E3, <- EU. rewrite <- (app_nil_r (encode (CBytes (src_bytes payload)))) at 1.
           apply resolve_mid.
        -- left. left. apply (R_over _ _ _ _ _ _ H1 L).
      * assert (BD : bad (fst (enc_close_bstr (enc_add_encoded (enc_open_bstr e1) payload)))).
        { apply bad_close_bstr. unfold enc_add_encoded.
          apply bad_increment, bad_insert. eapply R_open_beyond; [exact H1|now compute|exact M]. }
        destruct (enc_close_bstr _) as [e3 s]. left. exact BD.
Qed.

Theorem sign_log c cr me det payload aad buf l r :
  sign_aad_internal c cr me det payload aad buf = (l, r) ->
  l = [] \/ exists r',
    sign_core c cr (with_prot me buf) (inbuf (wb_null buf) (protected_header (c_alg me))) aad
              (if det then payload else inbuf (wb_null buf) (src_bytes payload))
              (place (wb_null buf) (wb_len buf - blen (unsigned c me det payload))) = (l, r').
Proof. intro H. apply sign_runs in H as [[-> _]|(_ & _ & _ & r' & H & _)]; eauto. Qed.

(** ** The specification theorems *)

Lemma configured_with_prot q me buf : configured q me -> configured q (with_prot me buf).
Proof. intro C. exact C. Qed.

Theorem sign_success_spec c cr q me det payload aad pl ad n log me' r :
  configured q me -> holds payload pl -> holds aad ad ->
  sign_aad_internal c cr me det payload aad {| wb_null := false; wb_len := n |}
    = (log, Ret (T_SUCCESS, me', r)) ->
  exists sig room,
    let m := requested_message c q (if det then None else Some pl) sig in
    r = Some (UBuf m) /\ blen m <= n /\ room <= n /\
    signature_of cr q (requested_tbs q ad pl) room sig /\ enabled c (q_alg q).
Proof.
  intros C P A H.
  pose proof (sign_success_domain _ _ _ _ _ _ _ _ _ _ H) as [D1 D2].
  rewrite (sign_eq c cr me det payload aad _ D1 D2) in H.
  cbn [wb_null wb_len] in H.
  destruct (signature_algorithm_id_is_supported c (c_alg me)) eqn:AL; cbn [negb] in H; [|discriminate].
  destruct (sc_on me && dis_short_circuit c) eqn:SC; [discriminate|].
  destruct (ct_clash c me); [discriminate|].
  destruct (N.ltb_spec n (blen (unsigned c me det payload))) as [L|L]; [discriminate|].
  apply mbind_ret_inv in H as (l1 & [[[err me2] k] w] & l2 & H1 & H2 & ->).
  destruct (terr_eqb err T_SUCCESS) eqn:E; cbn [negb] in H2.
  2:{ unfold mret in H2. injection H2 as _ H2 _ _. subst err. discriminate. }
  apply terr_eqb_eq in E. subst err.
  set (room := n - blen (unsigned c me det payload)) in *.
  assert (ML : blen (message c me det payload (sigw k w)) =
               blen (unsigned c me det payload) + 1 + blen (short_head 2 k) + k).
  { unfold message. rewrite cose_sign1_eq. unfold unsigned, payload_item. cbn [encode].
    change (short_head 4 4) with [x84].
    destruct det; rewrite !blen_app, sigw_len, blen_cons, blen_nil; lia. }
  assert (SH : 1 <= blen (short_head 2 k)).
  { unfold short_head. repeat destruct (_ <? _); rewrite ?blen_cons; lia. }
  destruct (N.leb_spec (blen (message c me det payload (sigw k w))) n) as [F|F]; [|discriminate].
  unfold mret in H2. injection H2 as _ _ <-.
  assert (RM : room <> 0) by lia.
  unfold place in H1. cbn [orb] in H1. replace (room =? 0) with false in H1 by lia.
  apply supported_spec in AL.
  apply (sign_core_success c cr q _ _ _ _ (protected_header (c_alg me)) ad pl) in H1; auto.
  2:{ now left. }
  2:{ destruct det; [exact P|]. left. rewrite (holds_src _ _ P). reflexivity. }
  destruct H1 as [-> SG]. rewrite sigw_exact in *.
  exists w, room. cbv zeta.
  rewrite <- (message_spec c q me det payload pl w C P).
  split; [reflexivity|]. split; [exact F|]. split; [lia|].
  destruct C as (CA & _). rewrite <- CA. split; [|exact AL].
  unfold requested_tbs. rewrite <- CA. exact SG.
Qed.

Theorem sign_events c cr q me det payload aad pl ad buf log r :
  configured q me -> holds payload pl -> holds aad ad ->
  sign_aad_internal c cr me det payload aad buf = (log, r) ->
  (forall e, In e log -> event_ok cr (q_alg q) (q_key q) (requested_tbs q ad pl) e) /\
  (wb_null buf = false -> In EvHashFinish log -> hashed log = requested_tbs q ad pl).
Proof.
  intros C P A H. apply sign_log in H as [->|[r' H]].
  { split; intros; contradiction. }
  apply (sign_core_events _ _ _ _ _ _ (protected_header (c_alg me)) ad pl _ (wb_null buf)) in H.
  - destruct C as (CA & _ & CK & _).
    change (c_alg (with_prot me buf)) with (c_alg me) in H.
    change (c_key (with_prot me buf)) with (c_key me) in H.
    unfold requested_tbs. rewrite <- CA, <- CK.
    exact H.
  - intro N. rewrite N.
    split; [now left|]. split; [exact A|]. destruct det; [exact P|].
    left. unfold inbuf. now rewrite (holds_src _ _ P).
  - unfold place. cbn [wb_null]. intro N. now apply orb_false_elim in N as [N _].
Qed.
