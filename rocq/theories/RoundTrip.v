(** The message made by signing is read by verification as what was signed. *)
From Verif Require Import Base Const QEnc QDec Crypto Util ShortCircuit Sign Params Verify Spec SignSpec.
From Verif Require Import BaseFacts UtilFacts SignFacts SignProofs SignMore SignMore2 SignMore3.
From Verif Require Import DecSpec VerifyFacts VerifyCheck Unique VerifyTop VerifySpec.
From Coq Require Import Lia ZifyBool ZifyNat ZifyN.
Ltac Zify.zify_post_hook ::= Z.div_mod_to_equations.
Open Scope N_scope. Open Scope list_scope.

(** ** The message represents itself *)

Lemma reads_uint d n : n < 2 ^ 64 -> reads d (CUInt n) (encode (CUInt n)).
Proof. intro H. cbn [encode]. constructor. now apply short_head_is_head. Qed.

Lemma reads_int d z : (- 2 ^ 63 <= z < 2 ^ 63)%Z -> reads d (CInt z) (encode (CInt z)).
Proof.
  intro H. unfold CInt. destruct (Z.ltb_spec z 0).
  - cbn [encode]. constructor. apply short_head_is_head. change (2 ^ 63)%Z with 9223372036854775808%Z in H.
    change (2 ^ 64) with 18446744073709551616. lia.
  - cbn [encode]. constructor. apply short_head_is_head. change (2 ^ 63)%Z with 9223372036854775808%Z in H.
    change (2 ^ 64) with 18446744073709551616. lia.
Qed.

Lemma reads_bytes d b : blen b < 2 ^ 64 -> reads d (CBytes b) (encode (CBytes b)).
Proof. intro H. cbn [encode]. constructor. now apply short_head_is_head. Qed.

Lemma reads_text d b : blen b < 2 ^ 64 -> reads d (CText b) (encode (CText b)).
Proof. intro H. cbn [encode]. constructor. now apply short_head_is_head. Qed.

Lemma reads_all_map d l : Forall (fun x => reads d x (encode x)) l -> reads_all d l (flat_map encode l).
Proof. induction 1; cbn [flat_map]; constructor; assumption. Qed.

Lemma reads_pairs_map d l :
  Forall (fun kv => reads d (fst kv) (encode (fst kv)) /\ label_like (fst kv) /\ reads d (snd kv) (encode (snd kv))) l ->
  reads_pairs d l (flat_map (fun kv => encode (fst kv) ++ encode (snd kv)) l).
Proof.
  induction 1 as [|[k v] l (H1 & H2 & H3) F IH]; cbn [flat_map fst snd]; [constructor|].
  rewrite <- app_assoc. constructor; assumption.
Qed.

Lemma reads_array d l : (d < max_nesting)%nat -> blen l <= max_items ->
  Forall (fun x => reads (S d) x (encode x)) l -> reads d (CArray l) (encode (CArray l)).
Proof.
  intros H L F. cbn [encode]. constructor; auto.
  - apply short_head_is_head. unfold max_items in L. change (2 ^ 64) with 18446744073709551616. lia.
  - now apply reads_all_map.
Qed.

Lemma reads_map d l : (d < max_nesting)%nat -> blen l <= max_items ->
  Forall (fun kv => reads (S d) (fst kv) (encode (fst kv)) /\ label_like (fst kv) /\ reads (S d) (snd kv) (encode (snd kv))) l ->
  reads d (CMap l) (encode (CMap l)).
Proof.
  intros H L F. cbn [encode]. constructor; auto.
  - apply short_head_is_head. unfold max_items in L. change (2 ^ 64) with 18446744073709551616. lia.
  - now apply reads_pairs_map.
Qed.

(** The parts of the message asked for. *)
Definition asked_unprot (c : cfg) (q : request) : params_map :=
  (match requested_kid q with [] => [] | _ => [(CInt 4, CBytes (requested_kid q))] end) ++
  (match requested_ct c q with CtNone => [] | CtUInt n => [(CInt 3, CUInt n)] | CtText s => [(CInt 3, CText s)] end).

Definition asked (c : cfg) (q : request) (payload : option bytes) (sig : bytes) : sign1 :=
  {| g_tags := if wants_tag (q_flags q) then [18] else [];
     g_prot := protected_header (q_alg q);
     g_unprot := asked_unprot c q;
     g_payload := match payload with Some p => CBytes p | None => CNull end;
     g_sig := sig; g_extra := [] |}.

Definition asked_prot (q : request) : params_map := [(CInt 1, CInt (q_alg q))].

Lemma len_in_encode d x : blen x <= blen (encode (CBytes x) ++ d).
Proof. cbn [encode]. rewrite !blen_app. lia. Qed.

Lemma enabled_range c alg : enabled c alg -> (-39 <= alg <= -7)%Z.
Proof. unfold enabled. lia. Qed.

Lemma readable_map l : readable (CMap l).
Proof. split; [cbn; lia|exact I]. Qed.

Lemma alg_map_reads d alg : (-39 <= alg <= -7)%Z -> (d < max_nesting)%nat ->
  reads d (CMap [(CInt 1, CInt alg)]) (encode (CMap [(CInt 1, CInt alg)])).
Proof.
  intros E D. apply reads_map; [exact D|change (1 <= max_items); unfold max_items; lia|].
  constructor; [|constructor]. cbn [fst snd]. split; [apply reads_int; lia|]. split; [exact I|apply reads_int; lia].
Qed.

Theorem asked_message c q payload sig :
  enabled c (q_alg q) ->
  (match q_ct_uint q with Some n => n < 65536 | None => True end) ->
  blen (requested_message c q payload sig) < 2 ^ 64 ->
  message (requested_message c q payload sig) (asked c q payload sig) (asked_prot q).
Proof.
  intros En Hct Hl. apply enabled_range in En.
  set (a := CArray [CBytes (protected_header (q_alg q)); CMap (asked_unprot c q);
                    match payload with Some p => CBytes p | None => CNull end; CBytes sig]).
  assert (Ea : requested_message c q payload sig = encode (if wants_tag (q_flags q) then CTag 18 a else a)) by reflexivity.
  assert (La : blen (encode a) < 2 ^ 64).
  { rewrite Ea in Hl. destruct (wants_tag _); [|exact Hl]. cbn [encode] in Hl |- *. rewrite blen_app in Hl. lia. }
  assert (Parts : blen (encode (CMap (asked_unprot c q))) < 2 ^ 64 /\
                  (forall p, payload = Some p -> blen p < 2 ^ 64) /\ blen sig < 2 ^ 64).
  { unfold a in La. change (encode (CArray ?l)) with (short_head 4 (blen l) ++ flat_map encode l) in La.
    cbn [flat_map] in La. rewrite !blen_app in La. split; [lia|]. split.
    - intros p ->. pose proof (len_in_encode [] p) as X. rewrite blen_app in X. change (blen (@nil byte)) with 0 in X. lia.
    - pose proof (len_in_encode [] sig) as X. rewrite blen_app in X. change (blen (@nil byte)) with 0 in X. lia. }
  destruct Parts as (Lu & Lp & Ls).
  assert (Ru : reads 1 (CMap (asked_unprot c q)) (encode (CMap (asked_unprot c q)))).
  { assert (L2 : (length (asked_unprot c q) <= 2)%nat).
    { unfold asked_unprot. destruct (requested_kid q), (requested_ct c q); cbn; lia. }
    apply reads_map; [unfold max_nesting; lia|unfold blen, max_items; lia|].
    change (encode (CMap ?l)) with (short_head 5 (blen l) ++ flat_map (fun kv => encode (fst kv) ++ encode (snd kv)) l) in Lu.
    rewrite blen_app in Lu. unfold asked_unprot in *. apply Forall_app. rewrite flat_map_app, blen_app in Lu. split.
    - destruct (requested_kid q) as [|k0 k]; [constructor|]. constructor; [|constructor]. cbn [fst snd flat_map] in *.
      rewrite !blen_app in Lu. split; [apply reads_int; lia|]. split; [exact I|]. apply reads_bytes.
      pose proof (len_in_encode [] (k0 :: k)) as X. rewrite blen_app in X. change (blen (@nil byte)) with 0 in X. lia.
    - destruct (requested_ct c q) as [|n|s] eqn:Ct; [constructor| |]; (constructor; [|constructor]); cbn [fst snd flat_map] in *;
        (split; [apply reads_int; lia|]); (split; [exact I|]).
      + apply reads_uint. unfold requested_ct in Ct. destruct (dis_content_type c); [discriminate|].
        destruct (q_ct_text q); [discriminate|]. destruct (q_ct_uint q); [|discriminate]. injection Ct as ->.
        change (2 ^ 64) with 18446744073709551616. lia.
      + apply reads_text. cbn [encode] in Lu. rewrite !blen_app in Lu. lia. }
  assert (Ra : reads 0 a (encode a)).
  { unfold a. apply reads_array; [unfold max_nesting; lia|change (4 <= max_items); unfold max_items; lia|].
    constructor; [|constructor; [exact Ru|constructor; [|constructor; [|constructor]]]].
    - apply reads_bytes. pose proof (protected_header_len (q_alg q)). change (2 ^ 64) with 18446744073709551616. lia.
    - destruct payload as [p|]; [apply reads_bytes; auto|]. change (encode CNull) with [initial 7 22]. apply rd_simple. lia.
    - now apply reads_bytes. }
  exists (if wants_tag (q_flags q) then CTag 18 a else a), []. rewrite Ea. split; [|split].
  - destruct (wants_tag (q_flags q)); [|exact Ra]. cbn [encode]. constructor; [|exact Ra].
    apply short_head_is_head. change (2 ^ 64) with 18446744073709551616. lia.
  - unfold is_sign1. split; [cbn [asked g_tags]; destruct (wants_tag (q_flags q)); reflexivity|].
    split; [cbn [asked g_tags]; destruct (wants_tag (q_flags q)); cbn [length]; lia|].
    exists (CMap (asked_unprot c q)). split; [apply readable_map|]. split; [reflexivity|].
    destruct (wants_tag (q_flags q)); reflexivity.
  - right. exists (CMap (asked_prot q)), (protected_header (q_alg q)). rewrite app_nil_r. split; [reflexivity|].
    split; [|split; [apply readable_map|reflexivity]]. apply alg_map_reads; [exact En|unfold max_nesting; lia].
Qed.

(** ** The parameters reported *)

Lemma readable_plain x : tags_of x = [] -> match body x with CJunk _ => False | CNInt n => n < 2 ^ 63 | _ => True end -> readable x.
Proof. intros E H. split; [rewrite E; cbn; lia|exact H]. Qed.

Lemma int_value_CInt z : (- 2 ^ 63 <= z < 2 ^ 63)%Z -> int_value (CInt z) = Some z.
Proof.
  intro H. unfold CInt, int_value. change (2 ^ 63) with 9223372036854775808. change (2 ^ 63)%Z with 9223372036854775808%Z in H.
  destruct (Z.ltb_spec z 0); cbn [body].
  - replace (Z.to_N (- z - 1) <? 9223372036854775808) with true by lia. f_equal. lia.
  - replace (Z.to_N z <? 9223372036854775808) with true by lia. f_equal. lia.
Qed.

Lemma asked_unprot_values c q :
  values 4 (asked_unprot c q) = match requested_kid q with [] => [] | k => [CBytes k] end /\
  values 3 (asked_unprot c q) = match requested_ct c q with CtNone => [] | CtUInt n => [CUInt n] | CtText s => [CText s] end /\
  (forall z, z <> 4%Z -> z <> 3%Z -> values z (asked_unprot c q) = []) /\
  int_labels (asked_unprot c q) = [] /\ text_labels (asked_unprot c q) = [] /\
  Forall (fun kv => understood (fst kv) = false -> odd_label (fst kv) = false) (asked_unprot c q).
Proof.
  unfold asked_unprot.
  assert (Z4 : forall z, z <> 4%Z -> has_int z (CInt 4) = false).
  { intros z H. unfold has_int. rewrite int_value_CInt by lia. now apply Z.eqb_neq. }
  assert (Z3 : forall z, z <> 3%Z -> has_int z (CInt 3) = false).
  { intros z H. unfold has_int. rewrite int_value_CInt by lia. now apply Z.eqb_neq. }
  destruct (requested_kid q) as [|k0 k], (requested_ct c q) as [|n|s]; cbn [app]; unfold values;
    (split; [reflexivity|]); (split; [reflexivity|]);
    (split; [intros z N4 N3; cbn [filter fst]; rewrite ?(Z4 z N4), ?(Z3 z N3); reflexivity|]);
    (split; [reflexivity|]); (split; [reflexivity|]); repeat constructor; try discriminate.
Qed.

Lemma asked_prot_values q : (-39 <= q_alg q <= -7)%Z ->
  values 1 (asked_prot q) = [CInt (q_alg q)] /\ (forall z, z <> 1%Z -> values z (asked_prot q) = []) /\
  int_labels (asked_prot q) = [] /\ text_labels (asked_prot q) = [] /\
  Forall (fun kv => understood (fst kv) = false -> odd_label (fst kv) = false) (asked_prot q).
Proof.
  intro H. assert (Z1 : forall z, z <> 1%Z -> has_int z (CInt 1) = false).
  { intros z N. unfold has_int. rewrite int_value_CInt by lia. now apply Z.eqb_neq. }
  unfold asked_prot, values. split; [reflexivity|]. split; [intros z N; cbn [filter fst]; rewrite (Z1 z N); reflexivity|].
  split; [reflexivity|]. split; [reflexivity|]. repeat constructor.
Qed.

Theorem asked_acceptable c q flags payload sig (dc : bool) gv pl :
  enabled c (q_alg q) ->
  (match q_ct_uint q with Some n => n < 65536 | None => True end) ->
  (requires_tag flags = true -> wants_tag (q_flags q) = true) ->
  (prohibits_tag flags = true -> wants_tag (q_flags q) = false) ->
  (requires_kid flags = true -> requested_kid q <> []) ->
  (if dc then payload = None /\ pl = gv else payload = Some pl) ->
  acceptable c flags dc gv (asked c q payload sig) (asked_prot q) (asked_params c q) pl.
Proof.
  intros En Hct T1 T2 K P. apply enabled_range in En.
  destruct (asked_unprot_values c q) as (U4 & U3 & UO & Ui & Ut & Uo).
  destruct (asked_prot_values q En) as (P1 & PO & Pi & Pt & Po).
  assert (VA : forall z, values z (all_params (asked c q payload sig) (asked_prot q)) = values z (asked_prot q) ++ values z (asked_unprot c q)).
  { intro z. unfold all_params. rewrite values_app. reflexivity. }
  constructor.
  - unfold tag_accepted, tagged. cbn [asked g_tags]. split; intro H.
    + rewrite (T1 H). reflexivity.
    + rewrite (T2 H). reflexivity.
  - constructor; cbn [asked g_unprot asked_params p_alg p_kid p_iv p_partial_iv p_ct_tstr p_ct_uint].
    + apply UO; lia.
    + right. exists (CInt (q_alg q)), (q_alg q). split; [exact P1|].
      split; [apply readable_plain; unfold CInt; destruct (Z.ltb_spec (q_alg q) 0); cbn; auto; change (2 ^ 63) with 9223372036854775808; lia|].
      split; [apply int_value_CInt; lia|]. split; [lia|]. split; [lia|]. unfold to_int32.
      clear - En. lia.
    + rewrite VA, (PO 4%Z), U4 by lia. cbn [app]. destruct (requested_kid q) as [|k0 k]; [left; auto|].
      right. exists (CBytes (k0 :: k)), (k0 :: k). split; [reflexivity|]. split; [apply readable_plain; [reflexivity|exact I]|]. auto.
    + rewrite VA, (PO 5%Z), (UO 5%Z) by lia. left. auto.
    + rewrite VA, (PO 6%Z), (UO 6%Z) by lia. left. auto.
    + assert (RC : dis_content_type c = true -> requested_ct c q = CtNone) by (unfold requested_ct; now intros ->).
      destruct (dis_content_type c) eqn:Dct.
      * rewrite (PO 3%Z), U3, (RC eq_refl) by lia. split; [left; reflexivity|]. split; [left; reflexivity|]. auto.
      * exists (UNull 0, 65536). rewrite (PO 3%Z), U3 by lia. split; [constructor|]. unfold requested_ct. rewrite Dct.
        destruct (q_ct_text q) as [s|]; [constructor; [apply readable_plain; [reflexivity|exact I]|reflexivity|auto]|].
        destruct (q_ct_uint q) as [n|]; [|constructor].
        apply ct_uint; [apply readable_plain; [reflexivity|exact I]|reflexivity|exact Hct].
  - cbn [asked g_unprot]. apply UO; lia.
  - exists [], []. split.
    + left. split; [apply PO; lia|auto].
    + right. split; intros ? [].
  - unfold labels_ok, all_params. cbn [asked g_unprot]. rewrite Forall_app, int_labels_app, text_labels_app, Pi, Ui, Pt, Ut.
    split; [auto|]. split; [exact I|cbn; lia].
  - unfold payload_is. cbn [asked g_payload]. destruct dc.
    + destruct P as [-> ->]. split; [apply readable_plain; [reflexivity|exact I]|]. auto.
    + rewrite P. reflexivity.
  - intro H. cbn [asked_params p_kid]. destruct (requested_kid q); [now specialize (K H)|discriminate].
Qed.

(** ** Round trips *)

Lemma repeat_to_starts d n : d <> [] -> blen d <= n -> exists rest, repeat_to d n = d ++ rest.
Proof.
  intros D H. unfold repeat_to.
  assert (N.to_nat n <> 0)%nat.
  { destruct d as [|x d]; [contradiction|]. rewrite blen_cons in H. lia. }
  destruct (N.to_nat n) as [|k] eqn:E; [contradiction|]. cbn [repeat concat].
  exists (firstn (S k - length d) (concat (repeat d k))). rewrite firstn_app, firstn_all2; [reflexivity|].
  unfold blen in H. lia.
Qed.

Lemma sign_sc_enabled c cr q me det payload aad buf log me' r :
  configured q me ->
  sign_aad_internal c cr me det payload aad buf = (log, Ret (T_SUCCESS, me', r)) ->
  wants_short_circuit (q_flags q) = true -> dis_short_circuit c = false.
Proof.
  intros C H W. pose proof (sign_success_domain _ _ _ _ _ _ _ _ _ _ H) as [D1 D2].
  rewrite (sign_eq c cr me det payload aad _ D1 D2) in H. rewrite (sc_on_spec _ _ C), W in H. cbn [andb] in H.
  destruct (dis_short_circuit c); [|reflexivity]. destruct (negb (signature_algorithm_id_is_supported _ _)) in H; discriminate.
Qed.

(** Signing succeeded for [q] with output buffer of [n] bytes; the verifier has
    the matching key, the same AAD, the payload if it is detached, and enough
    auxiliary buffer. *)
Theorem round_trip c cr q me (det : bool) payload aad pl ad n log me' m vme junk aad' payload' want :
  configured q me -> holds payload pl -> holds aad ad -> n < 2 ^ 64 ->
  sign_aad_internal c cr me det payload aad {| wb_null := false; wb_len := n |} = (log, Ret (T_SUCCESS, me', Some (UBuf m))) ->
  length (v_tags vme) = 4%nat -> holds aad' ad -> detached_arg det payload' pl ->
  demands_met q (v_flags vme) -> (wants_short_circuit (q_flags q) = false -> keys_match cr (q_alg q) (q_key q) (v_key vme)) ->
  one_digest cr -> hash_reliable c cr [ad; pl] ->
  (if wants_short_circuit (q_flags q)
   then requested_kid q = reserved_kid /\ allows_short_circuit (v_flags vme) = true /\
        forall halg data d, hash_for (q_alg q) = Some halg -> digest_of cr halg data d -> d <> [] /\ blen d <= ecdsa_sig_size (q_alg q)
   else q_kid q <> reserved_kid \/ dis_short_circuit c = true) ->
  (wants_short_circuit (q_flags q) = false -> q_alg q = (-8)%Z ->
     wb_null (v_aux vme) = false /\ blen (requested_tbs q ad pl) <= wb_len (v_aux vme)) ->
  exists log' w, verify_internal c cr junk vme m aad' payload' want det = (log', Ret w) /\
    delivered vme payload' want det (asked_params c q) pl w.
Proof.
  intros C P A Hn H Hv A' HG (T1 & T2 & T3) KM OD HR SC AX.
  destruct (sign_success_spec c cr q me det payload aad pl ad n log me' (Some (UBuf m)) C P A H)
    as (sig & room & Em & Lm & Lr & Hsig & En). injection Em as ->.
  pose proof (sign_sc_enabled _ _ _ _ _ _ _ _ _ _ _ C H) as SE.
  assert (Hct : match q_ct_uint q with Some n => n < 65536 | None => True end).
  { destruct C as (_ & _ & _ & _ & U & _). destruct (q_ct_uint q); [exact (proj1 U)|exact I]. }
  set (po := if det then None else Some pl) in *.
  assert (K : u_data (p_kid (asked_params c q)) = requested_kid q).
  { cbn [asked_params p_kid]. destruct (requested_kid q); reflexivity. }
  assert (SK : short_circuit_kid c (asked_params c q) = wants_short_circuit (q_flags q)).
  { unfold short_circuit_kid. rewrite K. destruct (wants_short_circuit (q_flags q)) eqn:W.
    - destruct SC as (-> & _ & _). rewrite (SE eq_refl). reflexivity.
    - assert (RK : requested_kid q = q_kid q) by (unfold requested_kid; rewrite W; destruct (q_kid q); reflexivity).
      rewrite RK. destruct SC as [SC| ->]; [|reflexivity].
      destruct (bytes_eqb (q_kid q) reserved_kid) eqn:B; [|apply andb_false_r].
      exfalso. apply SC. now apply bytes_eqb_eq. }
  eapply verify_complete; eauto.
  - apply asked_message; auto. lia.
  - apply asked_acceptable; auto. unfold po. destruct det; auto.
  - intros _. split; [|split; [assumption|]].
    2:{ eapply hash_reliable_mono; [|exact HR]. cbn [asked g_prot]. pose proof (protected_header_len (q_alg q)).
        cbn [longest fold_right]. lia. } cbn [asked g_prot g_sig]. unfold accepted. rewrite SK. fold (requested_tbs q ad pl).
    unfold signature_of in Hsig. cbn [asked_params p_alg]. destruct (wants_short_circuit (q_flags q)).
    + destruct SC as (_ & SA & SD). split; [exact SA|]. destruct Hsig as (halg & d & HF & HD & ->).
      destruct (SD halg _ d HF HD) as [D1 D2]. destruct (repeat_to_starts d _ D1 D2) as [rest R].
      exists halg, d, rest. auto.
    + unfold uses_eddsa. cbn [asked_params p_alg]. destruct (Z.eqb_spec (q_alg q) (-8)) as [E8|E8].
      * assert (DE : dis_eddsa c = false) by (unfold enabled in En; rewrite E8 in En; clear - En; intuition congruence).
        rewrite DE. cbn [negb andb]. eapply (proj2 (KM eq_refl)). exact Hsig.
      * rewrite andb_false_r. destruct Hsig as (halg & d & HF & HD & HS). exists halg, d. split; [exact HF|]. split; [exact En|].
        split; [exact HD|]. eapply (proj1 (KM eq_refl)). exact HS.
  - unfold aux_enough. rewrite SK. intros W U. unfold uses_eddsa in U. cbn [asked_params p_alg] in U.
    apply andb_true_iff in U as [_ U]. apply Z.eqb_eq in U. destruct (AX W U) as [X1 X2]. split; [exact X2|intros _; exact X1].
Qed.
