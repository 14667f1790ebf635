(** C73: order of the calls of the adapter. *)
From Coq Require Import Lia.
From Verif Require Import Base Const QEnc Crypto Util ShortCircuit Sign Params Verify Spec SignSpec ProtocolSpec.
From Verif Require Import BaseFacts UtilFacts SignFacts SignProofs SignErrorFacts.
Open Scope N_scope. Open Scope list_scope.
Local Strategy 100 [create_tbs create_tbs_hash].


Lemma hash_for_of c alg : hash_alg_id_from_sig_alg_id c alg <> INVALID_ALGORITHM_ID ->
  hash_for alg = Some (hash_alg_id_from_sig_alg_id c alg).
Proof.
  unfold hash_alg_id_from_sig_alg_id. intro N.
  destruct (Z.eqb_spec alg ES256) as [E|E]; [rewrite E; reflexivity|clear E].
  destruct (negb (dis_es384 c)); cbn [andb] in *; [destruct (Z.eqb_spec alg ES384) as [E|E]; [rewrite E; reflexivity|clear E]|];
  (destruct (negb (dis_es512 c)); cbn [andb] in *; [destruct (Z.eqb_spec alg ES512) as [E|E]; [rewrite E; reflexivity|clear E]|]);
  (destruct (negb (dis_ps256 c)); cbn [andb] in *; [destruct (Z.eqb_spec alg PS256) as [E|E]; [rewrite E; reflexivity|clear E]|]);
  (destruct (negb (dis_ps384 c)); cbn [andb] in *; [destruct (Z.eqb_spec alg PS384) as [E|E]; [rewrite E; reflexivity|clear E]|]);
  (destruct (negb (dis_ps512 c)); cbn [andb] in *; [destruct (Z.eqb_spec alg PS512) as [E|E]; [rewrite E; reflexivity|clear E]|]);
  now elim N.
Qed.

Lemma digest_room c : largest_digest c (max_hash_size c).
Proof.
  unfold largest_digest, max_hash_size, enabled. split.
  - destruct (dis_es512 c) eqn:A; cbn [negb orb].
    + destruct (dis_ps512 c) eqn:B; cbn [negb orb].
      * destruct (dis_es384 c) eqn:D; cbn [negb orb].
        -- destruct (dis_ps384 c) eqn:E; cbn [negb orb].
           ++ exists (-7)%Z. split; [tauto|]. exists (-16)%Z. split; [reflexivity|]. cbn. tauto.
           ++ exists (-38)%Z. split; [tauto|]. exists (-43)%Z. split; [reflexivity|]. cbn. tauto.
        -- exists (-35)%Z. split; [tauto|]. exists (-43)%Z. split; [reflexivity|]. cbn. tauto.
      * exists (-39)%Z. split; [tauto|]. exists (-44)%Z. split; [reflexivity|]. cbn. tauto.
    + exists (-36)%Z. split; [tauto|]. exists (-44)%Z. split; [reflexivity|]. cbn. tauto.
  - intros alg halg n' E H I. cbn [In] in I.
    destruct E as [->|[[-> E]|[[-> E]|[[-> E]|[[-> E]|[[-> E]|[-> E]]]]]]]; cbn [hash_for] in H; try discriminate H;
      injection H as <-; (destruct I as [I|[I|[I|[]]]]; try discriminate I; injection I as <-);
      rewrite ?E; cbn [negb orb]; rewrite ?Bool.orb_true_r; try lia;
      repeat match goal with |- context [if ?b then _ else _] => destruct b end; lia.
Qed.

Lemma hash_orderly c cr alg prot aad payload log err d D K :
  create_tbs_hash c cr alg prot aad payload (max_hash_size c) = (log, Ret (err, d)) ->
  orderly c cr alg D K log /\
  (err = T_SUCCESS -> forall ev, K d ev -> orderly c cr alg D K (log ++ [ev])).
Proof.
  unfold create_tbs_hash. set (halg := hash_alg_id_from_sig_alg_id c alg).
  destruct (Z.eqb_spec halg INVALID_ALGORITHM_ID) as [E|NI].
  { intro H. injection H as <- <- _. split; [constructor|discriminate]. }
  pose proof (hash_for_of c alg NI) as HF. fold halg in HF.
  unfold mlog at 1. destruct (cr_hash_start cr halg) as [err0 h] eqn:S. cbn [mbind].
  destruct (terr_eqb err0 T_SUCCESS) eqn:E0; cbn [negb].
  2:{ intro H. injection H as <- <- _. split; [|intros ->; discriminate].
      apply hash_not_started; [exact HF|]. rewrite S. cbn. intros ->. discriminate. }
  apply terr_eqb_eq in E0. subst err0.
  unfold hash_bstr, m_hash_update, mlog.
  repeat (cbn [mbind]; match goal with |- context [cr_hash_update cr ?a ?b] =>
     let X := fresh "U" in destruct (cr_hash_update cr a b) as [?|?] eqn:X end; cbn [mbind]; [|discriminate]).
  match goal with |- context [cr_hash_finish cr ?a _] => set (h' := a) in * end.
  intro H. injection H as <- H.
  pose (pieces := [UBuf (x84 :: x6a :: SIGNATURE1); UBuf (encode_head MT_BSTR (u_len prot)); prot;
                   UBuf (encode_head MT_BSTR (u_len aad)); aad; UBuf (encode_head MT_BSTR (u_len payload)); payload]).
  assert (UA : update_all cr h pieces = Ret h').
  { unfold pieces. cbn [update_all]. rewrite U, U0, U1, U2, U3, U4, U5. reflexivity. }
  split.
  - exact (hashed_only c cr alg D K halg h pieces h' HF S eq_refl UA).
  - intros -> ev KE. exact (hashed_and_key c cr alg D K halg h pieces h' _ d ev HF S eq_refl UA (digest_room c) H KE).
Qed.

Lemma hash_no_signature c cr alg prot aad payload n log r :
  create_tbs_hash c cr alg prot aad payload n = (log, r) -> no_signature log.
Proof.
  unfold create_tbs_hash. intro H.
  assert (X : forall ev, In ev log -> match ev with EvHashStart _ | EvHashUpdate _ | EvHashFinish => True | _ => False end).
  2:{ intros ev I. specialize (X ev I). destruct ev; tauto. }
  revert H. destruct (_ =? _)%Z; [intro H; injection H as <- _; intros ? []|].
  unfold mlog at 1. destruct (cr_hash_start cr _) as [err0 h]. cbn [mbind].
  destruct (negb _); [intro H; injection H as <- _; intros ? [<-|[]]; exact Logic.I|].
  unfold hash_bstr, m_hash_update, mlog.
  repeat (cbn [mbind app]; match goal with |- context [cr_hash_update cr ?a ?b] => destruct (cr_hash_update cr a b) end);
    cbn [mbind app]; intro H; injection H as <- _; cbn [In]; intros ev I;
    repeat (destruct I as [<-|I]; [exact Logic.I|]); destruct I.
Qed.

Lemma no_signature_app a b : no_signature a -> no_signature b -> no_signature (a ++ b).
Proof. intros A B ev I. apply in_app_or in I as [I|I]; [now apply A|now apply B]. Qed.

Ltac unret H := unfold mret in H; injection H as <- _.

Lemma core_orderly c cr me prot aad payload buf log r :
  sign_core c cr me prot aad payload buf = (log, Ret r) ->
  orderly c cr (c_alg me) (signs_directly (c_alg me) (c_key me)) (signs_digest (c_alg me) (c_key me)) log /\
  (has_flag (c_flags me) OPT_SHORT_CIRCUIT_SIG && negb (dis_short_circuit c) = true ->
   orderly c cr (c_alg me) (fun _ => False) (fun _ _ => False) log) /\
  (wb_null buf = true -> no_signature log).
Proof.
  unfold sign_core. intro H. destruct (has_flag (c_flags me) OPT_SHORT_CIRCUIT_SIG && negb (dis_short_circuit c)) eqn:SC.
  - unfold sign1_sign_short_circuit in H.
    apply mbind_ret_inv in H as (l1 & [e1 h] & l2 & H1 & H & ->).
    assert (l2 = []) as ->.
    { destruct (terr_eqb e1 T_SUCCESS); cbn [negb] in H; [|unret H; reflexivity]. destruct (wb_null buf).
      - destruct (short_circuit_sig_size (c_alg me)). unret H. reflexivity.
      - apply mbind_ret_inv in H as (? & [] & ? & H3 & H & ->). unfold mlift in H3. injection H3 as <- _.
        unret H. reflexivity. }
    rewrite app_nil_r. split; [|split].
    + apply (hash_orderly _ _ _ _ _ _ _ _ _ _ _ H1).
    + intros _. apply (hash_orderly _ _ _ _ _ _ _ _ _ _ _ H1).
    + intros _. apply (hash_no_signature _ _ _ _ _ _ _ _ _ H1).
  - destruct ((c_alg me =? EDDSA)%Z && negb (dis_eddsa c)) eqn:ED.
    + apply andb_prop in ED as [EA _]. apply Z.eqb_eq in EA. change EDDSA with (-8)%Z in EA.
      split; [|split; [discriminate|]].
      * unfold sign1_sign_eddsa in H. destruct (create_tbs prot aad payload (c_aux me)) as [err tbs]. cbv zeta in H.
        match type of H with context [negb ?b] => destruct b end; cbn [negb] in H; [|unret H; constructor]. destruct tbs as [tbs|]; [|discriminate].
        destruct (wb_null buf).
        -- apply mbind_ret_inv in H as (l1 & [e n] & l2 & H1 & H & ->). unfold m_sig_size, mlog in H1.
           injection H1 as <- _. unret H. apply key_only. split; [exact EA|now left].
        -- destruct (wb_null _); [unret H; constructor|].
           apply mbind_ret_inv in H as (l1 & [e n] & l2 & H1 & H & ->). unfold mlog in H1.
           injection H1 as <- _. unret H. apply key_only. split; [exact EA|]. right. eexists. reflexivity.
      * intro NB. unfold sign1_sign_eddsa in H. destruct (create_tbs prot aad payload (c_aux me)) as [err tbs]. cbv zeta in H.
        match type of H with context [negb ?b] => destruct b end; cbn [negb] in H; [|unret H; intros ? []]. destruct tbs as [tbs|]; [|discriminate].
        rewrite NB in H. apply mbind_ret_inv in H as (l1 & [e n] & l2 & H1 & H & ->). unfold m_sig_size, mlog in H1.
        injection H1 as <- _. unret H. intros ? [<-|[]]. exact Logic.I.
    + unfold sign1_sign_default in H. apply mbind_ret_inv in H as (l1 & [e1 h] & l2 & H1 & H & ->).
      pose proof (hash_no_signature _ _ _ _ _ _ _ _ _ H1) as NS.
      apply (hash_orderly _ _ _ _ _ _ _ _ _ (signs_directly (c_alg me) (c_key me)) (signs_digest (c_alg me) (c_key me))) in H1 as [O K].
      destruct (terr_eqb e1 T_SUCCESS) eqn:E1; cbn [negb] in H.
      2:{ unret H. rewrite app_nil_r. split; [exact O|split; [discriminate|auto]]. }
      apply terr_eqb_eq in E1. specialize (K E1). destruct (wb_null buf).
      * apply mbind_ret_inv in H as (l3 & [e n] & l4 & H3 & H & ->). unfold m_sig_size, mlog in H3.
        injection H3 as <- _. unret H. rewrite app_nil_r. split; [apply K; now left|]. split; [discriminate|].
        intros _. apply no_signature_app; [exact NS|]. intros ? [<-|[]]. exact Logic.I.
      * apply mbind_ret_inv in H as (l3 & [e n] & l4 & H3 & H & ->). unfold mlog in H3.
        injection H3 as <- _. unret H. rewrite app_nil_r. split; [apply K; now right|]. split; discriminate.
Qed.

(** ** The encoder keeps its buffer *)

Lemma insert_null e u p : e_null (enc_insert e u p) = e_null e.
Proof. unfold enc_insert. repeat match goal with |- context [if ?b then _ else _] => destruct b end; reflexivity. Qed.
Lemma append_null e u : e_null (enc_append e u) = e_null e.
Proof. apply insert_null. Qed.
Lemma increment_null e : e_null (enc_increment e) = e_null e.
Proof.
  unfold enc_increment. destruct (negb _); [reflexivity|].
  destruct (e_nest e); destruct (_ <=? _); reflexivity.
Qed.
Lemma open_null e t : e_null (enc_open e t) = e_null e.
Proof.
  unfold enc_open. cbv zeta. rewrite <- (increment_null e).
  repeat match goal with |- context [if ?b then _ else _] => destruct b end; reflexivity.
Qed.
Lemma close_null e t m a : e_null (enc_close e t m a) = e_null e.
Proof.
  unfold enc_close. destruct (negb _); [reflexivity|]. destruct (e_nest e); [reflexivity|].
  destruct (negb _); [reflexivity|]. cbn [set_nest e_null]. apply insert_null.
Qed.
Lemma close_bstr_null e : e_null (fst (enc_close_bstr e)) = e_null e.
Proof.
  unfold enc_close_bstr. cbv zeta. destruct (_ || _); [apply close_null|].
  destruct (e_nest e); [apply close_null|]. destruct (e_oerr _); apply close_null.
Qed.
Lemma add_head_null e m a : e_null (enc_add_head e m a) = e_null e.
Proof. apply append_null. Qed.
Lemma add_int_null e z : e_null (enc_add_int e z) = e_null e.
Proof. unfold enc_add_int. destruct (_ <? _)%Z; now rewrite increment_null, add_head_null. Qed.
Lemma add_uint_null e n : e_null (enc_add_uint e n) = e_null e.
Proof. unfold enc_add_uint. now rewrite increment_null, add_head_null. Qed.
Lemma add_bytes_null e u : e_null (enc_add_bytes e u) = e_null e.
Proof. unfold enc_add_bytes. now rewrite increment_null, append_null, add_head_null. Qed.
Lemma add_text_null e u : e_null (enc_add_text e u) = e_null e.
Proof. unfold enc_add_text. now rewrite increment_null, append_null, add_head_null. Qed.

Ltac keeps_null :=
  repeat first [rewrite open_null | rewrite close_null | rewrite add_int_null | rewrite add_uint_null
               | rewrite add_bytes_null | rewrite add_text_null | rewrite add_head_null
               | rewrite increment_null | rewrite append_null | rewrite close_bstr_null ].

Lemma protected_null alg e : e_null (fst (encode_protected_parameters alg e)) = e_null e.
Proof.
  unfold encode_protected_parameters, enc_open_bstr, enc_open_map, enc_add_int_to_map, enc_close_map. keeps_null. reflexivity.
Qed.

Lemma parameters_null c me det e : e_null (snd (encode_parameters_internal c me det e)) = e_null e.
Proof.
  unfold encode_parameters_internal. destruct (negb (signature_algorithm_id_is_supported c (c_alg me))); [reflexivity|].
  set (e1 := if negb (has_flag (c_flags me) OPT_OMIT_CBOR_TAG) then _ else _).
  assert (N1 : e_null e1 = e_null e). { unfold e1, enc_add_tag. destruct (negb _); keeps_null; reflexivity. }
  clearbody e1. pose proof (protected_null (c_alg me) (enc_open_array e1)) as N2. unfold enc_open_array in N2 at 2. rewrite open_null in N2.
  destruct (encode_protected_parameters (c_alg me) (enc_open_array e1)) as [e2 prot]. cbn [fst] in N2.
  destruct (_ && _); [cbn [snd]; congruence|].
  set (kid := if _ && _ then _ else _).
  assert (N3 : e_null (snd (add_unprotected_parameters c (sc_set_prot me prot) kid e2)) = e_null e2).
  { unfold add_unprotected_parameters, enc_open_map, enc_add_bytes_to_map, enc_close_map, enc_add_uint_to_map, enc_add_text_to_map.
    destruct (negb (u_is_null_or_empty kid)); (destruct (dis_content_type c); [cbn [snd]; keeps_null; reflexivity|]);
      destruct (negb (_ =? _)), (c_ct_tstr _); cbn [snd]; keeps_null; reflexivity. }
  destruct (add_unprotected_parameters _ _ _ _) as [err e3]. cbn [snd] in N3.
  destruct (negb _); cbn [snd]; [congruence|]. destruct det; unfold enc_open_bstr; keeps_null; congruence.
Qed.

Theorem step_orderly c cr me aad dp e log r :
  encode_signature_aad_internal c cr me aad dp e = (log, Ret r) ->
  orderly c cr (c_alg me) (signs_directly (c_alg me) (c_key me)) (signs_digest (c_alg me) (c_key me)) log /\
  (has_flag (c_flags me) OPT_SHORT_CIRCUIT_SIG && negb (dis_short_circuit c) = true ->
   orderly c cr (c_alg me) (fun _ => False) (fun _ _ => False) log) /\
  (e_null e = true -> no_signature log).
Proof.
  intro H. unfold encode_signature_aad_internal in H.
  assert (exists e1 sp, (if u_is_null dp then let (e', s) := enc_close_bstr e in (e', resolve e' s) else (e, dp)) = (e1, sp)
          /\ e_null e1 = e_null e) as (e1 & sp & X & N1).
  { destruct (u_is_null dp); [pose proof (close_bstr_null e) as Y; destruct (enc_close_bstr e) as [e1 s]|];
      do 2 eexists; (split; [reflexivity|]); [exact Y|reflexivity]. }
  rewrite X in H. destruct (terr_eqb (enc_error_to_terr (enc_error e1)) T_SUCCESS); cbn [negb] in H.
  2:{ unret H. split; [constructor|]. split; [constructor|]. intros _ ? []. }
  unfold enc_open_bytes in H. cbv zeta in H.
  match type of H with mbind (if _ then _ else _) _ = _ => idtac end.
  apply mbind_ret_inv in H as (l1 & [[[e4 m1] n] w] & l2 & H1 & H & ->).
  assert (l2 = []) as -> by (destruct (terr_eqb e4 T_SUCCESS); cbn [negb] in H; unret H; reflexivity).
  rewrite app_nil_r. apply core_orderly in H1 as (O & S & NS). split; [exact O|]. split; [exact S|].
  intro NE. apply NS. cbn [wb_null]. now rewrite N1, NE.
Qed.

Theorem sign_orderly c cr me det payload aad buf log r :
  sign_aad_internal c cr me det payload aad buf = (log, Ret r) ->
  orderly c cr (c_alg me) (signs_directly (c_alg me) (c_key me)) (signs_digest (c_alg me) (c_key me)) log /\
  (has_flag (c_flags me) OPT_SHORT_CIRCUIT_SIG = true ->
   orderly c cr (c_alg me) (fun _ => False) (fun _ _ => False) log) /\
  (wb_null buf = true -> no_signature log).
Proof.
  intro H. unfold sign_aad_internal in H. pose proof (parameters_null c me det (enc_init buf)) as PN.
  destruct (encode_parameters_internal c me det (enc_init buf)) as [[err me1] e1] eqn:EP. cbn [snd] in PN.
  assert (E0 : log = [] -> 
    orderly c cr (c_alg me) (signs_directly (c_alg me) (c_key me)) (signs_digest (c_alg me) (c_key me)) log /\
    (has_flag (c_flags me) OPT_SHORT_CIRCUIT_SIG = true ->
     orderly c cr (c_alg me) (fun _ => False) (fun _ _ => False) log) /\
    (wb_null buf = true -> no_signature log)).
  { intros ->. split; [constructor|]. split; [constructor|]. intros _ ? []. }
  destruct (terr_eqb err T_SUCCESS) eqn:E1; cbn [negb] in H.
  2:{ unret H. now apply E0. }
  clear E0. apply mbind_ret_inv in H as (l1 & [[e4 m1] e5] & l2 & H1 & H & ->).
  assert (l2 = []) as ->.
  { destruct (terr_eqb e4 T_SUCCESS); cbn [negb] in H; [|unret H; reflexivity].
    destruct (terr_eqb (enc_error_to_terr (enc_error e5)) T_SUCCESS); cbn [negb] in H; [|unret H; reflexivity].
    destruct (enc_finish e5) as [[] ?]; unret H; reflexivity. }
  rewrite app_nil_r. apply step_orderly in H1 as (O & SC & NS).
  assert (c_alg me1 = c_alg me /\ c_key me1 = c_key me /\ c_flags me1 = c_flags me /\
          (has_flag (c_flags me) OPT_SHORT_CIRCUIT_SIG = true -> dis_short_circuit c = false)) as (EA & EK & EF & ES).
  { revert EP. unfold encode_parameters_internal.
    destruct (negb (signature_algorithm_id_is_supported c (c_alg me))); [intro X; injection X as <- _ _; discriminate|].
    destruct (encode_protected_parameters _ _) as [e6 prot].
    destruct (has_flag (c_flags me) OPT_SHORT_CIRCUIT_SIG) eqn:HS;
      change (c_flags (sc_set_prot me prot)) with (c_flags me); rewrite ?HS; cbn [andb];
      [destruct (dis_short_circuit c); [intro X; injection X as <- _ _; discriminate|]|];
      (destruct (add_unprotected_parameters _ _ _ _) as [e7 e8];
       destruct (terr_eqb e7 T_SUCCESS); cbn [negb]; intro X; injection X as _ <- _; repeat split; auto; discriminate). }
  rewrite EA, EK, EF in *. split; [exact O|]. split.
  - intro HS. apply SC. rewrite HS, (ES HS). reflexivity.
  - intro NB. apply NS.
    destruct det; [unfold enc_add_null|unfold enc_add_encoded]; keeps_null; rewrite PN; exact NB.
Qed.

Theorem sign_orderly_request c cr q me det payload aad buf log r : configured q me ->
  sign_aad_internal c cr me det payload aad buf = (log, Ret r) ->
  orderly c cr (q_alg q) (signs_directly (q_alg q) (q_key q)) (signs_digest (q_alg q) (q_key q)) log /\
  (wants_short_circuit (q_flags q) = true -> orderly c cr (q_alg q) (fun _ => False) (fun _ _ => False) log) /\
  (wb_null buf = true -> no_signature log).
Proof.
  intros C H. pose proof (sc_on_spec _ _ C) as SO. destruct C as (CA & _ & CK & _). apply sign_orderly in H.
  unfold sc_on in SO. now rewrite CA, CK, SO in H.
Qed.

Theorem step_orderly_request c cr q me aad dp e log r : configured q me ->
  encode_signature_aad_internal c cr me aad dp e = (log, Ret r) ->
  orderly c cr (q_alg q) (signs_directly (q_alg q) (q_key q)) (signs_digest (q_alg q) (q_key q)) log /\
  (wants_short_circuit (q_flags q) = true -> dis_short_circuit c = false ->
   orderly c cr (q_alg q) (fun _ => False) (fun _ _ => False) log) /\
  (e_null e = true -> no_signature log).
Proof.
  intros C H. pose proof (sc_on_spec _ _ C) as SO. destruct C as (CA & _ & CK & _). apply step_orderly in H.
  unfold sc_on in SO. rewrite CA, CK, SO in H. destruct H as (H1 & H2 & H3). split; [exact H1|]. split; [|exact H3].
  intros W Dd. apply H2. now rewrite W, Dd.
Qed.

Theorem orderly_few c cr alg D K log : orderly c cr alg D K log -> (length log <= 10)%nat.
Proof.
  intros [| | |halg h pieces h' _ _ L _|halg h pieces h' room d ev _ _ L _ _ _ _]; cbn [length]; try lia;
    rewrite app_length, map_length, L; cbn [length]; lia.
Qed.
