(** The tests of signing and verifying with t_cose: the stored messages, algorithms that are
    not supported, and the tests with the libraries. *)
From Verif Require Import Base Const QEnc QDec Crypto Util ShortCircuit Params Sign Verify OpenSSL Psa Spec SignSpec PieceSpec SignErrorSpec Examples ExampleRun.
From Verif Require Import BaseFacts EncFacts UtilFacts SignFacts SignProofs SignMore SignMore2 SignMore3 SignSafe Piece SignErrorFacts ApiSpec ApiFacts.
From Verif Require Import AdapterSpec AdapterFacts PsaFacts SupportFacts LiveSpec LiveFacts VerifyCheck VerifyTop VerifyMore2 VerifyMore4 RoundTrip VerifySpec ExampleSpec ExampleFacts ExampleFacts2 ExampleRunSpec ExampleRunFacts SvTests SvSpec SvFacts SvFacts2.
From Coq Require Import Lia ZifyBool ZifyNat ZifyN.
Open Scope N_scope. Open Scope list_scope. Open Scope xmon_scope.
Local Strategy 100 [create_tbs create_tbs_hash verify_decode].

(** ** The stored messages *)

Lemma stored_bytes alg msg : In (alg, msg) test_cases -> exists sg, msg = test_bytes alg [] text_payload sg /\ blen msg <= 300.
Proof.
  intro IN.
  assert (K : exists k, let sg := skipn k msg in msg = test_bytes alg [] text_payload sg /\ blen msg <= 300).
  { cbn [test_cases In] in IN. repeat (destruct IN as [X|IN]; [injection X as <- <-; first
      [ exists 17%nat; vm_compute; split; [reflexivity|discriminate] | exists 18%nat; vm_compute; split; [reflexivity|discriminate]
      | exists 19%nat; vm_compute; split; [reflexivity|discriminate] | exists 20%nat; vm_compute; split; [reflexivity|discriminate]
      | exists 21%nat; vm_compute; split; [reflexivity|discriminate] ]|]).
    destruct IN. }
  destruct K as (k & K). exists (skipn k msg). exact K.
Qed.

(** The same build with all algorithms. *)
Definition with_all (c : cfg) : cfg :=
  {| dis_es384 := false; dis_es512 := false; dis_ps256 := false; dis_ps384 := false; dis_ps512 := false; dis_eddsa := false;
     dis_short_circuit := dis_short_circuit c; dis_content_type := dis_content_type c |}.

Lemma stored_accepted c alg sg flags : In alg [-7; -35; -36; -37; -38; -39; -8]%Z ->
  requires_tag flags = false -> prohibits_tag flags = false -> requires_kid flags = false ->
  let msg := test_bytes alg [] text_payload sg in blen msg <= 300 ->
  exists g pm p, message msg g pm /\ acceptable c flags false [] g pm p text_payload /\
    p_alg p = alg /\ p_kid p = UNull 0 /\ g_prot g = protected_header alg /\ g_sig g = sg.
Proof.
  intros IN F1 F2 F3 msg L. set (q := test_request alg {| k_lib := 0; k_handle := 0 |} [] (aux_of None)).
  assert (EN : enabled (with_all c) (q_alg q)).
  { cbn [q test_request q_alg]. cbn [In] in IN. unfold enabled. repeat (destruct IN as [<-|IN]); try destruct IN; auto 20. }
  assert (MSG : msg = requested_message (with_all c) q (Some text_payload) sg) by (unfold q; now rewrite test_message).
  exists (asked (with_all c) q (Some text_payload) sg), (asked_prot q), (asked_params (with_all c) q).
  split; [rewrite MSG; apply asked_message; [exact EN|exact I|rewrite <- MSG; lia]|].
  split; [|repeat split].
  assert (A : acceptable (with_all c) flags false [] (asked (with_all c) q (Some text_payload) sg) (asked_prot q) (asked_params (with_all c) q) text_payload).
  { apply asked_acceptable; auto; try exact I; congruence. }
  destruct A as [A1 A2 A3 A4 A5 A6 A7]. constructor; try assumption.
  destruct A2 as [B1 B2 B3 B4 B5 B6]. constructor; assumption.
Qed.

(** Verification as in the tests. *)
Section V.
Context (c : cfg) (cr : crypto) (junk : ubufc) (qcbor : qe_err -> Z) (make : Z -> X (terr * option tkey)).
Let i := t_cose c cr junk qcbor.
Let tbs alg := sig_structure (protected_header alg) [] text_payload.

Lemma tbs_small alg : In alg [-7; -35; -36; -37; -38; -39; -8]%Z -> blen (tbs alg) <= 100.
Proof. intro IN. cbn [In] in IN. repeat (destruct IN as [<-|IN]); try destruct IN; vm_compute; discriminate. Qed.

Lemma no_kid p : p_kid p = UNull 0 -> short_circuit_kid c p = false.
Proof. intro K. unfold short_circuit_kid. rewrite K. cbn. now destruct (dis_short_circuit c). Qed.

Theorem t_cose_known_good : library_for_tests c cr make -> accepts_stored cr make -> passes (sign_verify_known_good_test i make).
Proof.
  intros W AS. apply good_passes. intros alg msg IN SU. cbn [i t_cose i_supported] in SU. pose proof (in_table _ _ IN) as IT.
  destruct (W alg IT SU) as (key & n & MK & _ & _ & AW). destruct (AW text_payload) as (EN & SW & KM & OD & HR).
  destruct (AS alg msg key IN SU MK) as (sg & -> & ACC). destruct (stored_bytes _ _ IN) as (_ & _ & L).
  set (msg := test_bytes alg [] text_payload sg) in *.
  assert (HK : holds NULL_UBUF []) by now right.
  (* without checking the signature *)
  destruct (stored_accepted c alg sg OPT_DECODE_ONLY IT eq_refl eq_refl eq_refl L) as (g & pm & p & M & A & PA & PK & GP & GS).
  set (vme := verify_init OPT_DECODE_ONLY).
  destruct (verify_complete c cr junk vme msg NULL_UBUF (Some junk) true false [] [] g pm p text_payload eq_refl HK ltac:(discriminate) M A)
    as (log & w & V & D1 & D2 & D3).
  { discriminate. }
  { intros _ _. rewrite GP. split; [|discriminate]. pose proof (tbs_small alg IT) as X. unfold tbs in X.
    change (wb_len (v_aux vme)) with SIZE_MAX. unfold SIZE_MAX. lia. }
  assert (AX : i_verify_aux i (w_ctx w) = if (alg =? -8)%Z then blen (tbs alg) else 0).
  { destruct (verify_core_eq c cr junk vme msg NULL_UBUF (Some junk) true false [] g pm p text_payload eq_refl ltac:(discriminate) M A) as (pay & HP & _ & E).
    rewrite E in V. unfold check_core in V. rewrite (no_kid p PK) in V. cbn [i t_cose i_verify_aux].
    destruct (uses_eddsa c p) eqn:UE.
    - destruct (verify_eddsa_aux c cr junk vme msg NULL_UBUF (Some junk) true false [] g pm p text_payload [] eq_refl HK ltac:(discriminate) M A (no_kid p PK) UE)
        as (r & log' & V' & R).
      rewrite E in V'. unfold check_core in V'. rewrite (no_kid p PK), UE in V'. rewrite V in V'. injection V' as <- <-.
      cbv zeta in R. rewrite GP in R. fold (tbs alg) in R. pose proof (tbs_small alg IT) as X. change (wb_len (v_aux vme)) with SIZE_MAX in R.
      replace (SIZE_MAX <? blen (tbs alg)) with false in R by (unfold SIZE_MAX; lia). change (decode_only (v_flags vme)) with true in R.
      destruct R as (_ & w' & E' & _ & R). injection E' as <-. rewrite R.
      unfold uses_eddsa in UE. rewrite PA in UE. apply andb_prop in UE as [_ ->]. reflexivity.
    - unfold sign1_verify_default in V. cbn [v_set_tags v_flags vme verify_init] in V. cbn in V. injection V as _ <-. cbn [w_ctx].
      replace (alg =? -8)%Z with false; [now unfold verify_auxiliary_buffer_size; destruct (dis_eddsa c)|].
      unfold uses_eddsa in UE. rewrite PA in UE. destruct (Z.eqb_spec alg (-8)) as [->|]; [|reflexivity].
      assert (dis_eddsa c = false) as X by (unfold enabled in EN; clear - EN; intuition discriminate). rewrite X in UE. discriminate. }
  (* with the signature *)
  destruct (stored_accepted c alg sg 0 IT eq_refl eq_refl eq_refl L) as (g2 & pm2 & p2 & M2 & A2 & PA2 & PK2 & GP2 & GS2).
  destruct (verify_complete c cr junk (test_verifier key (Some 100)) msg NULL_UBUF (Some junk) true false [] [] g2 pm2 p2 text_payload eq_refl HK ltac:(discriminate) M2 A2)
    as (log2 & w2 & V2 & E1 & E2 & E3).
  { intros _. split; [|split; [exact OD|]].
    - unfold accepted. rewrite (no_kid p2 PK2), GP2, GS2, PA2, PK2. fold (tbs alg). cbn [test_verifier v_key].
      destruct (uses_eddsa c p2) eqn:UE.
      + unfold uses_eddsa in UE. rewrite PA2 in UE. apply andb_prop in UE as [_ UE]. rewrite UE in ACC. exact ACC.
      + destruct (Z.eqb_spec alg (-8)) as [->|NE].
        { assert (dis_eddsa c = false) as X by (unfold enabled in EN; clear - EN; intuition discriminate).
          unfold uses_eddsa in UE. rewrite PA2, X in UE. discriminate. }
        destruct ACC as (halg & d & H1 & H2 & H3). exists halg, d. auto.
    - rewrite GP2. intros halg h l HS PW. apply (HR halg h l HS). clear - PW IT. revert PW. unfold pieces_within.
      assert (X : longest [protected_header alg; []; text_payload] <= longest [[]; text_payload]).
      { cbn [In] in IT. repeat (destruct IT as [<-|IT]); try destruct IT; vm_compute; discriminate. }
      intro PW. eapply Forall_impl; [|exact PW]. intros u LU. exact (N.le_trans _ _ _ LU X). }
  { intros _ _. rewrite GP2. split; [exact (tbs_small alg IT)|reflexivity]. }
  exists w, p, key, w2. split; [exists log; exact V|]. split; [exact D1|]. split; [exact D2|]. split; [exact PA|]. split; [exact MK|].
  split. { intros ->. exists (UBuf text_payload). split; [exact D3|]. rewrite AX. vm_compute. split; discriminate. }
  split. { intro NE. rewrite AX. now replace (alg =? -8)%Z with false by lia. }
  split; [exists log2; exact V2|]. split; [exact E1|exact E3].
Qed.

(** ** Algorithms that are not supported *)

Lemma not_enabled_hash alg : In alg [-7; -35; -36; -37; -38; -39; -8]%Z -> ~ enabled c alg -> hash_alg_id_from_sig_alg_id c alg = INVALID_ALGORITHM_ID.
Proof.
  intros IN NE. unfold hash_alg_id_from_sig_alg_id, enabled, ES256, ES384, ES512, PS256, PS384, PS512 in *.
  cbn [In] in IN. repeat (destruct IN as [<-|IN]; [cbn; repeat match goal with |- context [dis_es384 c] => destruct (dis_es384 c) eqn:? | |- context [dis_es512 c] => destruct (dis_es512 c) eqn:?
    | |- context [dis_ps256 c] => destruct (dis_ps256 c) eqn:? | |- context [dis_ps384 c] => destruct (dis_ps384 c) eqn:? | |- context [dis_ps512 c] => destruct (dis_ps512 c) eqn:? end;
    try reflexivity; exfalso; apply NE; auto 20|]). destruct IN.
Qed.

Theorem t_cose_unsupported : safe_for_tests c cr -> refuses_others c cr -> (exists key, makes make (-7) key) ->
  passes (sign_verify_unsupported_test i make).
Proof.
  intros SAFE RO (key & MK). apply unsupported_passes. intros alg msg IN SU. cbn [i t_cose i_supported] in SU. pose proof (in_table _ _ IN) as IT.
  destruct (stored_bytes _ _ IN) as (sg & -> & L). set (msg := test_bytes alg [] text_payload sg) in *.
  assert (HK : holds NULL_UBUF []) by now right. pose proof (RO alg IT SU) as R.
  assert (SG : exists e, sign_error i (test_signer alg key NULL_UBUF (Some 100)) text_payload 300 e).
  { assert (X : is_ret (snd (sign c cr (test_signer alg key NULL_UBUF (Some 100)) (UBuf text_payload) (stack_buf 300)))).
    { destruct R as [R|(-> & R & _)].
      - unfold sign, sign_aad_internal, encode_parameters_internal. cbn [test_signer c_alg set_signing_key sign_init sign_set_auxiliary_buffer].
        destruct (signature_algorithm_id_is_supported c alg) eqn:E; [apply core_supports in E; contradiction|]. exact I.
      - apply (sign_safe c cr (test_request (-8) key [] (aux_of (Some 100))) _ false _ _ text_payload []); auto.
        + now apply test_configured.
        + now left.
        + assert (X : adapter_safe c cr [text_payload; []; []]) by (apply SAFE; vm_compute; discriminate).
          destruct X as [X _]. intros halg h l HS PW. apply (X halg h l HS). exact PW.
        + discriminate.
        + intros _ _ room _ _. split; [intro X; now contradiction X|]. intros _ t. apply R. }
    destruct (sign c cr (test_signer alg key NULL_UBUF (Some 100)) (UBuf text_payload) (stack_buf 300)) as [log [[[e me] r]|w]] eqn:E; [|destruct X].
    exists e, log, me, r. exact E. }
  destruct SG as (e & SG).
  destruct (stored_accepted c alg sg 0 IT eq_refl eq_refl eq_refl L) as (g & pm & p & M & A & PA & PK & GP & GS).
  set (vme := test_verifier key (Some 100)).
  assert (V : exists w, answers i vme msg false false w /\ w_err w = ERR_UNSUPPORTED_SIGNING_ALG).
  { destruct (uses_eddsa c p) eqn:UE.
    - pose proof UE as UE'. unfold uses_eddsa in UE'. rewrite PA in UE'. apply andb_prop in UE' as [DE E8]. apply negb_true_iff in DE. apply Z.eqb_eq in E8.
      destruct R as [R|(_ & _ & R)]; [exfalso; apply R; unfold enabled; auto 20|].
      destruct (verify_eddsa_aux c cr junk vme msg NULL_UBUF None false false [] g pm p text_payload [] eq_refl HK ltac:(discriminate) M A (no_kid p PK) UE)
        as (r & log & V & Q).
      cbv zeta in Q. rewrite GP in Q. fold (tbs alg) in Q. pose proof (tbs_small alg IT) as X. change (wb_len (v_aux vme)) with 100 in Q.
      replace (100 <? blen (tbs alg)) with false in Q by lia. change (decode_only (v_flags vme)) with false in Q. change (wb_null (v_aux vme)) with false in Q.
      cbn iota in Q. rewrite R in Q. destruct Q as (_ & w & -> & W & _). exists w. split; [exists log; exact V|exact W].
    - destruct (verify_core_eq c cr junk vme msg NULL_UBUF None false false [] g pm p text_payload eq_refl ltac:(discriminate) M A) as (pay & HP & _ & E).
      unfold check_core in E. rewrite (no_kid p PK), UE in E. unfold sign1_verify_default in E.
      match type of E with context [has_flag ?x OPT_DECODE_ONLY] => change (has_flag x OPT_DECODE_ONLY) with false in E end. cbn iota in E.
      unfold create_tbs_hash in E. rewrite PA in E. rewrite not_enabled_hash in E; [|exact IT|].
      + eexists. split; [eexists; exact E|]. reflexivity.
      + destruct R as [R|(E8 & _)]; [exact R|]. intro EN. unfold uses_eddsa in UE. rewrite PA in UE.
        assert (dis_eddsa c = false) as X by (unfold enabled in EN; rewrite E8 in EN; clear - EN; intuition discriminate).
        rewrite X, E8 in UE. discriminate. }
  destruct V as (w & V & VE). exists key, e, w. auto.
Qed.

(** Everything. *)
Theorem t_cose_all : qcbor_positive i -> safe_for_tests c cr -> library_for_tests c cr make -> cr_is_supported cr (-7) = true ->
  accepts_stored cr make -> refuses_others c cr -> Forall passes (sign_verify_tests i make).
Proof.
  intros Q S L SU AS RO. destruct (L (-7)%Z (or_introl eq_refl) SU) as (key & n & MK & W).
  repeat constructor.
  - exact (t_cose_basic c cr junk qcbor make L).
  - apply (t_cose_cwt c cr junk qcbor make Q). apply L; [now left|exact SU].
  - exact (t_cose_sig_fail c cr junk qcbor make Q S L).
  - exact (t_cose_sizes c cr junk qcbor make Q L).
  - exact (t_cose_known_good L AS).
  - apply t_cose_unsupported; eauto.
  - exact (t_cose_bad_aux c cr junk qcbor make S L).
Qed.
End V.

(** ** With the libraries *)

Lemma table_no_hash alg : In alg [-7; -35; -36; -37; -38; -39; -8]%Z -> ~ is_hash_id alg.
Proof. unfold is_hash_id. cbn [In]. lia. Qed.

Theorem ossl_tests c lib H d2i junk qcbor : let cr := openssl c lib in let i := t_cose c cr junk qcbor in
  openssl_works lib H -> ossl_can_hash lib -> ossl_test_keys c lib d2i -> accepts_stored cr (test_key_ossl d2i) -> qcbor_positive i ->
  Forall passes (sign_verify_tests i (test_key_ossl d2i)).
Proof.
  intros cr i OW CH TK AS Q. apply t_cose_all; auto.
  - intros m _. apply ossl_safe. intros md data d M E. destruct OW as (_ & _ & _ & _ & _ & _ & HF & HL).
    rewrite HF in E. injection E as <-. now apply HL.
  - intros alg IN SU. apply ossl_reports in SU as [EN|HI]; [|now apply table_no_hash in IN].
    destruct (TK alg IN EN) as (key & MK & NZ & CS & KP & B1 & B2 & B3 & S1 & S2).
    exists {| k_lib := 1; k_handle := key |}, (ossl_signature_size lib alg key). split.
    { unfold makes, test_key_ossl. clear - IN MK. cbn [In] in IN. repeat (destruct IN as [<-|IN]; [cbn in MK; cbn; unfold ES256, ES384, ES512, PS256, EDDSA; rewrite MK; reflexivity|]). destruct IN. }
    assert (X : ossl_signature_size lib alg key <= 256 /\ (alg = (-7)%Z -> ossl_signature_size lib alg key = 64) /\ on_curve lib alg key).
    { unfold ossl_signature_size, on_curve. cbn [In] in IN.
      repeat (destruct IN as [<-|IN]; [cbn; try rewrite B1 by reflexivity; try rewrite B2 by reflexivity; try rewrite B3 by reflexivity;
        try rewrite S1 by tauto; try rewrite S2 by reflexivity; (split; [vm_compute; discriminate|]);
        (split; [first [reflexivity | discriminate]|]); intro Y; first [vm_compute; discriminate | exfalso; clear - Y; lia]|]).
      destruct IN. }
    destruct X as (X1 & X2 & X3). split; [exact X1|]. split; [exact X2|]. intro pl.
    apply (ossl_all_works c lib H); auto. now split.
  - intros alg IN SU. left. intro EN. assert (Y : ossl_is_supported c alg = true) by (apply ossl_reports; now left).
    change (ossl_is_supported c alg = false) in SU. congruence.
Qed.

Theorem psa_tests c lib H ks junk qcbor : let cr := psa_crypto c lib in let i := t_cose c cr junk qcbor in
  psa_hash_library lib H -> psa_within_room lib -> psa_can_hash lib -> psa_test_keys c lib ks -> accepts_stored cr (test_key_psa ks) -> qcbor_positive i ->
  Forall passes (sign_verify_tests i (test_key_psa ks)).
Proof.
  intros cr i HL WR CH [KI TK] AS Q. apply t_cose_all; auto.
  - intros m _. now apply psa_safe.
  - intros alg IN SU. apply psa_reports in SU as [[EN N8]|HI]; [|now apply table_no_hash in IN].
    assert (IN' : In alg [-7; -35; -36; -37; -38; -39]%Z) by (cbn [In] in *; clear - IN N8; lia).
    destruct (TK alg IN' EN) as (halg & key & HF & MK & KP & CS).
    exists {| k_lib := 2; k_handle := key |}. eexists. split; [|split; [|split]].
    { unfold makes, test_key_psa. rewrite KI. clear - IN' HF MK. cbn [In] in IN'.
      repeat (destruct IN' as [<-|IN']; [injection HF as <-; cbn in MK; cbn; unfold SHA_256, SHA_384, SHA_512; rewrite MK; reflexivity|]). destruct IN'. }
    3: { intro pl. apply (psa_all_works c lib H); eauto. }
    + destruct (alg =? -7)%Z, (alg =? -35)%Z, (alg =? -36)%Z; lia.
    + intros ->. reflexivity.
  - intros alg IN SU. destruct (Z.eq_dec alg (-8)) as [->|N8].
    + right. split; [reflexivity|]. split; [intros; exact I|reflexivity].
    + left. intro EN. assert (Y : psa_is_supported c alg = true) by (apply psa_reports; left; auto).
      change (psa_is_supported c alg = false) in SU. congruence.
Qed.
