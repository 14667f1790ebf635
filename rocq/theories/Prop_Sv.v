(** C82: what it means that the tests with a real library pass. *)
From Verif Require Import Base Const QEnc Crypto Params Sign Verify OpenSSL Psa Spec SignSpec Toy DemoLib Examples ExampleRun ExampleRunSpec ExampleSpec.
From Verif Require Import AdapterSpec LiveSpec BaseFacts Demo LiveDemo OpenSSLFacts SvTests SvSpec SvFacts SvFacts2 SvFacts3 VerifyMore4 Prop_Example.
From Coq Require Import Lia ZifyBool ZifyNat ZifyN.
Open Scope N_scope. Open Scope list_scope.

(** Exactly when the tests pass, whatever library they are linked with. *)

Theorem C82_basic : forall i make, passes (sign_verify_basic_test i make) <->
  forall alg msg, In (alg, msg) test_cases -> i_supported i alg = true ->
  exists key u m w, makes make alg key /\ signs i (test_signer alg key NULL_UBUF (Some 100)) text_payload 300 u /\ holds u m /\
    answers i (test_verifier key (Some 100)) m true false w /\ w_err w = T_SUCCESS /\ w_payload w = Some (UBuf text_payload).
Proof. exact basic_passes. Qed.
Print Assumptions C82_basic.

Theorem C82_known_good : forall i make, passes (sign_verify_known_good_test i make) <->
  forall alg msg, In (alg, msg) test_cases -> i_supported i alg = true ->
  exists w p key w', answers i (verify_init OPT_DECODE_ONLY) msg true true w /\ w_err w = T_SUCCESS /\ w_params w = Some p /\ p_alg p = alg /\
    makes make alg key /\
    (alg = (-8)%Z -> exists u, w_payload w = Some u /\ roughly (i_verify_aux i (w_ctx w)) (u_len u)) /\ (alg <> (-8)%Z -> i_verify_aux i (w_ctx w) = 0) /\
    answers i (test_verifier key (Some 100)) msg true true w' /\ w_err w' = T_SUCCESS /\ w_payload w' = Some (UBuf text_payload).
Proof. exact good_passes. Qed.
Print Assumptions C82_known_good.

Theorem C82_sizes : forall i make, qcbor_positive i -> passes (sign_verify_get_size_test i make) <->
  forall alg msg, In (alg, msg) test_cases -> i_supported i alg = true ->
  forall kid, kid = NULL_UBUF \/ kid = UBuf greasy -> exists key, makes make alg key /\ sizes_agree_for i key alg kid.
Proof. exact size_passes. Qed.
Print Assumptions C82_sizes.

Theorem C82_auxiliary_buffer : forall i make, i_supported i (-8) = true -> passes (sign_verify_bad_auxiliary_buffer i make) <->
  exists key w w', makes make (-8) key /\
    answers i (test_verifier key None) signed_cose_made_by_pycose_eddsa false false w /\ w_err w = ERR_NEED_AUXILIARY_BUFFER /\
    answers i (test_verifier key (Some 5)) signed_cose_made_by_pycose_eddsa false false w' /\ w_err w' = ERR_AUXILIARY_BUFFER_SIZE /\
    sign_error i (test_signer (-8) key NULL_UBUF None) text_payload 300 ERR_NEED_AUXILIARY_BUFFER /\
    sign_error i (test_signer (-8) key NULL_UBUF (Some 5)) text_payload 300 ERR_AUXILIARY_BUFFER_SIZE.
Proof. exact bad_aux_passes. Qed.
Print Assumptions C82_auxiliary_buffer.

(** Three tests pass also when what they are about is wrong. Missing for the full claim, that
    the changed message was refused: [w_err w = ERR_SIG_VERIFY]. *)
Theorem C82_wrong_payload_partial : forall i make, qcbor_positive i -> passes (sign_verify_sig_fail_test i make) <->
  forall alg msg, In (alg, msg) test_cases -> i_supported i alg = true ->
  exists key me u m b a w, makes make alg key /\
    signs_in_steps i (test_signer alg key NULL_UBUF (Some 100)) {| wb_null := false; wb_len := 300 |} [OpText (UBuf text_payload)] me u /\
    holds u m /\ first_in m text_payload b a /\ answers i (test_verifier key (Some 100)) (b ++ text_hayload ++ a) true false w.
Proof. exact fail_passes. Qed.
Print Assumptions C82_wrong_payload_partial.

(** Missing: that [p] is the payload of RFC 8392. *)
Theorem C82_cwt_partial : forall i make, qcbor_positive i -> passes (sign_verify_make_cwt_test i make) <->
  exists key me rest w p, makes make (-7) key /\
    signs_in_steps i (test_signer (-7) key (UBuf cwt_kid) None) {| wb_null := false; wb_len := 300 |} cwt_ops me (UBuf (rfc8392_first_part ++ rest)) /\
    answers i (test_verifier key None) (rfc8392_first_part ++ rest) true false w /\ w_err w = T_SUCCESS /\
    w_payload w = Some p /\ p <> UNull 80.
Proof. exact cwt_passes. Qed.
Print Assumptions C82_cwt_partial.

(** Missing: that [e] is ERR_UNSUPPORTED_SIGNING_ALG. *)
Theorem C82_unsupported_partial : forall i make, passes (sign_verify_unsupported_test i make) <->
  forall alg msg, In (alg, msg) test_cases -> i_supported i alg = false ->
  exists key e w, makes make (-7) key /\ sign_error i (test_signer alg key NULL_UBUF (Some 100)) text_payload 300 e /\
    answers i (test_verifier key (Some 100)) msg false false w /\ w_err w = ERR_UNSUPPORTED_SIGNING_ALG.
Proof. exact unsupported_passes. Qed.
Print Assumptions C82_unsupported_partial.

(** Each key that a test takes is given back, however the test ends. *)
Theorem C82_keys : forall i make t v, makes_one_key make -> In t (sign_verify_tests i make) -> snd t = Ret v -> leaves t [].
Proof. exact keys_returned. Qed.
Print Assumptions C82_keys.

Theorem C82_test_keys : (forall d2i, makes_one_key (test_key_ossl d2i)) /\ (forall ks, makes_one_key (test_key_psa ks)).
Proof. exact (conj ossl_one_key psa_one_key). Qed.
Print Assumptions C82_test_keys.

(** With a cryptographic library that works, t_cose passes, except for what depends on other
    libraries' messages. *)
Theorem C82_t_cose_passes : forall c cr junk qcbor make, let i := t_cose c cr junk qcbor in
  qcbor_positive i -> library_for_tests c cr make -> safe_for_tests c cr ->
  passes (sign_verify_basic_test i make) /\ passes (sign_verify_get_size_test i make) /\
  passes (sign_verify_sig_fail_test i make) /\ passes (sign_verify_bad_auxiliary_buffer i make) /\
  (cr_is_supported cr (-7) = true -> passes (sign_verify_make_cwt_test i make)).
Proof.
  intros c cr junk qcbor make i Q L S. split; [exact (t_cose_basic c cr junk qcbor make L)|]. split; [exact (t_cose_sizes c cr junk qcbor make Q L)|].
  split; [exact (t_cose_sig_fail c cr junk qcbor make Q S L)|]. split; [exact (t_cose_bad_aux c cr junk qcbor make S L)|].
  intro H. apply (t_cose_cwt c cr junk qcbor make Q). apply L; [now left|exact H].
Qed.
Print Assumptions C82_t_cose_passes.

(** All tests, if moreover the library accepts the messages other libraries made. *)
Theorem C82_t_cose_passes_all : forall c cr junk qcbor make, let i := t_cose c cr junk qcbor in
  qcbor_positive i -> safe_for_tests c cr -> library_for_tests c cr make -> cr_is_supported cr (-7) = true ->
  accepts_stored cr make -> refuses_others c cr -> Forall passes (sign_verify_tests i make).
Proof. exact t_cose_all. Qed.
Print Assumptions C82_t_cose_passes_all.

(** The tests of unsupported algorithms need no working library. *)
Theorem C82_t_cose_unsupported : forall c cr junk qcbor make, safe_for_tests c cr -> refuses_others c cr -> (exists key, makes make (-7) key) ->
  passes (sign_verify_unsupported_test (t_cose c cr junk qcbor) make).
Proof. exact t_cose_unsupported. Qed.
Print Assumptions C82_t_cose_unsupported.

(** With OpenSSL, in every build. *)
Theorem C82_openssl : forall c lib H d2i junk qcbor, let cr := openssl c lib in let i := t_cose c cr junk qcbor in
  openssl_works lib H -> ossl_can_hash lib -> ossl_test_keys c lib d2i -> accepts_stored cr (test_key_ossl d2i) -> qcbor_positive i ->
  Forall passes (sign_verify_tests i (test_key_ossl d2i)).
Proof. exact ossl_tests. Qed.
Print Assumptions C82_openssl.

(** With PSA, in every build. *)
Theorem C82_psa : forall c lib H ks junk qcbor, let cr := psa_crypto c lib in let i := t_cose c cr junk qcbor in
  psa_hash_library lib H -> psa_within_room lib -> psa_can_hash lib -> psa_test_keys c lib ks -> accepts_stored cr (test_key_psa ks) -> qcbor_positive i ->
  Forall passes (sign_verify_tests i (test_key_psa ks)).
Proof. exact psa_tests. Qed.
Print Assumptions C82_psa.

(** ** Cases *)

Definition qcbor_one (e : qe_err) : Z := match e with QE_SUCCESS => 0 | _ => 1 end.
Definition one_key := test_key_ossl (fun _ => Some 7).
Definition one_store := test_key_psa {| ks_init := 0%Z; ks_import := fun _ => (0%Z, 7) |}.
Definition toy_impl := t_cose cfg_full toy (UNull 9) qcbor_one.
Definition demo_impl := t_cose cfg_full (openssl cfg_full demo_ossl) (UNull 9) qcbor_one.
Definition demo_psa_impl := t_cose cfg_full (psa_crypto cfg_full demo_psa) (UNull 9) qcbor_one.

(** With the demonstration libraries, whose signatures are not those of the messages in the
    test program, all tests but one pass. *)
Example C82_case :
  map snd (sign_verify_tests demo_impl one_key) = map (fun z => Ret z) [0; 0; 0; 0; 14013; 0; 0]%Z /\
  map snd (sign_verify_tests demo_psa_impl one_store) = map (fun z => Ret z) [0; 0; 0; 0; 14013; 0; 0]%Z /\
  map snd (sign_verify_tests demo_impl (test_key_ossl (fun _ => None))) = map (fun z => Ret z) [11017; 1017; 11017; 11017; 13017; 0; 1017]%Z /\
  fst (sign_verify_make_cwt_test demo_impl one_key) = [XTake XKey; XUse XKey; XUse XKey; XGive XKey].
Proof. repeat split; vm_compute; reflexivity. Qed.

Lemma toy_for_tests : library_for_tests cfg_full toy one_key.
Proof.
  intros alg IN _. exists {| k_lib := 1; k_handle := 7 |}, 64. split.
  - cbn [In] in IN. repeat (destruct IN as [<-|IN]); try destruct IN; reflexivity.
  - split; [discriminate|]. split; [reflexivity|]. intro pl. apply toy_all_works.
    cbn [In] in IN. unfold enabled. repeat (destruct IN as [<-|IN]); try destruct IN; auto 20.
Qed.
Example C82_t_cose_passes_case :
  qcbor_positive toy_impl /\ library_for_tests cfg_full toy one_key /\ safe_for_tests cfg_full toy /\ cr_is_supported toy (-7) = true.
Proof.
  split; [intros [] H; try reflexivity; now contradiction H|]. split; [exact toy_for_tests|]. split; [intros m _; apply toy_safe|reflexivity].
Qed.

(** Libraries with keys of the sizes of the test keys, named by their bits, that also accept the
    stored messages. *)
Definition stored_tbs (alg : Z) : bytes := sig_structure (protected_header alg) [] text_payload.
Definition stored_digest (h : bytes) : bool :=
  existsb (fun alg => match hash_for alg with Some md => bytes_eqb h (demo_hash md (stored_tbs alg)) | None => false end) [-7; -35; -36; -37; -38; -39]%Z.
Definition long_sig (key : N) (h : bytes) : bytes := if key =? 2048 then demo_sig h ++ zeros 192 else demo_sig h.
Definition sv_ossl : ossl := {|
  ev_bits := fun key => key; ev_size := fun key => if key =? 2048 then 256 else 64;
  d2i_sig := read_signature; bn_ok := fun _ _ => true; sig_new := true; sig_set0 := fun _ _ => true;
  i2d_sig := fun r s => Some (der_signature r s);
  ctx_new := fun _ => true; ctx_init := fun _ => true; ctx_set := fun _ _ => true;
  pkey_sign := fun x h room => match px_params x with
    | [] => if px_key x <? 256 then None else made (demo_der h) room | _ => made (long_sig (px_key x) h) room end;
  pkey_verify := fun x sig h => let good := match px_params x with [] => demo_der h | _ => long_sig (px_key x) h end in
    if bytes_eqb sig good || stored_digest h then 1%Z else 0%Z;
  md_known := fun _ => true; md_new := true; md_init := fun _ => true;
  md_update := fun _ _ _ => true; md_final := fun md data => Some (demo_hash md data);
  dsign_init := fun _ => true; dsign := fun _ t room => made (demo_sig t) room;
  dverify_init := fun _ => true;
  dverify := fun _ sig t => if bytes_eqb sig (demo_sig t) || bytes_eqb t (stored_tbs (-8)) then 1%Z else 0%Z |}.
Definition sv_d2i (alg : Z) : option N :=
  if (alg =? -7)%Z then Some 256 else if (alg =? -35)%Z then Some 384 else if (alg =? -36)%Z then Some 521
  else if (alg =? -37)%Z then Some 2048 else if (alg =? -8)%Z then Some 255 else None.

Lemma sv_ossl_works : openssl_works sv_ossl demo_hash.
Proof.
  repeat apply conj; try reflexivity; try exact read_signature_ok.
  - intros x h room b H. cbn [pkey_sign sv_ossl] in H.
    destruct (px_params x); [destruct (px_key x <? 256); [discriminate|]|]; apply made_inv in H as [-> H]; exact H.
  - intros key t room b H. cbn [dsign sv_ossl] in H. apply made_inv in H as [-> H]; exact H.
  - intros x h room b r s E H D. cbn [pkey_sign d2i_sig sv_ossl ev_bits] in *. rewrite E in H.
    destruct (N.ltb_spec (px_key x) 256) as [L|L]; [discriminate|]. apply made_inv in H as [-> _].
    rewrite demo_read in D. injection D as <- <-. destruct (demo_numbers h) as [A B].
    assert (W : 256 ^ 32 <= 256 ^ coordinate_length (px_key x)).
    { apply N.pow_le_mono_r; [discriminate|]. unfold coordinate_length. apply N.div_le_lower_bound; lia. }
    lia.
  - intros md data [-> | [-> | ->]]; unfold demo_hash; apply blen_firstn_pad.
Qed.
Lemma long_len h : blen (long_sig 2048 h) = 256.
Proof. unfold long_sig. cbn [N.eqb Pos.eqb]. pose proof (demo_sig_len h) as L. unfold blen in *. rewrite app_length. change (length (zeros 192)) with 192%nat. lia. Qed.
Lemma sv_ossl_pair alg key : key_pair sv_ossl alg key key.
Proof.
  split; [reflexivity|]. split; [|split].
  - intros h room der r s H D. cbn [pkey_sign d2i_sig sv_ossl px_params px_key i2d_sig pkey_verify] in *.
    destruct (key <? 256); [discriminate|]. apply made_inv in H as [-> _].
    rewrite demo_read in D. injection D as <- <-. eexists. split; [reflexivity|]. fold (demo_der h). now rewrite bytes_eqb_refl.
  - intros h room sig H. cbn [pkey_sign sv_ossl px_params px_key pkey_verify pss_settings] in *. apply made_inv in H as [-> _]. now rewrite bytes_eqb_refl.
  - intros t room sig H. cbn [dsign sv_ossl dverify_init dverify] in *. apply made_inv in H as [-> _]. now rewrite bytes_eqb_refl.
Qed.
Lemma sv_ossl_ecdsa h key room : 256 <= key -> 2 * coordinate_length key + 10 <= room ->
  exists r s, pkey_sign sv_ossl {| px_key := key; px_verify := false; px_params := [] |} h room = Some (der_signature r s) /\
    r < 256 ^ coordinate_length key /\ s < 256 ^ coordinate_length key.
Proof.
  intros K L. destruct (demo_numbers h) as [A B]. exists (demo_r h), (demo_s h). cbn [pkey_sign sv_ossl px_params px_key].
  replace (key <? 256) with false by lia.
  assert (C : 32 <= coordinate_length key) by (unfold coordinate_length; apply N.div_le_lower_bound; lia).
  assert (W : 256 ^ 32 <= 256 ^ coordinate_length key) by (apply N.pow_le_mono_r; [discriminate|exact C]).
  split; [|lia]. apply made_fits. pose proof (der_signature_bound _ _ 32 A B ltac:(lia)) as D. unfold demo_der. lia.
Qed.
Lemma sv_ossl_keys : ossl_test_keys cfg_full sv_ossl sv_d2i.
Proof.
  intros alg IN _.
  assert (E : forall alg key, 256 <= key -> is_ecdsa_id alg = true -> ossl_can_sign sv_ossl alg key).
  { intros a key K IE. unfold ossl_can_sign. replace (a =? -8)%Z with false by (destruct (Z.eqb_spec a (-8)) as [->|]; [discriminate|reflexivity]).
    intros halg d room _ _. rewrite IE. intro L. now apply sv_ossl_ecdsa. }
  assert (R : forall alg, is_ecdsa_id alg = false -> alg <> (-8)%Z -> ossl_can_sign sv_ossl alg 2048).
  { intros a IE N8. unfold ossl_can_sign. replace (a =? -8)%Z with false by lia. intros halg d room _ _. rewrite IE. intro L.
    exists (long_sig 2048 d). split; [|apply long_len]. cbn [pkey_sign sv_ossl px_params px_key pss_settings]. apply made_fits. rewrite long_len. exact L. }
  cbn [In] in IN. destruct IN as [<-|[<-|[<-|[<-|[<-|[<-|[<-|[]]]]]]]].
  1: exists 256. 2: exists 384. 3: exists 521. 4-6: exists 2048. 7: exists 255.
  all: (split; [reflexivity|]); (split; [discriminate|]); (split; [|split; [apply sv_ossl_pair|repeat split; intros; (reflexivity || lia)]]).
  1-3: now apply E. 1-3: now apply R.
  split; [reflexivity|]. intros t room L. exists (demo_sig t). split; [|apply demo_sig_len]. apply made_fits. rewrite demo_sig_len. exact L.
Qed.

Lemma fed_whole cr h d h' : cr_hash_update cr h (UBuf d) = Ret h' -> fed cr h d h'.
Proof. intro E. rewrite <- (app_nil_r d). econstructor; [left; reflexivity|exact E|constructor]. Qed.
Lemma sv_ossl_stored : accepts_stored (openssl cfg_full sv_ossl) (test_key_ossl sv_d2i).
Proof.
  intros alg msg key IN _ MK. cbn [test_cases In] in IN.
  repeat (destruct IN as [X|IN]; [injection X as <- <-; apply (f_equal (fun x => match x with Ret (_, k) => k | UB _ => None end)) in MK; cbn in MK; injection MK as <-|]);
    try destruct IN.
  all: [> exists (skipn 17 signed_cose_made_by_ossl_crypto_es256) | exists (skipn 18 signed_cose_made_by_psa_crypto_es384)
       | exists (skipn 18 signed_cose_made_by_ossl_crypto_es512) | exists (skipn 19 signed_cose_made_by_psa_crypto_ps256)
       | exists (skipn 19 signed_cose_made_by_psa_crypto_ps384) | exists (skipn 19 signed_cose_made_by_psa_crypto_ps512)
       | exists (skipn 17 signed_cose_made_by_pycose_eddsa) ].
  all: split; [vm_compute; reflexivity|]. 7: vm_compute; reflexivity.
  all: [> exists (-16)%Z, (demo_hash (-16) (stored_tbs (-7))) | exists (-43)%Z, (demo_hash (-43) (stored_tbs (-35)))
       | exists (-44)%Z, (demo_hash (-44) (stored_tbs (-36))) | exists (-16)%Z, (demo_hash (-16) (stored_tbs (-37)))
       | exists (-43)%Z, (demo_hash (-43) (stored_tbs (-38))) | exists (-44)%Z, (demo_hash (-44) (stored_tbs (-39))) ].
  all: split; [reflexivity|]; split; [|vm_compute; reflexivity].
  all: eexists _, _, 64; split; [reflexivity|]; split; [apply fed_whole; reflexivity|vm_compute; reflexivity].
Qed.
Example C82_openssl_case :
  openssl_works sv_ossl demo_hash /\ ossl_can_hash sv_ossl /\ ossl_test_keys cfg_full sv_ossl sv_d2i /\
  accepts_stored (openssl cfg_full sv_ossl) (test_key_ossl sv_d2i) /\
  let i := t_cose cfg_full (openssl cfg_full sv_ossl) (UNull 9) qcbor_one in
  qcbor_positive i /\ map snd (sign_verify_tests i (test_key_ossl sv_d2i)) = repeat (Ret 0%Z) 7.
Proof.
  split; [exact sv_ossl_works|]. split; [intros md _; split; reflexivity|]. split; [exact sv_ossl_keys|]. split; [exact sv_ossl_stored|].
  split; [intros [] H; try reflexivity; now contradiction H|vm_compute; reflexivity].
Qed.

(** The same with PSA, which has no EdDSA. *)
Definition sv_size (key : N) : N := if key =? 2048 then 256 else 2 * coordinate_length key.
Definition sv_sig (key : N) (h : bytes) : bytes := firstn (N.to_nat (sv_size key)) (h ++ zeros (N.to_nat (sv_size key))).
Definition sv_psa : psa := {|
  psa_verify_hash := fun key _ h sig => if bytes_eqb sig (sv_sig key h) || stored_digest h then 0%Z else (-149)%Z;
  psa_sign_hash := fun key _ h room => if sv_size key <=? room then (0%Z, sv_sig key h) else ((-138)%Z, []);
  psa_key := fun key => (0%Z, if key =? 2048 then PKRsa else PKEcc, key);
  psa_hash_setup := psa_hash_setup demo_psa; psa_hash_update := psa_hash_update demo_psa; psa_hash_finish := psa_hash_finish demo_psa;
  psa_aborts := true |}.
Definition sv_store : keystore := {| ks_init := 0%Z; ks_import := fun a => (0%Z, match a with
  | PEcdsa h => if (h =? -16)%Z then 256 else if (h =? -43)%Z then 384 else 521 | _ => 2048 end) |}.
Lemma sv_sig_len key h : blen (sv_sig key h) = sv_size key.
Proof. unfold sv_sig. rewrite blen_firstn_pad. lia. Qed.
Lemma sv_psa_room : psa_within_room sv_psa.
Proof.
  split; [|exact (proj2 demo_psa_room)]. intros key a h room. cbn [psa_sign_hash sv_psa].
  destruct (N.leb_spec (sv_size key) room); cbn [snd]; [now rewrite sv_sig_len|apply N.le_0_l].
Qed.
Lemma sv_psa_can alg key : (key =? 2048) = negb (is_ecdsa_id alg) -> sv_size key = (if is_ecdsa_id alg then 2 else 1) * coordinate_length key ->
  psa_can_sign sv_psa alg key (sv_size key).
Proof.
  intros E S. exists key. cbn [psa_key sv_psa]. rewrite E. split; [now destruct (is_ecdsa_id alg)|]. split; [exact S|].
  intros halg d room _ _ L. exists (sv_sig key d). split; [|apply sv_sig_len]. cbn [psa_sign_hash sv_psa]. now replace (sv_size key <=? room) with true by lia.
Qed.
Lemma sv_psa_keys : psa_test_keys cfg_full sv_psa sv_store.
Proof.
  split; [reflexivity|]. intros alg IN _. cbn [In] in IN. destruct IN as [<-|[<-|[<-|[<-|[<-|[<-|[]]]]]]].
  1: exists (-16)%Z, 256. 2: exists (-43)%Z, 384. 3: exists (-44)%Z, 521. 4: exists (-16)%Z, 2048. 5: exists (-43)%Z, 2048. 6: exists (-44)%Z, 2048.
  all: (split; [reflexivity|]); (split; [reflexivity|]); split;
    [intros a h room sig H; cbn [psa_sign_hash psa_verify_hash sv_psa] in *; destruct (_ <=? room); [|discriminate]; injection H as <-; now rewrite bytes_eqb_refl|].
  1: exact (sv_psa_can (-7) 256 eq_refl eq_refl). 1: exact (sv_psa_can (-35) 384 eq_refl eq_refl). 1: exact (sv_psa_can (-36) 521 eq_refl eq_refl).
  1: exact (sv_psa_can (-37) 2048 eq_refl eq_refl). 1: exact (sv_psa_can (-38) 2048 eq_refl eq_refl). exact (sv_psa_can (-39) 2048 eq_refl eq_refl).
Qed.
Lemma sv_psa_stored : accepts_stored (psa_crypto cfg_full sv_psa) (test_key_psa sv_store).
Proof.
  intros alg msg key IN SU MK. cbn [test_cases In] in IN.
  repeat (destruct IN as [X|IN]; [injection X as <- <-; apply (f_equal (fun x => match x with Ret (_, k) => k | UB _ => None end)) in MK; cbn in MK; try injection MK as <-|]);
    try destruct IN. 7: discriminate SU.
  all: [> exists (skipn 17 signed_cose_made_by_ossl_crypto_es256) | exists (skipn 18 signed_cose_made_by_psa_crypto_es384)
       | exists (skipn 18 signed_cose_made_by_ossl_crypto_es512) | exists (skipn 19 signed_cose_made_by_psa_crypto_ps256)
       | exists (skipn 19 signed_cose_made_by_psa_crypto_ps384) | exists (skipn 19 signed_cose_made_by_psa_crypto_ps512) ].
  all: split; [vm_compute; reflexivity|].
  all: [> exists (-16)%Z, (demo_hash (-16) (stored_tbs (-7))) | exists (-43)%Z, (demo_hash (-43) (stored_tbs (-35)))
       | exists (-44)%Z, (demo_hash (-44) (stored_tbs (-36))) | exists (-16)%Z, (demo_hash (-16) (stored_tbs (-37)))
       | exists (-43)%Z, (demo_hash (-43) (stored_tbs (-38))) | exists (-44)%Z, (demo_hash (-44) (stored_tbs (-39))) ].
  all: split; [reflexivity|]; split; [|vm_compute; reflexivity].
  all: eexists _, _, 64; split; [reflexivity|]; split; [apply fed_whole; reflexivity|vm_compute; reflexivity].
Qed.
Example C82_psa_case :
  psa_hash_library sv_psa demo_hash /\ psa_within_room sv_psa /\ psa_can_hash sv_psa /\ psa_test_keys cfg_full sv_psa sv_store /\
  accepts_stored (psa_crypto cfg_full sv_psa) (test_key_psa sv_store) /\
  let i := t_cose cfg_full (psa_crypto cfg_full sv_psa) (UNull 9) qcbor_one in
  qcbor_positive i /\ map snd (sign_verify_tests i (test_key_psa sv_store)) = repeat (Ret 0%Z) 7.
Proof.
  split; [exact demo_psa_hash|]. split; [exact sv_psa_room|]. split; [intros md _; reflexivity|]. split; [exact sv_psa_keys|].
  split; [exact sv_psa_stored|]. split; [intros [] H; try reflexivity; now contradiction H|vm_compute; reflexivity].
Qed.

(** A build without some algorithms: these are refused. *)
Definition sv_few : cfg :=
  {| dis_es384 := true; dis_es512 := false; dis_ps256 := false; dis_ps384 := true; dis_ps512 := false; dis_eddsa := true;
     dis_short_circuit := true; dis_content_type := true |}.
Example C82_t_cose_passes_all_case :
  refuses_others sv_few (openssl sv_few sv_ossl) /\ refuses_others cfg_full (psa_crypto cfg_full sv_psa) /\
  filter (fun alg => negb (cr_is_supported (openssl sv_few sv_ossl) alg)) (map fst test_cases) = [-35; -38; -8]%Z /\
  map snd (sign_verify_tests (t_cose sv_few (openssl sv_few sv_ossl) (UNull 9) qcbor_one) (test_key_ossl sv_d2i)) = repeat (Ret 0%Z) 7 /\
  map (fun alg => match snd (sign sv_few (openssl sv_few sv_ossl) (test_signer alg {| k_lib := 1; k_handle := 256 |} NULL_UBUF (Some 100)) (UBuf text_payload)
    {| wb_null := false; wb_len := 300 |}) with Ret (e, _, _) => Some e | UB _ => None end) [-35; -38; -8]%Z = repeat (Some ERR_UNSUPPORTED_SIGNING_ALG) 3.
Proof.
  split.
  { intros alg IN SU. left. unfold enabled. cbn [In] in IN. repeat (destruct IN as [<-|IN]; [cbn in SU; try discriminate SU; cbn; lia|]). destruct IN. }
  split.
  { intros alg IN SU. right. cbn [In] in IN. repeat (destruct IN as [<-|IN]; [try discriminate SU|]); try destruct IN.
    split; [reflexivity|]. split; [intros; exact I|reflexivity]. }
  repeat split; vm_compute; reflexivity.
Qed.

(** ** Wrong libraries that pass *)

(** Any signature is accepted. *)
Definition accepting : crypto := {|
  cr_hctx := cr_hctx toy; cr_hash_start := cr_hash_start toy; cr_hash_update := cr_hash_update toy; cr_hash_finish := cr_hash_finish toy;
  cr_sig_size := cr_sig_size toy; cr_sign := cr_sign toy; cr_verify := fun _ _ _ _ _ => Ret T_SUCCESS;
  cr_sign_eddsa := cr_sign_eddsa toy; cr_verify_eddsa := fun _ _ _ _ => Ret T_SUCCESS; cr_is_supported := cr_is_supported toy |}.
Definition accepting_impl := t_cose cfg_full accepting (UNull 9) qcbor_one.
Definition message_in_steps (i : impl) (me : sctx) (ops : list eop) : bytes :=
  let '(_, me, e) := i_parameters i me (enc_init (stack_buf 300)) in
  match snd (i_signature i me (eops_run e ops)) with
  | Ret (T_SUCCESS, _, e) => match enc_finish e with (QE_SUCCESS, Some (UBuf m)) => m | _ => [] end
  | _ => []
  end.
Definition test_message_in_steps : bytes :=
  message_in_steps accepting_impl (test_signer (-7) toy_key NULL_UBUF (Some 100)) [OpText (UBuf text_payload)].
Theorem C82_wrong_payload_refuted : exists i make key me m b a w,
  qcbor_positive i /\ passes (sign_verify_sig_fail_test i make) /\
  signs_in_steps i (test_signer (-7) key NULL_UBUF (Some 100)) {| wb_null := false; wb_len := 300 |} [OpText (UBuf text_payload)] me (UBuf m) /\
  first_in m text_payload b a /\ answers i (test_verifier key (Some 100)) (b ++ text_hayload ++ a) true false w /\
  w_err w = T_SUCCESS /\ w_payload w = Some (UBuf (x67 :: text_hayload)).
Proof.
  destruct (tamper_iff test_message_in_steps 9) as (b & a & FI & E); [vm_compute; reflexivity|].
  exists accepting_impl, one_key, toy_key. eexists. exists test_message_in_steps, b, a. eexists.
  split; [intros [] H; try reflexivity; now contradiction H|]. split; [vm_compute; reflexivity|].
  split; [do 4 eexists; split; [vm_compute; reflexivity|split; vm_compute; reflexivity]|]. split; [exact FI|]. rewrite <- E.
  split; [eexists; vm_compute; reflexivity|]. split; reflexivity.
Qed.
Print Assumptions C82_wrong_payload_refuted.

(** Another payload is given out. *)
Definition other_payload (w : vres) : vres :=
  {| w_err := w_err w; w_ctx := w_ctx w; w_payload := option_map (fun _ => UBuf [x00]) (w_payload w); w_params := w_params w |}.
Definition other_impl : impl :=
  {| i_supported := i_supported toy_impl; i_sig_size := i_sig_size toy_impl; i_sign := i_sign toy_impl; i_parameters := i_parameters toy_impl;
     i_signature := i_signature toy_impl; i_sign_aux := i_sign_aux toy_impl;
     i_verify := fun me m wp want => let (log, r) := i_verify toy_impl me m wp want in (log, match r with Ret w => Ret (other_payload w) | UB u => UB u end);
     i_verify_aux := i_verify_aux toy_impl; i_qcbor := qcbor_one |}.
Theorem C82_cwt_refuted : exists i make, qcbor_positive i /\ passes (sign_verify_make_cwt_test i make) /\
  forall key m w, answers i (test_verifier key None) m true false w -> w_payload w = None \/ w_payload w = Some (UBuf [x00]).
Proof.
  exists other_impl, one_key. split; [intros [] H; try reflexivity; now contradiction H|]. split; [vm_compute; reflexivity|].
  intros key m w (log & H). cbn [i_verify other_impl] in H. destruct (i_verify toy_impl _ _ _ _) as [l [v|u]]; [|discriminate].
  injection H as _ <-. cbn. destruct (w_payload v); auto.
Qed.
Print Assumptions C82_cwt_refuted.

(** An algorithm that is not supported is used for signing. *)
Definition cfg_no_eddsa : cfg := {| dis_es384 := false; dis_es512 := false; dis_ps256 := false; dis_ps384 := false; dis_ps512 := false; dis_eddsa := true; dis_content_type := false; dis_short_circuit := false |}.
Definition signing_impl : impl :=
  {| i_supported := fun alg => negb (alg =? -8)%Z; i_sig_size := i_sig_size toy_impl; i_sign := i_sign toy_impl; i_parameters := i_parameters toy_impl;
     i_signature := i_signature toy_impl; i_sign_aux := i_sign_aux toy_impl; i_verify := i_verify (t_cose cfg_no_eddsa toy (UNull 9) qcbor_one);
     i_verify_aux := i_verify_aux toy_impl; i_qcbor := qcbor_one |}.
Theorem C82_unsupported_refuted : exists i make, passes (sign_verify_unsupported_test i make) /\ i_supported i (-8) = false /\
  sign_error i (test_signer (-8) toy_key NULL_UBUF (Some 100)) text_payload 300 T_SUCCESS.
Proof.
  exists signing_impl, one_key. split; [vm_compute; reflexivity|]. split; [reflexivity|]. do 3 eexists. vm_compute. reflexivity.
Qed.
Print Assumptions C82_unsupported_refuted.

(** ** Wrong libraries that do not pass *)

Definition with_verify (i : impl) (f : vctx -> bool -> vres -> vres) : impl :=
  {| i_supported := i_supported i; i_sig_size := i_sig_size i; i_sign := i_sign i; i_parameters := i_parameters i; i_signature := i_signature i;
     i_sign_aux := i_sign_aux i;
     i_verify := fun me m wp want => let (log, r) := i_verify i me m wp want in (log, match r with Ret w => Ret (f me want w) | UB u => UB u end);
     i_verify_aux := i_verify_aux i; i_qcbor := i_qcbor i |}.
Definition with_sizes (i : impl) (sig sign_aux verify_aux : N -> N) : impl :=
  {| i_supported := i_supported i; i_sig_size := fun alg key => let (e, n) := i_sig_size i alg key in (e, sig n); i_sign := i_sign i;
     i_parameters := i_parameters i; i_signature := i_signature i; i_sign_aux := fun me => sign_aux (i_sign_aux i me); i_verify := i_verify i;
     i_verify_aux := fun me => verify_aux (i_verify_aux i me); i_qcbor := i_qcbor i |}.
Definition with_sign (i : impl) (f : sctx -> terr * sctx * option ubufc -> terr * sctx * option ubufc) : impl :=
  {| i_supported := i_supported i; i_sig_size := i_sig_size i;
     i_sign := fun me p b => let (log, r) := i_sign i me p b in (log, match r with Ret x => Ret (f me x) | UB u => UB u end);
     i_parameters := i_parameters i; i_signature := i_signature i; i_sign_aux := i_sign_aux i; i_verify := i_verify i;
     i_verify_aux := i_verify_aux i; i_qcbor := i_qcbor i |}.
Definition set_err (e : terr) (w : vres) : vres := {| w_err := e; w_ctx := w_ctx w; w_payload := w_payload w; w_params := w_params w |}.
Definition other_alg (w : vres) : vres :=
  {| w_err := w_err w; w_ctx := w_ctx w; w_payload := w_payload w; w_params := option_map (fun p => p_set_alg p (-100)) (w_params w) |}.
Definition longer (me : sctx) (x : terr * sctx * option ubufc) : terr * sctx * option ubufc :=
  match x with (e, me, Some (UBuf m)) => (e, me, Some (UBuf (m ++ [x00]))) | _ => x end.
Definition codes (i : impl) : list (out Z) := map snd (sign_verify_tests i one_key).

Definition wrong_ones : list impl :=
  [accepting_impl;
   with_verify accepting_impl (fun _ _ => other_payload);
   with_verify accepting_impl (fun _ _ => other_alg);
   with_verify accepting_impl (fun _ _ => set_err ERR_FAIL);
   with_verify accepting_impl (fun me _ w => if has_flag (v_flags me) OPT_DECODE_ONLY then w else set_err ERR_FAIL w);
   with_verify accepting_impl (fun me _ w => if wb_len (v_aux me) =? 5 then set_err ERR_FAIL w else w);
   with_sizes accepting_impl (fun n => n + 40) (fun n => n) (fun n => n);
   with_sizes accepting_impl (fun n => n - 40) (fun n => n) (fun n => n);
   with_sizes accepting_impl (fun n => n) (fun n => if n =? 0 then 0 else 5) (fun n => n);
   with_sizes accepting_impl (fun n => n) (fun n => n + 60) (fun n => n);
   with_sizes accepting_impl (fun n => n) (fun n => n) (fun n => if n =? 0 then 0 else 5);
   with_sizes accepting_impl (fun n => n) (fun n => n) (fun n => n + 60);
   with_sign accepting_impl longer;
   with_sign accepting_impl (fun me x => if u_is_null (c_kid me) then x else (ERR_FAIL, me, None));
   with_sign accepting_impl (fun me x => if wb_null (c_aux me) then (ERR_FAIL, me, None) else x);
   with_sign accepting_impl (fun me x => if wb_len (c_aux me) =? 5 then (ERR_FAIL, me, None) else x)].
(** The accepting library passes all tests; each of the others fails the tests of what it
    does wrong, but for those of C82_wrong_payload_partial, C82_cwt_partial and
    C82_unsupported_partial. *)
Example C82_wrong_case :
  map codes wrong_ones = map (map (fun z => Ret z))
  [[0; 0; 0; 0; 0; 0; 0];
   [16000; 0; 0; 0; 15000; 0; 0];
   [0; 0; 0; 0; 12000; 0; 0];
   [15017; 5017; 0; 0; 11017; 0; 2017];
   [15017; 5017; 0; 0; 14017; 0; 2017];
   [0; 0; 0; 0; 0; 0; 3017];
   [0; 0; 0; 9999; 0; 0; 0];
   [0; 0; 0; 9999; 0; 0; 0];
   [0; 0; 0; 69998; 0; 0; 0];
   [0; 0; 0; 9997; 0; 0; 0];
   [0; 0; 0; 0; 69999; 0; 0];
   [0; 0; 0; 0; 9998; 0; 0];
   [15009; 0; 0; 9995; 0; 0; 0];
   [0; 0; 0; 18017; 0; 0; 0];
   [0; 0; 0; 18017; 0; 0; 4017];
   [0; 0; 0; 0; 0; 0; 5017]]%Z /\
  snd (sign_verify_unsupported_test (with_verify signing_impl (fun _ _ => set_err T_SUCCESS)) one_key) = Ret 72000%Z /\
  snd (sign_verify_unsupported_test signing_impl (test_key_ossl (fun _ => None))) = Ret 71017%Z.
Proof. repeat split; vm_compute; reflexivity. Qed.

(** Another key identifier in messages; one algorithm not supported; undefined behaviour with
    the changed message; a key that cannot be imported. *)
Definition other_kid : impl :=
  {| i_supported := i_supported toy_impl; i_sig_size := i_sig_size toy_impl; i_sign := i_sign toy_impl;
     i_parameters := fun me e => i_parameters toy_impl (set_signing_key me toy_key (UBuf greasy)) e;
     i_signature := i_signature toy_impl; i_sign_aux := i_sign_aux toy_impl; i_verify := i_verify toy_impl;
     i_verify_aux := i_verify_aux toy_impl; i_qcbor := qcbor_one |}.
Definition not_es256 : impl :=
  {| i_supported := fun alg => negb (alg =? -7)%Z; i_sig_size := i_sig_size other_impl; i_sign := i_sign other_impl; i_parameters := i_parameters other_impl;
     i_signature := i_signature other_impl; i_sign_aux := i_sign_aux other_impl; i_verify := i_verify other_impl;
     i_verify_aux := i_verify_aux other_impl; i_qcbor := qcbor_one |}.
Definition not_changed : impl :=
  {| i_supported := i_supported toy_impl; i_sig_size := i_sig_size toy_impl; i_sign := i_sign toy_impl; i_parameters := i_parameters toy_impl;
     i_signature := i_signature toy_impl; i_sign_aux := i_sign_aux toy_impl;
     i_verify := fun me m wp want => match find_bytes m text_hayload with Some _ => mub Uninit | None => i_verify toy_impl me m wp want end;
     i_verify_aux := i_verify_aux toy_impl; i_qcbor := qcbor_one |}.
Example C82_more_case :
  snd (sign_verify_make_cwt_test other_kid one_key) = Ret (-1)%Z /\
  snd (sign_verify_basic_test not_es256 one_key) = Ret 26000%Z /\
  snd (sign_verify_sig_fail_test not_changed one_key) = UB Uninit /\
  sign_verify_make_cwt_test toy_impl (test_key_psa {| ks_init := 0%Z; ks_import := fun _ => ((-1)%Z, 7) |}) = ([], Ret 1017%Z).
Proof. repeat split; vm_compute; reflexivity. Qed.

(** The key is given back when a check fails; a message made in steps may not be longer
    than calculated. *)
Definition kid_with_aux : impl :=
  {| i_supported := i_supported accepting_impl; i_sig_size := i_sig_size accepting_impl; i_sign := i_sign accepting_impl;
     i_parameters := fun me e => i_parameters accepting_impl (if wb_null (c_aux me) then me else set_signing_key me (c_key me) (UBuf [x01])) e;
     i_signature := i_signature accepting_impl; i_sign_aux := i_sign_aux accepting_impl; i_verify := i_verify accepting_impl;
     i_verify_aux := i_verify_aux accepting_impl; i_qcbor := qcbor_one |}.
Example C82_given_back_case :
  map (fun i => held [] (fst (sign_verify_basic_test i one_key)))
    [accepting_impl; with_verify accepting_impl (fun _ _ => set_err ERR_FAIL); with_verify accepting_impl (fun _ _ => other_payload)]
    = [Some []; Some []; Some []] /\
  map (fun i => existsb (fun e => match e with XGive XKey => true | _ => false end) (fst (sign_verify_basic_test i one_key)))
    [accepting_impl; with_verify accepting_impl (fun _ _ => set_err ERR_FAIL); with_verify accepting_impl (fun _ _ => other_payload)]
    = [true; true; true] /\
  snd (sign_verify_get_size_test accepting_impl one_key) = Ret 0%Z /\ snd (sign_verify_get_size_test kid_with_aux one_key) = Ret 69996%Z /\
  snd (size_test kid_with_aux one_key (-8) NULL_UBUF) = Ret (-4)%Z.
Proof. vm_compute. repeat split. Qed.

(** An auxiliary buffer where none is needed, of a size near none; the algorithms the
    keys are imported for. *)
Definition key_number (a : palg) : Z * N :=
  (0%Z, match a with PEcdsa h => Z.to_N (- h) | PRsaPss h => 100 + Z.to_N (- h) | _ => 0 end).
Example C82_near_case :
  snd (sign_verify_known_good_test (with_sizes accepting_impl (fun n => n) (fun n => n) (fun n => n + 10)) one_key) = Ret 9998%Z /\
  map (fun alg => snd (test_key_psa {| ks_init := 0%Z; ks_import := key_number |} alg)) [-7; -35; -36; -37; -38; -39]%Z =
  map (fun k => Ret (T_SUCCESS, Some {| k_lib := 2; k_handle := k |})) [16; 43; 44; 116; 143; 144].
Proof. vm_compute. repeat split. Qed.
