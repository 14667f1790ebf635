(** The library with its adapters: round trips and absence of undefined
    behaviour, from what is assumed of OpenSSL and PSA alone. *)
From Verif Require Import Base Const QEnc Crypto Util ShortCircuit Params Sign Verify Spec SignSpec.
From Verif Require Import BaseFacts EncFacts UtilFacts SignFacts SignProofs SignMore Parts VerifyTop RoundTrip VerifyMore4.
From Verif Require Import Sha256 Sha256Spec Sha256Facts Algs TestCrypto OpenSSL Psa AdapterSpec OpenSSLFacts OpenSSLFacts2.
From Verif Require Import AdapterFacts PsaFacts SupportFacts SignSafe VerifySpec.
From Coq Require Import Lia ZifyBool ZifyNat ZifyN.
Ltac Zify.zify_post_hook ::= Z.div_mod_to_equations.
Open Scope N_scope. Open Scope list_scope.

(** ** OpenSSL *)

Definition digests_sized (lib : ossl) : Prop :=
  forall md data d, md = (-16)%Z \/ md = (-43)%Z \/ md = (-44)%Z -> md_final lib md data = Some d -> blen d = digest_length md.

Lemma works_sized lib H : hash_library lib H -> digests_sized lib.
Proof. intros (_ & F & L) md data d M E. rewrite F in E. injection E as <-. auto. Qed.

Lemma on_curve_fits c lib alg key : der_library lib -> on_curve lib alg key -> ecdsa_enabled c alg -> der_fits c lib key.
Proof.
  intros (I & _) O E r s der. cbv zeta. intros Hr Hs D. rewrite I in D. injection D as <-.
  assert (A : alg = (-7)%Z \/ alg = (-35)%Z \/ alg = (-36)%Z) by (unfold ecdsa_enabled in E; tauto).
  specialize (O A). apply der_fits_buffer with (alg := alg); [exact E| |].
  - eapply N.lt_le_trans; [exact Hr|]. apply N.pow_le_mono_r; [discriminate|exact O].
  - eapply N.lt_le_trans; [exact Hs|]. apply N.pow_le_mono_r; [discriminate|exact O].
Qed.

Theorem ossl_round_trip c lib H q me (det : bool) payload aad pl ad n log me' m vme junk aad' payload' want :
  openssl_works lib H -> ossl_key (v_key vme) ->
  key_pair lib (q_alg q) (k_handle (q_key q)) (k_handle (v_key vme)) -> on_curve lib (q_alg q) (k_handle (v_key vme)) ->
  configured q me -> holds payload pl -> holds aad ad -> n < 2 ^ 64 ->
  sign_aad_internal c (openssl c lib) me det payload aad {| wb_null := false; wb_len := n |} = (log, Ret (T_SUCCESS, me', Some (UBuf m))) ->
  length (v_tags vme) = 4%nat -> holds aad' ad -> detached_arg det payload' pl -> demands_met q (v_flags vme) ->
  wants_short_circuit (q_flags q) = false -> q_kid q <> reserved_kid \/ dis_short_circuit c = true ->
  (q_alg q = (-8)%Z -> wb_null (v_aux vme) = false /\ blen (requested_tbs q ad pl) <= wb_len (v_aux vme)) ->
  exists log' w, verify_internal c (openssl c lib) junk vme m aad' payload' want det = (log', Ret w) /\
    delivered vme payload' want det (asked_params c q) pl w.
Proof.
  intros (SW & EM & MN & DL & SL & HL) VK KP OC C P A L S T A' D DM W K AX.
  refine (round_trip c _ q me det payload aad pl ad n log me' m vme junk aad' payload' want C P A L S T A' D DM _ _ _ _ _).
  - intros _. apply ossl_keys; auto. intro E. exact (on_curve_fits c lib _ _ DL OC E).
  - eapply one_digest_of, ossl_hash_is, HL.
  - eapply ossl_reliable, HL.
  - rewrite W. exact K.
  - intros _. exact AX.
Qed.

Theorem ossl_verification_safe c lib junk me msg aad payload want dc ad gv :
  digests_sized lib -> length (v_tags me) = 4%nat -> holds aad ad -> detached_arg dc payload gv ->
  exists log w, verify_internal c (openssl c lib) junk me msg aad payload want dc = (log, Ret w).
Proof.
  intros DS T A D. destruct (verify_safe c (openssl c lib) junk me msg aad payload want dc ad gv T A D (ossl_safe _ _ _ DS)) as (log & w & E & _).
  eauto.
Qed.

Lemma ossl_digest_nonempty c lib halg data d : digests_sized lib -> digest_of (openssl c lib) halg data d -> d <> [].
Proof.
  intros DS (h & h' & n & S & F & Fi). apply ossl_start_inv in S as [-> A].
  assert (M : forall (h : ohash) data h', fed (openssl c lib) h data h' -> oh_md h' = oh_md h).
  { clear. intros h data h' F. induction F as [h|h u b h1 data h2 _ Up _ IH]; [reflexivity|].
    rewrite IH. cbn [cr_hash_update openssl] in Up. injection Up as <-. unfold ossl_hash_update. destruct (oh_ok h); [destruct u|]; reflexivity. }
  apply M in F. cbn [oh_md] in F.
  cbn [cr_hash_finish openssl] in Fi. unfold ossl_hash_finish in Fi. destruct (oh_ok h'); cbn [negb] in Fi; [|discriminate].
  rewrite F in Fi. destruct (md_final lib halg (oh_data h')) as [e|] eqn:E; [|discriminate].
  unfold stored in Fi. destruct (n <? blen e); [discriminate|]. cbn [lbind lret snd free] in Fi. injection Fi as <-.
  apply DS in E; [|tauto]. intros ->. destruct A as [-> | [[-> _]|[-> _]]]; discriminate.
Qed.

(** Twice the length of a coordinate fits where the signature goes, or nothing
    does, unless the output is only measured. *)
Definition ecdsa_room (c : cfg) (lib : ossl) (q : request) (payload : option bytes) (buf : wbuf) : Prop :=
  ecdsa_enabled c (q_alg q) -> wb_null buf = false -> wants_short_circuit (q_flags q) = false ->
  let len := coordinate_length (ev_bits lib (k_handle (q_key q))) in
  let start := blen (requested_message c q payload []) in
  start + 2 * len <= wb_len buf + 2 \/ wb_len buf + 2 <= start.

Theorem ossl_signing_safe c lib q me (det : bool) payload aad pl ad buf :
  digests_sized lib -> sign_library lib ->
  configured q me -> holds payload pl -> holds aad ad ->
  ecdsa_room c lib q (if det then None else Some pl) buf ->
  exists res, snd (sign_aad_internal c (openssl c lib) me det payload aad buf) = Ret res.
Proof.
  intros DS SL C P A R.
  assert (X : is_ret (snd (sign_aad_internal c (openssl c lib) me det payload aad buf))).
  2:{ destruct (snd _); [eauto|contradiction]. }
  apply (sign_safe c (openssl c lib) q me det payload aad pl ad buf C P A).
  - exact (proj1 (ossl_safe c lib [ad; pl] DS)).
  - intros _ halg data d. now apply ossl_digest_nonempty.
  - intros N W room E Z. cbn [cr_sign cr_sign_eddsa openssl]. split.
    + intros _ d. destruct (ossl_sign_safe c lib (q_alg q) (q_key q) d room SL) as (res & ->); [|exact I].
      intro En. destruct (R En N W) as [R1|R1]; lia.
    + intros _ t. destruct (ossl_sign_eddsa_safe lib (q_key q) t room SL) as (res & ->). exact I.
Qed.

(** In particular when the message, with a signature of that length, fits. *)
Theorem ossl_signing_fits_safe c lib q me (det : bool) payload aad pl ad n :
  digests_sized lib -> sign_library lib ->
  configured q me -> holds payload pl -> holds aad ad ->
  (forall sig, blen sig = 2 * coordinate_length (ev_bits lib (k_handle (q_key q))) ->
     blen (requested_message c q (if det then None else Some pl) sig) <= n) ->
  exists res, snd (sign_aad_internal c (openssl c lib) me det payload aad {| wb_null := false; wb_len := n |}) = Ret res.
Proof.
  intros DS SL C P A F. apply (ossl_signing_safe c lib q me det payload aad pl ad); auto.
  intros _ _ _. cbv zeta. left. set (k := coordinate_length _) in *.
  specialize (F (repeat x00 (N.to_nat (2 * k)))). rewrite (empty_message_len c q me det payload pl C P).
  rewrite <- (message_spec c q me det payload pl _ C P), message_len in F.
  assert (B : blen (repeat x00 (N.to_nat (2 * k))) = 2 * k) by (unfold blen; rewrite repeat_length; lia).
  specialize (F B). rewrite B in F. cbn [wb_len].
  assert (1 <= blen (short_head 2 (2 * k))) by (unfold short_head; repeat destruct (_ <? _); rewrite ?blen_cons; lia). lia.
Qed.

(** Length calculation has none whatever the library does. *)
Theorem ossl_measuring_safe c lib q me (det : bool) payload aad pl ad n :
  digests_sized lib -> configured q me -> holds payload pl -> holds aad ad ->
  exists res, snd (sign_aad_internal c (openssl c lib) me det payload aad {| wb_null := true; wb_len := n |}) = Ret res.
Proof.
  intros DS C P A.
  assert (X : is_ret (snd (sign_aad_internal c (openssl c lib) me det payload aad {| wb_null := true; wb_len := n |}))).
  2:{ destruct (snd _); [eauto|contradiction]. }
  apply (sign_safe c (openssl c lib) q me det payload aad pl ad _ C P A).
  - exact (proj1 (ossl_safe c lib [ad; pl] DS)).
  - intros _ halg data d. now apply ossl_digest_nonempty.
  - discriminate.
Qed.

(** ** PSA *)

Theorem psa_round_trip c lib H q me (det : bool) payload aad pl ad n log me' m vme junk aad' payload' want :
  psa_hash_library lib H -> psa_within_room lib -> psa_key_pair lib (k_handle (q_key q)) (k_handle (v_key vme)) ->
  configured q me -> holds payload pl -> holds aad ad -> n < 2 ^ 64 ->
  sign_aad_internal c (psa_crypto c lib) me det payload aad {| wb_null := false; wb_len := n |} = (log, Ret (T_SUCCESS, me', Some (UBuf m))) ->
  length (v_tags vme) = 4%nat -> holds aad' ad -> detached_arg det payload' pl -> demands_met q (v_flags vme) ->
  wants_short_circuit (q_flags q) = false -> q_kid q <> reserved_kid \/ dis_short_circuit c = true ->
  exists log' w, verify_internal c (psa_crypto c lib) junk vme m aad' payload' want det = (log', Ret w) /\
    delivered vme payload' want det (asked_params c q) pl w.
Proof.
  intros HL WR KP C P A L S T A' D DM W K.
  assert (N8 : q_alg q <> (-8)%Z).
  { intro E. destruct (sign_success_spec c _ q me det payload aad pl ad n log me' (Some (UBuf m)) C P A S) as (sig & room & _ & _ & _ & Hs & _).
    unfold signature_of in Hs. rewrite W, E in Hs. cbn [Z.eqb Pos.eqb cr_sign_eddsa psa_crypto] in Hs. discriminate. }
  refine (round_trip c _ q me det payload aad pl ad n log me' m vme junk aad' payload' want C P A L S T A' D DM _ _ _ _ _).
  - intros _. apply psa_keys; auto.
  - eapply one_digest_of, psa_hash_is, HL.
  - eapply psa_reliable, HL.
  - rewrite W. exact K.
  - intros _ E. contradiction.
Qed.

Theorem psa_verification_safe c lib junk me msg aad payload want dc ad gv :
  psa_within_room lib -> length (v_tags me) = 4%nat -> holds aad ad -> detached_arg dc payload gv ->
  exists log w, verify_internal c (psa_crypto c lib) junk me msg aad payload want dc = (log, Ret w).
Proof.
  intros DS T A D. destruct (verify_safe c (psa_crypto c lib) junk me msg aad payload want dc ad gv T A D (psa_safe _ _ _ DS)) as (log & w & E & _).
  eauto.
Qed.

Theorem psa_signing_safe c lib q me (det : bool) payload aad pl ad buf :
  psa_within_room lib -> configured q me -> holds payload pl -> holds aad ad -> wants_short_circuit (q_flags q) = false ->
  exists res, snd (sign_aad_internal c (psa_crypto c lib) me det payload aad buf) = Ret res.
Proof.
  intros WR C P A W.
  assert (X : is_ret (snd (sign_aad_internal c (psa_crypto c lib) me det payload aad buf))).
  2:{ destruct (snd _); [eauto|contradiction]. }
  apply (sign_safe c (psa_crypto c lib) q me det payload aad pl ad buf C P A).
  - exact (proj1 (psa_safe c lib [ad; pl] WR)).
  - rewrite W. discriminate.
  - intros _ _ room _ _. cbn [cr_sign cr_sign_eddsa psa_crypto]. split.
    + intros _ d. destruct (psa_sign_safe c lib (q_alg q) (q_key q) d room WR) as (res & ->). exact I.
    + intros _ t. exact I.
Qed.

(** ** The test adapter: short-circuit signatures with the bundled SHA-256 *)

Theorem test_signing_safe c junk q me (det : bool) payload aad pl ad buf :
  length junk = 64%nat -> configured q me -> holds payload pl -> holds aad ad -> blen pl < 2 ^ 32 -> blen ad < 2 ^ 32 ->
  exists res, snd (sign_aad_internal c (test_crypto true junk c) me det payload aad buf) = Ret res.
Proof.
  intros J C P A Lp La.
  assert (X : is_ret (snd (sign_aad_internal c (test_crypto true junk c) me det payload aad buf))).
  2:{ destruct (snd _); [eauto|contradiction]. }
  apply (sign_safe c (test_crypto true junk c) q me det payload aad pl ad buf C P A).
  - apply (test_safe junk c J). cbn [longest fold_right]. lia.
  - intros _ halg data d D. apply (test_hash_is junk c J) in D. subst d. intro E. apply (f_equal (@length byte)) in E.
    rewrite sha256_length in E. discriminate.
  - intros _ _ room _ _. split; intros; exact I.
Qed.

(** The message made, and what verification does with it. *)
Theorem test_short_circuit c junk q me (det : bool) payload aad pl ad n log me' r vme vjunk aad' payload' want :
  length junk = 64%nat -> configured q me -> holds payload pl -> holds aad ad -> n < 2 ^ 64 -> blen pl < 2 ^ 32 -> blen ad < 2 ^ 32 ->
  sign_aad_internal c (test_crypto true junk c) me det payload aad {| wb_null := false; wb_len := n |} = (log, Ret (T_SUCCESS, me', r)) ->
  let d := sha256 (requested_tbs q ad pl) in
  (wants_short_circuit (q_flags q) = true /\ (q_alg q = (-7)%Z \/ q_alg q = (-37)%Z) /\
   exists m, r = Some (UBuf m) /\ m = requested_message c q (if det then None else Some pl) (repeat_to d (ecdsa_sig_size (q_alg q))) /\
   (q_alg q = (-7)%Z -> m = requested_message c q (if det then None else Some pl) (d ++ d)) /\
   (q_alg q = (-7)%Z -> requested_kid q = reserved_kid -> length (v_tags vme) = 4%nat -> holds aad' ad -> detached_arg det payload' pl ->
    demands_met q (v_flags vme) -> allows_short_circuit (v_flags vme) = true ->
    exists log' w, verify_internal c (test_crypto true junk c) vjunk vme m aad' payload' want det = (log', Ret w) /\
      delivered vme payload' want det (asked_params c q) pl w)).
Proof.
  intros J C P A L Lp La S d.
  destruct (sign_success_spec c _ q me det payload aad pl ad n log me' r C P A S) as (sig & room & Em & _ & _ & Hs & En).
  unfold signature_of in Hs. destruct (wants_short_circuit (q_flags q)) eqn:W.
  2:{ exfalso. destruct (_ =? _)%Z; [discriminate|]. destruct Hs as (? & ? & _ & _ & X). discriminate. }
  split; [reflexivity|]. destruct Hs as (halg & d' & HF & HD & ->).
  assert (H16 : halg = (-16)%Z) by (destruct HD as (h & h' & k & St & _); apply (test_start junk c J) in St as [-> _]; reflexivity).
  apply (test_hash_is junk c J) in HD. fold (requested_tbs q ad pl) in HD. fold d in HD. subst d' halg.
  assert (AL : q_alg q = (-7)%Z \/ q_alg q = (-37)%Z).
  { unfold enabled in En. unfold hash_for in HF. clear - En HF. revert En HF. generalize (q_alg q). intros alg En HF. destruct En as [->|[[-> _]|[[-> _]|[[-> _]|[[-> _]|[[-> _]|[-> _]]]]]]]; auto; cbn in HF; congruence. }
  split; [exact AL|]. eexists. split; [exact Em|]. split; [reflexivity|].
  assert (DD : q_alg q = (-7)%Z -> repeat_to d (ecdsa_sig_size (q_alg q)) = d ++ d).
  { intros ->. change (ecdsa_sig_size (-7)) with 64. unfold repeat_to. change (N.to_nat 64) with 64%nat.
    assert (Ld : length d = 32%nat) by apply sha256_length. cbn [repeat concat]. rewrite app_assoc. apply firstn_exact.
    rewrite app_length, Ld. reflexivity. }
  split; [intro E; now rewrite (DD E)|].
  intros E K T A' D DM AS. subst r.
  refine (sc_round_trip c _ q me det payload aad pl ad n log me' _ vme vjunk aad' payload' want C P A L S W K _ T A' D DM AS _ _).
  - intros halg data x HF' HD. apply (test_hash_is junk c J) in HD. subst x.
    assert (Ld : length (sha256 data) = 32%nat) by apply sha256_length. split.
    + intro X. apply (f_equal (@length byte)) in X. rewrite Ld in X. discriminate.
    + rewrite E. unfold blen. rewrite Ld. discriminate.
  - eapply one_digest_of, test_hash_is, J.
  - apply (test_reliable junk c J). cbn [longest fold_right]. lia.
Qed.

(** ** The bundled SHA-256, however the data comes *)

Fixpoint sha_feed (ctx : sha_ctx) (chunks : list bytes) : out sha_ctx :=
  match chunks with
  | [] => Ret ctx
  | d :: r => match sha256_update true ctx d with Ret ctx => sha_feed ctx r | UB w => UB w end
  end.

Theorem sha_chunks junk hash chunks :
  length junk = 64%nat -> (32 <= length hash)%nat -> Forall (fun d => blen d < 2 ^ 32) chunks ->
  exists ctx, sha_feed (sha256_init junk) chunks = Ret ctx /\
    sha256_final true ctx hash = Ret (sha256 (concat chunks) ++ skipn 32 hash).
Proof.
  intros J L F.
  assert (G : forall D ctx, has_absorbed ctx D -> exists ctx', sha_feed ctx chunks = Ret ctx' /\ has_absorbed ctx' (D ++ concat chunks)).
  { clear J. induction F as [|d chunks Hd _ IH]; intros D ctx A; cbn [sha_feed concat]; [rewrite app_nil_r; eauto|].
    destruct (update_spec ctx D d A Hd) as (ctx1 & -> & A1). rewrite app_assoc. now apply IH. }
  destruct (G [] (sha256_init junk) (init_absorbed junk J)) as (ctx & E & A). exists ctx. split; [exact E|].
  now apply final_spec.
Qed.

Theorem sha_update_returns junk chunks d :
  length junk = 64%nat -> Forall (fun d => blen d < 2 ^ 32) chunks -> blen d < 2 ^ 32 ->
  exists ctx ctx', sha_feed (sha256_init junk) chunks = Ret ctx /\ sha256_update true ctx d = Ret ctx'.
Proof.
  intros J F Hd.
  assert (G : forall D ctx, has_absorbed ctx D -> exists ctx', sha_feed ctx chunks = Ret ctx' /\ has_absorbed ctx' (D ++ concat chunks)).
  { clear J Hd. induction F as [|e chunks He _ IH]; intros D ctx A; cbn [sha_feed concat]; [rewrite app_nil_r; eauto|].
    destruct (update_spec ctx D e A He) as (ctx1 & -> & A1). rewrite app_assoc. now apply IH. }
  destruct (G [] (sha256_init junk) (init_absorbed junk J)) as (ctx & E & A).
  destruct (update_spec ctx _ d A Hd) as (ctx' & E' & _). eauto.
Qed.

Theorem sha_update_never_returns junk data :
  length junk = 64%nat -> 2 ^ 32 <= blen data -> forall rounds, update_loop true rounds 0 (sha256_init junk) data = UB Diverges.
Proof. intros J L rounds. eapply update_diverges; [exact L|apply init_absorbed, J|reflexivity]. Qed.

(** ** ECDSA signature formats *)

Theorem ecdsa_conversion lib key r s room room' : der_library lib -> enough_memory lib ->
  let len := coordinate_length (ev_bits lib key) in
  len < 127 -> r < 256 ^ len -> s < 256 ^ len -> 2 * len <= room -> 2 * len + 10 <= room' ->
  snd (ecdsa_signature_der_to_cose lib key (der_signature r s) room) = Ret (Some (cose_signature len r s)) /\
  snd (ecdsa_signature_cose_to_der lib key (cose_signature len r s) room') = Ret (T_SUCCESS, der_signature r s).
Proof.
  cbv zeta. intros (I & D) M K Hr Hs R R'. split.
  - rewrite (der_to_cose_ok lib key _ room r s _ (key_size_spec _ _)); auto. apply D.
    + eapply N.lt_le_trans; [exact Hr|]. apply N.pow_le_mono_r; [discriminate|lia].
    + eapply N.lt_le_trans; [exact Hs|]. apply N.pow_le_mono_r; [discriminate|lia].
  - pose proof (der_signature_bound r s _ Hr Hs K).
    destruct (cose_to_der_ok lib key r s _ _ room' (key_size_spec _ _) Hr Hs M (I r s)) as (log & -> & _); [lia|reflexivity].
Qed.

Lemma bn_of_cose len r s : r < 256 ^ len -> s < 256 ^ len ->
  bn_bin2bn (firstn (N.to_nat len) (cose_signature len r s)) = r /\
  bn_bin2bn (firstn (N.to_nat len) (skipn (N.to_nat len) (cose_signature len r s))) = s.
Proof.
  intros Hr Hs. destruct (cose_halves len r s) as (_ & -> & ->). split; apply bin2bn_big_endian; now rewrite N2Nat.id.
Qed.

Theorem cose_signature_inj len r s r' s' : r < 256 ^ len -> s < 256 ^ len -> r' < 256 ^ len -> s' < 256 ^ len ->
  cose_signature len r s = cose_signature len r' s' -> r = r' /\ s = s'.
Proof.
  intros Hr Hs Hr' Hs' E. destruct (bn_of_cose len r s Hr Hs) as [A B]. destruct (bn_of_cose len r' s' Hr' Hs') as [A' B'].
  rewrite E in A, B. split; congruence.
Qed.

Theorem wrong_length_rejected lib key sig room : blen sig <> 2 * coordinate_length (ev_bits lib key) ->
  ecdsa_signature_cose_to_der lib key sig room = ([], Ret (ERR_SIG_VERIFY, [])).
Proof. rewrite <- key_size_spec. apply cose_to_der_length. Qed.

Theorem der_to_cose_overruns lib key der room r s : let len := coordinate_length (ev_bits lib key) in
  d2i_sig lib der = Some (r, s) -> r < 256 ^ len -> 0 < s -> bn_num_bytes r + bn_num_bytes s <= room -> room < 2 * len ->
  snd (ecdsa_signature_der_to_cose lib key der room) = UB OOBWrite.
Proof. cbv zeta. intros D Hr Hs F R. exact (der_to_cose_overflow lib key der room r s _ (key_size_spec lib key) D Hr Hs F R). Qed.

(** ** Contracts in one place *)

Theorem ossl_accepted_verifies c lib alg k kid hash sig :
  setup_works lib -> enough_memory lib -> der_library lib -> on_curve lib alg (k_handle k) ->
  ossl_key k -> ossl_accepts c lib alg k hash sig ->
  snd (ossl_verify c lib alg k kid hash sig) = Ret T_SUCCESS.
Proof. intros SW M DL OC K A. apply ossl_verify_complete; auto. intro E. exact (on_curve_fits c lib alg _ DL OC E). Qed.

Theorem ossl_verify_leaves_nothing c lib alg k kid hash sig log res :
  ossl_verify c lib alg k kid hash sig = (log, Ret res) ->
  (forall r s, sig_set0 lib r s = true) -> der_library lib -> on_curve lib alg (k_handle k) -> released log.
Proof. intros H S0 DL OC. eapply ossl_verify_released; eauto. intro E. exact (on_curve_fits c lib alg _ DL OC E). Qed.

Theorem ossl_consistent c lib alg :
  (enabled c alg -> signature_algorithm_id_is_supported c alg = true /\ never_refuses (openssl c lib) alg) /\
  (~ enabled c alg -> signature_algorithm_id_is_supported c alg = false /\ always_refuses (openssl c lib) alg).
Proof.
  split; intro E.
  - split; [now apply core_supports|now apply ossl_accepts_enabled].
  - split; [|now apply ossl_refuses_others]. apply not_true_is_false. intro X. apply E. now apply core_supports.
Qed.

Theorem psa_consistent c lib alg : psa_complete lib ->
  (enabled c alg /\ alg <> (-8)%Z -> signature_algorithm_id_is_supported c alg = true /\ never_refuses (psa_crypto c lib) alg) /\
  (~ (enabled c alg /\ alg <> (-8)%Z) -> always_refuses (psa_crypto c lib) alg).
Proof.
  intro PC. split.
  - intros [E N]. split; [now apply core_supports|now apply psa_accepts_enabled].
  - intro E. now apply psa_refuses_others.
Qed.

Theorem ossl_contract c lib H q parts :
  openssl_works lib H -> size_reported lib (k_handle (q_key q)) -> room_no_matter lib (k_handle (q_key q)) ->
  hash_reliable c (openssl c lib) parts /\ sizes_agree (openssl c lib) q /\ room_irrelevant (openssl c lib) q /\ null_is_empty (openssl c lib) /\
  hash_is (openssl c lib) H.
Proof.
  intros (SW & EM & MN & DL & SL & HL) SR RN. split; [eapply ossl_reliable, HL|]. split; [now apply ossl_sizes|].
  split; [now apply ossl_rooms|]. split; [eapply ossl_null, HL|exact (ossl_hash_is c lib H HL)].
Qed.

Theorem psa_contract c lib H q parts :
  psa_hash_library lib H -> psa_within_room lib -> psa_size_reported lib (k_handle (q_key q)) -> psa_room_no_matter lib (k_handle (q_key q)) ->
  hash_reliable c (psa_crypto c lib) parts /\ sizes_agree (psa_crypto c lib) q /\ room_irrelevant (psa_crypto c lib) q /\
  null_is_empty (psa_crypto c lib) /\ hash_is (psa_crypto c lib) H.
Proof.
  intros HL WR SR RN. split; [eapply psa_reliable, HL|]. split; [now apply psa_sizes|].
  split; [now apply psa_rooms|]. split; [eapply psa_null, HL|exact (psa_hash_is c lib H HL)].
Qed.

(** ** The test adapter signs and verifies nothing itself *)

Theorem test_refuses wraps junk c alg :
  always_refuses (test_crypto wraps junk c) alg /\
  (forall k t room, exists b, cr_sign_eddsa (test_crypto wraps junk c) k t room = Ret (ERR_UNSUPPORTED_SIGNING_ALG, b)) /\
  (forall k kid t sig, cr_verify_eddsa (test_crypto wraps junk c) k kid t sig = Ret ERR_UNSUPPORTED_SIGNING_ALG) /\
  (fst (cr_hash_start (test_crypto wraps junk c) alg) = T_SUCCESS <-> alg = (-16)%Z).
Proof.
  split; [split; intros; [exists []|]; reflexivity|]. split; [intros; exists []; reflexivity|]. split; [reflexivity|].
  cbn [cr_hash_start test_crypto]. unfold test_hash_start, SHA_256. destruct (Z.eqb_spec alg (-16)) as [->|N]; cbn; split; auto; try discriminate; contradiction.
Qed.

Theorem test_verifies_short_circuit_only wraps junk c junk' me msg aad payload want dc log w ad gv :
  length (v_tags me) = 4%nat -> holds aad ad -> detached_arg dc payload gv ->
  verify_internal c (test_crypto wraps junk c) junk' me msg aad payload want dc = (log, Ret w) -> w_err w = T_SUCCESS ->
  decode_only (v_flags me) = false ->
  exists g pm p pl, message msg g pm /\ acceptable c (v_flags me) dc gv g pm p pl /\
    u_data (p_kid p) = reserved_kid /\ allows_short_circuit (v_flags me) = true /\ hash_for (p_alg p) = Some (-16)%Z.
Proof.
  intros V A G H E D. destruct (verify_sound _ _ _ _ _ _ _ _ _ _ _ _ _ V A G H E) as (g & pm & p & pl & M & AC & _ & OK).
  specialize (OK D). exists g, pm, p, pl. split; [exact M|]. split; [exact AC|]. unfold accepted in OK.
  destruct (short_circuit_kid c p) eqn:SC.
  - destruct OK as (AL & halg & d & rest & HF & _ & (h & h' & n & HS & _) & _).
    unfold short_circuit_kid in SC. apply andb_prop in SC as [_ SC]. apply bytes_eqb_eq in SC.
    split; [exact SC|]. split; [exact AL|]. rewrite HF. f_equal.
    apply (proj2 (proj2 (proj2 (test_refuses wraps junk c halg)))). rewrite HS. reflexivity.
  - destruct (uses_eddsa c p); [discriminate|]. destruct OK as (halg & d & _ & _ & _ & X). discriminate.
Qed.

Theorem test_signs_short_circuit_only wraps junk c q me det payload aad pl ad n log me' r :
  configured q me -> holds payload pl -> holds aad ad ->
  sign_aad_internal c (test_crypto wraps junk c) me det payload aad {| wb_null := false; wb_len := n |} = (log, Ret (T_SUCCESS, me', r)) ->
  wants_short_circuit (q_flags q) = true /\ hash_for (q_alg q) = Some (-16)%Z.
Proof.
  intros C P A H. destruct (sign_success_spec _ _ _ _ _ _ _ _ _ _ _ _ _ C P A H) as (sig & room & _ & _ & _ & SG & _).
  unfold signature_of in SG. destruct (wants_short_circuit (q_flags q)).
  - split; [reflexivity|]. destruct SG as (halg & d & HF & (h & h' & s & HS & _) & _). rewrite HF. f_equal.
    apply (proj2 (proj2 (proj2 (test_refuses wraps junk c halg)))). rewrite HS. reflexivity.
  - destruct (q_alg q =? -8)%Z; [discriminate|]. destruct SG as (? & ? & _ & _ & X). discriminate.
Qed.
