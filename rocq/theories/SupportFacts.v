(** Which algorithms the adapters support, and the sizes of fixed buffers. *)
From Verif Require Import Base Const Crypto Params Util Algs TestCrypto OpenSSL Psa AdapterSpec.
From Verif Require Import Spec SignSpec BaseFacts OpenSSLFacts OpenSSLFacts2 AdapterFacts PsaFacts VerifySpec.
From Coq Require Import Lia ZifyBool ZifyNat ZifyN.
Ltac Zify.zify_post_hook ::= Z.div_mod_to_equations.
Open Scope N_scope. Open Scope list_scope.

Lemma enabled_split c alg : enabled c alg <-> ecdsa_enabled c alg \/ pss_enabled c alg \/ (alg = (-8)%Z /\ dis_eddsa c = false).
Proof. unfold enabled, ecdsa_enabled, pss_enabled. tauto. Qed.

Lemma core_supports c alg : signature_algorithm_id_is_supported c alg = true <-> enabled c alg.
Proof.
  unfold signature_algorithm_id_is_supported, enabled, ES256, ES384, ES512, PS256, PS384, PS512, EDDSA.
  destruct (dis_es384 c), (dis_es512 c), (dis_ps256 c), (dis_ps384 c), (dis_ps512 c), (dis_eddsa c); cbn [negb andb orb]; lia.
Qed.

Ltac in_list alg :=
  cbn [ifndef app t_cose_check_list];
  repeat match goal with
         | |- context [(Zneg ?x =? 0)%Z] => change (Zneg x =? 0)%Z with false
         | |- context [(0 =? 0)%Z] => change (0 =? 0)%Z with true
         end; cbv iota;
  repeat match goal with |- context [if (?x =? alg)%Z then _ else _] => destruct (Z.eqb_spec x alg) end; lia.

Lemma ossl_reports c alg : ossl_is_supported c alg = true <-> enabled c alg \/ is_hash_id alg.
Proof.
  unfold ossl_is_supported, ossl_supported_algs, enabled, is_hash_id, SHA_256, SHA_384, SHA_512, ES256, ES384, ES512, PS256, PS384, PS512, EDDSA.
  destruct (dis_es384 c), (dis_es512 c), (dis_ps256 c), (dis_ps384 c), (dis_ps512 c), (dis_eddsa c);
    in_list alg.
Qed.

Lemma psa_reports c alg : psa_is_supported c alg = true <-> (enabled c alg /\ alg <> (-8)%Z) \/ is_hash_id alg.
Proof.
  unfold psa_is_supported, psa_supported_algs, enabled, is_hash_id, SHA_256, SHA_384, SHA_512, ES256, ES384, ES512, PS256, PS384, PS512.
  destruct (dis_es384 c), (dis_es512 c), (dis_ps256 c), (dis_ps384 c), (dis_ps512 c), (dis_eddsa c);
    in_list alg.
Qed.

Lemma test_reports alg : test_is_supported alg = true <-> alg = (-16)%Z.
Proof. unfold test_is_supported, SHA_256. in_list alg. Qed.

(** ** OpenSSL *)

Lemma key_convert_not k : key_convert k <> ERR_UNSUPPORTED_SIGNING_ALG.
Proof. unfold key_convert. destruct (negb _); [discriminate|]. destruct (_ =? _); discriminate. Qed.

Lemma configure_not c lib x alg : ecdsa_enabled c alg \/ pss_enabled c alg ->
  fst (configure_pkey_context c lib x alg) <> ERR_UNSUPPORTED_SIGNING_ALG.
Proof.
  intros [E|P]; [rewrite configure_ecdsa by exact E; discriminate|]. unfold configure_pkey_context.
  destruct (t_cose_algorithm_is_ecdsa c alg); [discriminate|]. rewrite (proj2 (is_pss_spec c alg) P).
  assert (O : exists md, (if (alg =? PS256)%Z then Some SHA_256 else if (alg =? PS384)%Z then Some SHA_384 else if (alg =? PS512)%Z then Some SHA_512 else None) = Some md).
  { unfold pss_enabled in P. destruct P as [[-> _]|[[-> _]|[-> _]]]; eexists; reflexivity. }
  destruct O as (md & ->). repeat (destruct (set_param lib _ _); [|discriminate]). discriminate.
Qed.

Lemma sign_alg_cases c alg : ecdsa_enabled c alg \/ pss_enabled c alg ->
  (negb (t_cose_algorithm_is_ecdsa c alg) && negb (t_cose_algorithm_is_rsassa_pss c alg))%bool = false.
Proof. intros [E|P]; [apply is_ecdsa_spec in E; now rewrite E|apply is_pss_spec in P; rewrite P]. destruct (t_cose_algorithm_is_ecdsa c alg); reflexivity. Qed.

Lemma ossl_sign_accepts c lib alg k d room b : ecdsa_enabled c alg \/ pss_enabled c alg ->
  snd (ossl_sign c lib alg k d room) <> Ret (ERR_UNSUPPORTED_SIGNING_ALG, b).
Proof.
  intros A X. revert X. unfold ossl_sign. rewrite sign_alg_cases by exact A.
  destruct (terr_eqb (key_convert k) T_SUCCESS); cbn [negb];
    [|cbn [lret snd]; intro X; injection X as X _; exact (key_convert_not _ X)].
  destruct (ctx_new lib (k_handle k)); cbn [negb]; [|discriminate]. cbn [lbind alloc].
  destruct (ctx_init lib _); cbn [negb]; [|discriminate].
  pose proof (configure_not c lib {| px_key := k_handle k; px_verify := false; px_params := [] |} alg A) as C.
  destruct (configure_pkey_context c lib _ alg) as [err x]. cbn [fst] in C.
  destruct (terr_eqb err T_SUCCESS); cbn [negb]; [|cbn [lret lbind free snd]; congruence].
  destruct (t_cose_algorithm_is_ecdsa c alg) eqn:E.
  - destruct (pkey_sign lib x d _) as [der|]; [|discriminate]. unfold stored. destruct (_ <? _); [discriminate|]. cbn [lbind lret].
    destruct (ecdsa_signature_der_to_cose lib (k_handle k) der room) as [l [[s|]|u]]; cbn [lbind lret free snd]; discriminate.
  - destruct (t_cose_algorithm_is_rsassa_pss c alg) eqn:P.
    + destruct (pkey_sign lib x d room) as [s|]; [|discriminate]. unfold stored. destruct (_ <? _); discriminate.
    + destruct A as [A|A]; [apply is_ecdsa_spec in A|apply is_pss_spec in A]; congruence.
Qed.

Lemma ossl_verify_accepts c lib alg k kid d sig : ecdsa_enabled c alg \/ pss_enabled c alg ->
  snd (ossl_verify c lib alg k kid d sig) <> Ret ERR_UNSUPPORTED_SIGNING_ALG.
Proof.
  intros A X. revert X. unfold ossl_verify. rewrite sign_alg_cases by exact A.
  destruct (terr_eqb (key_convert k) T_SUCCESS); cbn [negb];
    [|cbn [lret snd]; intro X; injection X as X; exact (key_convert_not _ X)].
  set (conv := if t_cose_algorithm_is_ecdsa c alg then _ else _).
  assert (T : exists log e s, conv = (log, Ret (e, s)) /\ e <> ERR_UNSUPPORTED_SIGNING_ALG).
  { unfold conv. destruct (t_cose_algorithm_is_ecdsa c alg) eqn:E.
    - unfold ecdsa_signature_cose_to_der.
      repeat (match goal with |- context [if negb ?b then _ else _] => destruct b; cbn [negb] end;
              [|eexists _, _, _; split; [reflexivity|discriminate]]).
      destruct (i2d_sig lib _ _); [|eexists _, _, _; split; [reflexivity|discriminate]].
      destruct (_ || _)%bool; eexists _, _, _; (split; [reflexivity|discriminate]).
    - destruct (t_cose_algorithm_is_rsassa_pss c alg) eqn:P; [eexists _, _, _; split; [reflexivity|discriminate]|].
      destruct A as [A|A]; [apply is_ecdsa_spec in A|apply is_pss_spec in A]; congruence. }
  destruct T as (log & e & s & -> & N). cbn [lbind].
  destruct (terr_eqb e T_SUCCESS); cbn [negb lret snd]; [|intro X; injection X as X; contradiction].
  destruct (ctx_new lib (k_handle k)); cbn [negb lbind alloc free lret snd]; [|discriminate].
  destruct (ctx_init lib _); cbn [negb]; [|discriminate].
  pose proof (configure_not c lib {| px_key := k_handle k; px_verify := true; px_params := [] |} alg A) as C.
  destruct (configure_pkey_context c lib _ alg) as [err x]. cbn [fst] in C.
  destruct (terr_eqb err T_SUCCESS); cbn [negb]; [|congruence].
  destruct (_ =? 0)%Z; [discriminate|]. destruct (negb _); discriminate.
Qed.

Theorem ossl_accepts_enabled c lib alg : enabled c alg -> never_refuses (openssl c lib) alg.
Proof.
  intro A. apply enabled_split in A. split; [|split].
  - intro k. cbn [cr_sig_size openssl]. unfold ossl_sig_size. destruct (terr_eqb (key_convert k) T_SUCCESS); cbn [negb];
      [|exact (key_convert_not k)].
    destruct (t_cose_algorithm_is_ecdsa c alg) eqn:E; [discriminate|].
    destruct (t_cose_algorithm_is_rsassa_pss c alg) eqn:P; [discriminate|]. unfold EDDSA. cbn [orb].
    destruct (Z.eqb_spec alg (-8)); [discriminate|].
    destruct A as [A|[A|[A _]]]; [apply is_ecdsa_spec in A|apply is_pss_spec in A|]; congruence.
  - intro N. assert (A' : ecdsa_enabled c alg \/ pss_enabled c alg) by tauto. split; intros.
    + now apply ossl_sign_accepts.
    + now apply ossl_verify_accepts.
  - intros _. split; intros; cbn [cr_sign_eddsa cr_verify_eddsa openssl]; intro X; revert X.
    + unfold ossl_sign_eddsa. destruct (terr_eqb (key_convert k) T_SUCCESS); cbn [negb];
        [|cbn [lret snd]; intro X; injection X as X _; exact (key_convert_not _ X)].
      destruct (md_new lib); cbn [negb lbind alloc]; [|discriminate]. destruct (dsign_init lib _); cbn [negb]; [|discriminate].
      destruct (dsign lib _ t room); [|discriminate]. unfold stored. destruct (_ <? _); discriminate.
    + unfold ossl_verify_eddsa. destruct (terr_eqb (key_convert k) T_SUCCESS); cbn [negb];
        [|cbn [lret snd]; intro X; injection X as X; exact (key_convert_not _ X)].
      destruct (md_new lib); cbn [negb lbind alloc free lret snd]; [|discriminate]. destruct (dverify_init lib _); cbn [negb]; [|discriminate].
      destruct (_ =? 0)%Z; [discriminate|]. destruct (negb _); discriminate.
Qed.

Theorem ossl_refuses_others c lib alg : ~ enabled c alg -> always_refuses (openssl c lib) alg.
Proof.
  intro N. rewrite enabled_split in N.
  assert (E : t_cose_algorithm_is_ecdsa c alg = false).
  { destruct (t_cose_algorithm_is_ecdsa c alg) eqn:E; [|reflexivity]. apply is_ecdsa_spec in E. tauto. }
  assert (P : t_cose_algorithm_is_rsassa_pss c alg = false).
  { destruct (t_cose_algorithm_is_rsassa_pss c alg) eqn:P; [|reflexivity]. apply is_pss_spec in P. tauto. }
  split; intros; cbn [cr_sign cr_verify openssl].
  - exists []. unfold ossl_sign. now rewrite E, P.
  - unfold ossl_verify. now rewrite E, P.
Qed.

(** Hashes. *)
Lemma hash_used_spec c halg : hash_used c halg <->
  halg = (-16)%Z \/ (halg = (-43)%Z /\ (dis_es384 c = false \/ dis_ps384 c = false)) \/
  (halg = (-44)%Z /\ (dis_es512 c = false \/ dis_ps512 c = false)).
Proof.
  unfold hash_used. split.
  - intros (alg & E & H). unfold enabled in E.
    destruct E as [->|[[-> D]|[[-> D]|[[-> D]|[[-> D]|[[-> D]|[-> D]]]]]]]; cbn in H; try discriminate; injection H as <-; auto.
  - unfold enabled. intros [->|[[-> [D|D]]|[-> [D|D]]]].
    + exists (-7)%Z. auto.
    + exists (-35)%Z. auto.
    + exists (-38)%Z. split; [tauto|reflexivity].
    + exists (-36)%Z. split; [tauto|reflexivity].
    + exists (-39)%Z. split; [tauto|reflexivity].
Qed.

Theorem ossl_hash_offered c lib halg : (forall md, md_known lib md = true) ->
  (hash_used c halg <-> fst (cr_hash_start (openssl c lib) halg) <> ERR_UNSUPPORTED_HASH).
Proof.
  intro K. rewrite hash_used_spec. cbn [cr_hash_start openssl]. unfold ossl_hash_start, SHA_256, SHA_384, SHA_512.
  match goal with |- context [if ?b then _ else _] => destruct b eqn:S end.
  - rewrite K. cbn [negb].
    assert (X : halg = (-16)%Z \/ (halg = (-43)%Z /\ (dis_es384 c = false \/ dis_ps384 c = false)) \/
                (halg = (-44)%Z /\ (dis_es512 c = false \/ dis_ps512 c = false))).
    { destruct (dis_es384 c), (dis_ps384 c), (dis_es512 c), (dis_ps512 c); cbn [negb orb andb] in S; lia. }
    split; [|auto]. intros _. destruct (md_new lib); cbn [negb lret lbind alloc snd fst]; [|discriminate].
    destruct (md_init lib halg); discriminate.
  - split; [|intro X; destruct X; reflexivity]. intro X. exfalso.
    destruct (dis_es384 c), (dis_ps384 c), (dis_es512 c), (dis_ps512 c); cbn [negb orb andb] in S; lia.
Qed.

(** ** PSA *)

(** The library never says it lacks a signing algorithm. *)
Definition psa_complete (lib : psa) : Prop :=
  (forall key a h room, fst (psa_sign_hash lib key a h room) <> (-134)%Z) /\
  (forall key a h sig, psa_verify_hash lib key a h sig <> (-134)%Z) /\
  (forall key, fst (fst (psa_key lib key)) <> (-134)%Z).

Lemma psa_status_not s : s <> (-134)%Z -> psa_status_to_t_cose_error_signing s <> ERR_UNSUPPORTED_SIGNING_ALG.
Proof.
  intro N. unfold psa_status_to_t_cose_error_signing, PSA_ERROR_NOT_SUPPORTED.
  destruct (_ =? PSA_SUCCESS)%Z; [discriminate|]. destruct (_ =? PSA_ERROR_INVALID_SIGNATURE)%Z; [discriminate|].
  destruct (Z.eqb_spec s (-134)); [contradiction|]. repeat (destruct (_ =? _)%Z; [discriminate|]). discriminate.
Qed.

Theorem psa_accepts_enabled c lib alg : psa_complete lib -> enabled c alg -> alg <> (-8)%Z -> never_refuses (psa_crypto c lib) alg.
Proof.
  intros (C1 & C2 & C3) E N. apply enabled_split in E.
  assert (S : is_signing_alg (cose_alg_id_to_psa_alg_id c alg) = true).
  { destruct (psa_alg_spec c alg) as [(_ & h' & H' & ->)|[(_ & h' & H' & ->)|(NE & NP & ->)]]; try reflexivity. tauto. }
  split; [|split; [intros _|contradiction]].
  - intro k. cbn [cr_sig_size psa_crypto]. unfold psa_sig_size. rewrite S. cbn [negb].
    pose proof (C3 (k_handle k)) as X. destruct (psa_key lib (k_handle k)) as [[st ty] bits]. cbn [fst] in X.
    destruct (terr_eqb _ _); cbn [negb fst]; [discriminate|]. now apply psa_status_not.
  - split; intros; cbn [cr_sign cr_verify psa_crypto].
    + unfold psa_sign. rewrite S. cbn [negb]. pose proof (C1 (k_handle k) (cose_alg_id_to_psa_alg_id c alg) d room) as X.
      destruct (psa_sign_hash lib _ _ d room) as [st s]. cbn [fst] in X. apply psa_status_not in X.
      destruct (_ <? _); [discriminate|]. destruct (terr_eqb _ _); congruence.
    + unfold psa_verify. rewrite S. cbn [negb]. intro X. injection X as X. exact (psa_status_not _ (C2 _ _ _ _) X).
Qed.

Theorem psa_refuses_others c lib alg : ~ (enabled c alg /\ alg <> (-8)%Z) -> always_refuses (psa_crypto c lib) alg.
Proof.
  intro N.
  assert (S : is_signing_alg (cose_alg_id_to_psa_alg_id c alg) = false).
  { destruct (psa_alg_spec c alg) as [(E & _)|[(P & _)|(NE & NP & ->)]]; [| |reflexivity]; exfalso; apply N; split;
      try (apply enabled_split; tauto); intros ->.
    - unfold ecdsa_enabled in E. lia.
    - unfold pss_enabled in P. lia. }
  split; intros; cbn [cr_sign cr_verify psa_crypto].
  - exists []. unfold psa_sign. now rewrite S.
  - unfold psa_verify. now rewrite S.
Qed.

(** PSA has no EdDSA and says so. *)
Theorem psa_no_eddsa c lib :
  psa_is_supported c (-8) = false /\
  (forall k t room, cr_sign_eddsa (psa_crypto c lib) k t room = Ret (ERR_UNSUPPORTED_SIGNING_ALG, [])) /\
  (forall k kid t sig, cr_verify_eddsa (psa_crypto c lib) k kid t sig = Ret ERR_UNSUPPORTED_SIGNING_ALG).
Proof.
  split; [|split; reflexivity]. destruct (psa_is_supported c (-8)) eqn:E; [|reflexivity].
  apply psa_reports in E. unfold is_hash_id in E. lia.
Qed.

Theorem psa_hash_offered c lib halg :
  psa_hash_setup lib PUint16Max = (-134)%Z \/ psa_hash_setup lib PUint16Max = (-135)%Z ->
  (forall halg, is_hash_id halg -> psa_hash_setup lib (PHash halg) <> (-134)%Z /\ psa_hash_setup lib (PHash halg) <> (-135)%Z) ->
  (hash_used c halg <-> fst (cr_hash_start (psa_crypto c lib) halg) <> ERR_UNSUPPORTED_HASH).
Proof.
  intros U K. rewrite hash_used_spec. cbn [cr_hash_start psa_crypto]. unfold psa_start.
  destruct (psa_halg_spec c halg) as [[-> A]|X].
  - split; [|auto]. intros _. destruct (K halg) as [K1 K2]; [unfold is_hash_id; tauto|].
    assert (psa_status_to_t_cose_error_hash (psa_hash_setup lib (PHash halg)) <> ERR_UNSUPPORTED_HASH).
    { unfold psa_status_to_t_cose_error_hash, PSA_ERROR_NOT_SUPPORTED, PSA_ERROR_INVALID_ARGUMENT.
      destruct (_ =? PSA_SUCCESS)%Z; [discriminate|]. destruct (Z.eqb_spec (psa_hash_setup lib (PHash halg)) (-134)); [contradiction|].
      destruct (Z.eqb_spec (psa_hash_setup lib (PHash halg)) (-135)); [contradiction|]. destruct (_ =? _)%Z; discriminate. }
    destruct (_ =? PSA_SUCCESS)%Z; exact H.
  - split.
    + intros A. exfalso. revert X. unfold cose_hash_alg_id_to_psa, SHA_256, SHA_384, SHA_512.
      destruct A as [->|[[-> [D|D]]|[-> [D|D]]]]; try rewrite D; cbn [negb orb andb Z.eqb Pos.eqb]; rewrite ?orb_true_r, ?andb_false_r, ?andb_true_r; cbn [andb]; discriminate.
    + rewrite X. intro Y. exfalso. apply Y. destruct U as [-> | ->]; reflexivity.
Qed.

(** ** Fixed buffers *)

Theorem digest_fits_buffer c alg halg : enabled c alg -> hash_for alg = Some halg -> digest_length halg <= max_hash_size c.
Proof. intros E H. apply digest_fits, hash_used_spec. exists alg. auto. Qed.

(** The core's own choice of hash is the one that goes with the algorithm. *)
Theorem core_hash c alg : enabled c alg -> alg <> (-8)%Z -> hash_for alg = Some (hash_alg_id_from_sig_alg_id c alg).
Proof.
  unfold enabled, hash_alg_id_from_sig_alg_id, ES256, ES384, ES512, PS256, PS384, PS512.
  intros E N. destruct E as [->|[[-> D]|[[-> D]|[[-> D]|[[-> D]|[[-> D]|[-> D]]]]]]]; try contradiction; try rewrite D; cbn [Z.eqb Pos.eqb negb andb]; rewrite ?andb_false_r; reflexivity.
Qed.

Theorem ecdsa_fits_buffer c alg : ecdsa_enabled c alg ->
  2 * curve_coordinate alg = ecdsa_sig_size alg /\ 2 * curve_coordinate alg <= max_ecdsa_sig_size c.
Proof.
  unfold ecdsa_enabled, curve_coordinate, ecdsa_sig_size, max_ecdsa_sig_size, P256_SIG_SIZE, P384_SIG_SIZE, P512_SIG_SIZE.
  intros [->|[[-> D]|[-> D]]]; cbn [Z.eqb Pos.eqb]; split; try reflexivity; try rewrite D; cbn [negb]; destruct (dis_es512 c); cbn [negb]; try destruct (dis_es384 c); cbn [negb]; lia.
Qed.

Theorem der_fits_buffer c alg r s : ecdsa_enabled c alg -> r < 256 ^ curve_coordinate alg -> s < 256 ^ curve_coordinate alg ->
  0 < blen (der_signature r s) <= der_buffer_size c.
Proof.
  intros E Hr Hs. pose proof (ecdsa_fits_buffer c alg E) as [_ F]. unfold der_buffer_size, DER_SIG_ENCODE_OVER_HEAD.
  assert (K : curve_coordinate alg < 127) by (unfold curve_coordinate; destruct (_ =? _)%Z; [lia|]; destruct (_ =? _)%Z; lia).
  pose proof (der_signature_bound _ _ _ Hr Hs K). lia.
Qed.
