(** Build switches. Each theorem is followed by a concrete case that meets its
    hypotheses. *)
From Verif Require Import Base Const QEnc QDec Crypto Util Sign Params Verify OpenSSL Psa SignSpec AdapterSpec BuildSpec Toy Demo BuildFacts BuildAdapter VerifySpec.
From Coq Require Import Lia.
Open Scope N_scope. Open Scope list_scope.

(** ** C52: switching algorithms off changes nothing for the others *)

Theorem C52_signing : forall c c2 cr cr2 q me (det : bool) payload aad buf,
  configured q me -> same_features c c2 -> in_both c c2 (q_alg q) -> adapters_alike c cr c2 cr2 (q_alg q) (q_key q) ->
  sign_aad_internal c cr me det payload aad buf = sign_aad_internal c2 cr2 me det payload aad buf.
Proof. exact sign_both. Qed.
Print Assumptions C52_signing.

Theorem C52_verification : forall c c2 cr cr2 junk me msg aad payload want dc log w,
  same_features c c2 -> more_algorithms c c2 -> (forall alg, enabled c alg -> adapters_alike c cr c2 cr2 alg (v_key me)) ->
  decode_only (v_flags me) = false ->
  verify_internal c cr junk me msg aad payload want dc = (log, Ret w) -> w_err w = T_SUCCESS ->
  verify_internal c2 cr2 junk me msg aad payload want dc = (log, Ret w).
Proof. exact verify_more. Qed.
Print Assumptions C52_verification.

Theorem C52_openssl_signing : forall c c2 lib q me (det : bool) payload aad buf,
  configured q me -> same_features c c2 -> in_both c c2 (q_alg q) -> der_library lib -> sign_library lib ->
  (forall md data d, md = (-16)%Z \/ md = (-43)%Z \/ md = (-44)%Z -> md_final lib md data = Some d -> blen d = digest_length md) ->
  fits_buffers c c2 lib (q_alg q) (k_handle (q_key q)) ->
  sign_aad_internal c (openssl c lib) me det payload aad buf = sign_aad_internal c2 (openssl c2 lib) me det payload aad buf.
Proof. exact openssl_sign_both. Qed.
Print Assumptions C52_openssl_signing.

Theorem C52_openssl_verification : forall c c2 lib junk me msg aad payload want dc log w,
  same_features c c2 -> more_algorithms c c2 -> der_library lib -> sign_library lib ->
  (forall md data d, md = (-16)%Z \/ md = (-43)%Z \/ md = (-44)%Z -> md_final lib md data = Some d -> blen d = digest_length md) ->
  (forall alg, fits_buffers c c2 lib alg (k_handle (v_key me))) -> decode_only (v_flags me) = false ->
  verify_internal c (openssl c lib) junk me msg aad payload want dc = (log, Ret w) -> w_err w = T_SUCCESS ->
  verify_internal c2 (openssl c2 lib) junk me msg aad payload want dc = (log, Ret w).
Proof. exact openssl_verify_more. Qed.
Print Assumptions C52_openssl_verification.

Theorem C52_psa_signing : forall c c2 lib H q me (det : bool) payload aad buf,
  configured q me -> same_features c c2 -> in_both c c2 (q_alg q) -> psa_hash_library lib H ->
  sign_aad_internal c (psa_crypto c lib) me det payload aad buf = sign_aad_internal c2 (psa_crypto c2 lib) me det payload aad buf.
Proof. exact psa_sign_both. Qed.
Print Assumptions C52_psa_signing.

Theorem C52_psa_verification : forall c c2 lib H junk me msg aad payload want dc log w,
  same_features c c2 -> more_algorithms c c2 -> psa_hash_library lib H -> decode_only (v_flags me) = false ->
  verify_internal c (psa_crypto c lib) junk me msg aad payload want dc = (log, Ret w) -> w_err w = T_SUCCESS ->
  verify_internal c2 (psa_crypto c2 lib) junk me msg aad payload want dc = (log, Ret w).
Proof. exact psa_verify_more. Qed.
Print Assumptions C52_psa_verification.

(** ES256 only, and everything. *)
Definition es256_only : cfg :=
  {| dis_es384 := true; dis_es512 := true; dis_ps256 := true; dis_ps384 := true; dis_ps512 := true;
     dis_eddsa := true; dis_short_circuit := false; dis_content_type := false |}.

Lemma small_and_full : same_features es256_only cfg_full /\ more_algorithms es256_only cfg_full /\ in_both es256_only cfg_full (-7).
Proof.
  split; [split; reflexivity|]. split; [|split; now left].
  intros alg [->|H]; [now left|]. unfold enabled. cbn in *. destruct H as [H|[H|[H|[H|[H|H]]]]]; destruct H as [_ H]; discriminate H.
Qed.

Lemma toy_alike alg k : adapters_alike es256_only toy cfg_full toy alg k.
Proof.
  exists eq. repeat split; try reflexivity; intros; subst; try reflexivity. Qed.

Lemma demo_fits alg key : fits_buffers es256_only cfg_full demo_ossl alg key.
Proof.
  intros _. split; [discriminate|]. split; [discriminate|]. intro h. cbn [pkey_sign demo_ossl px_params]. unfold made.
  destruct (demo_numbers h) as [R S]. pose proof (OpenSSLFacts.der_signature_bound _ _ _ R S eq_refl) as B. fold (demo_der h) in B.
  change (der_buffer_size es256_only) with 80. change (der_buffer_size cfg_full) with 148.
  replace (blen (demo_der h) <=? 80) with true by lia. replace (blen (demo_der h) <=? 148) with true by lia. reflexivity.
Qed.

(** What a build makes of a payload, and what another makes of the message. *)
Definition signed_by (c : cfg) (cr : crypto) (alg : Z) : option (terr * option ubufc) :=
  match sign_aad_internal c cr (toy_signer alg 0) false (UBuf toy_payload) NULL_UBUF (out_buf 300) with
  | (_, Ret (e, _, r)) => Some (e, r) | _ => None
  end.
Definition verified_by (c : cfg) (cr : crypto) (made : option (terr * option ubufc)) : option terr :=
  match made with
  | Some (_, Some (UBuf m)) =>
    match verify_internal c cr NULL_UBUF (toy_verifier 0) m NULL_UBUF None false false with
    | (_, Ret w) => Some (w_err w) | _ => None
    end
  | _ => None
  end.

Example C52_case : configured (toy_request (-7) 0) (toy_signer (-7) 0) /\
  (exists m, signed_by es256_only (openssl es256_only demo_ossl) (-7) = Some (T_SUCCESS, Some (UBuf m)) /\
             signed_by cfg_full (openssl cfg_full demo_ossl) (-7) = Some (T_SUCCESS, Some (UBuf m))) /\
  verified_by es256_only (openssl es256_only demo_ossl) (signed_by cfg_full (openssl cfg_full demo_ossl) (-7)) = Some T_SUCCESS /\
  verified_by cfg_full (openssl cfg_full demo_ossl) (signed_by es256_only (openssl es256_only demo_ossl) (-7)) = Some T_SUCCESS /\
  verified_by cfg_full (psa_crypto cfg_full demo_psa) (signed_by es256_only (psa_crypto es256_only demo_psa) (-7)) = Some T_SUCCESS /\
  (* an algorithm the small build lacks *)
  signed_by es256_only (openssl es256_only demo_ossl) (-36) = Some (ERR_UNSUPPORTED_SIGNING_ALG, None) /\
  verified_by cfg_full (openssl cfg_full demo_ossl) (signed_by cfg_full (openssl cfg_full demo_ossl) (-36)) = Some T_SUCCESS /\
  verified_by es256_only (openssl es256_only demo_ossl) (signed_by cfg_full (openssl cfg_full demo_ossl) (-36)) = Some ERR_UNSUPPORTED_SIGNING_ALG.
Proof.
  split; [apply toy_configured|]. split; [|repeat split; vm_compute; reflexivity].
  eexists. split; vm_compute; reflexivity.
Qed.

(** Without [fits_buffers]: OpenSSL signs with ES256 and a 521-bit key in the full
    build, not in the small one, whose DER buffer has 80 bytes. *)
Definition long_ossl : ossl := {|
  ev_bits := fun _ => 521; ev_size := fun _ => 64;
  d2i_sig := read_signature; bn_ok := fun _ _ => true; sig_new := true; sig_set0 := fun _ _ => true;
  i2d_sig := fun r s => Some (der_signature r s);
  ctx_new := fun _ => true; ctx_init := fun _ => true; ctx_set := fun _ _ => true;
  pkey_sign := fun x h room => made (der_signature (256 ^ 65) (256 ^ 65)) room;
  pkey_verify := fun x sig h => 1%Z;
  md_known := fun _ => true; md_new := true; md_init := fun _ => true;
  md_update := fun _ _ _ => true; md_final := fun md data => Some (demo_hash md data);
  dsign_init := fun _ => true; dsign := fun _ t room => made (demo_sig t) room;
  dverify_init := fun _ => true; dverify := fun _ sig t => 1%Z |}.

Example C52_long_key_case :
  signed_by es256_only (openssl es256_only long_ossl) (-7) = Some (ERR_SIG_FAIL, None) /\
  verified_by cfg_full (openssl cfg_full long_ossl) (signed_by cfg_full (openssl cfg_full long_ossl) (-7)) = Some T_SUCCESS /\
  verified_by es256_only (openssl es256_only long_ossl) (signed_by cfg_full (openssl cfg_full long_ossl) (-7)) = Some ERR_SIG_FAIL.
Proof. repeat split; vm_compute; reflexivity. Qed.
