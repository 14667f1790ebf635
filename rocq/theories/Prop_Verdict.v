(** C69: a wrong signature, AAD, payload or key gives the error for it. *)
From Verif Require Import Base Const QEnc QDec Crypto Util ShortCircuit Params Sign Verify OpenSSL Psa AdapterSpec Spec SignSpec LiveSpec.
From Verif Require Import BaseFacts VerifyTop Toy DemoLib Demo LiveDemo VerifySpec InterSpec VerdictSpec VerdictFacts Prop_Inter Prop_ForgeryLib.
From Verif Require Import Sha256 Sha256Spec TestCrypto.
From Coq Require Import Lia.
Open Scope N_scope. Open Scope list_scope.

(** A message with no other fault, a library that works: verification accepts if
    the signature is right and gives T_COSE_ERR_SIG_VERIFY if not. *)
Theorem C69_verdict : forall c l H V junk me msg aad payload want dc ad gv g pm p pl,
  library_works l H -> yes_or_no l -> enabled c (p_alg p) ->
  length (v_tags me) = 4%nat -> holds aad ad -> detached_arg dc payload gv -> message msg g pm ->
  acceptable c (v_flags me) dc gv g pm p pl -> decode_only (v_flags me) = false ->
  (if short_circuit_kid c p then allows_short_circuit (v_flags me) = true /\ p_alg p <> (-8)%Z else accepts l (p_alg p) (v_key me) V) ->
  (p_alg p = (-8)%Z -> wb_null (v_aux me) = false /\ blen (sig_structure (g_prot g) ad pl) <= wb_len (v_aux me)) ->
  exists log w, verify_internal c (adapter c l) junk me msg aad payload want dc = (log, Ret w) /\
    let right := right_signature c H V p (sig_structure (g_prot g) ad pl) (g_sig g) in
    (right /\ delivered me payload want dc p pl w \/ ~ right /\ w_err w = ERR_SIG_VERIFY).
Proof. exact verdict. Qed.
Print Assumptions C69_verdict.

(** A message just signed, verified with any key, AAD and detached payload. [V]: the
    signatures of the signing key, [V2]: those the verifier's key accepts. *)
Theorem C69_signed : forall c c2 l l2 H V V2 q me (det : bool) payload aad pl ad n log me' m vme junk aad2 payload2 want ad2 gv2,
  library_works l H -> library_works l2 H -> yes_or_no l2 ->
  makes l (q_alg q) (k_handle (q_key q)) V -> accepts l2 (q_alg q) (v_key vme) V2 -> enabled c2 (q_alg q) ->
  configured q me -> holds payload pl -> holds aad ad -> n < 2 ^ 64 ->
  sign_aad_internal c (adapter c l) me det payload aad {| wb_null := false; wb_len := n |} = (log, Ret (T_SUCCESS, me', Some (UBuf m))) ->
  length (v_tags vme) = 4%nat -> holds aad2 ad2 -> detached_arg det payload2 gv2 -> demands_met q (v_flags vme) ->
  wants_short_circuit (q_flags q) = false -> q_kid q <> reserved_kid \/ dis_short_circuit c2 = true ->
  decode_only (v_flags vme) = false ->
  let pl2 := if det then gv2 else pl in
  (q_alg q = (-8)%Z -> wb_null (v_aux vme) = false /\ blen (requested_tbs q ad2 pl2) <= wb_len (v_aux vme)) ->
  exists sig log' w, m = requested_message c q (if det then None else Some pl) sig /\
    right_signature c2 H V (seen_params c c2 q) (requested_tbs q ad pl) sig /\
    verify_internal c2 (adapter c2 l2) junk vme m aad2 payload2 want det = (log', Ret w) /\
    let right := right_signature c2 H V2 (seen_params c c2 q) (requested_tbs q ad2 pl2) sig in
    (right /\ delivered vme payload2 want det (seen_params c c2 q) pl2 w \/ ~ right /\ w_err w = ERR_SIG_VERIFY).
Proof. exact signed_verdict. Qed.
Print Assumptions C69_signed.

(** With other AAD or another detached payload than those signed: the error, or a
    signature that serves two different inputs. *)
Theorem C69_wrong_input : forall c c2 l l2 H V q me (det : bool) payload aad pl ad n log me' m vme junk aad2 payload2 want ad2 gv2,
  library_works l H -> library_works l2 H -> yes_or_no l2 ->
  makes l (q_alg q) (k_handle (q_key q)) V -> accepts l2 (q_alg q) (v_key vme) V -> enabled c2 (q_alg q) ->
  configured q me -> holds payload pl -> holds aad ad -> n < 2 ^ 64 ->
  sign_aad_internal c (adapter c l) me det payload aad {| wb_null := false; wb_len := n |} = (log, Ret (T_SUCCESS, me', Some (UBuf m))) ->
  length (v_tags vme) = 4%nat -> holds aad2 ad2 -> detached_arg det payload2 gv2 -> demands_met q (v_flags vme) ->
  wants_short_circuit (q_flags q) = false -> q_kid q <> reserved_kid \/ dis_short_circuit c2 = true ->
  decode_only (v_flags vme) = false ->
  let pl2 := if det then gv2 else pl in
  (q_alg q = (-8)%Z -> wb_null (v_aux vme) = false /\ blen (requested_tbs q ad2 pl2) <= wb_len (v_aux vme)) ->
  blen ad < 2 ^ 64 -> blen ad2 < 2 ^ 64 -> blen pl < 2 ^ 64 -> blen gv2 < 2 ^ 64 ->
  ad2 <> ad \/ (det = true /\ gv2 <> pl) ->
  exists sig log' w, m = requested_message c q (if det then None else Some pl) sig /\
    verify_internal c2 (adapter c2 l2) junk vme m aad2 payload2 want det = (log', Ret w) /\
    (w_err w = ERR_SIG_VERIFY \/ serves_twice H V (q_alg q) (requested_tbs q ad pl) (requested_tbs q ad2 pl2) sig).
Proof. exact wrong_input. Qed.
Print Assumptions C69_wrong_input.

(** Signed with one library and verified with the other, with the right and with
    wrong AAD; and detached, with the right and with a wrong payload. *)
Definition verdict_of (l l2 : library) (alg : Z) (det : bool) (ad2 pl2 : bytes) : option terr :=
  match sign_aad_internal cfg_full (adapter cfg_full l) (toy_signer alg 0) det (UBuf toy_payload) (UBuf toy_aad) (out_buf 200) with
  | (_, Ret (T_SUCCESS, _, Some (UBuf m))) =>
      match verify_internal cfg_full (adapter cfg_full l2) NULL_UBUF (toy_verifier 0) m (UBuf ad2) (Some (UBuf pl2)) true det with
      | (_, Ret w) => Some (w_err w)
      | _ => None
      end
  | _ => None
  end.

Lemma demo_yes_or_no : yes_or_no (LOssl demo_ossl) /\ yes_or_no (LPsa demo_psa).
Proof.
  split; [split; [intros x sig h|intros key sig t]|intros key a h sig].
  - cbn [pkey_verify demo_ossl]. cbv zeta. match goal with |- context [bytes_eqb ?a ?b] => destruct (bytes_eqb a b) end; auto.
  - change (dverify demo_ossl key sig t) with (if bytes_eqb sig (demo_sig t) then 1%Z else 0%Z). match goal with |- context [bytes_eqb ?a ?b] => destruct (bytes_eqb a b) end; auto.
  - change (psa_verify_hash demo_psa key a h sig) with (if bytes_eqb sig (demo_sig h) then 0%Z else (-149)%Z). match goal with |- context [bytes_eqb ?a ?b] => destruct (bytes_eqb a b) end; auto.
Qed.

Example C69_case :
  yes_or_no (LOssl demo_ossl) /\ yes_or_no (LPsa demo_psa) /\
  library_works (LOssl demo_ossl) demo_hash /\ library_works (LPsa demo_psa) demo_hash /\
  makes (LOssl demo_ossl) (-7) 7 demo_scheme /\ accepts (LPsa demo_psa) (-7) toy_key demo_scheme /\
  let v l l2 alg det ad2 pl2 := verdict_of l l2 alg det ad2 pl2 in let o := LOssl demo_ossl in let p := LPsa demo_psa in
  v o p (-7)%Z false toy_aad toy_payload = Some T_SUCCESS /\ v o p (-7)%Z false [x00] toy_payload = Some ERR_SIG_VERIFY /\
  v o p (-7)%Z false [] toy_payload = Some ERR_SIG_VERIFY /\ v p o (-37)%Z false [x00] toy_payload = Some ERR_SIG_VERIFY /\
  v p o (-37)%Z true toy_aad toy_payload = Some T_SUCCESS /\ v p o (-37)%Z true toy_aad [x00] = Some ERR_SIG_VERIFY /\
  v o o (-8)%Z false toy_aad toy_payload = Some T_SUCCESS /\ v o o (-8)%Z false [x00] toy_payload = Some ERR_SIG_VERIFY.
Proof.
  split; [apply demo_yes_or_no|]. split; [apply demo_yes_or_no|].
  split; [split; [exact demo_works|exact demo_can_hash]|]. split; [split; [exact demo_psa_hash|split; [exact demo_psa_room|exact demo_psa_can_hash]]|].
  split; [apply (demo_ossl_scheme (-7) toy_key); split; [reflexivity|discriminate]|]. split; [apply (demo_psa_scheme (-7) toy_key); discriminate|].
  vm_compute. repeat split.
Qed.

(** A message that was not signed, with a wrong signature; short-circuit signatures. *)
Definition sc_verdict (sig : bytes) : option terr :=
  match verify_internal cfg_full (adapter cfg_full (LOssl demo_ossl)) NULL_UBUF (toy_verifier 1)
          (encode (CArray [CBytes (protected_header (-7)); CMap [(CUInt 4, CBytes reserved_kid)]; CBytes toy_payload; CBytes sig]))
          (UBuf toy_aad) (Some NULL_UBUF) true false with
  | (_, Ret w) => Some (w_err w)
  | _ => None
  end.
Definition plain_verdict (l : library) (alg : Z) (sig : bytes) : option terr :=
  match verify_internal cfg_full (adapter cfg_full l) NULL_UBUF (toy_verifier 0)
          (encode (CArray [CBytes (protected_header alg); CMap []; CBytes toy_payload; CBytes sig]))
          (UBuf toy_aad) (Some NULL_UBUF) true false with
  | (_, Ret w) => Some (w_err w)
  | _ => None
  end.
Example C69_wrong_signature_case :
  let d := demo_hash (-16) (sig_structure (protected_header (-7)) toy_aad toy_payload) in
  sc_verdict (d ++ [x00]) = Some T_SUCCESS /\ sc_verdict (x00 :: d) = Some ERR_SIG_VERIFY /\ sc_verdict [] = Some ERR_SIG_VERIFY /\
  plain_verdict (LOssl demo_ossl) (-7) (demo_sig d) = Some T_SUCCESS /\ plain_verdict (LPsa demo_psa) (-7) (demo_sig d) = Some T_SUCCESS /\
  let wrong := [[]; [x00]; zeros 64; zeros 63] in let refused := repeat (Some ERR_SIG_VERIFY) 4 in
  map (plain_verdict (LOssl demo_ossl) (-7)) wrong = refused /\ map (plain_verdict (LOssl demo_ossl) (-37)) wrong = refused /\
  map (plain_verdict (LOssl demo_ossl) (-8)) wrong = refused /\
  map (plain_verdict (LPsa demo_psa) (-7)) wrong = refused /\ map (plain_verdict (LPsa demo_psa) (-37)) wrong = refused.
Proof. vm_compute. repeat split. Qed.

(** The same for short-circuit signatures and the test adapter with its SHA-256. *)
Theorem C69_test_adapter : forall c junk0 junk me msg aad payload want dc ad gv g pm p pl,
  length junk0 = 64%nat -> enabled c (p_alg p) -> p_alg p = (-7)%Z \/ p_alg p = (-37)%Z ->
  blen (g_prot g) < 2 ^ 32 -> blen ad < 2 ^ 32 -> blen pl < 2 ^ 32 ->
  length (v_tags me) = 4%nat -> holds aad ad -> detached_arg dc payload gv -> message msg g pm ->
  acceptable c (v_flags me) dc gv g pm p pl -> decode_only (v_flags me) = false ->
  short_circuit_kid c p = true -> allows_short_circuit (v_flags me) = true ->
  exists log w, verify_internal c (test_crypto true junk0 c) junk me msg aad payload want dc = (log, Ret w) /\
    let right := exists rest, g_sig g = sha256 (sig_structure (g_prot g) ad pl) ++ rest in
    (right /\ delivered me payload want dc p pl w \/ ~ right /\ w_err w = ERR_SIG_VERIFY).
Proof. exact test_verdict. Qed.
Print Assumptions C69_test_adapter.

(** Signed with the test adapter, verified with other AAD or another detached
    payload: the error, or a collision of SHA-256. *)
Theorem C69_test_wrong_input : forall c junk0 q me (det : bool) payload aad pl ad n log me' m vme junk aad2 payload2 want ad2 gv2,
  length junk0 = 64%nat -> configured q me -> holds payload pl -> holds aad ad -> n < 2 ^ 64 ->
  blen pl < 2 ^ 32 -> blen ad < 2 ^ 32 -> blen gv2 < 2 ^ 32 -> blen ad2 < 2 ^ 32 ->
  sign_aad_internal c (test_crypto true junk0 c) me det payload aad {| wb_null := false; wb_len := n |} = (log, Ret (T_SUCCESS, me', Some (UBuf m))) ->
  q_alg q = (-7)%Z -> requested_kid q = reserved_kid -> dis_short_circuit c = false ->
  length (v_tags vme) = 4%nat -> holds aad2 ad2 -> detached_arg det payload2 gv2 -> demands_met q (v_flags vme) ->
  allows_short_circuit (v_flags vme) = true -> decode_only (v_flags vme) = false ->
  let pl2 := if det then gv2 else pl in
  ad2 <> ad \/ (det = true /\ gv2 <> pl) ->
  exists log' w, verify_internal c (test_crypto true junk0 c) junk vme m aad2 payload2 want det = (log', Ret w) /\
    (w_err w = ERR_SIG_VERIFY \/
     requested_tbs q ad pl <> requested_tbs q ad2 pl2 /\ sha256 (requested_tbs q ad pl) = sha256 (requested_tbs q ad2 pl2)).
Proof. exact test_wrong_input. Qed.
Print Assumptions C69_test_wrong_input.

Definition test_verdict_of (det : bool) (ad2 pl2 : bytes) : option terr :=
  let cr := test_crypto true (zeros 64) cfg_full in
  match sign_aad_internal cfg_full cr (sign_init 1 (-7)) det (UBuf toy_payload) (UBuf toy_aad) (out_buf 200) with
  | (_, Ret (T_SUCCESS, _, Some (UBuf m))) =>
      match verify_internal cfg_full cr NULL_UBUF (toy_verifier 1) m (UBuf ad2) (Some (UBuf pl2)) true det with
      | (_, Ret w) => Some (w_err w)
      | _ => None
      end
  | _ => None
  end.
Example C69_test_case :
  test_verdict_of false toy_aad [] = Some T_SUCCESS /\ test_verdict_of false [x00] [] = Some ERR_SIG_VERIFY /\
  test_verdict_of true toy_aad toy_payload = Some T_SUCCESS /\ test_verdict_of true toy_aad [x00] = Some ERR_SIG_VERIFY /\
  test_verdict_of true [] toy_payload = Some ERR_SIG_VERIFY.
Proof. vm_compute. repeat split. Qed.
