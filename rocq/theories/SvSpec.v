(** What it means that the tests of signing and verifying pass. *)
From Verif Require Import Base Const QEnc Crypto Params Sign Verify OpenSSL Psa Spec SignSpec AdapterSpec LiveSpec ExampleRun ExampleRunSpec ExampleSpec VerifySpec SvTests.
Open Scope N_scope. Open Scope list_scope.

(** The test returns 0. *)
Definition passes (t : X Z) : Prop := snd t = Ret 0%Z.

(** What the calls give. *)
Definition makes (make : Z -> X (terr * option tkey)) (alg : Z) (key : tkey) : Prop := snd (make alg) = Ret (T_SUCCESS, Some key).
Definition signs (i : impl) (me : sctx) (payload : bytes) (room : N) (u : ubufc) : Prop :=
  exists log me', i_sign i me (UBuf payload) {| wb_null := false; wb_len := room |} = (log, Ret (T_SUCCESS, me', Some u)).
Definition sign_error (i : impl) (me : sctx) (payload : bytes) (room : N) (e : terr) : Prop :=
  exists log me' r, i_sign i me (UBuf payload) {| wb_null := false; wb_len := room |} = (log, Ret (e, me', r)).
Definition signs_in_steps (i : impl) (me : sctx) (buf : wbuf) (ops : list eop) (me' : sctx) (u : ubufc) : Prop :=
  exists me1 e1 log e2, i_parameters i me (enc_init buf) = (T_SUCCESS, me1, e1) /\
    i_signature i me1 (eops_run e1 ops) = (log, Ret (T_SUCCESS, me', e2)) /\ enc_finish e2 = (QE_SUCCESS, Some u).
Definition answers (i : impl) (me : vctx) (m : bytes) (want_payload want : bool) (w : vres) : Prop :=
  exists log, i_verify i me m want_payload want = (log, Ret w).

(** The text payload, and the same with an h in front. *)
Definition text_payload : bytes := [x70; x61; x79; x6c; x6f; x61; x64].
Definition text_hayload : bytes := [x68; x61; x79; x6c; x6f; x61; x64].

(** The first place of [what] in [m]. *)
Definition first_in (m what before after : bytes) : Prop :=
  m = before ++ what ++ after /\ forall b a, m = b ++ what ++ a -> (length before <= length b)%nat.

(** Between [n] and 30 more. *)
Definition roughly (size n : N) : Prop := n <= size <= n + 30.

(** The sizes that size_test finds for a key identifier. *)
Definition sizes_agree_for (i : impl) (key : tkey) (alg : Z) (kid : ubufc) : Prop :=
  exists n me measured made again,
    i_sig_size i alg key = (T_SUCCESS, n) /\
    signs_in_steps i (test_signer alg key kid None) {| wb_null := true; wb_len := 2147483647 |} [OpEncoded (UBuf text_payload)] me measured /\
    roughly (u_len measured) (n + 7 + u_len kid) /\
    (alg = (-8)%Z -> roughly (i_sign_aux i me) (7 + u_len kid)) /\ (alg <> (-8)%Z -> i_sign_aux i me = 0) /\
    let signer := test_signer alg key kid (if (alg =? -8)%Z then Some 100 else None) in
    (exists me', signs_in_steps i signer {| wb_null := false; wb_len := 300 |} [OpEncoded (UBuf text_payload)] me' made) /\
    signs i signer text_payload 300 again /\
    u_len made = u_len measured /\ u_len again = u_len measured.

(** QCBOR's errors are positive numbers. *)
Definition qcbor_positive (i : impl) : Prop := forall e, e <> QE_SUCCESS -> (0 < i_qcbor i e)%Z.

(** Ways of making keys: one key, or nothing is kept. *)
Definition makes_one_key (make : Z -> X (terr * option tkey)) : Prop :=
  forall alg, match make alg with
  | (log, Ret (T_SUCCESS, Some _)) => held [] log = Some [XKey]
  | (_, Ret (T_SUCCESS, None)) => False
  | (log, Ret _) => held [] log = Some []
  | (_, UB _) => False
  end.

(** The test key of the algorithm can be made and the library works with it; signatures are
    at most 256 bytes, as with the RSA test key, and 64 with the key for ES256. *)
Definition works_with_test_key (c : cfg) (cr : crypto) (make : Z -> X (terr * option tkey)) (alg : Z) : Prop :=
  exists key n, makes make alg key /\ n <= 256 /\ (alg = (-7)%Z -> n = 64) /\ forall payload, all_works c cr alg key payload n.

(** So for all algorithms of the table that the library supports. *)
Definition library_for_tests (c : cfg) (cr : crypto) (make : Z -> X (terr * option tkey)) : Prop :=
  forall alg, In alg [-7; -35; -36; -37; -38; -39; -8]%Z -> cr_is_supported cr alg = true -> works_with_test_key c cr make alg.

(** No undefined behaviour in the adapter, for messages as small as here. *)
Definition safe_for_tests (c : cfg) (cr : crypto) : Prop := forall m, blen m <= 300 -> adapter_safe c cr [m; []; []].

(** All tests of the file. *)
Definition sign_verify_tests (i : impl) (make : Z -> X (terr * option tkey)) : list (X Z) :=
  [sign_verify_basic_test i make; sign_verify_make_cwt_test i make; sign_verify_sig_fail_test i make; sign_verify_get_size_test i make;
   sign_verify_known_good_test i make; sign_verify_unsupported_test i make; sign_verify_bad_auxiliary_buffer i make].

(** The signatures of the stored messages, made by other libraries, are good for the test keys. *)
Definition accepts_stored (cr : crypto) (make : Z -> X (terr * option tkey)) : Prop :=
  forall alg msg key, In (alg, msg) test_cases -> cr_is_supported cr alg = true -> makes make alg key ->
  exists sg, msg = cose_sign1 true (protected_header alg) (CMap []) (Some text_payload) sg /\
    let tbs := sig_structure (protected_header alg) [] text_payload in
    if (alg =? -8)%Z then cr_verify_eddsa cr key (UNull 0) tbs sg = Ret T_SUCCESS
    else exists halg d, hash_for alg = Some halg /\ digest_of cr halg tbs d /\ cr_verify cr alg key (UNull 0) d sg = Ret T_SUCCESS.

(** What is reported as not supported is not in the core, or refused by the adapter. *)
Definition refuses_others (c : cfg) (cr : crypto) : Prop :=
  forall alg, In alg [-7; -35; -36; -37; -38; -39; -8]%Z -> cr_is_supported cr alg = false ->
  ~ enabled c alg \/
  alg = (-8)%Z /\ (forall k t room, is_ret (cr_sign_eddsa cr k t room)) /\
    (forall k kid t sig, cr_verify_eddsa cr k kid t sig = Ret ERR_UNSUPPORTED_SIGNING_ALG).

(** The keys compiled into the tests can be read or imported, are of the sizes they have there, and
    the library signs with them; there is one RSA key. *)
Definition ossl_test_keys (c : cfg) (lib : ossl) (d2i : Z -> option N) : Prop :=
  forall alg, In alg [-7; -35; -36; -37; -38; -39; -8]%Z -> enabled c alg ->
  exists key, d2i (if is_ecdsa_id alg || (alg =? -8)%Z then alg else -37)%Z = Some key /\ key <> 0 /\
    ossl_can_sign lib alg key /\ key_pair lib alg key key /\
    (alg = (-7)%Z -> ev_bits lib key = 256) /\ (alg = (-35)%Z -> ev_bits lib key = 384) /\ (alg = (-36)%Z -> ev_bits lib key = 521) /\
    (alg = (-37)%Z \/ alg = (-38)%Z \/ alg = (-39)%Z -> ev_size lib key = 256) /\ (alg = (-8)%Z -> ev_size lib key = 64).
Definition psa_test_keys (c : cfg) (lib : psa) (ks : keystore) : Prop := ks_init ks = 0%Z /\
  forall alg, In alg [-7; -35; -36; -37; -38; -39]%Z -> enabled c alg ->
  exists halg key, hash_for alg = Some halg /\ ks_import ks (if is_ecdsa_id alg then PEcdsa halg else PRsaPss halg) = (0%Z, key) /\ psa_key_pair lib key key /\
    psa_can_sign lib alg key (if (alg =? -7)%Z then 64 else if (alg =? -35)%Z then 96 else if (alg =? -36)%Z then 132 else 256).
