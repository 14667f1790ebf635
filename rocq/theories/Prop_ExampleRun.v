(** C67: keys and memory of the example programs. *)
From Verif Require Import Base Const QEnc Crypto OpenSSL Psa AdapterSpec Sign Verify Spec SignSpec PieceSpec Toy DemoLib Demo LiveSpec LiveDemo.
From Verif Require Import Examples ExampleRun ExampleRunSpec ExampleRunFacts ExampleFacts2 VerifySpec ExampleSpec Prop_Example.
Open Scope N_scope. Open Scope list_scope.
Local Strategy 100 [one_step_sign two_step_sign dynamic_buffer run_one_step run_two_step run_dynamic].

(** [leaves]: nothing is used or freed that is not held, nothing is freed twice.
    When the program ends well, all that is left is the EVP_PKEY_CTX with which
    OpenSSL made the key; with PSA nothing is left. *)
Theorem C67_one_step : forall c cr junk kg ks alg ops payload_size size,
  (let x := run_one_step c cr junk (make_ossl_key_pair kg) alg ops payload_size size in
   exists left, leaves x left /\ at_most left /\
   forall s, snd x = Ret s -> x_code s = TCose T_SUCCESS -> left = [XKeyCtx]) /\
  (let x := run_one_step c cr junk (make_psa_ecdsa_key_pair ks) alg ops payload_size size in
   exists left, leaves x left /\ at_most left /\
   forall s, snd x = Ret s -> x_code s = TCose T_SUCCESS -> left = []).
Proof. exact (fun c cr junk kg ks alg ops ps ss => conj (one_step_leaves _ _ _ _ _ _ _ _ _ (ossl_fair kg) (or_introl eq_refl)) (one_step_leaves _ _ _ _ _ _ _ _ _ (psa_fair ks) (or_intror eq_refl))). Qed.
Print Assumptions C67_one_step.

(** Here the program may also end with success and have printed nothing, C62. *)
Theorem C67_two_step : forall c cr junk kg ks alg ops size,
  (let x := run_two_step c cr junk (make_ossl_key_pair kg) alg ops size in
   exists left, leaves x left /\ at_most left /\
   forall s, snd x = Ret s -> x_payload s <> None -> left = [XKeyCtx]) /\
  (let x := run_two_step c cr junk (make_psa_ecdsa_key_pair ks) alg ops size in
   exists left, leaves x left /\ at_most left /\
   forall s, snd x = Ret s -> x_payload s <> None -> left = []).
Proof. exact (fun c cr junk kg ks alg ops ss => conj (two_step_leaves _ _ _ _ _ _ _ _ (ossl_fair kg) (or_introl eq_refl)) (two_step_leaves _ _ _ _ _ _ _ _ (psa_fair ks) (or_intror eq_refl))). Qed.
Print Assumptions C67_two_step.

Theorem C67_dynamic : forall c cr junk malloc kg alg payload,
  let x := run_dynamic c cr junk malloc (make_ossl_key_pair kg) alg payload in
  exists left, leaves x left /\ at_most left /\
  forall s, snd x = Ret s -> x_code s = TCose T_SUCCESS -> left = [XKeyCtx].
Proof. exact (fun c cr junk malloc kg alg pl => dynamic_leaves _ _ _ _ _ _ _ _ (ossl_fair kg) (or_introl eq_refl)). Qed.
Print Assumptions C67_dynamic.

(** The key is as good as any: the programs give the result of C62's programs
    run with the key that was made. *)
Theorem C67_same_results : forall c cr junk malloc make alg ops payload_size size payload err key k,
  snd (make alg) = Ret (err, k) -> (err = T_SUCCESS -> k = Some key) ->
  snd (run_one_step c cr junk make alg ops payload_size size) = snd (one_step_sign c cr junk alg (err, key) ops payload_size size) /\
  snd (run_two_step c cr junk make alg ops size) = snd (two_step_sign c cr junk alg (err, key) ops size) /\
  snd (run_dynamic c cr junk malloc make alg payload) = snd (dynamic_buffer c cr junk malloc alg (err, key) payload).
Proof.
  exact (fun c cr junk malloc make alg ops ps ss pl err key k E K =>
    let m := ex_intro _ k (conj E K) in
    conj (one_step_same _ _ _ _ _ _ _ _ _ _ m) (conj (two_step_same _ _ _ _ _ _ _ _ _ m) (dynamic_same _ _ _ _ _ _ _ _ _ m))).
Qed.
Print Assumptions C67_same_results.

(** Whole programs, as written, with libraries that work. *)
Theorem C67_openssl : forall c lib H junk kg h,
  openssl_works lib H -> ossl_can_hash lib -> h <> 0 -> generates kg (KEc 256) h -> coordinate_length (ev_bits lib h) = 32 ->
  ossl_can_sign lib (-7) h -> key_pair lib (-7) h h ->
  let shown := Ret {| x_code := TCose T_SUCCESS; x_payload := Some (UBuf being_payload) |} in
  snd (run_one_step c (openssl c lib) junk (make_ossl_key_pair kg) ES256 being_payload_ops 300 300) = shown /\
  snd (run_two_step c (openssl c lib) junk (make_ossl_key_pair kg) ES256 being_payload_ops 300) = shown.
Proof.
  intros c lib H junk kg h W CH NZ G CL CS KP. destruct (ossl_made kg ES256 _ h eq_refl G) as (k & E & K).
  destruct (C67_same_results c (openssl c lib) junk (fun _ _ => true) _ ES256 being_payload_ops 300 300 [] _ _ _ E K) as (A & B & _).
  destruct (C62_openssl c lib H junk {| k_lib := 1; k_handle := h |} W CH (conj eq_refl NZ) CL CS KP) as [(l1 & P) (l2 & Q)].
  exact (conj (eq_trans A (f_equal snd P)) (eq_trans B (f_equal snd Q))).
Qed.
Print Assumptions C67_openssl.
Theorem C67_openssl_dynamic : forall c lib H junk malloc kg h,
  openssl_works lib H -> ossl_can_hash lib -> h <> 0 -> generates kg KEd25519 h -> dis_eddsa c = false -> ev_size lib h < 2 ^ 32 ->
  ossl_can_sign lib (-8) h -> key_pair lib (-8) h h -> (forall k size, malloc k size = true) ->
  snd (run_dynamic c (openssl c lib) junk malloc (make_ossl_key_pair kg) EDDSA plain_payload) =
  Ret {| x_code := TCose T_SUCCESS; x_payload := Some (UBuf plain_payload) |}.
Proof.
  intros c lib H junk malloc kg h W CH NZ G DE SZ CS KP MA. destruct (ossl_made kg EDDSA _ h eq_refl G) as (k & E & K).
  destruct (C67_same_results c (openssl c lib) junk malloc _ EDDSA [] 0 0 plain_payload _ _ _ E K) as (_ & _ & A).
  destruct (C62_openssl_dynamic c lib H junk malloc {| k_lib := 1; k_handle := h |} W CH (conj eq_refl NZ) DE SZ CS KP MA) as (l1 & P).
  exact (eq_trans A (f_equal snd P)).
Qed.
Print Assumptions C67_openssl_dynamic.
Theorem C67_psa : forall c lib H junk ks h,
  psa_hash_library lib H -> psa_within_room lib -> psa_can_hash lib -> imports ks (PEcdsa SHA_256) h ->
  psa_can_sign lib (-7) h 64 -> psa_key_pair lib h h ->
  let shown := Ret {| x_code := TCose T_SUCCESS; x_payload := Some (UBuf being_payload) |} in
  snd (run_one_step c (psa_crypto c lib) junk (make_psa_ecdsa_key_pair ks) ES256 being_payload_ops 300 300) = shown /\
  snd (run_two_step c (psa_crypto c lib) junk (make_psa_ecdsa_key_pair ks) ES256 being_payload_ops 300) = shown.
Proof.
  intros c lib H junk ks h W RO CH G CS KP. destruct (psa_made ks h G) as (k & E & K).
  destruct (C67_same_results c (psa_crypto c lib) junk (fun _ _ => true) _ ES256 being_payload_ops 300 300 [] _ _ _ E K) as (A & B & _).
  destruct (C62_psa c lib H junk {| k_lib := 2; k_handle := h |} W RO CH CS KP) as [(l1 & P) (l2 & Q)].
  exact (conj (eq_trans A (f_equal snd P)) (eq_trans B (f_equal snd Q))).
Qed.
Print Assumptions C67_psa.

(** Everything is not given back: with OpenSSL not even when all goes well, with
    PSA not when signing fails. *)
Definition demo_keygen : keygen :=
  {| kg_ctx := fun _ => true; kg_init := fun _ => 1%Z; kg_curve := fun _ => 1%Z; kg_new := true; kg_gen := fun _ => (1%Z, 7); kg_frees := true |}.
Definition demo_keystore : keystore := {| ks_init := 0%Z; ks_import := fun _ => (0%Z, 7) |}.

Theorem C67_released_refuted :
  ~ (forall c cr junk kg alg ops payload_size size s left,
     let x := run_one_step c cr junk (make_ossl_key_pair kg) alg ops payload_size size in
     snd x = Ret s -> x_code s = TCose T_SUCCESS -> leaves x left -> left = []) /\
  ~ (forall c cr junk ks alg ops payload_size size left,
     leaves (run_one_step c cr junk (make_psa_ecdsa_key_pair ks) alg ops payload_size size) left -> left = []).
Proof.
  split; intro F.
  - specialize (F cfg_full toy (UNull 9) demo_keygen ES256 being_payload_ops 300 300 {| x_code := TCose T_SUCCESS; x_payload := Some (UBuf being_payload) |} [XKeyCtx]).
    cbv zeta in F. assert (X : [XKeyCtx] = []) by (apply F; vm_compute; reflexivity). discriminate X.
  - specialize (F cfg_full toy (UNull 9) demo_keystore ES256 being_payload_ops 300 20 [XKey]).
    assert (X : [XKey] = []) by (apply F; vm_compute; reflexivity). discriminate X.
Qed.
Print Assumptions C67_released_refuted.

(** The libraries of the demonstrations, and what is left by which failure. *)
Definition outcome_of (x : X shown) : option (code * option (list xobj)) :=
  match snd x with Ret s => Some (x_code s, held [] (fst x)) | UB _ => None end.
Example C67_case :
  generates demo_keygen (KEc 256) 7 /\ generates demo_keygen KEd25519 7 /\ imports demo_keystore (PEcdsa SHA_256) 7 /\
  outcome_of (run_one_step cfg_full (openssl cfg_full demo_ossl) (UNull 9) (make_ossl_key_pair demo_keygen) ES256 being_payload_ops 300 300)
    = Some (TCose T_SUCCESS, Some [XKeyCtx]) /\
  outcome_of (run_two_step cfg_full (psa_crypto cfg_full demo_psa) (UNull 9) (make_psa_ecdsa_key_pair demo_keystore) ES256 being_payload_ops 300)
    = Some (TCose T_SUCCESS, Some []) /\
  fst (run_dynamic cfg_full toy (UNull 9) (fun _ _ => true) (make_ossl_key_pair demo_keygen) EDDSA plain_payload) =
    [XTake XKeyCtx; XUse XKeyCtx; XTake XKey; XUse XKeyCtx; XUse XKey; XTake (XBuf 0); XTake (XBuf 1); XUse XKey; XUse (XBuf 0); XUse (XBuf 1);
     XGive (XBuf 1); XUse (XBuf 0); XTake (XBuf 2); XUse XKey; XUse (XBuf 0); XUse (XBuf 2); XGive (XBuf 0); XGive (XBuf 2); XGive XKey] /\
  map (fun k => outcome_of (run_dynamic cfg_full toy (UNull 9) (fun j _ => negb (Nat.eqb j k)) (make_ossl_key_pair demo_keygen) EDDSA plain_payload)) [0; 1; 2]%nat
    = [Some (TCose ERR_INSUFFICIENT_MEMORY, Some [XBuf 1; XKey; XKeyCtx]); Some (TCose ERR_INSUFFICIENT_MEMORY, Some [XBuf 0; XKey; XKeyCtx]);
       Some (TCose ERR_INSUFFICIENT_MEMORY, Some [XBuf 0; XKey; XKeyCtx])] /\
  outcome_of (run_two_step cfg_full toy (UNull 9) (make_psa_ecdsa_key_pair demo_keystore) EDDSA being_payload_ops 300)
    = Some (TCose ERR_UNSUPPORTED_SIGNING_ALG, Some []).
Proof. vm_compute. repeat split. Qed.
