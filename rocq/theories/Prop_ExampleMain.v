(** C81: what the example programs show, and how they end. *)
From Verif Require Import Base Const QEnc Crypto Params Sign Verify OpenSSL Psa Spec SignSpec Toy Examples ExampleRun ExampleMain.
From Coq Require Strings.String.
Import Strings.String.StringSyntax.
From Verif Require Import DemoLib RunTests RunSpec ExampleMainSpec ExampleMainFacts Prop_ExampleRun.
Open Scope N_scope. Open Scope list_scope.

Local Strategy 100 [run_examples run_one_step run_two_step run_dynamic].

(** The number of bytes and all of them are shown, in lines of eight, and can be read
    back. *)
Theorem C81_shows_bytes : forall label buf b, holds buf b ->
  exists n s, print_useful_buf label buf = Ret (match label with Some l => l | None => [] end ++ margin ++ n ++ bytes_nl ++ s) /\
    natural n (Z.of_nat (length b)) /\ dump b s /\ read_back s = Some b.
Proof. exact print_ok. Qed.
Print Assumptions C81_shows_bytes.

(** Printing has no undefined behaviour exactly with a buffer that holds something, or NULL
    with length 0. *)
Theorem C81_print_safe : forall label buf, (exists t, print_useful_buf label buf = Ret t) <-> exists b, holds buf b.
Proof. exact print_exact. Qed.
Print Assumptions C81_print_safe.

(** What is shown at the end of an example that went well is the payload that was signed. *)
Theorem C81_payload_shown : forall c cr junk malloc alg made ops payload_size size log x label p,
  (size < 2 ^ 64 /\ one_step_sign c cr junk alg made ops payload_size size = (log, Ret x) /\
   enc_finish (eops_run (enc_init {| wb_null := false; wb_len := payload_size |}) ops) = (QE_SUCCESS, Some (UBuf p))) \/
  dynamic_buffer c cr junk malloc alg made p = (log, Ret x) ->
  x_code x = TCose T_SUCCESS ->
  exists u n s, x_payload x = Some u /\ print_useful_buf (Some label) u = Ret (label ++ margin ++ n ++ bytes_nl ++ s) /\
    natural n (Z.of_nat (length p)) /\ read_back s = Some p.
Proof. exact payload_shown. Qed.
Print Assumptions C81_payload_shown.

(** All examples are run, also after one that failed, and the status is 0. *)
Theorem C81_all_run : forall l log cs, one_by_one l log cs -> run_examples l = (log, Ret 0%Z).
Proof. exact main_runs. Qed.
Print Assumptions C81_all_run.

(** The status of the programs, if they end. *)
Theorem C81_status_partial : forall c cr junk malloc kg ks log r,
  main_ossl c cr junk malloc kg = (log, Ret r) \/ main_psa c cr junk ks = (log, Ret r) -> r = 0%Z.
Proof. intros c cr junk malloc kg ks log r [H|H].
  - exact (proj1 (main_zero (examples_ossl c cr junk malloc kg) log r H)).
  - exact (proj1 (main_zero (examples_psa c cr junk ks) log r H)).
Qed.
Print Assumptions C81_status_partial.

(** Seventeen bytes, and none. *)
Definition seventeen : bytes := map byte_of_N [0; 1; 2; 3; 4; 5; 6; 7; 159; 250; 173; 255; 16; 32; 64; 128; 10].
Definition lines (l : list bytes) : bytes := flat_map (fun s => s ++ [x0a]) l.
Definition no_keys : keygen :=
  {| kg_ctx := fun _ => false; kg_init := fun _ => 1%Z; kg_curve := fun _ => 1%Z; kg_new := true; kg_gen := fun _ => (1%Z, 7); kg_frees := true |}.
Definition no_store : keystore := {| ks_init := (-1)%Z; ks_import := fun _ => (0%Z, 7) |}.
Example C81_case :
  holds (UBuf seventeen) seventeen /\
  print_useful_buf (Some [x41; x0a]) (UBuf seventeen) =
    Ret (lines [str "A"; str "    17 bytes"; str "    00 01 02 03 04 05 06 07 "; str "    9f fa ad ff 10 20 40 80 "; str "    0a "]) /\
  print_useful_buf None (UNull 0) = Ret (lines [str "    0 bytes"; str "    "]) /\
  print_useful_buf None (UNull 3) = UB NullDeref /\
  snd (main_ossl cfg_full (openssl cfg_full demo_ossl) (UNull 9) (fun _ _ => true) demo_keygen) = Ret 0%Z /\
  length (fst (main_psa cfg_full (psa_crypto cfg_full demo_psa) (UNull 9) demo_keystore)) = 8%nat.
Proof. vm_compute. repeat split. now left. Qed.

(** Refuted: a program in which an example failed ends with another status than 0. Here
    no key can be made, so that all of them fail. *)
Theorem C81_status_refuted :
  ~ (forall c cr junk malloc kg log r s, main_ossl c cr junk malloc kg = (log, Ret r) ->
     snd (run_one_step c cr junk (make_ossl_key_pair kg) ES256 being_payload_ops 300 300) = Ret s -> x_code s <> TCose T_SUCCESS -> r <> 0%Z) /\
  ~ (forall c cr junk ks log r s, main_psa c cr junk ks = (log, Ret r) ->
     snd (run_one_step c cr junk (make_psa_ecdsa_key_pair ks) ES256 being_payload_ops 300 300) = Ret s -> x_code s <> TCose T_SUCCESS -> r <> 0%Z).
Proof.
  split; intro F.
  - assert (E : main_ossl cfg_full toy (UNull 9) (fun _ _ => true) no_keys = ([], Ret 0%Z)) by (vm_compute; reflexivity).
    specialize (F cfg_full toy (UNull 9) (fun _ _ => true) no_keys [] 0%Z {| x_code := TCose ERR_INSUFFICIENT_MEMORY; x_payload := None |} E).
    apply F; [vm_compute; reflexivity|discriminate|reflexivity].
  - assert (E : main_psa cfg_full toy (UNull 9) no_store = ([], Ret 0%Z)) by (vm_compute; reflexivity).
    specialize (F cfg_full toy (UNull 9) no_store [] 0%Z {| x_code := TCose ERR_FAIL; x_payload := None |} E).
    apply F; [vm_compute; reflexivity|discriminate|reflexivity].
Qed.
Print Assumptions C81_status_refuted.
