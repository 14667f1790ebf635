(** C83: the maker of test messages is a replica of t_cose_sign1_sign; C84: what
    it makes is signed over what it holds. *)
From Verif Require Import Base Const QEnc Crypto Sign MakeMessage Spec SignSpec MakeMessageSpec Toy MakeMessageFacts MakeMessageFacts2.
Open Scope N_scope. Open Scope list_scope.

Theorem C83_same_message : forall c cr me payload buf log m,
  replicated c me -> wb_null buf = false ->
  test_message_sign1_sign c cr me 0 payload buf = (log, Ret (T_SUCCESS, m)) <->
  exists me', sign c cr me payload buf = (log, Ret (T_SUCCESS, me', m)).
Proof. exact maker_same. Qed.
Print Assumptions C83_same_message.

Definition made (r : M (terr * option ubufc)) := match snd r with Ret (T_SUCCESS, Some u) => Some (fst r, u) | _ => None end.
Definition signed (r : M (terr * sctx * option ubufc)) := match snd r with Ret (T_SUCCESS, _, Some u) => Some (fst r, u) | _ => None end.
Definition room (n : N) : wbuf := {| wb_null := false; wb_len := n |}.
Definition with_key : sctx := set_signing_key (sign_init 0 ES256) toy_key (UBuf [x31; x31]).
Definition text_of (me : sctx) : sctx :=
  {| c_alg := c_alg me; c_key := c_key me; c_flags := c_flags me; c_kid := c_kid me;
     c_ct_uint := c_ct_uint me; c_ct_tstr := Some [x61]; c_prot := c_prot me; c_aux := c_aux me; c_aux_size := c_aux_size me |}.

(** Buffers that fit exactly, by one byte not, and not at all: 80 bytes are made
    with the key, 144 with the short circuit and ES384. *)
Example C83_case :
  let pl := UBuf [x70; x6c] in
  let sc := sign_init OPT_SHORT_CIRCUIT_SIG (-35) in
  let size (x : option (list event * ubufc)) := option_map (fun p => (blen (fst p), u_len (snd p))) x in
  replicated cfg_full with_key /\ replicated cfg_full sc /\
  map (fun n => made (test_message_sign1_sign cfg_full toy with_key 0 pl (room n))) [300; 80; 79; 14; 0] =
  map (fun n => signed (sign cfg_full toy with_key pl (room n))) [300; 80; 79; 14; 0] /\
  map (fun n => size (made (test_message_sign1_sign cfg_full toy with_key 0 pl (room n)))) [300; 80; 79; 14; 0] =
  [Some (10, 80); Some (10, 80); None; None; None] /\
  map (fun n => made (test_message_sign1_sign cfg_full toy sc 0 pl (room n))) [300; 144; 143; 48] =
  map (fun n => signed (sign cfg_full toy sc pl (room n))) [300; 144; 143; 48] /\
  map (fun n => size (made (test_message_sign1_sign cfg_full toy sc 0 pl (room n)))) [300; 144; 143; 48] =
  [Some (9, 144); Some (9, 144); None; None].
Proof.
  cbv zeta. split; [|split; [|vm_compute; repeat split]];
    (split; [right; split; reflexivity|split; [|discriminate]]); intro H; [discriminate H|].
  split; [reflexivity|right; left; reflexivity].
Qed.

(** A key without kid; hashes that need all of the largest buffer. *)
Definition long_hashes : crypto := {|
  cr_hctx := bytes;
  cr_hash_start := cr_hash_start toy;
  cr_hash_update := cr_hash_update toy;
  cr_hash_finish := fun h n => if n <? 64 then Ret (ERR_HASH_BUFFER_SIZE, []) else Ret (T_SUCCESS, toy_digest h ++ toy_digest h);
  cr_sig_size := cr_sig_size toy; cr_sign := cr_sign toy; cr_verify := cr_verify toy;
  cr_sign_eddsa := cr_sign_eddsa toy; cr_verify_eddsa := cr_verify_eddsa toy; cr_is_supported := cr_is_supported toy |}.
Example C83_more_case :
  let pl := UBuf [x70; x6c] in
  let no_kid := set_signing_key (sign_init 0 ES256) toy_key NULL_UBUF in
  let runs := [(toy, no_kid); (long_hashes, with_key)] in
  replicated cfg_full no_kid /\
  map (fun p => made (test_message_sign1_sign cfg_full (fst p) (snd p) 0 pl (room 300))) runs =
  map (fun p => signed (sign cfg_full (fst p) (snd p) pl (room 300))) runs /\
  map (fun p => option_map (fun x => u_len (snd x)) (made (test_message_sign1_sign cfg_full (fst p) (snd p) 0 pl (room 300)))) runs =
  [Some 76; Some 80].
Proof.
  cbv zeta. split; [|vm_compute; repeat split].
  split; [right; split; reflexivity|split; [|discriminate]]. intro H. discriminate H.
Qed.

(** Each condition on the context is needed: with the short circuit the maker
    replaces the kid of the context, and refuses RSA; it leaves out the content
    type; it refuses EdDSA. *)
Theorem C83_replica_refuted :
  exists c cr pl buf, wb_null buf = false /\
  (exists me, without_content_type c me /\ c_alg me = ES256 /\ exists u u', u <> u' /\
     option_map snd (made (test_message_sign1_sign c cr me 0 pl buf)) = Some u /\ option_map snd (signed (sign c cr me pl buf)) = Some u') /\
  (exists me, without_content_type c me /\ c_kid me = NULL_UBUF /\ made (test_message_sign1_sign c cr me 0 pl buf) = None /\
     signed (sign c cr me pl buf) <> None /\ c_alg me = PS256) /\
  (exists me, short_circuit_default me /\ c_alg me = ES256 /\ exists u u', u <> u' /\
     option_map snd (made (test_message_sign1_sign c cr me 0 pl buf)) = Some u /\ option_map snd (signed (sign c cr me pl buf)) = Some u') /\
  (exists me, without_content_type c me /\ short_circuit_default me /\ made (test_message_sign1_sign c cr me 0 pl buf) = None /\
     signed (sign c cr me pl buf) <> None /\ c_alg me = EDDSA).
Proof.
  exists cfg_full, toy, (UBuf [x70]), (room 300). split; [reflexivity|]. split; [|split; [|split]].
  - exists (set_signing_key (sign_init OPT_SHORT_CIRCUIT_SIG ES256) toy_key (UBuf [x31])).
    split; [right; split; reflexivity|]. split; [reflexivity|].
    do 2 eexists. split; [|split; vm_compute; reflexivity]. intro H. discriminate H.
  - exists (sign_init OPT_SHORT_CIRCUIT_SIG PS256). split; [right; split; reflexivity|]. split; [reflexivity|].
    split; [vm_compute; reflexivity|]. split; [vm_compute; discriminate|reflexivity].
  - exists (text_of with_key). split; [intro H; discriminate H|]. split; [reflexivity|].
    do 2 eexists. split; [|split; vm_compute; reflexivity]. intro H. discriminate H.
  - exists (sign_set_auxiliary_buffer (set_signing_key (sign_init 0 EDDSA) toy_key NULL_UBUF) (room 200)).
    split; [right; split; reflexivity|]. split; [intro H; discriminate H|].
    split; [vm_compute; reflexivity|]. split; [vm_compute; discriminate|reflexivity].
Qed.
Print Assumptions C83_replica_refuted.

(** Whatever the options, a message made is signed over what it holds: the
    protected parameters in it, no additional data, and the payload in it. *)
Theorem C84_signs_what_it_holds : forall c cr me o pl buf log u,
  wb_null buf = false ->
  test_message_sign1_sign c cr me o (UBuf pl) buf = (log, Ret (T_SUCCESS, u)) ->
  exists prot sig m halg d,
    u = Some (UBuf m) /\ message_of me o prot pl sig m /\
    hashed log = sig_structure prot [] pl /\
    hash_for (c_alg me) = Some halg /\ digest_of cr halg (sig_structure prot [] pl) d /\
    made_from cr me d sig /\
    (forall a k x, In (EvSign a k x) log -> a = c_alg me /\ k = c_key me /\ x = d).
Proof. exact maker_signed. Qed.
Print Assumptions C84_signs_what_it_holds.

(** What is hashed, how the message starts and what its payload and signature
    are, for bad messages of several kinds: of indefinite length, without
    protected parameters, with empty ones, with an array for them. *)
Example C84_signs_what_it_holds_case :
  let pl := [x70; x6c] in
  let run me o := made (test_message_sign1_sign cfg_full toy me o (UBuf pl) (room 300)) in
  let os := [T_INDEFINITE_MAPS_ARRAYS; T_NO_PROTECTED_PARAMETERS; T_EMPTY_PROTECTED_PARAMETERS; T_BAD_PROTECTED] in
  map (fun o => option_map (fun p => hashed (fst p)) (run with_key o)) os =
  map (fun prot => Some (sig_structure prot [] pl)) [[xbf; x01; x26; xff]; []; []; [x81; x18; x2a]] /\
  map (fun o => option_map (fun p => firstn 7 (u_data (snd p))) (run with_key o)) os =
  [Some [xd2; x9f; x44; xbf; x01; x26; xff]; Some [xd2; x83; xa1; x04; x42; x31; x31];
   Some [xd2; x84; x40; xa1; x04; x42; x31]; Some [xd2; x84; x43; x81; x18; x2a; xa1]] /\
  map (fun o => option_map (fun p => let m := u_data (snd p) in
         firstn 5 (skipn (length m - 69 - (if has_flag o T_INDEFINITE_MAPS_ARRAYS then 1 else 0)) m)) (run with_key o)) os =
  repeat (Some [x42; x70; x6c; x58; x40]) 4 /\
  map (fun o => option_map (fun p => let m := u_data (snd p) in
         firstn 64 (skipn (length m - 64 - (if has_flag o T_INDEFINITE_MAPS_ARRAYS then 1 else 0)) m))
         (run (sign_init OPT_SHORT_CIRCUIT_SIG ES256) o)) os =
  map (fun o => option_map (fun p => flat_map (fun e => match e with EvSign _ _ d => d ++ d | _ => [] end) (fst p)) (run with_key o)) os /\
  map (fun o => option_map (fun p => firstn 4 (u_data (snd p))) (run with_key o))
    [T_UNPROTECTED_NOT_MAP; T_NO_UNPROTECTED_PARAMETERS; T_NO_PROTECTED_PARAMETERS + T_NO_UNPROTECTED_PARAMETERS; T_EXTRA_PARAMETER;
     T_UNCLOSED_PROTECTED; T_EMPTY_PROTECTED_PARAMETERS + T_NO_UNPROTECTED_PARAMETERS] =
  [Some [xd2; x84; x43; xa1]; Some [xd2; x83; x43; xa1]; Some [xd2; x82; x42; x70]; Some [xd2; x84; x43; xa1];
   Some [xd2; x84; x41; xa1]; Some [xd2; x83; x40; x42]].
Proof. vm_compute. repeat split. Qed.
