(** A small concrete adapter, used only to exhibit cases that meet the
    hypotheses of the theorems. It is not part of the code under study. *)
From Verif Require Import Base Const QEnc Crypto Sign Verify Spec SignSpec.
From Coq Require Import Lia.
Open Scope N_scope. Open Scope list_scope.

Definition zeros (n : nat) : bytes := repeat x00 n.

(** Digest: the last 32 bytes, padded; signatures: the digest padded to 64. *)
Definition toy_digest (b : bytes) : bytes := firstn 32 (rev b ++ zeros 32).
Definition toy_sig (b : bytes) : bytes := firstn 64 (toy_digest b ++ zeros 64).

Definition toy : crypto := {|
  cr_hctx := bytes;
  cr_hash_start := fun _ => (T_SUCCESS, []);
  cr_hash_update := fun h u => Ret (h ++ u_data u);
  cr_hash_finish := fun h n => if n <? 32 then Ret (ERR_HASH_BUFFER_SIZE, []) else Ret (T_SUCCESS, toy_digest h);
  cr_sig_size := fun _ _ => (T_SUCCESS, 64);
  cr_sign := fun _ _ d n => if n <? 64 then Ret (ERR_SIG_BUFFER_SIZE, []) else Ret (T_SUCCESS, toy_sig d);
  cr_verify := fun _ _ _ d s => Ret (if bytes_eqb s (toy_sig d) then T_SUCCESS else ERR_SIG_VERIFY);
  cr_sign_eddsa := fun _ t n => if n <? 64 then Ret (ERR_SIG_BUFFER_SIZE, []) else Ret (T_SUCCESS, toy_sig t);
  cr_verify_eddsa := fun _ _ t s => Ret (if bytes_eqb s (toy_sig t) then T_SUCCESS else ERR_SIG_VERIFY);
  cr_is_supported := fun _ => true |}.

Lemma blen_firstn_pad (n : nat) (b : bytes) : blen (firstn n (b ++ zeros n)) = N.of_nat n.
Proof. unfold blen, zeros. rewrite firstn_length, app_length, repeat_length. lia. Qed.

Lemma toy_sig_len b : blen (toy_sig b) = 64.
Proof. exact (blen_firstn_pad 64 _). Qed.

Lemma toy_sizes q : sizes_agree toy q.
Proof.
  split; intros d room sig H; cbn [cr_sign cr_sign_eddsa toy] in H; destruct (room <? 64); try discriminate;
    injection H as <-; cbn [cr_sig_size toy]; now rewrite toy_sig_len.
Qed.

Lemma toy_room q : room_irrelevant toy q.
Proof.
  split; intros d room sig room' H L; cbn [cr_sign cr_sign_eddsa toy] in *; destruct (room <? 64); try discriminate;
    injection H as <-; rewrite toy_sig_len in L; (destruct (N.ltb_spec room' 64); [lia|reflexivity]).
Qed.

Lemma toy_updates l : forall h : bytes, exists h' : bytes, update_all toy h l = Ret (h' : cr_hctx toy).
Proof. induction l as [|u l IH]; intro h; [now exists h|]. apply IH. Qed.

Lemma toy_reliable c parts : hash_reliable c toy parts.
Proof.
  intros halg h l _ _. destruct (toy_updates l h) as [h' H]. exists h', (toy_digest h').
  split; [exact H|]. cbn [cr_hash_finish toy]. unfold max_hash_size. destruct (_ || _); [reflexivity|]. destruct (_ || _); reflexivity.
Qed.

Lemma toy_digest_nonempty halg data d : digest_of toy halg data d -> d <> [].
Proof.
  intros (h & h' & n & _ & _ & H) ->. cbn [cr_hash_finish toy] in H. destruct (n <? 32); [discriminate|].
  injection H as H. apply (f_equal blen) in H. unfold toy_digest in H. rewrite (blen_firstn_pad 32) in H.
  discriminate.
Qed.

(** A signer for ES256 with kid and content type, one for EdDSA. *)
Definition toy_key : tkey := {| k_lib := 1; k_handle := 7 |}.
Definition toy_aux : wbuf := {| wb_null := false; wb_len := 200 |}.

Definition toy_signer (alg : Z) (flags : N) : sctx :=
  set_content_type_uint
    (sign_set_auxiliary_buffer
       (set_signing_key (sign_init flags alg) toy_key (UBuf [x41; x42])) toy_aux) 42.

Definition toy_request (alg : Z) (flags : N) : request :=
  {| q_alg := alg; q_flags := flags; q_key := toy_key; q_kid := [x41; x42]; q_ct_uint := Some 42;
     q_ct_text := None; q_aux := toy_aux |}.

Lemma toy_configured alg flags : configured (toy_request alg flags) (toy_signer alg flags).
Proof. repeat split. now left. Qed.

Definition toy_payload : bytes := [x01; x02; x03].
Definition toy_aad : bytes := [x0a; x0b].
Definition out_buf (n : N) : wbuf := {| wb_null := false; wb_len := n |}.

(** ** Facts about the toy adapter needed for verification *)

Lemma toy_fed (h : cr_hctx toy) data h' : fed toy h data h' -> (h' : bytes) = (h : bytes) ++ data.
Proof.
  induction 1 as [h|h u b h1 data h2 Hu Up _ IH]; [now rewrite app_nil_r|].
  cbn [cr_hash_update toy] in Up. injection Up as <-. rewrite IH.
  assert (E : u_data u = b) by (destruct Hu as [->|[-> ->]]; reflexivity). rewrite E. symmetry. apply app_assoc.
Qed.

Lemma toy_hash_is : hash_is toy (fun _ => toy_digest).
Proof.
  intros halg data d (h & h' & n & S & F & Fi). cbn in S. injection S as <-. apply toy_fed in F.
  cbn [cr_hash_finish toy] in Fi. destruct (n <? 32); [discriminate|]. injection Fi as <-. rewrite F. reflexivity.
Qed.

Lemma toy_digest_len data : length (toy_digest data) = 32%nat.
Proof. pose proof (blen_firstn_pad 32 (rev data)) as H. unfold blen, toy_digest in *. lia. Qed.

Definition toy_verifier (flags : N) : vctx :=
  verify_set_auxiliary_buffer (set_verification_key (verify_init flags) toy_key) toy_aux.

(** A message with the given parts, correctly signed. *)
Definition toy_built (tags : list N) (prot : bytes) (unprot : list (cbor * cbor)) (extra : list cbor) : bytes :=
  encode (fold_left (fun c t => CTag t c) tags
    (CArray ([CBytes prot; CMap unprot; CBytes toy_payload;
              CBytes (toy_sig (toy_digest (sig_structure prot toy_aad toy_payload)))] ++ extra))).

(** The error code and the outputs of verifying a message. *)
Definition toy_verify (flags : N) (msg : bytes) : M vres :=
  verify_internal cfg_full toy NULL_UBUF (toy_verifier flags) msg (UBuf toy_aad) (Some NULL_UBUF) true false.
Definition toy_result (x : M vres) : option (terr * option ubufc * option Params.params) :=
  match x with (_, Ret w) => Some (w_err w, w_payload w, w_params w) | _ => None end.

(** Protected header of ES256 and of an algorithm with extra parameters. *)
Definition es256_prot : bytes := protected_header (-7).
Definition prot_of (m : list (cbor * cbor)) : bytes := encode (CMap m).
