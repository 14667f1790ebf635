(** C80: what is made when signing is encoded deterministically. *)
From Verif Require Import Base Const QEnc QDec Crypto Util ShortCircuit Params Verify Sign Spec DecSpec SignSpec Toy.
From Verif Require Import CanonSpec CanonFacts.
Open Scope N_scope. Open Scope list_scope.

(** No other byte string that is read as the data item made is shorter. *)
Theorem C80_shortest : forall c cr q me det payload aad pl ad n log me' m t b,
  configured q me -> holds payload pl -> holds aad ad -> n < 2 ^ 64 ->
  sign_aad_internal c cr me det payload aad {| wb_null := false; wb_len := n |} = (log, Ret (T_SUCCESS, me', Some (UBuf m))) ->
  reads 0 t m -> reads 0 t b -> (length m <= length b)%nat.
Proof. exact made_shortest. Qed.
Print Assumptions C80_shortest.

(** The message is the deterministic encoding of a data item exactly if it does not
    have both a key id and a content type. *)
Theorem C80_deterministic_partial : forall c cr q me det payload aad pl ad n log me' m,
  configured q me -> holds payload pl -> holds aad ad -> n < 2 ^ 64 ->
  sign_aad_internal c cr me det payload aad {| wb_null := false; wb_len := n |} = (log, Ret (T_SUCCESS, me', Some (UBuf m))) ->
  ((exists t, reads 0 t m /\ deterministic t m) <-> requested_kid q = [] \/ requested_ct c q = CtNone).
Proof. exact made_deterministic. Qed.
Print Assumptions C80_deterministic_partial.

(** The protected parameters and the bytes given to the adapter to be hashed or signed
    are, whether or not signing succeeds. *)
Theorem C80_signed_bytes : forall c cr q me det payload aad pl ad buf log r,
  configured q me -> holds payload pl -> holds aad ad -> wb_null buf = false ->
  (- 2 ^ 31 <= q_alg q < 2 ^ 31)%Z -> blen ad < 2 ^ 64 -> blen pl < 2 ^ 64 ->
  sign_aad_internal c cr me det payload aad buf = (log, r) ->
  exists prot, deterministic (CMap [(CInt 1, CInt (q_alg q))]) prot /\
    (In EvHashFinish log -> deterministic (sig_item prot ad pl) (hashed log)) /\
    (forall k s, In (EvSignEddsa k s) log -> deterministic (sig_item prot ad pl) s).
Proof. exact signed_deterministic. Qed.
Print Assumptions C80_signed_bytes.

(** A signer with a key id, one with a key id and a content type, others with content
    types that need heads of one, two and three bytes. *)
Definition kid_signer : sctx := sign_set_auxiliary_buffer (set_signing_key (sign_init 0 (-7)) toy_key (UBuf [x41; x42])) toy_aux.
Definition kid_request : request :=
  {| q_alg := -7; q_flags := 0; q_key := toy_key; q_kid := [x41; x42]; q_ct_uint := None; q_ct_text := None; q_aux := toy_aux |}.
Definition produced (me : sctx) : option bytes :=
  match sign_aad_internal cfg_full toy me false (UBuf toy_payload) (UBuf toy_aad) (out_buf 200) with
  | (_, Ret (T_SUCCESS, _, Some (UBuf m))) => Some m | _ => None end.
Definition ct_signer (n : N) : sctx := set_content_type_uint (set_signing_key (sign_init 0 (-7)) toy_key NULL_UBUF) n.
Definition to_hash (me : sctx) : bytes :=
  hashed (fst (sign_aad_internal cfg_full toy me false (UBuf toy_payload) (UBuf toy_aad) (out_buf 200))).
Definition starts (k : nat) (o : option bytes) : option bytes := option_map (firstn k) o.

(** With the tag in two bytes instead of one the message is accepted too. *)
Definition longer (m : bytes) : bytes := [xd8; x12] ++ tl m.

Example C80_case :
  configured kid_request kid_signer /\
  starts 14 (produced kid_signer) = Some [xd2; x84; x43; xa1; x01; x26; xa1; x04; x42; x41; x42; x43; x01; x02] /\
  starts 17 (produced (toy_signer (-7) 0)) =
    Some [xd2; x84; x43; xa1; x01; x26; xa2; x04; x42; x41; x42; x03; x18; x2a; x43; x01; x02] /\
  map (fun n => option_map (skipn 6) (starts 11 (produced (ct_signer n)))) [23; 24; 255; 256] =
    [Some [xa1; x03; x17; x43; x01]; Some [xa1; x03; x18; x18; x43]; Some [xa1; x03; x18; xff; x43]; Some [xa1; x03; x19; x01; x00]] /\
  to_hash kid_signer = [x84; x6a; x53; x69; x67; x6e; x61; x74; x75; x72; x65; x31; x43; xa1; x01; x26; x42; x0a; x0b; x43; x01; x02; x03] /\
  match produced kid_signer with
  | Some m => option_map (fun x => fst (fst x)) (toy_result (toy_verify 0 m)) = Some T_SUCCESS /\
              option_map (fun x => fst (fst x)) (toy_result (toy_verify 0 (longer m))) = Some T_SUCCESS /\
              length (longer m) = S (length m)
  | None => False end.
Proof. split; [repeat split; now left|]. vm_compute. repeat split. Qed.

(** Refuted with both: the key id (4) is written before the content type (3). *)
Theorem C80_deterministic_refuted : exists c cr q me pl ad n log me' m,
  configured q me /\
  sign_aad_internal c cr me false (UBuf pl) (UBuf ad) {| wb_null := false; wb_len := n |} = (log, Ret (T_SUCCESS, me', Some (UBuf m))) /\
  forall t, reads 0 t m -> ~ deterministic t m.
Proof.
  exists cfg_full, toy, (toy_request (-7) 0), (toy_signer (-7) 0), toy_payload, toy_aad, 200.
  destruct (sign_aad_internal cfg_full toy (toy_signer (-7) 0) false (UBuf toy_payload) (UBuf toy_aad) {| wb_null := false; wb_len := 200 |})
    as [log o] eqn:E.
  assert (X : exists me' m, o = Ret (T_SUCCESS, me', Some (UBuf m))).
  { apply (f_equal snd) in E. cbn [snd] in E. rewrite <- E. vm_compute. eauto. }
  destruct X as (me' & m & ->). exists log, me', m. split; [apply toy_configured|]. split; [reflexivity|]. intros t T D.
  pose proof (C80_deterministic_partial _ _ _ _ _ _ _ toy_payload toy_aad 200 _ _ _ (toy_configured _ _) (or_introl eq_refl) (or_introl eq_refl) eq_refl E) as (H & _).
  destruct (H (ex_intro _ t (conj T D))) as [Y|Y]; discriminate.
Qed.
Print Assumptions C80_deterministic_refuted.
