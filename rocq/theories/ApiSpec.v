(** Contexts as an application makes them: initialised, configured and used by
    calls of the API in any order, any number of times. *)
From Verif Require Import Base Const QEnc Crypto Params Sign Verify Spec SignSpec.
Open Scope N_scope. Open Scope list_scope.

(** ** Signing *)

(** What was done with a signing context: t_cose_sign1_set_signing_key,
    t_cose_sign1_sign_set_auxiliary_buffer, t_cose_sign1_set_content_type_uint,
    t_cose_sign1_set_content_type_tstr, or any signing call. *)
Inductive sop :=
| SetKey (k : tkey) (kid : bytes) | SetAux (b : wbuf) | SetContentUint (n : N) | SetContentText (s : bytes) | Signing.

(** [signing_history c flags alg h me]: [me] is what t_cose_sign1_sign_init(flags,
    alg) followed by the calls [h] leaves, in the build [c]; signing calls
    may have succeeded or failed, with any adapter. *)
Inductive signing_history (c : cfg) (flags : N) (alg : Z) : list sop -> sctx -> Prop :=
| sh_init : signing_history c flags alg [] (sign_init flags alg)
| sh_key h me k kid b : signing_history c flags alg h me -> holds kid b ->
    signing_history c flags alg (h ++ [SetKey k b]) (set_signing_key me k kid)
| sh_aux h me b : signing_history c flags alg h me -> signing_history c flags alg (h ++ [SetAux b]) (sign_set_auxiliary_buffer me b)
| sh_uint h me n : signing_history c flags alg h me -> n < 65536 ->
    signing_history c flags alg (h ++ [SetContentUint n]) (set_content_type_uint me n)
| sh_text h me s : signing_history c flags alg h me -> signing_history c flags alg (h ++ [SetContentText s]) (set_content_type_tstr me s)
| sh_sign h me cr det payload aad buf log err me' r : signing_history c flags alg h me ->
    sign_aad_internal c cr me det payload aad buf = (log, Ret (err, me', r)) -> signing_history c flags alg (h ++ [Signing]) me'
| sh_parameters h me det e err me' e' : signing_history c flags alg h me ->
    encode_parameters_internal c me det e = (err, me', e') -> signing_history c flags alg (h ++ [Signing]) me'
| sh_signature h me cr aad payload e log err me' e' : signing_history c flags alg h me ->
    encode_signature_aad_internal c cr me aad payload e = (log, Ret (err, me', e')) -> signing_history c flags alg (h ++ [Signing]) me'.

(** The request a history makes: for each setting the last value given. *)
Definition then_asked (q : request) (o : sop) : request :=
  match o with
  | SetKey k kid => {| q_alg := q_alg q; q_flags := q_flags q; q_key := k; q_kid := kid;
                       q_ct_uint := q_ct_uint q; q_ct_text := q_ct_text q; q_aux := q_aux q |}
  | SetAux b => {| q_alg := q_alg q; q_flags := q_flags q; q_key := q_key q; q_kid := q_kid q;
                   q_ct_uint := q_ct_uint q; q_ct_text := q_ct_text q; q_aux := b |}
  | SetContentUint n => {| q_alg := q_alg q; q_flags := q_flags q; q_key := q_key q; q_kid := q_kid q;
                           q_ct_uint := Some n; q_ct_text := q_ct_text q; q_aux := q_aux q |}
  | SetContentText s => {| q_alg := q_alg q; q_flags := q_flags q; q_key := q_key q; q_kid := q_kid q;
                           q_ct_uint := q_ct_uint q; q_ct_text := Some s; q_aux := q_aux q |}
  | Signing => q
  end.
Definition asked_for (flags : N) (alg : Z) (h : list sop) : request :=
  fold_left then_asked h
    {| q_alg := alg; q_flags := flags; q_key := {| k_lib := 0; k_handle := 0 |}; q_kid := []; q_ct_uint := None; q_ct_text := None;
       q_aux := {| wb_null := true; wb_len := 18446744073709551615 |} |}.

(** ** Verification *)

(** t_cose_sign1_set_verification_key, t_cose_sign1_verify_set_auxiliary_buffer,
    or any verification call (for detached content the header's function
    passes the address of its argument, which is not NULL). *)
Inductive vop := VSetKey (k : tkey) | VSetAux (b : wbuf) | Verifying.

Inductive verifying_history (c : cfg) (flags : N) : list vop -> vctx -> Prop :=
| vh_init : verifying_history c flags [] (verify_init flags)
| vh_key h me k : verifying_history c flags h me -> verifying_history c flags (h ++ [VSetKey k]) (set_verification_key me k)
| vh_aux h me b : verifying_history c flags h me -> verifying_history c flags (h ++ [VSetAux b]) (verify_set_auxiliary_buffer me b)
| vh_verify h me cr junk msg aad payload want dc log w : verifying_history c flags h me -> (dc = true -> payload <> None) ->
    verify_internal c cr junk me msg aad payload want dc = (log, Ret w) -> verifying_history c flags (h ++ [Verifying]) (w_ctx w).

(** Key and auxiliary buffer last set. *)
Definition verify_settings (h : list vop) : tkey * wbuf :=
  fold_left (fun s o => match o with VSetKey k => (k, snd s) | VSetAux b => (fst s, b) | Verifying => s end) h
    ({| k_lib := 0; k_handle := 0 |}, {| wb_null := true; wb_len := 18446744073709551615 |}).
