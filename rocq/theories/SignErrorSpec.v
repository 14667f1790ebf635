(** What the error codes of signing say about a request, after the descriptions
    in inc/t_cose/t_cose_common.h 250-414. *)
From Verif Require Import Base Const QEnc Crypto Sign Spec SignSpec PassSpec.
Open Scope N_scope. Open Scope list_scope.

(** Faults of the request that are found before anything is made. *)
Definition bad_algorithm (c : cfg) (q : request) : Prop := ~ enabled c (q_alg q).
Definition bad_short_circuit (c : cfg) (q : request) : Prop :=
  wants_short_circuit (q_flags q) = true /\ dis_short_circuit c = true.
Definition two_content_types (c : cfg) (q : request) : Prop :=
  dis_content_type c = false /\ q_ct_uint q <> None /\ q_ct_text q <> None.
(** EdDSA hashes nothing, so there is nothing to make a short-circuit signature of. *)
Definition no_hash (q : request) : Prop := wants_short_circuit (q_flags q) = true /\ q_alg q = (-8)%Z.
Definition plain_eddsa (q : request) : Prop := wants_short_circuit (q_flags q) = false /\ q_alg q = (-8)%Z.

(** Everything but the head of the array and the signature does not fit. The two
    bytes are the array head and the head of an empty signature. *)
Definition no_room (c : cfg) (q : request) (payload : option bytes) (buf : wbuf) : Prop :=
  wb_len buf + 2 < blen (requested_message c q payload []).

(** The size of the signature given when there is no place for one. *)
Definition size_reported (cr : crypto) (q : request) (n : N) : Prop :=
  if wants_short_circuit (q_flags q) then n = ecdsa_sig_size (q_alg q)
  else cr_sig_size cr (q_alg q) (q_key q) = (T_SUCCESS, n).

Definition some_bytes (n : N) : bytes := repeat x00 (N.to_nat n).

(** The message does not fit in the buffer: not even its beginning, or not with
    the signature that was made, or of the size reported when only the size is
    asked for or there is not one byte left. *)
Definition message_too_big (c : cfg) (cr : crypto) (q : request) (payload : option bytes) (tbs : bytes) (buf : wbuf) : Prop :=
  no_room c q payload buf \/
  (exists sig room, wb_null buf = false /\ signature_of cr q tbs room sig /\
     room + blen (requested_message c q payload []) = wb_len buf + 2 /\
     wb_len buf < blen (requested_message c q payload sig)) \/
  exists n, (wb_null buf = true \/ wb_len buf + 2 = blen (requested_message c q payload [])) /\ size_reported cr q n /\
     wb_len buf < blen (requested_message c q payload (some_bytes n)).

(** The error [e] is true of the request. *)
Definition signing_fault (c : cfg) (cr : crypto) (q : request) (payload : option bytes) (tbs : bytes) (buf : wbuf)
    (log : list event) (e : terr) : Prop :=
  match e with
  | ERR_UNSUPPORTED_SIGNING_ALG => log = [] /\ (bad_algorithm c q \/ no_hash q)
  | ERR_SHORT_CIRCUIT_SIG_DISABLED => log = [] /\ bad_short_circuit c q
  | ERR_DUPLICATE_PARAMETER => log = [] /\ two_content_types c q
  | ERR_AUXILIARY_BUFFER_SIZE => log = [] /\ plain_eddsa q /\ wb_len (q_aux q) < blen tbs
  | ERR_NEED_AUXILIARY_BUFFER => log = [] /\ plain_eddsa q /\ wb_null (q_aux q) = true /\ wb_null buf = false
  | ERR_SIG_BUFFER_SIZE =>
      wants_short_circuit (q_flags q) = true /\ wb_null buf = false /\
      wb_len buf < blen (requested_message c q payload (some_bytes (ecdsa_sig_size (q_alg q))))
  | ERR_TOO_SMALL => message_too_big c cr q payload tbs buf
  | _ => False
  end.

(** The last call of the adapter was answered with [e]. *)
Definition adapter_failed (cr : crypto) (log : list event) (e : terr) : Prop :=
  exists before ev, log = before ++ [ev] /\ answers cr ev e.

(** Signing answers [e] and asks the adapter nothing. *)
Definition refused (c : cfg) (cr : crypto) (me : sctx) (det : bool) (payload aad : ubufc) (buf : wbuf) (e : terr) : Prop :=
  exists me', sign_aad_internal c cr me det payload aad buf = ([], Ret (e, me', None)).

(** Errors of the last step of piecewise signing that are true of the request,
    whatever was encoded before it. *)
Definition step_fault (c : cfg) (q : request) (log : list event) (e : terr) : Prop :=
  match e with
  | ERR_UNSUPPORTED_SIGNING_ALG => log = [] /\ (bad_algorithm c q \/ no_hash q)
  | ERR_AUXILIARY_BUFFER_SIZE | ERR_NEED_AUXILIARY_BUFFER => log = [] /\ q_alg q = (-8)%Z
  | ERR_SIG_BUFFER_SIZE => wants_short_circuit (q_flags q) = true
  | _ => False
  end.
