(** Specification vocabulary for signing: what the caller asked for, what a
    digest and a signature over given bytes are. Independent of the signing
    code; constants are written out from the public headers and RFC 8152. *)
From Verif Require Import Base Const Crypto Sign Spec.
Open Scope N_scope. Open Scope list_scope.

(** The caller's buffer [u] holds the bytes [b]; NULL with length 0 holds none. *)
Definition holds (u : ubufc) (b : bytes) : Prop := u = UBuf b \/ (u = UNull 0 /\ b = []).

(** ** The request *)

(** What an application sets on a signing context. *)
Record request := {
  q_alg : Z;                  (* COSE algorithm *)
  q_flags : N;                (* option flags *)
  q_key : tkey;
  q_kid : bytes;              (* empty: none *)
  q_ct_uint : option N;       (* integer content type *)
  q_ct_text : option bytes;   (* text content type *)
  q_aux : wbuf }.             (* auxiliary buffer; {NULL, SIZE_MAX} if not set *)

(** The context [me] carries the request, whatever was done with it before
    ([c_prot] and [c_aux_size] are left over from earlier use). *)
Definition configured (q : request) (me : sctx) : Prop :=
  c_alg me = q_alg q /\ c_flags me = q_flags q /\ c_key me = q_key q /\
  holds (c_kid me) (q_kid q) /\
  match q_ct_uint q with Some n => n < 65536 /\ c_ct_uint me = n | None => c_ct_uint me = 65536 end /\
  c_ct_tstr me = q_ct_text q /\ c_aux me = q_aux q.

Definition wants_short_circuit (flags : N) : bool := N.testbit flags 0.
Definition wants_tag (flags : N) : bool := negb (N.testbit flags 1).

(** The reserved kid of short-circuit messages, README / t_cose_common.h. *)
Definition reserved_kid : bytes :=
  [xef; x95; x4b; x4b; xd9; xbd; xf6; x70; xd0; x33; x60; x82; xf5; xef; x15; x2a;
   xf8; xf3; x5b; x6a; x6c; x00; xef; xa6; xa9; xa7; x1f; x49; x51; x7e; x18; xc6].

(** The kid that goes into the message. *)
Definition requested_kid (q : request) : bytes :=
  match q_kid q with
  | [] => if wants_short_circuit (q_flags q) then reserved_kid else []
  | kid => kid
  end.

(** The content type that goes into the message; builds without content types
    ignore it. *)
Definition requested_ct (c : cfg) (q : request) : ctype :=
  if dis_content_type c then CtNone
  else match q_ct_text q, q_ct_uint q with
       | Some s, _ => CtText s
       | None, Some n => CtUInt n
       | None, None => CtNone
       end.

(** The message the request asks for, given the signature. *)
Definition requested_message (c : cfg) (q : request) (payload : option bytes) (sig : bytes) : bytes :=
  cose_sign1 (wants_tag (q_flags q)) (protected_header (q_alg q))
             (unprotected_header (requested_kid q) (requested_ct c q)) payload sig.

(** The bytes the request asks to be signed. *)
Definition requested_tbs (q : request) (aad payload : bytes) : bytes :=
  sig_structure (protected_header (q_alg q)) aad payload.

(** ** Algorithms *)

(** Signing algorithms of a build. *)
Definition enabled (c : cfg) (alg : Z) : Prop :=
  alg = (-7)%Z \/ (alg = (-35)%Z /\ dis_es384 c = false) \/ (alg = (-36)%Z /\ dis_es512 c = false) \/
  (alg = (-37)%Z /\ dis_ps256 c = false) \/ (alg = (-38)%Z /\ dis_ps384 c = false) \/
  (alg = (-39)%Z /\ dis_ps512 c = false) \/ (alg = (-8)%Z /\ dis_eddsa c = false).

(** Hash that goes with a signing algorithm (RFC 8152 tables 5, RFC 8230):
    SHA-256 is -16, SHA-384 -43, SHA-512 -44. *)
Definition hash_for (alg : Z) : option Z :=
  match alg with
  | -7 | -37 => Some (-16)
  | -35 | -38 => Some (-43)
  | -36 | -39 => Some (-44)
  | _ => None
  end%Z.

(** ** Digests and signatures made by an adapter *)

(** Feeding [data] piece by piece turns hash context [h] into [h']. *)
Inductive fed (cr : crypto) : cr_hctx cr -> bytes -> cr_hctx cr -> Prop :=
| fed_nil h : fed cr h [] h
| fed_cons h u b h1 data h2 :
    holds u b -> cr_hash_update cr h u = Ret h1 -> fed cr h1 data h2 ->
    fed cr h (b ++ data) h2.

(** [d] is a digest of [data] computed by the adapter with algorithm [halg]. *)
Definition digest_of (cr : crypto) (halg : Z) (data d : bytes) : Prop :=
  exists h h' size, cr_hash_start cr halg = (T_SUCCESS, h) /\ fed cr h data h' /\
                    cr_hash_finish cr h' size = Ret (T_SUCCESS, d).

(** The adapter's hash is the mathematical function [H]. *)
Definition hash_is (cr : crypto) (H : Z -> bytes -> bytes) : Prop :=
  forall halg data d, digest_of cr halg data d -> d = H halg data.

(** [hash] repeated and cut to length [n] (for a non-empty hash). *)
Definition repeat_to (hash : bytes) (n : N) : bytes :=
  firstn (N.to_nat n) (concat (repeat hash (N.to_nat n))).

(** Signature size of an ECDSA algorithm; no other algorithm has a
    short-circuit signature. *)
Definition ecdsa_sig_size (alg : Z) : N :=
  if (alg =? -7)%Z then 64 else if (alg =? -35)%Z then 96 else if (alg =? -36)%Z then 132 else 0.

(** [sig] is the signature the adapter makes over [tbs] for request [q], given
    [room] bytes. *)
Definition signature_of (cr : crypto) (q : request) (tbs : bytes) (room : N) (sig : bytes) : Prop :=
  if wants_short_circuit (q_flags q) then
    exists halg d, hash_for (q_alg q) = Some halg /\ digest_of cr halg tbs d /\
                   sig = repeat_to d (ecdsa_sig_size (q_alg q))
  else if (q_alg q =? -8)%Z then
    cr_sign_eddsa cr (q_key q) tbs room = Ret (T_SUCCESS, sig)
  else
    exists halg d, hash_for (q_alg q) = Some halg /\ digest_of cr halg tbs d /\
                   cr_sign cr (q_alg q) (q_key q) d room = Ret (T_SUCCESS, sig).

(** ** Contracts of adapters used by some properties *)

Fixpoint update_all (cr : crypto) (h : cr_hctx cr) (l : list ubufc) : out (cr_hctx cr) :=
  match l with
  | [] => Ret h
  | u :: r => match cr_hash_update cr h u with Ret h => update_all cr h r | UB w => UB w end
  end.

(** Pieces no longer than the longest of [parts], or 32 bytes. The length that
    comes with a NULL piece counts. *)
Definition longest (parts : list bytes) : N := fold_right (fun b n => N.max (blen b) n) 32 parts.
Definition pieces_within (parts : list bytes) (l : list ubufc) : Prop :=
  Forall (fun u => u_len u <= longest parts) l.

(** Once started, hashing such pieces never fails (NULL pieces included). *)
Definition hash_reliable (c : cfg) (cr : crypto) (parts : list bytes) : Prop :=
  forall halg h l, cr_hash_start cr halg = (T_SUCCESS, h) -> pieces_within parts l ->
    exists h' d, update_all cr h l = Ret h' /\
                 cr_hash_finish cr h' (max_hash_size c) = Ret (T_SUCCESS, d).

(** The reported signature size is the size of every signature made. *)
Definition sizes_agree (cr : crypto) (q : request) : Prop :=
  (forall d room sig, cr_sign cr (q_alg q) (q_key q) d room = Ret (T_SUCCESS, sig) ->
     cr_sig_size cr (q_alg q) (q_key q) = (T_SUCCESS, blen sig)) /\
  (forall t room sig, cr_sign_eddsa cr (q_key q) t room = Ret (T_SUCCESS, sig) ->
     cr_sig_size cr (-8) (q_key q) = (T_SUCCESS, blen sig)).

(** A signature that fits is made whatever the room, the same one. *)
Definition room_irrelevant (cr : crypto) (q : request) : Prop :=
  (forall d room sig room', cr_sign cr (q_alg q) (q_key q) d room = Ret (T_SUCCESS, sig) ->
     blen sig <= room' -> cr_sign cr (q_alg q) (q_key q) d room' = Ret (T_SUCCESS, sig)) /\
  (forall t room sig room', cr_sign_eddsa cr (q_key q) t room = Ret (T_SUCCESS, sig) ->
     blen sig <= room' -> cr_sign_eddsa cr (q_key q) t room' = Ret (T_SUCCESS, sig)).

(** Feeding NULL with length 0 is feeding nothing. *)
Definition null_is_empty (cr : crypto) : Prop :=
  forall h, cr_hash_update cr h (UNull 0) = cr_hash_update cr h (UBuf []).

(** ** Calls into the adapter *)

(** A call that signing [tbs] with [alg] and [key] may make. *)
Definition event_ok (cr : crypto) (alg : Z) (key : tkey) (tbs : bytes) (e : event) : Prop :=
  match e with
  | EvHashStart halg => hash_for alg = Some halg
  | EvHashUpdate _ | EvHashFinish => True
  | EvSigSize a k => a = alg /\ k = key
  | EvSign a k h => a = alg /\ k = key /\
                    exists halg, hash_for alg = Some halg /\ digest_of cr halg tbs h
  | EvSignEddsa k t => alg = (-8)%Z /\ k = key /\ t = tbs
  | EvVerify _ _ _ _ _ | EvVerifyEddsa _ _ _ _ => False
  end.
