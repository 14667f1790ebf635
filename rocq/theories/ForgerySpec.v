(** Vocabulary for the statement that a message can only be verified if it was
    signed: what a signer has been asked to sign so far. *)
From Verif Require Import Base Const QEnc Crypto Sign Spec SignSpec PieceSpec.
Open Scope N_scope. Open Scope list_scope.

(** One use of a signing key: the request, AAD and payload, and the calls into
    the adapter it gave rise to. *)
Record signing := { sg_request : request; sg_aad : bytes; sg_payload : bytes; sg_log : list event }.

(** The log is that of some signing call for this request, AAD and payload,
    inline, detached or piece by piece, with any outcome. *)
Inductive signing_run (c : cfg) (cr : crypto) (s : signing) : Prop :=
| run_one_call me (det : bool) payload aad buf r :
    configured (sg_request s) me -> holds payload (sg_payload s) -> holds aad (sg_aad s) ->
    sign_aad_internal c cr me det payload aad buf = (sg_log s, r) -> signing_run c cr s
| run_piecewise me aad f buf r :
    configured (sg_request s) me -> holds aad (sg_aad s) -> sg_payload s = forest_bytes f ->
    (forest_depth f <= 13)%nat -> forest_fits f -> bcount f < 65534 ->
    blen (requested_message c (sg_request s) (Some (forest_bytes f)) []) <= MAX_OFFSET ->
    piecewise c cr me aad (forest_ops f) buf = (sg_log s, r) -> signing_run c cr s.

(** What the adapter was asked to sign with key [sk]: digests with an algorithm,
    and whole inputs with EdDSA. *)
Definition signed_digest (calls : list signing) (alg : Z) (sk : tkey) (d : bytes) : Prop :=
  exists s, In s calls /\ In (EvSign alg sk d) (sg_log s).
Definition signed_input (calls : list signing) (sk : tkey) (t : bytes) : Prop :=
  exists s, In s calls /\ In (EvSignEddsa sk t) (sg_log s).

Definition sg_tbs (s : signing) : bytes := requested_tbs (sg_request s) (sg_aad s) (sg_payload s).
Definition sizes_ok (s : signing) : Prop := blen (sg_aad s) < 2 ^ 64 /\ blen (sg_payload s) < 2 ^ 64.
