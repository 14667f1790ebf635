(** Adapters that do not look at key ids, and verifications that come out alike. *)
From Verif Require Import Base Const Crypto Params Verify VerifySpec.
Open Scope N_scope. Open Scope list_scope.

Definition ignores_kid (cr : crypto) : Prop :=
  (forall alg k kid kid2 hash sig, cr_verify cr alg k kid hash sig = cr_verify cr alg k kid2 hash sig) /\
  (forall k kid kid2 tbs sig, cr_verify_eddsa cr k kid tbs sig = cr_verify_eddsa cr k kid2 tbs sig).

(** The same calls of the adapter, but for the key ids. *)
Definition same_call (e e2 : event) : Prop :=
  e = e2 \/
  (exists alg k kid kid2 hash sig, e = EvVerify alg k kid hash sig /\ e2 = EvVerify alg k kid2 hash sig) \/
  (exists k kid kid2 tbs sig, e = EvVerifyEddsa k kid tbs sig /\ e2 = EvVerifyEddsa k kid2 tbs sig).
Definition same_calls : list event -> list event -> Prop := Forall2 same_call.

(** The same calls, result code, context and payload. *)
Definition same_outcome (x y : M vres) : Prop :=
  same_calls (fst x) (fst y) /\
  match snd x, snd y with
  | Ret w, Ret w2 => w_err w2 = w_err w /\ w_ctx w2 = w_ctx w /\ w_payload w2 = w_payload w
  | UB u, UB u2 => u = u2
  | _, _ => False
  end.

(** The parameters but for the key ids. *)
Definition without_kid (m : params_map) : params_map := filter (fun kv => negb (has_int 4 (fst kv))) m.

Definition with_kid (u : ubufc) (p : params) : params :=
  {| p_alg := p_alg p; p_kid := u; p_iv := p_iv p; p_partial_iv := p_partial_iv p;
     p_ct_tstr := p_ct_tstr p; p_ct_uint := p_ct_uint p |}.
