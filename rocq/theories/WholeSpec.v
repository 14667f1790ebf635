(** One message read in two ways, and the outputs a caller may do without. *)
From Verif Require Import Base Const Crypto Params Verify.
Open Scope N_scope. Open Scope list_scope.

(** What a caller of a verification function sees of a refusal: an error and no
    call of the adapter. *)
Definition refused (x : M vres) : Prop :=
  forall log w, x = (log, Ret w) -> log = [] /\ w_err w <> T_SUCCESS /\ w_payload w = None /\ w_params w = None.

(** The caller passes a pointer for this output. *)
Definition asked {A} (o : option A) : bool := match o with Some _ => true | None => false end.

(** Two calls, with pointers for the payload ([payload]) and the parameters
    ([want]) or without: the same calls of the adapter, the same code and context;
    what is asked for is delivered if it is delivered to the other caller who
    asked, and what is not asked for is not. *)
Definition same_but_outputs (payload payload2 want want2 : bool) (x y : M vres) : Prop :=
  fst x = fst y /\
  match snd x, snd y with
  | Ret w, Ret w2 => w_err w = w_err w2 /\ w_ctx w = w_ctx w2 /\
      (payload = payload2 -> w_payload w = w_payload w2) /\ (want = want2 -> w_params w = w_params w2) /\
      (payload = false -> w_payload w = None) /\ (want = false -> w_params w = None)
  | UB u, UB u2 => u = u2
  | _, _ => False
  end.
