(** What the adapter answers to a call in the log of adapter calls. *)
From Verif Require Import Base Const Crypto.
Open Scope N_scope. Open Scope list_scope.

(** The adapter can answer [a] to the call [ev]. The log does not record hash
    contexts and sizes of buffers. Updating a hash and the size of a buffer have no
    error. *)
Definition answers (cr : crypto) (ev : event) (a : terr) : Prop :=
  match ev with
  | EvHashStart halg => exists h, cr_hash_start cr halg = (a, h)
  | EvHashUpdate _ => a = T_SUCCESS
  | EvHashFinish => exists h size d, cr_hash_finish cr h size = Ret (a, d)
  | EvSigSize alg k => exists n, cr_sig_size cr alg k = (a, n)
  | EvSign alg k hash => exists room sig, cr_sign cr alg k hash room = Ret (a, sig)
  | EvSignEddsa k tbs => exists room sig, cr_sign_eddsa cr k tbs room = Ret (a, sig)
  | EvVerify alg k kid hash sig => cr_verify cr alg k kid hash sig = Ret a
  | EvVerifyEddsa k kid tbs sig => cr_verify_eddsa cr k kid tbs sig = Ret a
  end.

(** Each call in [log] was answered; an answer other than success was the
    result [err] and ended the calls. *)
Definition errors_passed_on (cr : crypto) (log : list event) (err : terr) : Prop :=
  forall before ev later, log = before ++ ev :: later ->
  exists a, answers cr ev a /\ (a <> T_SUCCESS -> err = a /\ later = []).
