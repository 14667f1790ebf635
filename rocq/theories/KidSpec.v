(** Finding the key by its id with two calls, as
    inc/t_cose/t_cose_sign1_verify.h 245-267 describes, the auxiliary buffer
    being allocated in between as 307-313 describes. *)
From Verif Require Import Base Const Crypto Params Verify.
Open Scope N_scope. Open Scope list_scope. Open Scope mon_scope.

(** [lookup]: the caller's keys. [None]: the caller has no key for the message. *)
Definition verify_by_kid (c : cfg) (cr : crypto) (junk : ubufc) (flags : N) (lookup : ubufc -> option tkey)
           (msg : bytes) (aad : ubufc) (payload : option ubufc) (detached : bool) : M (option vres) :=
  let! w := verify_internal c cr junk (verify_init (N.lor flags 8)) msg aad payload true detached in
  match w_err w, w_params w with
  | T_SUCCESS, Some p =>
      match lookup (p_kid p) with
      | None => mret None
      | Some k =>
          let me := verify_set_auxiliary_buffer (set_verification_key (verify_init flags) k)
                      {| wb_null := false; wb_len := verify_auxiliary_buffer_size c (w_ctx w) |} in
          let! w := verify_internal c cr junk me msg aad payload true detached in
          mret (Some w)
      end
  | _, _ => mret (Some w)
  end.
