(** Comparing option flags of verification, inc/t_cose/t_cose_common.h and
    t_cose_sign1_verify.h. *)
From Verif Require Import Base Const Sign Verify VerifySpec.
Open Scope N_scope.

(** The context with other options. *)
Definition with_options (me : vctx) (flags : N) : vctx :=
  {| v_key := v_key me; v_flags := flags; v_tags := v_tags me; v_aux := v_aux me; v_aux_size := v_aux_size me |}.

(** [f'] demands nothing that [f] does not, and allows all that [f] allows. *)
Definition no_stricter (f f' : N) : Prop :=
  (requires_kid f' = true -> requires_kid f = true) /\
  (requires_tag f' = true -> requires_tag f = true) /\
  (prohibits_tag f' = true -> prohibits_tag f = true) /\
  (allows_unknown_crit f = true -> allows_unknown_crit f' = true) /\
  (allows_short_circuit f = true -> allows_short_circuit f' = true) /\
  (decode_only f = true -> decode_only f' = true).

(** The same options: the six bits that are defined. *)
Definition same_options (f f' : N) : Prop := forall i, i < 6 -> N.testbit f i = N.testbit f' i.

(** The same outcome; contexts may differ in their options. *)
Definition same_outcome (w w' : vres) : Prop :=
  w_err w' = w_err w /\ w_payload w' = w_payload w /\ w_params w' = w_params w /\
  w_ctx w' = with_options (w_ctx w) (v_flags (w_ctx w')).

(** The options of signing, t_cose_sign1_sign.h and t_cose_common.h: two bits. *)
Definition sign_with_options (me : sctx) (flags : N) : sctx :=
  {| c_alg := c_alg me; c_key := c_key me; c_flags := flags; c_kid := c_kid me;
     c_ct_uint := c_ct_uint me; c_ct_tstr := c_ct_tstr me;
     c_prot := c_prot me; c_aux := c_aux me; c_aux_size := c_aux_size me |}.
Definition same_sign_options (f f' : N) : Prop := forall i, i < 2 -> N.testbit f i = N.testbit f' i.
