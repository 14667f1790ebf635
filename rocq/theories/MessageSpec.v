(** Messages compared with each other. *)
From Verif Require Import Base Const Crypto Spec DecSpec Params SignSpec VerifySpec.
Open Scope N_scope. Open Scope list_scope.

(** The same message but for the unprotected parameters. *)
Definition other_unprotected (g g2 : sign1) : Prop :=
  g_tags g2 = g_tags g /\ g_prot g2 = g_prot g /\ g_payload g2 = g_payload g /\ g_sig g2 = g_sig g.

(** The same message but for where the payload is. *)
Definition other_payload (g g2 : sign1) : Prop :=
  g_tags g2 = g_tags g /\ g_prot g2 = g_prot g /\ g_unprot g2 = g_unprot g /\ g_sig g2 = g_sig g.

(** The same message but for the tags. *)
Definition other_tags (g g2 : sign1) : Prop :=
  g_prot g2 = g_prot g /\ g_unprot g2 = g_unprot g /\ g_payload g2 = g_payload g /\ g_sig g2 = g_sig g.

(** The parameters t_cose processes (labels 1 to 6) are the same. *)
Definition same_understood (m m2 : params_map) : Prop :=
  forall z, In z [1; 2; 3; 4; 5; 6]%Z -> values z m2 = values z m.

(** No critical parameter among the unknown ones, unless these are allowed. *)
Definition nothing_critical (flags : N) (pm m : params_map) : Prop :=
  forall ci ct, crit_from (values 2 pm) ci ct -> crit_ok flags ci ct m.

(** The build without content types. *)
Definition drop_content_type (c : cfg) : cfg :=
  {| dis_es384 := dis_es384 c; dis_es512 := dis_es512 c; dis_ps256 := dis_ps256 c; dis_ps384 := dis_ps384 c;
     dis_ps512 := dis_ps512 c; dis_eddsa := dis_eddsa c; dis_short_circuit := dis_short_circuit c;
     dis_content_type := true |}.

(** Parameters without the content type. *)
Definition no_content_type (p : params) : params :=
  {| p_alg := p_alg p; p_kid := p_kid p; p_iv := p_iv p; p_partial_iv := p_partial_iv p;
     p_ct_tstr := UNull 0; p_ct_uint := 65536 |}.
