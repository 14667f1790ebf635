(** Well-formedness of CBOR as RFC 8949 defines it (section 3 and appendix C), without
    the limits of any decoder: strings of indefinite length, any labels, any nesting. *)
From Verif Require Import Base Spec.
Open Scope N_scope. Open Scope list_scope.

(** The chunks of a string of indefinite length: strings of the same type. *)
Inductive chunks (mt : N) : bytes -> Prop :=
| ch_nil : chunks mt []
| ch_cons s h b : is_head mt (blen s) h -> chunks mt b -> chunks mt (h ++ s ++ b).

Inductive well_formed : bytes -> Prop :=
| wf_int mt n h : mt = 0 \/ mt = 1 -> is_head mt n h -> well_formed h
| wf_string mt s h : mt = 2 \/ mt = 3 -> is_head mt (blen s) h -> well_formed (h ++ s)
| wf_chunks mt b : mt = 2 \/ mt = 3 -> chunks mt b -> well_formed ([initial mt 31] ++ b ++ [xff])
| wf_array n h b : is_head 4 n h -> well_formed_seq n b -> well_formed (h ++ b)
| wf_array_indef n b : well_formed_seq n b -> well_formed ([initial 4 31] ++ b ++ [xff])
| wf_map n h b : is_head 5 n h -> well_formed_seq (2 * n) b -> well_formed (h ++ b)
| wf_map_indef n b : well_formed_seq (2 * n) b -> well_formed ([initial 5 31] ++ b ++ [xff])
| wf_tag n h b : is_head 6 n h -> well_formed b -> well_formed (h ++ b)
| wf_simple n : n < 24 -> well_formed [initial 7 n]
| wf_simple8 n : 32 <= n < 256 -> well_formed [initial 7 24; byte_of_N n]
| wf_float ai b : (ai = 25 /\ length b = 2%nat) \/ (ai = 26 /\ length b = 4%nat) \/ (ai = 27 /\ length b = 8%nat) ->
    well_formed (initial 7 ai :: b)
(** That many items one after the other. *)
with well_formed_seq : N -> bytes -> Prop :=
| wfs_nil : well_formed_seq 0 []
| wfs_cons n w b : well_formed w -> well_formed_seq n b -> well_formed_seq (N.succ n) (w ++ b).

Scheme well_formed_ind' := Induction for well_formed Sort Prop
  with well_formed_seq_ind' := Induction for well_formed_seq Sort Prop.
Combined Scheme well_formed_mutind from well_formed_ind', well_formed_seq_ind'.

(** Bytes that do not begin with a well-formed item. *)
Definition malformed (b : bytes) : Prop := forall w r, b = w ++ r -> ~ well_formed w.
