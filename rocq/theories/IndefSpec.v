(** Strings of indefinite length in a message. *)
From Verif Require Import Base Const Spec DecSpec VerifySpec ErrorSpec WideSpec ItemSpec BrokenSpec.
Open Scope N_scope. Open Scope list_scope.

(** A byte or text string of indefinite length, possibly with tags. *)
Inductive indef_string : bytes -> Prop :=
| ind_chunks mt b : mt = 2 \/ mt = 3 -> chunks mt b -> indef_string ([initial mt 31] ++ b ++ [xff])
| ind_tag n h b : is_head 6 n h -> indef_string b -> indef_string (h ++ b).

(** A well-formed item that is or has somewhere in it a string of indefinite length. *)
Inductive has_indef : bytes -> Prop :=
| hi_chunks mt b : mt = 2 \/ mt = 3 -> chunks mt b -> has_indef ([initial mt 31] ++ b ++ [xff])
| hi_array n m h b1 w b2 : is_head 4 (n + 1 + m) h -> well_formed_seq n b1 -> has_indef w -> well_formed_seq m b2 ->
    has_indef (h ++ b1 ++ w ++ b2)
| hi_array_indef n m b1 w b2 : well_formed_seq n b1 -> has_indef w -> well_formed_seq m b2 ->
    has_indef ([initial 4 31] ++ (b1 ++ w ++ b2) ++ [xff])
| hi_map k n m h b1 w b2 : is_head 5 k h -> 2 * k = n + 1 + m -> well_formed_seq n b1 -> has_indef w -> well_formed_seq m b2 ->
    has_indef (h ++ b1 ++ w ++ b2)
| hi_map_indef k n m b1 w b2 : 2 * k = n + 1 + m -> well_formed_seq n b1 -> has_indef w -> well_formed_seq m b2 ->
    has_indef ([initial 5 31] ++ (b1 ++ w ++ b2) ++ [xff])
| hi_tag n h b : is_head 6 n h -> has_indef b -> has_indef (h ++ b).

(** [msg'] is [msg] with other bytes from the element after [l] on. *)
Definition replaced (msg msg' : bytes) (l : list cbor) (rest' : bytes) : Prop :=
  exists ts cnt hb b rest, opens 4 ts cnt hb /\ reads_all 1 l b /\
    goes_on cnt (blen l) rest /\ msg = hb ++ b ++ rest /\ msg' = hb ++ b ++ rest'.

(** The code by the place of the element. *)
Definition place_code (detached : bool) (n : nat) : terr :=
  match n with
  | O | 1%nat => ERR_PARAMETER_CBOR
  | 2%nat => if detached then ERR_CBOR_FORMATTING else ERR_SIGN1_FORMAT
  | _ => ERR_SIGN1_FORMAT
  end.
