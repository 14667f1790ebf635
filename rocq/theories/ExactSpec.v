(** What is left of an algorithm identifier in an int32_t, and the tags a caller
    gets when one of them has the number 2^64-1. *)
From Verif Require Import Base Const Spec DecSpec VerifySpec.
Open Scope N_scope. Open Scope list_scope.

(** The number with the same low 32 bits in the range of int32_t. *)
Definition low32 (z : Z) : Z := ((z + 2 ^ 31) mod 2 ^ 32 - 2 ^ 31)%Z.

Fixpoint before_last_number (ts : list N) : list N :=
  match ts with [] => [] | t :: r => if t =? 2 ^ 64 - 1 then [] else t :: before_last_number r end.

(** All tags around the COSE tag as long as none but the innermost of all has
    the number 2^64-1. *)
Definition visible_tags (g : sign1) : list N :=
  match g_tags g with
  | t :: r => if t =? 18 then before_last_number r else t :: before_last_number r
  | [] => []
  end.
