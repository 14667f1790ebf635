(** What a user of the test program relies on. *)
From Verif Require Import Base RunTests.
From Coq Require Strings.String.
Import Strings.String.StringSyntax.
Open Scope Z_scope. Open Scope list_scope.

Definition is_digit (b : byte) : Prop := (48 <= Byte.to_N b <= 57)%N.
Fixpoint value (acc : Z) (s : bytes) : Z :=
  match s with [] => acc | b :: r => value (acc * 10 + (Z.of_N (Byte.to_N b) - 48)) r end.

(** [s] is [n] in decimal, without leading zeros. *)
Definition natural (s : bytes) (n : Z) : Prop :=
  s <> [] /\ Forall is_digit s /\ value 0 s = n /\ (forall r, s = x30 :: r -> r = []).
Definition decimal (s : bytes) (n : Z) : Prop :=
  (0 <= n /\ natural s n) \/ (n < 0 /\ exists r, s = x2d :: r /\ natural r (- n)).

(** What is shown for a number: nothing is said about large ones but that they
    are large. *)
Definition shown_as (s : bytes) (n : Z) : Prop :=
  (-999999999 <= n <= 999999999 /\ decimal s n) \/ ((n < -999999999 \/ 999999999 < n) /\ s = str "XXX").

(** The tests to run: those named, and without names those enabled. *)
Definition to_run (names : list bytes) (t : test_entry) : Prop :=
  (names = [] /\ t_enabled t = true) \/ In (t_name t) names.

(** [l'] are the elements of [l] with [P], in their order. *)
Inductive chosen {A} (P : A -> Prop) : list A -> list A -> Prop :=
| chosen_nil : chosen P [] []
| chosen_yes a l l' : P a -> chosen P l l' -> chosen P (a :: l) (a :: l')
| chosen_no a l l' : ~ P a -> chosen P l l' -> chosen P (a :: l) l'.

(** A result that an int32_t holds and can negate. *)
Definition fits (t : test_entry) : Prop := -2147483648 < t_result t < 2147483648.
Definition fails (t : test_entry) : Prop := t_result t <> 0.

(** The tests called, in order, and the text written. *)
Fixpoint calls (ev : list tevent) : list bytes :=
  match ev with [] => [] | Called n :: r => n :: calls r | Wrote _ _ :: r => calls r end.
Fixpoint text (ev : list tevent) : bytes :=
  match ev with
  | [] => []
  | Called _ :: r => text r
  | Wrote s nl :: r => s ++ (if nl : bool then [x0a] else []) ++ text r
  end.

(** Nothing is written. *)
Definition silent (ev : list tevent) : Prop := forall s nl, ~ In (Wrote s nl) ev.

(** The line about a test. *)
Definition line_about (t : test_entry) (l : bytes) : Prop :=
  (t_result t = 0 /\ l = t_name t ++ str " PASSED" ++ [x0a]) \/
  (t_result t <> 0 /\ exists s, shown_as s (t_result t) /\ l = t_name t ++ str " FAILED (returned " ++ s ++ str ")" ++ [x0a]).
