(** What a user sees of the example programs. *)
From Verif Require Import Base Const Examples ExampleRun RunSpec.
Open Scope N_scope. Open Scope list_scope.

(** The value of a hexadecimal digit 0-9, a-f. *)
Definition hex_value (b : byte) : option N :=
  let n := Byte.to_N b in
  if (48 <=? n) && (n <=? 57) then Some (n - 48) else if (97 <=? n) && (n <=? 102) then Some (n - 87) else None.

(** Reading back what is shown: all that is not a digit is skipped, two digits are a byte. *)
Definition hex_values (s : bytes) : list N := flat_map (fun b => match hex_value b with Some n => [n] | None => [] end) s.
Fixpoint in_pairs (l : list N) : option bytes :=
  match l with
  | [] => Some []
  | h :: d :: r => option_map (cons (byte_of_N (16 * h + d))) (in_pairs r)
  | _ => None
  end.
Definition read_back (s : bytes) : option bytes := in_pairs (hex_values s).

(** A line: four spaces, then bytes, each two digits and a space. *)
Inductive dump_line : bytes -> bytes -> Prop :=
| line_start : dump_line [] [x20; x20; x20; x20]
| line_more b s z h d : dump_line b s -> hex_value h = Some (Byte.to_N z / 16) -> hex_value d = Some (Byte.to_N z mod 16) ->
    dump_line (b ++ [z]) (s ++ [h; d; x20]).

(** Lines of eight bytes, and a last one with fewer. *)
Inductive dump : bytes -> bytes -> Prop :=
| dump_last b s : (length b < 8)%nat -> dump_line b s -> dump b (s ++ [x0a])
| dump_more b s b' s' : length b = 8%nat -> dump_line b s -> dump b' s' -> dump (b ++ b') (s ++ [x0a] ++ s').

(** Examples that end, one after the other: their logs and what they return. *)
Inductive one_by_one : list (X shown) -> list xevent -> list code -> Prop :=
| obo_nil : one_by_one [] [] []
| obo_cons l s r l' cs : one_by_one r l' cs -> one_by_one ((l, Ret s) :: r) (l ++ l') (x_code s :: cs).
