(** C76: the test program. *)
From Verif Require Import Base Const RunTests RunSpec RunFacts.
From Coq Require Strings.String.
Import Strings.String.StringSyntax.
Open Scope Z_scope. Open Scope list_scope.

(** Numbers are shown in decimal, large ones as XXX. *)
Theorem C76_numbers : forall n, -2147483648 < n < 2147483648 ->
  exists s, num_to_string n 12 = Some s /\ shown_as s n.
Proof. exact num_to_string_spec. Qed.

(** The tests asked for are called, each once and in order; the value returned
    is the number of those that failed; the report has a line about each and the
    two numbers. *)
Theorem C76_run_partial : forall output names ts,
  (forall t, In t ts -> to_run names t -> fits t) -> Z.of_nat (length ts) < 2147483648 ->
  exists sel bad ev, chosen (to_run names) ts sel /\ chosen fails sel bad /\
    run_tests output names ts = Some (ev, Z.of_nat (length sel), Z.of_nat (length bad)) /\
    calls ev = map t_name sel /\
    (output = true -> exists lines a b, Forall2 line_about sel lines /\
       shown_as a (Z.of_nat (length sel)) /\ shown_as b (Z.of_nat (length bad)) /\
       text ev = concat lines ++ str "SUMMARY: " ++ a ++ str " tests run; " ++ b ++ str " tests failed" ++ [x0a]) /\
    (output = false -> silent ev).
Proof. exact run_tests_spec. Qed.

(** main() returns zero exactly if they all passed and no key was leaked. *)
Theorem C76_main_partial : forall argv1 ts leaks,
  (forall t, In t ts -> to_run argv1 t -> fits t) -> Z.of_nat (length ts) < 2147483648 ->
  exists ev r, main_program argv1 ts leaks = Some (ev, r) /\
    (r = 0 <-> leaks = 0 /\ forall t, In t ts -> to_run argv1 t -> t_result t = 0).
Proof. exact main_spec. Qed.

(** The tests of this repository: all are run, or the one named; names that are
    not in the table run nothing, which counts as success. The exit status holds
    the number of failures. *)
Theorem C76_table_partial : forall c sv hf result output names,
  (forall n, -2147483648 < result n < 2147483648) ->
  exists ev run failed, run_tests output names (s_tests c sv hf result) = Some (ev, run, failed) /\ 0 <= failed <= 23 /\
    (names = [] -> calls ev = test_names c sv hf) /\
    (forall n, names = [n] -> In n (test_names c sv hf) -> calls ev = [n]) /\
    ((forall n, In n names -> ~ In n (test_names c sv hf)) -> names <> [] -> calls ev = [] /\ run = 0 /\ failed = 0).
Proof. exact table_runs. Qed.

(** A test returns an int_fast32_t. If that is wider than 32 bits, a failure
    whose low 32 bits are zero counts as passed; and the smallest int32_t cannot
    be shown. *)
Theorem C76_wide_refuted : forall output names t, to_run names t -> t_result t mod 4294967296 = 0 ->
  exists ev, run_tests output names [t] = Some (ev, 1, 0).
Proof. exact wide_result. Qed.
Theorem C76_smallest_refuted : forall names t, to_run names t -> t_result t = -2147483648 ->
  run_tests true names [t] = None.
Proof. exact min_result. Qed.

Definition a_test (n : bytes) (r : Z) (e : bool) : test_entry := {| t_name := n; t_result := r; t_enabled := e |}.
Definition some_tests : list test_entry :=
  [a_test (str "one") 0 true; a_test (str "two") (-105) true; a_test (str "three") 2000000000 false].
Definition report (names : list bytes) : option (bytes * list bytes * Z * Z) :=
  match run_tests true names some_tests with Some (ev, run, failed) => Some (text ev, calls ev, run, failed) | None => None end.
Example C76_case :
  report [] = Some (str "one PASSED" ++ [x0a] ++ str "two FAILED (returned -105)" ++ [x0a] ++
                    str "SUMMARY: 2 tests run; 1 tests failed" ++ [x0a], [str "one"; str "two"], 2, 1) /\
  report [str "three"; str "one"] =
    Some (str "one PASSED" ++ [x0a] ++ str "three FAILED (returned XXX)" ++ [x0a] ++
          str "SUMMARY: 2 tests run; 1 tests failed" ++ [x0a], [str "one"; str "three"], 2, 1) /\
  report [str "on"] = report [str "four"] /\
  option_map (fun r => text (fst (fst r))) (run_tests true [] [a_test (str "one") (-999999999) true]) =
    Some (str "one FAILED (returned -999999999)" ++ [x0a] ++ str "SUMMARY: 1 tests run; 1 tests failed" ++ [x0a]) /\
  option_map (fun r => calls (fst (fst r))) (run_tests false [] (s_tests cfg_full true true (fun _ => 0))) =
    Some (test_names cfg_full true true) /\
  option_map (fun r => fst (fst r)) (run_tests false [] some_tests) = Some [Called (str "one"); Called (str "two")] /\
  report [str "four"] = Some (str "SUMMARY: 0 tests run; 0 tests failed" ++ [x0a], [], 0, 0) /\
  map (fun n => num_to_string n 12) [0; 7; 10; -999999999; 1000000000]
    = [Some (str "0"); Some (str "7"); Some (str "10"); Some (str "-999999999"); Some (str "XXX")] /\
  (forall t, In t some_tests -> fits t) /\
  option_map snd (main_program [] [a_test (str "one") 0 true] 0) = Some 0 /\
  option_map snd (main_program [] [a_test (str "one") 0 true] 3) = Some 3 /\
  option_map snd (main_program [] some_tests 0) = Some 1 /\
  option_map snd (main_program [] some_tests 5) = Some 1 /\
  option_map snd (main_program [str "one"] some_tests 0) = Some 0 /\
  option_map snd (main_program [str "one"] [a_test (str "one") 4294967296 true] 0) = Some 0.
Proof.
  do 8 (split; [vm_compute; reflexivity|]).
  split; [intros t [<-|[<-|[<-|[]]]]; unfold fits; cbn; split; reflexivity|]. vm_compute. repeat split.
Qed.

Print Assumptions C76_numbers.
Print Assumptions C76_run_partial.
Print Assumptions C76_main_partial.
Print Assumptions C76_table_partial.
Print Assumptions C76_wide_refuted.
Print Assumptions C76_smallest_refuted.
