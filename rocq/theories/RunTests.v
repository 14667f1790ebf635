(** The test program: test/run_tests.c 22-269 and main.c 18-54. Left out: the
    tests that return strings (compiled only with STRING_RETURNING_TESTS, whose
    table is empty), PrintSizesTCose, and what the tests themselves do: a test
    is its name, the value it returns and whether it is enabled. *)
From Verif Require Import Base Const.
From Coq Require Strings.String.
Import Strings.String.StringSyntax.
Open Scope Z_scope. Open Scope list_scope.

(** A C string literal, without the terminating NUL. *)
Definition str (s : String.string) : bytes := String.list_byte_of_string s.
Arguments str s%string_scope.

(** UsefulOutBuf of QCBOR: what was appended, and whether something did not fit. *)
Record obuf := { ob_size : N; ob_data : bytes; ob_err : bool }.
Definition ob_init (size : N) : obuf := {| ob_size := size; ob_data := []; ob_err := false |}.
Definition ob_append (o : obuf) (b : byte) : obuf :=
  if ob_err o then o
  else if (blen (ob_data o) <? ob_size o)%N
  then {| ob_size := ob_size o; ob_data := ob_data o ++ [b]; ob_err := false |}
  else {| ob_size := ob_size o; ob_data := ob_data o; ob_err := true |}.

(** nMax, 119 *)
Definition NUM_MAX : Z := 1000000000.

(** The loop 133-140; [None]: it does not end. *)
Fixpoint num_loop (fuel : nat) (n num : Z) (did_output : bool) (o : obuf) : option (bool * obuf) :=
  match fuel with
  | O => None
  | S f =>
    if n >? 0 then
      let digit := Z.quot num n in
      if negb (digit =? 0) || did_output
      then num_loop f (Z.quot n 10) (num - digit * n) true (ob_append o (byte_of_N (Z.to_N (48 + digit))))
      else num_loop f (Z.quot n 10) num did_output o
    else Some (did_output, o)
  end.

(** The C string in a buffer. *)
Fixpoint c_string (b : bytes) : bytes :=
  match b with [] => [] | x00 :: _ => [] | c :: r => c :: c_string r end.

(** NumToString, 117-147. [None]: undefined behaviour, the overflow of -nNum at 126. *)
Definition num_to_string (num : Z) (size : N) : option bytes :=
  let o := ob_init size in
  if (num =? -2147483648) then None
  else
    let (num, o) := if num <? 0 then (- num, ob_append o x2d) else (num, o) in
    if num >? NUM_MAX - 1 then Some (str "XXX")
    else match num_loop 11 NUM_MAX num false o with
         | None => None
         | Some (did_output, o) =>
           let o := if did_output then o else ob_append o x30 in
           let o := ob_append o x00 in
           Some (if ob_err o then [] else c_string (ob_data o))
         end.

(** test_entry, 33-37; [t_result]: what test_fun returns, an int_fast32_t, which
    may be wider than 32 bits. *)
Record test_entry := { t_name : bytes; t_result : Z; t_enabled : bool }.

(** What can be observed of a run: a test is called, pfOutput is called. *)
Inductive tevent := Called (name : bytes) | Wrote (s : bytes) (newline : bool).

(** strcmp() returning 0 *)
Definition same_name := bytes_eqb.

(** Is the test run, 215-234. [names]: the argv-style list. *)
Definition is_selected (names : list bytes) (t : test_entry) : bool :=
  match names with
  | [] => t_enabled t
  | _ => existsb (same_name (t_name t)) names
  end.

(** Calls of pfOutput; none if it is NULL. *)
Definition say (output : bool) (l : list tevent) : list tevent := if output then l else [].

(** One turn of the loop, 236-253, for a test that is run; [None]: undefined
    behaviour. The result is cast to int32_t at 236. *)
Definition run_one (output : bool) (t : test_entry) : option (list tevent * bool) :=
  let result := to_int32 (t_result t) in
  if negb (result =? 0) then
    if output then
      match num_to_string result 12 with
      | None => None
      | Some s => Some ([Called (t_name t); Wrote (t_name t) false; Wrote (str " FAILED (returned ") false;
                         Wrote s false; Wrote (str ")") true], true)
      end
    else Some ([Called (t_name t)], true)
  else Some (Called (t_name t) :: say output [Wrote (t_name t) false; Wrote (str " PASSED") true], false).

Fixpoint run_loop (output : bool) (names : list bytes) (ts : list test_entry) (run failed : Z)
  : option (list tevent * Z * Z) :=
  match ts with
  | [] => Some ([], run, failed)
  | t :: r =>
    if is_selected names t then
      match run_one output t with
      | None => None
      | Some (ev, bad) =>
        match run_loop output names r (run + 1) (if bad then failed + 1 else failed) with
        | None => None
        | Some (ev', run, failed) => Some (ev ++ ev', run, failed)
        end
      end
    else run_loop output names r run failed
  end.

(** RunTestsTCose, 153-269: what is observed, *pNumTestsRun, the value returned. *)
Definition run_tests (output : bool) (names : list bytes) (ts : list test_entry) : option (list tevent * Z * Z) :=
  match run_loop output names ts 0 0 with
  | None => None
  | Some (ev, run, failed) =>
    if output then
      match num_to_string run 12, num_to_string failed 12 with
      | Some a, Some b =>
        Some (ev ++ [Wrote (str "SUMMARY: ") false; Wrote a false; Wrote (str " tests run; ") false;
                     Wrote b false; Wrote (str " tests failed") true], run, failed)
      | _, _ => None
      end
    else Some (ev, run, failed)
  end.

(** main, main.c 31-54: the value returned. [leaks]: what
    check_for_key_pair_leaks() returns. *)
Definition main_program (argv1 : list bytes) (ts : list test_entry) (leaks : Z) : option (list tevent * Z) :=
  match run_tests true argv1 ts with
  | None => None
  | Some (ev, _, failed) => Some (ev, if negb (failed =? 0) then failed else leaks)
  end.

(** s_tests, 51-99: the names. [sv]: T_COSE_DISABLE_SIGN_VERIFY_TESTS is not
    defined; [hf]: T_COSE_ENABLE_HASH_FAIL_TEST is. All are enabled. *)
Definition test_names (c : cfg) (sv hf : bool) : list bytes :=
  [str "sign1_structure_decode_test"] ++
  (if sv then
     [str "sign_verify_basic_test"; str "sign_verify_make_cwt_test"; str "sign_verify_sig_fail_test";
      str "sign_verify_get_size_test"; str "sign_verify_known_good_test"; str "sign_verify_unsupported_test";
      str "sign_verify_bad_auxiliary_buffer"]
   else []) ++
  (if dis_short_circuit c then []
   else
     [str "bad_parameters_test"; str "crit_parameters_test"] ++
     (if dis_content_type c then [] else [str "content_type_test"]) ++
     [str "all_header_parameters_test"; str "cose_example_test";
      str "short_circuit_signing_error_conditions_test"; str "short_circuit_self_test";
      str "short_circuit_self_detached_content_test"; str "short_circuit_decode_only_test";
      str "short_circuit_make_cwt_test"; str "short_circuit_verify_fail_test"; str "tags_test"; str "get_size_test";
      str "indef_array_and_map_test"] ++
     (if hf then [str "short_circuit_hash_fail_test"] else [])).

(** The table, given what the tests return. *)
Definition s_tests (c : cfg) (sv hf : bool) (result : bytes -> Z) : list test_entry :=
  map (fun n => {| t_name := n; t_result := result n; t_enabled := true |}) (test_names c sv hf).
