(** C19 and C23 for every message that verifies, also where the claims fail. *)
From Verif Require Import Base Const QEnc QDec Crypto Util ShortCircuit Params Verify Sign Spec SignSpec Toy.
From Verif Require Import DecSpec Parts VerifyTop VerifySpec ExactSpec ExactFacts.
Open Scope N_scope. Open Scope list_scope.

(** The algorithm used and reported is what is left of the identifier in 32
    bits. *)
Theorem C19_algorithm_used : forall c cr me msg aad payload want dc log w ad gv g pm v,
  call_ok me aad ad dc payload gv -> message msg g pm -> succeeds c cr me msg aad payload want dc log w ->
  In v (values 1 (all_params g pm)) ->
  exists z, int_value v = Some z /\
    (forall p, w_params w = Some p -> p_alg p = low32 z) /\
    (forall a k kid h s, In (EvVerify a k kid h s) log -> a = low32 z).
Proof. exact alg_used. Qed.
Print Assumptions C19_algorithm_used.

Example C19_used_case : map low32 [-7; 2147483647; -2147483648; -4294967303; -2147483649]%Z = [-7; 2147483647; -2147483648; -7; 2147483647]%Z /\
  map (fun n => option_map (fun r => match r with (e, _, p) => (e, option_map p_alg p) end)
                  (toy_result (toy_verify 8 (toy_built [] (prot_of [(CUInt 1, CNInt n)]) [] [])))) [6; 4294967302; 2147483648] =
  [Some (T_SUCCESS, Some (-7)%Z); Some (T_SUCCESS, Some (-7)%Z); Some (T_SUCCESS, Some 2147483647%Z)].
Proof. split; vm_compute; reflexivity. Qed.

(** Every tag read at an index other than 4. *)
Theorem C23_tags_exact : forall c cr junk me msg aad payload want dc log w ad gv g pm n,
  length (v_tags me) = 4%nat -> holds aad ad -> detached_arg dc payload gv -> message msg g pm ->
  verify_internal c cr junk me msg aad payload want dc = (log, Ret w) -> w_err w = T_SUCCESS -> n <> 4 ->
  get_nth_tag (w_ctx w) n = Ret (nth (N.to_nat n) (visible_tags g) (2 ^ 64 - 1)).
Proof. exact tags_exact. Qed.
Print Assumptions C23_tags_exact.

Example C23_exact_case :
  let tags l := match toy_verify 0 (toy_built l (prot_of [(CUInt 1, CNInt 6)]) [] []) with
                | (_, Ret w) => map (get_nth_tag (w_ctx w)) [0; 1; 2; 3] | _ => [] end in
  tags [18; 61; 2 ^ 64 - 1; 7] = map (@Ret N) [61; 2 ^ 64 - 1; 2 ^ 64 - 1; 2 ^ 64 - 1] /\
  tags [2 ^ 64 - 1; 61] = map (@Ret N) [2 ^ 64 - 1; 61; 2 ^ 64 - 1; 2 ^ 64 - 1].
Proof. split; vm_compute; reflexivity. Qed.
