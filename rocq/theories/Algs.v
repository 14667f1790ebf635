(** Which algorithms are ECDSA and RSASSA-PSS, src/t_cose_crypto.h. *)
From Verif Require Import Base Const.
Open Scope N_scope. Open Scope list_scope.

(** t_cose_check_list, src/t_cose_crypto.h 656-667. The list ends at its first
    zero. *)
Fixpoint t_cose_check_list (alg : Z) (l : list Z) : bool :=
  match l with
  | [] => false
  | x :: l => if (x =? 0)%Z then false else if (x =? alg)%Z then true else t_cose_check_list alg l
  end.

(** [x] unless the macro is defined. *)
Definition ifndef (disabled : bool) (x : Z) : list Z := if disabled then [] else [x].

(** t_cose_algorithm_is_ecdsa, src/t_cose_crypto.h 669-684 *)
Definition ecdsa_list (c : cfg) : list Z :=
  [ES256] ++ ifndef (dis_es384 c) ES384 ++ ifndef (dis_es512 c) ES512 ++ [0%Z].
Definition t_cose_algorithm_is_ecdsa (c : cfg) (alg : Z) : bool := t_cose_check_list alg (ecdsa_list c).

(** t_cose_algorithm_is_rsassa_pss, src/t_cose_crypto.h 686-703 *)
Definition rsa_list (c : cfg) : list Z :=
  ifndef (dis_ps256 c) PS256 ++ ifndef (dis_ps384 c) PS384 ++ ifndef (dis_ps512 c) PS512 ++ [0%Z].
Definition t_cose_algorithm_is_rsassa_pss (c : cfg) (alg : Z) : bool := t_cose_check_list alg (rsa_list c).
