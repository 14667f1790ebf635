(** What the example programs print of a buffer, and their main():
    examples/t_cose_basic_example_ossl.c 129-159 and 725-733,
    examples/t_cose_basic_example_psa.c 180-210 and 598-605.

    printf writes to a stream without limit and never fails. size_t is printed with
    %ld as if it were a long that holds every length. *)
From Verif Require Import Base Const QEnc Crypto Params Sign Verify Psa Examples ExampleRun.
Open Scope N_scope. Open Scope list_scope. Open Scope xmon_scope.

(** printf of a number that is not negative with %ld: its digits, the last first. *)
Fixpoint digits (fuel : nat) (n : N) : bytes :=
  match fuel with
  | O => []
  | S f => byte_of_N (48 + n mod 10) :: (if n <? 10 then [] else digits f (n / 10))
  end.
Definition print_ld (n : N) : bytes := rev (digits (S (N.to_nat (N.size n))) n).

(** printf with %02x *)
Definition hex_digit (n : N) : byte := byte_of_N (if n <? 10 then 48 + n else 87 + n).
Definition print_02x (z : byte) : bytes := [hex_digit (Byte.to_N z / 16); hex_digit (Byte.to_N z mod 16)].

(** Four spaces, and the string literal that ends the first line. *)
Definition margin : bytes := [x20; x20; x20; x20].
Definition bytes_nl : bytes := [x20; x62; x79; x74; x65; x73; x0a].

(** The loop, ossl.c 149-155 *)
Fixpoint print_loop (i : N) (b : bytes) : bytes :=
  match b with
  | [] => []
  | z :: r => print_02x z ++ [x20] ++ (if i mod 8 =? 7 then x0a :: margin else []) ++ print_loop (i + 1) r
  end.

(** print_useful_buf, ossl.c 138-159 *)
Definition print_useful_buf (string_label : option bytes) (buf : ubufc) : out bytes :=
  let first := match string_label with Some s => s | None => [] end ++ margin ++ print_ld (u_len buf) ++ bytes_nl in
  match buf with
  | UBuf b => Ret (first ++ margin ++ print_loop 0 b ++ [x0a])
  | UNull n => if n =? 0 then Ret (first ++ margin ++ [x0a]) else UB NullDeref
  end.

(** main: the examples one after the other; what they return is not looked at, and
    the end of main is reached, which is the exit status 0. *)
Fixpoint run_examples (l : list (X shown)) : X Z :=
  match l with
  | [] => xret 0%Z
  | x :: r => let+ _ := x in run_examples r
  end.

(** The examples, with the sizes and algorithms as written. *)
Definition examples_ossl (c : cfg) (cr : crypto) (junk : ubufc) (malloc : nat -> N -> bool) (kg : keygen) : list (X shown) :=
  [run_one_step c cr junk (make_ossl_key_pair kg) ES256 being_payload_ops 300 300;
   run_two_step c cr junk (make_ossl_key_pair kg) ES256 being_payload_ops 300;
   run_dynamic c cr junk malloc (make_ossl_key_pair kg) EDDSA [x70; x61; x79; x6c; x6f; x61; x64]].
Definition examples_psa (c : cfg) (cr : crypto) (junk : ubufc) (ks : keystore) : list (X shown) :=
  [run_one_step c cr junk (make_psa_ecdsa_key_pair ks) ES256 being_payload_ops 300 300;
   run_two_step c cr junk (make_psa_ecdsa_key_pair ks) ES256 being_payload_ops 300].

(** main, ossl.c 725-733, psa.c 598-605 *)
Definition main_ossl (c : cfg) (cr : crypto) (junk : ubufc) (malloc : nat -> N -> bool) (kg : keygen) : X Z :=
  run_examples (examples_ossl c cr junk malloc kg).
Definition main_psa (c : cfg) (cr : crypto) (junk : ubufc) (ks : keystore) : X Z := run_examples (examples_psa c cr junk ks).
