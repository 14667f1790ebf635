(** Bytes, C buffers, outcomes and the log of crypto-adapter calls.
    Models inc/t_cose/q_useful_buf.h (thin wrappers of QCBOR's UsefulBuf). *)
From Coq Require Export List NArith ZArith Bool.
From Coq.Init Require Export Byte.
From Coq.Strings Require Byte.
From Coq Require Import Lia.
Export ListNotations.
Open Scope N_scope.

(** ** Bytes *)

(** A C [uint8_t] made from an integer, modulo 256. *)
Definition byte_of_N (n : N) : byte :=
  match Byte.of_N (n mod 256) with Some b => b | None => x00 end.

Definition bytes := list byte.

(** Length as a C [size_t] (unbounded here). *)
Definition blen {A} (l : list A) : N := N.of_nat (length l).

Definition byte_eqb (a b : byte) : bool := Byte.to_N a =? Byte.to_N b.

(** [memcmp] of two byte strings being zero, lengths included. *)
Fixpoint bytes_eqb (a b : bytes) : bool :=
  match a, b with
  | [], [] => true
  | x :: a', y :: b' => byte_eqb x y && bytes_eqb a' b'
  | _, _ => false
  end.

(** Bytes [off, off+len) of a string. *)
Definition sub_bytes (l : bytes) (off len : N) : bytes :=
  firstn (N.to_nat len) (skipn (N.to_nat off) l).

(** ** Outcomes *)

Inductive ub := OOBRead | OOBWrite | Uninit | NullDeref | Diverges | BadShift.

(** [UB] is C undefined behaviour or non-termination. *)
Inductive out (A : Type) := Ret (a : A) | UB (why : ub).
Arguments Ret {A}. Arguments UB {A}.

Definition obind {A B} (x : out A) (f : A -> out B) : out B :=
  match x with Ret a => f a | UB w => UB w end.

Definition is_ret {A} (x : out A) : Prop := match x with Ret _ => True | UB _ => False end.

(** ** Buffers *)

(** [struct q_useful_buf_c]: pointer and length. The pointer may be NULL with
    any length (t_cose does this while calculating sizes). Pointer values are
    abstracted to the bytes they point to. *)
Inductive ubufc := UNull (len : N) | UBuf (data : bytes).

Definition NULL_UBUF : ubufc := UNull 0.

Definition u_len (u : ubufc) : N :=
  match u with UNull n => n | UBuf d => blen d end.

(** q_useful_buf_c_is_null *)
Definition u_is_null (u : ubufc) : bool :=
  match u with UNull _ => true | UBuf _ => false end.

(** q_useful_buf_c_is_null_or_empty *)
Definition u_is_null_or_empty (u : ubufc) : bool :=
  u_is_null u || (u_len u =? 0).

(** Bytes that reading the buffer yields (nothing for NULL). *)
Definition u_data (u : ubufc) : bytes :=
  match u with UNull _ => [] | UBuf d => d end.

(** q_useful_buf_compare returning 0 (equal). Comparing [len] > 0 bytes
    through a NULL pointer is undefined. *)
Definition u_equal (a b : ubufc) : out bool :=
  if negb (u_len a =? u_len b) then Ret false
  else if u_len a =? 0 then Ret true
  else match a, b with
       | UBuf x, UBuf y => Ret (bytes_eqb x y)
       | _, _ => UB NullDeref
       end.

(** q_useful_buf_head *)
Definition u_head (u : ubufc) (amount : N) : ubufc :=
  if u_len u <? amount then NULL_UBUF
  else match u with
       | UNull _ => UNull amount
       | UBuf d => UBuf (firstn (N.to_nat amount) d)
       end.

(** [struct q_useful_buf]: a writable buffer; only NULL-ness and size matter. *)
Record wbuf := { wb_null : bool; wb_len : N }.

Definition SIZE_MAX : N := 18446744073709551615.

(** ** Keys *)

(** [struct t_cose_key], inc/t_cose/t_cose_common.h 160-215: the library
    identifier and an opaque handle (pointer; 0 is NULL). *)
Record tkey := { k_lib : N; k_handle : N }.

Definition NULL_KEY : tkey := {| k_lib := 0; k_handle := 0 |}.

(** ** Log of calls into the crypto adapter *)

Inductive event :=
| EvHashStart (hash_alg : Z)
| EvHashUpdate (data : ubufc)
| EvHashFinish
| EvSigSize (alg : Z) (k : tkey)
| EvSign (alg : Z) (k : tkey) (hash : bytes)
| EvSignEddsa (k : tkey) (tbs : bytes)
| EvVerify (alg : Z) (k : tkey) (kid : ubufc) (hash sig : bytes)
| EvVerifyEddsa (k : tkey) (kid : ubufc) (tbs sig : bytes).

(** Computations that log. *)
Definition M (A : Type) : Type := (list event * out A)%type.

Definition mret {A} (a : A) : M A := ([], Ret a).
Definition mub {A} (w : ub) : M A := ([], UB w).
Definition mlift {A} (x : out A) : M A := ([], x).
Definition mlog {A} (e : event) (x : out A) : M A := ([e], x).
Definition mbind {A B} (x : M A) (f : A -> M B) : M B :=
  match x with
  | (l, Ret a) => let (l', r) := f a in (l ++ l', r)
  | (l, UB w) => (l, UB w)
  end.

Declare Scope mon_scope.
Delimit Scope mon_scope with mon.
Notation "'let!' x := e1 'in' e2" := (mbind e1 (fun x => e2))
  (at level 200, x pattern, e1 at level 200, e2 at level 200, right associativity) : mon_scope.
Notation "'let?' x := e1 'in' e2" := (obind e1 (fun x => e2))
  (at level 200, x pattern, e1 at level 200, e2 at level 200, right associativity) : mon_scope.

(** Bit test of an option flag: [flags & mask]. *)
Definition has_flag (flags mask : N) : bool := negb (N.land flags mask =? 0).
