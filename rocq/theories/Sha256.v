(** The bundled SHA-256, crypto_adapters/b_con_hash/sha256.c and sha256.h.

    Simplifications: words are numbers below 2^32 with explicit reduction; the
    output buffer is a list of its length. [data[j] << 24] shifts an [int]: for
    a byte of 128 and more the result does not fit, which the C standard leaves
    undefined (C11 6.5.7p4) and common compilers define as wrapping. The
    parameter [wraps] selects the latter. *)
From Verif Require Import Base Const Params.
Open Scope N_scope. Open Scope list_scope. Open Scope mon_scope.

(** WORD arithmetic, sha256.h 22 *)
Definition w32 (n : N) : N := n mod 4294967296.
Definition wadd (a b : N) : N := w32 (a + b).

(** Macros, sha256.c 25-33 *)
Definition ROTRIGHT (a b : N) : N := N.lor (N.shiftr a b) (w32 (N.shiftl a (32 - b))).
Definition CH (x y z : N) : N := N.lxor (N.land x y) (N.land (N.lxor x 4294967295) z).
Definition MAJ (x y z : N) : N := N.lxor (N.lxor (N.land x y) (N.land x z)) (N.land y z).
Definition EP0 (x : N) : N := N.lxor (N.lxor (ROTRIGHT x 2) (ROTRIGHT x 13)) (ROTRIGHT x 22).
Definition EP1 (x : N) : N := N.lxor (N.lxor (ROTRIGHT x 6) (ROTRIGHT x 11)) (ROTRIGHT x 25).
Definition SIG0 (x : N) : N := N.lxor (N.lxor (ROTRIGHT x 7) (ROTRIGHT x 18)) (N.shiftr x 3).
Definition SIG1 (x : N) : N := N.lxor (N.lxor (ROTRIGHT x 17) (ROTRIGHT x 19)) (N.shiftr x 10).

(** [k], sha256.c 36-45 *)
Definition k_table : list N := [
  0x428a2f98;0x71374491;0xb5c0fbcf;0xe9b5dba5;0x3956c25b;0x59f111f1;0x923f82a4;0xab1c5ed5;
  0xd807aa98;0x12835b01;0x243185be;0x550c7dc3;0x72be5d74;0x80deb1fe;0x9bdc06a7;0xc19bf174;
  0xe49b69c1;0xefbe4786;0x0fc19dc6;0x240ca1cc;0x2de92c6f;0x4a7484aa;0x5cb0a9dc;0x76f988da;
  0x983e5152;0xa831c66d;0xb00327c8;0xbf597fc7;0xc6e00bf3;0xd5a79147;0x06ca6351;0x14292967;
  0x27b70a85;0x2e1b2138;0x4d2c6dfc;0x53380d13;0x650a7354;0x766a0abb;0x81c2c92e;0x92722c85;
  0xa2bfe8a1;0xa81a664b;0xc24b8b70;0xc76c51a3;0xd192e819;0xd6990624;0xf40e3585;0x106aa070;
  0x19a4c116;0x1e376c08;0x2748774c;0x34b0bcb5;0x391c0cb3;0x4ed8aa4a;0x5b9cca4f;0x682e6ff3;
  0x748f82ee;0x78a5636f;0x84c87814;0x8cc70208;0x90befffa;0xa4506ceb;0xbef9a3f7;0xc67178f2]%N.

(** SHA256_CTX, sha256.h 24-29 *)
Record sha_ctx := { h_data : bytes; h_datalen : N; h_bitlen : N; h_state : list N }.

(** [for (i = start; n more times; ++i) s = body(i, s)] *)
Fixpoint oloop {S} (n : nat) (i : nat) (body : nat -> S -> out S) (s : S) : out S :=
  match n with
  | O => Ret s
  | S n' => let? s := body i s in oloop n' (Datatypes.S i) body s
  end.

(** Reading a local array some entries of which may not be set yet. *)
Definition init_get (m : list (option N)) (i : nat) : out N :=
  let? x := arr_get m i in match x with Some w => Ret w | None => UB Uninit end.

(** [data[j] << 24], sha256.c 53 *)
Definition shl24 (wraps : bool) (b : byte) : out N :=
  if negb wraps && (128 <=? Byte.to_N b) then UB BadShift else Ret (N.shiftl (Byte.to_N b) 24).

(** One word of a block, sha256.c 53 *)
Definition load_word (wraps : bool) (data : bytes) (j : nat) : out N :=
  let? b0 := arr_get data j in
  let? b1 := arr_get data (j + 1) in
  let? b2 := arr_get data (j + 2) in
  let? b3 := arr_get data (j + 3) in
  let? s := shl24 wraps b0 in
  Ret (N.lor (N.lor (N.lor s (N.shiftl (Byte.to_N b1) 16)) (N.shiftl (Byte.to_N b2) 8)) (Byte.to_N b3)).

(** sha256_transform, sha256.c 48-86 *)
Definition message_array (wraps : bool) (data : bytes) : out (list (option N)) :=
  let? m := oloop 16 0 (fun i m => let? w := load_word wraps data (4 * i) in arr_set m i (Some w)) (repeat None 64) in
  oloop 48 16 (fun i m =>
    let? m2 := init_get m (i - 2) in
    let? m7 := init_get m (i - 7) in
    let? m15 := init_get m (i - 15) in
    let? m16 := init_get m (i - 16) in
    arr_set m i (Some (wadd (wadd (wadd (SIG1 m2) m7) (SIG0 m15)) m16))) m.

Definition regs : Type := (N * N * N * N * N * N * N * N)%type.

Definition round_body (m : list (option N)) (i : nat) (r : regs) : out regs :=
  let '(a, b, c, d, e, f, g, h) := r in
  let? ki := arr_get k_table i in
  let? mi := init_get m i in
  let t1 := wadd (wadd (wadd (wadd h (EP1 e)) (CH e f g)) ki) mi in
  let t2 := wadd (EP0 a) (MAJ a b c) in
  Ret (wadd t1 t2, a, b, c, wadd d t1, e, f, g).

Definition sha256_transform (wraps : bool) (ctx : sha_ctx) (data : bytes) : out sha_ctx :=
  let? m := message_array wraps data in
  match h_state ctx with
  | [s0; s1; s2; s3; s4; s5; s6; s7] =>
      let? (a, b, c, d, e, f, g, h) := oloop 64 0 (round_body m) (s0, s1, s2, s3, s4, s5, s6, s7) in
      Ret {| h_data := h_data ctx; h_datalen := h_datalen ctx; h_bitlen := h_bitlen ctx;
             h_state := [wadd s0 a; wadd s1 b; wadd s2 c; wadd s3 d; wadd s4 e; wadd s5 f; wadd s6 g; wadd s7 h] |}
  | _ => UB OOBRead
  end.

(** sha256_init, sha256.c 88-100; the data array keeps what it held *)
Definition sha256_init (junk : bytes) : sha_ctx :=
  {| h_data := junk; h_datalen := 0; h_bitlen := 0;
     h_state := [0x6a09e667; 0xbb67ae85; 0x3c6ef372; 0xa54ff53a; 0x510e527f; 0x9b05688c; 0x1f83d9ab; 0x5be0cd19]%N |}.

(** The loop of sha256_update, sha256.c 106-114. [i] is a WORD and wraps, [len]
    a size_t. Running out of [fuel] stands for not having returned yet. *)
Fixpoint update_loop (wraps : bool) (fuel : nat) (i : N) (ctx : sha_ctx) (data : bytes) : out sha_ctx :=
  match fuel with
  | O => UB Diverges
  | S fuel =>
      if i <? blen data then
        let? b := arr_get data (N.to_nat i) in
        let? a := arr_set (h_data ctx) (N.to_nat (h_datalen ctx)) b in
        let n := w32 (h_datalen ctx + 1) in
        let ctx := {| h_data := a; h_datalen := n; h_bitlen := h_bitlen ctx; h_state := h_state ctx |} in
        let? ctx := (if n =? 64 then
          let? ctx := sha256_transform wraps ctx (h_data ctx) in
          Ret {| h_data := h_data ctx; h_datalen := 0; h_bitlen := (h_bitlen ctx + 512) mod 2 ^ 64; h_state := h_state ctx |}
        else Ret ctx) in
        update_loop wraps fuel (w32 (i + 1)) ctx data
      else Ret ctx
  end.

(** sha256_update, sha256.c 102-115 *)
Definition sha256_update (wraps : bool) (ctx : sha_ctx) (data : bytes) : out sha_ctx :=
  update_loop wraps (S (length data)) 0 ctx data.

Definition set_data (ctx : sha_ctx) (d : bytes) : sha_ctx :=
  {| h_data := d; h_datalen := h_datalen ctx; h_bitlen := h_bitlen ctx; h_state := h_state ctx |}.

(** sha256_final, sha256.c 117-161; [hash]: the output buffer *)
Definition sha256_final (wraps : bool) (ctx : sha_ctx) (hash : bytes) : out bytes :=
  let i := N.to_nat (h_datalen ctx) in
  let? ctx := (
    if h_datalen ctx <? 56 then
      let? d := arr_set (h_data ctx) i x80 in
      let? d := oloop (56 - S i) (S i) (fun i d => arr_set d i x00) d in
      Ret (set_data ctx d)
    else
      let? d := arr_set (h_data ctx) i x80 in
      let? d := oloop (64 - S i) (S i) (fun i d => arr_set d i x00) d in
      let? ctx := sha256_transform wraps (set_data ctx d) d in
      let? d := oloop 56 0 (fun i d => arr_set d i x00) (h_data ctx) in
      Ret (set_data ctx d)) in
  let bitlen := (h_bitlen ctx + w32 (h_datalen ctx * 8)) mod 2 ^ 64 in
  let? d := oloop 8 0 (fun i d => arr_set d (63 - i) (byte_of_N (N.shiftr bitlen (8 * N.of_nat i)))) (h_data ctx) in
  let? ctx := sha256_transform wraps {| h_data := d; h_datalen := h_datalen ctx; h_bitlen := bitlen; h_state := h_state ctx |} d in
  oloop 4 0 (fun i hash => oloop 8 0 (fun s hash =>
    let? w := arr_get (h_state ctx) s in
    arr_set hash (i + 4 * s) (byte_of_N (N.land (N.shiftr w (24 - N.of_nat i * 8)) 255))) hash) hash.
