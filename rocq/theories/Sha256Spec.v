(** SHA-256 as FIPS 180-4 defines it, independent of the code. *)
From Verif Require Import Base.
Open Scope N_scope. Open Scope list_scope.

(** ** Constants: from the primes, FIPS 180-4 sections 4.2.2 and 5.3.3 *)

Definition is_prime (n : N) : bool :=
  (1 <? n) && forallb (fun d => negb (n mod d =? 0)) (filter (fun d => d <? n) (map N.of_nat (seq 2 (N.to_nat n)))).

(** Integer cube root, bit by bit. *)
Fixpoint cbrt_bits (bits : nat) (acc n : N) : N :=
  match bits with
  | O => acc
  | S b => let t := acc + 2 ^ N.of_nat b in cbrt_bits b (if t * t * t <=? n then t else acc) n
  end.
Definition cbrt (n : N) : N := cbrt_bits 40 0 n.

(** The first [n] primes (up to 311, the 64th). *)
Definition primes (n : nat) : list N := firstn n (filter is_prime (map N.of_nat (seq 2 400))).

(** First 32 bits of the fractional parts of square and cube roots. *)
Definition frac_sqrt (p : N) : N := N.sqrt (p * 2 ^ 64) mod 2 ^ 32.
Definition frac_cbrt (p : N) : N := cbrt (p * 2 ^ 96) mod 2 ^ 32.

Definition sha_H0 : list N := map frac_sqrt (primes 8).
Definition sha_K : list N := map frac_cbrt (primes 64).

(** ** Functions, section 4.1.2; words are numbers below 2^32 *)

Definition ROTR (n x : N) : N := N.lor (N.shiftr x n) (N.shiftl x (32 - n) mod 2 ^ 32).
Definition SHR (n x : N) : N := N.shiftr x n.
Definition complement (x : N) : N := N.lxor x (2 ^ 32 - 1).
Definition Ch (x y z : N) : N := N.lxor (N.land x y) (N.land (complement x) z).
Definition Maj (x y z : N) : N := N.lxor (N.lxor (N.land x y) (N.land x z)) (N.land y z).
Definition Sigma0 (x : N) : N := N.lxor (N.lxor (ROTR 2 x) (ROTR 13 x)) (ROTR 22 x).
Definition Sigma1 (x : N) : N := N.lxor (N.lxor (ROTR 6 x) (ROTR 11 x)) (ROTR 25 x).
Definition sigma0 (x : N) : N := N.lxor (N.lxor (ROTR 7 x) (ROTR 18 x)) (SHR 3 x).
Definition sigma1 (x : N) : N := N.lxor (N.lxor (ROTR 17 x) (ROTR 19 x)) (SHR 10 x).

(** Addition modulo 2^32. *)
Definition add32 (l : list N) : N := fold_right N.add 0 l mod 2 ^ 32.

(** ** Preprocessing, section 5 *)

Fixpoint big_endian_bytes (w : nat) (n : N) : bytes :=
  match w with O => [] | S w' => byte_of_N (n / 256 ^ N.of_nat w') :: big_endian_bytes w' n end.

(** 5.1.1: a one bit, the least number of zeros, the length in bits (for
    messages of 2^64 bits and more, which the standard does not cover, the length
    modulo 2^64). *)
Definition zero_bytes (len : N) : N := (119 - len mod 64) mod 64.
Definition pad (m : bytes) : bytes :=
  m ++ [x80] ++ repeat x00 (N.to_nat (zero_bytes (blen m))) ++ big_endian_bytes 8 (8 * blen m).

(** 5.2.1: blocks of sixteen words *)
Fixpoint words (b : bytes) : list N :=
  match b with
  | b0 :: b1 :: b2 :: b3 :: r =>
      (Byte.to_N b0 * 2 ^ 24 + Byte.to_N b1 * 2 ^ 16 + Byte.to_N b2 * 2 ^ 8 + Byte.to_N b3) :: words r
  | _ => []
  end.
Fixpoint blocks (n : nat) (b : bytes) : list bytes :=
  match n with O => [] | S n => firstn 64 b :: blocks n (skipn 64 b) end.

(** ** Hash computation, section 6.2.2 *)

(** W_t for t from 16 on *)
Definition next_word (w : list N) : N :=
  let t := length w in
  add32 [sigma1 (nth (t - 2) w 0); nth (t - 7) w 0; sigma0 (nth (t - 15) w 0); nth (t - 16) w 0].
Fixpoint extend (n : nat) (w : list N) : list N :=
  match n with O => w | S n => extend n (w ++ [next_word w]) end.
Definition schedule (block : bytes) : list N := extend 48 (words block).

Definition hash_round (r : N * N * N * N * N * N * N * N) (kw : N * N) : N * N * N * N * N * N * N * N :=
  let '(a, b, c, d, e, f, g, h) := r in let '(k, w) := kw in
  let t1 := add32 [h; Sigma1 e; Ch e f g; k; w] in
  let t2 := add32 [Sigma0 a; Maj a b c] in
  (add32 [t1; t2], a, b, c, add32 [d; t1], e, f, g).

Definition compress (hs : list N) (block : bytes) : list N :=
  match hs with
  | [h0; h1; h2; h3; h4; h5; h6; h7] =>
      let '(a, b, c, d, e, f, g, h) :=
        fold_left hash_round (combine sha_K (schedule block)) (h0, h1, h2, h3, h4, h5, h6, h7) in
      [add32 [a; h0]; add32 [b; h1]; add32 [c; h2]; add32 [d; h3]; add32 [e; h4]; add32 [f; h5]; add32 [g; h6]; add32 [h; h7]]
  | _ => []
  end.

Definition sha256 (m : bytes) : bytes :=
  let p := pad m in
  flat_map (big_endian_bytes 4) (fold_left compress (blocks (length p / 64) p) sha_H0).
