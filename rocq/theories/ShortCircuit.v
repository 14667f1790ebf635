(** Model of src/t_cose_short_circuit.c. *)
From Verif Require Import Base Const.
Open Scope N_scope.
Local Open Scope mon_scope.

(** short_circuit_sig_size, src/t_cose_short_circuit.c 32-41. Line 40 tests the
    pointer [sig_size], which is never null, so the result is always success. *)
Definition short_circuit_sig_size (alg : Z) : terr * N :=
  (T_SUCCESS,
   if (alg =? ES256)%Z then P256_SIG_SIZE
   else if (alg =? ES384)%Z then P384_SIG_SIZE
   else if (alg =? ES512)%Z then P512_SIG_SIZE
   else 0).

(** The copy loop, src/t_cose_short_circuit.c 74-82: bytes of the signature
    buffer from [indx] on. Runs for ever when the hash is empty. *)
Fixpoint sc_copy (fuel : nat) (hash : bytes) (sig_size indx : N) : out bytes :=
  if indx <? sig_size then
    match fuel with
    | O => UB Diverges
    | S f =>
      let amount := N.min (sig_size - indx) (blen hash) in
      let? rest := sc_copy f hash sig_size (indx + blen hash) in
      Ret (firstn (N.to_nat amount) hash ++ rest)
    end
  else Ret [].

(** short_circuit_sign, src/t_cose_short_circuit.c 47-89. *)
Definition short_circuit_sign (alg : Z) (hash : bytes) (buf_len : N) : out (terr * bytes) :=
  let (err, sig_size) := short_circuit_sig_size alg in
  if negb (terr_eqb err T_SUCCESS) then Ret (err, [])
  else if buf_len <? sig_size then Ret (ERR_SIG_BUFFER_SIZE, [])
  else
    let? sig := sc_copy (N.to_nat sig_size) hash sig_size 0 in
    Ret (T_SUCCESS, sig).

(** t_cose_crypto_short_circuit_verify, src/t_cose_short_circuit.c 94-120. *)
Definition short_circuit_verify (hash : bytes) (signature : ubufc) : out terr :=
  let from_sig := u_head signature (blen hash) in
  if u_is_null from_sig then Ret ERR_SIG_VERIFY
  else
    let? eq := u_equal from_sig (UBuf hash) in
    Ret (if eq then T_SUCCESS else ERR_SIG_VERIFY).
