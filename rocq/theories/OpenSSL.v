(** The OpenSSL crypto adapter, crypto_adapters/t_cose_openssl_crypto.c.

    OpenSSL itself is a record of functions over which the theorems quantify:
    what each call made by the adapter returns, including allocation failures.
    Contexts are represented by what was configured into them, EVP_MD_CTX by the
    algorithm and the data taken in so far. Every function logs the allocation
    and release of OpenSSL objects.

    Simplifications: EVP_PKEY_bits and EVP_PKEY_size are not negative; a library
    call that returns more bytes than the room it was given counts as an
    out-of-bounds write by the adapter. *)
From Verif Require Import Base Const Crypto Algs.
Open Scope N_scope. Open Scope list_scope.

(** ** The allocation log *)

(** Objects an adapter function allocates; each at most once per call. *)
Inductive robj :=
| RBnR | RBnS    (* BIGNUMs made by BN_bin2bn *)
| RSig           (* ECDSA_SIG *)
| RDer           (* memory allocated by i2d_ECDSA_SIG *)
| RPkeyCtx       (* EVP_PKEY_CTX *)
| RMdCtx.        (* EVP_MD_CTX *)
Inductive revent := RAlloc (o : robj) | RFree (o : robj).

Definition L (A : Type) : Type := (list revent * out A)%type.
Definition lret {A} (a : A) : L A := ([], Ret a).
Definition lub {A} (w : ub) : L A := ([], UB w).
Definition lbind {A B} (x : L A) (f : A -> L B) : L B :=
  match x with
  | (l, Ret a) => let (l', r) := f a in (l ++ l', r)
  | (l, UB w) => (l, UB w)
  end.
Definition alloc (o : robj) : L unit := ([RAlloc o], Ret tt).
Definition free (o : robj) : L unit := ([RFree o], Ret tt).
Declare Scope lmon_scope.
Notation "'let*' x := e1 'in' e2" := (lbind e1 (fun x => e2))
  (at level 200, x pattern, e1 at level 200, e2 at level 200, right associativity) : lmon_scope.
Notation "'run' e1 'in' e2" := (lbind e1 (fun _ : unit => e2))
  (at level 200, e1 at level 200, e2 at level 200, right associativity) : lmon_scope.
Open Scope lmon_scope.

(** ** The library *)

(** Settings of an EVP_PKEY_CTX; digests are named by their COSE identifiers. *)
Inductive pparam := PadPSS | SigMd (md : Z) | Mgf1Md (md : Z) | SaltlenDigest.
Record pctx := { px_key : N; px_verify : bool; px_params : list pparam }.

Record ossl := {
  (** EVP_PKEY_bits, EVP_PKEY_size of a key (given by its address) *)
  ev_bits : N -> N;
  ev_size : N -> N;
  (** d2i_ECDSA_SIG with ECDSA_SIG_get0: r and s, or NULL *)
  d2i_sig : bytes -> option (N * N);
  (** BN_bin2bn succeeding (the flag: for r) *)
  bn_ok : bool -> bytes -> bool;
  (** ECDSA_SIG_new, ECDSA_SIG_set0 succeeding *)
  sig_new : bool;
  sig_set0 : N -> N -> bool;
  (** i2d_ECDSA_SIG: the encoding, or a negative result *)
  i2d_sig : N -> N -> option bytes;
  (** EVP_PKEY_CTX_new not NULL, EVP_PKEY_sign_init / EVP_PKEY_verify_init and
      the EVP_PKEY_CTX_set functions returning 1 *)
  ctx_new : N -> bool;
  ctx_init : pctx -> bool;
  ctx_set : pctx -> pparam -> bool;
  (** EVP_PKEY_sign given the room: the bytes written when it returns 1 *)
  pkey_sign : pctx -> bytes -> N -> option bytes;
  (** EVP_PKEY_verify (signature, digest) *)
  pkey_verify : pctx -> bytes -> bytes -> Z;
  (** EVP_get_digestbynid, EVP_MD_CTX_new, EVP_DigestInit_ex *)
  md_known : Z -> bool;
  md_new : bool;
  md_init : Z -> bool;
  (** EVP_DigestUpdate of a context that has taken in some data: not 0 *)
  md_update : Z -> bytes -> bytes -> bool;
  (** EVP_DigestFinal_ex: the bytes written, or 0 *)
  md_final : Z -> bytes -> option bytes;
  (** EVP_DigestSignInit, EVP_DigestSign, EVP_DigestVerifyInit, EVP_DigestVerify *)
  dsign_init : N -> bool;
  dsign : N -> bytes -> N -> option bytes;
  dverify_init : N -> bool;
  dverify : N -> bytes -> bytes -> Z }.

(** BIGNUMs: BN_num_bytes, BN_bn2bin, BN_bin2bn. *)
Definition bn_num_bytes (n : N) : N := (N.size n + 7) / 8.
Fixpoint bn_be (w : nat) (n : N) : bytes :=
  match w with O => [] | S w' => byte_of_N (n / 2 ^ (8 * N.of_nat w')) :: bn_be w' n end.
Definition bn_bn2bin (n : N) : bytes := bn_be (N.to_nat (bn_num_bytes n)) n.
Definition bn_bin2bn (b : bytes) : N := fold_left (fun a x => a * 256 + Byte.to_N x) b 0.

(** Storing [data] from [off] on in a buffer. *)
Definition write_at (buf : bytes) (off : Z) (data : bytes) : out bytes :=
  match data with
  | [] => Ret buf
  | _ => if (0 <=? off)%Z && (off + Z.of_N (blen data) <=? Z.of_N (blen buf))%Z
         then Ret (firstn (Z.to_nat off) buf ++ data ++ skipn (Z.to_nat off + length data) buf)
         else UB OOBWrite
  end.

Section Adapter.
Context (c : cfg) (lib : ossl).

(** t_cose_crypto_is_algorithm_supported, 69-98 *)
Definition ossl_supported_algs : list Z :=
  [SHA_256; SHA_384; SHA_512; ES256] ++ ifndef (dis_es384 c) ES384 ++ ifndef (dis_es512 c) ES512 ++
  ifndef (dis_ps256 c) PS256 ++ ifndef (dis_ps384 c) PS384 ++ ifndef (dis_ps512 c) PS512 ++
  ifndef (dis_eddsa c) EDDSA ++ [0%Z].
Definition ossl_is_supported (alg : Z) : bool := t_cose_check_list alg ossl_supported_algs.

(** ecdsa_key_size, 103-118 *)
Definition ecdsa_key_size (key : N) : N :=
  let bits := ev_bits lib key in
  if bits mod 8 =? 0 then bits / 8 else bits / 8 + 1.

(** ecdsa_signature_der_to_cose, 136-200. [room]: length of signature_buffer;
    [None]: NULL_Q_USEFUL_BUF_C. A result reaching beyond the buffer counts as
    out of bounds. *)
Definition ecdsa_signature_der_to_cose (key : N) (der : bytes) (room : N) : L (option bytes) :=
  let key_len := ecdsa_key_size key in
  match d2i_sig lib der with
  | None => lret None
  | Some (r, s) =>
      run alloc RSig in
      let buf := repeat x00 (N.to_nat room) in
      let r_len := bn_num_bytes r in
      let s_len := bn_num_bytes s in
      if room <? r_len + s_len then (run free RSig in lret None)
      else
        let* buf := ([], write_at buf (Z.of_N key_len - Z.of_N r_len) (bn_bn2bin r)) in
        let* buf := ([], write_at buf (2 * Z.of_N key_len - Z.of_N s_len) (bn_bn2bin s)) in
        if blen buf <? 2 * key_len then lub OOBRead
        else (run free RSig in lret (Some (firstn (N.to_nat (2 * key_len)) buf)))
  end.

(** ecdsa_signature_cose_to_der, 223-321. [room]: length of the buffer.
    Releasing the ECDSA_SIG releases r and s once they have been put into it. *)
Definition ecdsa_signature_cose_to_der (key : N) (sig : bytes) (room : N) : L (terr * bytes) :=
  let key_len := ecdsa_key_size key in
  if negb (blen sig =? key_len * 2) then lret (ERR_SIG_VERIFY, [])
  else
    let r_bytes := firstn (N.to_nat key_len) sig in
    let s_bytes := firstn (N.to_nat key_len) (skipn (N.to_nat key_len) sig) in
    if negb (bn_ok lib true r_bytes) then lret (ERR_INSUFFICIENT_MEMORY, [])
    else
      run alloc RBnR in
      if negb (bn_ok lib false s_bytes) then (run free RBnR in lret (ERR_INSUFFICIENT_MEMORY, []))
      else
        run alloc RBnS in
        if negb (sig_new lib) then (run free RBnR in run free RBnS in lret (ERR_INSUFFICIENT_MEMORY, []))
        else
          run alloc RSig in
          let r := bn_bin2bn r_bytes in
          let s := bn_bin2bn s_bytes in
          if negb (sig_set0 lib r s) then (run free RBnR in run free RBnS in lret (ERR_SIG_FAIL, []))
          else
            match i2d_sig lib r s with
            | None => (run free RBnR in run free RBnS in run free RSig in lret (ERR_SIG_FAIL, []))
            | Some der =>
                run alloc RDer in
                run free RBnR in run free RBnS in run free RSig in
                (* q_useful_buf_copy_ptr gives NULL when it does not fit *)
                if (room <? blen der) || (blen der =? 0) then lret (ERR_SIG_FAIL, [])
                else (run free RDer in lret (T_SUCCESS, der))
            end.

(** key_convert, 333-353; T_COSE_CRYPTO_LIB_OPENSSL is 1 *)
Definition key_convert (k : tkey) : terr :=
  if negb (k_lib k =? 1) then ERR_INCORRECT_KEY_FOR_LIB
  else if k_handle k =? 0 then ERR_EMPTY_KEY
  else T_SUCCESS.

(** t_cose_crypto_sig_size, 358-392 *)
Definition ossl_sig_size (alg : Z) (k : tkey) : terr * N :=
  let err := key_convert k in
  if negb (terr_eqb err T_SUCCESS) then (err, 0)
  else if t_cose_algorithm_is_ecdsa c alg then (T_SUCCESS, ecdsa_key_size (k_handle k) * 2)
  else if t_cose_algorithm_is_rsassa_pss c alg || (alg =? EDDSA)%Z then (T_SUCCESS, ev_size lib (k_handle k))
  else (ERR_UNSUPPORTED_SIGNING_ALG, 0).

(** One EVP_PKEY_CTX_set call. *)
Definition set_param (x : pctx) (p : pparam) : option pctx :=
  if ctx_set lib x p
  then Some {| px_key := px_key x; px_verify := px_verify x; px_params := px_params x ++ [p] |}
  else None.

(** configure_pkey_context, 403-484 *)
Definition configure_pkey_context (x : pctx) (alg : Z) : terr * pctx :=
  if t_cose_algorithm_is_ecdsa c alg then (T_SUCCESS, x)
  else if t_cose_algorithm_is_rsassa_pss c alg then
    match (if (alg =? PS256)%Z then Some SHA_256
           else if (alg =? PS384)%Z then Some SHA_384
           else if (alg =? PS512)%Z then Some SHA_512 else None) with
    | None => (ERR_UNSUPPORTED_SIGNING_ALG, x)
    | Some md =>
        match set_param x PadPSS with
        | None => (ERR_SIG_FAIL, x)
        | Some x =>
        match set_param x (SigMd md) with
        | None => (ERR_SIG_FAIL, x)
        | Some x =>
        match set_param x (Mgf1Md md) with
        | None => (ERR_SIG_FAIL, x)
        | Some x =>
        match set_param x SaltlenDigest with
        | None => (ERR_SIG_FAIL, x)
        | Some x => (T_SUCCESS, x)
        end end end end
    end
  else (ERR_UNSUPPORTED_SIGNING_ALG, x).

(** DER_SIG_ENCODE_OVER_HEAD, 503, and the buffers it sizes, 515, 637 *)
Definition DER_SIG_ENCODE_OVER_HEAD : N := 16.
Definition der_buffer_size : N := max_ecdsa_sig_size c + DER_SIG_ENCODE_OVER_HEAD.

(** What a library call stored in a buffer with [room] bytes. *)
Definition stored (b : bytes) (room : N) : L bytes :=
  if room <? blen b then lub OOBWrite else lret b.

(** t_cose_crypto_sign, 490-614 *)
Definition ossl_sign (alg : Z) (k : tkey) (hash : bytes) (room : N) : L (terr * bytes) :=
  if negb (t_cose_algorithm_is_ecdsa c alg) && negb (t_cose_algorithm_is_rsassa_pss c alg)
  then lret (ERR_UNSUPPORTED_SIGNING_ALG, [])
  else
    let err := key_convert k in
    if negb (terr_eqb err T_SUCCESS) then lret (err, [])
    else
      let key := k_handle k in
      if negb (ctx_new lib key) then lret (ERR_INSUFFICIENT_MEMORY, [])
      else
        run alloc RPkeyCtx in
        let x := {| px_key := key; px_verify := false; px_params := [] |} in
        let* res :=
          (if negb (ctx_init lib x) then lret (ERR_SIG_FAIL, [])
           else
             let (err, x) := configure_pkey_context x alg in
             if negb (terr_eqb err T_SUCCESS) then lret (err, [])
             else if t_cose_algorithm_is_ecdsa c alg then
               match pkey_sign lib x hash der_buffer_size with
               | None => lret (ERR_SIG_FAIL, [])
               | Some der =>
                   let* der := stored der der_buffer_size in
                   let* sig := ecdsa_signature_der_to_cose key der room in
                   match sig with
                   | None => lret (ERR_SIG_FAIL, [])
                   | Some sig => lret (T_SUCCESS, sig)
                   end
               end
             else if t_cose_algorithm_is_rsassa_pss c alg then
               match pkey_sign lib x hash room with
               | None => lret (ERR_SIG_FAIL, [])
               | Some sig => let* sig := stored sig room in lret (T_SUCCESS, sig)
               end
             else lret (ERR_UNSUPPORTED_SIGNING_ALG, [])) in
        run free RPkeyCtx in lret res.

(** t_cose_crypto_verify, 621-730 *)
Definition ossl_verify (alg : Z) (k : tkey) (kid : ubufc) (hash sig : bytes) : L terr :=
  if negb (t_cose_algorithm_is_ecdsa c alg) && negb (t_cose_algorithm_is_rsassa_pss c alg)
  then lret ERR_UNSUPPORTED_SIGNING_ALG
  else
    let err := key_convert k in
    if negb (terr_eqb err T_SUCCESS) then lret err
    else
      let key := k_handle k in
      let* (err, openssl_sig) :=
        (if t_cose_algorithm_is_ecdsa c alg then ecdsa_signature_cose_to_der key sig der_buffer_size
         else if t_cose_algorithm_is_rsassa_pss c alg then lret (T_SUCCESS, sig)
         else lret (ERR_UNSUPPORTED_SIGNING_ALG, [])) in
      if negb (terr_eqb err T_SUCCESS) then lret err
      else if negb (ctx_new lib key) then lret ERR_INSUFFICIENT_MEMORY
      else
        run alloc RPkeyCtx in
        let x := {| px_key := key; px_verify := true; px_params := [] |} in
        let err :=
          (if negb (ctx_init lib x) then ERR_SIG_FAIL
           else
             let (err, x) := configure_pkey_context x alg in
             if negb (terr_eqb err T_SUCCESS) then err
             else
               let result := pkey_verify lib x openssl_sig hash in
               if (result =? 0)%Z then ERR_SIG_VERIFY
               else if negb (result =? 1)%Z then ERR_SIG_FAIL
               else T_SUCCESS) in
        run free RPkeyCtx in lret err.

(** struct t_cose_crypto_hash for OpenSSL, src/t_cose_crypto.h 448-453: the
    EVP_MD_CTX and whether no update failed *)
Record ohash := { oh_md : Z; oh_data : bytes; oh_ok : bool }.

(** t_cose_crypto_hash_start, 738-788 *)
Definition ossl_hash_start (halg : Z) : L (terr * ohash) :=
  let h := {| oh_md := halg; oh_data := []; oh_ok := true |} in
  if (halg =? SHA_256)%Z
     || ((negb (dis_es384 c) || negb (dis_ps384 c)) && (halg =? SHA_384)%Z)
     || ((negb (dis_es512 c) || negb (dis_ps512 c)) && (halg =? SHA_512)%Z)
  then
    if negb (md_known lib halg) then lret (ERR_UNSUPPORTED_HASH, h)
    else if negb (md_new lib) then lret (ERR_INSUFFICIENT_MEMORY, h)
    else
      run alloc RMdCtx in
      if negb (md_init lib halg) then (run free RMdCtx in lret (ERR_HASH_GENERAL_FAIL, h))
      else lret (T_SUCCESS, h)
  else lret (ERR_UNSUPPORTED_HASH, h).

(** t_cose_crypto_hash_update, 794-805 *)
Definition ossl_hash_update (h : ohash) (u : ubufc) : ohash :=
  if oh_ok h then
    match u with
    | UNull _ => h
    | UBuf d => {| oh_md := oh_md h; oh_data := oh_data h ++ d; oh_ok := md_update lib (oh_md h) (oh_data h) d |}
    end
  else h.

(** t_cose_crypto_hash_finish, 811-835. EVP_DigestFinal_ex is not told the
    length of the buffer. *)
Definition ossl_hash_finish (h : ohash) (room : N) : L (terr * bytes) :=
  if negb (oh_ok h) then (run free RMdCtx in lret (ERR_HASH_GENERAL_FAIL, []))
  else
    match md_final lib (oh_md h) (oh_data h) with
    | None => (run free RMdCtx in lret (ERR_HASH_GENERAL_FAIL, []))
    | Some d =>
        let* d := stored d room in
        run free RMdCtx in lret (T_SUCCESS, d)
    end.

(** t_cose_crypto_sign_eddsa, 842-897 *)
Definition ossl_sign_eddsa (k : tkey) (tbs : bytes) (room : N) : L (terr * bytes) :=
  let err := key_convert k in
  if negb (terr_eqb err T_SUCCESS) then lret (err, [])
  else if negb (md_new lib) then lret (ERR_INSUFFICIENT_MEMORY, [])
  else
    run alloc RMdCtx in
    let* res :=
      (if negb (dsign_init lib (k_handle k)) then lret (ERR_SIG_FAIL, [])
       else
         match dsign lib (k_handle k) tbs room with
         | None => lret (ERR_SIG_FAIL, [])
         | Some sig => let* sig := stored sig room in lret (T_SUCCESS, sig)
         end) in
    run free RMdCtx in lret res.

(** t_cose_crypto_verify_eddsa, 902-964 *)
Definition ossl_verify_eddsa (k : tkey) (kid : ubufc) (tbs sig : bytes) : L terr :=
  let err := key_convert k in
  if negb (terr_eqb err T_SUCCESS) then lret err
  else if negb (md_new lib) then lret ERR_INSUFFICIENT_MEMORY
  else
    run alloc RMdCtx in
    let err :=
      (if negb (dverify_init lib (k_handle k)) then ERR_SIG_FAIL
       else
         let result := dverify lib (k_handle k) sig tbs in
         if (result =? 0)%Z then ERR_SIG_VERIFY
         else if negb (result =? 1)%Z then ERR_SIG_FAIL
         else T_SUCCESS) in
    run free RMdCtx in lret err.

(** The adapter as t_cose calls it. With T_COSE_DISABLE_EDDSA the EdDSA functions
    are absent and not called. *)
Definition openssl : crypto := {|
  cr_hctx := ohash;
  cr_hash_start := fun a => match snd (ossl_hash_start a) with Ret r => r | UB _ => (ERR_FAIL, {| oh_md := 0%Z; oh_data := []; oh_ok := false |}) end;
  cr_hash_update := fun h u => Ret (ossl_hash_update h u);
  cr_hash_finish := fun h n => snd (ossl_hash_finish h n);
  cr_sig_size := ossl_sig_size;
  cr_sign := fun a k h n => snd (ossl_sign a k h n);
  cr_verify := fun a k kid h s => snd (ossl_verify a k kid h s);
  cr_sign_eddsa := fun k t n => snd (ossl_sign_eddsa k t n);
  cr_verify_eddsa := fun k kid t s => snd (ossl_verify_eddsa k kid t s);
  cr_is_supported := ossl_is_supported |}.

End Adapter.
