(** The example programs with the making and freeing of keys and buffers:
    examples/t_cose_basic_example_ossl.c 48-127 and 169-723,
    examples/t_cose_basic_example_psa.c 69-178 and 219-596.

    The log tells what is taken, given back and used. Simplifications as in
    Examples.v, except that a program makes its own key; the calls of t_cose are
    logged only with the objects they are handed. *)
From Verif Require Import Base Const QEnc Crypto Params Sign Verify Psa Examples.
Open Scope N_scope. Open Scope list_scope.

(** EVP_PKEY_CTX; EVP_PKEY or PSA key; memory from the [k]th call of malloc. *)
Inductive xobj := XKeyCtx | XKey | XBuf (k : nat).
Inductive xevent := XTake (o : xobj) | XGive (o : xobj) | XUse (o : xobj).

Definition X (A : Type) : Type := (list xevent * out A)%type.
Definition xret {A} (a : A) : X A := ([], Ret a).
Definition xbind {A B} (x : X A) (f : A -> X B) : X B :=
  match x with
  | (l, Ret a) => let (l', r) := f a in (l ++ l', r)
  | (l, UB w) => (l, UB w)
  end.
Declare Scope xmon_scope.
Notation "'let+' x := e1 'in' e2" := (xbind e1 (fun x => e2))
  (at level 200, x pattern, e1 at level 200, e2 at level 200, right associativity) : xmon_scope.
Notation "'do' e1 'in' e2" := (xbind e1 (fun _ : unit => e2))
  (at level 200, e1 at level 200, e2 at level 200, right associativity) : xmon_scope.
Open Scope xmon_scope.

Definition xtake (o : xobj) : X unit := ([XTake o], Ret tt).
Definition xgive (o : xobj) : X unit := ([XGive o], Ret tt).
Definition xuse (o : xobj) : X unit := ([XUse o], Ret tt).
(** A call into t_cose that has these objects. *)
Definition xcall {A} (uses : list xobj) (x : M A) : X A := (map XUse uses, snd x).
Definition xlift {A} (x : out A) : X A := ([], x).
Definition xstop (e : terr) : X shown := xret {| x_code := TCose e; x_payload := None |}.

(** ** Keys *)

(** EVP_PKEY_EC with a curve, EVP_PKEY_ED25519 *)
Inductive key_kind := KEc (bits : N) | KEd25519.

(** The functions of OpenSSL that make keys. *)
Record keygen := {
  (** EVP_PKEY_CTX_new_id does not return NULL *)
  kg_ctx : key_kind -> bool;
  (** EVP_PKEY_keygen_init *)
  kg_init : key_kind -> Z;
  (** EVP_PKEY_CTX_set_ec_paramgen_curve_nid *)
  kg_curve : N -> Z;
  (** EVP_PKEY_new does not return NULL *)
  kg_new : bool;
  (** EVP_PKEY_keygen: result and key; it allocates the key if given NULL *)
  kg_gen : key_kind -> Z * N;
  (** EVP_PKEY_keygen frees the key it was given when it fails (OpenSSL 1.1) *)
  kg_frees : bool }.

(** The switch of make_ossl_key_pair, ossl.c 58-81 *)
Definition ossl_key_kind (alg : Z) : option key_kind :=
  if (alg =? ES256)%Z then Some (KEc 256)
  else if (alg =? ES384)%Z then Some (KEc 384)
  else if (alg =? ES512)%Z then Some (KEc 521)
  else if (alg =? EDDSA)%Z then Some KEd25519
  else None.

(** make_ossl_key_pair, ossl.c 48-116. [None]: key_pair is not written;
    T_COSE_CRYPTO_LIB_OPENSSL is 1, T_COSE_CRYPTO_LIB_PSA is 2. *)
Definition make_ossl_key_pair (kg : keygen) (alg : Z) : X (terr * option tkey) :=
  match ossl_key_kind alg with
  | None => xret (ERR_UNSUPPORTED_SIGNING_ALG, None)
  | Some kind =>
      if negb (kg_ctx kg kind) then xret (ERR_INSUFFICIENT_MEMORY, None)
      else
        do xtake XKeyCtx in
        do xuse XKeyCtx in
        if (kg_init kg kind <=? 0)%Z then xret (ERR_FAIL, None)
        else if (match kind with KEc bits => negb (kg_curve kg bits =? 1)%Z | KEd25519 => false end)
        then xret (ERR_FAIL, None)
        else
          do (if kg_new kg then xtake XKey else xret tt) in
          do xuse XKeyCtx in
          let (ossl_result, pkey) := kg_gen kg kind in
          if negb (ossl_result =? 1)%Z
          then do (if kg_new kg && kg_frees kg then xgive XKey else xret tt) in xret (ERR_FAIL, None)
          else
            do (if kg_new kg then xret tt else xtake XKey) in
            xret (T_SUCCESS, Some {| k_lib := 1; k_handle := pkey |})
  end.

(** The functions of PSA that make keys; psa_import_key is given the algorithm
    for the key policy, which here also stands for type and value of the key. *)
Record keystore := { ks_init : Z; ks_import : palg -> Z * N }.

(** make_psa_ecdsa_key_pair, psa.c 69-167 *)
Definition make_psa_ecdsa_key_pair (ks : keystore) (alg : Z) : X (terr * option tkey) :=
  match (if (alg =? ES256)%Z then Some (PEcdsa SHA_256)
         else if (alg =? ES384)%Z then Some (PEcdsa SHA_384)
         else if (alg =? ES512)%Z then Some (PEcdsa SHA_512)
         else None) with
  | None => xret (ERR_UNSUPPORTED_SIGNING_ALG, None)
  | Some key_alg =>
      if negb (ks_init ks =? PSA_SUCCESS)%Z then xret (ERR_FAIL, None)
      else
        let (crypto_result, key_handle) := ks_import ks key_alg in
        if negb (crypto_result =? PSA_SUCCESS)%Z then xret (ERR_FAIL, None)
        else do xtake XKey in xret (T_SUCCESS, Some {| k_lib := 2; k_handle := key_handle |})
  end.

(** free_ossl_key_pair, ossl.c 124-127; free_psa_ecdsa_key_pair, psa.c 175-178 *)
Definition free_key_pair : X unit := xgive XKey.

(** key_pair read after a call that reported success. *)
Definition the_key (k : option tkey) : X tkey := xlift (match k with Some k => Ret k | None => UB Uninit end).

(** ** The programs, for either way of making keys *)

(** The verification at the end, and the statements before the label Done. *)
Definition run_verify (c : cfg) (cr : crypto) (junk : ubufc) (me : vctx) (uses frees : list xobj) (signed : option ubufc) : X shown :=
  let+ x := xcall uses (verify_and_show c cr junk me signed) in
  match x_code x with
  | TCose T_SUCCESS => do (map XGive frees, Ret tt) in do free_key_pair in xret x
  | _ => xret x
  end.

(** one_step_sign_example, ossl.c 169-342, psa.c 219-392 *)
Definition run_one_step (c : cfg) (cr : crypto) (junk : ubufc) (make : Z -> X (terr * option tkey)) (alg : Z)
           (ops : list eop) (payload_size signed_size : N) : X shown :=
  match enc_finish (eops_run (enc_init {| wb_null := false; wb_len := payload_size |}) ops) with
  | (QE_SUCCESS, Some constructed_payload) =>
      let+ (err, key_pair) := make alg in
      if negb (terr_eqb err T_SUCCESS) then xstop err
      else
        let+ key_pair := the_key key_pair in
        let me := set_signing_key (sign_init 0 alg) key_pair NULL_UBUF in
        let+ (err, me, signed_cose) := xcall [XKey] (sign c cr me constructed_payload {| wb_null := false; wb_len := signed_size |}) in
        if negb (terr_eqb err T_SUCCESS) then xstop err
        else run_verify c cr junk (set_verification_key (verify_init 0) key_pair) [XKey] [] signed_cose
  | (e, _) => xret {| x_code := QCbor e; x_payload := None |}
  end.

(** two_step_sign_example, ossl.c 354-545, psa.c 404-596 *)
Definition run_two_step (c : cfg) (cr : crypto) (junk : ubufc) (make : Z -> X (terr * option tkey)) (alg : Z)
           (ops : list eop) (signed_size : N) : X shown :=
  let+ (err, key_pair) := make alg in
  if negb (terr_eqb err T_SUCCESS) then xstop err
  else
    let+ key_pair := the_key key_pair in
    let e := enc_init {| wb_null := false; wb_len := signed_size |} in
    let me := set_signing_key (sign_init 0 alg) key_pair NULL_UBUF in
    let '(err, me, e) := encode_parameters c me e in
    if negb (terr_eqb err T_SUCCESS) then xstop err
    else
      let e := eops_run e ops in
      let+ (err, me, e) := xcall [XKey] (encode_signature c cr me e) in
      if negb (terr_eqb err T_SUCCESS) then xstop err
      else
        match enc_finish e with
        | (QE_SUCCESS, signed_cose) => run_verify c cr junk (set_verification_key (verify_init 0) key_pair) [XKey] [] signed_cose
        | _ => xstop err
        end.

(** malloc: nothing to give back when it fails. *)
Definition xmalloc (malloc : nat -> N -> bool) (k : nat) (n : N) : X bool :=
  if malloc k n then do xtake (XBuf k) in xret true else xret false.

(** dynamic_buffer_example, ossl.c 568-723 *)
Definition run_dynamic (c : cfg) (cr : crypto) (junk : ubufc) (malloc : nat -> N -> bool) (make : Z -> X (terr * option tkey)) (alg : Z)
           (payload : bytes) : X shown :=
  let+ (err, key_pair) := make alg in
  if negb (terr_eqb err T_SUCCESS) then xstop err
  else
    let+ key_pair := the_key key_pair in
    let me := set_signing_key (sign_init 0 alg) key_pair NULL_UBUF in
    let+ (err, me, r) := xcall [XKey] (sign c cr me (UBuf payload) {| wb_null := true; wb_len := SIZE_MAX |}) in
    if negb (terr_eqb err T_SUCCESS) then xstop err
    else
      match r with
      | None => xlift (UB Uninit)
      | Some signed_cose =>
          let size := u_len signed_cose in
          let+ got_signed := xmalloc malloc 0%nat size in
          let aux := sign_auxiliary_buffer_size c me in
          let+ got_aux := xmalloc malloc 1%nat aux in
          if negb got_signed || negb got_aux then xstop ERR_INSUFFICIENT_MEMORY
          else
            let me := sign_set_auxiliary_buffer me {| wb_null := false; wb_len := aux |} in
            let+ (err, me, signed_cose) :=
              xcall [XKey; XBuf 0; XBuf 1] (sign c cr me (UBuf payload) {| wb_null := false; wb_len := size |}) in
            if negb (terr_eqb err T_SUCCESS) then xstop err
            else
              do xgive (XBuf 1) in
              let+ m := xlift (the_bytes signed_cose) in
              let+ w := xcall [XBuf 0] (verify c cr junk (verify_init OPT_DECODE_ONLY) m None false) in
              if negb (terr_eqb (w_err w) T_SUCCESS) then xstop (w_err w)
              else
                let aux := verify_auxiliary_buffer_size c (w_ctx w) in
                let+ got_aux := xmalloc malloc 2%nat aux in
                if negb got_aux then xstop ERR_INSUFFICIENT_MEMORY
                else
                  run_verify c cr junk
                    (verify_set_auxiliary_buffer (set_verification_key (verify_init 0) key_pair) {| wb_null := false; wb_len := aux |})
                    [XKey; XBuf 0; XBuf 2] [XBuf 0; XBuf 2] signed_cose
      end.
