(** The example programs: examples/t_cose_basic_example_ossl.c 169-723, and
    examples/t_cose_basic_example_psa.c 219-596, whose two functions are the
    same but for the making of the key. Simplifications: what is made a
    parameter here (algorithm, payload, buffer sizes) is a literal there; the
    key pair is the result of a call of the crypto library; malloc is a
    parameter, free and printf are left out. *)
From Verif Require Import Base Const QEnc Crypto Params Sign Verify.
Open Scope N_scope. Open Scope list_scope.
Local Open Scope mon_scope.

(** What an example returns: a t_cose error, or an error of QCBOR cast to one. *)
Inductive code := TCose (e : terr) | QCbor (e : qe_err).

(** The return value, and the payload printed at the end. *)
Record shown := { x_code : code; x_payload : option ubufc }.
Definition stop (e : terr) : M shown := mret {| x_code := TCose e; x_payload := None |}.

(** The bytes of a message. *)
Definition the_bytes (r : option ubufc) : out bytes :=
  match r with
  | Some (UBuf m) => Ret m
  | Some (UNull n) => if n =? 0 then Ret [] else UB NullDeref
  | None => UB Uninit
  end.

(** The end of all examples, ossl.c 301-332, 505-536, 693-709. *)
Definition verify_and_show (c : cfg) (cr : crypto) (junk : ubufc) (me : vctx) (signed : option ubufc) : M shown :=
  let! m := mlift (the_bytes signed) in
  let! w := verify c cr junk me m (Some junk) false in
  mret {| x_code := TCose (w_err w); x_payload := if terr_eqb (w_err w) T_SUCCESS then w_payload w else None |}.

(** one_step_sign_example, ossl.c 169-342 *)
Definition one_step_sign (c : cfg) (cr : crypto) (junk : ubufc) (alg : Z) (made : terr * tkey)
           (ops : list eop) (payload_size signed_size : N) : M shown :=
  match enc_finish (eops_run (enc_init {| wb_null := false; wb_len := payload_size |}) ops) with
  | (QE_SUCCESS, Some constructed_payload) =>
      let (err, key_pair) := made in
      if negb (terr_eqb err T_SUCCESS) then stop err
      else
        let me := set_signing_key (sign_init 0 alg) key_pair NULL_UBUF in
        let! (err, me, signed_cose) := sign c cr me constructed_payload {| wb_null := false; wb_len := signed_size |} in
        if negb (terr_eqb err T_SUCCESS) then stop err
        else verify_and_show c cr junk (set_verification_key (verify_init 0) key_pair) signed_cose
  | (e, _) => mret {| x_code := QCbor e; x_payload := None |}
  end.

(** two_step_sign_example, ossl.c 354-545. After QCBOREncode_Finish the value
    returned is that of t_cose_sign1_encode_signature, 485-489. *)
Definition two_step_sign (c : cfg) (cr : crypto) (junk : ubufc) (alg : Z) (made : terr * tkey)
           (ops : list eop) (signed_size : N) : M shown :=
  let (err, key_pair) := made in
  if negb (terr_eqb err T_SUCCESS) then stop err
  else
    let e := enc_init {| wb_null := false; wb_len := signed_size |} in
    let me := set_signing_key (sign_init 0 alg) key_pair NULL_UBUF in
    let '(err, me, e) := encode_parameters c me e in
    if negb (terr_eqb err T_SUCCESS) then stop err
    else
      let e := eops_run e ops in
      let! (err, me, e) := encode_signature c cr me e in
      if negb (terr_eqb err T_SUCCESS) then stop err
      else
        match enc_finish e with
        | (QE_SUCCESS, signed_cose) => verify_and_show c cr junk (set_verification_key (verify_init 0) key_pair) signed_cose
        | _ => stop err
        end.

(** dynamic_buffer_example, ossl.c 568-723. [malloc k n]: the [k]th call, for [n]
    bytes, does not return NULL. *)
Definition dynamic_buffer (c : cfg) (cr : crypto) (junk : ubufc) (malloc : nat -> N -> bool) (alg : Z) (made : terr * tkey)
           (payload : bytes) : M shown :=
  let (err, key_pair) := made in
  if negb (terr_eqb err T_SUCCESS) then stop err
  else
    let me := set_signing_key (sign_init 0 alg) key_pair NULL_UBUF in
    let! (err, me, r) := sign c cr me (UBuf payload) {| wb_null := true; wb_len := SIZE_MAX |} in
    if negb (terr_eqb err T_SUCCESS) then stop err
    else
      match r with
      | None => mlift (UB Uninit)
      | Some signed_cose =>
          let size := u_len signed_cose in
          let aux := sign_auxiliary_buffer_size c me in
          if negb (malloc 0%nat size) || negb (malloc 1%nat aux) then stop ERR_INSUFFICIENT_MEMORY
          else
            let me := sign_set_auxiliary_buffer me {| wb_null := false; wb_len := aux |} in
            let! (err, me, signed_cose) := sign c cr me (UBuf payload) {| wb_null := false; wb_len := size |} in
            if negb (terr_eqb err T_SUCCESS) then stop err
            else
              let! m := mlift (the_bytes signed_cose) in
              let! w := verify c cr junk (verify_init OPT_DECODE_ONLY) m None false in
              if negb (terr_eqb (w_err w) T_SUCCESS) then stop (w_err w)
              else
                let aux := verify_auxiliary_buffer_size c (w_ctx w) in
                if negb (malloc 2%nat aux) then stop ERR_INSUFFICIENT_MEMORY
                else
                  verify_and_show c cr junk
                    (verify_set_auxiliary_buffer (set_verification_key (verify_init 0) key_pair) {| wb_null := false; wb_len := aux |})
                    signed_cose
      end.

(** ** The literals *)

Definition text (s : bytes) : eop := OpText (UBuf s).
(** BeingType, Humanoid, Greeting, We come in peace, ArmCount, HeadCount,
    BrainSize, medium, DrinksWater; ossl.c 196-204 and 451-458.
    QCBOREncode_AddBool appends one byte and counts one item, as
    QCBOREncode_AddEncoded does. *)
Definition being_payload_ops : list eop :=
  [OpOpenMap;
   text [x42; x65; x69; x6e; x67; x54; x79; x70; x65]; text [x48; x75; x6d; x61; x6e; x6f; x69; x64];
   text [x47; x72; x65; x65; x74; x69; x6e; x67];
   text [x57; x65; x20; x63; x6f; x6d; x65; x20; x69; x6e; x20; x70; x65; x61; x63; x65];
   text [x41; x72; x6d; x43; x6f; x75; x6e; x74]; OpInt 2;
   text [x48; x65; x61; x64; x43; x6f; x75; x6e; x74]; OpInt 1;
   text [x42; x72; x61; x69; x6e; x53; x69; x7a; x65]; text [x6d; x65; x64; x69; x75; x6d];
   text [x44; x72; x69; x6e; x6b; x73; x57; x61; x74; x65; x72]; OpEncoded (UBuf [xf5]);
   OpCloseMap].

Definition one_step_sign_example (c : cfg) (cr : crypto) (junk : ubufc) (made : terr * tkey) : M shown :=
  one_step_sign c cr junk ES256 made being_payload_ops 300 300.
Definition two_step_sign_example (c : cfg) (cr : crypto) (junk : ubufc) (made : terr * tkey) : M shown :=
  two_step_sign c cr junk ES256 made being_payload_ops 300.
(** The payload is the text payload. *)
Definition dynamic_buffer_example (c : cfg) (cr : crypto) (junk : ubufc) (malloc : nat -> N -> bool) (made : terr * tkey) : M shown :=
  dynamic_buffer c cr junk malloc EDDSA made [x70; x61; x79; x6c; x6f; x61; x64].
