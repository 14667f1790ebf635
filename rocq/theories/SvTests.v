(** The tests of signing and verifying with a real library,
    test/t_cose_sign_verify_test.c 27-976, and the makers of their keys,
    test/t_cose_make_openssl_test_key.c 103-175 and
    test/t_cose_make_psa_test_key.c 54-192.

    A test can be linked with any t_cose, also a wrong one: the functions it calls are
    a parameter ([impl]); [t_cose] below is the code modelled in Sign.v and
    Verify.v. Keys are taken and given back as in ExampleRun.v. Simplifications: the
    setters are those of Sign.v and Verify.v; a value returned never exceeds int32_t;
    the numbers of QCBOR errors, which are not in this repository, are a parameter. *)
From Verif Require Import Base Const QEnc Crypto Params Sign Verify Psa Examples ExampleRun.
Open Scope N_scope. Open Scope list_scope. Open Scope xmon_scope.

(** enum t_cose_err_t, inc/t_cose/t_cose_common.h 250-414 *)
Definition terr_code (e : terr) : Z :=
  match e with
  | T_SUCCESS => 0 | ERR_UNSUPPORTED_SIGNING_ALG => 1 | ERR_MAKING_PROTECTED => 2 | ERR_UNSUPPORTED_HASH => 3
  | ERR_HASH_GENERAL_FAIL => 4 | ERR_HASH_BUFFER_SIZE => 5 | ERR_SIG_BUFFER_SIZE => 6 | ERR_SIGN1_FORMAT => 8
  | ERR_CBOR_NOT_WELL_FORMED => 9 | ERR_PARAMETER_CBOR => 10 | ERR_NO_ALG_ID => 11 | ERR_NO_KID => 12 | ERR_SIG_VERIFY => 13
  | ERR_BAD_SHORT_CIRCUIT_KID => 14 | ERR_INVALID_ARGUMENT => 15 | ERR_INSUFFICIENT_MEMORY => 16 | ERR_FAIL => 17
  | ERR_TAMPERING_DETECTED => 18 | ERR_UNKNOWN_KEY => 19 | ERR_WRONG_TYPE_OF_KEY => 20 | ERR_SIG_STRUCT => 21
  | ERR_SHORT_CIRCUIT_SIG => 22 | ERR_SIG_FAIL => 23 | ERR_CBOR_FORMATTING => 24 | ERR_TOO_SMALL => 25
  | ERR_TOO_MANY_PARAMETERS => 26 | ERR_UNKNOWN_CRITICAL_PARAMETER => 27 | ERR_SHORT_CIRCUIT_SIG_DISABLED => 28
  | ERR_INCORRECT_KEY_FOR_LIB => 29 | ERR_NON_INTEGER_ALG_ID => 30 | ERR_BAD_CONTENT_TYPE => 31
  | ERR_INCORRECTLY_TAGGED => 32 | ERR_EMPTY_KEY => 33 | ERR_DUPLICATE_PARAMETER => 34
  | ERR_PARAMETER_NOT_PROTECTED => 35 | ERR_CRIT_PARAMETER => 36 | ERR_TOO_MANY_TAGS => 37
  | ERR_NEED_AUXILIARY_BUFFER => 38 | ERR_AUXILIARY_BUFFER_SIZE => 39
  end%Z.

(** What is tested. *)
Record impl := {
  (** t_cose_is_algorithm_supported, t_cose_crypto_sig_size *)
  i_supported : Z -> bool;
  i_sig_size : Z -> tkey -> terr * N;
  (** t_cose_sign1_sign *)
  i_sign : sctx -> ubufc -> wbuf -> M (terr * sctx * option ubufc);
  (** t_cose_sign1_encode_parameters, t_cose_sign1_encode_signature *)
  i_parameters : sctx -> enc -> terr * sctx * enc;
  i_signature : sctx -> enc -> M (terr * sctx * enc);
  (** t_cose_sign1_sign_auxiliary_buffer_size *)
  i_sign_aux : sctx -> N;
  (** t_cose_sign1_verify; is payload, are parameters not NULL *)
  i_verify : vctx -> bytes -> bool -> bool -> M vres;
  (** t_cose_sign1_verify_auxiliary_buffer_size *)
  i_verify_aux : vctx -> N;
  (** QCBORError *)
  i_qcbor : qe_err -> Z }.

(** The library of this repository. *)
Definition t_cose (c : cfg) (cr : crypto) (junk : ubufc) (qcbor : qe_err -> Z) : impl :=
  {| i_supported := cr_is_supported cr; i_sig_size := cr_sig_size cr; i_sign := sign c cr;
     i_parameters := encode_parameters c; i_signature := encode_signature c cr;
     i_sign_aux := sign_auxiliary_buffer_size c;
     i_verify := fun me m want_payload want => verify c cr junk me m (if want_payload then Some junk else None) want;
     i_verify_aux := verify_auxiliary_buffer_size c; i_qcbor := qcbor |}.

(** ** Test keys *)

(** make_key_pair, t_cose_make_openssl_test_key.c 106-166; [d2i]: d2i_PrivateKey for the key
    compiled in for the algorithm, [None] is NULL. The RSA key is the same for three algorithms. *)
Definition test_key_ossl (d2i : Z -> option N) (alg : Z) : X (terr * option tkey) :=
  match (if (alg =? ES256)%Z then Some ES256 else if (alg =? ES384)%Z then Some ES384 else if (alg =? ES512)%Z then Some ES512
         else if (alg =? PS256)%Z || (alg =? PS384)%Z || (alg =? PS512)%Z then Some PS256
         else if (alg =? EDDSA)%Z then Some EDDSA else None) with
  | None => xret (ERR_UNSUPPORTED_SIGNING_ALG, None)
  | Some key_data =>
      match d2i key_data with
      | None => xret (ERR_FAIL, None)
      | Some pkey => do xtake XKey in xret (T_SUCCESS, Some {| k_lib := 1; k_handle := pkey |})
      end
  end.

(** make_key_pair, t_cose_make_psa_test_key.c 54-181 *)
Definition test_key_psa (ks : keystore) (alg : Z) : X (terr * option tkey) :=
  match (if (alg =? ES256)%Z then Some (PEcdsa SHA_256) else if (alg =? ES384)%Z then Some (PEcdsa SHA_384)
         else if (alg =? ES512)%Z then Some (PEcdsa SHA_512) else if (alg =? PS256)%Z then Some (PRsaPss SHA_256)
         else if (alg =? PS384)%Z then Some (PRsaPss SHA_384) else if (alg =? PS512)%Z then Some (PRsaPss SHA_512) else None) with
  | None => xret (ERR_UNSUPPORTED_SIGNING_ALG, None)
  | Some key_alg =>
      if negb (ks_init ks =? PSA_SUCCESS)%Z then xret (ERR_FAIL, None)
      else
        let (crypto_result, key_handle) := ks_import ks key_alg in
        if negb (crypto_result =? PSA_SUCCESS)%Z then xret (ERR_FAIL, None)
        else do xtake XKey in xret (T_SUCCESS, Some {| k_lib := 2; k_handle := key_handle |})
  end.

(** ** Messages and buffers *)

(** 27-38 *)
Definition signed_cose_made_by_ossl_crypto_es256 : bytes :=
  [xd2; x84; x43; xa1; x01; x26; xa0; x47; x70; x61; x79; x6c; x6f; x61; x64; x58; x40; xf2; x2b; xae; x15; xa8; xa6; x7a; x60;
   x6b; x0b; xea; xcb; xb6; x21; xd0; xa0; xac; x99; xce; x2a; xd3; xd8; x1f; xa5; x25; x77; x04; x8c; x27; xf8; x7f; xf2; x25;
   x78; xfa; xde; xed; xb0; xfb; xc7; xb3; x31; xcf; x4f; x5c; xc8; x25; xde; xfd; x2d; xb9; xf3; x6c; xd7; xcb; x69; x53; xcb;
   x05; xe3; x60; xac; x98; xe6].
(** 40-55 *)
Definition signed_cose_made_by_psa_crypto_es384 : bytes :=
  [xd2; x84; x44; xa1; x01; x38; x22; xa0; x47; x70; x61; x79; x6c; x6f; x61; x64; x58; x60; x2c; x6c; x08; xf3; x36; x9e; x35;
   x7a; x6b; xe5; xd6; x6e; xf9; x30; x06; x2b; xd8; x73; xab; x7e; x9b; x9d; x4a; x30; xdd; x62; x75; xe5; xd6; x61; x39; xf7;
   x4d; xc3; x7c; xf0; xeb; x58; x9d; x78; xca; x70; xd3; xa2; xf9; x23; x85; xe6; x45; x18; x04; xbe; x9f; xa0; xe3; x97; x4a;
   x12; x82; xf2; x87; x4f; x3b; xf6; x9d; xc3; xe2; x99; xcc; x67; x69; x34; xdb; x1c; xf4; xaf; x95; x83; x74; x1b; x5c; xcd;
   xd5; x11; xc1; x07; xe2; xd9; x3b; x16; x31; x5a; x55; x58; x6c; xc9].
(** 57-76 *)
Definition signed_cose_made_by_ossl_crypto_es512 : bytes :=
  [xd2; x84; x44; xa1; x01; x38; x23; xa0; x47; x70; x61; x79; x6c; x6f; x61; x64; x58; x84; x01; x54; x10; x66; x49; x6b; x8b;
   xdc; xb0; xce; x03; x73; x30; x01; x92; xf1; xe3; x18; x37; xf1; x91; xc1; x57; xb5; x13; xb8; x30; x10; xa6; xa6; x29; xdc;
   x74; xa0; x5e; x39; xc8; x2f; x2b; x5d; x1c; xdb; x90; x47; x50; xa0; x97; x47; x0e; x99; x66; x6f; xc4; xa5; xbb; xd7; xf7;
   x99; xd3; x87; x7a; x1b; x03; xca; x6a; xdb; x01; x04; xb5; x9d; xb6; x18; xe9; x2a; xd2; x0a; x32; x05; x88; xda; x7d; xb8;
   xad; x7a; xce; x5f; x49; x1f; xbd; xf3; x98; xde; x44; x05; x38; xd0; x2c; x12; x83; x09; x7a; xf8; xe8; x5f; xa7; x33; xa3;
   xe3; xe9; x35; x11; x22; x48; x09; xa2; x95; x6c; x9b; x97; xa9; xe9; xbf; xa8; x63; x73; x88; x24; xb0; x84; x46; xa8; x90].
(** 78-114 *)
Definition signed_cose_made_by_psa_crypto_ps256 : bytes :=
  [xd2; x84; x44; xa1; x01; x38; x24; xa0; x47; x70; x61; x79; x6c; x6f; x61; x64; x59; x01; x00; x41; x9a; x28; xe2; xe4; x9a;
   x56; x90; xc1; x8c; xcd; x31; xd7; x9c; x17; x42; x30; xfe; xcc; x33; x41; xd7; xcc; x6a; x16; x53; x38; xd0; x15; x31; x7c;
   x5c; x84; x40; xc7; xcd; x8e; xdf; xc9; x28; x1c; xd4; xb0; xa9; x0f; x44; x17; x50; x7e; x0e; xc8; xc5; xdf; x6a; xc4; xbf;
   x5a; xdf; x0e; x0f; x91; xfe; x12; x8d; x0e; x5b; x29; xf1; xc5; xde; xbc; x6e; x61; xc7; x43; x64; x1b; x0c; x5e; x9d; x72;
   xf6; x93; x71; x4c; x4d; x67; xa1; x1c; xd7; x98; x5a; x59; x1d; x98; x12; x63; x88; x40; x00; x9e; x04; x9d; x77; x83; x39;
   xa5; x69; x83; x88; x53; x38; xc9; x87; x04; xcf; x5a; x8f; x77; x6d; xda; x14; x6a; x65; x2f; xc3; xd9; xd7; x52; x18; x3f;
   x04; x4c; x0d; x09; xf5; x15; x31; x7c; xc7; x95; x91; xb2; x74; x3d; x31; xbc; x6a; x9b; x49; x56; xe7; xe1; xca; xb1; xb2;
   x36; x08; x02; x5d; xc0; xb7; xb1; x1e; x2c; x5c; x6f; x74; x4c; x2f; x4f; x8a; xb9; x9e; xb4; x36; xfe; xf4; xb9; xd2; x36;
   x6a; xa9; x76; xdd; xcd; x37; x80; x40; x02; x76; xe6; x61; xfb; x32; xa8; xf1; x7c; x47; x7d; x69; xc1; x7b; xa3; x68; x3c;
   xa1; x2c; x7c; x5c; x3d; x87; x15; x0a; xee; xc1; x2a; x8c; x67; xb9; xd2; x03; xec; x46; xc9; xef; xe1; xe4; x82; x75; x4a;
   xf2; x57; xde; xac; x34; xfe; x2c; x9d; xb6; x58; x5f; xfe; x67; x3e; xb5; x37; xe2; xbe; x5d; x38; xa8; x64; x03; xc0; xb3].
(** 116-152 *)
Definition signed_cose_made_by_psa_crypto_ps384 : bytes :=
  [xd2; x84; x44; xa1; x01; x38; x25; xa0; x47; x70; x61; x79; x6c; x6f; x61; x64; x59; x01; x00; x5e; xa1; x14; xd9; xb9; xb1;
   x6a; x0c; x17; x93; xe8; x94; x88; x5e; x5a; x12; x30; x5d; x0b; x70; xbb; xb0; x89; xad; x49; x86; x1e; xeb; x3e; xed; xff;
   x07; x5b; xa9; x7e; x7e; xa3; x2e; x6e; x1b; x7c; x9c; xe1; x22; xd3; x5e; x7d; x0e; x1e; xfe; xc2; x03; x3f; x03; xfc; x3a;
   xef; x59; x3f; xda; x86; x46; xe0; xb0; xe6; x06; xa3; xf2; x48; x90; x76; xff; x32; x2d; x44; xf4; x1c; x18; x0e; x24; x6f;
   x8e; x55; x82; xf0; xf5; x06; x6b; xab; xfe; x52; x81; x32; x8a; xb1; xa2; xec; x1b; x07; x9e; xd6; x19; x6b; x0a; x7e; x1d;
   x10; xad; xf2; xb3; x3e; x3c; x0d; x23; x15; x4e; x2d; x34; x59; x4d; x2d; x59; x76; x66; x40; x17; x15; x84; x04; x3b; x37;
   x57; xac; xab; x7f; xcc; x51; x99; x80; x31; x1a; xd8; x1e; x63; x0b; x67; xd1; x21; xc3; xbe; x33; x4d; xfd; x40; x7e; x04;
   x16; xe8; x2c; x0b; xe8; x3c; x39; xcc; xcd; x9a; x6a; xc6; x15; x1e; x49; xad; x54; xee; x7d; x38; x47; x59; x17; xa5; xcc;
   x03; x81; x63; x26; xd1; x7f; x4d; x38; xf5; x00; xd5; x66; xd8; x53; x8a; x33; x19; xb3; xcb; x8d; x65; x79; xb0; xe7; xf4;
   xdd; x9a; x97; x7c; xb4; x13; x18; x6d; xc6; x4c; xbc; xd3; xed; x8a; x6e; x1b; xf0; x53; xc7; x71; x44; xc9; xf3; xba; xaf;
   x20; xc5; x21; x98; xde; x71; xc9; xa2; x49; xe4; xf5; x1d; x76; xea; x6b; xc6; x74; xbe; xc6; xee; x65; x5d; xfa; x81; x29].
(** 154-190 *)
Definition signed_cose_made_by_psa_crypto_ps512 : bytes :=
  [xd2; x84; x44; xa1; x01; x38; x26; xa0; x47; x70; x61; x79; x6c; x6f; x61; x64; x59; x01; x00; x12; x53; xfe; x15; xda; xb3;
   x01; x84; x40; x7b; x8b; x11; x0d; x34; x40; x13; x97; x51; xa3; xf6; x53; x93; xee; x98; xe8; xb7; x7c; x4a; x33; xba; x90;
   xc4; xd9; x03; x16; x32; x55; xfb; x64; x56; x9a; x65; x3c; x98; x8d; xc4; xe4; x99; x79; xf3; x09; x88; x22; x3e; x12; x38;
   xd0; xe0; xf2; xac; xf4; x07; x66; xd4; x99; x38; x2c; x7a; x62; x0c; x55; xbd; x57; x65; x5f; x3b; xe4; x6a; xfd; x7c; x62;
   xe1; x7a; xbf; xe9; x28; x9e; xd4; x03; x13; x54; xf4; x34; x30; xe9; x1e; xec; xcb; x55; x23; xb3; x2e; x0c; x1e; x41; x08;
   x04; x1a; x51; x91; x72; x15; x78; x0d; x3c; x64; xaa; x0b; xdc; x8d; x29; xc1; x6e; x89; x58; x74; x2a; x3e; xf6; xb3; xab;
   x61; xa1; x0b; xe9; x03; x44; xce; xb3; x27; x1c; x25; x21; x59; x9a; x7b; x6a; x61; x1f; xee; x3b; x21; x3b; x2c; xd9; x40;
   x17; x5d; x1f; xee; x62; x21; xf4; x67; x7f; xd6; x58; x2a; xaa; x75; xf1; x00; x26; xb6; x04; x6c; x4d; xd0; x5a; x53; x97;
   xc9; xa0; xb6; x8b; xf3; xe3; x2f; xe3; x01; x30; x87; x89; xda; x9e; x4c; xb9; x98; xd0; x0c; xc2; x92; x90; xbb; xb1; x40;
   xe2; xd8; xd2; x23; x8b; x92; xd7; x55; x81; x4a; xeb; xed; x08; xe9; x43; xe8; x33; xa1; x47; x3c; x2b; xc1; xd0; x69; x9a;
   xf9; x97; x9f; x2f; xf1; xab; x6f; x6e; xd2; xb2; xea; x0b; xc9; x02; xb7; x4d; x60; x1b; x3a; x10; x51; x20; x12; x5c; x32].
(** 192-204 *)
Definition signed_cose_made_by_pycose_eddsa : bytes :=
  [xd2; x84; x43; xa1; x01; x27; xa0; x47; x70; x61; x79; x6c; x6f; x61; x64; x58; x40; x17; x02; xb0; xf2; x3f; x47; xe8; x9f;
   xab; x39; xcd; xd3; xd6; x5a; x57; x76; x37; xb2; xbc; x8e; xd1; xe3; xa9; xc1; x4d; xf3; xbf; x4a; x93; x4c; xe7; xe2; xa8;
   xae; x46; xb5; x82; x48; x79; xde; x7b; x81; xd0; x25; xbc; xf8; x32; xab; x41; x00; xc5; xd9; x39; xc7; xf2; x07; x27; x70;
   xf3; x76; xd2; x8d; xbe; x00].

(** test_cases, 216-226, without the sentinel *)
Definition test_cases : list (Z * bytes) :=
  [(ES256, signed_cose_made_by_ossl_crypto_es256); (ES384, signed_cose_made_by_psa_crypto_es384);
   (ES512, signed_cose_made_by_ossl_crypto_es512); (PS256, signed_cose_made_by_psa_crypto_ps256);
   (PS384, signed_cose_made_by_psa_crypto_ps384); (PS512, signed_cose_made_by_psa_crypto_ps512);
   (EDDSA, signed_cose_made_by_pycose_eddsa)].

(** The literals payload and greasy kid stuff *)
Definition test_payload : bytes := [x70; x61; x79; x6c; x6f; x61; x64].
Definition greasy : bytes := [x67; x72; x65; x61; x73; x79; x20; x6b; x69; x64; x20; x73; x74; x75; x66; x66].

Definition stack_buf (n : N) : wbuf := {| wb_null := false; wb_len := n |}.
Definition test_signer (alg : Z) (key : tkey) (kid : ubufc) (aux : option N) : sctx :=
  let me := set_signing_key (sign_init 0 alg) key kid in
  match aux with Some n => sign_set_auxiliary_buffer me (stack_buf n) | None => me end.
Definition test_verifier (key : tkey) (aux : option N) : vctx :=
  let me := set_verification_key (verify_init 0) key in
  match aux with Some n => verify_set_auxiliary_buffer me (stack_buf n) | None => me end.

Definition ok (e : terr) : bool := terr_eqb e T_SUCCESS.
Definition failed (base : Z) (e : terr) : X Z := xret (base + terr_code e)%Z.

(** A variable written by a call that succeeded. *)
Definition the_value {A} (x : option A) : X A := xlift (match x with Some a => Ret a | None => UB Uninit end).

(** make_key_pair, the test, and free_key_pair at the label Done. *)
Definition with_key (make : Z -> X (terr * option tkey)) (alg base : Z) (body : tkey -> X Z) : X Z :=
  let+ (err, key_pair) := make alg in
  if negb (ok err) then failed base err
  else
    let+ key_pair := the_key key_pair in
    let+ return_value := body key_pair in
    do free_key_pair in xret return_value.

(** The loop over the table, as in 298-306. *)
Fixpoint for_each (table : list (Z * bytes)) (k : Z) (select : Z -> bool) (test : Z -> bytes -> X Z) : X Z :=
  match table with
  | [] => xret 0%Z
  | (alg, m) :: r =>
      if select alg then
        let+ return_value := test alg m in
        if negb (return_value =? 0)%Z then xret ((1 + k) * 10000 + return_value)%Z
        else for_each r (k + 1) select test
      else for_each r (k + 1) select test
  end.

(** ** The tests *)

(** sign_verify_basic_test_alg, 228-289 *)
Definition basic_test_alg (i : impl) (make : Z -> X (terr * option tkey)) (alg : Z) : X Z :=
  with_key make alg 1000 (fun key_pair =>
    let+ (result, _, signed_cose) := xcall [XKey] (i_sign i (test_signer alg key_pair NULL_UBUF (Some 100)) (UBuf test_payload) (stack_buf 300)) in
    if negb (ok result) then failed 2000 result
    else
      let+ m := xlift (the_bytes signed_cose) in
      let+ w := xcall [XKey] (i_verify i (test_verifier key_pair (Some 100)) m true false) in
      if negb (ok (w_err w)) then failed 5000 (w_err w)
      else
        let+ payload := the_value (w_payload w) in
        let+ same := xlift (u_equal payload (UBuf test_payload)) in
        xret (if negb same then 6000 else 0)%Z).
(** sign_verify_basic_test, 295-309 *)
Definition sign_verify_basic_test (i : impl) (make : Z -> X (terr * option tkey)) : X Z :=
  for_each test_cases 0 (i_supported i) (fun alg _ => basic_test_alg i make alg).

(** A message made in steps: the application's part, QCBOREncode_Finish by [finish]. *)
Definition in_steps (i : impl) (me : sctx) (buf : wbuf) (ops : list eop) (base1 base2 : Z) (finish : sctx -> enc -> X Z) : X Z :=
  let '(result, me, e) := i_parameters i me (enc_init buf) in
  if negb (ok result) then failed base1 result
  else
    let+ (result, me, e) := xcall [XKey] (i_signature i me (eops_run e ops)) in
    if negb (ok result) then failed base2 result
    else finish me e.

(** q_useful_buf_find_bytes *)
Fixpoint find_bytes (b what : bytes) : option nat :=
  if bytes_eqb (firstn (length what) b) what then Some 0%nat
  else match b with [] => None | _ :: r => option_map S (find_bytes r what) end.
(** An h at that place *)
Definition tampered (m : bytes) (tamper_offset : nat) : bytes := firstn tamper_offset m ++ x68 :: skipn (S tamper_offset) m.

(** sig_fail_test, 314-394. What is assigned at 385 is overwritten at 388. *)
Definition sig_fail_test (i : impl) (make : Z -> X (terr * option tkey)) (alg : Z) : X Z :=
  with_key make alg 1000 (fun key_pair =>
    in_steps i (test_signer alg key_pair NULL_UBUF (Some 100)) (stack_buf 300) [OpText (UBuf test_payload)] 2000 3000 (fun _ e =>
    match enc_finish e with
    | (QE_SUCCESS, signed_cose) =>
        let+ m := xlift (the_bytes signed_cose) in
        match find_bytes m test_payload with
        | None => xret 99%Z
        | Some tamper_offset =>
            let+ w := xcall [XKey] (i_verify i (test_verifier key_pair (Some 100)) (tampered m tamper_offset) true false) in
            let return_value := if negb (terr_eqb (w_err w) ERR_SIG_VERIFY) then (5000 + terr_code (w_err w))%Z else 0%Z in
            let return_value := 0%Z in
            xret return_value
        end
    | (cbor_error, _) => xret (4000 + i_qcbor i cbor_error)%Z
    end)).
(** sign_verify_sig_fail_test, 400-413 *)
Definition sign_verify_sig_fail_test (i : impl) (make : Z -> X (terr * option tkey)) : X Z :=
  for_each test_cases 0 (i_supported i) (fun alg _ => sig_fail_test i make alg).

(** AsymmetricECDSA256, coap://as.example.com, erikw, coap://light.example.com *)
Definition cwt_kid : bytes := [x41; x73; x79; x6d; x6d; x65; x74; x72; x69; x63; x45; x43; x44; x53; x41; x32; x35; x36].
Definition cwt_ops : list eop :=
  [OpOpenMap;
   OpInt 1; text [x63; x6f; x61; x70; x3a; x2f; x2f; x61; x73; x2e; x65; x78; x61; x6d; x70; x6c; x65; x2e; x63; x6f; x6d];
   OpInt 2; text [x65; x72; x69; x6b; x77];
   OpInt 3; text [x63; x6f; x61; x70; x3a; x2f; x2f; x6c; x69; x67; x68; x74; x2e; x65; x78; x61; x6d; x70; x6c; x65; x2e; x63; x6f; x6d];
   OpInt 4; OpInt 1444064944; OpInt 5; OpInt 1443944944; OpInt 6; OpInt 1443944944;
   OpInt 7; OpBytes (UBuf [x0b; x71]);
   OpCloseMap].
(** 497-507 *)
Definition rfc8392_first_part : bytes :=
  [xd2; x84; x43; xa1; x01; x26; xa1; x04; x52; x41; x73; x79; x6d; x6d; x65; x74; x72; x69; x63; x45; x43; x44; x53; x41; x32;
   x35; x36; x58; x50; xa7; x01; x75; x63; x6f; x61; x70; x3a; x2f; x2f; x61; x73; x2e; x65; x78; x61; x6d; x70; x6c; x65; x2e;
   x63; x6f; x6d; x02; x65; x65; x72; x69; x6b; x77; x03; x78; x18; x63; x6f; x61; x70; x3a; x2f; x2f; x6c; x69; x67; x68; x74;
   x2e; x65; x78; x61; x6d; x70; x6c; x65; x2e; x63; x6f; x6d; x04; x1a; x56; x12; xae; xb0; x05; x1a; x56; x10; xd9; xf0; x06;
   x1a; x56; x10; xd9; xf0; x07; x42; x0b; x71].

(** sign_verify_make_cwt_test, 419-555. What is assigned at 544 is overwritten at 548. *)
Definition sign_verify_make_cwt_test (i : impl) (make : Z -> X (terr * option tkey)) : X Z :=
  with_key make ES256 1000 (fun key_pair =>
    in_steps i (test_signer ES256 key_pair (UBuf cwt_kid) None) (stack_buf 300) cwt_ops 2000 3000 (fun _ e =>
    match enc_finish e with
    | (QE_SUCCESS, signed_cose) =>
        let+ signed_cose := the_value signed_cose in
        let+ same := xlift (u_equal (u_head signed_cose (blen rfc8392_first_part)) (UBuf rfc8392_first_part)) in
        if negb same then xret (-1)%Z
        else
          let+ m := xlift (the_bytes (Some signed_cose)) in
          let+ w := xcall [XKey] (i_verify i (test_verifier key_pair None) m true false) in
          if negb (ok (w_err w)) then failed 5000 (w_err w)
          else
            let kid_encoded_len := (1 + 1 + 1 + 18)%nat in
            let+ payload := the_value (w_payload w) in
            let+ same := xlift (u_equal payload (UBuf (skipn (kid_encoded_len + 8) rfc8392_first_part))) in
            let return_value := if negb same then 6000%Z else 0%Z in
            let return_value := 0%Z in
            xret return_value
    | (cbor_error, _) => xret (i_qcbor i cbor_error + 4000)%Z
    end)).

(** Neither too small nor too large, 618, 630, 771 *)
Definition about (n expected_min : N) : bool := negb ((n <? expected_min) || (expected_min + 30 <? n)).

(** size_test, 558-694; the result of QCBOREncode_Finish at 662 is not looked at. *)
Definition size_test (i : impl) (make : Z -> X (terr * option tkey)) (alg : Z) (kid : ubufc) : X Z :=
  with_key make alg 1000 (fun key_pair =>
    let (result, sig_size) := i_sig_size i alg key_pair in
    if negb (ok result) then failed 2000 result
    else
      in_steps i (test_signer alg key_pair kid None) {| wb_null := true; wb_len := 2147483647 |} [OpEncoded (UBuf test_payload)] 3000 4000
      (fun me e =>
      match enc_finish e with
      | (QE_SUCCESS, measured) =>
          let+ measured := the_value measured in
          let calculated_size := u_len measured in
          if negb (about calculated_size (sig_size + blen test_payload + u_len kid)) then xret (-1)%Z
          else
            let auxiliary_buffer_size := i_sign_aux i me in
            if (alg =? EDDSA)%Z && negb (about auxiliary_buffer_size (blen test_payload + u_len kid)) then xret (-2)%Z
            else if negb (alg =? EDDSA)%Z && negb (auxiliary_buffer_size =? 0) then xret (-3)%Z
            else
              let signer := test_signer alg key_pair kid (if 0 <? auxiliary_buffer_size then Some 100 else None) in
              in_steps i signer (stack_buf 300) [OpEncoded (UBuf test_payload)] 6000 7000 (fun _ e =>
              let+ actual_signed_cose := the_value (snd (enc_finish e)) in
              if negb (u_len actual_signed_cose =? calculated_size) then xret (-4)%Z
              else
                let+ (result, _, actual_signed_cose) := xcall [XKey] (i_sign i signer (UBuf test_payload) (stack_buf 300)) in
                if negb (ok result) then failed 8000 result
                else
                  let+ actual_signed_cose := the_value actual_signed_cose in
                  xret (if negb (u_len actual_signed_cose =? calculated_size) then (-5)%Z else 0%Z))
      | (cbor_error, _) => xret (5000 + i_qcbor i cbor_error)%Z
      end)).
(** sign_verify_get_size_test, 700-721 *)
Definition sign_verify_get_size_test (i : impl) (make : Z -> X (terr * option tkey)) : X Z :=
  for_each test_cases 0 (i_supported i) (fun alg _ =>
    let+ return_value := size_test i make alg NULL_UBUF in
    if negb (return_value =? 0)%Z then xret return_value else size_test i make alg (UBuf greasy)).

(** known_good_test, 724-803 *)
Definition known_good_test (i : impl) (make : Z -> X (terr * option tkey)) (alg : Z) (m : bytes) : X Z :=
  let+ w := xcall [] (i_verify i (verify_init OPT_DECODE_ONLY) m true true) in
  if negb (ok (w_err w)) then failed 1000 (w_err w)
  else
    let+ parameters := the_value (w_params w) in
    if negb (p_alg parameters =? alg)%Z then failed 2000 (w_err w)
    else
      with_key make alg 3000 (fun key_pair =>
        let auxiliary_buffer_size := i_verify_aux i (w_ctx w) in
        let+ too := (if (alg =? EDDSA)%Z
                     then let+ payload := the_value (w_payload w) in xret (if about auxiliary_buffer_size (u_len payload) then 0%Z else (-1)%Z)
                     else xret (if auxiliary_buffer_size =? 0 then 0%Z else (-2)%Z)) in
        if negb (too =? 0)%Z then xret too
        else
          let+ w := xcall [XKey] (i_verify i (test_verifier key_pair (Some 100)) m true true) in
          if negb (ok (w_err w)) then failed 4000 (w_err w)
          else
            let+ payload := the_value (w_payload w) in
            let+ same := xlift (u_equal payload (UBuf test_payload)) in
            xret (if negb same then 5000 else 0)%Z).
(** sign_verify_known_good_test, 805-826 *)
Definition sign_verify_known_good_test (i : impl) (make : Z -> X (terr * option tkey)) : X Z :=
  for_each test_cases 0 (i_supported i) (known_good_test i make).

(** sign_verify_unsupported_test_alg, 833-874; the result of signing is overwritten. *)
Definition unsupported_test_alg (i : impl) (make : Z -> X (terr * option tkey)) (alg : Z) (m : bytes) : X Z :=
  with_key make ES256 1000 (fun key_pair =>
    let+ _ := xcall [XKey] (i_sign i (test_signer alg key_pair NULL_UBUF (Some 100)) (UBuf test_payload) (stack_buf 300)) in
    let+ w := xcall [XKey] (i_verify i (test_verifier key_pair (Some 100)) m false false) in
    if negb (terr_eqb (w_err w) ERR_UNSUPPORTED_SIGNING_ALG) then failed 2000 (w_err w) else xret 0%Z).
(** sign_verify_unsupported_test, 876-893 *)
Definition sign_verify_unsupported_test (i : impl) (make : Z -> X (terr * option tkey)) : X Z :=
  for_each test_cases 0 (fun alg => negb (i_supported i alg)) (unsupported_test_alg i make).

(** sign_verify_bad_auxiliary_buffer, 898-976 *)
Definition sign_verify_bad_auxiliary_buffer (i : impl) (make : Z -> X (terr * option tkey)) : X Z :=
  if negb (i_supported i EDDSA) then xret 0%Z
  else
    with_key make EDDSA 1000 (fun key_pair =>
      let m := signed_cose_made_by_pycose_eddsa in
      let+ w := xcall [XKey] (i_verify i (test_verifier key_pair None) m false false) in
      if negb (terr_eqb (w_err w) ERR_NEED_AUXILIARY_BUFFER) then failed 2000 (w_err w)
      else
        let+ w := xcall [XKey] (i_verify i (test_verifier key_pair (Some 5)) m false false) in
        if negb (terr_eqb (w_err w) ERR_AUXILIARY_BUFFER_SIZE) then failed 3000 (w_err w)
        else
          let+ (result, _, _) := xcall [XKey] (i_sign i (test_signer EDDSA key_pair NULL_UBUF None) (UBuf test_payload) (stack_buf 300)) in
          if negb (terr_eqb result ERR_NEED_AUXILIARY_BUFFER) then failed 4000 result
          else
            let+ (result, _, _) := xcall [XKey] (i_sign i (test_signer EDDSA key_pair NULL_UBUF (Some 5)) (UBuf test_payload) (stack_buf 300)) in
            if negb (terr_eqb result ERR_AUXILIARY_BUFFER_SIZE) then failed 5000 result else xret 0%Z).
