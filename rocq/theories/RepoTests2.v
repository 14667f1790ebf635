(** The signing and verification tests of /repo/test/t_cose_test.c that need no
    key, run against the model with the test crypto adapter (bundled SHA-256).
    Each definition follows the C function of that name and returns 0 if the
    test passes; where the C code adds the error to a number, the number alone
    is returned. They check the model against the repository's recorded
    behaviour (among it a digest computed by another COSE implementation and
    bytes of RFC 8152 and RFC 8392); they are not proofs of any property. *)
From Coq Require Import String.
From Verif Require Import Base Const QEnc Crypto Sha256 TestCrypto ShortCircuit Sign QDec Params Verify.
Open Scope N_scope. Open Scope list_scope.

Definition str (s : string) : bytes := list_byte_of_string s.
Definition of_bytes (l : list N) : bytes := map byte_of_N l.

Definition adapter : crypto := test_crypto true (repeat x00 64) cfg_full.
Definition failing (mode : Z) : crypto := test_crypto_failing mode true (repeat x00 64) cfg_full.
Definition buffer (n : N) : wbuf := {| wb_null := false; wb_len := n |}.
Definition input_payload : bytes := str "This is the content."%string.

Definition after {A} (m : M A) (k : A -> Z) : Z := match snd m with Ret r => k r | UB _ => 99999%Z end.
Definition expect (b : bool) (code : Z) (k : Z) : Z := if b then k else code.
Definition is (e e' : terr) : bool := terr_eqb e e'.
Definition bytes_eqb (a b : bytes) : bool := if list_eq_dec Byte.byte_eq_dec a b then true else false.
Definition the_bytes (r : option ubufc) : bytes := match r with Some (UBuf b) => b | _ => [] end.
Definition head (b : bytes) (n : nat) : bytes := firstn n b.
Definition tail (b : bytes) (n : nat) : bytes := skipn n b.

Definition sc : sctx := sign_init OPT_SHORT_CIRCUIT_SIG ES256.
Definition sign_it (me : sctx) (payload : bytes) (n : N) (k : terr -> bytes -> Z) : Z :=
  after (sign cfg_full adapter me (UBuf payload) (buffer n)) (fun r => k (fst (fst r)) (the_bytes (snd r))).
Definition verify_it (flags : N) (msg : bytes) (k : terr -> bytes -> option params -> vctx -> Z) : Z :=
  after (verify cfg_full adapter NULL_UBUF (verify_init flags) msg (Some NULL_UBUF) true)
        (fun w => k (w_err w) (the_bytes (w_payload w)) (w_params w) (w_ctx w)).

(** The digest of the to-be-signed bytes of C-COSE's sign-pass-03.json, 79-87 *)
Definition hash_of_tbs : bytes := of_bytes
  [76; 51; 99; 180; 153; 225; 218; 196; 170; 252; 141; 105; 35; 241; 202; 101;
   119; 223; 218; 128; 218; 36; 229; 79; 185; 36; 36; 144; 100; 130; 124; 136].

(** short_circuit_self_test, 28-144. The calls of t_cose_sign1_sign_aad pass the
    payload first and the AAD second, against the declaration (see C07). *)
Definition short_circuit_self_test : Z :=
  sign_it sc input_payload 200 (fun err msg => expect (is err T_SUCCESS) 1000
  (verify_it OPT_ALLOW_SHORT_CIRCUIT msg (fun err payload _ _ => expect (is err T_SUCCESS) 2000
  (expect (bytes_eqb payload input_payload) 3000
  (expect (bytes_eqb hash_of_tbs (tail msg (List.length msg - 32))) 4000
  (after (sign_aad cfg_full adapter sc (UBuf input_payload) (UBuf (str "some aad")) (buffer 200))
   (fun r => let msg := the_bytes (snd r) in expect (is (fst (fst r)) T_SUCCESS) 1000
  (after (verify_aad cfg_full adapter NULL_UBUF (verify_init OPT_ALLOW_SHORT_CIRCUIT) msg
            (UBuf (str "some aad")) (Some NULL_UBUF) false)
   (fun w => expect (is (w_err w) T_SUCCESS) 2000
  (expect (bytes_eqb (the_bytes (w_payload w)) input_payload) 3000 0))))))))))%Z.
Example test_short_circuit_self : short_circuit_self_test = 0%Z.
Proof. vm_compute. reflexivity. Qed.

(** short_circuit_self_detached_content_test, 150-232 *)
Definition short_circuit_self_detached_content_test : Z :=
  (after (sign_detached cfg_full adapter sc NULL_UBUF (UBuf input_payload) (buffer 200))
   (fun r => let msg := the_bytes (snd r) in expect (is (fst (fst r)) T_SUCCESS) 1000
  (after (verify_detached cfg_full adapter NULL_UBUF (verify_init OPT_ALLOW_SHORT_CIRCUIT) msg
            NULL_UBUF (UBuf input_payload) false)
   (fun w => expect (is (w_err w) T_SUCCESS) 2000
  (expect (bytes_eqb hash_of_tbs (tail msg (List.length msg - 32))) 4000 0)))))%Z.
Example test_short_circuit_self_detached : short_circuit_self_detached_content_test = 0%Z.
Proof. vm_compute. reflexivity. Qed.

(** q_useful_buf_find_bytes *)
Fixpoint find_bytes (b what : bytes) : option nat :=
  if bytes_eqb (firstn (List.length what) b) what then Some 0%nat
  else match b with [] => None | _ :: r => option_map S (find_bytes r what) end.

(** short_circuit_verify_fail_test, 238-339 *)
Definition short_circuit_verify_fail_test : Z :=
  sign_it sc input_payload 200 (fun err msg => expect (is err T_SUCCESS) 1000
  match find_bytes msg input_payload with
  | None => 6000
  | Some off =>
  (verify_it OPT_ALLOW_SHORT_CIRCUIT (firstn off msg ++ str "h" ++ skipn (S off) msg)
     (fun err _ _ _ => expect (is err ERR_SIG_VERIFY) 4000
  (after (sign_aad cfg_full adapter sc (UBuf input_payload) (UBuf (str "some aad")) (buffer 200))
   (fun r => expect (is (fst (fst r)) T_SUCCESS) 1000
  (after (verify_aad cfg_full adapter NULL_UBUF (verify_init OPT_ALLOW_SHORT_CIRCUIT) (the_bytes (snd r))
            (UBuf (str "home aad")) (Some NULL_UBUF) false)
   (fun w => expect (is (w_err w) ERR_SIG_VERIFY) 4000 0))))))
  end)%Z.
Example test_short_circuit_verify_fail : short_circuit_verify_fail_test = 0%Z.
Proof. vm_compute. reflexivity. Qed.

(** Signing in steps; [before]: what the caller encodes in front, [middle]: the payload. *)
Definition in_steps (me : sctx) (before middle : list eop) (b : wbuf) (k : terr -> terr -> enc -> Z) : Z :=
  let e := eops_run (enc_init b) before in
  let '(err, me, e) := encode_parameters cfg_full me e in
  after (encode_signature cfg_full adapter me (eops_run e middle)) (fun r => k err (fst (fst r)) (snd r)).

(** short_circuit_signing_error_conditions_test, 345-417 *)
Definition short_circuit_signing_error_conditions_test : Z :=
  sign_it (sign_init OPT_SHORT_CIRCUIT_SIG 0) input_payload 300 (fun err _ =>
  expect (is err ERR_UNSUPPORTED_SIGNING_ALG) (-1)
  (sign_it (sign_init OPT_SHORT_CIRCUIT_SIG (-4444444)) input_payload 300 (fun err _ =>
  expect (is err ERR_UNSUPPORTED_SIGNING_ALG) (-2)
  (in_steps sc [] [OpText (UBuf (str "payload")); OpCloseMap] (buffer 300) (fun _ err _ =>
  expect (is err ERR_CBOR_FORMATTING) (-3)
  (sign_it sc input_payload 15 (fun err _ => expect (is err ERR_TOO_SMALL) (-4) 0)))))))%Z.
Example test_short_circuit_signing_error_conditions : short_circuit_signing_error_conditions_test = 0%Z.
Proof. vm_compute. reflexivity. Qed.

Definition cwt : list eop :=
  [OpOpenMap; OpInt 1; OpText (UBuf (str "coap://as.example.com")); OpInt 2; OpText (UBuf (str "erikw"));
   OpInt 3; OpText (UBuf (str "coap://light.example.com")); OpInt 4; OpInt 1444064944; OpInt 5; OpInt 1443944944;
   OpInt 6; OpInt 1443944944; OpInt 7; OpBytes (UBuf (of_bytes [11; 113])); OpCloseMap].

(** 483-491 *)
Definition rfc8392_payload : bytes := of_bytes
  [88; 80; 167; 1; 117; 99; 111; 97; 112; 58; 47; 47; 97; 115; 46; 101; 120; 97; 109; 112; 108; 101;
   46; 99; 111; 109; 2; 101; 101; 114; 105; 107; 119; 3; 120; 24; 99; 111; 97; 112; 58; 47; 47; 108;
   105; 103; 104; 116; 46; 101; 120; 97; 109; 112; 108; 101; 46; 99; 111; 109; 4; 26; 86; 18; 174; 176;
   5; 26; 86; 16; 217; 240; 6; 26; 86; 16; 217; 240; 7; 66; 11; 113].

Definition finished (e : enc) (k : bytes -> Z) : Z :=
  match enc_finish e with (QE_SUCCESS, r) => k (the_bytes r) | _ => 3000%Z end.

(** short_circuit_make_cwt_test, 423-543 *)
Definition short_circuit_make_cwt_test : Z :=
  in_steps sc [] cwt (buffer 200) (fun err err2 e => expect (is err T_SUCCESS) 1000 (expect (is err2 T_SUCCESS) 2000
  (finished e (fun msg =>
  expect (bytes_eqb (head msg 6) (of_bytes [210; 132; 67; 161; 1; 38]%N)) (-1)
  (expect (bytes_eqb (head (tail msg (6 + 36)%nat) 82) rfc8392_payload) (-2)
  (verify_it OPT_ALLOW_SHORT_CIRCUIT msg (fun err payload _ _ => expect (is err T_SUCCESS) 4000
  (expect (bytes_eqb payload (tail rfc8392_payload 2)) 5000 0))))))))%Z.
Example test_short_circuit_make_cwt : short_circuit_make_cwt_test = 0%Z.
Proof. vm_compute. reflexivity. Qed.

(** [b] with one added to the byte at [n] *)
Definition bump (b : bytes) (n : nat) : bytes :=
  firstn n b ++ map (fun x => byte_of_N ((Byte.to_N x + 1) mod 256)) (firstn 1 (skipn n b)) ++ skipn (S n) b.

(** short_circuit_decode_only_test, 549-641 *)
Definition short_circuit_decode_only_test : Z :=
  in_steps sc [] [OpText (UBuf (str "payload"))] (buffer 200)
   (fun err err2 e => expect (is err T_SUCCESS) 1000 (expect (is err2 T_SUCCESS) 2000
  (finished e (fun msg =>
  (verify_it OPT_DECODE_ONLY (bump msg (List.length msg - 64)) (fun err payload _ _ => expect (is err T_SUCCESS) 4000
  (expect (bytes_eqb payload (the_bytes (snd (enc_finish (eops_run (enc_init (buffer 10)) [OpText (UBuf (str "payload"))])))))
     5000 0)))))))%Z.
Example test_short_circuit_decode_only : short_circuit_decode_only_test = 0%Z.
Proof. vm_compute. reflexivity. Qed.

(** The first 32 bytes of rfc8152_example_2_1, 660-663 *)
Definition rfc8152_example_2_1 : bytes := of_bytes
  [210; 132; 67; 161; 1; 38; 161; 4; 66; 49; 49; 84; 84; 104; 105; 115;
   32; 105; 115; 32; 116; 104; 101; 32; 99; 111; 110; 116; 101; 110; 116; 46].

(** cose_example_test, 676-715 *)
Definition cose_example_test : Z :=
  sign_it (set_signing_key sc NULL_KEY (UBuf (str "11"))) input_payload 200 (fun err msg =>
  expect (is err T_SUCCESS) 1 (expect (bytes_eqb (head msg 32) rfc8152_example_2_1) (-1000) 0))%Z.
Example test_cose_example : cose_example_test = 0%Z.
Proof. vm_compute. reflexivity. Qed.

(** content_type_test, 962-1046 *)
Definition content_type_test : Z :=
  sign_it (set_content_type_uint sc 42) input_payload 200 (fun err msg => expect (is err T_SUCCESS) 1
  (verify_it OPT_ALLOW_SHORT_CIRCUIT msg (fun err _ p _ => expect (is err T_SUCCESS) 2
  (expect (match p with Some p => p_ct_uint p =? 42 | None => false end)%N 5
  (sign_it (set_content_type_tstr sc (str "text/plain")) input_payload 200 (fun err msg => expect (is err T_SUCCESS) 1
  (verify_it OPT_ALLOW_SHORT_CIRCUIT msg (fun err _ p _ => expect (is err T_SUCCESS) 2
  (expect (match p with Some p => bytes_eqb (the_bytes (Some (p_ct_tstr p))) (str "text/plain") | None => false end) 6
  (sign_it (set_content_type_uint (set_content_type_tstr sc (str "text/plain")) 42) (str "payload") 200
    (fun err _ => expect (is err ERR_DUPLICATE_PARAMETER) 1 0)))))))))))%Z.
Example test_content_type : content_type_test = 0%Z.
Proof. vm_compute. reflexivity. Qed.

(** short_circuit_hash_fail_test, 1128-1183 *)
Definition short_circuit_hash_fail_test : Z :=
  after (sign cfg_full (failing 1) sc (UBuf input_payload) (buffer 200)) (fun r =>
  expect (is (fst (fst r)) ERR_HASH_GENERAL_FAIL) 2000
  (after (sign cfg_full (failing 2) sc (UBuf input_payload) (buffer 200)) (fun r =>
  expect (is (fst (fst r)) ERR_HASH_GENERAL_FAIL) 2000 0)))%Z.
Example test_short_circuit_hash_fail : short_circuit_hash_fail_test = 0%Z.
Proof. vm_compute. reflexivity. Qed.

Definition tag_is (v : vctx) (n t : N) : bool := match get_nth_tag v n with Ret x => x =? t | UB _ => false end.

(** tags_test, 1190-1527 *)
Definition tags_test : Z :=
  in_steps sc [OpTag (900)%N; OpTag (901)%N] cwt (buffer 200)
   (fun err err2 e => expect (is err T_SUCCESS) 1000 (expect (is err2 T_SUCCESS) 2000
  (finished e (fun msg =>
  expect (bytes_eqb (head msg 12) (of_bytes [217; 3; 132; 217; 3; 133; 210; 132; 67; 161; 1; 38]%N)) (-1)
  (expect (bytes_eqb (head (tail msg (12 + 36)%nat) 82) rfc8392_payload) (-2)
  (verify_it OPT_ALLOW_SHORT_CIRCUIT msg (fun err payload _ v => expect (is err T_SUCCESS) 4000
  (expect (tag_is v 0 901) (-3) (expect (tag_is v 1 900) (-3) (expect (tag_is v 2 TAG_INVALID64) (-4)
  (expect (bytes_eqb payload (tail rfc8392_payload 2)) 5000
  (verify_it (N.lor OPT_ALLOW_SHORT_CIRCUIT OPT_TAG_REQUIRED) msg (fun err _ _ _ => expect (is err T_SUCCESS) 4000
  (verify_it (N.lor OPT_ALLOW_SHORT_CIRCUIT OPT_TAG_PROHIBITED) msg
     (fun err _ _ _ => expect (is err ERR_INCORRECTLY_TAGGED) 4000
  (in_steps sc [OpTag (900)%N; OpTag (901)%N; OpTag (902)%N; OpTag (903)%N; OpTag (904)%N]
     [OpOpenMap; OpInt 1; OpText (UBuf (str "coap://as.example.com")); OpCloseMap] (buffer 200)
   (fun err err2 e => expect (is err T_SUCCESS) 1000 (expect (is err2 T_SUCCESS) 2000
  (finished e (fun msg =>
  (verify_it OPT_ALLOW_SHORT_CIRCUIT msg (fun err _ _ _ => expect (is err ERR_TOO_MANY_TAGS) 4000
  (in_steps (sign_init (N.lor OPT_SHORT_CIRCUIT_SIG OPT_OMIT_CBOR_TAG) ES256) [OpTag (900)%N; OpTag (901)%N] cwt (buffer 200)
   (fun err err2 e => expect (is err T_SUCCESS) 1000 (expect (is err2 T_SUCCESS) 2000
  (finished e (fun msg =>
  expect (bytes_eqb (head msg 11) (of_bytes [217; 3; 132; 217; 3; 133; 132; 67; 161; 1; 38]%N)) (-1)
  (verify_it (N.lor OPT_ALLOW_SHORT_CIRCUIT OPT_TAG_REQUIRED) msg
     (fun err _ _ _ => expect (is err ERR_INCORRECTLY_TAGGED) 4000
  (verify_it (N.lor OPT_ALLOW_SHORT_CIRCUIT OPT_TAG_PROHIBITED) msg (fun err _ _ _ => expect (is err T_SUCCESS) 4000
   0)))))))))))))))))))))))))))))))%Z.
Example test_tags : tags_test = 0%Z.
Proof. vm_compute. reflexivity. Qed.

(** QCBOREncode_FinishGetSize *)
Definition finished_size (e : enc) (k : N -> Z) : Z :=
  match enc_finish e with (QE_SUCCESS, Some (UNull n)) => k n | (QE_SUCCESS, Some (UBuf b)) => k (N.of_nat (List.length b)) | _ => 4000%Z end.

(** get_size_test, 1530-1621 *)
Definition get_size_test : Z :=
  in_steps sc [] [OpEncoded (UBuf (str "payload"))] {| wb_null := true; wb_len := SIZE_MAX |}
   (fun err err2 e => expect (is err T_SUCCESS) 2000 (expect (is err2 T_SUCCESS) 3000
  (finished_size e (fun n => expect ((103 <=? n) && (n <=? 133))%N (-1)
  (in_steps sc [] [OpEncoded (UBuf (str "payload"))] (buffer 300)
   (fun err err2 e => expect (is err T_SUCCESS) 2000 (expect (is err2 T_SUCCESS) 3000
  (finished_size e (fun n2 => expect (n2 =? n)%N (-2)
  (sign_it sc (str "payload") 300 (fun err msg => expect (is err T_SUCCESS) 7000
  (expect (N.of_nat (List.length msg) =? n)%N (-3) 0))))))))))))%Z.
Example test_get_size : get_size_test = 0%Z.
Proof. vm_compute. reflexivity. Qed.
