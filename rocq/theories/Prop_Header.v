(** C77: the rules of RFC 8152 for header parameters. *)
From Verif Require Import Base Const QEnc QDec Crypto Util ShortCircuit Params Verify Sign Spec SignSpec Toy.
From Verif Require Import DecSpec VerifySafe VerifyTop VerifyMore VerifyMore2 VerifyMore3 VerifyMore4 VerifySpec Prop_Verify HeaderSpec HeaderFacts.
Open Scope N_scope. Open Scope list_scope.

(** Every message made obeys them. *)
Theorem C77_made : forall c cr q me det payload aad pl ad n log me' r,
  configured q me -> holds payload pl -> holds aad ad -> n < 2 ^ 64 ->
  sign_aad_internal c cr me det payload aad {| wb_null := false; wb_len := n |} = (log, Ret (T_SUCCESS, me', r)) ->
  exists m g pm, r = Some (UBuf m) /\ message m g pm /\ conforms pm (g_unprot g) /\ g_extra g = [].
Proof. exact made_headers. Qed.
Print Assumptions C77_made.

Example C77_made_case : exists log log2 me' me2 m,
  configured (bare_request (-7) 0) (bare_signer (-7) 0) /\
  sign_aad_internal cfg_full toy (bare_signer (-7) 0) false (UBuf toy_payload) (UBuf toy_aad) (out_buf 200)
    = (log, Ret (T_SUCCESS, me', Some (UBuf m))) /\
  sign_aad_internal cfg_full toy (set_content_type_tstr (set_content_type_uint (bare_signer (-7) 0) 1) [x61])
      false (UBuf toy_payload) (UBuf toy_aad) (out_buf 200)
    = (log2, Ret (ERR_DUPLICATE_PARAMETER, me2, None)).
Proof. do 5 eexists. split; [apply bare_configured|]. split; vm_compute; reflexivity. Qed.

(** A message that is accepted has labels and values of the types they must
    have, up to tags, and the algorithm and crit are protected. *)
Theorem C77_accepted_partial : forall c cr me msg aad payload want dc log w ad gv g pm,
  call_ok me aad ad dc payload gv -> message msg g pm -> succeeds c cr me msg aad payload want dc log w ->
  (forall k v, In (k, v) (all_params g pm) -> a_label (body k)) /\
  (forall k v z, In (k, v) (all_params g pm) -> int_value k = Some z ->
     dis_content_type c = false \/ z <> 3%Z -> value_type z (untagged v)) /\
  (forall k v z, In (k, v) (g_unprot g) -> int_value k = Some z -> z <> 1%Z /\ z <> 2%Z).
Proof. exact accepted_headers. Qed.
Print Assumptions C77_accepted_partial.

(** The hypotheses are met by [plain_case]. Further: types that are refused. *)
Example C77_case :
  err_of 0 (toy_built [] es256_prot [(CUInt 5, CBytes [x41]); (CText [x61], CArray [])] []) = Some T_SUCCESS /\
  err_of 0 (toy_built [] es256_prot [(CBytes [x61], CUInt 0)] []) = Some ERR_PARAMETER_CBOR /\
  err_of 0 (toy_built [] es256_prot [(CUInt 5, CText [x41])] []) = Some ERR_PARAMETER_CBOR /\
  err_of 0 (toy_built [] es256_prot [(CUInt 4, CText [x41])] []) = Some ERR_PARAMETER_CBOR /\
  err_of 0 (toy_built [] es256_prot [(CUInt 6, CUInt 1)] []) = Some ERR_PARAMETER_CBOR /\
  err_of 0 (toy_built [] (prot_of [(CUInt 1, CText [x41])]) [] []) = Some ERR_PARAMETER_CBOR /\
  err_of 0 (toy_built [] [] es256 []) = Some ERR_PARAMETER_NOT_PROTECTED /\
  err_of 0 (toy_built [] es256_prot [(CUInt 3, CBytes [])] []) = Some ERR_BAD_CONTENT_TYPE /\
  err_of 0 (toy_built [] (prot_of (es256 ++ [(CUInt 2, CArray [])])) [] []) = Some ERR_CRIT_PARAMETER /\
  err_of 0 (toy_built [] (prot_of (es256 ++ [(CUInt 2, CArray [CBytes []])])) [] []) = Some ERR_CRIT_PARAMETER.
Proof. repeat split; vm_compute; reflexivity. Qed.

(** The other rules are not enforced. IV and Partial IV, both present: *)
Theorem C77_both_ivs_refuted : exists um log w p,
  In (CInt 5, CBytes [x41]) um /\ In (CInt 6, CBytes [x42]) um /\
  toy_verify 0 (toy_built [] es256_prot um []) = (log, Ret w) /\ w_err w = T_SUCCESS /\
  w_params w = Some p /\ p_iv p = UBuf [x41] /\ p_partial_iv p = UBuf [x42].
Proof.
  exists [(CUInt 5, CBytes [x41]); (CUInt 6, CBytes [x42])]. do 3 eexists. split; [cbn; auto|]. split; [cbn; auto|].
  split; [vm_compute; reflexivity|]. split; [reflexivity|]. split; [reflexivity|]. split; reflexivity.
Qed.
Print Assumptions C77_both_ivs_refuted.

(** A parameter t_cose does not know, twice in a bucket and in both of them: *)
Theorem C77_twice_refuted : exists pm um log w,
  In (CInt 99, CUInt 0) pm /\ ~ NoDup (map fst um) /\ In (CInt 99, CUInt 1) um /\
  toy_verify 0 (toy_built [] (prot_of pm) um []) = (log, Ret w) /\ w_err w = T_SUCCESS.
Proof.
  exists (es256 ++ [(CUInt 99, CUInt 0)]), [(CUInt 99, CUInt 1); (CUInt 99, CUInt 2)]. do 2 eexists.
  split; [cbn; auto|]. split; [intro N; inversion N as [|? ? A ?]; apply A; cbn; auto|]. split; [cbn; auto|].
  split; [vm_compute; reflexivity|reflexivity].
Qed.
Print Assumptions C77_twice_refuted.

(** crit listing a parameter that is not there, or not protected: *)
Theorem C77_crit_absent_refuted : exists pm um log w,
  In (CInt 2, CArray [CInt 4; CText [x61]]) pm /\ map fst um = [CInt 4] /\ map fst pm = [CInt 1; CInt 2] /\
  toy_verify 0 (toy_built [] (prot_of pm) um []) = (log, Ret w) /\ w_err w = T_SUCCESS.
Proof.
  exists (es256 ++ [(CUInt 2, CArray [CUInt 4; CText [x61]])]), [(CUInt 4, CBytes [x41])]. do 2 eexists.
  split; [cbn; auto|]. split; [reflexivity|]. split; [reflexivity|].
  split; [vm_compute; reflexivity|reflexivity].
Qed.
Print Assumptions C77_crit_absent_refuted.

(** Labels and values with tags around them: *)
Theorem C77_tagged_refuted : exists um log w p,
  um = [(CTag 30 (CInt 4), CTag 40 (CBytes [x41]))] /\
  toy_verify 0 (toy_built [] es256_prot um []) = (log, Ret w) /\ w_err w = T_SUCCESS /\
  w_params w = Some p /\ p_kid p = UBuf [x41].
Proof.
  eexists. do 3 eexists. split; [reflexivity|].
  split; [vm_compute; reflexivity|]. split; [reflexivity|]. split; reflexivity.
Qed.
Print Assumptions C77_tagged_refuted.
