(** C57, continued: bytes that are a data item but no COSE_Sign1. *)
From Verif Require Import Base Const QEnc QDec Crypto Util ShortCircuit Params Verify Sign Spec DecSpec SignSpec Toy.
From Verif Require Import Unique RoundTrip PassSpec ErrorSpec VerifySpec ItemSpec ItemFacts TailFacts Prop_Error.
From Coq Require Import Lia.
Open Scope N_scope. Open Scope list_scope.

(** A data item that is no message always gives an error, without any adapter
    call, and the error names a fault the item has. *)
Theorem C57_no_message : forall c cr junk me msg t aad payload want dc log w,
  length (v_tags me) = 4%nat -> reads 0 t msg -> (forall g pm, ~ message msg g pm) ->
  verify_internal c cr junk me msg aad payload want dc = (log, Ret w) ->
  log = [] /\ w_err w <> T_SUCCESS /\ item_fault c (v_flags me) dc t (w_err w).
Proof. exact no_message_error. Qed.
Print Assumptions C57_no_message.

(** A data item with nothing malformed in it or in its protected parameters is not
    called malformed, message or not (an adapter could answer so, hence the empty log). *)
Theorem C57_well_formed : forall c cr junk me msg t aad payload want dc w ad gv,
  length (v_tags me) = 4%nat -> holds aad ad -> detached_arg dc payload gv ->
  reads 0 t msg -> all_formed t -> (forall b l, body t = CArray (CBytes b :: l) -> prot_formed b) ->
  verify_internal c cr junk me msg aad payload want dc = ([], Ret w) -> w_err w <> ERR_CBOR_NOT_WELL_FORMED.
Proof. exact well_formed_error. Qed.
Print Assumptions C57_well_formed.

(** An array of one number meets the hypotheses of both. *)
Definition one_number : cbor := CArray [CUInt 7].
Example C57_no_message_case :
  reads 0 one_number (encode one_number) /\ (forall g pm, ~ message (encode one_number) g pm) /\
  all_formed one_number /\ outcome 0 (encode one_number) (Some NULL_UBUF) false = Some ERR_PARAMETER_CBOR.
Proof.
  assert (R : reads 0 one_number (encode one_number)).
  { apply reads_array; [unfold max_nesting; lia|vm_compute; discriminate|]. repeat constructor. }
  split; [exact R|]. split; [|split; [|vm_compute; reflexivity]].
  - intros g pm (t & rest & Ht & (_ & _ & u & _ & _ & E) & _).
    destruct (reads_unique _ _ _ _ _ _ [] [] R Ht eq_refl) as (<- & _ & _). discriminate E.
  - intros b H. inversion H as [| |y l I P| |]; subst. destruct I as [<-|[]]. inversion P.
Qed.

(** Each way of not being a message, by its code. *)
Definition code_at (dc : bool) (t : cbor) : option terr := outcome 0 (encode t) (Some (UBuf toy_payload)) dc.
Example C57_item_codes_case :
  let p := CBytes (encode (CMap [alg])) in let m := CMap [] in let b := CBytes [x01] in
  let deep x := CTag 1 (CTag 1 (CTag 1 (CTag 1 (CTag 1 x)))) in
  code_at false (CUInt 7) = Some ERR_SIGN1_FORMAT /\ code_at false m = Some ERR_SIGN1_FORMAT /\
  code_at false (deep (CArray [])) = Some ERR_TOO_MANY_TAGS /\ code_at false (deep m) = Some ERR_TOO_MANY_TAGS /\
  code_at false (CArray []) = Some ERR_PARAMETER_CBOR /\ code_at false (CArray [m]) = Some ERR_PARAMETER_CBOR /\
  code_at false (CArray [CBytes [x07]; m; b; b]) = Some ERR_PARAMETER_CBOR /\
  code_at false (CArray [CBytes [xa1; x01]; m; b; b]) = Some ERR_CBOR_NOT_WELL_FORMED /\
  code_at false (CArray [CBytes [x1c]; m; b; b]) = Some ERR_CBOR_NOT_WELL_FORMED /\
  code_at false (CArray [CBytes (encode (CMap [(CUInt 1, CUInt 2147483648)]))]) = Some ERR_NON_INTEGER_ALG_ID /\
  code_at false (CArray [p]) = Some ERR_PARAMETER_CBOR /\ code_at false (CArray [p; b]) = Some ERR_PARAMETER_CBOR /\
  code_at false (CArray [p; CMap [alg]]) = Some ERR_PARAMETER_NOT_PROTECTED /\
  code_at false (CArray [p; m]) = Some ERR_SIGN1_FORMAT /\ code_at true (CArray [p; m]) = Some ERR_CBOR_FORMATTING /\
  code_at false (CArray [p; m; CNull; b]) = Some ERR_SIGN1_FORMAT /\ code_at false (CArray [p; m; deep b; b]) = Some ERR_TOO_MANY_TAGS /\
  code_at false (CArray [p; m; b]) = Some ERR_SIGN1_FORMAT /\ code_at false (CArray [p; m; b; CNull]) = Some ERR_SIGN1_FORMAT /\
  code_at false (CArray [p; m; b; deep b]) = Some ERR_TOO_MANY_TAGS /\ code_at true (CArray [p; m; CNull]) = Some ERR_SIGN1_FORMAT.
Proof. vm_compute. repeat split. Qed.

(** Bytes after a data item: never success and no adapter call; the code is the one for
    malformed input unless the item alone gives an error too, with the same code. *)
Theorem C57_trailing_bytes : forall c cr junk me msg t tail aad payload want dc gv log w,
  length (v_tags me) = 4%nat -> detached_arg dc payload gv -> reads 0 t msg -> tail <> [] ->
  verify_internal c cr junk me (msg ++ tail) aad payload want dc = (log, Ret w) ->
  log = [] /\ w_err w <> T_SUCCESS /\
  (w_err w = ERR_CBOR_NOT_WELL_FORMED \/
   exists w', verify_internal c cr junk me msg aad payload want dc = ([], Ret w') /\ w_err w' = w_err w).
Proof. exact trailing_error. Qed.
Print Assumptions C57_trailing_bytes.

Example C57_trailing_bytes_case :
  let m := toy_built [] (encode (CMap [alg])) [] [] in
  outcome 0 m (Some NULL_UBUF) false = Some T_SUCCESS /\
  outcome 0 (m ++ [x00]) (Some NULL_UBUF) false = Some ERR_CBOR_NOT_WELL_FORMED /\
  outcome 0 (encode one_number ++ [x00]) (Some NULL_UBUF) false = Some ERR_PARAMETER_CBOR.
Proof. vm_compute. repeat split. Qed.
