(** C57, continued: bytes that do not begin with a data item. *)
From Verif Require Import Base Const QEnc QDec Crypto Util ShortCircuit Params Verify Sign Spec DecSpec SignSpec Toy.
From Verif Require Import Unique RoundTrip PassSpec ErrorSpec VerifySpec WideSpec ItemSpec BrokenSpec OpensFacts ItemFacts BrokenFacts Prop_Error.
From Coq Require Import Lia.
Open Scope N_scope. Open Scope list_scope.

(** Every byte string begins with a data item, or is an array that breaks off, or
    is neither. C57_no_message and C57_trailing_bytes treat the first kind. *)
Theorem C57_every_message : forall msg,
  (exists t b tail, msg = b ++ tail /\ reads 0 t b) \/ (exists ts l rest, breaks_off msg ts l rest) \/ no_array msg.
Proof. exact every_message. Qed.
Print Assumptions C57_every_message.

(** An array that breaks off gives an error, without any adapter call: one that
    names a fault of the elements before the break, or one for the place of the break. *)
Theorem C57_broken : forall c cr junk me msg ts l rest aad payload want dc log w,
  length (v_tags me) = 4%nat -> breaks_off msg ts l rest ->
  verify_internal c cr junk me msg aad payload want dc = (log, Ret w) ->
  log = [] /\ w_err w <> T_SUCCESS /\
  (item_fault c (v_flags me) dc (fold_right CTag (CArray l) ts) (w_err w) \/ break_code dc l rest (w_err w)).
Proof. exact broken_error. Qed.
Print Assumptions C57_broken.

(** Bytes that are no data item and no array at all. *)
Theorem C57_no_array : forall c cr junk me msg aad payload want dc log w, no_array msg ->
  verify_internal c cr junk me msg aad payload want dc = (log, Ret w) ->
  log = [] /\ no_item_code msg (w_err w).
Proof. exact no_array_error. Qed.
Print Assumptions C57_no_array.

(** A message that is well-formed by RFC 8949, limits of the decoder aside, and whose
    protected parameters are, is not called malformed. *)
Theorem C57_never_malformed : forall c cr junk me msg aad payload want dc w ad gv,
  length (v_tags me) = 4%nat -> holds aad ad -> detached_arg dc payload gv -> well_formed msg ->
  (forall ts cnt hb h b r, msg = hb ++ h ++ b ++ r -> opens 4 ts cnt hb -> is_head 2 (blen b) h -> prot_formed b) ->
  verify_internal c cr junk me msg aad payload want dc = ([], Ret w) -> w_err w <> ERR_CBOR_NOT_WELL_FORMED.
Proof. exact wide_error. Qed.
Print Assumptions C57_never_malformed.

(** A message cut between two elements: unless the elements before the cut have a
    fault, the code depends on their number alone. *)
Theorem C57_cut : forall c cr junk me msg ts l aad payload want dc log w,
  length (v_tags me) = 4%nat -> breaks_off msg ts l [] ->
  verify_internal c cr junk me msg aad payload want dc = (log, Ret w) ->
  item_fault c (v_flags me) dc (fold_right CTag (CArray l) ts) (w_err w) \/
  w_err w = match length l with
            | O | 1%nat => ERR_PARAMETER_CBOR
            | 2%nat => if dc then ERR_CBOR_FORMATTING else ERR_SIGN1_FORMAT
            | _ => ERR_SIGN1_FORMAT
            end.
Proof. exact cut_error. Qed.
Print Assumptions C57_cut.

(** A message of the toy signer cut after [n] bytes. *)
Definition whole : bytes := toy_built [] (encode (CMap [alg])) [] [].
Definition cut (dc : bool) (n : nat) : option terr := outcome 0 (firstn n whole) (Some (UBuf toy_payload)) dc.

Lemma breaks_array n l b rest : n < 24 -> reads_all 1 l b -> blen l < n ->
  match get_elem 1 rest with
  | IErr _ => True
  | IItem it r => match skip 1 (push_val (i_val it) []) r with inl _ => True | inr _ => False end
  end -> breaks_off ([initial 4 n] ++ b ++ rest) [] l rest.
Proof.
  intros Hn Hr Hl No. exists (Some n), [initial 4 n], b. split; [reflexivity|]. split.
  - constructor; [now constructor|unfold max_items; lia].
  - split; [exact Hr|]. split; [exact Hl|]. now apply no_item_computed.
Qed.

(** Cut after the protected bucket, and within the payload. *)
Example C57_broken_case :
  let p := CBytes (encode (CMap [alg])) in
  breaks_off (firstn 5 whole) [] [p] [] /\ cut false 5 = Some ERR_PARAMETER_CBOR /\
  breaks_off (firstn 8 whole) [] [p; CMap []] (firstn 2 (skipn 6 whole)) /\ cut false 8 = Some ERR_CBOR_NOT_WELL_FORMED.
Proof.
  assert (P : reads 1 (CBytes (encode (CMap [alg]))) (encode (CBytes (encode (CMap [alg]))))).
  { change (encode (CBytes (encode (CMap [alg])))) with ([initial 2 3] ++ encode (CMap [alg])). constructor. now constructor. }
  cbv zeta. split; [|split; [vm_compute; reflexivity|split; [|vm_compute; reflexivity]]].
  - assert (E : firstn 5 whole = [initial 4 4] ++ (encode (CBytes (encode (CMap [alg]))) ++ []) ++ []) by (vm_compute; reflexivity).
    rewrite E. apply breaks_array; [lia|repeat constructor; exact P|vm_compute; reflexivity|vm_compute; exact I].
  - assert (E : firstn 8 whole = [initial 4 4] ++ (encode (CBytes (encode (CMap [alg]))) ++ [xa0] ++ []) ++ firstn 2 (skipn 6 whole))
      by (vm_compute; reflexivity).
    rewrite E. apply breaks_array; [lia| |vm_compute; reflexivity|vm_compute; exact I].
    constructor; [exact P|]. constructor; [|constructor].
    refine (rd_map 1 [] [initial 5 0] [] _ _ _ _); [now constructor|vm_compute; discriminate|now left|constructor].
Qed.

Example C57_no_array_case :
  no_array [] /\ no_array [x18] /\ no_array [xa1; x01] /\
  outcome 0 [] (Some NULL_UBUF) false = Some ERR_SIGN1_FORMAT /\
  outcome 0 [x18] (Some NULL_UBUF) false = Some ERR_CBOR_NOT_WELL_FORMED /\
  outcome 0 [xa1; x01] (Some NULL_UBUF) false = Some ERR_SIGN1_FORMAT.
Proof.
  assert (A : forall m, match get_elem 0 m with
                        | IErr _ => True
                        | IItem it r => match skip 0 (push_val (i_val it) []) r with inl _ => True | inr _ => False end
                        end -> match get_elem 0 m with IErr _ => True | IItem it _ => match i_val it with VAgg false _ => False | _ => True end end ->
                        no_array m).
  { intros m H1 H2. split; [now apply no_item_computed|]. intros ts cnt hb r -> O. rewrite (opens_elem ts cnt hb r O), agg_item_eq in H2. exact H2. }
  do 3 (split; [apply A; vm_compute; exact I|]). vm_compute. repeat split.
Qed.

(** A payload that is a byte string of indefinite length: well-formed, but not for the decoder. *)
Definition chunked : bytes := [x84] ++ encode (CBytes (encode (CMap [alg]))) ++ [xa0] ++ [x5f; x41; x01; xff] ++ [x41; x00].
Example C57_never_malformed_case :
  well_formed chunked /\
  (forall ts cnt hb h b r, chunked = hb ++ h ++ b ++ r -> opens 4 ts cnt hb -> is_head 2 (blen b) h -> prot_formed b) /\
  outcome 0 chunked (Some NULL_UBUF) false = Some ERR_SIGN1_FORMAT /\
  outcome 0 (firstn 9 chunked) (Some NULL_UBUF) false = Some ERR_SIGN1_FORMAT.
Proof.
  assert (M : well_formed (encode (CMap [alg]))).
  { change (encode (CMap [alg])) with ([initial 5 1] ++ [initial 0 1] ++ [initial 1 6] ++ []).
    apply (wf_map 1); [now constructor|]. apply (wfs_cons 1); [apply (wf_int 0 1); [auto|now constructor]|].
    apply (wfs_cons 0); [apply (wf_int 1 6); [auto|now constructor]|]. constructor. }
  split.
  { change chunked with ([initial 4 4] ++ ([initial 2 3] ++ encode (CMap [alg])) ++ ([initial 5 0] ++ []) ++
                         ([initial 2 31] ++ ([initial 2 1] ++ [x01] ++ []) ++ [xff]) ++ ([initial 2 1] ++ [x00]) ++ []).
    apply (wf_array 4); [now constructor|].
    apply (wfs_cons 3); [apply (wf_string 2); [auto|now constructor]|].
    apply (wfs_cons 2); [apply (wf_map 0); [now constructor|constructor]|].
    apply (wfs_cons 1); [apply (wf_chunks 2); [auto|constructor; [now constructor|constructor]]|].
    apply (wfs_cons 0); [apply (wf_string 2); [auto|now constructor]|constructor]. }
  split; [|vm_compute; split; reflexivity].
  intros ts cnt hb h b r E O Hh. pose proof (opens_elem ts cnt hb (h ++ b ++ r) O) as G. rewrite <- E in G.
  assert (G' : get_elem 0 chunked = IItem (good_item (VAgg false (Some 4))) (skipn 1 chunked)) by (vm_compute; reflexivity).
  rewrite G' in G.
  assert (G2 : skipn 1 chunked = (h ++ b) ++ r) by (rewrite <- app_assoc; exact (f_equal (fun x => match x with IItem _ q => q | _ => [] end) G)).
  assert (P : reads 1 (CBytes (encode (CMap [alg]))) ([initial 2 3] ++ encode (CMap [alg]))) by (constructor; now constructor).
  assert (P' : reads 1 (CBytes b) (h ++ b)) by now constructor.
  assert (U : CBytes b = CBytes (encode (CMap [alg]))).
  { destruct (reads_unique 1 _ _ _ _ _ r (skipn 5 chunked) P' P) as (U & _); [|exact U]. rewrite <- G2. vm_compute. reflexivity. }
  injection U as ->. right. split; [exists (encode (CMap [alg])), []; split; [now rewrite app_nil_r|exact M]|].
  intros x bx rest m v xs y Eb Rx Ex Iv. exfalso.
  assert (Ra : reads 2 (CMap [alg]) ([initial 5 1] ++ [initial 0 1] ++ [initial 1 6] ++ [])).
  { apply (rd_map 2 [alg]); [now constructor|unfold max_items; vm_compute; discriminate|right; unfold max_nesting; lia|].
    repeat constructor. }
  destruct (reads_unique 2 _ _ _ _ _ rest [] Rx Ra) as (-> & _ & _); [rewrite <- Eb; reflexivity|].
  injection Ex as <-. vm_compute in Iv. exact Iv.
Qed.

(** Where a message may break, by its code: in the head, in the protected bucket, in
    the parameters, the payload, the signature, after it. *)
Definition broken_at (dc : bool) (m : bytes) : option terr := outcome 0 m (Some (UBuf toy_payload)) dc.
Example C57_break_codes_case :
  let p := encode (CBytes (encode (CMap [alg]))) in let many := fold_right (fun n b => initial 0 (n + 10) :: x00 :: b) [] [0;1;2;3;4;5;6;7;8;9] in
  broken_at false [x84] = Some ERR_PARAMETER_CBOR /\ broken_at false [x84; x43; x01] = Some ERR_CBOR_NOT_WELL_FORMED /\
  broken_at false ([x84] ++ p ++ [xa1]) = Some ERR_PARAMETER_CBOR /\ broken_at false ([x84] ++ p ++ [xa1; x18]) = Some ERR_CBOR_NOT_WELL_FORMED /\
  broken_at false ([x84] ++ p ++ [xb7] ++ many) = Some ERR_PARAMETER_CBOR /\
  broken_at false ([x84] ++ p ++ [xb7] ++ many ++ [x14; x00]) = Some ERR_TOO_MANY_PARAMETERS /\
  broken_at false ([x84] ++ p ++ [xa0]) = Some ERR_SIGN1_FORMAT /\ broken_at true ([x84] ++ p ++ [xa0]) = Some ERR_CBOR_FORMATTING /\
  broken_at false ([x84] ++ p ++ [xa0; x18]) = Some ERR_CBOR_NOT_WELL_FORMED /\
  broken_at false ([x84] ++ p ++ [xa0; xc1; xc1; xc1; xc1; xc1; x81]) = Some ERR_TOO_MANY_TAGS /\
  broken_at true ([x84] ++ p ++ [xa0; x18]) = Some ERR_CBOR_FORMATTING /\
  broken_at false ([x84] ++ p ++ [xa0; x40]) = Some ERR_SIGN1_FORMAT /\ broken_at true ([x84] ++ p ++ [xa0; xf6; x18]) = Some ERR_CBOR_NOT_WELL_FORMED /\
  broken_at false ([x85] ++ p ++ [xa0; x40; x40]) = Some ERR_SIGN1_FORMAT /\ broken_at false ([x85] ++ p ++ [xa0; x40; x40; x18]) = Some ERR_CBOR_NOT_WELL_FORMED.
Proof. vm_compute. repeat split. Qed.

(** A truncated message is not well-formed, but where it is cut between elements the
    code for malformed input is not the one returned. *)
Definition truncated_reported : Prop := forall m n e, whole = m ++ n -> n <> [] -> outcome 0 m (Some NULL_UBUF) false = Some e ->
  e = ERR_CBOR_NOT_WELL_FORMED.
Theorem C57_truncated_refuted : ~ truncated_reported.
Proof.
  intro H. specialize (H (firstn 5 whole) (skipn 5 whole) ERR_PARAMETER_CBOR).
  assert (X : ERR_PARAMETER_CBOR = ERR_CBOR_NOT_WELL_FORMED).
  { apply H; [vm_compute; reflexivity|vm_compute; discriminate|vm_compute; reflexivity]. }
  discriminate X.
Qed.
Print Assumptions C57_truncated_refuted.
