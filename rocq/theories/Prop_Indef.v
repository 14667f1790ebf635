(** C68: strings of indefinite length in a message. *)
From Verif Require Import Base Const QEnc QDec Crypto Util ShortCircuit Params Verify Sign Spec DecSpec SignSpec Toy.
From Verif Require Import Unique RoundTrip PassSpec ErrorSpec VerifySpec WideSpec ItemSpec BrokenSpec IndefSpec BrokenFacts IndefFacts Prop_Error Prop_Broken.
From Coq Require Import Lia.
Open Scope N_scope. Open Scope list_scope.

(** A message with a string of indefinite length anywhere outside the protected
    byte string is not accepted and no adapter is called, whatever follows it. *)
Theorem C68_never_accepted : forall c cr junk me msg tail aad payload want dc log w,
  length (v_tags me) = 4%nat -> has_indef msg ->
  verify_internal c cr junk me (msg ++ tail) aad payload want dc = (log, Ret w) ->
  log = [] /\ w_err w <> T_SUCCESS.
Proof. exact indef_refused. Qed.
Print Assumptions C68_never_accepted.

(** Where an element of an accepted message is replaced by a string of indefinite
    length, the place of the element determines the code. *)
Theorem C68_string : forall c cr cr' junk junk' me msg msg' l w r aad aad' payload want want' dc log log' res res',
  replaced msg msg' l (w ++ r) -> indef_string w ->
  verify_internal c cr junk me msg aad payload want dc = (log, Ret res) -> w_err res = T_SUCCESS ->
  verify_internal c cr' junk' me msg' aad' payload want' dc = (log', Ret res') ->
  log' = [] /\ w_err res' = place_code dc (length l).
Proof. exact indef_code. Qed.
Print Assumptions C68_string.

(** The same for anything well-formed that the decoder does not read, such as one
    with a string of indefinite length inside. *)
Theorem C68_inside : forall c cr cr' junk junk' me msg msg' l w r aad aad' payload want want' dc log log' res res',
  replaced msg msg' l (w ++ r) -> well_formed w -> no_item 1 (w ++ r) ->
  verify_internal c cr junk me msg aad payload want dc = (log, Ret res) -> w_err res = T_SUCCESS ->
  verify_internal c cr' junk' me msg' aad' payload want' dc = (log', Ret res') ->
  log' = [] /\ (w_err res' = place_code dc (length l) \/
    length l = 1%nat /\ w_err res' = ERR_TOO_MANY_PARAMETERS /\
      (exists b pm prest, l = [CBytes b] /\ protected_map b pm prest /\ many_labels 1 pm (w ++ r)) \/
    (length l = 2%nat /\ dc = false \/ length l = 3%nat) /\ w_err res' = ERR_TOO_MANY_TAGS /\ many_tags (w ++ r)).
Proof. exact unreadable_code. Qed.
Print Assumptions C68_inside.

Theorem C68_unreadable : forall w, has_indef w -> well_formed w /\ forall d r, no_item d (w ++ r).
Proof. intros w H. split; [now apply has_wide|]. intros d r. now apply has_no_item. Qed.
Print Assumptions C68_unreadable.

(** In the protected parameters. *)
Theorem C68_protected : forall c cr junk me msg t w r l aad payload want dc log res,
  length (v_tags me) = 4%nat -> reads 0 t msg -> readable t -> body t = CArray (CBytes (w ++ r) :: l) ->
  tags_fit (v_flags me) t -> has_indef w ->
  verify_internal c cr junk me msg aad payload want dc = (log, Ret res) ->
  log = [] /\ (w_err res = ERR_PARAMETER_CBOR \/ w_err res = ERR_TOO_MANY_PARAMETERS /\ many_labels 2 [] (w ++ r)).
Proof. exact indef_protected. Qed.
Print Assumptions C68_protected.

(** A key id, a payload and a signature as strings of indefinite length. *)
Definition str : bytes := [initial 2 31] ++ ([initial 2 1] ++ [x41] ++ []) ++ [xff].
Definition kid_map : bytes := [initial 5 1] ++ ([initial 0 4] ++ []) ++ str ++ [].
Definition prot_elem : cbor := CBytes (encode (CMap [alg])).
Definition signed_whole (dc : bool) : bytes :=
  let h := encode (CMap [alg]) in
  encode (CArray [CBytes h; CMap []; if dc then CNull else CBytes toy_payload; CBytes (toy_sig (toy_digest (sig_structure h toy_aad toy_payload)))]).
Definition tampered (l : list cbor) (w : bytes) : bytes := [x84] ++ flat_map encode l ++ w ++ [x41; x00].

Lemma indef_str : indef_string str.
Proof. apply (ind_chunks 2); [auto|]. constructor; [now constructor|constructor]. Qed.
Lemma indef_kid : has_indef kid_map.
Proof.
  apply (hi_map 1 1 0); [now constructor|reflexivity| |apply indef_has, indef_str|constructor].
  apply (wfs_cons 0); [apply (wf_int 0 4); [auto|now constructor]|constructor].
Qed.

Lemma reads_prot : reads 1 prot_elem (encode prot_elem).
Proof. change (encode prot_elem) with ([initial 2 3] ++ encode (CMap [alg])). constructor. now constructor. Qed.
Lemma reads_none : reads 1 (CMap []) [xa0].
Proof. refine (rd_map 1 [] [initial 5 0] [] _ _ _ _); [now constructor|vm_compute; discriminate|now left|constructor]. Qed.

Lemma replaced_at (dc : bool) n w : (n < 3)%nat -> let l := firstn n [prot_elem; CMap []; if dc then CNull else CBytes toy_payload] in
  replaced (signed_whole dc) (tampered l w) l (w ++ [x41; x00]).
Proof.
  intros Hn l. exists [], (Some 4), [initial 4 4], (flat_map encode l), (skipn (1 + length (flat_map encode l)) (signed_whole dc)).
  split; [constructor; [now constructor|unfold max_items; lia]|].
  destruct n as [|[|[|n]]]; [| | |lia]; subst l; cbn [firstn].
  - split; [constructor|]. split; [vm_compute; reflexivity|]. split; [destruct dc; vm_compute; reflexivity|reflexivity].
  - split; [repeat constructor; apply reads_prot|]. split; [vm_compute; reflexivity|]. split; [destruct dc; vm_compute; reflexivity|reflexivity].
  - split; [constructor; [apply reads_prot|]; apply (rda_cons 1 (CMap []) [] [xa0] []); [apply reads_none|constructor]|].
    split; [vm_compute; reflexivity|]. split; [destruct dc; vm_compute; reflexivity|reflexivity].
Qed.

Example C68_string_case :
  outcome 0 (signed_whole false) (Some NULL_UBUF) false = Some T_SUCCESS /\ outcome 0 (signed_whole true) (Some (UBuf toy_payload)) true = Some T_SUCCESS /\
  indef_string str /\ replaced (signed_whole true) (tampered [prot_elem; CMap []] str) [prot_elem; CMap []] (str ++ [x41; x00]) /\
  outcome 0 (tampered [] str) (Some NULL_UBUF) false = Some ERR_PARAMETER_CBOR /\
  outcome 0 (tampered [prot_elem] str) (Some NULL_UBUF) false = Some ERR_PARAMETER_CBOR /\
  outcome 0 (tampered [prot_elem; CMap []] str) (Some NULL_UBUF) false = Some ERR_SIGN1_FORMAT /\
  outcome 0 (tampered [prot_elem; CMap []] str) (Some (UBuf toy_payload)) true = Some ERR_CBOR_FORMATTING /\
  outcome 0 (tampered [prot_elem; CMap []; CNull] str) (Some (UBuf toy_payload)) true = Some ERR_SIGN1_FORMAT.
Proof.
  split; [vm_compute; reflexivity|]. split; [vm_compute; reflexivity|]. split; [apply indef_str|].
  split; [exact (replaced_at true 2 str (le_n 3))|]. vm_compute. repeat split.
Qed.

(** The key id: an accepted message, and the one with its key id in chunks. *)
Example C68_inside_case :
  replaced (signed_whole false) (tampered [prot_elem] kid_map) [prot_elem] (kid_map ++ [x41; x00]) /\
  has_indef kid_map /\ outcome 0 (tampered [prot_elem] kid_map) (Some NULL_UBUF) false = Some ERR_PARAMETER_CBOR.
Proof.
  split; [exact (replaced_at false 1 kid_map (le_S _ _ (le_n 2)))|]. split; [apply indef_kid|vm_compute; reflexivity].
Qed.

(** The whole message, with and without bytes after it, and without a valid signature. *)
Definition unsigned : bytes := tampered [prot_elem] (kid_map ++ [x40]).
Example C68_never_accepted_case :
  has_indef unsigned /\ outcome 0 unsigned (Some NULL_UBUF) false = Some ERR_PARAMETER_CBOR /\
  outcome 0 (unsigned ++ [x00]) (Some NULL_UBUF) false = Some ERR_PARAMETER_CBOR.
Proof.
  split; [|vm_compute; split; reflexivity].
  apply (hi_array 1 2 [initial 4 4] ([initial 2 3] ++ encode (CMap [alg]) ++ []) kid_map ([initial 2 0] ++ [] ++ [initial 2 1] ++ [x00] ++ []));
    [now constructor| |apply indef_kid|].
  - rewrite app_assoc. apply (wfs_cons 0); [apply (wf_string 2); [auto|now constructor]|constructor].
  - rewrite (app_assoc [initial 2 0]). apply (wfs_cons 1); [apply (wf_string 2); [auto|now constructor]|].
    rewrite app_assoc. apply (wfs_cons 0); [apply (wf_string 2); [auto|now constructor]|constructor].
Qed.

(** A key id in chunks among the protected parameters, where the bytes of the
    message are all fine. *)
Definition prot_message : cbor := CArray [CBytes (kid_map ++ []); CMap []; CBytes toy_payload; CBytes []].
Example C68_protected_case :
  (exists b, reads 0 prot_message b /\ outcome 0 b (Some NULL_UBUF) false = Some ERR_PARAMETER_CBOR) /\
  readable prot_message /\ tags_fit 0 prot_message.
Proof.
  split; [|split; [split; [vm_compute; lia|exact I]|split; intro X; discriminate X]].
  exists (encode prot_message). split; [|vm_compute; reflexivity].
  apply reads_array; [unfold max_nesting; lia|vm_compute; discriminate|].
  constructor; [apply reads_bytes; vm_compute; reflexivity|]. constructor; [exact reads_none|].
  repeat (constructor; [apply reads_bytes; vm_compute; reflexivity|]). constructor.
Qed.

(** The header names one code for all of these. *)
Definition documented_code : Prop := forall dc msg msg' l w r me junk payload log log' res res',
  replaced msg msg' l (w ++ r) -> indef_string w ->
  verify_internal cfg_full toy junk me msg (UBuf toy_aad) payload true dc = (log, Ret res) -> w_err res = T_SUCCESS ->
  verify_internal cfg_full toy junk me msg' (UBuf toy_aad) payload true dc = (log', Ret res') -> w_err res' = ERR_SIGN1_FORMAT.
Theorem C68_documented_code_refuted : ~ documented_code.
Proof.
  intro H.
  destruct (verify_internal cfg_full toy NULL_UBUF (toy_verifier 0) (signed_whole true) (UBuf toy_aad) (Some (UBuf toy_payload)) true true) as [l1 [r1|]] eqn:E1;
    [|vm_compute in E1; discriminate].
  destruct (verify_internal cfg_full toy NULL_UBUF (toy_verifier 0) (tampered [prot_elem; CMap []] str) (UBuf toy_aad) (Some (UBuf toy_payload)) true true) as [l2 [r2|]] eqn:E2;
    [|vm_compute in E2; discriminate].
  assert (X1 : w_err r1 = T_SUCCESS) by (vm_compute in E1; injection E1 as _ <-; reflexivity).
  pose proof (H _ _ _ _ _ _ _ _ _ _ _ _ _ (replaced_at true 2 str (le_n 3)) indef_str E1 X1 E2) as X.
  vm_compute in E2. injection E2 as _ <-. discriminate X.
Qed.
Print Assumptions C68_documented_code_refuted.
