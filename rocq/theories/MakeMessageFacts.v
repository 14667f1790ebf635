(** Proofs about MakeMessage.v (C83). *)
From Coq Require Import Lia ZifyBool ZifyNat ZifyN.
From Verif Require Import Base Const QEnc Crypto Util ShortCircuit Sign MakeMessage Spec MakeMessageSpec BaseFacts EncFacts UtilFacts SignFacts.
Open Scope N_scope. Open Scope list_scope. Open Scope mon_scope.

Lemma no_flag x : has_flag 0 x = false.
Proof. unfold has_flag. now rewrite N.land_0_l. Qed.

(** ** Parameters *)

Lemma protected_plain alg : protected_of 0 alg = UBuf (protected_header alg).
Proof.
  unfold protected_of, protected_calls. rewrite !no_flag. cbn [when app].
  pose proof (R_init S_PROTECTED_PARAMS) as H. cbn [wb_null wb_len S_PROTECTED_PARAMS] in H.
  cbn [tops_run fold_left top_run om cm t_int eop_run].
  apply R_open_top with (t := NMap) in H; [|now compute|now compute].
  apply R_add_int with (z := 1%Z) in H; [|now compute].
  apply R_add_int with (z := alg) in H; [|now compute].
  cbn [app] in H. change (?a ++ ?b) with ([] ++ (a ++ b)) in H.
  apply R_close_map in H; [|reflexivity|reflexivity].
  change (n_count _ / 2) with 1 in H. cbn [app] in H.
  replace (short_head 5 1 ++ encode (CInt 1) ++ encode (CInt alg))
      with (protected_header alg) in H.
  2:{ unfold protected_header. cbn [encode flat_map fst snd]. now rewrite app_nil_r. }
  pose proof (protected_header_len alg) as L.
  apply R_fits in H; [|lia].
  match goal with |- match enc_finish ?e with _ => _ end = _ => replace e with (mk false 40 (protected_header alg) (0+1) []) end.
  reflexivity.
Qed.

Lemma unprotected_plain c me kid e :
  ct_clash c me = false -> ct_of c me = CtNone ->
  add_unprotected_parameters c me kid e = (T_SUCCESS, tops_run e (unprotected_of 0 kid)).
Proof.
  intros C T. unfold unprotected_of. rewrite !no_flag. cbn [when app].
  unfold add_unprotected_parameters, tops_run, ct_of in *.
  assert (U : snd (T_SUCCESS, enc_close_map (if negb (u_is_null_or_empty kid)
                then enc_add_bytes_to_map (enc_open_map e) LABEL_KID kid else enc_open_map e))
            = fold_left top_run (om :: when (negb (u_is_null_or_empty kid)) [t_int LABEL_KID; Q (OpBytes kid)] ++ [cm]) e).
  { destruct (u_is_null_or_empty kid); cbn [negb when app fold_left top_run om cm t_int eop_run snd]; [reflexivity|].
    unfold enc_add_bytes_to_map. reflexivity. }
  match goal with |- _ = (_, ?x) => replace x with (snd (T_SUCCESS, enc_close_map (if negb (u_is_null_or_empty kid)
    then enc_add_bytes_to_map (enc_open_map e) LABEL_KID kid else enc_open_map e)))
    by (rewrite U; unfold when; destruct (negb _); reflexivity) end.
  clear U. cbn [snd].
  destruct (dis_content_type c); [reflexivity|].
  destruct (c_ct_tstr me); [discriminate|].
  destruct (c_ct_uint me =? EMPTY_UINT_CONTENT_TYPE); [|discriminate].
  reflexivity.
Qed.

Lemma tops_app e l1 l2 : tops_run e (l1 ++ l2) = tops_run (tops_run e l1) l2.
Proof. apply fold_left_app. Qed.

(** The kid the maker puts in the message is that of t_cose_sign1_sign. *)
Definition kid_plain (me : sctx) : bool := negb (sc_on me) || u_is_null_or_empty (c_kid me).

Lemma maker_params c me buf :
  (hash_alg_id_from_sig_alg_id c (c_alg me) =? INVALID_ALGORITHM_ID)%Z = false ->
  sc_on me && dis_short_circuit c = false ->
  ct_clash c me = false -> ct_of c me = CtNone -> kid_plain me = true ->
  exists e', maker_encode_parameters c me 0 (enc_init buf) = (T_SUCCESS, enc_open_bstr e') /\
    R (wb_null buf) (wb_len buf) e' (tag_bytes me ++ heads c me) 1 [arr (blen (tag_bytes me)) 2].
Proof.
  intros A S T N K. unfold maker_encode_parameters. rewrite A. fold (sc_on me). rewrite S, !no_flag.
  rewrite (tops_app (enc_init buf)). cbn [negb]. change (when true ?l) with l.
  pose proof (R_init buf) as H0. pose proof (tag_bytes_small me) as TS.
  set (e0 := tops_run (enc_init buf) _).
  assert (H1 : R (wb_null buf) (wb_len buf) e0 (tag_bytes me) 0 []).
  { unfold e0, tag_bytes, tagged. destruct (negb _); [|exact H0].
    apply (R_add_tag _ _ _ _ _ _ TAG_COSE_SIGN1) in H0. exact H0. }
  clearbody e0. rewrite protected_plain.
  apply R_open_top with (t := NArray) in H1; [|now compute|unfold MAX_OFFSET; lia].
  apply R_add_bytes with (u := UBuf (protected_header (c_alg me))) in H1; [|now compute].
  change (tops_run e0 ([oa] ++ [Q (OpBytes (UBuf (protected_header (c_alg me))))]))
    with (enc_add_bytes (enc_open e0 NArray) (UBuf (protected_header (c_alg me)))).
  set (e1 := enc_add_bytes _ _) in *. clearbody e1. cbn [src_bytes] in H1.
  destruct (R_unprot _ _ c me
             (if sc_on me && u_is_null_or_empty (c_kid me) then get_short_circuit_kid else c_kid me)
             e1 _ _ _ _ T H1) as (e2 & E2 & H2);
    [now compute|cbn [length]; unfold MAX_NESTING; lia| |].
  { cbn [encode]. rewrite !blen_app. pose proof (protected_header_len (c_alg me)).
    pose proof (short_head_len 2 (blen (protected_header (c_alg me)))). unfold MAX_OFFSET. lia. }
  rewrite kid_data in H2. fold (unprot_of c me) in H2. rewrite <- app_assoc in H2. fold (heads c me) in H2.
  rewrite (unprotected_plain _ _ _ _ T N) in E2. set (kd := if sc_on me && _ then _ else _) in *.
  assert (E3 : tops_run e1 (unprotected_of 0 kd) = e2) by congruence.
  rewrite tops_app.
  replace (if sc_on me then get_short_circuit_kid else c_kid me)
    with kd.
  2:{ unfold kd, kid_plain in *. destruct (sc_on me); [|reflexivity]. cbn in K. now rewrite K. }
  rewrite E3. exists e2. split; [reflexivity|exact H2].
Qed.

(** ** Signature *)

(** The signature as the maker asks for it, 568-588. *)
Definition maker_sign (c : cfg) (cr : crypto) (me : sctx) (hash : bytes) (buf : wbuf) : M (terr * bytes) :=
  if negb (has_flag (c_flags me) OPT_SHORT_CIRCUIT_SIG)
  then if wb_null buf && negb (wb_len buf =? 0) then mub NullDeref
       else mlog (EvSign (c_alg me) (c_key me) hash)
                 (cr_sign cr (c_alg me) (c_key me) hash (wb_len buf))
  else if dis_short_circuit c then mub Uninit
  else mlift (maker_short_circuit_sign (c_alg me) hash buf).

Section Tail.
  Variables (cap : N).
  Notation RR := (R false cap).

  Lemma maker_tail c cr me e D1 mid pl top b :
    let X := (D1 ++ mid) ++ encode (CBytes pl) in
    blen X <= MAX_OFFSET ->
    n_type b = NBstr -> n_start b = blen (D1 ++ mid) ->
    RR e ((D1 ++ mid) ++ pl) top (b :: [arr (blen D1) 3]) ->
    exists e0 e1 f,
      maker_output_signature c cr me 0 e
      = (if cap <? blen X then mret (ERR_TOO_SMALL, e0)
         else let! (err, hash) := create_tbs_hash c cr (c_alg me) (UBuf (protected_header (c_alg me))) NULL_UBUF
                                    (UBuf pl) (max_hash_size c) in
              if negb (terr_eqb err T_SUCCESS) then mret (err, e0)
              else let! (err, sig) := maker_sign c cr me hash (place false (cap - blen X)) in
                   if negb (terr_eqb err T_SUCCESS) then mret (err, e1)
                   else mret (T_SUCCESS, f sig)) /\
      (blen X <= cap -> forall sig, RR (f sig) (D1 ++ short_head 4 4 ++ mid ++ encode (CBytes pl) ++ encode (CBytes sig)) top []).
  Proof.
    intros X B T S H. unfold maker_output_signature.
    destruct (R_close_bstr _ _ _ _ _ _ _ _ H T S) as [H1 H2].
    destruct (enc_close_bstr e) as [e1 sl]. cbn [fst snd] in H1, H2. fold X in H1.
    unfold enc_error. rewrite (R_oerr _ _ _ _ _ _ H1), !no_flag.
    destruct (N.ltb_spec cap (blen X)) as [L|L].
    - exists e1, e1, (fun _ => e1). split; [reflexivity|lia].
    - pose proof (R_fits _ _ _ _ _ _ H1 L) as E.
      assert (E' : e_err e1 = QE_SUCCESS) by now rewrite E.
      rewrite E'.
      assert (RS : resolve e1 sl = UBuf pl).
      { rewrite H2. unfold bstr_slice. fold X. replace (blen X <=? cap) with true by lia. rewrite E.
        replace X with ((D1 ++ mid) ++ encode (CBytes pl) ++ []) by (unfold X; now rewrite app_nil_r).
        apply (resolve_mid false). }
      rewrite RS. unfold protected_left. rewrite no_flag, protected_plain.
      set (ob := {| n_type := NOpenBytes; n_start := blen X; n_count := 0 |}).
      assert (O : enc_open e1 NOpenBytes = mk false cap X top (ob :: [arr (blen D1) 4])).
      { apply R_open with (t := NOpenBytes) in H1; [|now compute|cbn [length]; unfold MAX_NESTING; lia|exact B].
        apply (R_fits _ _ _ _ _ _ H1 L). }
      unfold enc_open_bytes. rewrite O.
      assert (PL : {| wb_null := e_null e1 || (e_room e1 =? 0); wb_len := e_room e1 |}
                   = place false (cap - blen X)) by (rewrite E; reflexivity).
      rewrite PL.
      exists e1, (mk false cap X top (ob :: [arr (blen D1) 4])),
        (fun sig => enc_close_array (enc_close_bytes (mk false cap X top (ob :: [arr (blen D1) 4])) (blen sig) sig)).
      split; [reflexivity|].
      intros _ sig.
      pose proof (R_close_bytes false cap X top ob [arr (blen D1) 4] (blen sig) sig L eq_refl eq_refl) as HC.
      rewrite sigw_exact in HC. unfold X in HC at 2. rewrite <- !app_assoc in HC.
      apply R_close_array in HC; [|reflexivity|reflexivity].
      exact HC.
  Qed.
End Tail.

(** ** The whole message *)

Definition maker_plain (c : cfg) (me : sctx) : Prop :=
  (hash_alg_id_from_sig_alg_id c (c_alg me) =? INVALID_ALGORITHM_ID)%Z = false /\
  sc_on me && dis_short_circuit c = false /\
  ct_clash c me = false /\ ct_of c me = CtNone /\ kid_plain me = true.

Lemma maker_eq c cr me payload buf :
  maker_plain c me -> wb_null buf = false ->
  let cap := wb_len buf in
  let D := unsigned c me false payload in
  blen D <= MAX_OFFSET ->
  test_message_sign1_sign c cr me 0 payload buf
  = (if cap <? blen D then mret (ERR_TOO_SMALL, None)
     else let! (err, hash) := create_tbs_hash c cr (c_alg me) (UBuf (protected_header (c_alg me))) NULL_UBUF
                                (UBuf (src_bytes payload)) (max_hash_size c) in
          if negb (terr_eqb err T_SUCCESS) then mret (err, None)
          else let! (err, sig) := maker_sign c cr me hash (place false (cap - blen D)) in
               if negb (terr_eqb err T_SUCCESS) then mret (err, None)
               else if blen (message c me false payload sig) <=? cap
                    then mret (T_SUCCESS, Some (UBuf (message c me false payload sig)))
                    else mret (ERR_CBOR_NOT_WELL_FORMED, None)).
Proof.
  intros (A & S & T & N & K) Z cap D B. unfold test_message_sign1_sign.
  destruct (maker_params c me buf A S T N K) as (e1 & E1 & H1). rewrite E1. cbn [terr_eqb negb].
  rewrite Z in H1. fold cap in H1.
  assert (ED : (tag_bytes me ++ heads c me) ++ encode (CBytes (src_bytes payload)) = D).
  { unfold D, unsigned, payload_item. now rewrite <- app_assoc. }
  apply R_open with (t := NBstr) in H1; [|now compute|cbn [length]; unfold MAX_NESTING; lia|].
  2:{ rewrite <- ED, blen_app in B. lia. }
  apply R_add_encoded with (u := payload) in H1; [|now compute].
  destruct (maker_tail cap c cr me (enc_add_encoded (enc_open_bstr e1) payload) (tag_bytes me) (heads c me) (src_bytes payload)
              1 (inc (bst (blen (tag_bytes me ++ heads c me)) 0)))
    as (e2 & e3 & f & E2 & F2); [rewrite ED; exact B|reflexivity|reflexivity|exact H1|].
  rewrite ED in E2, F2. rewrite E2.
  destruct (N.ltb_spec cap (blen D)) as [L|L]; [now rewrite mbind_ret_l|].
  rewrite mbind_assoc. apply mbind_ext. intros [err hash].
  destruct (terr_eqb err T_SUCCESS) eqn:Er; cbn [negb].
  2:{ rewrite mbind_ret_l, Er. reflexivity. }
  rewrite mbind_assoc. apply mbind_ext. intros [err2 sig].
  destruct (terr_eqb err2 T_SUCCESS) eqn:Er2; cbn [negb].
  2:{ rewrite mbind_ret_l, Er2. reflexivity. }
  rewrite mbind_ret_l. cbn [terr_eqb negb].
  specialize (F2 L sig).
  replace (message c me false payload sig) with
    (tag_bytes me ++ short_head 4 4 ++ heads c me ++ encode (CBytes (src_bytes payload)) ++ encode (CBytes sig)).
  2:{ unfold message. now rewrite cose_sign1_eq. }
  set (m := tag_bytes me ++ short_head 4 4 ++ _) in *.
  unfold enc_finish, enc_error. rewrite (R_oerr _ _ _ _ _ _ F2).
  destruct (N.leb_spec (blen m) cap) as [M|M].
  - rewrite (R_fits _ _ _ _ _ _ F2 M). replace (cap <? blen m) with false by lia. reflexivity.
  - replace (cap <? blen m) with true by lia. reflexivity.
Qed.

Lemma message_longer c me det payload sig :
  blen (unsigned c me det payload) < blen (message c me det payload sig).
Proof.
  unfold message. rewrite cose_sign1_eq. unfold unsigned, payload_item. rewrite !blen_app.
  assert (blen (short_head 4 4) = 1) by reflexivity. destruct det; lia.
Qed.

(** Success is impossible beyond QCBOR's offset limit. *)
Lemma maker_success_domain c cr me payload buf l m :
  maker_plain c me -> wb_null buf = false ->
  test_message_sign1_sign c cr me 0 payload buf = (l, Ret (T_SUCCESS, m)) ->
  blen (unsigned c me false payload) <= MAX_OFFSET.
Proof.
  intros (A & S & T & N & K) Z H.
  destruct (N.leb_spec (blen (unsigned c me false payload)) MAX_OFFSET) as [L|L]; [exact L|exfalso].
  unfold test_message_sign1_sign in H.
  destruct (maker_params c me buf A S T N K) as (e1 & E1 & H1). rewrite E1 in H. cbn [terr_eqb negb] in H.
  rewrite Z in H1.
  set (e2 := enc_add_encoded _ _) in H.
  assert (BE : bad (fst (enc_close_bstr e2)) \/
               R false (wb_len buf) (fst (enc_close_bstr e2)) (unsigned c me false payload) 1 [arr (blen (tag_bytes me)) 3]).
  { destruct (N.leb_spec (blen (tag_bytes me ++ heads c me)) MAX_OFFSET) as [M|M].
    + right. apply R_open with (t := NBstr) in H1; [|now compute|unfold MAX_NESTING; cbn [length]; lia|exact M].
      apply R_add_encoded with (u := payload) in H1; [|now compute].
      apply R_close_bstr in H1; [|reflexivity|reflexivity]. destruct H1 as [H1 _].
      unfold unsigned. rewrite app_assoc. exact H1.
    + left. apply bad_close_bstr. unfold e2, enc_add_encoded.
      apply bad_increment, bad_insert. eapply R_open_beyond; [exact H1|now compute|exact M]. }
  clearbody e2. apply mbind_ret_inv in H as (l1 & [er3 e3] & l2 & H2 & H3 & ->).
  destruct (terr_eqb er3 T_SUCCESS) eqn:Er; cbn [negb] in H3.
  2:{ unfold mret in H3. injection H3 as _ H3 _. subst er3. discriminate. }
  apply terr_eqb_eq in Er. subst er3.
  assert (B3 : bad e3).
  { unfold maker_output_signature in H2. destruct (enc_close_bstr e2) as [e4 sl]. cbn [fst] in BE.
    destruct (enc_error e4) eqn:EE; try (unfold mret in H2; discriminate H2).
    destruct BE as [BE|BE]; [now apply bad_error in BE|].
    apply mbind_ret_inv in H2 as (l3 & [er4 hash] & l4 & _ & H2 & _).
    destruct (terr_eqb er4 T_SUCCESS) eqn:E4; cbn [negb] in H2.
    2:{ unfold mret in H2. injection H2 as _ H2 _. subst er4. discriminate. }
    unfold enc_open_bytes in H2.
    pose proof (R_open_beyond _ _ _ _ _ _ _ NOpenBytes BE ltac:(now compute) L) as BO.
    set (e5 := enc_open e4 NOpenBytes) in *. clearbody e5.
    apply mbind_ret_inv in H2 as (l5 & [er5 sig] & l6 & _ & H2 & _).
    destruct (terr_eqb er5 T_SUCCESS) eqn:E5; cbn [negb] in H2.
    2:{ unfold mret in H2. injection H2 as _ H2 _. subst er5. discriminate. }
    rewrite no_flag in H2. unfold mret in H2. injection H2 as _ <-.
    apply (bad_close _ NArray), bad_close_bytes, BO. }
  apply bad_error in B3. unfold enc_finish in H3. unfold mret in H3.
  destruct (enc_error e3); try discriminate H3. now apply B3.
Qed.

(** ** The maker and t_cose_sign1_sign *)

Lemma hash_supported c alg : alg <> (-8)%Z ->
  (hash_alg_id_from_sig_alg_id c alg =? INVALID_ALGORITHM_ID)%Z = negb (signature_algorithm_id_is_supported c alg).
Proof.
  intro H. unfold hash_alg_id_from_sig_alg_id, signature_algorithm_id_is_supported.
  change EDDSA with (-8)%Z. replace (alg =? -8)%Z with false by lia. rewrite andb_false_r, orb_false_r.
  destruct (alg =? ES256)%Z; [reflexivity|].
  destruct (negb (dis_es384 c) && _)%bool; [reflexivity|].
  destruct (negb (dis_es512 c) && _)%bool; [reflexivity|].
  destruct (negb (dis_ps256 c) && _)%bool; [reflexivity|].
  destruct (negb (dis_ps384 c) && _)%bool; [reflexivity|].
  destruct (negb (dis_ps512 c) && _)%bool; reflexivity.
Qed.

Lemma maker_sc c me hash room :
  (c_alg me = (-7)%Z \/ c_alg me = (-35)%Z \/ c_alg me = (-36)%Z) -> room <> 0 -> dis_short_circuit c = false ->
  sc_on me = true -> forall cr, maker_sign c cr me hash (place false room) = mlift (short_circuit_sign (c_alg me) hash room).
Proof.
  intros A N D S cr. unfold maker_sign. fold (sc_on me). rewrite S, D. cbn [negb]. f_equal.
  unfold maker_short_circuit_sign, short_circuit_sign, short_circuit_sig_size, place.
  cbn [wb_null wb_len orb terr_eqb negb]. replace (room =? 0) with false by lia.
  destruct A as [-> | [-> | ->]]; reflexivity.
Qed.

Theorem maker_same c cr me payload buf l m :
  replicated c me -> wb_null buf = false ->
  test_message_sign1_sign c cr me 0 payload buf = (l, Ret (T_SUCCESS, m)) <->
  exists me', sign c cr me payload buf = (l, Ret (T_SUCCESS, me', m)).
Proof.
  intros (CT & SC & NE) Z.
  assert (C1 : ct_clash c me = false).
  { unfold ct_clash. destruct CT as [-> | [-> ->]]; [reflexivity|]. now rewrite andb_false_r. }
  assert (C2 : ct_of c me = CtNone).
  { unfold ct_of. destruct CT as [-> | [-> ->]]; [reflexivity|]. now destruct (dis_content_type c). }
  assert (KP : kid_plain me = true).
  { unfold kid_plain. unfold short_circuit_default in SC. fold (sc_on me) in SC.
    destruct (sc_on me); [|reflexivity]. now rewrite (proj1 (SC eq_refl)). }
  destruct (signature_algorithm_id_is_supported c (c_alg me)) eqn:SU.
  2:{ split.
      - intro H. exfalso. unfold test_message_sign1_sign, maker_encode_parameters in H.
        rewrite (hash_supported _ _ NE), SU in H. cbn in H. discriminate.
      - intros [me' H]. exfalso. unfold sign, sign_aad_internal, encode_parameters_internal in H.
        rewrite SU in H. cbn in H. discriminate. }
  destruct (sc_on me && dis_short_circuit c) eqn:SD.
  { split.
    - intro H. exfalso. unfold test_message_sign1_sign, maker_encode_parameters in H.
      rewrite (hash_supported _ _ NE), SU in H. cbn [negb] in H. fold (sc_on me) in H. rewrite SD in H.
      cbn [terr_eqb negb] in H. discriminate H.
    - intros [me' H]. exfalso.
      pose proof (proj2 (sign_success_domain _ _ _ _ _ _ _ _ _ _ H)) as B.
      unfold sign in H. rewrite sign_eq in H by (try exact B; discriminate).
      rewrite SU, SD in H. cbn [negb] in H. discriminate H. }
  assert (MP : maker_plain c me).
  { unfold maker_plain. rewrite (hash_supported _ _ NE), SU. auto. }
  set (D := unsigned c me false payload).
  destruct (N.leb_spec (blen D) MAX_OFFSET) as [B|B].
  2:{ split.
      - intro H. apply maker_success_domain in H; auto. fold D in H. lia.
      - intros [me' H]. apply sign_success_domain in H. destruct H as [_ H]. fold D in H. lia. }
  rewrite (maker_eq c cr me payload buf MP Z B). unfold sign. rewrite sign_eq by (try exact B; discriminate).
  rewrite SU, SD, C1. cbn [negb]. fold D. rewrite Z.
  destruct (N.ltb_spec (wb_len buf) (blen D)) as [L|L].
  { split; [discriminate|intros [me' H]; discriminate]. }
  set (cap := wb_len buf) in *.
  destruct (N.eq_dec (cap - blen D) 0) as [R0|R0].
  { assert (LONG : forall sig, (blen (message c me false payload sig) <=? cap) = false).
    { intro sig. pose proof (message_longer c me false payload sig). fold D in H. lia. }
    split.
    - intro H. exfalso. apply mbind_ret_inv in H as (l1 & [er hash] & l2 & _ & H & _).
      destruct (terr_eqb er T_SUCCESS) eqn:E1; cbn [negb] in H.
      2:{ unfold mret in H. injection H as _ H _. subst er. discriminate. }
      apply mbind_ret_inv in H as (l3 & [er2 sig] & l4 & _ & H & _).
      destruct (terr_eqb er2 T_SUCCESS) eqn:E2; cbn [negb] in H.
      2:{ unfold mret in H. injection H as _ H _. subst er2. discriminate. }
      rewrite LONG in H. discriminate H.
    - intros [me' H]. exfalso. apply mbind_ret_inv in H as (l1 & [[[er me2] k] w] & l2 & _ & H & _).
      destruct (terr_eqb er T_SUCCESS) eqn:E1; cbn [negb] in H.
      2:{ unfold mret in H. injection H as _ H _ _. subst er. discriminate. }
      rewrite LONG in H. discriminate H. }
  (* with room for a signature both ask for the same one *)
  assert (CORE : exists S : bytes -> M (terr * bytes),
    (forall hash, maker_sign c cr me hash (place false (cap - blen D)) = S hash) /\
    sign_core c cr (with_prot me buf) (inbuf false (protected_header (c_alg me))) NULL_UBUF
              (inbuf false (src_bytes payload)) (place false (cap - blen D))
    = let! (err, hash) := create_tbs_hash c cr (c_alg me) (UBuf (protected_header (c_alg me))) NULL_UBUF
                            (UBuf (src_bytes payload)) (max_hash_size c) in
      if negb (terr_eqb err T_SUCCESS) then mret (err, with_prot me buf, 0, [])
      else let! (err, sig) := S hash in mret (err, with_prot me buf, blen sig, sig)).
  { unfold sign_core. change (has_flag (c_flags (with_prot me buf)) OPT_SHORT_CIRCUIT_SIG) with (sc_on me).
    change (c_alg (with_prot me buf)) with (c_alg me).
    assert (PN : wb_null (place false (cap - blen D)) = false).
    { unfold place. cbn [wb_null orb]. lia. }
    destruct (sc_on me) eqn:SO; cbn [andb] in *.
    - rewrite SD. cbn [negb]. destruct (SC SO) as [_ AL].
      exists (fun hash => mlift (short_circuit_sign (c_alg me) hash (cap - blen D))).
      split; [intro hash; now apply maker_sc|].
      unfold sign1_sign_short_circuit. rewrite PN. reflexivity.
    - change EDDSA with (-8)%Z. replace (c_alg me =? -8)%Z with false by lia. cbn [andb].
      exists (fun hash => mlog (EvSign (c_alg me) (c_key me) hash) (cr_sign cr (c_alg me) (c_key me) hash (cap - blen D))).
      split.
      + intro hash. unfold maker_sign. fold (sc_on me). rewrite SO, PN. reflexivity.
      + unfold sign1_sign_default. rewrite PN. reflexivity. }
  destruct CORE as (S & ES & EC). rewrite EC. clear EC.
  rewrite mbind_assoc.
  split.
  - intro H. apply mbind_ret_inv in H as (l1 & [er hash] & l2 & H1 & H & ->).
    destruct (terr_eqb er T_SUCCESS) eqn:E1; cbn [negb] in H.
    2:{ unfold mret in H. injection H as _ H _. subst er. discriminate. }
    rewrite ES in H. apply mbind_ret_inv in H as (l3 & [er2 sig] & l4 & H2 & H & ->).
    destruct (terr_eqb er2 T_SUCCESS) eqn:E2; cbn [negb] in H.
    2:{ unfold mret in H. injection H as _ H _. subst er2. discriminate. }
    exists (with_prot me buf). unfold mbind at 1. rewrite H1, E1. cbn [negb].
    rewrite mbind_assoc. unfold mbind at 1. rewrite H2, mbind_ret_l, E2. cbn [negb]. rewrite sigw_exact.
    destruct (_ <=? cap); [|discriminate H]. unfold mret in H. injection H as <- <-. reflexivity.
  - intros [me' H]. apply mbind_ret_inv in H as (l1 & [er hash] & l2 & H1 & H & ->).
    destruct (terr_eqb er T_SUCCESS) eqn:E1; cbn [negb] in H.
    2:{ rewrite mbind_ret_l in H. rewrite E1 in H. unfold mret in H. injection H as _ H _ _. subst er. discriminate. }
    rewrite mbind_assoc in H. apply mbind_ret_inv in H as (l3 & [er2 sig] & l4 & H2 & H & ->).
    rewrite mbind_ret_l in H.
    destruct (terr_eqb er2 T_SUCCESS) eqn:E2; cbn [negb] in H.
    2:{ unfold mret in H. injection H as _ H _ _. subst er2. discriminate. }
    rewrite sigw_exact in H. destruct (_ <=? cap) eqn:LE; [|discriminate H].
    unfold mbind at 1. rewrite H1, E1. cbn [negb]. rewrite ES. unfold mbind at 1. rewrite H2, E2. cbn [negb].
    rewrite LE. unfold mret in H |- *. injection H as <- _ <-. reflexivity.
Qed.
