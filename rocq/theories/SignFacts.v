(** What the signing functions compute, for every input and buffer size. *)
From Verif Require Import Base Const QEnc Crypto Util ShortCircuit Sign Spec BaseFacts EncFacts UtilFacts.
From Coq Require Import Lia ZifyBool ZifyNat ZifyN.
Open Scope N_scope. Open Scope list_scope.
Local Open Scope mon_scope.

(** ** Vocabulary *)

Definition sc_on (me : sctx) : bool := has_flag (c_flags me) OPT_SHORT_CIRCUIT_SIG.
Definition tagged (me : sctx) : bool := negb (has_flag (c_flags me) OPT_OMIT_CBOR_TAG).

(** The kid placed in the message. *)
Definition kid_bytes (me : sctx) : bytes :=
  if sc_on me && u_is_null_or_empty (c_kid me) then short_circuit_kid_bytes else u_data (c_kid me).

Definition ct_clash (c : cfg) (me : sctx) : bool :=
  negb (dis_content_type c) && negb (c_ct_uint me =? EMPTY_UINT_CONTENT_TYPE)
  && match c_ct_tstr me with Some _ => true | None => false end.

Definition ct_of (c : cfg) (me : sctx) : ctype :=
  if dis_content_type c then CtNone
  else match c_ct_tstr me with
       | Some s => CtText s
       | None => if c_ct_uint me =? EMPTY_UINT_CONTENT_TYPE then CtNone else CtUInt (c_ct_uint me)
       end.

Definition unprot_of (c : cfg) (me : sctx) : cbor := unprotected_header (kid_bytes me) (ct_of c me).
Definition tag_bytes (me : sctx) : bytes := if tagged me then short_head 6 18 else [].

(** The first two elements. *)
Definition heads (c : cfg) (me : sctx) : bytes :=
  encode (CBytes (protected_header (c_alg me))) ++ encode (unprot_of c me).

Lemma cose_sign1_eq c me pl sig :
  cose_sign1 (tagged me) (protected_header (c_alg me)) (unprot_of c me) pl sig =
  tag_bytes me ++ short_head 4 4 ++ heads c me
    ++ encode (match pl with Some p => CBytes p | None => CNull end) ++ encode (CBytes sig).
Proof.
  unfold cose_sign1, tag_bytes, heads. destruct (tagged me); cbn [app];
    cbn [encode flat_map]; rewrite ?app_nil_r, <- ?app_assoc; reflexivity.
Qed.

(** ** Parameters *)

Section Phase1.
  Variables (nul : bool) (cap : N).
  Notation RR := (R nul cap).

  Lemma R_prot e D top n r alg :
    RR e D top (n :: r) -> n_count n + 1 < MAX_ITEMS -> (S (S (length r)) < MAX_NESTING)%nat ->
    blen D <= MAX_OFFSET ->
    RR (fst (encode_protected_parameters alg e))
       (D ++ encode (CBytes (protected_header alg))) top (inc n :: r) /\
    snd (encode_protected_parameters alg e) = bstr_slice nul cap D (protected_header alg).
  Proof.
    intros H L1 L2 L3. unfold encode_protected_parameters.
    apply R_open with (t := NBstr) in H; auto; [|lia].
    apply R_open with (t := NMap) in H; [|now compute|cbn [length]; lia|exact L3].
    change LABEL_ALG with 1%Z.
    apply R_add_int with (z := 1%Z) in H; [|now compute].
    apply R_add_int with (z := alg) in H; [|now compute].
    fold (enc_add_int_to_map (enc_open (enc_open e NBstr) NMap) 1 alg) in H.
    rewrite <- app_assoc in H. apply R_close_map in H; [|reflexivity|reflexivity].
    change (n_count _ / 2) with 1 in H.
    replace (short_head 5 1 ++ encode (CInt 1) ++ encode (CInt alg))
      with (protected_header alg) in H.
    2:{ unfold protected_header. cbn [encode flat_map fst snd]. now rewrite app_nil_r. }
    apply R_close_bstr in H; [|reflexivity|reflexivity]. exact H.
  Qed.

  Lemma null_or_empty_data u : u_is_null_or_empty u = true -> u_data u = [].
  Proof. destruct u as [n|[|]]; cbn; congruence. Qed.

  Lemma not_null_or_empty u : u_is_null_or_empty u = false ->
    exists b s, u = UBuf (b :: s).
  Proof. destruct u as [n|[|]]; cbn; try congruence; eauto. Qed.

  Lemma R_unprot c me kid e D top n r :
    ct_clash c me = false ->
    RR e D top (n :: r) -> n_count n + 1 < MAX_ITEMS -> (S (length r) < MAX_NESTING)%nat ->
    blen D <= MAX_OFFSET ->
    exists e', add_unprotected_parameters c me kid e = (T_SUCCESS, e') /\
      RR e' (D ++ encode (unprotected_header (u_data kid) (ct_of c me))) top (inc n :: r).
  Proof.
    intros C H L1 L2 L3. unfold add_unprotected_parameters.
    apply R_open with (t := NMap) in H; auto. fold (enc_open_map e) in H.
    set (n0 := {| n_type := NMap; n_start := blen D; n_count := 0 |}) in *.
    set (ks := match u_data kid with [] => [] | _ => [(CInt 4, CBytes (u_data kid))] end).
    set (kv := fun p : cbor * cbor => encode (fst p) ++ encode (snd p)).
    assert (K : exists nk, n_type nk = NMap /\ n_start nk = blen D /\ n_count nk = 2 * blen ks /\
      RR (if negb (u_is_null_or_empty kid)
          then enc_add_bytes_to_map (enc_open_map e) LABEL_KID kid else enc_open_map e)
         (D ++ flat_map kv ks) top (nk :: inc n :: r)).
    { destruct (u_is_null_or_empty kid) eqn:E; cbn [negb].
      - unfold ks. rewrite (null_or_empty_data _ E). exists n0. cbn [flat_map].
        rewrite app_nil_r. auto.
      - destruct (not_null_or_empty _ E) as (b & s & ->). unfold ks. cbn [u_data].
        exists (inc (inc n0)). repeat split.
        change LABEL_KID with 4%Z.
        apply R_add_int with (z := 4%Z) in H; [|now compute].
        apply R_add_bytes with (u := UBuf (b :: s)) in H; [|now compute].
        cbn [flat_map kv fst snd]. rewrite app_nil_r. rewrite <- app_assoc in H. exact H. }
    destruct K as (nk & T & S & N & HK).
    assert (Lk : blen ks <= 1) by (unfold ks; destruct (u_data kid); now compute).
    set (e1 := if negb (u_is_null_or_empty kid) then _ else _) in *. clearbody e1.
    assert (CL : forall e2 cs nk2, n_type nk2 = NMap -> n_start nk2 = blen D ->
              n_count nk2 = 2 * blen (ks ++ cs) ->
              RR e2 (D ++ flat_map kv (ks ++ cs)) top (nk2 :: inc n :: r) ->
              RR (enc_close_map e2) (D ++ encode (CMap (ks ++ cs))) top (inc n :: r)).
    { intros e2 cs nk2 T2 S2 N2 H2. apply R_close_map in H2; auto.
      rewrite N2 in H2. replace (2 * blen (ks ++ cs) / 2) with (blen (ks ++ cs)) in H2.
      2:{ rewrite N.mul_comm, N.div_mul; lia. }
      exact H2. }
    assert (U : forall ct cs, cs = match ct with CtNone => [] | CtUInt n => [(CInt 3, CUInt n)]
                             | CtText s => [(CInt 3, CText s)] end ->
               unprotected_header (u_data kid) ct = CMap (ks ++ cs)).
    { intros ct cs ->. reflexivity. }
    unfold ct_clash, ct_of in *. destruct (dis_content_type c); cbn [negb andb] in *.
    { eexists. split; [reflexivity|]. rewrite (U CtNone [] eq_refl).
      eapply CL with (nk2 := nk); rewrite ?app_nil_r; auto. }
    destruct (c_ct_uint me =? EMPTY_UINT_CONTENT_TYPE) eqn:EU; cbn [negb andb] in *;
      destruct (c_ct_tstr me) as [s|]; try discriminate C.
    - eexists. split; [reflexivity|].
      rewrite (U (CtText s) [(CInt 3, CText s)] eq_refl).
      eapply CL with (nk2 := inc (inc nk)); cbn [inc n_type n_start n_count]; auto.
      + rewrite blen_app, N, blen_cons, blen_nil. lia.
      + change LABEL_CONTENT_TYPE with 3%Z.
        apply R_add_int with (z := 3%Z) in HK; [|rewrite N; unfold MAX_ITEMS; lia].
        apply R_add_text with (u := UBuf s) in HK; [|cbn [inc n_count]; rewrite N; unfold MAX_ITEMS; lia].
        rewrite flat_map_app. cbn [flat_map]. rewrite app_nil_r, app_assoc. unfold kv at 2. cbn [fst snd]. rewrite app_assoc.
        exact HK.
    - eexists. split; [reflexivity|]. rewrite (U CtNone [] eq_refl).
      eapply CL with (nk2 := nk); rewrite ?app_nil_r; auto.
    - eexists. split; [reflexivity|].
      rewrite (U (CtUInt (c_ct_uint me)) [(CInt 3, CUInt (c_ct_uint me))] eq_refl).
      eapply CL with (nk2 := inc (inc nk)); cbn [inc n_type n_start n_count]; auto.
      + rewrite blen_app, N, blen_cons, blen_nil. lia.
      + change LABEL_CONTENT_TYPE with 3%Z.
        apply R_add_int with (z := 3%Z) in HK; [|rewrite N; unfold MAX_ITEMS; lia].
        apply R_add_uint with (z := c_ct_uint me) in HK; [|cbn [inc n_count]; rewrite N; unfold MAX_ITEMS; lia].
        rewrite flat_map_app. cbn [flat_map]. rewrite app_nil_r, app_assoc. unfold kv at 2. cbn [fst snd]. rewrite app_assoc.
        exact HK.
  Qed.
End Phase1.

(** ** t_cose_sign1_encode_parameters *)

(** One more item can be counted at the current level. *)
Definition can_inc (top : N) (ns : list nest) (top' : N) (ns' : list nest) : Prop :=
  match ns with
  | [] => top + 1 < MAX_ITEMS /\ top' = top + 1 /\ ns' = []
  | n :: r => n_count n + 1 < MAX_ITEMS /\ top' = top /\ ns' = inc n :: r
  end.

Definition arr (start count : N) : nest := {| n_type := NArray; n_start := start; n_count := count |}.
Definition bst (start count : N) : nest := {| n_type := NBstr; n_start := start; n_count := count |}.

Section Phase1b.
  Variables (nul : bool) (cap : N).
  Notation RR := (R nul cap).

  Lemma R_open_gen e d top ns top' ns' t :
    RR e d top ns -> can_inc top ns top' ns' -> (length ns' < MAX_NESTING)%nat ->
    blen d <= MAX_OFFSET ->
    RR (enc_open e t) d top' ({| n_type := t; n_start := blen d; n_count := 0 |} :: ns').
  Proof.
    intros H C L O. eapply R_open_aux; eauto. unfold can_inc, enc_increment in *.
    cbn [mk e_err qe_ok negb e_nest e_top]. destruct ns as [|n r]; destruct C as (C & -> & ->).
    - destruct (N.leb_spec MAX_ITEMS (top + 1)); [lia|]. reflexivity.
    - destruct (N.leb_spec MAX_ITEMS (n_count n + 1)); [lia|]. reflexivity.
  Qed.

  Lemma kid_data me :
    u_data (if sc_on me && u_is_null_or_empty (c_kid me) then get_short_circuit_kid else c_kid me)
    = kid_bytes me.
  Proof. unfold kid_bytes. destruct (_ && _); reflexivity. Qed.

  Lemma params_ok c me det e D top ns top' ns' :
    RR e D top ns -> can_inc top ns top' ns' -> (length ns' <= 12)%nat ->
    signature_algorithm_id_is_supported c (c_alg me) = true ->
    sc_on me && dis_short_circuit c = false ->
    ct_clash c me = false ->
    let D1 := D ++ tag_bytes me in
    blen (D1 ++ heads c me) <= MAX_OFFSET ->
    exists e', encode_parameters_internal c me det e
               = (T_SUCCESS, sc_set_prot me (bstr_slice nul cap D1 (protected_header (c_alg me))), e') /\
      RR e' (D1 ++ heads c me) top'
         (if det then arr (blen D1) 2 :: ns'
          else bst (blen (D1 ++ heads c me)) 0 :: arr (blen D1) 3 :: ns').
  Proof.
    intros H C L A S T D1 B. unfold encode_parameters_internal. rewrite A. cbn [negb].
    set (e0 := if negb (has_flag (c_flags me) OPT_OMIT_CBOR_TAG) then _ else _).
    assert (H0 : RR e0 D1 top ns).
    { unfold e0, D1, tag_bytes, tagged. destruct (negb _).
      - now apply R_add_tag.
      - now rewrite app_nil_r. }
    clearbody e0. clear H.
    assert (B1 : blen D1 <= MAX_OFFSET) by (rewrite blen_app in B; lia).
    apply R_open_gen with (t := NArray) (1 := H0) in C; [|unfold MAX_NESTING; lia|exact B1].
    fold (enc_open_array e0) in C.
    destruct (R_prot _ _ _ _ _ _ _ (c_alg me) C) as [P1 P2];
      [now compute|unfold MAX_NESTING; lia|exact B1|].
    destruct (encode_protected_parameters (c_alg me) (enc_open_array e0)) as [e1 prot].
    cbn [fst snd] in P1, P2. subst prot.
    change (has_flag (c_flags (sc_set_prot me ?p)) OPT_SHORT_CIRCUIT_SIG) with (sc_on me).
    rewrite S.
    change (c_kid (sc_set_prot me ?p)) with (c_kid me).
    destruct (R_unprot nul cap c (sc_set_prot me (bstr_slice nul cap D1 (protected_header (c_alg me))))
               (if sc_on me && u_is_null_or_empty (c_kid me) then get_short_circuit_kid else c_kid me)
               e1 _ _ _ _ T P1) as (e2 & E2 & H2);
      [now compute|unfold MAX_NESTING; lia| |].
    { unfold heads in B. rewrite app_assoc, blen_app in B. lia. }
    rewrite E2. cbn [terr_eqb negb]. rewrite kid_data in H2.
    change (ct_of c (sc_set_prot me _)) with (ct_of c me) in H2.
    fold (unprot_of c me) in H2. rewrite <- app_assoc in H2. fold (heads c me) in H2.
    destruct det.
    - eexists. split; [reflexivity|]. exact H2.
    - eexists. split; [reflexivity|].
      apply R_open with (t := NBstr) in H2; [|now compute|unfold MAX_NESTING; lia|exact B].
      exact H2.
  Qed.
End Phase1b.

(** ** t_cose_sign1_encode_signature *)

Definition sign_core (c : cfg) (cr : crypto) (me : sctx) (prot aad payload : ubufc) (buf : wbuf)
  : M sigres :=
  if has_flag (c_flags me) OPT_SHORT_CIRCUIT_SIG && negb (dis_short_circuit c)
  then sign1_sign_short_circuit c cr me prot aad payload buf
  else if (c_alg me =? EDDSA)%Z && negb (dis_eddsa c)
  then sign1_sign_eddsa cr me prot aad payload buf
  else sign1_sign_default c cr me prot aad payload buf.

(** The bytes of the signature as encoded: [n] bytes, [w] stored. *)
Definition sigw (n : N) (w : bytes) : bytes :=
  firstn (N.to_nat n) (w ++ repeat x00 (N.to_nat n)).

Lemma sigw_len n w : blen (sigw n w) = n.
Proof.
  unfold sigw, blen. rewrite firstn_length, app_length, repeat_length. lia.
Qed.
Lemma sigw_exact w : sigw (blen w) w = w.
Proof. unfold sigw. apply firstn_blen. Qed.

(** The buffer handed to the signer. *)
Definition place (nul : bool) (room : N) : wbuf :=
  {| wb_null := nul || (room =? 0); wb_len := room |}.

(** [b] as a buffer in the output, or its length when there is no output. *)
Definition inbuf (nul : bool) (b : bytes) : ubufc := if nul then UNull (blen b) else UBuf b.

Section Phase2.
  Variables (nul : bool) (cap : N).
  Notation RR := (R nul cap).

  Lemma R_close_bytes X top ob r n w :
    blen X <= cap -> n_type ob = NOpenBytes -> n_start ob = blen X ->
    RR (enc_close_bytes (mk nul cap X top (ob :: r)) n w) (X ++ encode (CBytes (sigw n w))) top r.
  Proof.
    intros L T S. unfold enc_close_bytes. cbn [mk e_err qe_ok negb e_oerr].
    unfold e_room, e_pos. cbn [mk e_cap e_data].
    destruct (N.ltb_spec (cap - blen X) n) as [B|B].
    - unfold R. cbn [encode]. rewrite !blen_app, sigw_len.
      match goal with |- context [?a <=? ?b] => destruct (N.leb_spec a b); [lia|] end. reflexivity.
    - cbn [encode]. rewrite sigw_len.
      eapply R_close; eauto.
      unfold R. fold (sigw n w). rewrite blen_app, sigw_len.
      destruct (N.leb_spec (blen X + n) cap); [reflexivity|lia].
  Qed.

  Lemma resolve_mid d1 b d2 top ns :
    resolve (mk nul cap (d1 ++ encode (CBytes b) ++ d2) top ns)
      {| s_null := nul; s_off := blen d1 + blen (short_head 2 (blen b)); s_len := blen b |}
    = inbuf nul b.
  Proof.
    unfold resolve, inbuf. cbn [s_null s_len s_off mk e_data]. destruct nul; [reflexivity|].
    f_equal. cbn [encode].
    rewrite <- app_assoc, (app_assoc d1). rewrite <- blen_app. apply sub_bytes_mid.
  Qed.

  Lemma signature_tail c cr me aad pl e D1 P rest top ns :
    let X := D1 ++ encode (CBytes P) ++ rest in
    c_prot me = bstr_slice nul cap D1 P ->
    blen X <= cap -> blen X <= MAX_OFFSET -> (length ns <= 12)%nat ->
    e = mk nul cap X top (arr (blen D1) 3 :: ns) ->
    exists e0 f,
      (let prot := resolve e (c_prot me) in
       let (e, buf) := enc_open_bytes e in
       let! (err, me, sig_len, sig) :=
         if has_flag (c_flags me) OPT_SHORT_CIRCUIT_SIG && negb (dis_short_circuit c)
         then sign1_sign_short_circuit c cr me prot aad pl buf
         else if (c_alg me =? EDDSA)%Z && negb (dis_eddsa c)
         then sign1_sign_eddsa cr me prot aad pl buf
         else sign1_sign_default c cr me prot aad pl buf in
       if negb (terr_eqb err T_SUCCESS) then mret (err, me, e)
       else
         let e := enc_close_bytes e sig_len sig in
         let e := enc_close_array e in
         mret (T_SUCCESS, me, e))
      = (let! (err, me, n, w) := sign_core c cr me (inbuf nul P) aad pl (place nul (cap - blen X)) in
         if negb (terr_eqb err T_SUCCESS) then mret (err, me, e0)
         else mret (T_SUCCESS, me, f n w)) /\
      forall n w, RR (f n w) (D1 ++ short_head 4 4 ++ encode (CBytes P) ++ rest
                              ++ encode (CBytes (sigw n w))) top ns.
  Proof.
    intros X CP L B N E.
    assert (RP : resolve e (c_prot me) = inbuf nul P).
    { rewrite CP. unfold bstr_slice.
      replace (blen (D1 ++ encode (CBytes P)) <=? cap) with true.
      - rewrite E. apply resolve_mid.
      - unfold X in L. rewrite app_assoc, blen_app in L. symmetry. apply N.leb_le. lia. }
    rewrite RP. unfold enc_open_bytes.
    assert (O : enc_open e NOpenBytes = mk nul cap X top
       ({| n_type := NOpenBytes; n_start := blen X; n_count := 0 |} :: arr (blen D1) 4 :: ns)).
    { assert (H : RR e X top (arr (blen D1) 3 :: ns)).
      { unfold R. apply N.leb_le in L. now rewrite L. }
      apply R_open with (t := NOpenBytes) in H; [|now compute|unfold MAX_NESTING; lia|exact B].
      apply (R_fits _ _ _ _ _ _ H L). }
    rewrite O.
    assert (PL : {| wb_null := e_null e || (e_room e =? 0); wb_len := e_room e |}
                 = place nul (cap - blen X)).
    { rewrite E. reflexivity. }
    rewrite PL. fold (sign_core c cr me (inbuf nul P) aad pl (place nul (cap - blen X))).
    exists (mk nul cap X top ({| n_type := NOpenBytes; n_start := blen X; n_count := 0 |} :: arr (blen D1) 4 :: ns)).
    exists (fun n w => enc_close_array (enc_close_bytes (mk nul cap X top
       ({| n_type := NOpenBytes; n_start := blen X; n_count := 0 |} :: arr (blen D1) 4 :: ns)) n w)).
    split; [reflexivity|].
    intros n w.
    pose proof (R_close_bytes X top {| n_type := NOpenBytes; n_start := blen X; n_count := 0 |}
                  (arr (blen D1) 4 :: ns) n w L eq_refl eq_refl) as H.
    unfold X in H at 3. rewrite <- app_assoc in H.
    apply R_close_array in H; [|reflexivity|reflexivity].
    rewrite <- !app_assoc in H. exact H.
  Qed.

  (** Payload in the message. *)
  Lemma signature_inline c cr me aad e D1 P mid pl top b ns :
    let X := D1 ++ encode (CBytes P) ++ mid ++ encode (CBytes pl) in
    c_prot me = bstr_slice nul cap D1 P ->
    blen X <= MAX_OFFSET -> (length ns <= 12)%nat ->
    n_type b = NBstr -> n_start b = blen (D1 ++ encode (CBytes P) ++ mid) ->
    RR e ((D1 ++ encode (CBytes P) ++ mid) ++ pl) top (b :: arr (blen D1) 3 :: ns) ->
    exists e0 f,
      encode_signature_aad_internal c cr me aad NULL_UBUF e
      = (if cap <? blen X then mret (ERR_TOO_SMALL, me, e0)
         else let! (err, me, n, w) := sign_core c cr me (inbuf nul P) aad (inbuf nul pl)
                                                (place nul (cap - blen X)) in
              if negb (terr_eqb err T_SUCCESS) then mret (err, me, e0)
              else mret (T_SUCCESS, me, f n w)) /\
      (cap < blen X -> e_oerr e0 = true) /\
      (blen X <= cap -> forall n w,
         RR (f n w) (D1 ++ short_head 4 4 ++ encode (CBytes P) ++ (mid ++ encode (CBytes pl))
                              ++ encode (CBytes (sigw n w))) top ns).
  Proof.
    intros X CP B N T S H. unfold encode_signature_aad_internal.
    cbn [u_is_null NULL_UBUF].
    destruct (R_close_bstr _ _ _ _ _ _ _ _ H T S) as [H1 H2].
    destruct (enc_close_bstr e) as [e1 s]. cbn [fst snd] in H1, H2.
    replace ((D1 ++ encode (CBytes P) ++ mid) ++ encode (CBytes pl)) with X in *.
    2:{ unfold X. rewrite <- !app_assoc. reflexivity. }
    unfold enc_error. rewrite (R_oerr _ _ _ _ _ _ H1).
    destruct (N.ltb_spec cap (blen X)) as [L|L].
    - exists e1, (fun _ _ => e1). cbn [enc_error_to_terr terr_eqb negb].
      split; [reflexivity|]. split; [intros _; now apply (R_over _ _ _ _ _ _ H1)|lia].
    - pose proof (R_fits _ _ _ _ _ _ H1 L) as E.
      assert (E' : e_err e1 = QE_SUCCESS) by now rewrite E.
      rewrite E'. cbn [enc_error_to_terr terr_eqb negb].
      assert (RS : resolve e1 s = inbuf nul pl).
      { rewrite H2. unfold bstr_slice.
        replace ((D1 ++ encode (CBytes P) ++ mid) ++ encode (CBytes pl)) with X.
        2:{ unfold X. rewrite <- !app_assoc. reflexivity. }
        replace (blen X <=? cap) with true by lia. rewrite E.
        replace X with ((D1 ++ encode (CBytes P) ++ mid) ++ encode (CBytes pl) ++ []).
        - apply resolve_mid.
        - unfold X. rewrite app_nil_r, <- !app_assoc. reflexivity. }
      rewrite RS.
      destruct (signature_tail c cr me aad (inbuf nul pl) e1 D1 P (mid ++ encode (CBytes pl)) top ns
                  CP L B N E) as (e0 & f & Q1 & Q2).
      exists e0, f. split; [exact Q1|]. split; [lia|]. intros _. exact Q2.
  Qed.

  (** Payload not in the message. *)
  Lemma signature_detached c cr me aad pl e D1 P mid top ns :
    let X := D1 ++ encode (CBytes P) ++ mid in
    u_is_null pl = false ->
    c_prot me = bstr_slice nul cap D1 P ->
    blen X <= MAX_OFFSET -> (length ns <= 12)%nat ->
    RR e X top (arr (blen D1) 3 :: ns) ->
    exists e0 f,
      encode_signature_aad_internal c cr me aad pl e
      = (if cap <? blen X then mret (ERR_TOO_SMALL, me, e0)
         else let! (err, me, n, w) := sign_core c cr me (inbuf nul P) aad pl
                                                (place nul (cap - blen X)) in
              if negb (terr_eqb err T_SUCCESS) then mret (err, me, e0)
              else mret (T_SUCCESS, me, f n w)) /\
      (cap < blen X -> e_oerr e0 = true) /\
      (blen X <= cap -> forall n w,
         RR (f n w) (D1 ++ short_head 4 4 ++ encode (CBytes P) ++ mid
                              ++ encode (CBytes (sigw n w))) top ns).
  Proof.
    intros X U CP B N H. unfold encode_signature_aad_internal. rewrite U.
    unfold enc_error. rewrite (R_oerr _ _ _ _ _ _ H).
    destruct (N.ltb_spec cap (blen X)) as [L|L].
    - exists e, (fun _ _ => e). cbn [enc_error_to_terr terr_eqb negb].
      split; [reflexivity|]. split; [intros _; now apply (R_over _ _ _ _ _ _ H)|lia].
    - pose proof (R_fits _ _ _ _ _ _ H L) as E.
      assert (E' : e_err e = QE_SUCCESS) by now rewrite E.
      rewrite E'. cbn [enc_error_to_terr terr_eqb negb].
      destruct (signature_tail c cr me aad pl e D1 P mid top ns CP L B N E) as (e0 & f & Q1 & Q2).
      exists e0, f. split; [exact Q1|]. split; [lia|]. intros _. exact Q2.
  Qed.
End Phase2.

(** ** The one-shot functions *)

Definition payload_item (det : bool) (payload : ubufc) : cbor :=
  if det then CNull else CBytes (src_bytes payload).

(** Everything before the signature, without the array head. *)
Definition unsigned (c : cfg) (me : sctx) (det : bool) (payload : ubufc) : bytes :=
  tag_bytes me ++ heads c me ++ encode (payload_item det payload).

(** The context after the parameters have been encoded. *)
Definition with_prot (me : sctx) (buf : wbuf) : sctx :=
  sc_set_prot me (bstr_slice (wb_null buf) (wb_len buf) (tag_bytes me) (protected_header (c_alg me))).

Definition message (c : cfg) (me : sctx) (det : bool) (payload : ubufc) (sig : bytes) : bytes :=
  cose_sign1 (tagged me) (protected_header (c_alg me)) (unprot_of c me)
             (if det then None else Some (src_bytes payload)) sig.

Lemma tag_bytes_small me : blen (tag_bytes me) <= 1.
Proof. unfold tag_bytes. destruct (tagged me); now compute. Qed.

Lemma terr_cases (A : Type) (err : terr) (x y : A) :
  (if negb (terr_eqb err T_SUCCESS) then x else y) = (if terr_eqb err T_SUCCESS then y else x).
Proof. now destruct (terr_eqb err T_SUCCESS). Qed.

Lemma finish_final nul cap e d top :
  R nul cap e d top [] ->
  (let err := enc_error_to_terr (enc_error e) in
   forall me : sctx,
   (if negb (terr_eqb err T_SUCCESS) then mret (err, me, None)
    else match enc_finish e with
         | (QE_SUCCESS, r) => mret (T_SUCCESS, me, r)
         | (_, r) => mret (ERR_CBOR_NOT_WELL_FORMED, me, r)
         end)
   = (if blen d <=? cap then mret (T_SUCCESS, me, Some (inbuf nul d))
      else mret (ERR_TOO_SMALL, me, None))).
Proof.
  intros H err me. unfold err, enc_finish, enc_error. rewrite (R_oerr _ _ _ _ _ _ H).
  destruct (N.leb_spec (blen d) cap) as [L|L].
  - rewrite (R_fits _ _ _ _ _ _ H L). replace (cap <? blen d) with false by lia.
    cbn [mk e_err e_nest enc_error_to_terr terr_eqb negb]. unfold enc_out, e_pos.
    cbn [mk e_oerr e_null e_data]. reflexivity.
  - replace (cap <? blen d) with true by lia. reflexivity.
Qed.

Theorem sign_eq c cr me det payload aad buf :
  let nul := wb_null buf in
  let cap := wb_len buf in
  let D := unsigned c me det payload in
  (det = true -> u_is_null payload = false) ->
  blen D <= MAX_OFFSET ->
  sign_aad_internal c cr me det payload aad buf =
  (if negb (signature_algorithm_id_is_supported c (c_alg me))
   then mret (ERR_UNSUPPORTED_SIGNING_ALG, me, None)
   else if sc_on me && dis_short_circuit c
   then mret (ERR_SHORT_CIRCUIT_SIG_DISABLED, with_prot me buf, None)
   else if ct_clash c me then mret (ERR_DUPLICATE_PARAMETER, with_prot me buf, None)
   else if cap <? blen D then mret (ERR_TOO_SMALL, with_prot me buf, None)
   else
     let! (err, me', n, w) :=
       sign_core c cr (with_prot me buf) (inbuf nul (protected_header (c_alg me))) aad
                 (if det then payload else inbuf nul (src_bytes payload))
                 (place nul (cap - blen D)) in
     if negb (terr_eqb err T_SUCCESS) then mret (err, me', None)
     else let m := message c me det payload (sigw n w) in
          if blen m <=? cap then mret (T_SUCCESS, me', Some (inbuf nul m))
          else mret (ERR_TOO_SMALL, me', None)).
Proof.
  intros nul cap D HN B. unfold sign_aad_internal.
  destruct (signature_algorithm_id_is_supported c (c_alg me)) eqn:A; cbn [negb].
  2:{ unfold encode_parameters_internal. rewrite A. reflexivity. }
  pose proof (R_init buf) as H0.
  destruct (sc_on me && dis_short_circuit c) eqn:S.
  - unfold encode_parameters_internal. rewrite A. cbn [negb].
    set (e0 := if negb (has_flag (c_flags me) OPT_OMIT_CBOR_TAG) then _ else _).
    assert (H1 : R nul cap e0 (tag_bytes me) 0 []).
    { unfold e0, tag_bytes, tagged. destruct (negb _); [|exact H0].
      apply (R_add_tag _ _ _ _ _ _ TAG_COSE_SIGN1) in H0. exact H0. }
    clearbody e0. pose proof (tag_bytes_small me).
    apply R_open_top with (t := NArray) in H1; [|now compute|unfold MAX_OFFSET; lia].
    destruct (R_prot _ _ _ _ _ _ _ (c_alg me) H1) as [P1 P2];
      [now compute|cbn [length]; unfold MAX_NESTING; lia|unfold MAX_OFFSET; lia|].
    fold (enc_open_array e0) in P2.
    destruct (encode_protected_parameters _ (enc_open_array e0)) as [e1 prot].
    cbn [snd] in P2. subst prot. 
    change (has_flag (c_flags (sc_set_prot me ?p)) OPT_SHORT_CIRCUIT_SIG) with (sc_on me).
    rewrite S. reflexivity.
  - destruct (ct_clash c me) eqn:T.
    + unfold encode_parameters_internal. rewrite A. cbn [negb].
      set (e0 := if negb (has_flag (c_flags me) OPT_OMIT_CBOR_TAG) then _ else _).
      assert (H1 : R nul cap e0 (tag_bytes me) 0 []).
      { unfold e0, tag_bytes, tagged. destruct (negb _); [|exact H0].
        apply (R_add_tag _ _ _ _ _ _ TAG_COSE_SIGN1) in H0. exact H0. }
      clearbody e0. pose proof (tag_bytes_small me).
      apply R_open_top with (t := NArray) in H1; [|now compute|unfold MAX_OFFSET; lia].
      destruct (R_prot _ _ _ _ _ _ _ (c_alg me) H1) as [P1 P2];
        [now compute|cbn [length]; unfold MAX_NESTING; lia|unfold MAX_OFFSET; lia|].
      fold (enc_open_array e0) in P2.
      destruct (encode_protected_parameters _ (enc_open_array e0)) as [e1 prot].
      cbn [snd] in P2. subst prot.
      change (has_flag (c_flags (sc_set_prot me ?p)) OPT_SHORT_CIRCUIT_SIG) with (sc_on me).
      rewrite S.
      unfold ct_clash in T. apply andb_prop in T as [T T3]. apply andb_prop in T as [T1 T2].
      unfold add_unprotected_parameters. cbn [sc_set_prot c_ct_uint c_ct_tstr].
      destruct (dis_content_type c); [discriminate|]. rewrite T2.
      destruct (c_ct_tstr me); [|discriminate]. reflexivity.
    + assert (CI : can_inc 0 [] 1 []) by now repeat split.
      destruct (params_ok nul cap c me det (enc_init buf) [] 0 [] 1 [] H0 CI) as (e1 & E1 & H1);
        [cbn [length]; lia|exact A|exact S|exact T| |].
      { cbn [app]. unfold D, unsigned in B. rewrite app_assoc, blen_app in B. lia. }
      rewrite E1. cbn [app] in *.
      change (wb_null buf) with nul. change (wb_len buf) with cap.
      change (sc_set_prot me (bstr_slice nul cap (tag_bytes me) (protected_header (c_alg me))))
        with (with_prot me buf) in *.
      cbn [terr_eqb negb].
      assert (CP : c_prot (with_prot me buf)
                   = bstr_slice nul cap (tag_bytes me) (protected_header (c_alg me))) by reflexivity.
      destruct det.
      * apply R_add_null in H1; [|now compute].
        change (inc (arr ?s 2)) with (arr s 3) in H1.
        unfold heads in H1. rewrite <- !app_assoc in H1.
        destruct (signature_detached nul cap c cr (with_prot me buf) aad payload (enc_add_null e1)
                   (tag_bytes me) (protected_header (c_alg me)) (encode (unprot_of c me) ++ encode CNull)
                   1 [] (HN eq_refl) CP) as (e2 & f & E2 & O2 & F2);
          [|cbn [length]; lia|exact H1|].
        { unfold D, unsigned, heads, payload_item in B. rewrite <- !app_assoc in B. exact B. }
        rewrite E2.
        replace (tag_bytes me ++ encode (CBytes (protected_header (c_alg me)))
                 ++ encode (unprot_of c me) ++ encode CNull) with D in *
          by (unfold D, unsigned, heads, payload_item; now rewrite <- !app_assoc).
        destruct (N.ltb_spec cap (blen D)) as [L|L].
        { rewrite mbind_ret_l. reflexivity. }
        rewrite mbind_assoc. apply mbind_ext. intros [[[err me'] n] w].
        destruct (terr_eqb err T_SUCCESS) eqn:Er; cbn [negb].
        2:{ rewrite mbind_ret_l, Er. reflexivity. }
        rewrite mbind_ret_l. cbn [terr_eqb negb].
        rewrite (finish_final _ _ _ _ _ (F2 L n w) me').
        replace (message c me true payload (sigw n w)) with
          (tag_bytes me ++ short_head 4 4 ++ encode (CBytes (protected_header (c_alg me)))
           ++ (encode (unprot_of c me) ++ encode CNull) ++ encode (CBytes (sigw n w))).
        { reflexivity. }
        unfold message. rewrite cose_sign1_eq. unfold heads. rewrite <- !app_assoc. reflexivity.
      * apply R_add_encoded with (u := payload) in H1; [|now compute].
        unfold heads in H1. rewrite <- (app_assoc (tag_bytes me)) in H1 at 1.
        destruct (signature_inline nul cap c cr (with_prot me buf) aad (enc_add_encoded e1 payload)
                   (tag_bytes me) (protected_header (c_alg me)) (encode (unprot_of c me)) (src_bytes payload)
                   1 (inc (bst (blen (tag_bytes me ++ heads c me)) 0)) [] CP) as (e2 & f & E2 & O2 & F2);
          [|cbn [length]; lia|reflexivity|reflexivity| |].
        { unfold D, unsigned, heads, payload_item in B. rewrite <- !app_assoc in B. exact B. }
        { rewrite <- app_assoc. exact H1. }
        rewrite E2.
        replace (tag_bytes me ++ encode (CBytes (protected_header (c_alg me)))
                 ++ encode (unprot_of c me) ++ encode (CBytes (src_bytes payload))) with D in *
          by (unfold D, unsigned, heads, payload_item; now rewrite <- !app_assoc).
        destruct (N.ltb_spec cap (blen D)) as [L|L].
        { rewrite mbind_ret_l. reflexivity. }
        rewrite mbind_assoc. apply mbind_ext. intros [[[err me'] n] w].
        destruct (terr_eqb err T_SUCCESS) eqn:Er; cbn [negb].
        2:{ rewrite mbind_ret_l, Er. reflexivity. }
        rewrite mbind_ret_l. cbn [terr_eqb negb].
        rewrite (finish_final _ _ _ _ _ (F2 L n w) me').
        replace (message c me false payload (sigw n w)) with
          (tag_bytes me ++ short_head 4 4 ++ encode (CBytes (protected_header (c_alg me)))
           ++ (encode (unprot_of c me) ++ encode (CBytes (src_bytes payload))) ++ encode (CBytes (sigw n w))).
        { reflexivity. }
        unfold message. rewrite cose_sign1_eq. unfold heads. rewrite <- !app_assoc. reflexivity.
Qed.

(** ** Messages beyond QCBOR's offset limit, and detached NULL payloads *)

Definition bad (e : enc) : Prop := e_oerr e = true \/ e_err e <> QE_SUCCESS.

Lemma bad_error e : bad e <-> enc_error e <> QE_SUCCESS.
Proof.
  unfold bad, enc_error. destruct (e_oerr e); split; intro H; try congruence; auto.
  destruct H; [discriminate|assumption].
Qed.

Lemma bad_terr e : bad e -> terr_eqb (enc_error_to_terr (enc_error e)) T_SUCCESS = false.
Proof. intro H. apply bad_error in H. now destruct (enc_error e). Qed.

Lemma qe_ok_eq x : qe_ok x = true <-> x = QE_SUCCESS.
Proof. destruct x; split; cbn; congruence. Qed.

Lemma insert_err e u p : e_err (enc_insert e u p) = e_err e.
Proof. unfold enc_insert. repeat destruct (_ : bool); reflexivity. Qed.

Lemma insert_oerr e u p : e_oerr e = true -> e_oerr (enc_insert e u p) = true.
Proof. intro H. rewrite oerr_insert; exact H. Qed.

Lemma bad_insert e u p : bad e -> bad (enc_insert e u p).
Proof. intros [H|H]; [left; now apply insert_oerr|right; now rewrite insert_err]. Qed.

Lemma bad_increment e : bad e -> bad (enc_increment e).
Proof.
  intros [H|H]; [left; now rewrite oerr_increment|]. right. unfold enc_increment.
  destruct (qe_ok (e_err e)) eqn:E; cbn [negb]; [|exact H].
  apply qe_ok_eq in E. congruence.
Qed.

Lemma bad_open e t : bad e -> bad (enc_open e t).
Proof.
  intros [H|H]; [left; now rewrite oerr_open|]. right. unfold enc_open.
  unfold enc_increment. destruct (qe_ok (e_err e)) eqn:E; cbn [negb]; [|now rewrite E].
  apply qe_ok_eq in E. congruence.
Qed.

Lemma bad_close e t m a : bad e -> bad (enc_close e t m a).
Proof.
  intros [H|H]; [left; now apply oerr_close|]. right. unfold enc_close.
  destruct (qe_ok (e_err e)) eqn:E; cbn [negb]; [|exact H].
  apply qe_ok_eq in E. congruence.
Qed.

Lemma bad_close_bstr e : bad e -> bad (fst (enc_close_bstr e)).
Proof.
  intro H. apply (bad_close e NBstr MT_BSTR (fun n e => e_pos e - n_start n)) in H.
  unfold enc_close_bstr. destruct (_ || _); [exact H|]. destruct (e_nest e); [exact H|].
  destruct (e_oerr _); exact H.
Qed.

Lemma bad_close_bytes e n w : bad e -> bad (enc_close_bytes e n w).
Proof.
  intros [H|H]; [left; now apply oerr_close_bytes|]. right. unfold enc_close_bytes.
  destruct (qe_ok (e_err e)) eqn:E; cbn [negb]; [|exact H].
  apply qe_ok_eq in E. congruence.
Qed.

Lemma R_open_beyond nul cap e d top n r t :
  R nul cap e d top (n :: r) -> n_count n + 1 < MAX_ITEMS -> MAX_OFFSET < blen d ->
  bad (enc_open e t).
Proof.
  intros H L O. destruct (N.leb_spec (blen d) cap) as [C|C].
  - rewrite (R_fits _ _ _ _ _ _ H C). right. unfold enc_open, enc_increment.
    cbn [mk e_err qe_ok negb e_nest]. destruct (N.leb_spec MAX_ITEMS (n_count n + 1)); [lia|].
    cbn [set_nest e_err qe_ok negb]. unfold e_pos. cbn [set_nest e_data mk].
    destruct (N.ltb_spec MAX_OFFSET (blen d)); [|lia]. cbn [set_err e_err]. discriminate.
  - apply bad_open. left. exact (R_over _ _ _ _ _ _ H C).
Qed.

Lemma short_head_len mt n : blen (short_head mt n) <= 9.
Proof. unfold short_head. repeat destruct (_ <? _); rewrite ?blen_cons; unfold blen; rewrite ?big_endian_length; now compute. Qed.

Lemma protected_header_len alg : blen (protected_header alg) <= 27.
Proof.
  unfold protected_header. cbn [encode flat_map fst snd]. rewrite app_nil_r, !blen_app.
  pose proof (short_head_len 5 (blen [(CInt 1, CInt alg)])).
  assert (I : forall z, blen (encode (CInt z)) <= 9).
  { intro z. unfold CInt. destruct (z <? 0)%Z; cbn [encode]; apply short_head_len. }
  pose proof (I 1%Z). pose proof (I alg). lia.
Qed.

Lemma params_gen c me det buf :
  signature_algorithm_id_is_supported c (c_alg me) = true ->
  sc_on me && dis_short_circuit c = false ->
  ct_clash c me = false ->
  exists e', encode_parameters_internal c me det (enc_init buf)
             = (T_SUCCESS, with_prot me buf, if det then e' else enc_open_bstr e') /\
    R (wb_null buf) (wb_len buf) e' (tag_bytes me ++ heads c me) 1 [arr (blen (tag_bytes me)) 2].
Proof.
  intros A S T. unfold encode_parameters_internal. rewrite A. cbn [negb].
  pose proof (R_init buf) as H0. pose proof (tag_bytes_small me) as TS.
  set (e0 := if negb (has_flag (c_flags me) OPT_OMIT_CBOR_TAG) then _ else _).
  assert (H1 : R (wb_null buf) (wb_len buf) e0 (tag_bytes me) 0 []).
  { unfold e0, tag_bytes, tagged. destruct (negb _); [|exact H0].
    apply (R_add_tag _ _ _ _ _ _ TAG_COSE_SIGN1) in H0. exact H0. }
  clearbody e0.
  apply R_open_top with (t := NArray) in H1; [|now compute|unfold MAX_OFFSET; lia].
  fold (enc_open_array e0) in H1.
  destruct (R_prot _ _ _ _ _ _ _ (c_alg me) H1) as [P1 P2];
    [now compute|cbn [length]; unfold MAX_NESTING; lia|unfold MAX_OFFSET; lia|].
  destruct (encode_protected_parameters _ (enc_open_array e0)) as [e1 prot].
  cbn [fst snd] in P1, P2. subst prot.
  change (has_flag (c_flags (sc_set_prot me ?p)) OPT_SHORT_CIRCUIT_SIG) with (sc_on me).
  rewrite S. change (c_kid (sc_set_prot me ?p)) with (c_kid me).
  fold (with_prot me buf).
  destruct (R_unprot _ _ c (with_prot me buf)
             (if sc_on me && u_is_null_or_empty (c_kid me) then get_short_circuit_kid else c_kid me)
             e1 _ _ _ _ T P1) as (e2 & E2 & H2);
    [now compute|cbn [length]; unfold MAX_NESTING; lia| |].
  { cbn [encode]. rewrite !blen_app. pose proof (protected_header_len (c_alg me)).
    pose proof (short_head_len 2 (blen (protected_header (c_alg me)))). unfold MAX_OFFSET. lia. }
  rewrite E2. cbn [terr_eqb negb]. rewrite kid_data in H2.
  change (ct_of c (with_prot me buf)) with (ct_of c me) in H2.
  fold (unprot_of c me) in H2. rewrite <- app_assoc in H2. fold (heads c me) in H2.
  exists e2. destruct det; (split; [reflexivity|exact H2]).
Qed.

(** A detached payload without a buffer. *)
Theorem sign_detached_null c cr me payload aad buf :
  u_is_null payload = true ->
  signature_algorithm_id_is_supported c (c_alg me) = true ->
  sc_on me && dis_short_circuit c = false ->
  ct_clash c me = false ->
  sign_aad_internal c cr me true payload aad buf =
  mret ((if wb_len buf <? blen (unsigned c me true payload) then ERR_TOO_SMALL
         else ERR_CBOR_FORMATTING), with_prot me buf, None).
Proof.
  intros U A S T. unfold sign_aad_internal.
  destruct (params_gen c me true buf A S T) as (e1 & E1 & H1). rewrite E1. cbn [terr_eqb negb].
  apply R_add_null in H1; [|now compute].
  unfold encode_signature_aad_internal. rewrite U.
  rewrite <- app_assoc in H1. fold (payload_item true payload) in H1.
  change (encode CNull) with (encode (payload_item true payload)) in H1.
  fold (unsigned c me true payload) in H1.
  set (D := unsigned c me true payload) in *.
  set (e2 := enc_add_null e1) in *. clearbody e2.
  assert (X : enc_error_to_terr (enc_error (fst (enc_close_bstr e2)))
              = if wb_len buf <? blen D then ERR_TOO_SMALL else ERR_CBOR_FORMATTING).
  { destruct (N.ltb_spec (wb_len buf) (blen D)) as [L|L].
    - pose proof (R_over _ _ _ _ _ _ H1 L) as O.
      assert (O2 : e_oerr (fst (enc_close_bstr e2)) = true).
      { apply (oerr_close e2 NBstr MT_BSTR (fun n e => e_pos e - n_start n)) in O.
        unfold enc_close_bstr. destruct (_ || _); [exact O|]. destruct (e_nest e2); [exact O|].
        rewrite O. exact O. }
      unfold enc_error. now rewrite O2.
    - rewrite (R_fits _ _ _ _ _ _ H1 L). reflexivity. }
  destruct (enc_close_bstr e2) as [e3 s]. cbn [fst] in X. rewrite X.
  destruct (_ <? _); cbn [terr_eqb negb]; now rewrite mbind_ret_l.
Qed.

(** Success is impossible outside the domain of [sign_eq]. *)
Lemma signature_beyond c cr me aad dp e l err me' e' nul cap X top n r :
  encode_signature_aad_internal c cr me aad dp e = (l, Ret (err, me', e')) ->
  (u_is_null dp = false -> R nul cap e X top (n :: r)) ->
  (u_is_null dp = true -> bad (fst (enc_close_bstr e)) \/
                          R nul cap (fst (enc_close_bstr e)) X top (n :: r)) ->
  n_count n + 1 < MAX_ITEMS -> MAX_OFFSET < blen X ->
  err = T_SUCCESS -> bad e'.
Proof.
  intros H HA HB L O ->. unfold encode_signature_aad_internal in H.
  set (p := if u_is_null dp then _ else _) in H.
  assert (HC : bad (fst p) \/ R nul cap (fst p) X top (n :: r)).
  { unfold p. destruct (u_is_null dp).
    - specialize (HB eq_refl). destruct (enc_close_bstr e) as [e1 s]. exact HB.
    - right. now apply HA. }
  destruct p as [e1 sp]. cbn [fst] in HC.
  destruct (terr_eqb (enc_error_to_terr (enc_error e1)) T_SUCCESS) eqn:Er; cbn [negb] in H.
  2:{ unfold mret in H. injection H as _ H _ _. rewrite H in Er. discriminate. }
  destruct HC as [HC|HC]; [apply bad_terr in HC; congruence|].
  unfold enc_open_bytes in H.
  pose proof (R_open_beyond _ _ _ _ _ _ _ NOpenBytes HC L O) as BO.
  apply mbind_ret_inv in H as (l1 & [[[er2 me2] sl] sg] & l2 & H1 & H2 & ->).
  destruct (terr_eqb er2 T_SUCCESS) eqn:E2; cbn [negb] in H2; unfold mret in H2.
  - injection H2 as _ _ <-. apply (bad_close _ NArray), bad_close_bytes, BO.
  - injection H2 as _ H2 _ _. subst er2. discriminate.
Qed.

Theorem sign_success_domain c cr me det payload aad buf l me' r :
  sign_aad_internal c cr me det payload aad buf = (l, Ret (T_SUCCESS, me', r)) ->
  (det = true -> u_is_null payload = false) /\
  blen (unsigned c me det payload) <= MAX_OFFSET.
Proof.
  intro H.
  destruct (signature_algorithm_id_is_supported c (c_alg me)) eqn:A.
  2:{ exfalso. unfold sign_aad_internal, encode_parameters_internal in H. rewrite A in H.
      cbn in H. discriminate. }
  assert (EARLY : forall err' me2 e2, terr_eqb err' T_SUCCESS = false ->
     encode_parameters_internal c me det (enc_init buf) = (err', me2, e2) -> False).
  { intros err' me2 e2 F E. unfold sign_aad_internal in H. rewrite E in H. cbv zeta in H.
    rewrite F in H. cbn [negb] in H. unfold mret in H. injection H as _ H _ _. subst err'. discriminate. }
  destruct (sc_on me && dis_short_circuit c) eqn:S.
  { exfalso. unfold encode_parameters_internal in EARLY. rewrite A in EARLY. cbn [negb] in EARLY.
    destruct (encode_protected_parameters _ _) as [e1 p] in EARLY.
    change (has_flag (c_flags (sc_set_prot me ?p)) OPT_SHORT_CIRCUIT_SIG) with (sc_on me) in EARLY.
    rewrite S in EARLY. eapply EARLY; [|reflexivity]. reflexivity. }
  destruct (ct_clash c me) eqn:T.
  { exfalso. unfold encode_parameters_internal in EARLY. rewrite A in EARLY. cbn [negb] in EARLY.
    destruct (encode_protected_parameters _ _) as [e1 p] in EARLY.
    change (has_flag (c_flags (sc_set_prot me ?p)) OPT_SHORT_CIRCUIT_SIG) with (sc_on me) in EARLY.
    rewrite S in EARLY. unfold add_unprotected_parameters in EARLY.
    cbn [sc_set_prot c_ct_uint c_ct_tstr] in EARLY.
    unfold ct_clash in T. apply andb_prop in T as [T T3]. apply andb_prop in T as [T1 T2].
    destruct (dis_content_type c); [discriminate|]. rewrite T2 in EARLY.
    destruct (c_ct_tstr me); [|discriminate].
    eapply EARLY; [|reflexivity]. reflexivity. }
  assert (N1 : det = true -> u_is_null payload = false).
  { intros ->. destruct (u_is_null payload) eqn:U; [|reflexivity]. exfalso.
    rewrite (sign_detached_null c cr me payload aad buf U A S T) in H.
    unfold mret in H. destruct (_ <? _); discriminate. }
  split; [exact N1|].
  destruct (N.leb_spec (blen (unsigned c me det payload)) MAX_OFFSET) as [L|L]; [exact L|exfalso].
  unfold sign_aad_internal in H.
  destruct (params_gen c me det buf A S T) as (e1 & E1 & H1). rewrite E1 in H. cbn [terr_eqb negb] in H.
  set (e2 := if det then enc_add_null _ else _) in H.
  apply mbind_ret_inv in H as (l1 & [[er3 me3] e3] & l2 & H2 & H3 & ->).
  destruct (terr_eqb er3 T_SUCCESS) eqn:Er; cbn [negb] in H3.
  2:{ unfold mret in H3. injection H3 as _ H3 _ _. subst er3. discriminate. }
  apply terr_eqb_eq in Er.
  assert (BE : bad e3).
  { set (dp := if det then payload else NULL_UBUF) in H2.
    apply (signature_beyond c cr _ aad dp e2 l1 er3 me3 e3 (wb_null buf) (wb_len buf)
             (unsigned c me det payload) 1 (arr (blen (tag_bytes me)) 3) [] H2); auto; [| |now compute].
    - intro U. destruct det; [|cbn in U; discriminate].
      apply R_add_null in H1; [|now compute]. unfold unsigned. rewrite app_assoc. exact H1.
    - intro U. destruct det; [unfold dp in U; rewrite (N1 eq_refl) in U; discriminate|].
      destruct (N.leb_spec (blen (tag_bytes me ++ heads c me)) MAX_OFFSET) as [M|M].
      + right. apply R_open with (t := NBstr) in H1; [|now compute|unfold MAX_NESTING; cbn [length]; lia|exact M].
        apply R_add_encoded with (u := payload) in H1; [|now compute].
        apply R_close_bstr in H1; [|reflexivity|reflexivity]. destruct H1 as [H1 _].
        unfold unsigned. rewrite app_assoc. exact H1.
      + left. apply bad_close_bstr. unfold e2, enc_add_encoded.
        apply bad_increment, bad_insert. eapply R_open_beyond; [exact H1|now compute|exact M]. }
  rewrite (bad_terr _ BE) in H3. cbn [negb] in H3. unfold mret in H3.
  injection H3 as _ H3 _ _. pose proof (bad_terr _ BE) as X. rewrite H3 in X. discriminate.
Qed.
