(** Messages made with any options: what is signed is what they hold (C84). *)
From Coq Require Import Lia ZifyBool ZifyNat ZifyN.
From Verif Require Import Base Const QEnc Crypto Util ShortCircuit Sign MakeMessage Spec SignSpec MakeMessageSpec BaseFacts EncFacts UtilFacts SignFacts SignProofs MakeMessageFacts.
Open Scope N_scope. Open Scope list_scope. Open Scope mon_scope.

(** ** Encoder calls that stay above a level *)

(** One more item, counted if it is at the level. *)
Definition counted (d : nat) (k : N) : N := match d with O => k + 1 | S _ => k end.

(** How deep the calls leave the nesting above the level, and the items in it;
    [None] if they close it. *)
Definition deeper (o : top) (d : nat) (k : N) : option (nat * N) :=
  match o with
  | OpenIndef _ | Q OpOpenMap | Q OpOpenArray | Q OpOpenBstr => Some (S d, counted d k)
  | CloseIndef | Q OpCloseMap | Q OpCloseArray | Q OpCloseBstr => match d with O => None | S d' => Some (d', k) end
  | Q (OpTag _) => Some (d, k)
  | _ => Some (d, counted d k)
  end.
Fixpoint depth (l : list top) (d : nat) (k : N) : option (nat * N) :=
  match l with [] => Some (d, k) | o :: r => match deeper o d k with Some (d', k') => depth r d' k' | None => None end end.

Lemma depth_app l1 l2 d k : depth (l1 ++ l2) d k = match depth l1 d k with Some (d', k') => depth l2 d' k' | None => None end.
Proof. revert d k. induction l1 as [|o r IH]; intros d k; [reflexivity|]. cbn [app depth]. destruct (deeper o d k) as [[d' k']|]; [apply IH|reflexivity]. Qed.

(** Calls inside an item. *)
Definition balanced (l : list top) : Prop := forall d k, depth l (S d) k = Some (S d, k).

Lemma balanced_when x l : balanced l -> balanced (when x l).
Proof. destruct x; [auto|intros _ d k; reflexivity]. Qed.

Section Keep.
  Variables (cap : N) (X : bytes) (s : N).

  Definition kept (e : enc) (d : nat) (k : N) : Prop :=
    bad e \/ exists Y inner t, e = mk false cap (X ++ Y) t (inner ++ [arr s k]) /\
      blen (X ++ Y) <= cap /\ length inner = d /\ Forall (fun n => blen X <= n_start n) inner.

  Lemma kept_append e u d k : kept e d k -> kept (enc_append e u) d k.
  Proof.
    intros [B|(Y & inner & t & -> & L & D & F)]; [left; now apply bad_insert|].
    assert (H : R false cap (mk false cap (X ++ Y) t (inner ++ [arr s k])) (X ++ Y) t (inner ++ [arr s k])).
    { unfold R. replace (_ <=? _) with true by lia. reflexivity. }
    apply R_append with (u := u) in H.
    destruct (N.leb_spec (blen ((X ++ Y) ++ src_bytes u)) cap) as [M|M].
    - right. exists (Y ++ src_bytes u), inner, t. rewrite (R_fits _ _ _ _ _ _ H M), <- app_assoc in *. auto.
    - left. left. now apply (R_over _ _ _ _ _ _ H).
  Qed.

  Lemma kept_increment e d k : kept e d k -> kept (enc_increment e) d (counted d k).
  Proof.
    intros [B|(Y & inner & t & -> & L & D & F)]; [left; now apply bad_increment|].
    unfold enc_increment. cbn [mk e_err qe_ok negb e_nest].
    destruct inner as [|n r]; cbn [app].
    - destruct (_ <=? _); [left; right; cbn; discriminate|].
      right. subst d. exists Y, [], t. auto.
    - destruct (_ <=? _); [left; right; cbn; discriminate|].
      right. subst d. exists Y, (inc n :: r), t. repeat split; auto.
      inversion F; subst. constructor; auto.
  Qed.

  Lemma kept_open e t d k : kept e d k -> kept (enc_open e t) (S d) (counted d k).
  Proof.
    intro H. apply kept_increment in H. unfold enc_open. set (e' := enc_increment e) in *. clearbody e'. clear e. set (k' := counted d k) in *. clearbody k'. clear k.
    destruct H as [B|(Y & inner & t' & -> & L & D & F)].
    - left. destruct (qe_ok (e_err e')) eqn:E; cbn [negb]; [|exact B].
      destruct (_ <? _); [right; cbn; discriminate|]. destruct (Nat.leb _ _); [right; cbn; discriminate|exact B].
    - cbn [mk e_err qe_ok negb]. destruct (_ <? _); [left; right; cbn; discriminate|].
      destruct (Nat.leb _ _); [left; right; cbn; discriminate|].
      right. exists Y, ({| n_type := t; n_start := blen (X ++ Y); n_count := 0 |} :: inner), t'.
      repeat split; auto; [cbn [length]; now rewrite D|]. constructor; [cbn [n_start]; rewrite blen_app; lia|exact F].
  Qed.

  Lemma kept_close e t mt arg d k : kept e (S d) k -> kept (enc_close e t mt arg) d k.
  Proof.
    intros [B|(Y & inner & t' & -> & L & D & F)]; [left; now apply bad_close|].
    destruct inner as [|n r]; [discriminate D|]. injection D as D. inversion F as [|? ? F1 F2]; subst.
    unfold enc_close. cbn [mk e_err qe_ok negb e_nest app].
    destruct (ntype_eqb (n_type n) t); cbn [negb]; [|left; right; cbn; discriminate].
    fold (mk false cap (X ++ Y) t' (n :: r ++ [arr s k])).
    set (u := UBuf (encode_head _ _)). clearbody u.
    unfold enc_insert. cbn [mk e_oerr]. unfold e_room, e_pos. cbn [mk e_cap e_data].
    destruct (_ <? u_len u) eqn:E1; [left; left; reflexivity|].
    destruct (_ <? n_start n) eqn:E2; [left; left; reflexivity|].
    right. set (p := N.to_nat (n_start n)).
    assert (PX : (length X <= p)%nat) by (unfold p, blen in *; lia).
    exists (firstn (p - length X) Y ++ src_bytes u ++ skipn (p - length X) Y), r, t'.
    rewrite firstn_app, skipn_app, (firstn_all2 X) by lia. rewrite (skipn_all2 X) by lia.
    cbn [app]. rewrite <- app_assoc. repeat split; auto.
    rewrite !blen_app, src_bytes_len. rewrite blen_app in *.
    assert (blen (firstn (p - length X) Y) + blen (skipn (p - length X) Y) = blen Y).
    { rewrite <- blen_app, firstn_skipn. reflexivity. }
    lia.
  Qed.

  Lemma kept_pop e d k : kept e (S d) k ->
    kept (match e_nest e with [] => set_err e QE_TOO_MANY_CLOSES | _ :: r => set_nest e r end) d k.
  Proof.
    intros [B|(Y & inner & t' & -> & L & D & F)].
    - left. destruct (e_nest e); [right; cbn; discriminate|]. exact B.
    - destruct inner as [|n r]; [discriminate D|]. injection D as D. inversion F; subst.
      right. exists Y, r, t'. cbn [mk e_nest app]. auto.
  Qed.

  Lemma kept_run e o d k d' k' : deeper o d k = Some (d', k') -> kept e d k -> kept (top_run e o) d' k'.
  Proof.
    intros D H. destruct o as [o|t|].
    - destruct o; cbn [deeper] in D; try (injection D as <- <-); cbn [top_run eop_run].
      + now apply kept_append.
      + now apply kept_increment, kept_append.
      + unfold enc_add_int. destruct (_ <? _)%Z; now apply kept_increment, kept_append.
      + now apply kept_increment, kept_append, kept_append.
      + now apply kept_increment, kept_append, kept_append.
      + now apply kept_increment, kept_append.
      + now apply kept_increment, kept_append.
      + now apply kept_open.
      + now apply kept_open.
      + now apply kept_open.
      + destruct d; [discriminate D|]. injection D as <- <-. now apply kept_close.
      + destruct d; [discriminate D|]. injection D as <- <-. now apply kept_close.
      + destruct d; [discriminate D|]. injection D as <- <-.
        apply (kept_close _ NBstr MT_BSTR (fun n e => e_pos e - n_start n)) in H.
        unfold enc_close_bstr. destruct (_ || _); [exact H|]. destruct (e_nest e); [exact H|].
        destruct (e_oerr _); exact H.
    - injection D as <- <-. cbn [top_run]. now apply kept_open, kept_append.
    - cbn [deeper] in D. destruct d; [discriminate D|]. injection D as <- <-. cbn [top_run]. cbv zeta.
      apply kept_pop. now apply kept_append.
  Qed.

  Lemma kept_runs l : forall e d k d' k', depth l d k = Some (d', k') -> kept e d k -> kept (tops_run e l) d' k'.
  Proof.
    induction l as [|o r IH]; intros e d k d' k' D H.
    - injection D as <- <-. exact H.
    - cbn [depth] in D. destruct (deeper o d k) as [[d1 k1]|] eqn:E; [|discriminate D].
      apply (IH (top_run e o) d1 k1 d' k' D). now apply (kept_run e o d k d1 k1).
  Qed.
End Keep.

Lemma depth_skip l1 l2 d k : balanced l1 -> depth (l1 ++ l2) (S d) k = depth l2 (S d) k.
Proof. intro B. now rewrite depth_app, B. Qed.

Lemma unprotected_one o kid k : depth (unprotected_of o kid) 0 k = Some (0%nat, k + 1).
Proof.
  unfold unprotected_of. destruct (has_flag o T_UNPROTECTED_NOT_MAP); [reflexivity|].
  change (depth ([if has_flag o T_INDEFINITE_MAPS_ARRAYS then OpenIndef NMap else om] ++ ?l) 0 k) with
    (match deeper (if has_flag o T_INDEFINITE_MAPS_ARRAYS then OpenIndef NMap else om) 0 k with Some (d', k') => depth l d' k' | None => None end).
  replace (deeper (if has_flag o T_INDEFINITE_MAPS_ARRAYS then OpenIndef NMap else om) 0 k) with (Some (1%nat, k + 1))
    by now destruct (has_flag o T_INDEFINITE_MAPS_ARRAYS).
  repeat (rewrite depth_skip; [|apply balanced_when; intros d' k'; reflexivity]).
  now destruct (has_flag o T_INDEFINITE_MAPS_ARRAYS).
Qed.

(** ** The protected parameters are a buffer or NULL *)

Lemma null_insert e u p : e_null (enc_insert e u p) = e_null e.
Proof. unfold enc_insert. destruct (e_oerr e); [reflexivity|]. destruct (e_room e <? u_len u); [reflexivity|]. now destruct (e_pos e <? p). Qed.
Lemma null_increment e : e_null (enc_increment e) = e_null e.
Proof.
  unfold enc_increment. destruct (qe_ok _); cbn; [|reflexivity].
  destruct (e_nest e) as [|n r]; destruct (_ <=? _); reflexivity.
Qed.
Lemma null_open e t : e_null (enc_open e t) = e_null e.
Proof.
  unfold enc_open. rewrite <- (null_increment e). generalize (enc_increment e); intro e'.
  destruct (qe_ok _); cbn [negb]; [|reflexivity]. destruct (_ <? _); [reflexivity|]. now destruct (Nat.leb _ _).
Qed.
Lemma null_close e t m a : e_null (enc_close e t m a) = e_null e.
Proof.
  unfold enc_close. destruct (qe_ok _); cbn [negb]; [|reflexivity]. destruct (e_nest e) as [|n r]; [reflexivity|].
  destruct (ntype_eqb _ _); cbn [negb]; [|reflexivity]. apply (null_insert e).
Qed.
Lemma null_run e o : e_null (top_run e o) = e_null e.
Proof.
  destruct o as [o|t|]; cbn [top_run].
  - destruct o; cbn [eop_run].
    + apply null_insert.
    + unfold enc_add_uint. rewrite null_increment. apply null_insert.
    + unfold enc_add_int. destruct (_ <? _)%Z; rewrite null_increment; apply null_insert.
    + unfold enc_add_bytes. rewrite null_increment. unfold enc_append. rewrite null_insert. apply null_insert.
    + unfold enc_add_text. rewrite null_increment. unfold enc_append. rewrite null_insert. apply null_insert.
    + unfold enc_add_null. rewrite null_increment. apply null_insert.
    + unfold enc_add_encoded. rewrite null_increment. apply null_insert.
    + apply null_open.
    + apply null_open.
    + apply null_open.
    + apply null_close.
    + apply null_close.
    + unfold enc_close_bstr. pose proof (null_close e NBstr MT_BSTR (fun n e => e_pos e - n_start n)) as H.
      destruct (_ || _); [exact H|]. destruct (e_nest e); [exact H|]. destruct (e_oerr _); exact H.
  - rewrite null_open. apply null_insert.
  - cbv zeta. destruct (e_nest (enc_append e (UBuf [xff]))); apply (null_insert e).
Qed.
Lemma null_runs l : forall e, e_null (tops_run e l) = e_null e.
Proof. induction l as [|o r IH]; intro e; [reflexivity|]. cbn [tops_run fold_left]. fold (tops_run (top_run e o) r). rewrite IH. apply null_run. Qed.

Lemma protected_solid o alg : solid (protected_of o alg) .
Proof.
  unfold protected_of. destruct (has_flag _ _); [reflexivity|]. destruct (has_flag _ _); [reflexivity|].
  set (l := protected_calls o alg). clearbody l.
  pose proof (null_runs l (enc_init S_PROTECTED_PARAMS)) as N. cbn [enc_init e_null wb_null S_PROTECTED_PARAMS] in N.
  set (e := tops_run _ l) in *. clearbody e. unfold enc_finish.
  destruct (enc_error e); try reflexivity. destruct (e_nest e); [|reflexivity].
  unfold enc_out. destruct (e_oerr e); [reflexivity|]. rewrite N. reflexivity.
Qed.

Lemma left_solid o alg : solid (protected_left o alg).
Proof. unfold protected_left. destruct (has_flag _ _); [reflexivity|apply protected_solid]. Qed.

Lemma left_wanted o alg p : protected_wanted o = Some p -> u_data (protected_left o alg) = p.
Proof.
  unfold protected_wanted, protected_left, protected_of, protected_calls, asked.
  destruct (has_flag o T_NO_PROTECTED_PARAMETERS); cbn [orb]; [intro H; injection H as <-; reflexivity|].
  destruct (has_flag o T_EMPTY_PROTECTED_PARAMETERS); [intro H; injection H as <-; reflexivity|].
  destruct (has_flag o T_UNCLOSED_PROTECTED); [intro H; injection H as <-; reflexivity|].
  destruct (has_flag o T_BAD_PROTECTED); [|discriminate].
  intro H. injection H as <-. vm_compute. reflexivity.
Qed.

(** ** From the parameters on *)

Lemma bad_encoded e u : bad e -> bad (enc_add_encoded e u).
Proof. intro B. now apply bad_increment, bad_insert. Qed.

Lemma bad_finish e r : bad e -> enc_finish e <> (QE_SUCCESS, r).
Proof. intros B H. apply bad_error in B. unfold enc_finish in H. destruct (enc_error e); try discriminate H. now apply B. Qed.

Lemma R_or_bad_open cap e d t n r x :
  R false cap e d t (n :: r) -> (S (length r) < MAX_NESTING)%nat ->
  bad (enc_open e x) \/
  (R false cap (enc_open e x) d t ({| n_type := x; n_start := blen d; n_count := 0 |} :: inc n :: r) /\ blen d <= MAX_OFFSET).
Proof.
  intros H L. destruct (N.leb_spec MAX_ITEMS (n_count n + 1)) as [C|C].
  - left. destruct (N.leb_spec (blen d) cap) as [F|F].
    + rewrite (R_fits _ _ _ _ _ _ H F). right. unfold enc_open, enc_increment. cbn [mk e_err qe_ok negb e_nest].
      replace (MAX_ITEMS <=? n_count n + 1) with true by lia. cbn. discriminate.
    + apply bad_open. left. exact (R_over _ _ _ _ _ _ H F).
  - destruct (N.leb_spec (blen d) MAX_OFFSET) as [O|O].
    + right. split; [|exact O]. now apply R_open.
    + left. now apply (R_open_beyond _ _ _ _ _ _ _ x H).
Qed.

(** [X] and [Y] have been written, in the array. *)
Definition written (cap : N) (X : bytes) (s : N) (e : enc) (k : N) (Y : bytes) : Prop :=
  bad e \/ exists t, e = mk false cap (X ++ Y) t [arr s k] /\ blen (X ++ Y) <= cap.

Lemma kept_written cap X s e k : kept cap X s e 0 k -> exists Y, written cap X s e k Y.
Proof.
  intros [B|(Y & inner & t & E & L & D & _)]; [exists []; now left|].
  destruct inner; [|discriminate D]. exists Y. right. exists t. auto.
Qed.

(** The end of the message, after the array has been closed. *)
Lemma maker_end c cr me o D1 X2 Y cap e k pl l ef u :
  let ind := has_flag o T_INDEFINITE_MAPS_ARRAYS in
  let X := D1 ++ (if ind then [x9f] else []) ++ X2 in
  written cap X (blen (D1 ++ (if ind then [x9f] else []))) e k Y ->
  maker_output_signature c cr me o (enc_add_encoded (enc_open_bstr e) (UBuf pl)) = (l, Ret (T_SUCCESS, ef)) ->
  enc_finish ef = (QE_SUCCESS, u) ->
  exists hash sig lh ls room,
    l = lh ++ ls /\
    create_tbs_hash c cr (c_alg me) (protected_left o (c_alg me)) NULL_UBUF (UBuf pl) (max_hash_size c) = (lh, Ret (T_SUCCESS, hash)) /\
    maker_sign c cr me hash (place false room) = (ls, Ret (T_SUCCESS, sig)) /\
    u = Some (UBuf (D1 ++ array_start ind (k + 2) ++ X2 ++ Y ++ encode (CBytes pl) ++ encode (CBytes sig) ++ array_end ind)).
Proof.
  intros ind X [B|(t & E & FIT)] H F.
  { exfalso. unfold maker_output_signature in H.
    apply (bad_open _ NBstr) in B. apply (bad_encoded _ (UBuf pl)) in B. apply bad_close_bstr in B.
    fold (enc_open_bstr e) in B.
    destruct (enc_close_bstr _) as [e4 sl]. cbn [fst] in B. apply bad_error in B.
    destruct (enc_error e4); try (unfold mret in H; discriminate H). now apply B. }
  set (s := blen (D1 ++ _)) in *.
  assert (R0 : R false cap e (X ++ Y) t [arr s k]).
  { unfold R. replace (_ <=? _) with true by lia. exact E. }
  unfold maker_output_signature in H.
  destruct (R_or_bad_open _ _ _ _ _ _ NBstr R0) as [B|[R1 O1]]; [cbn [length]; unfold MAX_NESTING; lia| |].
  { exfalso. apply (bad_encoded _ (UBuf pl)) in B. apply bad_close_bstr in B.
    fold (enc_open_bstr e) in B.
    destruct (enc_close_bstr _) as [e4 sl]. cbn [fst] in B. apply bad_error in B.
    destruct (enc_error e4); try (unfold mret in H; discriminate H). now apply B. }
  apply R_add_encoded with (u := UBuf pl) in R1; [|now compute]. fold (enc_open_bstr e) in R1.
  cbn [src_bytes] in R1.
  apply R_close_bstr in R1; [|reflexivity|reflexivity].
  destruct R1 as [R2 SL]. destruct (enc_close_bstr _) as [e3 sl]. cbn [fst snd] in R2, SL.
  set (Z := (X ++ Y) ++ encode (CBytes pl)) in *.
  destruct (N.leb_spec (blen Z) cap) as [L|L].
  2:{ exfalso. assert (EE : enc_error e3 = QE_BUFFER_TOO_SMALL).
      { unfold enc_error. now rewrite (R_over _ _ _ _ _ _ R2 L). }
      rewrite EE in H. unfold mret in H. discriminate H. }
  pose proof (R_fits _ _ _ _ _ _ R2 L) as E3.
  assert (EE : enc_error e3 = QE_SUCCESS) by now rewrite E3.
  rewrite EE in H.
  assert (RS : resolve e3 sl = UBuf pl).
  { rewrite SL. unfold bstr_slice. fold Z. replace (blen Z <=? cap) with true by lia. rewrite E3.
    replace Z with ((X ++ Y) ++ encode (CBytes pl) ++ []) by (unfold Z; now rewrite app_nil_r).
    apply (resolve_mid false). }
  rewrite RS in H.
  apply mbind_ret_inv in H as (lh & [er hash] & l2 & HH & H & ->).
  destruct (terr_eqb er T_SUCCESS) eqn:Eh; cbn [negb] in H.
  2:{ unfold mret in H. injection H as _ H _. subst er. discriminate. }
  apply terr_eqb_eq in Eh. subst er.
  unfold enc_open_bytes in H.
  replace {| wb_null := e_null e3 || (e_room e3 =? 0); wb_len := e_room e3 |} with (place false (cap - blen Z)) in H
    by (rewrite E3; reflexivity).
  fold (maker_sign c cr me hash (place false (cap - blen Z))) in H.
  apply mbind_ret_inv in H as (ls & [er sig] & l4 & HS & H & ->).
  destruct (terr_eqb er T_SUCCESS) eqn:Es; cbn [negb] in H.
  2:{ unfold mret in H. injection H as _ H _. subst er. discriminate. }
  apply terr_eqb_eq in Es. subst er.
  unfold mret in H. injection H as <- H. rewrite app_nil_r.
  destruct (R_or_bad_open _ _ _ _ _ _ NOpenBytes R2) as [B|[R4 O4]]; [cbn [length]; unfold MAX_NESTING; lia| |].
  { exfalso. apply (bad_close_bytes _ (blen sig) sig) in B.
    apply (bad_finish ef u); [|exact F]. subst ef. fold ind. destruct ind.
    - apply (bad_insert _ (UBuf [xff]) (e_pos (enc_close_bytes (enc_open e3 NOpenBytes) (blen sig) sig))) in B.
      cbn [top_run]. cbv zeta. unfold enc_append.
      destruct (e_nest _); [right; cbn; discriminate|exact B].
    - apply (bad_close _ NArray), B. }
  rewrite (R_fits _ _ _ _ _ _ R4 L) in H.
  set (ob := {| n_type := NOpenBytes; n_start := blen Z; n_count := 0 |}) in H.
  pose proof (R_close_bytes false cap Z t ob [inc (inc (arr s k))] (blen sig) sig L eq_refl eq_refl) as R5.
  rewrite sigw_exact in R5.
  set (e5 := enc_close_bytes _ _ _) in *. clearbody e5.
  assert (FIN : R false cap ef (D1 ++ array_start ind (k + 2) ++ X2 ++ Y ++ encode (CBytes pl) ++ encode (CBytes sig) ++ array_end ind) t []).
  { fold ind in H. unfold Z, X, array_start, array_end in *. subst ef. destruct ind.
    - apply R_append with (u := UBuf [xff]) in R5. cbn [src_bytes] in R5.
      rewrite <- !app_assoc in R5.
      apply R_map with (f := fun e => match e_nest e with [] => set_err e QE_TOO_MANY_CLOSES | _ :: r => set_nest e r end) (1 := R5);
        [reflexivity|]. intros e' O. destruct (e_nest e'); exact O.
    - replace (k + 2) with (k + 1 + 1) by lia. cbn [app] in R5. rewrite app_nil_r in *.
      rewrite <- !app_assoc in R5. apply R_close_array in R5; [exact R5|reflexivity|].
      cbn [inc arr n_start]. unfold s. now rewrite app_nil_r. }
  exists hash, sig, lh, ls, (cap - blen Z). repeat split; auto.
  set (m := D1 ++ _) in FIN |- *.
  unfold enc_finish, enc_error in F. rewrite (R_oerr _ _ _ _ _ _ FIN) in F.
  destruct (N.ltb_spec cap (blen m)) as [M|M]; [discriminate F|].
  rewrite (R_fits _ _ _ _ _ _ FIN M) in F. injection F as <-. reflexivity.
Qed.

(** ** The whole message *)

Lemma solid_holds u : solid u -> holds u (u_data u).
Proof. destruct u as [n|b]; unfold solid; cbn; intro H; [right|left; reflexivity]. subst n. now split. Qed.

Lemma maker_signature c cr me hash room ls sig :
  maker_sign c cr me hash (place false room) = (ls, Ret (T_SUCCESS, sig)) ->
  made_from cr me hash sig /\ ls = (if has_flag (c_flags me) OPT_SHORT_CIRCUIT_SIG then [] else [EvSign (c_alg me) (c_key me) hash]).
Proof.
  unfold maker_sign, made_from. destruct (has_flag (c_flags me) OPT_SHORT_CIRCUIT_SIG); cbn [negb].
  - destruct (dis_short_circuit c); [discriminate|]. unfold maker_short_circuit_sign. intro H.
    change (if (c_alg me =? ES256)%Z then _ else _) with (ecdsa_sig_size (c_alg me)) in H.
    cbn [place wb_null wb_len] in H.
    destruct (N.eqb_spec (ecdsa_sig_size (c_alg me)) 0) as [Z|Z]; [discriminate H|].
    destruct (_ <? _); [discriminate H|]. destruct (_ || _); [discriminate H|].
    destruct hash as [|b h].
    + rewrite sc_copy_empty in H. replace (0 <? ecdsa_sig_size (c_alg me)) with true in H by lia. discriminate H.
    + rewrite sc_copy_spec in H; [|discriminate|lia]. rewrite N.sub_0_r in H.
      replace (0 <? ecdsa_sig_size (c_alg me)) with true in H by lia.
      unfold mlift in H. cbn [obind] in H. injection H as <- <-. repeat split.
      intro E. apply Z. rewrite <- (repeat_to_len (b :: h) (ecdsa_sig_size (c_alg me))), E by discriminate. reflexivity.
  - cbn [place wb_null wb_len]. destruct (_ && _); [discriminate|]. unfold mlog. intro H. injection H as <- H. eauto.
Qed.

Theorem maker_signed c cr me o pl buf l u :
  wb_null buf = false ->
  test_message_sign1_sign c cr me o (UBuf pl) buf = (l, Ret (T_SUCCESS, u)) ->
  exists prot sig m halg d,
    u = Some (UBuf m) /\ message_of me o prot pl sig m /\
    hashed l = sig_structure prot [] pl /\
    hash_for (c_alg me) = Some halg /\ digest_of cr halg (sig_structure prot [] pl) d /\
    made_from cr me d sig /\
    (forall a k x, In (EvSign a k x) l -> a = c_alg me /\ k = c_key me /\ x = d).
Proof.
  intros Z H. unfold test_message_sign1_sign in H.
  destruct (maker_encode_parameters c me o (enc_init buf)) as [err e] eqn:P.
  destruct (terr_eqb err T_SUCCESS) eqn:E; cbn [negb] in H.
  2:{ unfold mret in H. injection H as _ H _. subst err. discriminate. }
  apply terr_eqb_eq in E. subst err.
  apply mbind_ret_inv in H as (l1 & [err ef] & l2 & HO & H & ->).
  destruct (terr_eqb err T_SUCCESS) eqn:E; cbn [negb] in H.
  2:{ unfold mret in H. injection H as _ H _. subst err. discriminate. }
  apply terr_eqb_eq in E. subst err.
  destruct (enc_finish ef) as [q r] eqn:F. destruct q; unfold mret in H; try discriminate H.
  injection H as <- <-. rewrite app_nil_r.
  unfold maker_encode_parameters in P.
  destruct (_ =? INVALID_ALGORITHM_ID)%Z; [discriminate P|]. cbv zeta in P.
  destruct (_ && dis_short_circuit c); [discriminate P|]. apply (f_equal snd) in P. cbn [snd] in P.
  rewrite !tops_app in P.
  pose proof (R_init buf) as H0. rewrite Z in H0. pose proof (tag_bytes_small me) as TS.
  set (e0 := tops_run (enc_init buf) _) in P.
  assert (H1 : R false (wb_len buf) e0 (tag_bytes me) 0 []).
  { unfold e0, tag_bytes, tagged. destruct (negb _); [|exact H0].
    apply (R_add_tag _ _ _ _ _ _ TAG_COSE_SIGN1) in H0. exact H0. }
  clearbody e0.
  set (ind := has_flag o T_INDEFINITE_MAPS_ARRAYS) in *.
  set (D := tag_bytes me ++ (if ind then [x9f] else [])).
  assert (H2 : R false (wb_len buf) (tops_run e0 [if ind then OpenIndef NArray else oa]) D 1 [arr (blen D) 0]).
  { unfold D. destruct ind; cbn [tops_run fold_left top_run oa eop_run].
    - apply R_append with (u := UBuf [x9f]) in H1. cbn [src_bytes] in H1.
      apply R_open_top with (t := NArray) in H1; [exact H1|now compute|].
      rewrite blen_app. change (blen [x9f]) with 1. unfold MAX_OFFSET. lia.
    - rewrite app_nil_r. apply R_open_top with (t := NArray) in H1; [exact H1|now compute|unfold MAX_OFFSET; lia]. }
  set (e1 := tops_run e0 [_]) in *. clearbody e1.
  set (np := has_flag o T_NO_PROTECTED_PARAMETERS) in *.
  set (pr := u_data (protected_left o (c_alg me))).
  set (X2 := if np then [] else encode (CBytes pr)).
  assert (H3 : R false (wb_len buf) (tops_run e1 (when (negb np) [Q (OpBytes (protected_of o (c_alg me)))])) (D ++ X2) 1 [arr (blen D) (if np then 0 else 1)]).
  { unfold X2, pr, protected_left. fold np. destruct np; cbn [negb when tops_run fold_left top_run eop_run].
    - rewrite app_nil_r. exact H2.
    - apply R_add_bytes with (u := protected_of o (c_alg me)) in H2; [|now compute].
      now rewrite (solid_src _ (protected_solid _ _)) in H2. }
  set (k := if np then 0 else 1) in *.
  set (e2 := tops_run e1 _) in *. clearbody e2.
  set (kid := if has_flag (c_flags me) OPT_SHORT_CIRCUIT_SIG then _ else _) in P.
  set (U := when (negb (has_flag o T_NO_UNPROTECTED_PARAMETERS)) (unprotected_of o kid)) in P.
  set (nu := has_flag o T_NO_UNPROTECTED_PARAMETERS) in *.
  assert (W : exists Y, written (wb_len buf) (D ++ X2) (blen D) (tops_run e2 U) (k + if nu then 0 else 1) Y /\ (nu = true -> Y = [])).
  { assert (K : kept (wb_len buf) (D ++ X2) (blen D) e2 0 k /\ written (wb_len buf) (D ++ X2) (blen D) e2 k []).
    { unfold kept, written. destruct (N.leb_spec (blen (D ++ X2)) (wb_len buf)) as [L|L].
      - rewrite (R_fits _ _ _ _ _ _ H3 L). split; right; [exists [], [], 1|exists 1]; rewrite app_nil_r; repeat split; auto.
      - split; left; left; exact (R_over _ _ _ _ _ _ H3 L). }
    destruct K as [K K0]. unfold U. destruct nu; cbn [negb when].
    - exists []. rewrite N.add_0_r. split; [exact K0|auto].
    - apply (kept_runs _ _ _ (unprotected_of o kid) e2 0 k 0 (k + 1)) in K; [|apply unprotected_one].
      apply kept_written in K as [Y K]. exists Y. split; [exact K|discriminate]. }
  destruct W as (Y & K & NY).
  set (e3 := tops_run e2 U) in *. clearbody e3.
  change (tops_run e3 [Q OpOpenBstr]) with (enc_open_bstr e3) in P. subst e.
  unfold D in K. rewrite <- app_assoc in K.
  destruct (maker_end c cr me o (tag_bytes me) X2 Y (wb_len buf) e3 _ pl l1 ef r K HO F)
    as (hash & sig & lh & ls & room & -> & CH & MS & ->).
  destruct (maker_signature _ _ _ _ _ _ _ MS) as [MF ->].
  pose proof (solid_holds _ (left_solid o (c_alg me))) as HP. fold pr in HP.
  destruct (create_tbs_hash_digest c cr (c_alg me) (protected_left o (c_alg me)) NULL_UBUF (UBuf pl) pr [] pl _ _ _ HP
              (or_intror (conj eq_refl eq_refl)) (or_introl eq_refl) CH) as (halg & HF & DG).
  pose proof (create_tbs_hash_log _ _ _ _ _ _ _ _ _ CH) as (ha & ctx & ctx' & _ & _ & _ & _ & _ & LG).
  eexists pr, sig, _, halg, hash. split; [reflexivity|]. split; [|split; [|split; [exact HF|split; [exact DG|split; [exact MF|]]]]].
  - exists Y. split; [|split; [|exact NY]].
    + unfold items_of, asked. fold ind np nu k. fold X2. unfold tag_bytes, tagged.
      destruct (has_flag (c_flags me) OPT_OMIT_CBOR_TAG); reflexivity.
    + intros p HPW. unfold pr. now apply left_wanted.
  - rewrite hashed_app, LG.
    assert (NS : forall q : bool, hashed (if q then [] else [EvSign (c_alg me) (c_key me) hash]) = []) by now intros [].
    rewrite NS.
    rewrite app_nil_r. change (EvHashStart ?x :: ?y) with ([EvHashStart x] ++ y).
    rewrite !hashed_app, hashed_updates. cbn [hashed flat_map app]. rewrite app_nil_r.
    rewrite chunks_data; [reflexivity|apply left_solid|reflexivity|reflexivity].
  - intros a k0 x I. apply in_app_or in I as [I|I].
    + exfalso. rewrite LG in I. destruct I as [I|I]; [discriminate I|]. apply in_app_or in I as [I|I].
      * apply in_map_iff in I as (w & I & _). discriminate I.
      * destruct I as [I|[]]. discriminate I.
    + destruct (has_flag _ _) in I; [destruct I|]. destruct I as [I|[]]. injection I as <- <- <-. auto.
Qed.
