(** What create_tbs and create_tbs_hash compute. *)
From Verif Require Import Base Const QEnc Crypto Util Spec BaseFacts EncFacts.
From Coq Require Import String Lia ZifyBool ZifyNat ZifyN.
Local Open Scope string_scope.
Open Scope N_scope. Open Scope list_scope.

Lemma signature1_text : SIGNATURE1 = text "Signature1".
Proof. reflexivity. Qed.

Lemma sig_structure_eq p a m :
  sig_structure p a m =
  x84 :: x6a :: SIGNATURE1 ++ (short_head 2 (blen p) ++ p)
      ++ (short_head 2 (blen a) ++ a) ++ (short_head 2 (blen m) ++ m).
Proof.
  unfold sig_structure. cbn [encode flat_map]. rewrite app_nil_r. reflexivity.
Qed.

Lemma create_tbs_spec prot aad payload buf :
  create_tbs prot aad payload buf =
  let s := sig_structure (src_bytes prot) (src_bytes aad) (src_bytes payload) in
  if blen s <=? wb_len buf
  then (T_SUCCESS, Some (if wb_null buf then UNull (blen s) else UBuf s))
  else (ERR_TOO_SMALL, None).
Proof.
  cbv zeta. unfold create_tbs.
  pose proof (R_init buf) as H.
  apply R_open_top with (t := NArray) in H; [|now compute|now compute].
  change (enc_open (enc_init buf) NArray) with (enc_open_array (enc_init buf)) in H.
  apply R_add_text with (u := UBuf SIGNATURE1) in H; [|now compute].
  apply R_add_bytes with (u := prot) in H; [|now compute].
  apply R_add_bytes with (u := aad) in H; [|now compute].
  apply R_add_bytes with (u := payload) in H; [|now compute].
  change ([] ++ encode (CText (src_bytes (UBuf SIGNATURE1)))) with
      ([] ++ encode (CText SIGNATURE1)) in H.
  rewrite <- !app_assoc in H. apply R_close_array in H; [|reflexivity|reflexivity].
  cbn [app inc n_count] in H.
  match type of H with R _ _ ?x ?d _ _ => set (e := x) in *; set (dd := d) in * end.
  assert (D : dd = sig_structure (src_bytes prot) (src_bytes aad) (src_bytes payload)).
  { unfold dd. rewrite sig_structure_eq. cbn [encode].
    change (short_head 4 (0 + 1 + 1 + 1 + 1)) with [x84].
    change (short_head 3 (blen SIGNATURE1)) with [x6a].
    cbn [app]. reflexivity. }
  rewrite <- D. clearbody dd. clear D.
  unfold enc_finish, enc_error. rewrite (R_oerr _ _ _ _ _ _ H).
  destruct (N.leb_spec (blen dd) (wb_len buf)) as [L|L].
  - pose proof (R_fits _ _ _ _ _ _ H L) as E. rewrite E.
    replace (wb_len buf <? blen dd) with false by lia. cbn [mk e_err e_nest enc_out e_oerr e_null e_data].
    unfold enc_out, e_pos. cbn [mk e_oerr e_null e_data]. reflexivity.
  - replace (wb_len buf <? blen dd) with true by lia. reflexivity.
Qed.

(** The chunks create_tbs_hash feeds to the hash. *)
Definition tbs_chunks (prot aad payload : ubufc) : list ubufc :=
  [ UBuf (x84 :: x6a :: SIGNATURE1);
    UBuf (encode_head MT_BSTR (u_len prot)); prot;
    UBuf (encode_head MT_BSTR (u_len aad)); aad;
    UBuf (encode_head MT_BSTR (u_len payload)); payload ].

(** Feed chunks to a hash context. *)
Fixpoint feed (cr : crypto) (h : cr_hctx cr) (l : list ubufc) : M (cr_hctx cr) :=
  match l with
  | [] => mret h
  | u :: r => mbind (m_hash_update cr h u) (fun h => feed cr h r)
  end.

Lemma mbind_assoc {A B C} (x : M A) (f : A -> M B) (g : B -> M C) :
  mbind (mbind x f) g = mbind x (fun a => mbind (f a) g).
Proof.
  unfold mbind. destruct x as [l [a|w]]; [|reflexivity].
  destruct (f a) as [l' [b|w]]; [|reflexivity].
  destruct (g b) as [l'' r]. now rewrite app_assoc.
Qed.

Lemma mbind_ret_l {A B} (a : A) (f : A -> M B) : mbind (mret a) f = f a.
Proof. unfold mbind, mret. destruct (f a). reflexivity. Qed.

Lemma mbind_ext {A B} (x : M A) (f g : A -> M B) : (forall a, f a = g a) -> mbind x f = mbind x g.
Proof. intro H. unfold mbind. destruct x as [l [a|w]]; [rewrite H|]; reflexivity. Qed.

Lemma feed_app cr h l1 l2 : feed cr h (l1 ++ l2) = mbind (feed cr h l1) (fun h => feed cr h l2).
Proof.
  revert h. induction l1 as [|u r IH]; intro h; cbn [feed app].
  - now rewrite mbind_ret_l.
  - rewrite mbind_assoc. apply mbind_ext. intro h'. apply IH.
Qed.

Lemma create_tbs_hash_feed c cr alg prot aad payload n :
  create_tbs_hash c cr alg prot aad payload n =
  let halg := hash_alg_id_from_sig_alg_id c alg in
  if (halg =? INVALID_ALGORITHM_ID)%Z then mret (ERR_UNSUPPORTED_SIGNING_ALG, [])
  else mbind (mlog (EvHashStart halg) (Ret (cr_hash_start cr halg))) (fun '(err, h) =>
       if negb (terr_eqb err T_SUCCESS) then mret (err, [])
       else mbind (feed cr h (tbs_chunks prot aad payload)) (fun h =>
            mlog EvHashFinish (cr_hash_finish cr h n))).
Proof.
  unfold create_tbs_hash. cbv zeta. destruct (_ =? _)%Z; [reflexivity|].
  apply mbind_ext. intros [err h]. destruct (terr_eqb err T_SUCCESS); cbn [negb]; [|reflexivity].
  unfold tbs_chunks, hash_bstr. cbn [feed].
  repeat (rewrite ?mbind_assoc; apply mbind_ext; intro). now rewrite mbind_ret_l.
Qed.

Lemma feed_log cr h l ev r : feed cr h l = (ev, Ret r) -> ev = map EvHashUpdate l.
Proof.
  revert h ev r. induction l as [|u l IH]; intros h ev r H; cbn [feed] in H.
  - injection H as <- _. reflexivity.
  - apply mbind_ret_inv in H as (l1 & a & l2 & H1 & H2 & ->).
    unfold m_hash_update, mlog in H1. injection H1 as <- _.
    apply IH in H2. subst l2. reflexivity.
Qed.

Lemma hashed_updates l : hashed (map EvHashUpdate l) = flat_map u_data l.
Proof. induction l as [|u l IH]; [reflexivity|]. cbn [map hashed flat_map]. now rewrite <- IH. Qed.

Lemma hashed_app a b : hashed (a ++ b) = hashed a ++ hashed b.
Proof. unfold hashed. apply flat_map_app. Qed.

(** A buffer without dangling length. *)
Definition solid (u : ubufc) : Prop := u_len u = blen (u_data u).

Lemma solid_buf b : solid (UBuf b).
Proof. reflexivity. Qed.
Lemma solid_null : solid NULL_UBUF.
Proof. reflexivity. Qed.

Lemma solid_src u : solid u -> src_bytes u = u_data u.
Proof.
  destruct u as [n|b]; unfold solid; cbn; [|reflexivity].
  change (blen (@nil byte)) with 0. intros ->. reflexivity.
Qed.

Lemma chunks_data prot aad payload :
  solid prot -> solid aad -> solid payload ->
  flat_map u_data (tbs_chunks prot aad payload)
  = sig_structure (u_data prot) (u_data aad) (u_data payload).
Proof.
  intros P A Y. rewrite sig_structure_eq. unfold tbs_chunks. cbn [flat_map u_data].
  rewrite P, A, Y. rewrite !encode_head_short. cbn [app]. rewrite app_nil_r.
  rewrite <- !app_assoc. reflexivity.
Qed.

(** A complete run of create_tbs_hash that reached the adapter's finish. *)
Lemma create_tbs_hash_log c cr alg prot aad payload n ev h :
  create_tbs_hash c cr alg prot aad payload n = (ev, Ret (T_SUCCESS, h)) ->
  exists halg ctx ctx',
    hash_alg_id_from_sig_alg_id c alg = halg /\ halg <> INVALID_ALGORITHM_ID /\
    cr_hash_start cr halg = (T_SUCCESS, ctx) /\
    feed cr ctx (tbs_chunks prot aad payload)
      = (map EvHashUpdate (tbs_chunks prot aad payload), Ret ctx') /\
    cr_hash_finish cr ctx' n = Ret (T_SUCCESS, h) /\
    ev = EvHashStart halg :: map EvHashUpdate (tbs_chunks prot aad payload) ++ [EvHashFinish].
Proof.
  rewrite create_tbs_hash_feed. cbv zeta.
  destruct (Z.eqb_spec (hash_alg_id_from_sig_alg_id c alg) INVALID_ALGORITHM_ID) as [E|E].
  - intro H. unfold mret in H. discriminate.
  - intro H. apply mbind_ret_inv in H as (l1 & [err ctx] & l2 & H1 & H2 & ->).
    unfold mlog in H1. injection H1 as <- Hs.
    destruct (terr_eqb err T_SUCCESS) eqn:Er; cbn [negb] in H2.
    + apply terr_eqb_eq in Er. subst err.
      apply mbind_ret_inv in H2 as (l3 & ctx' & l4 & H3 & H4 & ->).
      pose proof (feed_log _ _ _ _ _ H3) as ->.
      unfold mlog in H4. injection H4 as <- Hf.
      do 3 eexists. repeat split; eauto.
    + unfold mret in H2. injection H2 as <- E1 _. subst err. discriminate.
Qed.
