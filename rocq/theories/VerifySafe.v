(** Decoding a message never runs into undefined behaviour, whatever the bytes. *)
From Verif Require Import Base Const QEnc QDec Spec DecSpec BaseFacts DecFacts DecSkip DecCtx Params ParamFacts DecSim
  Crypto Util ShortCircuit Verify VerifyDec VerifySpec BucketFacts LabelFacts.
From Coq Require Import Lia ZifyBool ZifyNat ZifyN.
Ltac Zify.zify_post_hook ::= Z.div_mod_to_equations.
Open Scope N_scope.
Local Open Scope mon_scope.

(** ** The crit parameter *)

Lemma arr_set_ret {A} (l : list A) n a : (n < length l)%nat -> exists l', arr_set l n a = Ret l' /\ length l' = length l.
Proof.
  revert n. induction l as [|x l IH]; intros n H; cbn [length] in H; [lia|]. destruct n; cbn [arr_set]; [eauto|].
  destruct (IH n) as (l' & -> & E); [lia|]. cbn [obind]. eexists. split; [reflexivity|]. cbn. now rewrite E.
Qed.

Lemma get_next_shrink d :
  match get_next d with
  | (QD_SUCCESS, _, d') => (length (d_in d') < length (d_in d))%nat
  | _ => True
  end.
Proof.
  unfold get_next. destruct (at_end d) eqn:A; [exact I|].
  pose proof (get_elem_shrink (d_depth d) (d_in d)) as H1. pose proof (get_entry_shrink (d_depth d) (d_in d)) as H2.
  assert (X : match (match get_elem (d_depth d) (d_in d) with
      | IErr e => (e, bad_item e, d)
      | IItem it r => (i_err it, got it, d_set_levels (d_set_in d r) (dec_level (d_levels d)))
      end) with (QD_SUCCESS, _, d') => (length (d_in d') < length (d_in d))%nat | _ => True end).
  { destruct (get_elem (d_depth d) (d_in d)) as [e|it r] eqn:E.
    - apply get_elem_err in E as [E _]. destruct e; auto. contradiction.
    - destruct (i_err it); auto. }
  destruct (d_levels d) as [|[[|] c sc s|s] R]; try exact X.
  destruct (get_entry (d_depth d) (d_in d)) as [e|l it r] eqn:E.
  - apply get_entry_err in E as [E _]. destruct e; auto. contradiction.
  - destruct (i_err it); auto.
Qed.

Definition ll_sized (ll : llist) : Prop := length (ll_int ll) = 11%nat /\ length (ll_tstr ll) = 11%nat.

Lemma crit_loop_ret fuel d ll ni nt :
  ll_sized ll -> (length (d_in d) < fuel)%nat ->
  exists e ll' d', crit_loop fuel d ll ni nt = Ret (e, ll', d') /\ ll_sized ll'.
Proof.
  revert d ll ni nt. induction fuel as [|fuel IH]; intros d ll ni nt [L1 L2] Hf; [lia|]. cbn [crit_loop].
  pose proof (get_next_shrink d) as S. destruct (get_next d) as [[x it] d'].
  assert (St : forall e : terr, exists (e' : terr) (ll' : llist) (d'' : dctx), Ret (e, ll, d') = Ret (e', ll', d'') /\ ll_sized ll').
  { intro e. exists e, ll, d'. split; [reflexivity|]. split; assumption. }
  change PARAMETER_LIST_MAX with 10%nat.
  destruct x; try apply St. destruct (i_val it); try apply St.
  - destruct (Nat.leb_spec 10 ni); [apply St|].
    destruct (arr_set_ret (ll_int ll) ni z) as (a & -> & La); [lia|]. cbn [obind].
    apply IH; [split; cbn; lia|lia].
  - destruct (Nat.leb_spec 10 nt); [apply St|].
    destruct (arr_set_ret (ll_tstr ll) nt (UBuf b)) as (a & -> & La); [lia|]. cbn [obind].
    apply IH; [split; cbn; lia|lia].
Qed.

Definition crit_sized (crit : option llist) : Prop := match crit with Some ll => ll_sized ll | None => True end.
Definition same_kind {A} (a b : option A) : Prop :=
  match a, b with Some _, Some _ | None, None => True | _, _ => False end.

Lemma decode_critical_ret d crit :
  crit_sized crit ->
  exists e crit' d', decode_critical_parameter d crit = Ret (e, crit', d') /\ same_kind crit crit'.
Proof.
  intro H. assert (Sk : same_kind crit crit) by (destruct crit; exact I).
  unfold decode_critical_parameter. destruct (get_and_reset_error (enter_array_from_map d LABEL_CRIT)) as [x d'].
  destruct x; try (do 3 eexists; split; [reflexivity|assumption]).
  destruct crit as [ll|]; [|do 3 eexists; split; [reflexivity|exact I]].
  destruct (crit_loop_ret (S (length (d_in d'))) d' ll 0 0 H) as (e & ll' & d'' & -> & L1 & L2); [lia|]. cbn [obind].
  destruct (negb _); [do 3 eexists; split; [reflexivity|exact I]|].
  assert (C : exists b, is_label_list_clear ll' = Ret b).
  { unfold is_label_list_clear, arr_get. destruct (ll_int ll') as [|z ?]; [discriminate|]. cbn [nth_error obind].
    destruct (negb _); [eauto|]. destruct (ll_tstr ll') as [|s ?]; [discriminate|]. cbn. eauto. }
  destruct C as [b ->]. cbn [obind]. do 3 eexists. split; [reflexivity|exact I].
Qed.

(** ** One bucket of parameters *)

Lemma callback_ret st e :
  ll_good (fst st) ->
  exists st' ok, header_parameter_callback st e = Ret (st', ok) /\ ll_good (fst st').
Proof.
  intro H. unfold header_parameter_callback. destruct (label_is _ _); [do 2 eexists; split; [reflexivity|exact H]|].
  destruct (add_label_ret (en_label e) (fst st) H) as (er & ll' & -> & G). cbn [obind].
  do 2 eexists. split; [reflexivity|exact G].
Qed.

Lemma get_items_ret d ss st :
  ll_good (fst st) ->
  exists d' ss' st', get_items_in_map header_parameter_callback d ss st = Ret (d', ss', st') /\ ll_good (fst st').
Proof.
  intro H. unfold get_items_in_map. destruct (negb _); [eauto 10|].
  destruct (d_levels d) as [|[[|] c sc s|s] R]; try (do 3 eexists; split; [reflexivity|assumption]).
  destruct (scan_map (d_depth d) sc s) as [es fin].
  destruct (search_ret header_parameter_callback (fun st => ll_good (fst st)) es callback_ret ss st H)
    as (ss' & st' & x & -> & G). cbn [obind].
  eauto 10.
Qed.

Lemma parse_ret c d p crit unk :
  crit_sized crit -> ll_good unk ->
  exists r, parse_cose_header_parameters c d p crit unk = Ret r /\
            ll_good (r_unknown r) /\ same_kind crit (r_crit r).
Proof.
  intros Hc Hu. assert (Sk : same_kind crit crit) by (destruct crit; exact I).
  unfold parse_cose_header_parameters.
  destruct (get_items_ret (enter_map d) header_slots (unk, T_SUCCESS) Hu) as (d' & ss & st & -> & G). cbn [obind]. cbv zeta.
  destruct (d_err d'); try (eexists; split; [reflexivity|split; [exact G|exact Sk]]).
  destruct (take_all c _ ss p) as [err p']. destruct (negb _); [eexists; split; [reflexivity|split; [exact G|exact Sk]]|].
  destruct (decode_critical_ret d' crit Hc) as (e & crit' & d'' & -> & Sk'). cbn [obind].
  eexists. split; [reflexivity|split; [exact G|exact Sk']].
Qed.

(** ** Tags *)

(** The tag numbers handed out for an item with tags [ts], innermost first, when
    the number 2^64-1 is not among them. *)
Fixpoint before_invalid (ts : list N) : list N :=
  match ts with [] => [] | t :: r => if t =? TAG_INVALID64 then [] else t :: before_invalid r end.

Definition returned (ts : list N) : list N :=
  match ts with
  | [] => []
  | t :: r => if t =? TAG_COSE_SIGN1 then before_invalid r else t :: before_invalid r
  end.

Definition pad4 (l : list N) : list N := l ++ repeat TAG_INVALID64 (4 - length l).

Lemma before_len ts : (length (before_invalid ts) <= length ts)%nat.
Proof. induction ts as [|t ts IH]; [cbn; lia|]. cbn [before_invalid]. destruct (_ =? _); cbn [length]; lia. Qed.

Lemma tags_loop_spec fuel d i r done :
  d_err d = QD_SUCCESS -> (length done = r)%nat -> (r + (length (d_tags d) - i) <= 4)%nat ->
  (length (d_tags d) - i < fuel)%nat ->
  tags_loop fuel d i r (pad4 done) = Ret (T_SUCCESS, pad4 (done ++ before_invalid (skipn i (d_tags d)))).
Proof.
  intros He. revert i r done. induction fuel as [|fuel IH]; intros i r done Hd Hr Hf; [lia|].
  cbn [tags_loop]. unfold get_nth_tag_of_last. rewrite He. cbn [qd_ok negb].
  destruct (nth_error (d_tags d) i) as [t|] eqn:E.
  - assert (Hi : (i < length (d_tags d))%nat) by (apply nth_error_Some; congruence).
    assert (Es : skipn i (d_tags d) = t :: skipn (S i) (d_tags d)).
    { clear - E. revert i E. induction (d_tags d) as [|a l IHl]; intros i E; [destruct i; discriminate|].
      destruct i; cbn [nth_error skipn] in *; [now injection E as ->|]. rewrite (IHl i E). reflexivity. }
    rewrite (nth_error_nth _ _ _ E), Es. cbn [before_invalid]. destruct (t =? TAG_INVALID64); [now rewrite app_nil_r|].
    change (N.to_nat MAX_TAGS_TO_RETURN) with 4%nat. destruct (Nat.ltb_spec 4 r); [lia|].
    unfold pad4. replace (4 - length done)%nat with (S (4 - S r)) by lia. rewrite <- Hd at 2. rewrite set_after. cbn [obind].
    replace ((done ++ [t]) ++ repeat TAG_INVALID64 (4 - S r)) with (pad4 (done ++ [t])).
    2:{ unfold pad4. do 2 f_equal. rewrite app_length. cbn [length]. lia. }
    rewrite IH.
    + rewrite <- app_assoc. reflexivity.
    + rewrite app_length. cbn [length]. lia.
    + lia.
    + lia.
  - assert (Hi : (length (d_tags d) <= i)%nat) by now apply nth_error_None.
    rewrite (nth_overflow _ _ Hi), skipn_all2 by exact Hi.
    change (18446744073709551615 =? TAG_INVALID64) with true. cbv iota. cbn [before_invalid]. now rewrite app_nil_r.
Qed.

Lemma process_tags_spec me d :
  d_err d = QD_SUCCESS -> (length (d_tags d) <= 4)%nat -> length (v_tags me) = 4%nat ->
  process_tags me d =
    Ret (let tagged := match d_tags d with t :: _ => t =? TAG_COSE_SIGN1 | [] => false end in
         if has_flag (v_flags me) OPT_TAG_REQUIRED && negb tagged
            || has_flag (v_flags me) OPT_TAG_PROHIBITED && tagged
         then (ERR_INCORRECTLY_TAGGED, me)
         else (T_SUCCESS, v_set_tags me (pad4 (returned (d_tags d))))).
Proof.
  intros He Hl Hv. unfold process_tags. cbv zeta.
  assert (T0 : get_nth_tag_of_last d 0 = match d_tags d with t :: _ => t | [] => TAG_INVALID64 end).
  { unfold get_nth_tag_of_last. rewrite He. cbn [qd_ok negb]. destruct (d_tags d); reflexivity. }
  rewrite T0.
  assert (T1 : (match d_tags d with t :: _ => t | [] => TAG_INVALID64 end =? TAG_COSE_SIGN1)
             = match d_tags d with t :: _ => t =? TAG_COSE_SIGN1 | [] => false end) by (destruct (d_tags d); reflexivity).
  rewrite T1. rewrite Hv.
  destruct (has_flag (v_flags me) OPT_TAG_REQUIRED && _) eqn:F1; cbn [orb]; [reflexivity|].
  destruct (has_flag (v_flags me) OPT_TAG_PROHIBITED && _) eqn:F2; [reflexivity|].
  change (repeat TAG_INVALID64 4) with (pad4 []).
  destruct (d_tags d) as [|t r] eqn:Et.
  - cbn [negb]. change (arr_set (pad4 []) 0 TAG_INVALID64) with (Ret (A := list N) (pad4 [TAG_INVALID64])). cbn [obind].
    cbn [tags_loop length]. unfold get_nth_tag_of_last. rewrite He, Et. cbn [qd_ok negb nth].
    change (18446744073709551615 =? TAG_INVALID64) with true. cbv iota. cbn [obind returned]. reflexivity.
  - cbn [length] in *. destruct (t =? TAG_COSE_SIGN1) eqn:E18; cbn [negb].
    + cbn [obind]. change (pad4 []) with (pad4 ([] : list N)). rewrite tags_loop_spec; rewrite ?Et; cbn [length skipn]; auto; try lia.
      cbn [obind app returned]. now rewrite E18.
    + change (arr_set (pad4 []) 0 t) with (Ret (A := list N) (pad4 [t])). cbn [obind].
      rewrite tags_loop_spec; rewrite ?Et; cbn [length skipn]; auto; try lia.
      cbn [obind app returned]. now rewrite E18.
Qed.

Lemma get_item_f_tags fuel tags tm bs it r :
  (length tags <= 4)%nat -> get_item_f fuel tags tm bs = IItem it r -> (length (i_tags it) <= 4)%nat.
Proof.
  revert tags tm bs. induction fuel as [|fuel IH]; intros tags tm bs Hl; cbn [get_item_f]; [discriminate|].
  destruct (decode_head bs) as [e rr|mt ai n rr].
  { destruct (is_unrecoverable e); [discriminate|]. intro H. injection H as <- _. cbn. lia. }
  destruct (mt =? 6).
  - destruct (ai =? 31); [intro H; injection H as <- _; cbn; lia|].
    change MAX_TAGS_PER_ITEM with 4%nat.
    destruct (Nat.leb_spec 4 (length tags)); [now apply IH|]. apply IH. cbn [length]. lia.
  - destruct (dec_atom mt ai n rr) as [e|it0 r0] eqn:A; [discriminate|]. intro H. injection H as <- _.
    unfold with_tags. destruct (negb (qd_ok (i_err it0))) eqn:Q; [|exact Hl].
    clear - A. unfold dec_atom, dec_string, dec_type7 in A.
    repeat match type of A with (if ?b then _ else _) = _ => destruct b end; try discriminate;
      injection A as <- _; cbn; lia.
Qed.

Lemma get_next_tags d x it d' : get_next d = (x, it, d') -> (length (i_tags it) <= 4)%nat.
Proof.
  unfold get_next. destruct (at_end d); [intro H; injection H as _ <- _; cbn; lia|].
  assert (E1 : forall b i r, get_item b = IItem i r -> (length (i_tags i) <= 4)%nat).
  { intros b i r. apply get_item_f_tags. cbn. lia. }
  assert (G : forall i, (length (i_tags i) <= 4)%nat -> (length (i_tags (got i)) <= 4)%nat).
  { intros i L. unfold got. destruct (qd_ok _); [exact L|cbn; lia]. }
  assert (Ee : forall b i r, get_elem (d_depth d) b = IItem i r -> (length (i_tags i) <= 4)%nat).
  { intros b i r. unfold get_elem. destruct (get_item b) as [|i0 r0] eqn:E; [discriminate|].
    destruct (i_val i0); try discriminate; (destruct (depth_ok _ _); [|discriminate]); intro H; injection H as <- _; eauto. }
  assert (En : forall b l i r, get_entry (d_depth d) b = EEntry l i r -> (length (i_tags i) <= 4)%nat).
  { intros b l i r. unfold get_entry. destruct (get_item b) as [|i0 r0]; [discriminate|].
    destruct (get_item r0) as [|i1 r1] eqn:E; [destruct (i_val i0); discriminate|].
    destruct (i_val i0); cbn [as_label]; try discriminate; destruct (i_val i1); try discriminate;
      (destruct (depth_ok _ _); [|discriminate]); intro H; injection H as _ <- _; eauto. }
  assert (X : (match get_elem (d_depth d) (d_in d) with
      | IErr e => (e, bad_item e, d)
      | IItem it r => (i_err it, got it, d_set_levels (d_set_in d r) (dec_level (d_levels d)))
      end) = (x, it, d') -> (length (i_tags it) <= 4)%nat).
  { destruct (get_elem (d_depth d) (d_in d)) as [e|i r] eqn:E; intro H; injection H as _ <- _; [cbn; lia|]. eauto. }
  destruct (d_levels d) as [|[[|] c sc s|s] R]; try exact X.
  destruct (get_entry (d_depth d) (d_in d)) as [e|l i r] eqn:E; intro H; injection H as _ <- _; [cbn; lia|]. eauto.
Qed.

Lemma enter_tags m d : d_err (enter_agg m d) = QD_SUCCESS -> (length (d_tags d) <= 4)%nat -> (length (d_tags (enter_agg m d)) <= 4)%nat.
Proof.
  unfold enter_agg. intros H L. destruct (negb (qd_ok (d_err d))); [exact L|].
  destruct (get_next d) as [[x it] d'] eqn:E. destruct (negb (qd_ok x)) eqn:Q.
  - cbn in H. subst x. discriminate.
  - destruct (i_val it); try discriminate H. destruct (Bool.eqb _ _); [|discriminate H].
    cbn. eapply get_next_tags; eassumption.
Qed.

(** ** The whole message *)

Lemma get_bytes_set d d' o : get_byte_string d = (d', o) -> (exists u, o = Some u) \/ d_err d' <> QD_SUCCESS.
Proof.
  unfold get_byte_string. destruct (qd_ok (d_err d)) eqn:Q; cbn [negb].
  - destruct (get_next d) as [[x it] d1]. destruct (qd_ok x) eqn:Qx; cbn [negb].
    + destruct (untagged_bytes it); intro H; injection H as <- <-; left; eauto.
    + intro H. injection H as <- <-. right. cbn. intros ->. discriminate.
  - intro H. injection H as <- <-. right. intro X. rewrite X in Q. discriminate.
Qed.

(** The context afterwards is the same but for the tags. *)
Definition ctx_kept (me me' : vctx) : Prop :=
  length (v_tags me') = 4%nat /\ v_key me' = v_key me /\ v_flags me' = v_flags me /\
  v_aux me' = v_aux me /\ v_aux_size me' = v_aux_size me.

Theorem decode_ret c junk me msg payload is_dc :
  length (v_tags me) = 4%nat -> (is_dc = true -> payload <> None) ->
  exists r me', verify_decode c junk me msg payload is_dc = Ret (r, me') /\ ctx_kept me me'.
Proof.
  intros Hv Hp. assert (K : ctx_kept me me) by (repeat split; assumption).
  unfold verify_decode. cbv zeta.
  destruct (terr_eqb (decode_error_to_terr (d_err (enter_array (dec_init msg)))) T_SUCCESS) eqn:E0; cbn [negb]; [|eauto].
  apply terr_eqb_eq, terr_success in E0.
  pose proof (enter_tags false (dec_init msg) E0) as L. cbn [dec_init d_tags length] in L. specialize (L ltac:(lia)).
  fold enter_array in L. change (enter_agg false (dec_init msg)) with (enter_array (dec_init msg)) in L.
  assert (P : exists e1 me1, process_tags me (enter_array (dec_init msg)) = Ret (e1, me1) /\ ctx_kept me me1).
  { rewrite process_tags_spec by assumption. cbv zeta.
    match goal with |- context [if ?b then _ else _] => destruct b end; do 2 eexists; (split; [reflexivity|]); [exact K|].
    repeat split. cbn [v_set_tags v_tags]. unfold pad4. rewrite app_length, repeat_length.
    assert (length (returned (d_tags (enter_array (dec_init msg)))) <= 4)%nat; [|lia].
    destruct (d_tags (enter_array (dec_init msg))) as [|t r]; cbn [returned length] in *; [lia|].
    pose proof (before_len r). destruct (t =? TAG_COSE_SIGN1); cbn [length]; lia. }
  destruct P as (e1 & me1 & -> & K1). cbn [obind].
  destruct (negb (terr_eqb e1 T_SUCCESS)); [eauto|].
  destruct (enter_bstr_wrapped _) as [d1 oprot].
  assert (S0 : crit_sized (Some clear_label_list)) by (split; reflexivity).
  assert (R1 : exists r1, (if negb (u_len match oprot with Some u => u | None => junk end =? 0)
        then parse_cose_header_parameters c d1 clear_params (Some clear_label_list) clear_label_list
        else Ret {| r_err := T_SUCCESS; r_d := d1; r_params := clear_params;
                    r_crit := Some clear_label_list; r_unknown := clear_label_list |}) = Ret r1 /\
       ll_good (r_unknown r1) /\ same_kind (Some clear_label_list) (r_crit r1)).
  { destruct (negb _).
    - apply parse_ret; [exact S0|apply ll_good_clear].
    - eexists. split; [reflexivity|]. split; [apply ll_good_clear|exact I]. }
  destruct R1 as (r1 & -> & G1 & C1). cbn [obind].
  destruct (negb (terr_eqb (r_err r1) T_SUCCESS)); [eauto|].
  destruct (parse_ret c (exit_bstr_wrapped (r_d r1)) (r_params r1) None (r_unknown r1) I G1) as (r2 & -> & _ & _).
  cbn [obind]. destruct (negb (terr_eqb (r_err r2) T_SUCCESS)); [eauto|].
  assert (Py : exists bad d2 opay, (if is_dc then
              match payload with
              | None => UB NullDeref
              | Some pl =>
                match get_next (r_d r2) with
                | (_, it, d') =>
                  Ret (match i_val it with VNullV => false | _ => true end, d', Some pl)
                end
              end
            else let (d', o) := get_byte_string (r_d r2) in Ret (false, d', o)) = Ret (bad, d2, opay) /\
            ((exists u, opay = Some u) \/ d_err d2 <> QD_SUCCESS)).
  { destruct is_dc.
    - destruct payload as [pl|]; [|exfalso; now apply Hp]. destruct (get_next (r_d r2)) as [[x it] d']. eauto 10.
    - destruct (get_byte_string (r_d r2)) as [d' o] eqn:G. apply get_bytes_set in G. eauto 10. }
  destruct Py as (bad & d2 & opay & -> & Ho). cbn [obind]. destruct bad; [eauto|].
  destruct (get_byte_string d2) as [d3 osig] eqn:G3.
  destruct (negb (terr_eqb (decode_error_to_terr (dec_finish (exit_array d3))) T_SUCCESS)) eqn:F; [eauto|].
  assert (Ok : d_err d3 = QD_SUCCESS).
  { destruct (qd_ok (d_err d3)) eqn:Q; [now apply qd_ok_iff|]. exfalso.
    assert (N : d_err d3 <> QD_SUCCESS) by (intro X; rewrite X in Q; discriminate).
    rewrite finish_failed in F by exact N.
    apply negb_false_iff, terr_eqb_eq, terr_success in F. contradiction. }
  assert (Ok2 : d_err d2 = QD_SUCCESS).
  { destruct (qd_ok (d_err d2)) eqn:Q; [now apply qd_ok_iff|]. exfalso.
    assert (N : d_err d2 <> QD_SUCCESS) by (intro X; rewrite X in Q; discriminate).
    rewrite get_bytes_failed in G3 by exact N. injection G3 as <- _. contradiction. }
  destruct Ho as [[pay ->]|Ho]; [|contradiction].
  apply get_bytes_set in G3 as [[sig ->]|G3]; [|contradiction].
  destruct (r_crit r1) as [crit|]; [|contradiction]. cbn [need obind]. eauto.
Qed.
