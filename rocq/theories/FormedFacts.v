(** What is well-formed by RFC 8949 and within the decoder's limits has nothing
    malformed in it. *)
From Verif Require Import Base Const QEnc QDec Spec DecSpec BaseFacts DecFacts DecSkip DecCtx DecSim WideSpec WideFacts
  VerifySpec ErrorSpec ItemSpec.
From Coq Require Import Lia ZifyBool ZifyNat ZifyN.
Ltac Zify.zify_post_hook ::= Z.div_mod_to_equations.
Open Scope N_scope. Open Scope list_scope.

Lemma reads_no_break d x b r r' : reads d x b -> b ++ r = xff :: r' -> False.
Proof. intros R E. destruct (reads_elem d x b r R) as (? & ? & ? & _ & _ & G). rewrite E in G. discriminate. Qed.

(** Reading elements of an array: as far as both go, they agree. *)
Lemma agree_all (P : cbor -> bytes -> Prop) d l b :
  (forall x bx w, In x l -> reads d x bx -> (length bx <= length b)%nat -> well_formed w -> w = bx -> P x bx) ->
  reads_all d l b -> forall cnt b' r1 r2, wcontent false cnt b' -> b' ++ r1 = b ++ r2 -> 
  match cnt with Some n => blen l <= n | None => True end ->
  Forall (fun x => exists bx, P x bx) l /\ exists b'', b' = b ++ b'' /\ b'' ++ r1 = r2 /\ wcontent false (minus cnt (blen l)) b''.
Proof.
  intros HP R. induction R as [d|d x l bx bs Hx Hl IH]; intros cnt b' r1 r2 W E Hc.
  { split; [constructor|]. exists b'. split; [reflexivity|]. split; [exact E|]. change (blen []) with 0. destruct cnt as [n|]; cbn [minus]; [|exact W].
    now rewrite N.sub_0_r. }
  rewrite blen_cons in *. destruct (wlevel_next _ _ _ W) as [->|[(-> & ->)|(w & b1 & -> & W1 & Nz & Hw)]]; [lia| |].
  { exfalso. cbn [app] in E. rewrite <- app_assoc in E. symmetry in E. eapply reads_no_break; [|exact E]; eassumption. }
  rewrite <- !app_assoc in E. destruct (agree_bytes _ _ _ _ _ _ Hx Hw E) as [-> E1].
  destruct (IH) with (cnt := dec_count cnt) (b' := b1) (r1 := r1) (r2 := r2) as (F & b2 & -> & E2 & W2); auto.
  - intros y by0 w I0 Ry Ly. apply HP; auto; [now right|]. rewrite app_length. lia.
  - destruct cnt as [n|]; cbn [dec_count] in *; [|exact I]. assert (n <> 0) by congruence. lia.
  - split.
    + constructor; [exists bx; eapply HP; eauto; [now left|rewrite app_length; lia]|exact F].
    + exists b2. rewrite <- !app_assoc. split; [reflexivity|]. split; [exact E2|].
      replace (minus cnt (1 + blen l)) with (minus (dec_count cnt) (blen l)); [exact W2|].
      destruct cnt as [n|]; cbn [dec_count minus]; [f_equal; lia|reflexivity].
Qed.

Lemma agree_pairs (P : cbor -> bytes -> Prop) d l b :
  (forall k v x bx w, In (k, v) l -> x = k \/ x = v -> reads d x bx -> (length bx <= length b)%nat -> well_formed w -> w = bx -> P x bx) ->
  reads_pairs d l b -> forall cnt b' r1 r2, wcontent true cnt b' -> b' ++ r1 = b ++ r2 -> 
  match cnt with Some n => blen l <= n | None => True end ->
  Forall (fun kv => (exists bx, P (fst kv) bx) /\ exists bx, P (snd kv) bx) l.
Proof.
  intros HP R. induction R as [d|d k v l bk bv bs Hk Hkl Hv Hl IH]; intros cnt b' r1 r2 W E Hc; [constructor|].
  rewrite blen_cons in *. destruct (wlevel_next _ _ _ W) as [->|[(-> & ->)|(w & b1 & -> & W1 & Nz & w1 & w2 & -> & Hw1 & Hw2)]]; [lia| |].
  { exfalso. cbn [app] in E. rewrite <- app_assoc in E. symmetry in E. eapply reads_no_break; [|exact E]; eassumption. }
  rewrite <- !app_assoc in E. destruct (agree_bytes _ _ _ _ _ _ Hk Hw1 E) as [-> E1]. destruct (agree_bytes _ _ _ _ _ _ Hv Hw2 E1) as [-> E2].
  constructor.
  - cbn [fst snd]. split; [exists bk; apply (HP k v k bk bk)|exists bv; apply (HP k v v bv bv)]; auto; try (now left); rewrite !app_length; lia.
  - apply (IH) with (cnt := dec_count cnt) (b' := b1) (r1 := r1) (r2 := r2); auto.
    + intros k0 v0 y by0 w I0 Ey Ry Ly Hw Ew. apply (HP k0 v0 y by0 w); auto; [now right|]. rewrite !app_length. lia.
    + destruct cnt as [n|]; cbn [dec_count] in *; [|exact I]. assert (n <> 0) by congruence. lia.
Qed.

Lemma part_tags x c : part (CJunk x) c -> part (CJunk x) (body c).
Proof. induction c; cbn [body]; auto. intro H. inversion H; subst; auto. Qed.

Lemma agree_formed n : forall d x bx w r1 r2, (length bx <= n)%nat -> reads d x bx -> well_formed w -> w ++ r1 = bx ++ r2 -> all_formed x.
Proof.
  induction n as [n IH] using (well_founded_induction Wf_nat.lt_wf). intros d x bx w r1 r2 L R Hw E j J. apply part_tags in J.
  destruct (reads_elem d x bx r2 R) as (hb & cb & cnt & Eb & C & G). rewrite <- E in G.
  destruct (reads_get_item _ _ _ R) as (hb0 & cb0 & cnt0 & Eb0 & Hh0 & _ & _ & G0).
  pose proof (wide_elem d w r1 Hw) as X. rewrite G in X. destruct X as [X1 X2]. rewrite item_of_val in X2.
  assert (Lc : (length cb < length bx)%nat).
  { pose proof (get_elem_shrink d (w ++ r1)) as S0. rewrite G, E, !app_length in S0. lia. }
  assert (Small : forall d' y by0 w', reads d' y by0 -> (length by0 <= length cb)%nat -> well_formed w' -> w' = by0 -> all_formed y).
  { intros d' y by0 w' Ry Ly Hw' ->. apply (IH (length by0)) with (d := d') (bx := by0) (w := by0) (r1 := []) (r2 := []); auto. lia. }
  unfold content in C. destruct (body x) as [m|m|s|s|l|l|m y|m|s|s] eqn:Bx; try (inversion J; fail).
  - cbn [val_of] in X2. destruct X2 as (b' & Ec & W). destruct C as (b & Hcn & Hr).
    assert (A : exists r, cb ++ r2 = b ++ r /\ (length b <= length cb)%nat).
    { destruct Hcn as [(_ & _ & ->)|(_ & ->)]; [exists r2|exists ([xff] ++ r2)]; rewrite <- ?app_assoc; rewrite ?app_length; split; auto; lia. }
    destruct A as (r & A & Lb). rewrite A in Ec. symmetry in Ec.
    destruct (agree_all (fun x _ => all_formed x) (S d) l b) with (cnt := cnt) (b' := b') (r1 := r1) (r2 := r) as [F _]; auto.
    { intros y by0 w' _ Ry Ly. apply (Small _ _ _ _ Ry). lia. }
    { destruct Hcn as [(-> & _)|(-> & _)]; [lia|exact I]. }
    rewrite Forall_forall in F. inversion J as [| |y l' Iy Py| |]; subst. destruct (F y Iy) as (_ & Fy). exact (Fy _ Py).
  - cbn [val_of] in X2. destruct X2 as (b' & Ec & W). destruct C as (b & Hcn & Hr).
    assert (A : exists r, cb ++ r2 = b ++ r /\ (length b <= length cb)%nat).
    { destruct Hcn as [(_ & _ & ->)|(_ & ->)]; [exists r2|exists ([xff] ++ r2)]; rewrite <- ?app_assoc; rewrite ?app_length; split; auto; lia. }
    destruct A as (r & A & Lb). rewrite A in Ec. symmetry in Ec.
    pose proof (agree_pairs (fun x _ => all_formed x) (S d) l b) as F. specialize (F ltac:(intros k v y by0 w' _ _ Ry Ly; apply (Small _ _ _ _ Ry); lia) Hr cnt b' r1 r W Ec).
    assert (Hn : match cnt with Some n => blen l <= n | None => True end) by (destruct Hcn as [(-> & _)|(-> & _)]; [lia|exact I]).
    specialize (F Hn). rewrite Forall_forall in F. inversion J as [| | |k v l' Ik Pk|k v l' Ik Pv]; subst.
    + destruct (F _ Ik) as [(_ & Fk) _]. exact (Fk _ Pk).
    + destruct (F _ Ik) as [_ (_ & Fv)]. exact (Fv _ Pv).
  - exfalso. clear -Bx. induction x; cbn [body] in Bx; try discriminate. auto.
  - rewrite item_of_eq, Bx in X1. cbn [err_of] in X1. unfold junk_err in X1. revert X1.
    destruct s as [|b0 [|b1 [|]]]; try destruct (_ =? 31); cbn; discriminate.
Qed.
