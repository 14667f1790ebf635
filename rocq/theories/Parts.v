(** Pieces of a message. *)
From Verif Require Import Base Spec BaseFacts DecSpec VerifySpec.
From Coq Require Import Lia ZifyBool ZifyNat ZifyN.
Ltac Zify.zify_post_hook ::= Z.div_mod_to_equations.
Open Scope N_scope. Open Scope list_scope.

Definition part (b m : bytes) : Prop := exists x y, m = x ++ b ++ y.

Lemma part_refl b : part b b.
Proof. exists [], []. now rewrite app_nil_r. Qed.
Lemma part_trans a b m : part a b -> part b m -> part a m.
Proof. intros (x & y & ->) (x' & y' & ->). exists (x' ++ x), (y ++ y'). now rewrite !app_assoc. Qed.
Lemma part_l a b : part a (a ++ b).
Proof. exists [], b. reflexivity. Qed.
Lemma part_r a b : part b (a ++ b).
Proof. exists a, []. now rewrite app_nil_r. Qed.

Lemma part_string d c b m : reads d c m -> c = CBytes b \/ c = CText b -> part b m.
Proof. intros H E. inversion H; subst; destruct E as [E|E]; inversion E; subst; apply part_r. Qed.

Lemma part_body d c m : reads d c m -> exists d' m', part m' m /\ reads d' (body c) m'.
Proof.
  revert d m. induction c; intros d0 m0 H; try (exists d0, m0; split; [apply part_refl|exact H]).
  inversion H; subst. cbn [body]. destruct (IHc _ _ H5) as (d' & m' & P & R). exists d', m'. split; [|exact R].
  eapply part_trans; [exact P|apply part_r].
Qed.

Lemma part_all d l m c : reads_all d l m -> In c l -> exists m', part m' m /\ reads d c m'.
Proof.
  intros H. induction H as [|d c0 l b bs R RA IH]; intros I; [destruct I|]. destruct I as [<-|I].
  - exists b. split; [apply part_l|exact R].
  - destruct (IH I) as (m' & P & R'). exists m'. split; [eapply part_trans; [exact P|apply part_r]|exact R'].
Qed.

Lemma part_pairs d l m k v : reads_pairs d l m -> In (k, v) l -> exists m', part m' m /\ reads d v m'.
Proof.
  intros H. induction H as [|d k0 v0 l bk bv bs Rk Lk Rv RA IH]; intros I; [destruct I|]. destruct I as [E|I].
  - injection E as -> ->. exists bv. split; [eapply part_trans; [apply part_l|apply part_r]|exact Rv].
  - destruct (IH I) as (m' & P & R'). exists m'. split; [|exact R'].
    eapply part_trans; [exact P|]. eapply part_trans; apply part_r.
Qed.

Lemma part_array d l m c : reads d (CArray l) m -> In c l -> exists d' m', part m' m /\ reads d' c m'.
Proof.
  intros H I. inversion H; subst.
  - match goal with A : reads_all _ _ _ |- _ => destruct (part_all _ _ _ _ A I) as (m' & P & R) end.
    do 2 eexists. split; [eapply part_trans; [exact P|apply part_r]|exact R].
  - match goal with A : reads_all _ _ _ |- _ => destruct (part_all _ _ _ _ A I) as (m' & P & R) end.
    do 2 eexists. split; [eapply part_trans; [exact P|]|exact R]. eapply part_trans; [apply part_l|apply part_r].
Qed.

Lemma part_map d l m k v : reads d (CMap l) m -> In (k, v) l -> exists d' m', part m' m /\ reads d' v m'.
Proof.
  intros H I. inversion H; subst.
  - match goal with A : reads_pairs _ _ _ |- _ => destruct (part_pairs _ _ _ _ _ A I) as (m' & P & R) end.
    do 2 eexists. split; [eapply part_trans; [exact P|apply part_r]|exact R].
  - match goal with A : reads_pairs _ _ _ |- _ => destruct (part_pairs _ _ _ _ _ A I) as (m' & P & R) end.
    do 2 eexists. split; [eapply part_trans; [exact P|]|exact R]. eapply part_trans; [apply part_l|apply part_r].
Qed.

Lemma message_element msg g pm c :
  message msg g pm -> In c [CBytes (g_prot g); g_payload g; CBytes (g_sig g)] -> exists d m', part m' msg /\ reads d c m'.
Proof.
  intros (t & rest & Ht & (_ & _ & u & _ & _ & B) & _) I.
  destruct (part_body _ _ _ Ht) as (d1 & m1 & P1 & R1). rewrite B in R1.
  destruct (part_array _ _ _ c R1) as (d2 & m2 & P2 & R2).
  { cbn [In] in *. tauto. }
  exists d2, m2. split; [eapply part_trans; eassumption|exact R2].
Qed.

Lemma message_value msg g pm k v :
  message msg g pm -> In (k, v) (all_params g pm) -> exists d m', part m' msg /\ reads d v m'.
Proof.
  intros Hm I. apply in_app_or in I as [I|I].
  - destruct (message_element _ _ _ (CBytes (g_prot g)) Hm) as (d1 & m1 & P1 & R1); [now left|].
    pose proof (part_string _ _ _ _ R1 (or_introl eq_refl)) as P2.
    destruct Hm as (t & rest & Ht & _ & [(_ & -> & _)|(x & bx & E & Rx & _ & Bx)]); [destruct I|].
    destruct (part_body _ _ _ Rx) as (d3 & m3 & P3 & R3). rewrite Bx in R3.
    destruct (part_map _ _ _ _ _ R3 I) as (d4 & m4 & P4 & R4). exists d4, m4. split; [|exact R4].
    apply (part_trans _ m3); [exact P4|]. apply (part_trans _ bx); [exact P3|].
    apply (part_trans _ (g_prot g)); [rewrite E; apply part_l|]. apply (part_trans _ m1); assumption.
  - destruct Hm as (t & rest & Ht & (_ & _ & u & _ & Bu & B) & _).
    destruct (part_body _ _ _ Ht) as (d1 & m1 & P1 & R1). rewrite B in R1.
    destruct (part_array _ _ _ u R1) as (d2 & m2 & P2 & R2); [right; now left|].
    destruct (part_body _ _ _ R2) as (d3 & m3 & P3 & R3). rewrite Bu in R3.
    destruct (part_map _ _ _ _ _ R3 I) as (d4 & m4 & P4 & R4). exists d4, m4. split; [|exact R4].
    eapply part_trans; [exact P4|]. eapply part_trans; [exact P3|]. eapply part_trans; eassumption.
Qed.

Lemma part_len b m : part b m -> blen b <= blen m.
Proof. intros (x & y & ->). rewrite !blen_app. lia. Qed.

Lemma message_lens msg g pm : message msg g pm ->
  blen (g_prot g) <= blen msg /\ blen (g_sig g) <= blen msg /\ forall dc gv pl, payload_is g dc gv pl -> blen pl <= N.max (blen msg) (blen gv).
Proof.
  intro Hm. split; [|split].
  - destruct (message_element _ _ _ (CBytes (g_prot g)) Hm) as (d & m' & P & R); [cbn; auto|].
    apply part_len. eapply part_trans; [|exact P]. exact (part_string _ _ _ _ R (or_introl eq_refl)).
  - destruct (message_element _ _ _ (CBytes (g_sig g)) Hm) as (d & m' & P & R); [cbn; auto|].
    apply part_len. eapply part_trans; [|exact P]. exact (part_string _ _ _ _ R (or_introl eq_refl)).
  - intros dc gv pl Y. unfold payload_is in Y. destruct dc.
    + destruct Y as (_ & _ & ->). lia.
    + destruct (message_element _ _ _ (g_payload g) Hm) as (d & m' & P & R); [cbn; auto|].
      assert (Q : part pl msg) by (eapply part_trans; [|exact P]; eapply part_string; [exact R|]; now left).
      apply part_len in Q. lia.
Qed.
