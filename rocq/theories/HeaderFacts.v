(** Header parameters: what is made and what is accepted. *)
From Verif Require Import Base Const QEnc QDec Crypto Util ShortCircuit Params Verify Sign Spec SignSpec Toy.
From Verif Require Import BaseFacts UtilFacts SignFacts SignProofs SignMore SignMore3.
From Verif Require Import DecSpec VerifySafe VerifyFacts VerifyCheck Unique Parts VerifyTop VerifyMore VerifyMore2 VerifyMore3 VerifyMore4 RoundTrip VerifySpec HeaderSpec.
From Coq Require Import Lia ZifyBool ZifyNat ZifyN.
Open Scope N_scope. Open Scope list_scope.
Local Strategy 100 [create_tbs create_tbs_hash verify_decode].

Lemma CInt_inj a b : CInt a = CInt b -> a = b.
Proof. unfold CInt. destruct (Z.ltb_spec a 0) as [La|La], (Z.ltb_spec b 0) as [Lb|Lb]; intro H; try discriminate H; injection H as H; lia. Qed.

Lemma int_value_inv k z : int_value k = Some z -> body k = CInt z.
Proof.
  unfold int_value, CInt. destruct (body k); try discriminate.
  - destruct (_ <? _) eqn:L; [|discriminate]. intro H. injection H as <-. destruct (Z.ltb_spec (Z.of_N n) 0); [lia|]. f_equal. lia.
  - destruct (_ <? _) eqn:L; [|discriminate]. intro H. injection H as <-. destruct (Z.ltb_spec (- Z.of_N n - 1) 0); [|lia]. f_equal. lia.
Qed.

Lemma odd_label_inv k : odd_label k = false -> a_label (body k).
Proof.
  unfold odd_label. intro H.
  destruct (int_value k) as [z|] eqn:E; [right; exists z; now apply int_value_inv|].
  destruct (body k); try discriminate H. left. eauto.
Qed.

Lemma understood_int k : understood k = true -> exists z, int_value k = Some z.
Proof. unfold understood, has_int. cbn [existsb]. destruct (int_value k); [eauto|discriminate]. Qed.

Lemma in_values z k v m : In (k, v) m -> int_value k = Some z -> In v (values z m).
Proof.
  intros H E. unfold values. apply in_map_iff. exists (k, v). split; [reflexivity|]. apply filter_In. split; [exact H|].
  unfold has_int. cbn [fst]. rewrite E. apply Z.eqb_refl.
Qed.

Lemma bytes_from_in vs u v : bytes_from vs u -> In v vs -> exists b, body v = CBytes b.
Proof. intros [[-> _]|(x & b & -> & _ & B & _)] H; [destruct H|]. destruct H as [<-|[]]. eauto. Qed.

Lemma untagged_plain v b : body v = b -> (forall xs, b <> CArray xs) -> untagged v = b.
Proof. intros E H. unfold untagged. rewrite E. destruct b; try reflexivity. now destruct (H l). Qed.

(** What is accepted. *)
Theorem accepted_headers c cr me msg aad payload want dc log w ad gv g pm :
  call_ok me aad ad dc payload gv -> message msg g pm -> succeeds c cr me msg aad payload want dc log w ->
  (forall k v, In (k, v) (all_params g pm) -> a_label (body k)) /\
  (forall k v z, In (k, v) (all_params g pm) -> int_value k = Some z ->
     dis_content_type c = false \/ z <> 3%Z -> value_type z (untagged v)) /\
  (forall k v z, In (k, v) (g_unprot g) -> int_value k = Some z -> z <> 1%Z /\ z <> 2%Z).
Proof.
  intros O Hm S. destruct (success_facts _ _ _ _ _ _ _ _ _ _ _ _ _ _ O Hm S) as (p & pl & [_ R A2 (ci & ct & C & _) (L & _) _ _] & _).
  destruct R as [A1 A K V Q T]. split; [|split].
  - intros k v H. rewrite Forall_forall in L. specialize (L _ H). cbn [fst] in L.
    destruct (understood k) eqn:U.
    + destruct (understood_int _ U) as (z & E). right. exists z. now apply int_value_inv.
    + apply odd_label_inv. auto.
  - intros k v z H E Hd. pose proof (in_values _ _ _ _ H E) as I. unfold value_type.
    split; [|split; [|split]].
    + intros ->. unfold all_params in I. rewrite values_app, A1, app_nil_r in I.
      destruct A as [[X _]|(x & y & X & _ & Y & _)]; rewrite X in I; [destruct I|]. destruct I as [<-|[]].
      apply int_value_inv in Y. exists y. apply untagged_plain; [exact Y|]. intros xs. unfold CInt. destruct (y <? 0)%Z; discriminate.
    + intros ->. unfold all_params in I. rewrite values_app, A2, app_nil_r in I.
      destruct C as [[X _]|(x & xs & X & _ & B & F & -> & -> & _ & _ & N)]; rewrite X in I; [destruct I|]. destruct I as [<-|[]].
      unfold untagged. rewrite B. exists (map body xs). split; [reflexivity|]. split.
      * destruct xs; [|discriminate]. cbn in N. destruct N as [N|N]; congruence.
      * apply Forall_map. refine (Forall_impl _ _ F). intros y (_ & Y). now apply odd_label_inv.
    + intros ->. destruct Hd as [Hd|Hd]; [|congruence]. rewrite Hd in T. destruct T as (y & T1 & T2).
      unfold all_params in I. rewrite values_app in I. apply in_app_iff in I.
      assert (X : forall vs x y, ct_step vs x y -> In v vs -> (exists s, body v = CText s) \/ exists n, body v = CUInt n /\ n < 65536).
      { intros vs x0 y0 ST J. inversion ST; subst; [destruct J| |]; destruct J as [<-|[]]; eauto. }
      assert (Y : (exists s, body v = CText s) \/ exists n, body v = CUInt n /\ n < 65536) by (destruct I as [I|I]; eauto).
      destruct Y as [(s & Y)|(n & Y & Ln)].
      * left. exists s. apply untagged_plain; [exact Y|discriminate].
      * right. exists n. split; [|exact Ln]. apply untagged_plain; [exact Y|discriminate].
    + intro Z. assert (Y : exists b, body v = CBytes b).
      { destruct Z as [->|[->| ->]]; [exact (bytes_from_in _ _ _ K I)|exact (bytes_from_in _ _ _ V I)|exact (bytes_from_in _ _ _ Q I)]. }
      destruct Y as (b & Y). exists b. apply untagged_plain; [exact Y|discriminate].
  - intros k v z H E. pose proof (in_values _ _ _ _ H E) as I. split; intros ->; [rewrite A1 in I|rewrite A2 in I]; destruct I.
Qed.

(** What is made. *)
Theorem made_headers c cr q me det payload aad pl ad n log me' r :
  configured q me -> holds payload pl -> holds aad ad -> n < 2 ^ 64 ->
  sign_aad_internal c cr me det payload aad {| wb_null := false; wb_len := n |} = (log, Ret (T_SUCCESS, me', r)) ->
  exists m g pm, r = Some (UBuf m) /\ message m g pm /\ conforms pm (g_unprot g) /\ g_extra g = [].
Proof.
  intros C P A Ln H. destruct (sign_success_spec _ _ _ _ _ _ _ _ _ _ _ _ _ C P A H) as (sg & room & R & L & _ & _ & En).
  set (m := requested_message c q (if det then None else Some pl) sg) in *.
  assert (Ct : match q_ct_uint q with Some n => n < 65536 | None => True end).
  { destruct C as (_ & _ & _ & _ & C & _). destruct (q_ct_uint q); [apply C|exact I]. }
  exists m, (asked c q (if det then None else Some pl) sg), (asked_prot q). split; [exact R|].
  split; [apply asked_message; [exact En|exact Ct|unfold m in L; lia]|]. split; [|reflexivity].
  cbn [asked g_unprot]. unfold asked_prot, asked_unprot.
  set (kd := match requested_kid q with [] => [] | _ => [(CInt 4, CBytes (requested_kid q))] end).
  set (ct := match requested_ct c q with CtNone => [] | CtUInt n => [(CInt 3, CUInt n)] | CtText s => [(CInt 3, CText s)] end).
  assert (Kd : kd = [] \/ exists b, kd = [(CInt 4, CBytes b)]) by (unfold kd; destruct (requested_kid q); eauto).
  assert (Cd : ct = [] \/ (exists s, ct = [(CInt 3, CText s)]) \/ exists n, n < 65536 /\ ct = [(CInt 3, CUInt n)]).
  { unfold ct. destruct (requested_ct c q) as [|k|s] eqn:E; eauto. right. right. exists k. split; [|reflexivity].
    unfold requested_ct in E. destruct (dis_content_type c); [discriminate|]. destruct (q_ct_text q); [discriminate|].
    destruct (q_ct_uint q); [|discriminate]. injection E as <-. exact Ct. }
  clearbody kd ct.
  assert (X : forall k v, In (k, v) ([(CInt 1, CInt (q_alg q))] ++ kd ++ ct) ->
     (k, v) = (CInt 1, CInt (q_alg q)) \/ In (k, v) (kd ++ ct)) by (cbn; intros k v [E|E]; auto).
  assert (Y : forall k v, In (k, v) (kd ++ ct) ->
     k = CInt 4 /\ (exists b, v = CBytes b) \/ k = CInt 3 /\ ((exists s, v = CText s) \/ exists n, v = CUInt n /\ n < 65536)).
  { intros k v I. apply in_app_iff in I as [I|I].
    - destruct Kd as [->|(b & ->)]; [destruct I|]. destruct I as [E|[]]. injection E as <- <-. eauto.
    - destruct Cd as [->|[(s & ->)|(j & J & ->)]]; [destruct I| |]; destruct I as [E|[]]; injection E as <- <-; right; eauto. }
  split.
  - intros k v I. right. apply X in I as [E|I]; [injection E as -> _; eauto|]. apply Y in I as [(-> & _)|(-> & _)]; eauto.
  - intros z v I. apply X in I as [E|I].
    + pose proof (f_equal fst E) as E1. pose proof (f_equal snd E) as E2. cbn in E1, E2. change (CUInt 1) with (CInt 1) in E1.
      apply CInt_inj in E1. subst. unfold value_type. repeat split; try lia. eauto.
    + apply Y in I as [(E & b & ->)|(E & F)]; apply CInt_inj in E; subst; unfold value_type; repeat split; try lia; eauto.
  - destruct Kd as [->|(b & ->)]; destruct Cd as [->|[(s & ->)|(j & J & ->)]]; cbn;
      repeat (constructor; [cbn; intuition discriminate|]); constructor.
  - intros z v I. apply Y in I as [(E & _)|(E & _)]; apply CInt_inj in E; subst; split; discriminate.
  - intros xs x [E|[]]. discriminate.
  - intros v v' I _. apply X in I as [E|I]; [discriminate|]. apply Y in I as [(E & _)|(E & _)]; discriminate.
Qed.
