(** C80: what is made is encoded deterministically, except for the order of two
    unprotected parameters. *)
From Coq Require Import Sorting.Sorted.
From Verif Require Import Base Const QEnc QDec Crypto Util Sign Params Verify Spec DecSpec SignSpec.
From Verif Require Import BaseFacts SignFacts SignProofs SignMore Unique VerifySpec RoundTrip CanonSpec.
From Coq Require Import Lia ZifyBool ZifyNat ZifyN.
Ltac Zify.zify_post_hook ::= Z.div_mod_to_equations.
Open Scope N_scope. Open Scope list_scope.

(** ** Heads *)

Lemma short_head_least mt n h : is_head mt n h -> (length (short_head mt n) <= length h)%nat.
Proof.
  intro H. unfold short_head.
  destruct H as [L|L|L|L|L];
    repeat match goal with |- context [?a <? ?b] => destruct (N.ltb_spec a b) end;
    cbn [length]; rewrite ?big_endian_length; lia.
Qed.

Lemma shortest_short mt n : n < 2 ^ 64 -> shortest mt n (short_head mt n).
Proof. intro L. split; [now apply short_head_is_head|]. intros h' H. now apply short_head_least. Qed.

(** ** No representation is shorter *)

Fixpoint few (c : cbor) : Prop :=
  match c with
  | CArray l => (length l < 256)%nat /\ fold_right (fun x P => few x /\ P) True l
  | CMap l => (length l < 256)%nat /\ fold_right (fun kv P => few (fst kv) /\ few (snd kv) /\ P) True l
  | CTag _ c => few c
  | _ => True
  end.

Lemma few_head mt n : n < 256 -> (length (short_head mt n) <= 2)%nat.
Proof.
  intro H. unfold short_head. destruct (N.ltb_spec n 24); [cbn; lia|].
  change (2 ^ 8) with 256. destruct (N.ltb_spec n 256); [|lia]. cbn [length]. rewrite big_endian_length. lia.
Qed.

Lemma encode_least_mut :
  (forall d c b, reads d c b -> few c -> (length (encode c) <= length b)%nat) /\
  (forall d l b, reads_all d l b -> fold_right (fun x P => few x /\ P) True l -> (length (flat_map encode l) <= length b)%nat) /\
  (forall d l b, reads_pairs d l b -> fold_right (fun kv P => few (fst kv) /\ few (snd kv) /\ P) True l ->
     (length (flat_map (fun kv => encode (fst kv) ++ encode (snd kv)) l) <= length b)%nat).
Proof.
  apply reads_mutind.
  - intros d n h H _. now apply short_head_least.
  - intros d n h H _. now apply short_head_least.
  - intros d b h H _. cbn [encode]. rewrite !app_length. pose proof (short_head_least _ _ _ H). lia.
  - intros d b h H _. cbn [encode]. rewrite !app_length. pose proof (short_head_least _ _ _ H). lia.
  - intros d l h b H _ _ _ IH (_ & F). cbn [encode]. rewrite !app_length. pose proof (short_head_least _ _ _ H). specialize (IH F). lia.
  - intros d l b _ _ IH (L & F). cbn [encode]. rewrite !app_length. specialize (IH F).
    assert (X : blen l < 256) by (unfold blen; lia). pose proof (few_head 4 _ X). cbn [length]. lia.
  - intros d l h b H _ _ _ IH (_ & F). cbn [encode]. rewrite !app_length. pose proof (short_head_least _ _ _ H). specialize (IH F). lia.
  - intros d l b _ _ IH (L & F). cbn [encode]. rewrite !app_length. specialize (IH F).
    assert (X : blen l < 256) by (unfold blen; lia). pose proof (few_head 5 _ X). cbn [length]. lia.
  - intros d n c h b H _ IH F. cbn [encode]. rewrite !app_length. pose proof (short_head_least _ _ _ H). specialize (IH F). lia.
  - intros d n L _. cbn [encode]. replace (n <? 24) with true by lia. cbn. lia.
  - intros d n L _. cbn [encode]. replace (n <? 24) with false by lia. cbn. lia.
  - intros d ai b _ _. cbn. lia.
  - intros d b _ _. cbn. lia.
  - intros d _. cbn. lia.
  - intros d c l b bs _ IH1 _ IH2 (F1 & F2). cbn [flat_map]. rewrite !app_length. specialize (IH1 F1). specialize (IH2 F2). lia.
  - intros d _. cbn. lia.
  - intros d k v l bk bv bs _ IH1 _ _ IH2 _ IH3 (F1 & F2 & F3). cbn [flat_map fst snd] in *. rewrite !app_length.
    specialize (IH1 F1). specialize (IH2 F2). specialize (IH3 F3). lia.
Qed.

(** ** The data item made *)

Definition made (c : cfg) (q : request) (payload : option bytes) (sg : bytes) : cbor :=
  let a := CArray [CBytes (protected_header (q_alg q)); unprotected_header (requested_kid q) (requested_ct c q);
                   match payload with Some p => CBytes p | None => CNull end; CBytes sg] in
  if wants_tag (q_flags q) then CTag 18 a else a.

Lemma made_encode c q payload sg : encode (made c q payload sg) = requested_message c q payload sg.
Proof. unfold made, requested_message, cose_sign1. reflexivity. Qed.

Lemma made_few c q payload sg : few (made c q payload sg).
Proof.
  unfold made, unprotected_header. destruct (wants_tag _), (requested_kid q), (requested_ct c q), payload; cbn; repeat split; lia.
Qed.

(** Its parts are of lengths that fit in a head. *)
Lemma made_parts c q payload sg : blen (encode (made c q payload sg)) < 2 ^ 64 ->
  blen (requested_kid q) < 2 ^ 64 /\ (forall s, requested_ct c q = CtText s -> blen s < 2 ^ 64) /\
  (forall p, payload = Some p -> blen p < 2 ^ 64) /\ blen sg < 2 ^ 64.
Proof.
  intro L. set (a := CArray [CBytes (protected_header (q_alg q)); unprotected_header (requested_kid q) (requested_ct c q);
                   match payload with Some p => CBytes p | None => CNull end; CBytes sg]).
  assert (La : blen (encode a) < 2 ^ 64).
  { unfold made in L. destruct (wants_tag _); [|exact L]. change (blen (short_head 6 18 ++ encode a) < 2 ^ 64) in L. rewrite blen_app in L. lia. }
  clear L. unfold a in La. change (encode (CArray ?l)) with (short_head 4 (blen l) ++ flat_map encode l) in La.
  cbn [flat_map] in La. rewrite !blen_app in La.
  assert (Lu : blen (encode (unprotected_header (requested_kid q) (requested_ct c q))) < 2 ^ 64) by lia.
  unfold unprotected_header in Lu.
  change (encode (CMap ?l)) with (short_head 5 (blen l) ++ flat_map (fun kv => encode (fst kv) ++ encode (snd kv)) l) in Lu.
  rewrite blen_app, flat_map_app, blen_app in Lu. repeat split.
  - destruct (requested_kid q) as [|x k]; [now compute|]. cbn [flat_map fst snd] in Lu. rewrite !blen_app in Lu.
    pose proof (len_in_encode [] (x :: k)) as X. rewrite blen_app in X. change (blen (@nil byte)) with 0 in X. lia.
  - intros s E. rewrite E in Lu. cbn [flat_map fst snd encode] in Lu. rewrite !blen_app in Lu. lia.
  - intros p ->. pose proof (len_in_encode [] p) as X. rewrite blen_app in X. change (blen (@nil byte)) with 0 in X. lia.
  - pose proof (len_in_encode [] sg) as X. rewrite blen_app in X. change (blen (@nil byte)) with 0 in X. lia.
Qed.

Lemma ct_range c q n : (match q_ct_uint q with Some n => n < 65536 | None => True end) -> requested_ct c q = CtUInt n -> n < 65536.
Proof.
  intros H Ct. unfold requested_ct in Ct. destruct (dis_content_type c); [discriminate|].
  destruct (q_ct_text q); [discriminate|]. destruct (q_ct_uint q); [|discriminate]. now injection Ct as ->.
Qed.

Lemma made_reads c q payload sg : enabled c (q_alg q) ->
  (match q_ct_uint q with Some n => n < 65536 | None => True end) ->
  blen (encode (made c q payload sg)) < 2 ^ 64 ->
  reads 0 (made c q payload sg) (encode (made c q payload sg)).
Proof.
  intros En Ct L. destruct (made_parts _ _ _ _ L) as (Lk & Lt & Lp & Ls). unfold made.
  assert (Ru : reads 1 (unprotected_header (requested_kid q) (requested_ct c q)) (encode (unprotected_header (requested_kid q) (requested_ct c q)))).
  { unfold unprotected_header. apply reads_map; [unfold max_nesting; lia| |].
    - unfold max_items. destruct (requested_kid q), (requested_ct c q); cbn; lia.
    - apply Forall_app. split.
      + destruct (requested_kid q) as [|x k]; [constructor|]. constructor; [|constructor]. cbn [fst snd].
        split; [apply reads_int; lia|]. split; [exact I|]. now apply reads_bytes.
      + destruct (requested_ct c q) as [|n|s] eqn:E; [constructor| |]; (constructor; [|constructor]); cbn [fst snd];
          (split; [apply reads_int; lia|]); (split; [exact I|]).
        * apply reads_uint. pose proof (ct_range _ _ _ Ct E). change (2 ^ 64) with 18446744073709551616. lia.
        * apply reads_text. now apply Lt. }
  match goal with |- context [CTag 18 ?x] => set (a := x) end.
  assert (Ra : reads 0 a (encode a)).
  { unfold a. apply reads_array; [unfold max_nesting; lia|change (4 <= max_items); unfold max_items; lia|].
    constructor; [|constructor; [exact Ru|constructor; [|constructor; [|constructor]]]].
    - apply reads_bytes. pose proof (protected_header_len (q_alg q)). change (2 ^ 64) with 18446744073709551616. lia.
    - destruct payload as [p|]; [apply reads_bytes; auto|]. change (encode CNull) with [initial 7 22]. apply rd_simple. lia.
    - now apply reads_bytes. }
  destruct (wants_tag (q_flags q)); [|exact Ra]. cbn [encode]. constructor; [|exact Ra].
  apply short_head_is_head. change (2 ^ 64) with 18446744073709551616. lia.
Qed.

Lemma made_success c cr q me det payload aad pl ad n log me' r :
  configured q me -> holds payload pl -> holds aad ad -> n < 2 ^ 64 ->
  sign_aad_internal c cr me det payload aad {| wb_null := false; wb_len := n |} = (log, Ret (T_SUCCESS, me', r)) ->
  exists sg, let t := made c q (if det then None else Some pl) sg in
    r = Some (UBuf (encode t)) /\ blen (encode t) < 2 ^ 64 /\ reads 0 t (encode t) /\
    enabled c (q_alg q) /\ (match q_ct_uint q with Some n => n < 65536 | None => True end).
Proof.
  intros C P A Ln H. destruct (sign_success_spec _ _ _ _ _ _ _ _ _ _ _ _ _ C P A H) as (sg & room & R & L & _ & _ & En).
  assert (Ct : match q_ct_uint q with Some n => n < 65536 | None => True end).
  { destruct C as (_ & _ & _ & _ & C & _). destruct (q_ct_uint q); [apply C|exact I]. }
  exists sg. cbv zeta. rewrite made_encode. split; [exact R|]. split; [lia|].
  split; [rewrite <- made_encode; apply made_reads; [exact En|exact Ct|rewrite made_encode; lia]|]. now split.
Qed.

Theorem made_shortest c cr q me det payload aad pl ad n log me' m t b :
  configured q me -> holds payload pl -> holds aad ad -> n < 2 ^ 64 ->
  sign_aad_internal c cr me det payload aad {| wb_null := false; wb_len := n |} = (log, Ret (T_SUCCESS, me', Some (UBuf m))) ->
  reads 0 t m -> reads 0 t b -> (length m <= length b)%nat.
Proof.
  intros C P A Ln H T B. destruct (made_success _ _ _ _ _ _ _ _ _ _ _ _ _ C P A Ln H) as (sg & E & _ & R & _).
  injection E as ->. destruct (reads_unique _ _ _ _ _ _ [] [] T R eq_refl) as (-> & _ & _).
  exact (proj1 encode_least_mut _ _ _ B (made_few _ _ _ _)).
Qed.

(** ** Deterministic *)

Lemma det_int z : (- 2 ^ 63 <= z < 2 ^ 63)%Z -> deterministic (CInt z) (encode (CInt z)).
Proof.
  intro H. unfold CInt. change (2 ^ 63)%Z with 9223372036854775808%Z in H.
  destruct (Z.ltb_spec z 0); cbn [encode]; constructor; apply shortest_short; change (2 ^ 64) with 18446744073709551616; lia.
Qed.
Lemma det_bytes b : blen b < 2 ^ 64 -> deterministic (CBytes b) (encode (CBytes b)).
Proof. intro H. cbn [encode]. constructor. now apply shortest_short. Qed.
Lemma det_text b : blen b < 2 ^ 64 -> deterministic (CText b) (encode (CText b)).
Proof. intro H. cbn [encode]. constructor. now apply shortest_short. Qed.
Lemma det_uint n : n < 2 ^ 64 -> deterministic (CUInt n) (encode (CUInt n)).
Proof. intro H. cbn [encode]. constructor. now apply shortest_short. Qed.
Lemma det_all l : Forall (fun x => deterministic x (encode x)) l -> deterministic_all l (flat_map encode l).
Proof. induction 1; cbn [flat_map]; constructor; assumption. Qed.
Lemma det_array l : blen l < 2 ^ 64 -> Forall (fun x => deterministic x (encode x)) l -> deterministic (CArray l) (encode (CArray l)).
Proof. intros L F. cbn [encode]. constructor; [now apply shortest_short|now apply det_all]. Qed.
Lemma det_map1 k v : deterministic k (encode k) -> deterministic v (encode v) -> deterministic (CMap [(k, v)]) (encode (CMap [(k, v)])).
Proof.
  intros K V. cbn [encode flat_map fst snd]. rewrite <- app_assoc. apply dt_map with (ks := [encode k]).
  - apply shortest_short. now compute.
  - constructor; [exact K|exact V|constructor].
  - repeat constructor.
Qed.
Lemma det_map0 : deterministic (CMap []) (encode (CMap [])).
Proof.
  change (encode (CMap [])) with (short_head 5 0 ++ []). apply dt_map with (ks := []); [apply shortest_short; now compute|constructor|constructor].
Qed.

Lemma det_protected alg : (- 2 ^ 63 <= alg < 2 ^ 63)%Z -> deterministic (CMap [(CInt 1, CInt alg)]) (protected_header alg).
Proof. intro H. unfold protected_header. apply det_map1; apply det_int; lia. Qed.

Theorem det_sig_structure p a m : blen p < 2 ^ 64 -> blen a < 2 ^ 64 -> blen m < 2 ^ 64 ->
  deterministic (sig_item p a m) (sig_structure p a m).
Proof.
  intros. unfold sig_structure, sig_item. apply det_array; [now compute|].
  constructor; [apply det_text; now compute|]. repeat (constructor; [now apply det_bytes|]). constructor.
Qed.

(** The keys of the unprotected parameters. *)
Lemma shortest_small mt n h : n < 24 -> shortest mt n h -> h = [initial mt n].
Proof.
  intros L (H & M). specialize (M _ (head0 mt n L)). cbn [length] in M.
  destruct H as [Q|Q|Q|Q|Q]; cbn [length] in M; rewrite ?big_endian_length in M; try lia. reflexivity.
Qed.

Lemma not_sorted v w b : deterministic (CMap [(CInt 4, v); (CInt 3, w)]) b -> False.
Proof.
  intro H. inversion H as [| | | | |l h ks b' Hh Hp S| | |]; subst. inversion Hp as [|k x l bk bv ks' bs K V R]; subst.
  inversion R as [|k x l bk2 bv2 ks2 bs2 K2 V2 R2]; subst. inversion S as [|x l SS HD]; subst. inversion HD as [|y l LT]; subst.
  change (CInt 4) with (CUInt 4) in K. change (CInt 3) with (CUInt 3) in K2.
  inversion K as [n h' M| | | | | | | |]; subst. inversion K2 as [n h' M2| | | | | | | |]; subst.
  apply shortest_small in M; [|lia]. apply shortest_small in M2; [|lia]. subst.
  inversion LT as [|a b x y C|]; subst. vm_compute in C. discriminate.
Qed.

Theorem made_deterministic c cr q me det payload aad pl ad n log me' m :
  configured q me -> holds payload pl -> holds aad ad -> n < 2 ^ 64 ->
  sign_aad_internal c cr me det payload aad {| wb_null := false; wb_len := n |} = (log, Ret (T_SUCCESS, me', Some (UBuf m))) ->
  ((exists t, reads 0 t m /\ deterministic t m) <-> requested_kid q = [] \/ requested_ct c q = CtNone).
Proof.
  intros C P A Ln H. destruct (made_success _ _ _ _ _ _ _ _ _ _ _ _ _ C P A Ln H) as (sg & E & L & R & En & Ct).
  injection E as ->. set (pay := if det then None else Some pl) in *. split.
  - intros (t & T & D). destruct (reads_unique _ _ _ _ _ _ [] [] T R eq_refl) as (-> & _ & _). clear T.
    destruct (requested_kid q) as [|x k] eqn:K; [now left|]. destruct (requested_ct c q) as [|j|s] eqn:G; [now right| |]; exfalso;
      unfold made in D; rewrite K, G in D;
      assert (Z : exists h b, deterministic (CArray [CBytes (protected_header (q_alg q)); unprotected_header (x :: k) (requested_ct c q); match pay with Some p => CBytes p | None => CNull end; CBytes sg]) (h ++ b))
        by (rewrite G; destruct (wants_tag (q_flags q)); [inversion D; subst; exists []; eauto|exists []; eauto]);
      destruct Z as (h & b & Z); rewrite G in Z; inversion Z as [| | | |l h' b' Hh Al Eb| | | |]; subst;
      inversion Al as [|y l b1 bs D1 Al1]; subst; inversion Al1 as [|y l b2 bs2 D2 Al2]; subst; exact (not_sorted _ _ _ D2).
  - intro O. exists (made c q pay sg). split; [exact R|]. destruct (made_parts _ _ _ _ L) as (Lk & Lt & Lp & Ls).
    assert (Du : deterministic (unprotected_header (requested_kid q) (requested_ct c q)) (encode (unprotected_header (requested_kid q) (requested_ct c q)))).
    { unfold unprotected_header. destruct (requested_kid q) as [|x k] eqn:K; destruct (requested_ct c q) as [|j|s] eqn:G;
        try (destruct O; discriminate); cbn [app]; [apply det_map0| | |]; apply det_map1; try (apply det_int; lia).
      - apply det_uint. pose proof (ct_range _ _ _ Ct G). change (2 ^ 64) with 18446744073709551616. lia.
      - apply det_text. now apply Lt.
      - now apply det_bytes. }
    clear O R L. unfold made. match goal with |- context [CTag 18 ?x] => set (a := x) end.
    assert (Da : deterministic a (encode a)).
    { unfold a. apply det_array; [now compute|]. constructor; [|constructor; [exact Du|constructor; [|constructor; [|constructor]]]].
      - apply det_bytes. pose proof (protected_header_len (q_alg q)). change (2 ^ 64) with 18446744073709551616. lia.
      - destruct pay as [p|]; [apply det_bytes; auto|]. change (encode CNull) with [initial 7 22]. apply dt_simple. lia.
      - now apply det_bytes. }
    destruct (wants_tag (q_flags q)); [|exact Da]. cbn [encode]. constructor; [|exact Da]. apply shortest_short. now compute.
Qed.

(** What is given to the adapter to be hashed or signed. *)
Theorem signed_deterministic c cr q me det payload aad pl ad buf log r :
  configured q me -> holds payload pl -> holds aad ad -> wb_null buf = false ->
  (- 2 ^ 31 <= q_alg q < 2 ^ 31)%Z -> blen ad < 2 ^ 64 -> blen pl < 2 ^ 64 ->
  sign_aad_internal c cr me det payload aad buf = (log, r) ->
  exists prot, deterministic (CMap [(CInt 1, CInt (q_alg q))]) prot /\
    let t := sig_item prot ad pl in
    (In EvHashFinish log -> deterministic t (hashed log)) /\ (forall k s, In (EvSignEddsa k s) log -> deterministic t s).
Proof.
  intros C P A B R La Lp H. destruct (sign_events _ _ _ _ _ _ _ _ _ _ _ _ C P A H) as (Ev & Hs).
  exists (protected_header (q_alg q)). split; [apply det_protected; lia|]. cbv zeta.
  assert (D : deterministic (sig_item (protected_header (q_alg q)) ad pl) (requested_tbs q ad pl)).
  { apply det_sig_structure; [|exact La|exact Lp]. pose proof (protected_header_len (q_alg q)). change (2 ^ 64) with 18446744073709551616. lia. }
  split.
  - intro I. now rewrite (Hs B I).
  - intros k s I. destruct (Ev _ I) as (_ & _ & ->). exact D.
Qed.
