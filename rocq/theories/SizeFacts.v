(** C70: facts about sizes. *)
From Coq Require Import Lia ZifyBool ZifyNat ZifyN.
From Verif Require Import Base BaseFacts Const QEnc Crypto Sign Spec SignSpec SignErrorSpec LiveSpec LiveFacts SizeSpec SignFacts SignProofs SignErrorFacts.
From Coq Require Import String.
Open Scope string_scope. Open Scope list_scope.
Open Scope N_scope. Open Scope list_scope.

Lemma head_len mt n : blen (short_head mt n) = head_bytes n.
Proof. unfold short_head, head_bytes. change (2^8) with 256. change (2^16) with 65536. change (2^32) with 4294967296.
  destruct (n <? 24), (n <? 256), (n <? 65536), (n <? 4294967296); reflexivity. Qed.

Lemma string_len b : blen (encode (CBytes b)) = string_bytes (blen b).
Proof. cbn [encode]. rewrite blen_app, head_len. reflexivity. Qed.
Lemma text_len b : blen (encode (CText b)) = string_bytes (blen b).
Proof. cbn [encode]. rewrite blen_app, head_len. reflexivity. Qed.

Lemma protected_len c alg : enabled c alg -> blen (protected_header alg) = protected_bytes alg.
Proof.
  intros [->|[[-> _]|[[-> _]|[[-> _]|[[-> _]|[[-> _]|[-> _]]]]]]]; reflexivity.
Qed.

Lemma tagged_len (t : bool) a : blen (encode (if t then CTag 18 a else a)) = (if t then 1 else 0) + blen (encode a).
Proof. destruct t; [|lia]. cbn [encode]. rewrite blen_app. reflexivity. Qed.

Lemma array4_len a b c d : blen (encode (CArray [a; b; c; d])) = 1 + blen (encode a) + blen (encode b) + blen (encode c) + blen (encode d).
Proof.
  replace (encode (CArray [a; b; c; d])) with (short_head 4 4 ++ encode a ++ encode b ++ encode c ++ encode d ++ []) by reflexivity.
  rewrite !blen_app, head_len. change (head_bytes 4) with 1. change (blen (@nil byte)) with 0. lia.
Qed.

Lemma unprotected_len kid ct : blen (encode (unprotected_header kid ct)) =
  1 + (if blen kid =? 0 then 0 else 1 + string_bytes (blen kid)) +
  match ct with CtNone => 0 | CtUInt k => 1 + head_bytes k | CtText s => 1 + string_bytes (blen s) end.
Proof.
  assert (P : forall l : list (cbor * cbor), blen l < 24 -> blen (encode (CMap l)) = 1 + blen (flat_map (fun kv => encode (fst kv) ++ encode (snd kv)) l)).
  { intros l L. cbn [encode]. rewrite blen_app, head_len. unfold head_bytes. destruct (N.ltb_spec (blen l) 24); lia. }
  assert (K : forall v l, blen (flat_map (fun kv : cbor * cbor => encode (fst kv) ++ encode (snd kv)) ((CInt 4, v) :: l)) =
    1 + blen (encode v) + blen (flat_map (fun kv => encode (fst kv) ++ encode (snd kv)) l)).
  { intros v l. cbn [flat_map fst snd]. rewrite !blen_app. change (blen (encode (CInt 4))) with 1. lia. }
  assert (T : forall v, blen (flat_map (fun kv : cbor * cbor => encode (fst kv) ++ encode (snd kv)) [(CInt 3, v)]) = 1 + blen (encode v)).
  { intros v. cbn [flat_map fst snd]. rewrite app_nil_r, !blen_app. change (blen (encode (CInt 3))) with 1. lia. }
  assert (U : forall k, blen (encode (CUInt k)) = head_bytes k) by (intros; cbn [encode]; apply head_len).
  unfold unprotected_header. rewrite P by (destruct kid, ct; cbn; lia).
  destruct kid as [|x kid].
  - change (blen (@nil byte) =? 0) with true. cbv iota. destruct ct; cbn [app].
    + reflexivity.
    + rewrite T, U. lia.
    + rewrite T, text_len. lia.
  - assert (B : (blen (x :: kid) =? 0) = false) by (apply N.eqb_neq; unfold blen; cbn [List.length]; lia). rewrite B. cbn [app].
    destruct ct; cbn [app]; rewrite K, string_len.
    + change (blen (flat_map _ [])) with 0. lia.
    + rewrite T, U. lia.
    + rewrite T, text_len. lia.
Qed.

Lemma protected_bytes_small alg : head_bytes (protected_bytes alg) = 1.
Proof. unfold protected_bytes. destruct (_ || _)%bool; reflexivity. Qed.

Lemma counted_ok c q op sig : enabled c (q_alg q) ->
  blen (requested_message c q op sig) = counted_size c q op (blen sig).
Proof.
  intros E. unfold requested_message, cose_sign1, counted_size.
  rewrite tagged_len, array4_len, unprotected_len, !string_len, (protected_len c _ E).
  unfold string_bytes at 1. rewrite protected_bytes_small.
  destruct op as [p|]; [rewrite string_len|change (blen (encode CNull)) with 1]; lia.
Qed.

Lemma counted_aux_ok c q ad pl : enabled c (q_alg q) -> blen (requested_tbs q ad pl) = counted_aux q ad pl.
Proof.
  intros E. unfold requested_tbs, sig_structure, counted_aux.
  rewrite array4_len, !string_len, text_len, (protected_len c _ E).
  change (string_bytes (blen (text "Signature1"))) with 11. unfold string_bytes at 1. rewrite protected_bytes_small. lia.
Qed.

Lemma head_bytes_bound n : 1 <= head_bytes n <= 9 /\ (n < 4294967296 -> head_bytes n <= 5) /\ (n < 65536 -> head_bytes n <= 3).
Proof. unfold head_bytes. destruct (N.ltb_spec n 24), (N.ltb_spec n 256), (N.ltb_spec n 65536), (N.ltb_spec n 4294967296); lia. Qed.

Lemma protected_bytes_bound alg : 3 <= protected_bytes alg <= 4.
Proof. unfold protected_bytes. destruct (_ || _)%bool; lia. Qed.

(** At most 30 bytes of formatting, unless some part has 4 GB. *)
Lemma overhead c q op n : carried c q op n < 4294967296 ->
  (forall k, requested_ct c q = CtUInt k -> k < 65536) ->
  carried c q op n < counted_size c q op n <= carried c q op n + 30.
Proof.
  intros L K. unfold carried, counted_size in *.
  pose proof (protected_bytes_bound (q_alg q)) as P.
  pose proof (head_bytes_bound n) as (N1 & N2 & _).
  pose proof (head_bytes_bound (blen (requested_kid q))) as (K1 & K2 & _).
  assert (T : (if wants_tag (q_flags q) then 1 else 0) <= 1) by (destruct (wants_tag _); lia).
  unfold string_bytes.
  assert (KK : (if blen (requested_kid q) =? 0 then 0 else 1 + (head_bytes (blen (requested_kid q)) + blen (requested_kid q))) <= blen (requested_kid q) + 6
     /\ blen (requested_kid q) <= (if blen (requested_kid q) =? 0 then 0 else 1 + (head_bytes (blen (requested_kid q)) + blen (requested_kid q)))).
  { destruct (N.eqb_spec (blen (requested_kid q)) 0); lia. }
  set (kk := if blen (requested_kid q) =? 0 then _ else _) in *.
  set (tt := if wants_tag (q_flags q) then 1 else 0) in *. clearbody kk tt.
  assert (CC : match requested_ct c q with CtText s => blen s | _ => 0 end <=
      match requested_ct c q with CtNone => 0 | CtUInt k => 1 + head_bytes k | CtText s => 1 + (head_bytes (blen s) + blen s) end
      <= match requested_ct c q with CtText s => blen s | _ => 0 end + 6).
  { destruct (requested_ct c q) as [|k|s]; [lia| |].
    - pose proof (head_bytes_bound k) as (? & ? & ?). specialize (K k eq_refl). lia.
    - pose proof (head_bytes_bound (blen s)) as (? & ? & ?). lia. }
  set (c1 := match requested_ct c q with CtText s => blen s | _ => 0 end) in *.
  set (c2 := match requested_ct c q with CtNone => 0 | CtUInt k => _ | CtText s => _ end) in *. clearbody c1 c2. clear K.
  destruct op as [p|]; [pose proof (head_bytes_bound (blen p)) as (? & ? & _)|]; lia.
Qed.

Lemma aux_overhead q ad pl : counted_aux q ad pl <= blen ad + blen pl + 35.
Proof.
  unfold counted_aux, string_bytes. pose proof (protected_bytes_bound (q_alg q)).
  pose proof (head_bytes_bound (blen ad)) as (? & _). pose proof (head_bytes_bound (blen pl)) as (? & _). lia.
Qed.

Lemma ct_range c q me k : configured q me -> requested_ct c q = CtUInt k -> k < 65536.
Proof.
  intros (_ & _ & _ & _ & U & _) R. unfold requested_ct in R. destruct (dis_content_type c); [discriminate|].
  destruct (q_ct_text q); [discriminate|]. destruct (q_ct_uint q); [|discriminate]. injection R as <-. apply U.
Qed.

(** ** Signing *)

Lemma made_size c cr q me det payload aad pl ad n log me' r :
  configured q me -> holds payload pl -> holds aad ad ->
  sign_aad_internal c cr me det payload aad {| wb_null := false; wb_len := n |} = (log, Ret (T_SUCCESS, me', r)) ->
  let op := if det then None else Some pl in
  exists m sig, r = Some (UBuf m) /\ m = requested_message c q op sig /\ blen m = counted_size c q op (blen sig) /\
    (n < 4294967296 -> blen m <= carried c q op (blen sig) + 30).
Proof.
  intros C P A S op. destruct (sign_success_spec _ _ _ _ _ _ _ _ _ _ _ _ _ C P A S) as (sg & room & R & L & _ & _ & E).
  fold op in R, L. exists (requested_message c q op sg), sg. split; [exact R|]. split; [reflexivity|].
  pose proof (counted_ok c q op sg E) as X. split; [exact X|]. intros N4.
  enough (carried c q op (blen sg) < 4294967296) by (rewrite X; apply overhead; [assumption|intros; now apply (ct_range c q me)]).
  enough (carried c q op (blen sg) <= counted_size c q op (blen sg)) by lia.
  clear. unfold carried, counted_size, string_bytes.
  destruct (N.eqb_spec (blen (requested_kid q)) 0); destruct (requested_ct c q); destruct op; lia.
Qed.

Lemma some_bytes_size n : blen (some_bytes n) = n.
Proof. apply some_bytes_len. Qed.

(** 30 bytes more than the data are enough. *)
Lemma enough_room c cr q me (det : bool) payload aad pl ad n room :
  configured q me -> holds payload pl -> holds aad ad -> (det = true -> u_is_null payload = false) ->
  faultless c q -> signer_works c cr q [ad; pl] n ->
  (plain_eddsa q -> wb_null (q_aux q) = false /\ blen ad + blen pl + 35 <= wb_len (q_aux q)) ->
  let op := if det then None else Some pl in
  carried c q op n + 30 <= room -> room <= MAX_OFFSET ->
  exists log me' m, sign_aad_internal c cr me det payload aad {| wb_null := false; wb_len := room |}
    = (log, Ret (T_SUCCESS, me', Some (UBuf m))).
Proof.
  intros C P A D F W X op R M. pose proof (proj1 F) as E.
  pose proof (overhead c q op n) as O.
  assert (CT : forall k, requested_ct c q = CtUInt k -> k < 65536) by (intros; now apply (ct_range c q me)).
  specialize (O ltac:(unfold MAX_OFFSET in M; lia) CT).
  pose proof (overhead c q op 0) as O0.
  assert (L0 : carried c q op 0 <= carried c q op n) by (unfold carried; destruct op; lia).
  specialize (O0 ltac:(unfold MAX_OFFSET in M; lia) CT).
  destruct (signing_succeeds c cr q me det payload aad pl ad n room C P A D F W) as (log & me' & sg & S & _).
  - intros Y. destruct (X Y) as [X1 X2]. split; [exact X1|]. rewrite (counted_aux_ok c _ _ _ E). pose proof (aux_overhead q ad pl). lia.
  - fold op. rewrite (counted_ok c q op [] E). change (blen []) with 0. lia.
  - fold op. unfold message_size. rewrite (counted_ok c q op _ E), some_bytes_size. lia.
  - fold op in S. eauto.
Qed.

(** The overhead that t_cose_sign1_sign.h gives for ES256 with a kid of 32 bytes. *)
Lemma enough_es256 c cr q me payload aad pl ad room :
  configured q me -> holds payload pl -> holds aad ad -> q_alg q = (-7)%Z -> blen (requested_kid q) <= 32 ->
  q_ct_text q = None -> faultless c q -> signer_works c cr q [ad; pl] 64 ->
  blen pl + 150 <= room -> room <= MAX_OFFSET ->
  exists log me' m, sign_aad_internal c cr me false payload aad {| wb_null := false; wb_len := room |}
    = (log, Ret (T_SUCCESS, me', Some (UBuf m))).
Proof.
  intros C P A AL K T F W R M. apply (enough_room c cr q me false payload aad pl ad 64 room); try assumption.
  - discriminate.
  - intros [_ Y]. congruence.
  - unfold carried. assert (Z : match requested_ct c q with CtText s => blen s | _ => 0 end = 0).
    { unfold requested_ct. rewrite T. destruct (dis_content_type c); [reflexivity|]. destruct (q_ct_uint q); reflexivity. }
    rewrite Z. lia.
Qed.

(** Measuring gives the counted sizes. *)
Lemma measured_size c cr q me (det : bool) payload aad (pl ad : bytes) n room :
  configured q me -> u_len payload = blen pl -> u_len aad = blen ad -> (det = true -> u_is_null payload = false) ->
  faultless c q -> signer_works c cr q [ad; pl] n ->
  (plain_eddsa q -> counted_aux q ad pl <= wb_len (q_aux q)) ->
  let op := if det then None else Some pl in
  counted_size c q op n <= room -> room <= MAX_OFFSET ->
  exists log me', sign_aad_internal c cr me det payload aad {| wb_null := true; wb_len := room |}
    = (log, Ret (T_SUCCESS, me', Some (UNull (counted_size c q op n)))) /\
    (plain_eddsa q -> sign_auxiliary_buffer_size c me' = counted_aux q ad pl).
Proof.
  intros C P A D F W X op R M. pose proof (proj1 F) as E.
  assert (MS : message_size c q op n = counted_size c q op n) by (unfold message_size; now rewrite (counted_ok c q op _ E), some_bytes_size).
  destruct (measuring_succeeds c cr q me det payload aad pl ad n room C P A D F W) as (log & me' & S & _ & AX).
  - intros Y. rewrite (counted_aux_ok c _ _ _ E). now apply X.
  - fold op. rewrite (counted_ok c q op [] E). change (blen (@nil byte)) with 0.
    enough (counted_size c q op 0 <= counted_size c q op n) by lia.
    clear. unfold counted_size, string_bytes. pose proof (head_bytes_bound n) as (? & _). change (head_bytes 0) with 1. lia.
  - fold op. lia.
  - fold op in S. rewrite MS in S. exists log, me'. split; [exact S|]. intros Y. rewrite (AX Y). apply (counted_aux_ok c); assumption.
Qed.
