(** The bundled SHA-256 computes SHA-256. *)
From Verif Require Import Base Const Params Sha256 Sha256Spec BaseFacts.
From Coq Require Import Lia ZifyBool ZifyNat ZifyN.
Ltac Zify.zify_post_hook ::= Z.div_mod_to_equations.
Open Scope N_scope. Open Scope list_scope.

Lemma k_table_spec : k_table = sha_K.
Proof. vm_compute. reflexivity. Qed.
Lemma init_state_spec junk : h_state (sha256_init junk) = sha_H0.
Proof. vm_compute. reflexivity. Qed.

(** ** Arrays *)

Lemma arr_set_app {A} (a : list A) x r y : arr_set (a ++ x :: r) (length a) y = Ret (a ++ y :: r).
Proof. induction a as [|z a IH]; [reflexivity|]. cbn [app length arr_set]. rewrite IH. reflexivity. Qed.

Lemma arr_set_app_r {A} (a l : list A) j y : arr_set (a ++ l) (length a + j) y = obind (arr_set l j y) (fun l' => Ret (a ++ l')).
Proof.
  induction a as [|z a IH]; cbn [app length Nat.add arr_set]; [destruct (arr_set l j y); reflexivity|].
  rewrite IH. destruct (arr_set l j y); reflexivity.
Qed.

Lemma arr_get_app {A} (a : list A) x r : arr_get (a ++ x :: r) (length a) = Ret x.
Proof. unfold arr_get. rewrite nth_error_app2 by lia. rewrite PeanoNat.Nat.sub_diag. reflexivity. Qed.

Lemma arr_get_nth {A} (l : list A) i d : (i < length l)%nat -> arr_get l i = Ret (nth i l d).
Proof. intro H. unfold arr_get. rewrite (nth_error_nth' l d H). reflexivity. Qed.

Lemma fill_loop {A} (x : A) n : forall a junk r, length junk = n ->
  oloop n (length a) (fun i d => arr_set d i x) (a ++ junk ++ r) = Ret (a ++ repeat x n ++ r).
Proof.
  induction n as [|n IH]; intros a junk r L.
  - destruct junk; [|discriminate]. reflexivity.
  - destruct junk as [|y junk]; [discriminate|]. cbn [oloop]. rewrite <- app_comm_cons, arr_set_app. cbn [obind].
    replace (a ++ x :: junk ++ r) with ((a ++ [x]) ++ junk ++ r) by (now rewrite <- app_assoc).
    replace (S (length a)) with (length (a ++ [x])) by (rewrite app_length; cbn; lia).
    rewrite IH by (cbn in L; lia). rewrite <- app_assoc. reflexivity.
Qed.

(** ** Words *)

Lemma lor_add a n b : b < 2 ^ n -> N.lor (N.shiftl a n) b = a * 2 ^ n + b.
Proof.
  intro H. rewrite <- N.shiftl_mul_pow2. symmetry.
  assert (E : N.land (N.shiftl a n) b = 0).
  { apply N.bits_inj. intro m. rewrite N.land_spec, N.bits_0. destruct (N.lt_ge_cases m n) as [L|L].
    - now rewrite N.shiftl_spec_low.
    - rewrite <- (N.mod_small b (2 ^ n)) by exact H. rewrite N.mod_pow2_bits_high by exact L. apply andb_false_r. }
  rewrite N.add_nocarry_lxor by exact E. now apply N.lxor_lor.
Qed.

Lemma word_value (b0 b1 b2 b3 : byte) :
  N.lor (N.lor (N.lor (N.shiftl (Byte.to_N b0) 24) (N.shiftl (Byte.to_N b1) 16)) (N.shiftl (Byte.to_N b2) 8)) (Byte.to_N b3)
  = Byte.to_N b0 * 2 ^ 24 + Byte.to_N b1 * 2 ^ 16 + Byte.to_N b2 * 2 ^ 8 + Byte.to_N b3.
Proof.
  pose proof (Byte.to_N_bounded b0). pose proof (Byte.to_N_bounded b1).
  pose proof (Byte.to_N_bounded b2). pose proof (Byte.to_N_bounded b3).
  rewrite <- !N.lor_assoc.
  assert (E2 : N.lor (N.shiftl (Byte.to_N b2) 8) (Byte.to_N b3) = Byte.to_N b2 * 2 ^ 8 + Byte.to_N b3)
    by (apply lor_add; change (2 ^ 8) with 256; lia).
  rewrite E2.
  assert (E1 : N.lor (N.shiftl (Byte.to_N b1) 16) (Byte.to_N b2 * 2 ^ 8 + Byte.to_N b3) = Byte.to_N b1 * 2 ^ 16 + (Byte.to_N b2 * 2 ^ 8 + Byte.to_N b3))
    by (apply lor_add; change (2 ^ 8) with 256; change (2 ^ 16) with 65536; lia).
  rewrite E1. rewrite lor_add by (change (2 ^ 8) with 256; change (2 ^ 16) with 65536; change (2 ^ 24) with 16777216; lia).
  lia.
Qed.

Lemma load_word_spec a b0 b1 b2 b3 r :
  load_word true (a ++ b0 :: b1 :: b2 :: b3 :: r) (length a) =
  Ret (Byte.to_N b0 * 2 ^ 24 + Byte.to_N b1 * 2 ^ 16 + Byte.to_N b2 * 2 ^ 8 + Byte.to_N b3).
Proof.
  unfold load_word, arr_get. rewrite !nth_error_app2 by lia.
  replace (length a - length a)%nat with 0%nat by lia. replace (length a + 1 - length a)%nat with 1%nat by lia.
  replace (length a + 2 - length a)%nat with 2%nat by lia. replace (length a + 3 - length a)%nat with 3%nat by lia.
  cbn [nth_error obind shl24 negb andb]. now rewrite word_value.
Qed.

Lemma words_app n : forall a b, length a = (4 * n)%nat -> words (a ++ b) = words a ++ words b.
Proof.
  induction n as [|n IH]; intros a b L.
  - destruct a; [reflexivity|discriminate].
  - destruct a as [|b0 [|b1 [|b2 [|b3 a]]]]; cbn [length] in L; try lia. cbn [app words]. rewrite IH by lia. reflexivity.
Qed.

Lemma words_length n : forall b, length b = (4 * n)%nat -> length (words b) = n.
Proof.
  induction n as [|n IH]; intros b L.
  - destruct b; [reflexivity|discriminate].
  - destruct b as [|b0 [|b1 [|b2 [|b3 b]]]]; cbn [length] in L; try lia. cbn [words length]. now rewrite IH by lia.
Qed.

Lemma load_loop n : forall a b r, length a = (4 * length (words a))%nat -> length b = (4 * n)%nat -> length r = n ->
  forall (tail : list (option N)),
  oloop n (length (words a)) (fun i m => obind (load_word true (a ++ b) (4 * i)) (fun w => arr_set m i (Some w)))
    (map Some (words a) ++ r ++ tail) = Ret (map Some (words (a ++ b)) ++ tail).
Proof.
  induction n as [|n IH]; intros a b r La Lb Lr tail.
  - destruct b, r; try discriminate. cbn [oloop app]. now rewrite app_nil_r.
  - destruct b as [|b0 [|b1 [|b2 [|b3 b]]]]; cbn [length] in Lb; try lia. destruct r as [|x r]; [discriminate|].
    cbn [oloop]. rewrite <- La at 1. rewrite load_word_spec. cbn [obind].
    assert (E : forall y, arr_set (map Some (words a) ++ (x :: r) ++ tail) (length (words a)) y = Ret (map Some (words a) ++ y :: r ++ tail)).
    { intro y. rewrite <- app_comm_cons. rewrite <- (arr_set_app _ x). now rewrite map_length. }
    rewrite E. cbn [obind].
    set (v := Byte.to_N b0 * 2 ^ 24 + Byte.to_N b1 * 2 ^ 16 + Byte.to_N b2 * 2 ^ 8 + Byte.to_N b3).
    assert (W : words (a ++ [b0; b1; b2; b3]) = words a ++ [v]) by (rewrite (words_app (length (words a))) by exact La; reflexivity).
    specialize (IH (a ++ [b0; b1; b2; b3]) b r).
    replace (a ++ b0 :: b1 :: b2 :: b3 :: b) with ((a ++ [b0; b1; b2; b3]) ++ b) by (now rewrite <- app_assoc).
    replace (S (length (words a))) with (length (words (a ++ [b0; b1; b2; b3]))) by (rewrite W, app_length; cbn; lia).
    replace (map Some (words a) ++ Some v :: r ++ tail) with (map Some (words (a ++ [b0; b1; b2; b3])) ++ r ++ tail)
      by (rewrite W, map_app, <- app_assoc; reflexivity).
    apply IH; [|lia|cbn in Lr; lia]. rewrite W, !app_length. cbn [length]. lia.
Qed.

Lemma wadd_add32 a b : wadd a b = add32 [a; b].
Proof. unfold wadd, w32, add32. cbn [fold_right]. now rewrite N.add_0_r. Qed.

Lemma wadd4 a b c d : wadd (wadd (wadd a b) c) d = add32 [a; b; c; d].
Proof.
  unfold wadd, w32, add32. cbn [fold_right]. change (2 ^ 32) with 4294967296.
  repeat (rewrite N.add_mod_idemp_l by discriminate; rewrite <- ?N.add_assoc). f_equal. lia.
Qed.
Lemma wadd5 a b c d e : wadd (wadd (wadd (wadd a b) c) d) e = add32 [a; b; c; d; e].
Proof.
  unfold wadd, w32, add32. cbn [fold_right]. change (2 ^ 32) with 4294967296.
  repeat (rewrite N.add_mod_idemp_l by discriminate; rewrite <- ?N.add_assoc). f_equal. lia.
Qed.

Lemma init_get_spec w r i : (i < length w)%nat -> init_get (map Some w ++ r) i = Ret (nth i w 0).
Proof.
  intro L. unfold init_get. rewrite (arr_get_nth _ _ None) by (rewrite app_length, map_length; lia). cbn [obind].
  rewrite app_nth1 by (rewrite map_length; lia). rewrite (nth_indep _ None (Some 0)) by (rewrite map_length; lia).
  rewrite (map_nth Some). reflexivity.
Qed.

Lemma extend_loop n : forall w r tail, (16 <= length w)%nat -> length r = n ->
  oloop n (length w) (fun i m =>
    obind (init_get m (i - 2)) (fun m2 => obind (init_get m (i - 7)) (fun m7 =>
    obind (init_get m (i - 15)) (fun m15 => obind (init_get m (i - 16)) (fun m16 =>
    arr_set m i (Some (wadd (wadd (wadd (SIG1 m2) m7) (SIG0 m15)) m16)))))))
    (map Some w ++ r ++ tail) = Ret (map Some (extend n w) ++ tail).
Proof.
  induction n as [|n IH]; intros w r tail L Lr.
  - destruct r; [|discriminate]. reflexivity.
  - destruct r as [|x r]; [discriminate|]. cbn [oloop extend].
    rewrite !init_get_spec by lia. cbn [obind]. rewrite wadd4.
    change (add32 [SIG1 (nth (length w - 2) w 0); nth (length w - 7) w 0; SIG0 (nth (length w - 15) w 0); nth (length w - 16) w 0])
      with (next_word w).
    assert (E : forall y, arr_set (map Some w ++ (x :: r) ++ tail) (length w) y = Ret (map Some w ++ y :: r ++ tail)).
    { intro y. rewrite <- app_comm_cons. rewrite <- (arr_set_app _ x). now rewrite map_length. }
    rewrite E. cbn [obind].
    specialize (IH (w ++ [next_word w]) r tail). rewrite app_length in IH. cbn [length] in IH.
    replace (length w + 1)%nat with (S (length w)) in IH by lia. rewrite map_app, <- app_assoc in IH.
    apply IH; [lia|cbn in Lr; lia].
Qed.

Lemma extend_length n : forall w, length (extend n w) = (n + length w)%nat.
Proof. induction n as [|n IH]; intro w; [reflexivity|]. cbn [extend]. rewrite IH, app_length. cbn. lia. Qed.

Lemma message_array_spec data : length data = 64%nat ->
  message_array true data = Ret (map Some (schedule data)).
Proof.
  intro L. unfold message_array.
  pose proof (load_loop 16 [] data (repeat None 16) eq_refl L eq_refl (repeat None 48)) as E.
  cbn [words map app length] in E.
  change (repeat None 64) with (repeat (@None N) 16 ++ repeat None 48). rewrite E. cbn [obind].
  assert (W : length (words data) = 16%nat) by (apply words_length; lia).
  pose proof (extend_loop 48 (words data) (repeat None 48) []) as E2. rewrite W in E2.
  rewrite !app_nil_r in E2. rewrite E2; [|lia|reflexivity]. unfold schedule. reflexivity.
Qed.

(** ** Rounds *)

Lemma skipn_nth {A} (l : list A) i d : (i < length l)%nat -> skipn i l = nth i l d :: skipn (S i) l.
Proof.
  revert i. induction l as [|x l IH]; intros [|i] H; cbn [length] in H; try lia; [reflexivity|].
  cbn [skipn nth]. apply IH. lia.
Qed.

Lemma rounds_spec w n : forall i r, length w = 64%nat -> (i + n = 64)%nat ->
  oloop n i (round_body (map Some w)) r = Ret (fold_left hash_round (combine (skipn i k_table) (skipn i w)) r).
Proof.
  induction n as [|n IH]; intros i r L E.
  - rewrite (skipn_all2 k_table) by (cbn; lia). reflexivity.
  - cbn [oloop]. destruct r as [[[[[[[a b] c] d] e] f] g] h]. unfold round_body at 1.
    rewrite (arr_get_nth _ _ 0) by (cbn [length k_table]; lia). cbn [obind].
    rewrite <- (app_nil_r (map Some w)). rewrite init_get_spec by lia. cbn [obind]. rewrite app_nil_r.
    rewrite IH by (assumption || lia).
    rewrite (skipn_nth k_table i 0) by (cbn [length k_table]; lia). rewrite (skipn_nth w i 0) by lia.
    cbn [combine fold_left hash_round]. rewrite (wadd5 h), !wadd_add32. reflexivity.
Qed.

Definition with_state (ctx : sha_ctx) (s : list N) : sha_ctx :=
  {| h_data := h_data ctx; h_datalen := h_datalen ctx; h_bitlen := h_bitlen ctx; h_state := s |}.

Theorem transform_spec ctx data : length data = 64%nat -> length (h_state ctx) = 8%nat ->
  sha256_transform true ctx data = Ret (with_state ctx (compress (h_state ctx) data)).
Proof.
  intros L S. unfold sha256_transform. rewrite message_array_spec by exact L. cbn [obind].
  destruct (h_state ctx) as [|s0 [|s1 [|s2 [|s3 [|s4 [|s5 [|s6 [|s7 [|]]]]]]]]]; try discriminate.
  assert (W : length (schedule data) = 64%nat).
  { unfold schedule. rewrite extend_length, (words_length 16) by lia. lia. }
  rewrite rounds_spec by (exact W || lia). cbn [obind skipn].
  unfold compress. rewrite <- k_table_spec.
  destruct (fold_left hash_round (combine k_table (schedule data)) (s0, s1, s2, s3, s4, s5, s6, s7)) as [[[[[[[a b] c] d] e] f] g] h].
  unfold with_state. rewrite !wadd_add32. unfold add32. cbn [fold_right].
  rewrite !N.add_0_r. do 2 f_equal.
  rewrite (N.add_comm s0), (N.add_comm s1), (N.add_comm s2), (N.add_comm s3), (N.add_comm s4), (N.add_comm s5), (N.add_comm s6), (N.add_comm s7).
  reflexivity.
Qed.

Lemma compress_length hs b : length hs = 8%nat -> length (compress hs b) = 8%nat.
Proof.
  intro S. destruct hs as [|s0 [|s1 [|s2 [|s3 [|s4 [|s5 [|s6 [|s7 [|]]]]]]]]]; try discriminate. unfold compress.
  destruct (fold_left _ _ _) as [[[[[[[a b'] c] d] e] f] g] h]. reflexivity.
Qed.

(** ** The context after any amount of data *)

Lemma blocks_snoc q : forall full last, length full = (64 * q)%nat -> length last = 64%nat ->
  blocks (S q) (full ++ last) = blocks q full ++ [last].
Proof.
  induction q as [|q IH]; intros full last L1 L2.
  - destruct full; [|discriminate]. cbn [blocks app]. rewrite firstn_all2 by lia. reflexivity.
  - change (blocks (S (S q)) (full ++ last)) with (firstn 64 (full ++ last) :: blocks (S q) (skipn 64 (full ++ last))).
    rewrite firstn_app, skipn_app. replace (64 - length full)%nat with 0%nat by lia. rewrite firstn_O, skipn_O, app_nil_r.
    rewrite IH; [reflexivity| |exact L2]. rewrite skipn_length. lia.
Qed.

Lemma blocks_prefix q : forall full rest, length full = (64 * q)%nat -> blocks q (full ++ rest) = blocks q full.
Proof.
  induction q as [|q IH]; intros full rest L; [reflexivity|]. cbn [blocks].
  rewrite firstn_app, skipn_app. replace (64 - length full)%nat with 0%nat by lia. rewrite firstn_O, skipn_O, app_nil_r.
  rewrite IH; [reflexivity|]. rewrite skipn_length. lia.
Qed.

Lemma fold_compress_length bs : forall hs, length hs = 8%nat -> length (fold_left compress bs hs) = 8%nat.
Proof. induction bs as [|b bs IH]; intros hs H; [exact H|]. cbn [fold_left]. apply IH. now apply compress_length. Qed.

(** [ctx] has taken in [full ++ rest], [full] being [q] whole blocks. *)
Record absorbed (ctx : sha_ctx) (q : nat) (full rest : bytes) : Prop := {
  ab_full : length full = (64 * q)%nat;
  ab_rest : (length rest < 64)%nat;
  ab_len : h_datalen ctx = blen rest;
  ab_data : exists tail, h_data ctx = rest ++ tail /\ length (rest ++ tail) = 64%nat;
  ab_bits : h_bitlen ctx = (512 * N.of_nat q) mod 2 ^ 64;
  ab_state : h_state ctx = fold_left compress (blocks q full) sha_H0 }.

(** [ctx] has taken in [data]. *)
Definition has_absorbed (ctx : sha_ctx) (data : bytes) : Prop :=
  exists q full rest, data = full ++ rest /\ absorbed ctx q full rest.

Lemma init_absorbed junk : length junk = 64%nat -> has_absorbed (sha256_init junk) [].
Proof.
  intro L. exists 0%nat, [], []. split; [reflexivity|]. constructor; try reflexivity; [cbn; lia|]. exists junk. auto.
Qed.

(** The body of the loop of sha256_update. *)
Definition update_byte (ctx : sha_ctx) (b : byte) : out sha_ctx :=
  obind (arr_set (h_data ctx) (N.to_nat (h_datalen ctx)) b) (fun a =>
  let n := w32 (h_datalen ctx + 1) in
  let ctx := {| h_data := a; h_datalen := n; h_bitlen := h_bitlen ctx; h_state := h_state ctx |} in
  if n =? 64 then
    obind (sha256_transform true ctx (h_data ctx)) (fun ctx =>
    Ret {| h_data := h_data ctx; h_datalen := 0; h_bitlen := (h_bitlen ctx + 512) mod 2 ^ 64; h_state := h_state ctx |})
  else Ret ctx).

Lemma update_byte_absorbed ctx data b : has_absorbed ctx data -> exists ctx', update_byte ctx b = Ret ctx' /\ has_absorbed ctx' (data ++ [b]).
Proof.
  intros (q & full & rest & -> & [F R L (tail & D & T) B S]). unfold update_byte. rewrite D, L.
  destruct tail as [|x tail]; [rewrite app_nil_r in T; lia|].
  assert (X : N.to_nat (blen rest) = length rest) by (unfold blen; lia). rewrite X, arr_set_app. cbn [obind].
  assert (Wn : w32 (blen rest + 1) = blen rest + 1) by (unfold w32, blen; lia). rewrite Wn.
  assert (S8 : length (h_state ctx) = 8%nat) by (rewrite S; apply fold_compress_length; reflexivity).
  rewrite app_length in T. cbn [length] in T.
  destruct (N.eqb_spec (blen rest + 1) 64) as [E|E].
  - assert (tail = []) by (destruct tail; [reflexivity|cbn [length] in T; unfold blen in E; lia]). subst tail.
    cbn [h_data]. rewrite transform_spec; [|rewrite app_length; cbn [length]; lia|exact S8].
    cbn [obind with_state h_data h_bitlen h_state]. eexists. split; [reflexivity|].
    exists (Datatypes.S q), (full ++ rest ++ [b]), []. split; [now rewrite app_nil_r, <- app_assoc|].
    assert (Lr : length (rest ++ [b]) = 64%nat) by (rewrite app_length; cbn [length]; lia).
    constructor; cbn [h_data h_datalen h_bitlen h_state].
    + rewrite app_length, F, Lr. lia.
    + cbn. lia.
    + reflexivity.
    + exists (rest ++ [b]). auto.
    + rewrite B, N.add_mod_idemp_l by discriminate. f_equal. lia.
    + rewrite blocks_snoc by assumption. rewrite fold_left_app. cbn [fold_left]. now rewrite S.
  - eexists. split; [reflexivity|]. exists q, full, (rest ++ [b]). split; [now rewrite <- app_assoc|].
    constructor; cbn [h_data h_datalen h_bitlen h_state]; auto.
    + rewrite app_length. cbn [length]. unfold blen in E. lia.
    + unfold blen. rewrite app_length. cbn [length]. lia.
    + exists tail. split; [now rewrite <- app_assoc|]. rewrite !app_length. cbn [length]. lia.
Qed.

Lemma update_loop_step fuel i ctx data : i < blen data ->
  update_loop true (S fuel) i ctx data =
  obind (arr_get data (N.to_nat i)) (fun b => obind (update_byte ctx b) (fun ctx => update_loop true fuel (w32 (i + 1)) ctx data)).
Proof.
  intro L. cbn [update_loop]. destruct (N.ltb_spec i (blen data)); [|lia].
  destruct (arr_get data (N.to_nat i)) as [b|u]; cbn [obind]; [|reflexivity].
  unfold update_byte. destruct (arr_set (h_data ctx) (N.to_nat (h_datalen ctx)) b) as [a|u]; cbn [obind]; [|reflexivity].
  destruct (w32 (h_datalen ctx + 1) =? 64); reflexivity.
Qed.

Lemma update_loop_spec todo : forall done ctx D, has_absorbed ctx D -> blen (done ++ todo) < 2 ^ 32 ->
  exists ctx', update_loop true (S (length todo)) (blen done) ctx (done ++ todo) = Ret ctx' /\ has_absorbed ctx' (D ++ todo).
Proof.
  induction todo as [|b todo IH]; intros done ctx D A L.
  - exists ctx. rewrite !app_nil_r in *. cbn [length update_loop]. rewrite N.ltb_irrefl. auto.
  - cbn [length]. rewrite update_loop_step by (rewrite blen_app; unfold blen; cbn [length]; lia).
    replace (N.to_nat (blen done)) with (length done) by (unfold blen; lia). rewrite arr_get_app. cbn [obind].
    destruct (update_byte_absorbed ctx D b A) as (ctx1 & -> & A1). cbn [obind].
    destruct (IH (done ++ [b]) ctx1 (D ++ [b]) A1) as (ctx2 & E & A2).
    { rewrite <- app_assoc. exact L. }
    rewrite <- !app_assoc in E, A2. cbn [app] in E, A2. exists ctx2. split; [|exact A2].
    replace (w32 (blen done + 1)) with (blen (done ++ [b])); [exact E|].
    rewrite blen_app in *. unfold w32. change (blen [b]) with 1. change (2 ^ 32) with 4294967296 in L.
    assert (blen (b :: todo) = blen todo + 1) by (unfold blen; cbn [length]; lia). lia.
Qed.

Theorem update_spec ctx D data : has_absorbed ctx D -> blen data < 2 ^ 32 ->
  exists ctx', sha256_update true ctx data = Ret ctx' /\ has_absorbed ctx' (D ++ data).
Proof. intros A L. exact (update_loop_spec data [] ctx D A L). Qed.

(** With 2^32 bytes and more the loop never ends, whatever the number of rounds. *)
Theorem update_diverges data : 2 ^ 32 <= blen data -> forall fuel i ctx D, has_absorbed ctx D -> i < 2 ^ 32 ->
  update_loop true fuel i ctx data = UB Diverges.
Proof.
  intros L fuel. induction fuel as [|fuel IH]; intros i ctx D A Li; [reflexivity|].
  rewrite update_loop_step by lia.
  assert (Ln : (N.to_nat i < length data)%nat) by (unfold blen in L; lia).
  rewrite (arr_get_nth _ _ x00 Ln). cbn [obind].
  destruct (update_byte_absorbed ctx D (nth (N.to_nat i) data x00) A) as (ctx1 & -> & A1). cbn [obind].
  eapply IH; [exact A1|]. unfold w32. change (2 ^ 32) with 4294967296. apply N.mod_lt. discriminate.
Qed.

(** ** Final *)

Lemma be_byte n i : (i < 8)%nat -> byte_of_N (N.shiftr (n mod 2 ^ 64) (8 * N.of_nat i)) = byte_of_N (n / 256 ^ N.of_nat i).
Proof.
  intro L. apply byte_of_N_mod. rewrite N.shiftr_div_pow2, N.pow_mul_r. change (2 ^ 8) with 256.
  change (2 ^ 64) with (256 ^ 8). set (k := N.of_nat i). assert (K : k <= 7) by lia.
  replace 8 with (k + (8 - k)) by lia. rewrite N.pow_add_r.
  assert (P : 256 ^ k <> 0) by (apply N.pow_nonzero; discriminate).
  assert (P' : 256 ^ (8 - k) <> 0) by (apply N.pow_nonzero; discriminate).
  rewrite N.mod_mul_r by assumption. rewrite N.mul_comm, N.div_add by exact P.
  rewrite N.div_small by (now apply N.mod_lt). rewrite N.add_0_l.
  replace (8 - k) with (1 + (7 - k)) by lia. rewrite N.pow_add_r. change (256 ^ 1) with 256.
  rewrite N.mod_mul_r by (discriminate || (apply N.pow_nonzero; discriminate)).
  rewrite (N.mul_comm 256), N.mod_add by discriminate. apply N.mod_mod. discriminate.
Qed.

Lemma length_loop a l n : length a = 56%nat -> length l = 8%nat ->
  oloop 8 0 (fun i d => arr_set d (63 - i) (byte_of_N (N.shiftr (n mod 2 ^ 64) (8 * N.of_nat i)))) (a ++ l)
  = Ret (a ++ big_endian_bytes 8 n).
Proof.
  intros La Ll. destruct l as [|l0 [|l1 [|l2 [|l3 [|l4 [|l5 [|l6 [|l7 [|]]]]]]]]]; try discriminate.
  cbn [oloop].
  assert (S : forall i j x l, (i + j = 7)%nat -> arr_set (a ++ l) (63 - i) x = obind (arr_set l j x) (fun l' => Ret (a ++ l'))).
  { intros i j x l H. replace (63 - i)%nat with (length a + j)%nat by lia. apply arr_set_app_r. }
  rewrite (S 0 7)%nat by reflexivity; rewrite be_byte by lia; cbn [arr_set obind].
  rewrite (S 1 6)%nat by reflexivity; rewrite be_byte by lia; cbn [arr_set obind].
  rewrite (S 2 5)%nat by reflexivity; rewrite be_byte by lia; cbn [arr_set obind].
  rewrite (S 3 4)%nat by reflexivity; rewrite be_byte by lia; cbn [arr_set obind].
  rewrite (S 4 3)%nat by reflexivity; rewrite be_byte by lia; cbn [arr_set obind].
  rewrite (S 5 2)%nat by reflexivity; rewrite be_byte by lia; cbn [arr_set obind].
  rewrite (S 6 1)%nat by reflexivity; rewrite be_byte by lia; cbn [arr_set obind].
  rewrite (S 7 0)%nat by reflexivity; rewrite be_byte by lia; cbn [arr_set obind].
  cbn [big_endian_bytes]. reflexivity.
Qed.

Lemma out_byte w i : (i < 4)%nat -> byte_of_N (N.land (N.shiftr w (24 - N.of_nat i * 8)) 255) = byte_of_N (w / 256 ^ N.of_nat (3 - i)).
Proof.
  intro L. apply byte_of_N_mod. change 255 with (N.ones 8). rewrite N.land_ones, N.shiftr_div_pow2.
  replace (2 ^ (24 - N.of_nat i * 8)) with (256 ^ N.of_nat (3 - i)).
  - change (2 ^ 8) with 256. apply N.mod_mod. discriminate.
  - change 256 with (2 ^ 8). rewrite <- N.pow_mul_r. f_equal. lia.
Qed.

Lemma out_loop st hash : length st = 8%nat -> (32 <= length hash)%nat ->
  oloop 4 0 (fun i hash => oloop 8 0 (fun s hash =>
    obind (arr_get st s) (fun w =>
    arr_set hash (i + 4 * s) (byte_of_N (N.land (N.shiftr w (24 - N.of_nat i * 8)) 255)))) hash) hash
  = Ret (flat_map (big_endian_bytes 4) st ++ skipn 32 hash).
Proof.
  intros Ls Lh. destruct st as [|s0 [|s1 [|s2 [|s3 [|s4 [|s5 [|s6 [|s7 [|]]]]]]]]]; try discriminate.
  do 32 (destruct hash as [|? hash]; [cbn [length] in Lh; lia|]).
  cbn [oloop]. unfold arr_get. cbn [nth_error obind].
  rewrite !(out_byte _ 0), !(out_byte _ 1), !(out_byte _ 2), !(out_byte _ 3) by lia.
  cbn [arr_set obind Nat.add Nat.mul Nat.sub skipn flat_map app big_endian_bytes]. reflexivity.
Qed.

Theorem final_spec ctx data hash : has_absorbed ctx data -> (32 <= length hash)%nat ->
  sha256_final true ctx hash = Ret (sha256 data ++ skipn 32 hash).
Proof.
  intros (q & full & rest & -> & [F R L (tail & D & T) B S]) H. unfold sha256_final. rewrite D, L.
  destruct tail as [|x tail]; [rewrite app_nil_r in T; lia|].
  assert (X : N.to_nat (blen rest) = length rest) by (unfold blen; lia). rewrite X.
  assert (S8 : length (h_state ctx) = 8%nat) by (rewrite S; apply fold_compress_length; reflexivity).
  rewrite app_length in T. cbn [length] in T.
  assert (BL : (h_bitlen ctx + w32 (blen rest * 8)) mod 2 ^ 64 = (8 * blen (full ++ rest)) mod 2 ^ 64).
  { rewrite B. assert (w32 (blen rest * 8) = blen rest * 8) as -> by (unfold w32, blen; lia).
    rewrite N.add_mod_idemp_l by discriminate. f_equal. rewrite blen_app. unfold blen. rewrite F. lia. }
  assert (Lf : blen (full ++ rest) mod 64 = blen rest).
  { rewrite blen_app. unfold blen. rewrite F. lia. }
  rewrite arr_set_app.
  destruct (N.ltb_spec (blen rest) 56) as [E|E]; cbn [obind].
  - (* one block *)
    assert (Lr : (length rest < 56)%nat) by (unfold blen in E; lia).
    set (j := firstn (56 - Datatypes.S (length rest)) tail). set (t := skipn (56 - Datatypes.S (length rest)) tail).
    assert (Et : tail = j ++ t) by (symmetry; apply firstn_skipn).
    assert (Lj : length j = (56 - Datatypes.S (length rest))%nat) by (unfold j; rewrite firstn_length; lia).
    assert (Lt : length t = 8%nat) by (unfold t; rewrite skipn_length; lia).
    replace (rest ++ x80 :: tail) with ((rest ++ [x80]) ++ j ++ t) by (rewrite Et, <- !app_assoc; reflexivity).
    replace (Datatypes.S (length rest)) with (length (rest ++ [x80])) in * by (rewrite app_length; cbn [length]; lia).
    rewrite fill_loop by exact Lj. cbn [obind set_data h_bitlen h_datalen h_data h_state]. rewrite L, BL.
    set (z := repeat x00 (56 - length (rest ++ [x80]))).
    assert (Lz : length ((rest ++ [x80]) ++ z) = 56%nat) by (unfold z; rewrite !app_length, repeat_length; cbn [length]; lia).
    rewrite (app_assoc (rest ++ [x80])). rewrite length_loop by assumption. cbn [obind].
    set (blk := ((rest ++ [x80]) ++ z) ++ big_endian_bytes 8 (8 * blen (full ++ rest))).
    assert (Lb : length blk = 64%nat) by (unfold blk; rewrite app_length, Lz; reflexivity).
    rewrite transform_spec; [|exact Lb|exact S8]. cbn [obind with_state h_state].
    rewrite out_loop by (try apply compress_length; assumption). do 2 f_equal. unfold sha256.
    assert (P : pad (full ++ rest) = full ++ blk).
    { unfold pad, blk. rewrite <- !app_assoc. do 3 f_equal. unfold z. f_equal. f_equal.
      unfold zero_bytes. rewrite Lf. rewrite app_length. cbn [length]. unfold blen. lia. }
    rewrite P. replace (length (full ++ blk) / 64)%nat with (Datatypes.S q).
    + rewrite blocks_snoc by assumption. rewrite fold_left_app. cbn [fold_left]. now rewrite S.
    + rewrite app_length, F, Lb. clear. lia.
  - (* two blocks *)
    assert (Lr : (56 <= length rest)%nat) by (unfold blen in E; lia).
    replace (rest ++ x80 :: tail) with ((rest ++ [x80]) ++ tail ++ []) by (rewrite app_nil_r, <- !app_assoc; reflexivity).
    replace (Datatypes.S (length rest)) with (length (rest ++ [x80])) in * by (rewrite app_length; cbn [length]; lia).
    assert (Lt : length tail = (64 - length (rest ++ [x80]))%nat) by (rewrite app_length; cbn [length]; lia).
    rewrite fill_loop by exact Lt. cbn [obind]. rewrite app_nil_r.
    set (b1 := (rest ++ [x80]) ++ repeat x00 (64 - length (rest ++ [x80]))).
    assert (L1 : length b1 = 64%nat) by (unfold b1; rewrite app_length, repeat_length, app_length; cbn [length]; lia).
    rewrite transform_spec; [|exact L1|exact S8]. cbn [obind with_state set_data h_data h_state h_bitlen h_datalen].
    pose proof (fill_loop x00 56 [] (firstn 56 b1) (skipn 56 b1)) as FL. cbn [length app] in FL.
    rewrite firstn_skipn in FL. rewrite FL by (rewrite firstn_length; lia). cbn [obind set_data h_data h_state h_bitlen h_datalen].
    cbn [with_state set_data h_data h_state h_bitlen h_datalen].
    rewrite L, BL. rewrite length_loop; [|apply repeat_length|rewrite skipn_length; lia]. cbn [obind].
    set (b2 := repeat x00 56 ++ big_endian_bytes 8 (8 * blen (full ++ rest))).
    assert (L2 : length b2 = 64%nat) by reflexivity.
    rewrite transform_spec; [|exact L2|apply compress_length; exact S8]. cbn [obind with_state h_state].
    rewrite out_loop; [|repeat apply compress_length; exact S8|exact H]. do 2 f_equal. unfold sha256.
    assert (P : pad (full ++ rest) = (full ++ b1) ++ b2).
    { unfold pad, b1, b2. rewrite <- !app_assoc. do 3 f_equal. rewrite app_assoc. f_equal. rewrite <- repeat_app. f_equal.
      unfold zero_bytes. rewrite Lf. rewrite app_length. cbn [length]. unfold blen. lia. }
    rewrite P. assert (LF : length (full ++ b1) = (64 * Datatypes.S q)%nat) by (rewrite app_length, F, L1; lia).
    replace (length ((full ++ b1) ++ b2) / 64)%nat with (Datatypes.S (Datatypes.S q)).
    + rewrite blocks_snoc by assumption. rewrite blocks_snoc by assumption. rewrite !fold_left_app. cbn [fold_left]. now rewrite S.
    + rewrite app_length, LF, L2. clear. lia.
Qed.

Lemma sha256_length m : length (sha256 m) = 32%nat.
Proof.
  unfold sha256. assert (S8 : length (fold_left compress (blocks (length (pad m) / 64) (pad m)) sha_H0) = 8%nat)
    by (apply fold_compress_length; reflexivity).
  destruct (fold_left compress _ _) as [|s0 [|s1 [|s2 [|s3 [|s4 [|s5 [|s6 [|s7 [|]]]]]]]]]; try discriminate. reflexivity.
Qed.

(** The output buffer must have room for the whole digest. *)
Lemma oloop_last {S} n : forall i (body : nat -> S -> out S) s s',
  oloop (Datatypes.S n) i body s = Ret s' -> exists t, oloop n i body s = Ret t /\ body (n + i)%nat t = Ret s'.
Proof.
  induction n as [|n IH]; intros i body s s' H; cbn [oloop] in H.
  - destruct (body i s) as [t|w] eqn:E; cbn [obind] in H; [|discriminate]. exists s. split; [reflexivity|]. cbn [Nat.add]. congruence.
  - destruct (body i s) as [t|w] eqn:E; cbn [obind] in H; [|discriminate].
    destruct (IH (Datatypes.S i) body t s' H) as (u & A & B). exists u. split.
    + cbn [oloop]. rewrite E. exact A.
    + rewrite <- B. f_equal. lia.
Qed.

Lemma oloop_keeps {S} (P : S -> Prop) n : forall i (body : nat -> S -> out S) s s',
  (forall i s s', body i s = Ret s' -> P s -> P s') -> oloop n i body s = Ret s' -> P s -> P s'.
Proof.
  induction n as [|n IH]; intros i body s s' K H X; cbn [oloop] in H; [injection H as <-; exact X|].
  destruct (body i s) as [t|w] eqn:E; cbn [obind] in H; [|discriminate]. eapply IH; eauto.
Qed.

Lemma arr_set_length {A} (l : list A) : forall i x l', arr_set l i x = Ret l' -> length l' = length l /\ (i < length l)%nat.
Proof.
  induction l as [|y l IH]; intros [|i] x l' H; cbn [arr_set] in H; try discriminate.
  - injection H as <-. split; cbn [length]; lia.
  - destruct (arr_set l i x) as [t|w] eqn:E; cbn [obind] in H; [|discriminate]. injection H as <-.
    destruct (IH _ _ _ E). cbn [length]. split; lia.
Qed.

Lemma out_loop_room st hash r :
  oloop 4 0 (fun i hash => oloop 8 0 (fun s hash =>
    obind (arr_get st s) (fun w =>
    arr_set hash (i + 4 * s) (byte_of_N (N.land (N.shiftr w (24 - N.of_nat i * 8)) 255)))) hash) hash = Ret r ->
  (32 <= length hash)%nat.
Proof.
  assert (K : forall i s h h', obind (arr_get st s) (fun w =>
    arr_set h (i + 4 * s) (byte_of_N (N.land (N.shiftr w (24 - N.of_nat i * 8)) 255))) = Ret h' ->
    length h' = length h /\ (i + 4 * s < length h)%nat).
  { intros i s h h' H. destruct (arr_get st s) as [w|w]; cbn [obind] in H; [|discriminate]. exact (arr_set_length _ _ _ _ H). }
  intro H. apply oloop_last in H as (t & A & B). apply oloop_last in B as (u & B & C).
  apply K in C as [_ C]. cbn [Nat.add Nat.mul] in C.
  apply (oloop_keeps (fun h => length h = length t)) in B; [|intros i s s' E X; apply K in E as [E _]; congruence|reflexivity].
  apply (oloop_keeps (fun h => length h = length hash)) in A; [lia| |reflexivity].
  intros i s s' E X. apply (oloop_keeps (fun h => length h = length hash)) in E; [exact E| |exact X].
  intros j h h' E' X'. apply K in E' as [E' _]. congruence.
Qed.

Theorem final_room ctx hash r : sha256_final true ctx hash = Ret r -> (32 <= length hash)%nat.
Proof.
  unfold sha256_final. intro H.
  repeat match type of H with obind ?x _ = _ => destruct x; cbn [obind] in H; [|discriminate H] end.
  exact (out_loop_room _ _ _ H).
Qed.
