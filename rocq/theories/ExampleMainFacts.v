(** C81: what the example programs print, and how they end. *)
From Verif Require Import Base Const QEnc Crypto Params Sign Verify Psa SignSpec BaseFacts Examples ExampleRun ExampleFacts ExampleMain RunSpec ExampleMainSpec.
From Coq Require Import Lia ZifyBool ZifyNat ZifyN.
Ltac Zify.zify_post_hook ::= Z.div_mod_to_equations.
Open Scope N_scope. Open Scope list_scope.

(** ** Digits *)

Lemma value_app s acc b : value acc (s ++ [b]) = (value acc s * 10 + (Z.of_N (Byte.to_N b) - 48))%Z.
Proof. revert acc. induction s as [|x s IH]; intro acc; cbn [app value]; [reflexivity|apply IH]. Qed.

Lemma digit_val n : n < 10 -> Byte.to_N (byte_of_N (48 + n)) = 48 + n.
Proof. intro H. rewrite to_of_N. lia. Qed.

Lemma digits_ok f n : n < 2 ^ N.of_nat f -> 
  Forall is_digit (digits (S f) n) /\ value 0 (rev (digits (S f) n)) = Z.of_N n /\ digits (S f) n <> [] /\
  (exists l d, digits (S f) n = l ++ [d] /\ (l <> [] -> d <> x30)).
Proof.
  revert n. induction f as [|f IH]; intros n L.
  - assert (n = 0) by (change (2 ^ N.of_nat 0) with 1 in L; lia). subst n. cbn. split; [constructor; [compute; split; discriminate|constructor]|].
    split; [reflexivity|]. split; [discriminate|]. exists [], x30. split; [reflexivity|]. now intros H; destruct H.
  - change (digits (S (S f)) n) with (byte_of_N (48 + n mod 10) :: (if n <? 10 then [] else digits (S f) (n / 10))).
    assert (M : n mod 10 < 10) by lia. pose proof (digit_val _ M) as V.
    assert (D : is_digit (byte_of_N (48 + n mod 10))) by (unfold is_digit; rewrite V; lia).
    destruct (N.ltb_spec n 10) as [S1|S1].
    + split; [constructor; [exact D|constructor]|]. cbn [rev app value]. rewrite V. split; [lia|]. split; [discriminate|].
      exists [], (byte_of_N (48 + n mod 10)). split; [reflexivity|]. now intros H; destruct H.
    + assert (L2 : n / 10 < 2 ^ N.of_nat f).
      { rewrite Nat2N.inj_succ, N.pow_succ_r' in L. lia. }
      destruct (IH _ L2) as (F & E & _ & l & d & Q & NZ). split; [now constructor|]. split.
      * cbn [rev]. rewrite value_app, E, V. lia.
      * split; [discriminate|]. rewrite Q. exists (byte_of_N (48 + n mod 10) :: l), d. split; [reflexivity|]. intros _.
        destruct l as [|x l]; [|apply NZ; discriminate]. cbn [app] in Q. rewrite Q in E. cbn [rev app value] in E.
        intro Z. subst d. change (Z.of_N (Byte.to_N x30)) with 48%Z in E. lia.
Qed.

Lemma print_ld_ok n : natural (print_ld n) (Z.of_N n).
Proof.
  unfold print_ld. assert (L : n < 2 ^ N.of_nat (N.to_nat (N.size n))) by (rewrite N2Nat.id; apply N.size_gt).
  destruct (digits_ok _ _ L) as (F & E & NE & l & d & Q & NZ). repeat split.
  - intro H. apply NE. rewrite <- (rev_involutive (digits _ n)), H. reflexivity.
  - apply Forall_rev, F.
  - exact E.
  - intros r H. rewrite Q, rev_app_distr in H. cbn [rev app] in H. injection H as -> <-. destruct l; [reflexivity|]. exfalso. apply NZ; [discriminate|reflexivity].
Qed.

Lemma hex_digit_ok n : n < 16 -> hex_value (hex_digit n) = Some n.
Proof.
  intro H. unfold hex_digit, hex_value. destruct (N.ltb_spec n 10) as [L|L]; rewrite to_of_N.
  - replace ((48 + n) mod 256) with (48 + n) by lia. replace ((48 <=? 48 + n) && (48 + n <=? 57)) with true by lia. f_equal. lia.
  - replace ((87 + n) mod 256) with (87 + n) by lia. replace ((48 <=? 87 + n) && (87 + n <=? 57)) with false by lia. replace ((97 <=? 87 + n) && (87 + n <=? 102)) with true by lia. f_equal. lia.
Qed.

Lemma byte_lt z : Byte.to_N z < 256.
Proof. pose proof (Byte.to_N_bounded z). lia. Qed.

(** ** Lines *)

Lemma loop_lines b0 s0 b : dump_line b0 s0 -> (length b0 < 8)%nat -> 
  forall i, i mod 8 = N.of_nat (length b0) -> dump (b0 ++ b) (s0 ++ print_loop i b ++ [x0a]).
Proof.
  revert b0 s0. induction b as [|z b IH]; intros b0 s0 D L i Hi.
  - rewrite app_nil_r. cbn [print_loop app]. now constructor.
  - pose proof (byte_lt z) as Lz.
    assert (D2 : dump_line (b0 ++ [z]) (s0 ++ [hex_digit (Byte.to_N z / 16); hex_digit (Byte.to_N z mod 16); x20])).
    { constructor; [exact D| |]; apply hex_digit_ok; lia. }
    replace (b0 ++ z :: b) with ((b0 ++ [z]) ++ b) by (rewrite <- app_assoc; reflexivity).
    cbn [print_loop]. unfold print_02x. destruct (N.eqb_spec (i mod 8) 7) as [E|E].
    + replace (s0 ++ ([hex_digit (Byte.to_N z / 16); hex_digit (Byte.to_N z mod 16)] ++ [x20] ++ (x0a :: margin) ++ print_loop (i + 1) b) ++ [x0a])
        with ((s0 ++ [hex_digit (Byte.to_N z / 16); hex_digit (Byte.to_N z mod 16); x20]) ++ [x0a] ++ (margin ++ print_loop (i + 1) b ++ [x0a]))
        by (rewrite <- !app_assoc; reflexivity).
      apply dump_more; [rewrite app_length; cbn [length]; lia|exact D2|].
      apply (IH [] margin line_start); [cbn; lia|]. cbn [length]. lia.
    + replace (s0 ++ ([hex_digit (Byte.to_N z / 16); hex_digit (Byte.to_N z mod 16)] ++ [x20] ++ [] ++ print_loop (i + 1) b) ++ [x0a])
        with ((s0 ++ [hex_digit (Byte.to_N z / 16); hex_digit (Byte.to_N z mod 16); x20]) ++ print_loop (i + 1) b ++ [x0a])
        by (rewrite <- !app_assoc; reflexivity).
      apply (IH _ _ D2); rewrite app_length; cbn [length]; lia.
Qed.

(** ** Reading back *)

Lemma hex_values_app s t : hex_values (s ++ t) = hex_values s ++ hex_values t.
Proof. apply flat_map_app. Qed.

Lemma in_pairs_app l l' b : in_pairs l = Some b -> in_pairs (l ++ l') = option_map (app b) (in_pairs l').
Proof.
  revert b. induction l as [l IH] using (well_founded_induction (Wf_nat.well_founded_ltof _ (@length N))). intros b H.
  destruct l as [|h [|d l]]; cbn [in_pairs app] in *; [injection H as <-; now destruct (in_pairs l')|discriminate|].
  destruct (in_pairs l) as [x|] eqn:E; [|discriminate]. injection H as <-.
  rewrite (IH l) with (b := x); [|unfold Wf_nat.ltof; cbn; lia|exact E]. now destruct (in_pairs l').
Qed.

Lemma line_read b s : dump_line b s -> in_pairs (hex_values s) = Some b.
Proof.
  induction 1 as [|b s z h d H IH E1 E2]; [reflexivity|]. rewrite hex_values_app, (in_pairs_app _ _ _ IH).
  assert (X : hex_values [h; d; x20] = [Byte.to_N z / 16; Byte.to_N z mod 16]) by (cbn [hex_values flat_map]; rewrite E1, E2; reflexivity).
  rewrite X. cbn [in_pairs option_map]. do 3 f_equal.
  replace (16 * (Byte.to_N z / 16) + Byte.to_N z mod 16) with (Byte.to_N z) by lia. apply of_to_N.
Qed.

Theorem dump_read b s : dump b s -> read_back s = Some b.
Proof.
  unfold read_back. induction 1 as [b s L D|b s b' s' L D H IH].
  - rewrite hex_values_app. change (hex_values [x0a]) with (@nil N). rewrite app_nil_r. now apply line_read.
  - rewrite !hex_values_app. change (hex_values [x0a]) with (@nil N). cbn [app]. rewrite (in_pairs_app _ _ _ (line_read _ _ D)), IH. reflexivity.
Qed.

Theorem print_ok label buf b : holds buf b ->
  exists n s, print_useful_buf label buf = Ret (match label with Some l => l | None => [] end ++ margin ++ n ++ bytes_nl ++ s) /\
    natural n (Z.of_nat (length b)) /\ dump b s /\ read_back s = Some b.
Proof.
  intro H. exists (print_ld (blen b)), (margin ++ print_loop 0 b ++ [x0a]).
  assert (D : dump b (margin ++ print_loop 0 b ++ [x0a])) by (apply (loop_lines [] margin b line_start); [cbn; lia|reflexivity]).
  split; [|split; [|split; [exact D|now apply dump_read]]].
  - destruct H as [->|(-> & ->)]; cbn [print_useful_buf u_len]; [|change (0 =? 0) with true; cbn iota]; rewrite <- !app_assoc; reflexivity.
  - replace (Z.of_nat (length b)) with (Z.of_N (blen b)) by (unfold blen; lia). apply print_ld_ok.
Qed.

Theorem print_exact label buf : (exists t, print_useful_buf label buf = Ret t) <-> exists b, holds buf b.
Proof.
  split.
  - intros (t & H). destruct buf as [n|b]; [|exists b; now left]. cbn [print_useful_buf] in H. destruct (N.eqb_spec n 0) as [->|]; [|discriminate].
    exists []. now right.
  - intros (b & H). destruct (print_ok label buf b H) as (n & s & E & _). eauto.
Qed.

Theorem payload_shown c cr junk malloc alg made ops payload_size size log x label p :
  (size < 2 ^ 64 /\ one_step_sign c cr junk alg made ops payload_size size = (log, Ret x) /\
   enc_finish (eops_run (enc_init {| wb_null := false; wb_len := payload_size |}) ops) = (QE_SUCCESS, Some (UBuf p))) \/
  dynamic_buffer c cr junk malloc alg made p = (log, Ret x) ->
  x_code x = TCose T_SUCCESS ->
  exists u n s, x_payload x = Some u /\ print_useful_buf (Some label) u = Ret (label ++ margin ++ n ++ bytes_nl ++ s) /\
    natural n (Z.of_nat (length p)) /\ read_back s = Some p.
Proof.
  intros H S. assert (E : x_payload x = Some (UBuf p)).
  { destruct H as [(L & H & F)|H]; [exact (one_step_shows _ _ _ _ _ _ _ _ _ _ _ L H S F)|exact (dynamic_shows _ _ _ _ _ _ _ _ _ H S)]. }
  destruct (print_ok (Some label) (UBuf p) p (or_introl eq_refl)) as (n & s & Q & N & _ & R). exists (UBuf p), n, s. auto.
Qed.

(** ** main *)

Theorem main_runs l log cs : one_by_one l log cs -> run_examples l = (log, Ret 0%Z).
Proof. induction 1 as [|lg s r l' cs H IH]; [reflexivity|]. cbn [run_examples xbind]. now rewrite IH. Qed.

Theorem main_zero l log r : run_examples l = (log, Ret r) -> r = 0%Z /\ exists cs, one_by_one l log cs.
Proof.
  revert log r. induction l as [|[lg [s|w]] l IH]; intros log r H; cbn [run_examples xbind] in H.
  - unfold xret in H. injection H as <- <-. split; [reflexivity|]. exists []. constructor.
  - destruct (run_examples l) as [l2 o] eqn:E. injection H as <- ->. destruct (IH _ _ eq_refl) as (-> & cs & O). split; [reflexivity|].
    exists (x_code s :: cs). now constructor.
  - discriminate.
Qed.
