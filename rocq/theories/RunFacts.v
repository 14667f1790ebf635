(** Proofs about the test program. *)
From Verif Require Import Base Const BaseFacts RunTests RunSpec.
From Coq Require Import Lia ZifyBool ZifyNat ZifyN.
From Coq Require Strings.String.
Import Strings.String.StringSyntax.
Open Scope Z_scope. Open Scope list_scope.

(** ** Numbers *)

Lemma value_app a b acc : value acc (a ++ b) = value (value acc a) b.
Proof. revert acc. induction a as [|x r IH]; intro acc; cbn; [reflexivity|apply IH]. Qed.

Lemma ob_append_ok o b : ob_err o = false -> (blen (ob_data o) < ob_size o)%N ->
  ob_append o b = {| ob_size := ob_size o; ob_data := ob_data o ++ [b]; ob_err := false |}.
Proof. intros E L. unfold ob_append. rewrite E. apply N.ltb_lt in L. now rewrite L. Qed.

Lemma digit_byte d : 0 <= d <= 9 ->
  Z.of_N (Byte.to_N (byte_of_N (Z.to_N (48 + d)))) = 48 + d.
Proof. intro H. rewrite to_of_N. rewrite N.mod_small by lia. lia. Qed.

Lemma digit_is d : 0 <= d <= 9 -> is_digit (byte_of_N (Z.to_N (48 + d))).
Proof. intro H. pose proof (digit_byte d H). unfold is_digit. lia. Qed.

Lemma num_loop_spec k : forall fuel num did o,
  (S (S k) <= fuel)%nat -> 0 <= num < 10 ^ Z.of_nat (S k) -> ob_err o = false ->
  (blen (ob_data o) + N.of_nat (S k) <= ob_size o)%N ->
  exists ds, num_loop fuel (10 ^ Z.of_nat k) num did o
             = Some (did || negb (num =? 0), {| ob_size := ob_size o; ob_data := ob_data o ++ ds; ob_err := false |})
    /\ Forall is_digit ds /\ (length ds <= S k)%nat
    /\ (did = true -> forall acc, value acc ds = acc * 10 ^ Z.of_nat (S k) + num)
    /\ (did = false -> value 0 ds = num /\ (num = 0 -> ds = []) /\ (forall r, ds <> x30 :: r) /\ (num <> 0 -> ds <> [])).
Proof.
  induction k as [|k IH]; intros fuel num did o F B E R.
  - destruct fuel as [|[|f]]; [lia|lia|]. cbn [num_loop]. change (10 ^ Z.of_nat 0) with 1. change (10 ^ Z.of_nat 1) with 10 in *.
    rewrite Z.quot_1_r. change (1 >? 0) with true. cbn iota. change (Z.quot 1 10) with 0. change (0 >? 0) with false. cbn iota.
    destruct (negb (num =? 0) || did) eqn:D.
    + rewrite ob_append_ok by (assumption || (unfold blen in *; lia)).
      exists [byte_of_N (Z.to_N (48 + num))]. split. { f_equal. f_equal. destruct did; cbn in *; [reflexivity|]. rewrite orb_false_r in D. now rewrite D. }
      split. { constructor; [apply digit_is; lia|constructor]. }
      split. { cbn. lia. }
      pose proof (digit_byte num ltac:(lia)) as V. set (bb := byte_of_N (Z.to_N (48 + num))) in *. clearbody bb.
      split. { intros _ acc. cbn [value]. rewrite V. lia. }
      intros ->. rewrite orb_false_r in D. split. { cbn [value]. rewrite V. lia. }
      split. { lia. }
      split; [|discriminate]. intros r Q. injection Q as -> _. change (Z.of_N (Byte.to_N x30)) with 48 in V. lia.
    + apply orb_false_iff in D. destruct D as [D1 D2]. subst did. apply negb_false_iff, Z.eqb_eq in D1. subst num.
      exists []. split. { destruct o as [s dd e]; cbn in E; subst e. cbn. now rewrite app_nil_r. }
      split. { constructor. } split. { cbn. lia. } split. { discriminate. } intros _. cbn. split; [reflexivity|]. split; [reflexivity|]. split; [discriminate|lia].
  - destruct fuel as [|f]; [lia|]. cbn [num_loop].
    set (n := 10 ^ Z.of_nat (S k)) in *.
    assert (P : 10 ^ Z.of_nat (S (S k)) = 10 * n). { unfold n. rewrite (Nat2Z.inj_succ (S k)), Z.pow_succ_r by lia. reflexivity. }
    assert (P' : n = 10 * 10 ^ Z.of_nat k). { unfold n. rewrite (Nat2Z.inj_succ k), Z.pow_succ_r by lia. reflexivity. }
    assert (P1 : 0 < 10 ^ Z.of_nat k) by (apply Z.pow_pos_nonneg; lia).
    assert (G : (n >? 0) = true) by lia. rewrite G. cbn iota.
    assert (Q10 : Z.quot n 10 = 10 ^ Z.of_nat k). { rewrite P', Z.mul_comm. apply Z.quot_mul. lia. }
    rewrite Q10. rewrite P in B.
    set (d := Z.quot num n) in *.
    assert (Dq : num = n * d + Z.rem num n) by (apply Z.quot_rem'; lia).
    assert (Dr : 0 <= Z.rem num n < n) by (apply Z.rem_bound_pos; lia).
    assert (Db : 0 <= d <= 9) by nia.
    destruct (negb (d =? 0) || did) eqn:D.
    + rewrite ob_append_ok by (assumption || (unfold blen in *; lia)).
      destruct (IH f (num - d * n) true {| ob_size := ob_size o; ob_data := ob_data o ++ [byte_of_N (Z.to_N (48 + d))]; ob_err := false |})
        as (ds & R1 & R2 & R3 & R4 & _).
      { lia. } { lia. } { reflexivity. } { cbn [ob_data ob_size]. unfold blen in *. rewrite app_length. cbn [length]. lia. }
      cbn [ob_data ob_size] in R1. rewrite R1. rewrite <- app_assoc. cbn [app].
      pose proof (digit_byte d Db) as V. pose proof (digit_is d Db) as Dg. set (bb := byte_of_N (Z.to_N (48 + d))) in *. clearbody bb.
      exists (bb :: ds).
      split. { f_equal. f_equal. cbn [orb]. destruct did; [reflexivity|]. rewrite orb_false_r in D. cbn [orb]. nia. }
      split. { constructor; assumption. } split. { cbn [length]. lia. }
      split. { intros _ acc. cbn [value]. rewrite V, (R4 eq_refl). fold n. rewrite P. lia. }
      intros ->. rewrite orb_false_r in D. split. { cbn [value]. rewrite V, (R4 eq_refl). fold n. lia. }
      split. { intros ->. exfalso. nia. }
      split; [|discriminate]. intros r Q. injection Q as -> _. change (Z.of_N (Byte.to_N x30)) with 48 in V. lia.
    + apply orb_false_iff in D. destruct D as [D1 D2]. subst did. apply negb_false_iff, Z.eqb_eq in D1.
      destruct (IH f num false o) as (ds & R1 & R2 & R3 & _ & R5).
      { lia. } { nia. } { assumption. } { lia. }
      rewrite R1. exists ds. split; [reflexivity|]. split; [assumption|]. split; [lia|]. split; [discriminate|]. intros _. now apply R5.
Qed.

Lemma c_string_digits ds : Forall is_digit ds -> c_string (ds ++ [x00]) = ds.
Proof.
  induction 1 as [|b r D _ IH]; [reflexivity|]. cbn [app c_string]. rewrite IH. destruct b; try reflexivity. unfold is_digit in D. cbn in D. lia.
Qed.

(** What is shown for every number but INT32_MIN. *)
Lemma num_to_string_spec n : -2147483648 < n < 2147483648 ->
  exists s, num_to_string n 12 = Some s /\ shown_as s n.
Proof.
  intro B. unfold num_to_string. assert (E : (n =? -2147483648) = false) by lia. rewrite E.
  destruct (n <? 0) eqn:Neg.
  - destruct (- n >? NUM_MAX - 1) eqn:Big.
    + eexists. split; [reflexivity|]. right. unfold NUM_MAX in Big. split; [lia|reflexivity].
    + rewrite ob_append_ok by (cbn; reflexivity || lia).
      change NUM_MAX with (10 ^ Z.of_nat 9).
      destruct (num_loop_spec 9 11 (- n) false {| ob_size := ob_size (ob_init 12); ob_data := ob_data (ob_init 12) ++ [x2d]; ob_err := false |})
        as (ds & R1 & R2 & R3 & _ & R5).
      { lia. } { unfold NUM_MAX in Big. change (10 ^ Z.of_nat 10) with 10000000000. lia. } { reflexivity. } { cbn. lia. }
      rewrite R1. destruct (R5 eq_refl) as (V & _ & NZ & NE). assert (Z0 : (- n =? 0) = false) by lia. rewrite Z0. cbn [orb negb].
      cbn iota. rewrite ob_append_ok. 2: reflexivity. 2: { cbn [ob_data ob_size ob_init]. unfold blen. rewrite !app_length. cbn [length]. lia. }
      cbn [ob_err ob_data ob_init]. eexists. split; [reflexivity|]. left. unfold NUM_MAX in Big. split; [lia|]. right. split; [lia|].
      exists ds. cbn [app]. change (c_string (x2d :: ds ++ [x00])) with (x2d :: c_string (ds ++ [x00])). rewrite c_string_digits by assumption.
      split; [reflexivity|]. split; [apply NE; lia|]. split; [assumption|]. split; [assumption|]. intros r Q. now elim (NZ r).
  - destruct (n >? NUM_MAX - 1) eqn:Big.
    + eexists. split; [reflexivity|]. right. unfold NUM_MAX in Big. split; [lia|reflexivity].
    + change NUM_MAX with (10 ^ Z.of_nat 9).
      destruct (num_loop_spec 9 11 n false (ob_init 12)) as (ds & R1 & R2 & R3 & _ & R5).
      { lia. } { unfold NUM_MAX in Big. change (10 ^ Z.of_nat 10) with 10000000000. lia. } { reflexivity. } { cbn. lia. }
      rewrite R1. destruct (R5 eq_refl) as (V & ZE & NZ & NE). unfold NUM_MAX in Big.
      destruct (n =? 0) eqn:Z0; cbn [orb negb]; cbn iota.
      * apply Z.eqb_eq in Z0. rewrite (ZE Z0). eexists. split; [reflexivity|]. left. split; [lia|]. left. split; [lia|]. subst n.
        split; [discriminate|]. split. { constructor; [unfold is_digit; cbn; lia|constructor]. } split; [reflexivity|]. intros r Q. now injection Q.
      * apply Z.eqb_neq in Z0. rewrite ob_append_ok. 2: reflexivity. 2: { cbn [ob_data ob_size ob_init]. unfold blen. rewrite !app_length. cbn [length]. lia. }
        cbn [ob_err ob_data ob_init]. eexists. split; [reflexivity|]. left. split; [lia|]. left. split; [lia|].
        cbn [app]. rewrite c_string_digits by assumption.
        split; [now apply NE|]. split; [assumption|]. split; [assumption|]. intros r Q. now elim (NZ r).
Qed.

(** ** Runs *)

Lemma selected_spec names t : is_selected names t = true <-> to_run names t.
Proof.
  unfold is_selected, to_run. destruct names as [|n0 r].
  - split; [intro H; left; now split|]. intros [[_ H]|[]]. exact H.
  - rewrite existsb_exists. split.
    + intros (x & I & E). right. unfold same_name in E. apply bytes_eqb_eq in E. now rewrite E.
    + intros [[H _]|H]; [discriminate|]. exists (t_name t). split; [exact H|]. unfold same_name. apply bytes_eqb_refl.
Qed.

Lemma calls_app a b : calls (a ++ b) = calls a ++ calls b.
Proof. induction a as [|[n|s nl] r IH]; cbn; [reflexivity|now rewrite IH|exact IH]. Qed.
Lemma text_app a b : text (a ++ b) = text a ++ text b.
Proof. induction a as [|[n|s nl] r IH]; cbn; [reflexivity|exact IH|]. now rewrite IH, !app_assoc. Qed.

Lemma fits_int32 t : fits t -> to_int32 (t_result t) = t_result t.
Proof. unfold fits, to_int32. lia. Qed.

Lemma run_one_spec output t : fits t ->
  exists ev, run_one output t = Some (ev, negb (t_result t =? 0)) /\ calls ev = [t_name t] /\
    (output = true -> line_about t (text ev)) /\ (output = false -> silent ev).
Proof.
  intro F. unfold run_one. rewrite (fits_int32 t F). destruct (t_result t =? 0) eqn:Z0; cbn [negb].
  - apply Z.eqb_eq in Z0. eexists. split; [reflexivity|]. destruct output; cbn [say].
    + split; [reflexivity|]. split; [intros _; left; split; [assumption|]|discriminate]. reflexivity.
    + split; [reflexivity|]. split; [discriminate|]. intros _ s nl [H|[]]. discriminate H.
  - apply Z.eqb_neq in Z0. destruct output.
    + destruct (num_to_string_spec (t_result t) F) as (s & E & Sh). rewrite E. eexists. split; [reflexivity|]. split; [reflexivity|].
      split; [intros _; right; split; [assumption|]|discriminate]. exists s. split; [assumption|]. reflexivity.
    + eexists. split; [reflexivity|]. split; [reflexivity|]. split; [discriminate|]. intros _ s nl [H|[]]. discriminate H.
Qed.

Lemma run_loop_spec output names ts : forall run failed,
  (forall t, In t ts -> to_run names t -> fits t) ->
  exists sel bad ev, chosen (to_run names) ts sel /\ chosen fails sel bad /\
    run_loop output names ts run failed = Some (ev, run + Z.of_nat (length sel), failed + Z.of_nat (length bad)) /\
    calls ev = map t_name sel /\
    (output = true -> exists lines, Forall2 line_about sel lines /\ text ev = concat lines) /\
    (output = false -> silent ev).
Proof.
  induction ts as [|t r IH]; intros run failed F.
  - exists [], [], []. split; [constructor|]. split; [constructor|]. split. { cbn. f_equal. f_equal; [f_equal|]; lia. }
    split; [reflexivity|]. split; [|intros _ s nl []]. intros _. exists []. split; [constructor|reflexivity].
  - cbn [run_loop]. destruct (is_selected names t) eqn:Se.
    + apply selected_spec in Se. destruct (run_one_spec output t) as (ev1 & E1 & C1 & L1 & S1).
      { apply F; [now left|assumption]. }
      rewrite E1. destruct (IH (run + 1) (if negb (t_result t =? 0) then failed + 1 else failed)) as (sel & bad & ev & Ch & Cb & E & C & L & Si).
      { intros t' I. apply F. now right. }
      rewrite E. exists (t :: sel), (if negb (t_result t =? 0) then t :: bad else bad), (ev1 ++ ev).
      split; [now constructor|].
      split. { destruct (t_result t =? 0) eqn:Z0; cbn [negb]; [apply chosen_no|apply chosen_yes]; try assumption; unfold fails; lia. }
      split. { cbn [length]. f_equal. f_equal; [f_equal|]; [lia|]. destruct (t_result t =? 0); cbn [negb length]; lia. }
      split. { rewrite calls_app, C1, C. reflexivity. }
      split.
      * intro O. destruct (L O) as (lines & L2 & L3). exists (text ev1 :: lines). split; [constructor; [now apply L1|assumption]|]. rewrite text_app, L3. reflexivity.
      * intros O s nl I. apply in_app_or in I. destruct I as [I|I]; [now elim (S1 O s nl)|now elim (Si O s nl)].
    + destruct (IH run failed) as (sel & bad & ev & Ch & Rest). { intros t' I. apply F. now right. }
      exists sel, bad, ev. split; [|exact Rest]. apply chosen_no; [|assumption]. intro H. apply selected_spec in H. congruence.
Qed.

Lemma chosen_length {A} (P : A -> Prop) l l' : chosen P l l' -> (length l' <= length l)%nat.
Proof. induction 1; cbn; lia. Qed.

(** The whole run. *)
Lemma run_tests_spec output names ts :
  (forall t, In t ts -> to_run names t -> fits t) -> Z.of_nat (length ts) < 2147483648 ->
  exists sel bad ev, chosen (to_run names) ts sel /\ chosen fails sel bad /\
    run_tests output names ts = Some (ev, Z.of_nat (length sel), Z.of_nat (length bad)) /\
    calls ev = map t_name sel /\
    (output = true -> exists lines a b, Forall2 line_about sel lines /\
       shown_as a (Z.of_nat (length sel)) /\ shown_as b (Z.of_nat (length bad)) /\
       text ev = concat lines ++ str "SUMMARY: " ++ a ++ str " tests run; " ++ b ++ str " tests failed" ++ [x0a]) /\
    (output = false -> silent ev).
Proof.
  intros F Ln. destruct (run_loop_spec output names ts 0 0 F) as (sel & bad & ev & Ch & Cb & E & C & L & Si).
  pose proof (chosen_length _ _ _ Ch) as L1. pose proof (chosen_length _ _ _ Cb) as L2.
  unfold run_tests. rewrite E, !Z.add_0_l. destruct output.
  - destruct (num_to_string_spec (Z.of_nat (length sel))) as (a & Ea & Sa); [lia|].
    destruct (num_to_string_spec (Z.of_nat (length bad))) as (b & Eb & Sb); [lia|].
    rewrite Ea, Eb. exists sel, bad. eexists. split; [exact Ch|]. split; [exact Cb|]. split; [reflexivity|].
    split. { rewrite calls_app, C. cbn [calls]. apply app_nil_r. }
    split; [|discriminate]. intros _. destruct (L eq_refl) as (lines & La & Lb). exists lines, a, b.
    split; [exact La|]. split; [exact Sa|]. split; [exact Sb|]. rewrite text_app, Lb. cbn [text app]. reflexivity.
  - exists sel, bad, ev. split; [exact Ch|]. split; [exact Cb|]. split; [reflexivity|]. split; [exact C|]. split; [discriminate|exact Si].
Qed.

(** The value of main(). *)
Lemma main_spec argv1 ts leaks :
  (forall t, In t ts -> to_run argv1 t -> fits t) -> Z.of_nat (length ts) < 2147483648 ->
  exists ev r, main_program argv1 ts leaks = Some (ev, r) /\
    (r = 0 <-> leaks = 0 /\ forall t, In t ts -> to_run argv1 t -> t_result t = 0).
Proof.
  intros F Ln. destruct (run_tests_spec true argv1 ts F Ln) as (sel & bad & ev & Ch & Cb & E & _).
  unfold main_program. rewrite E. exists ev. eexists. split; [reflexivity|].
  assert (Ca : forall t, In t sel <-> In t ts /\ to_run argv1 t).
  { clear - Ch. induction Ch as [|a l l' P _ IH|a l l' P _ IH]; intro t; cbn [In]; [tauto| |].
    - rewrite IH. intuition. subst; assumption.
    - rewrite IH. intuition. subst; contradiction. }
  assert (Bd : bad = [] <-> forall t, In t sel -> t_result t = 0).
  { clear - Cb. induction Cb as [|a l l' P _ IH|a l l' P _ IH].
    - split; [intros _ t []|reflexivity].
    - split; [discriminate|]. intro H. elim P. apply H. now left.
    - unfold fails in P. rewrite IH. split; [|intros H t I; apply H; now right]. intros H t [<-|I]; [lia|now apply H]. }
  destruct bad as [|b0 br].
  - cbn [length Z.of_nat Z.eqb negb]. split; [|tauto]. intro L0. split; [exact L0|]. intros t I S. apply Bd; [reflexivity|]. apply Ca. now split.
  - assert (Nz : Z.of_nat (length (b0 :: br)) <> 0) by (cbn [length]; lia).
    assert (Q : (Z.of_nat (length (b0 :: br)) =? 0) = false) by lia. rewrite Q. cbn [negb].
    split; [contradiction|]. intros [_ H]. enough (b0 :: br = []) by discriminate. apply Bd. intros t I. apply Ca in I. now apply H.
Qed.

(** ** The table *)

Fixpoint distinct (l : list bytes) : bool :=
  match l with [] => true | a :: r => negb (existsb (bytes_eqb a) r) && distinct r end.
Lemma distinct_nodup l : distinct l = true -> NoDup l.
Proof.
  induction l as [|a r IH]; intro H; [constructor|]. cbn in H. apply andb_true_iff in H. destruct H as [H1 H2].
  constructor; [|now apply IH]. intro I. apply negb_true_iff in H1. enough (existsb (bytes_eqb a) r = true) by congruence.
  apply existsb_exists. exists a. split; [exact I|apply bytes_eqb_refl].
Qed.

Lemma names_distinct c sv hf : NoDup (test_names c sv hf).
Proof.
  apply distinct_nodup. unfold test_names. destruct (dis_short_circuit c), (dis_content_type c), sv, hf; vm_compute; reflexivity.
Qed.
Lemma names_few c sv hf : (length (test_names c sv hf) <= 23)%nat.
Proof. unfold test_names. destruct (dis_short_circuit c), (dis_content_type c), sv, hf; apply Nat.leb_le; vm_compute; reflexivity. Qed.

Lemma chosen_none {A} (P : A -> Prop) l l' : chosen P l l' -> (forall a, In a l -> ~ P a) -> l' = [].
Proof.
  induction 1 as [|a l l' H _ IH|a l l' H _ IH]; intro N; [reflexivity| |].
  - elim (N a); [now left|assumption].
  - apply IH. intros x I. apply N. now right.
Qed.

Lemma chosen_one f n l l' : NoDup l -> In n l ->
  (forall x : bytes, t_name (f x) = x) -> chosen (to_run [n]) (map f l) l' -> l' = [f n].
Proof.
  intros ND I Nm. revert l'. induction ND as [|x r Nx ND IH]; intros l' Ch; [destruct I|].
  assert (TR : forall y, to_run [n] (f y) -> y = n).
  { intros y [[H _]|[H|[]]]; [discriminate|]. now rewrite Nm in H. }
  cbn [map] in Ch. inversion Ch as [|a l0 l1 P Q Ea El|a l0 l1 P Q Ea El]; subst.
  - apply TR in P. subst x. f_equal. apply (chosen_none _ _ _ Q). intros a Ia. apply in_map_iff in Ia. destruct Ia as (y & <- & Iy). intro H. apply TR in H. now subst y.
  - destruct I as [->|I]; [|now apply IH]. elim P. right. left. symmetry. apply Nm.
Qed.

Lemma chosen_all {A} (P : A -> Prop) l l' : chosen P l l' -> (forall a, In a l -> P a) -> l' = l.
Proof.
  induction 1 as [|a l l' H _ IH|a l l' H _ IH]; intro N; [reflexivity| |].
  - f_equal. apply IH. intros x I. apply N. now right.
  - elim H. apply N. now left.
Qed.

Lemma table_runs c sv hf result output names :
  (forall n, -2147483648 < result n < 2147483648) ->
  exists ev run failed, run_tests output names (s_tests c sv hf result) = Some (ev, run, failed) /\ 0 <= failed <= 23 /\
    (names = [] -> calls ev = test_names c sv hf) /\
    (forall n, names = [n] -> In n (test_names c sv hf) -> calls ev = [n]) /\
    ((forall n, In n names -> ~ In n (test_names c sv hf)) -> names <> [] -> calls ev = [] /\ run = 0 /\ failed = 0).
Proof.
  intro B. set (f := fun n => {| t_name := n; t_result := result n; t_enabled := true |}).
  destruct (run_tests_spec output names (s_tests c sv hf result)) as (sel & bad & ev & Ch & Cb & E & C & _).
  { intros t I _. apply in_map_iff in I. destruct I as (n & <- & _). apply B. }
  { unfold s_tests. rewrite map_length. pose proof (names_few c sv hf). lia. }
  exists ev. eexists. eexists. split; [exact E|].
  pose proof (chosen_length _ _ _ Ch) as L1. pose proof (chosen_length _ _ _ Cb) as L2. unfold s_tests in L1. rewrite map_length in L1. pose proof (names_few c sv hf).
  split; [lia|]. rewrite C. unfold s_tests in Ch. fold f in Ch.
  split. { intros ->. rewrite (chosen_all _ _ _ Ch). - rewrite map_map. apply map_id. - intros a I. apply in_map_iff in I. destruct I as (n & <- & _). left. now split. }
  split. { intros n -> I. now rewrite (chosen_one f n _ _ (names_distinct c sv hf) I (fun _ => eq_refl) Ch). }
  intros N Ne. assert (Q : sel = []).
  { apply (chosen_none _ _ _ Ch). intros a I. apply in_map_iff in I. destruct I as (n & <- & I). intros [[H1 _]|H1]; [contradiction|]. now elim (N n). }
  subst sel. inversion Cb; subst. now repeat split.
Qed.

(** ** What is wrong *)

(** A result whose low 32 bits are zero counts as passed. *)
Lemma wide_result output names t : to_run names t -> (t_result t mod 4294967296 = 0) ->
  exists ev, run_tests output names [t] = Some (ev, 1, 0).
Proof.
  intros R M. unfold run_tests, run_loop. apply selected_spec in R. rewrite R. unfold run_one.
  assert (E : to_int32 (t_result t) = 0). { unfold to_int32. rewrite <- Z.add_mod_idemp_l by lia. rewrite M. reflexivity. }
  rewrite E. cbn [Z.eqb negb]. destruct output.
  - assert (E1 : num_to_string (0 + 1) 12 = Some [x31]) by reflexivity. assert (E0 : num_to_string 0 12 = Some [x30]) by reflexivity.
    rewrite E1, E0. eexists. reflexivity.
  - eexists. reflexivity.
Qed.

Lemma min_result names t : to_run names t -> t_result t = -2147483648 -> run_tests true names [t] = None.
Proof.
  intros R M. unfold run_tests, run_loop. apply selected_spec in R. rewrite R. unfold run_one. rewrite M. reflexivity.
Qed.
