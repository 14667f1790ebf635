(** Facts about bytes, lists and the outcome monads. *)
From Verif Require Import Base Const QEnc Spec.
From Coq Require Import Lia ZifyBool ZifyNat ZifyN.
Ltac Zify.zify_post_hook ::= Z.div_mod_to_equations.
Open Scope N_scope.

Lemma to_of_N n : Byte.to_N (byte_of_N n) = n mod 256.
Proof.
  unfold byte_of_N.
  assert (H : n mod 256 <= 255) by lia.
  destruct (Byte.of_N (n mod 256)) eqn:E.
  - apply Byte.to_of_N in E. exact E.
  - apply Byte.of_N_None_iff in E. lia.
Qed.

Lemma of_to_N b : byte_of_N (Byte.to_N b) = b.
Proof.
  unfold byte_of_N. assert (Byte.to_N b <= 255) by apply Byte.to_N_bounded.
  rewrite N.mod_small by lia. now rewrite Byte.of_to_N.
Qed.

Lemma to_N_inj a b : Byte.to_N a = Byte.to_N b -> a = b.
Proof. intro H. rewrite <- (of_to_N a), <- (of_to_N b). now rewrite H. Qed.

Lemma to_N_lt b : Byte.to_N b < 256.
Proof. assert (Byte.to_N b <= 255) by apply Byte.to_N_bounded. lia. Qed.

Lemma byte_of_N_mod n m : n mod 256 = m mod 256 -> byte_of_N n = byte_of_N m.
Proof. intro H. unfold byte_of_N. now rewrite H. Qed.

Lemma byte_eqb_eq a b : byte_eqb a b = true <-> a = b.
Proof.
  unfold byte_eqb. rewrite N.eqb_eq. split; [apply to_N_inj | now intros ->].
Qed.

Lemma bytes_eqb_eq a b : bytes_eqb a b = true <-> a = b.
Proof.
  revert b. induction a as [|x a IH]; intros [|y b]; cbn; try easy.
  rewrite andb_true_iff, byte_eqb_eq, IH. split; [intros [-> ->]; auto | injection 1; auto].
Qed.

Lemma bytes_eqb_refl a : bytes_eqb a a = true.
Proof. now apply bytes_eqb_eq. Qed.

Lemma blen_app {A} (a b : list A) : blen (a ++ b) = blen a + blen b.
Proof. unfold blen. rewrite app_length. lia. Qed.

Lemma blen_cons {A} (x : A) l : blen (x :: l) = 1 + blen l.
Proof. unfold blen. cbn [length]. lia. Qed.

Lemma blen_nil {A} : blen (@nil A) = 0.
Proof. reflexivity. Qed.

Lemma blen_repeat {A} (x : A) n : blen (repeat x n) = N.of_nat n.
Proof. unfold blen. now rewrite repeat_length. Qed.

Lemma to_nat_blen {A} (l : list A) : N.to_nat (blen l) = length l.
Proof. unfold blen. lia. Qed.

Lemma firstn_blen {A} (a b : list A) : firstn (N.to_nat (blen a)) (a ++ b) = a.
Proof. rewrite to_nat_blen, firstn_app, firstn_all, Nat.sub_diag. cbn. now rewrite app_nil_r. Qed.

Lemma skipn_blen {A} (a b : list A) : skipn (N.to_nat (blen a)) (a ++ b) = b.
Proof. rewrite to_nat_blen, skipn_app, skipn_all, Nat.sub_diag. reflexivity. Qed.

Lemma sub_bytes_mid a b c : sub_bytes (a ++ b ++ c) (blen a) (blen b) = b.
Proof. unfold sub_bytes. now rewrite skipn_blen, firstn_blen. Qed.

(** ** Heads *)

Lemma big_endian_be_bytes w n : big_endian w n = be_bytes w n.
Proof.
  unfold big_endian. revert n. induction w as [|w IH]; intro n; [reflexivity|].
  (* both are the digits of n; peel the most significant *)
  assert (H : forall w n, little_endian (S w) n
              = little_endian w n ++ [byte_of_N (n / 256 ^ N.of_nat w)]).
  { clear. induction w as [|w IH]; intro n.
    - cbn [little_endian app]. f_equal. change (256 ^ N.of_nat 0) with 1.
      rewrite N.div_1_r. apply byte_of_N_mod. lia.
    - change (little_endian (S (S w)) n) with (byte_of_N (n mod 256) :: little_endian (S w) (n / 256)).
      rewrite IH. cbn [little_endian app]. do 3 f_equal.
      rewrite N.div_div by lia. f_equal. rewrite Nat2N.inj_succ, N.pow_succ_r'. lia. }
  rewrite H, rev_app_distr. cbn [rev app be_bytes]. f_equal. apply IH.
Qed.

Lemma encode_head_short mt n : encode_head mt n = short_head mt n.
Proof.
  unfold encode_head, short_head, initial.
  change (2 ^ 8) with 256. change (2 ^ 16) with 65536. change (2 ^ 32) with 4294967296.
  rewrite <- !big_endian_be_bytes. reflexivity.
Qed.

Lemma big_endian_length w n : length (big_endian w n) = w.
Proof.
  unfold big_endian. rewrite rev_length. revert n.
  induction w as [|w IH]; intro n; cbn [little_endian length]; auto.
Qed.

Lemma short_head_is_head mt n : n < 2 ^ 64 -> is_head mt n (short_head mt n).
Proof.
  intro H. unfold short_head.
  destruct (N.ltb_spec n 24); [now apply head0|].
  destruct (N.ltb_spec n (2^8)); [now apply head1|].
  destruct (N.ltb_spec n (2^16)); [now apply head2|].
  destruct (N.ltb_spec n (2^32)); [now apply head4|].
  now apply head8.
Qed.

(** Value of a big endian string. *)
Fixpoint be_val (l : bytes) : N :=
  match l with [] => 0 | b :: r => Byte.to_N b * 256 ^ blen r + be_val r end.

Lemma pow256_succ n : 256 ^ (1 + n) = 256 * 256 ^ n.
Proof. replace (1 + n) with (N.succ n) by lia. apply N.pow_succ_r'. Qed.

Lemma be_val_app a b : be_val (a ++ b) = be_val a * 256 ^ blen b + be_val b.
Proof.
  induction a as [|x a IH]; cbn [be_val app]; [lia|].
  rewrite IH, blen_app, N.pow_add_r. lia.
Qed.

Lemma be_val_big_endian w n : be_val (big_endian w n) = n mod 256 ^ N.of_nat w.
Proof.
  unfold big_endian. revert n. induction w as [|w IH]; intro n.
  - cbn. rewrite N.mod_1_r. reflexivity.
  - cbn [little_endian rev]. rewrite be_val_app, IH. cbn [be_val]. rewrite to_of_N.
    change (blen [byte_of_N (n mod 256)]) with 1. change (blen (@nil byte)) with 0.
    rewrite N.pow_0_r, N.pow_1_r.
    rewrite Nat2N.inj_succ, N.pow_succ_r'. rewrite N.mod_mul_r by (try apply N.pow_nonzero; lia).
    lia.
Qed.

Lemma be_val_bound l : be_val l < 256 ^ blen l.
Proof.
  induction l as [|b r IH]; [cbn; lia|]. cbn [be_val]. rewrite blen_cons, pow256_succ.
  pose proof (to_N_lt b). nia.
Qed.

Lemma be_bytes_val l : be_bytes (length l) (be_val l) = l.
Proof.
  induction l as [|b r IH]; [reflexivity|].
  cbn [length be_bytes be_val].
  pose proof (be_val_bound r) as Hb. unfold blen in *.
  set (k := 256 ^ N.of_nat (length r)) in *.
  assert (Hk : k <> 0) by (apply N.pow_nonzero; lia).
  f_equal.
  - rewrite N.div_add_l by exact Hk. rewrite N.div_small by exact Hb.
    rewrite N.add_0_r. apply of_to_N.
  - assert (G : forall w m x, be_bytes w (m + x * 256 ^ N.of_nat w) = be_bytes w m).
    { clear. induction w as [|w IH]; intros m x; [reflexivity|].
      cbn [be_bytes]. f_equal.
      - apply byte_of_N_mod. rewrite Nat2N.inj_succ, N.pow_succ_r'.
        set (k := 256 ^ N.of_nat w). assert (k <> 0) by (apply N.pow_nonzero; lia).
        replace (m + x * (256 * k)) with (m + (x * 256) * k) by lia.
        rewrite N.div_add by assumption. rewrite N.mod_add by lia. reflexivity.
      - rewrite Nat2N.inj_succ, N.pow_succ_r'.
        replace (m + x * (256 * 256 ^ N.of_nat w)) with (m + (x * 256) * 256 ^ N.of_nat w) by lia.
        apply IH. }
    rewrite N.add_comm. unfold k. rewrite G. exact IH.
Qed.

(** ** Monads *)

Lemma mbind_ret_inv {A B} (x : M A) (f : A -> M B) l b :
  mbind x f = (l, Ret b) ->
  exists l1 a l2, x = (l1, Ret a) /\ f a = (l2, Ret b) /\ l = l1 ++ l2.
Proof.
  unfold mbind. destruct x as [l1 [a|w]]; [|congruence].
  destruct (f a) as [l2 r] eqn:E. intro H. injection H as <- ->. eauto 6.
Qed.

Lemma obind_ret_inv {A B} (x : out A) (f : A -> out B) b :
  obind x f = Ret b -> exists a, x = Ret a /\ f a = Ret b.
Proof. destruct x; cbn; [eauto | discriminate]. Qed.

Lemma terr_eqb_eq a b : terr_eqb a b = true <-> a = b.
Proof. split; [destruct a, b; easy | intros ->; destruct b; reflexivity]. Qed.

Lemma terr_eqb_refl a : terr_eqb a a = true.
Proof. destruct a; reflexivity. Qed.

Lemma terr_eqb_neq a b : terr_eqb a b = false <-> a <> b.
Proof.
  destruct (terr_eqb a b) eqn:E.
  - apply terr_eqb_eq in E. split; [discriminate | contradiction].
  - split; [|reflexivity]. intros _ ->. rewrite terr_eqb_refl in E. discriminate.
Qed.
