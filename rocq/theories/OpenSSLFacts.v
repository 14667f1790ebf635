(** Facts about the OpenSSL adapter. *)
From Verif Require Import Base Const Crypto Algs OpenSSL BaseFacts Spec AdapterSpec Sha256Facts.
From Coq Require Import Lia ZifyBool ZifyNat ZifyN.
Ltac Zify.zify_post_hook ::= Z.div_mod_to_equations.
Open Scope N_scope. Open Scope list_scope. Open Scope lmon_scope.

(** ** Big endian numbers *)

Lemma pow8 w : 2 ^ (8 * w) = 256 ^ w.
Proof. rewrite N.pow_mul_r. reflexivity. Qed.

Lemma big_endian_S w n : big_endian (S w) n = big_endian w (n / 256) ++ [byte_of_N n].
Proof.
  unfold big_endian. cbn [little_endian rev]. do 2 f_equal. apply byte_of_N_mod. apply N.mod_mod. discriminate.
Qed.

Lemma big_endian_length w : forall n, length (big_endian w n) = w.
Proof. induction w as [|w IH]; intro n; [reflexivity|]. rewrite big_endian_S, app_length, IH. cbn. lia. Qed.

Lemma bn_be_S w : forall n, bn_be (S w) n = bn_be w (n / 256) ++ [byte_of_N n].
Proof.
  induction w as [|w IH]; intro n.
  - cbn [bn_be app]. change (2 ^ (8 * N.of_nat 0)) with 1. now rewrite N.div_1_r.
  - change (bn_be (S (S w)) n) with (byte_of_N (n / 2 ^ (8 * N.of_nat (S w))) :: bn_be (S w) n).
    rewrite IH. cbn [bn_be app]. f_equal. f_equal. rewrite N.div_div by (try discriminate; apply N.pow_nonzero; discriminate).
    f_equal. rewrite !pow8. replace (N.of_nat (S w)) with (N.succ (N.of_nat w)) by lia. now rewrite N.pow_succ_r'.
Qed.

Lemma bn_be_spec w : forall n, bn_be w n = big_endian w n.
Proof. induction w as [|w IH]; intro n; [reflexivity|]. now rewrite bn_be_S, big_endian_S, IH. Qed.

Lemma big_endian_zero w : big_endian w 0 = repeat x00 w.
Proof.
  induction w as [|w IH]; [reflexivity|]. rewrite big_endian_S. change (0 / 256) with 0. rewrite IH.
  change (byte_of_N 0) with x00. clear. induction w as [|w IH]; [reflexivity|]. cbn [repeat app]. now rewrite IH.
Qed.

Lemma big_endian_pad a w : forall n, n < 256 ^ N.of_nat w -> big_endian (a + w) n = repeat x00 a ++ big_endian w n.
Proof.
  induction w as [|w IH]; intros n H.
  - change (256 ^ N.of_nat 0) with 1 in H. assert (n = 0) by lia. subst. rewrite Nat.add_0_r.
    rewrite big_endian_zero. cbn [big_endian little_endian rev]. now rewrite app_nil_r.
  - rewrite <- plus_n_Sm, !big_endian_S, IH; [now rewrite app_assoc|].
    replace (N.of_nat (S w)) with (N.succ (N.of_nat w)) in H by lia. rewrite N.pow_succ_r' in H.
    apply N.div_lt_upper_bound; [discriminate|exact H].
Qed.

Lemma num_bytes_bound n : n < 256 ^ bn_num_bytes n.
Proof.
  pose proof (N.size_gt n) as S. rewrite <- pow8. eapply N.lt_le_trans; [exact S|]. apply N.pow_le_mono_r; [discriminate|].
  unfold bn_num_bytes. lia.
Qed.

Lemma num_bytes_least n k : n < 256 ^ k -> bn_num_bytes n <= k.
Proof.
  intro H. rewrite <- pow8 in H. destruct (N.eq_dec n 0) as [->|NZ]; [cbn; lia|].
  assert (N.size n <= 8 * k).
  { rewrite N.size_log2 by exact NZ. apply N.le_succ_l. apply N.log2_lt_pow2; [lia|exact H]. }
  unfold bn_num_bytes. lia.
Qed.

Lemma bn2bin_spec n : bn_bn2bin n = big_endian (N.to_nat (bn_num_bytes n)) n.
Proof. apply bn_be_spec. Qed.

Lemma bn2bin_len n : blen (bn_bn2bin n) = bn_num_bytes n.
Proof. unfold blen. rewrite bn2bin_spec, big_endian_length. lia. Qed.

Lemma bin2bn_app a b : bn_bin2bn (a ++ [b]) = bn_bin2bn a * 256 + Byte.to_N b.
Proof. unfold bn_bin2bn. rewrite fold_left_app. reflexivity. Qed.

Lemma bin2bn_big_endian w : forall n, n < 256 ^ N.of_nat w -> bn_bin2bn (big_endian w n) = n.
Proof.
  induction w as [|w IH]; intros n H.
  - change (256 ^ N.of_nat 0) with 1 in H. assert (n = 0) by lia. now subst.
  - rewrite big_endian_S, bin2bn_app, to_of_N, IH; [lia|].
    replace (N.of_nat (S w)) with (N.succ (N.of_nat w)) in H by lia. rewrite N.pow_succ_r' in H.
    apply N.div_lt_upper_bound; [discriminate|exact H].
Qed.

Lemma bin2bn_bound b : bn_bin2bn b < 256 ^ blen b.
Proof.
  induction b as [|x b IH] using rev_ind; [reflexivity|]. rewrite bin2bn_app, blen_app. change (blen [x]) with 1.
  rewrite N.add_1_r, N.pow_succ_r'. pose proof (Byte.to_N_bounded x). nia.
Qed.

Lemma big_endian_bin2bn b : big_endian (length b) (bn_bin2bn b) = b.
Proof.
  induction b as [|x b IH] using rev_ind; [reflexivity|]. rewrite app_length, Nat.add_1_r, big_endian_S, bin2bn_app.
  pose proof (Byte.to_N_bounded x).
  replace ((bn_bin2bn b * 256 + Byte.to_N x) / 256) with (bn_bin2bn b) by lia. rewrite IH. do 2 f_equal.
  rewrite <- (of_to_N x) at 2. apply byte_of_N_mod. rewrite N.add_comm, N.mod_add by discriminate. reflexivity.
Qed.

Lemma key_size_spec lib key : ecdsa_key_size lib key = coordinate_length (ev_bits lib key).
Proof. unfold ecdsa_key_size, coordinate_length. destruct (N.eqb_spec (ev_bits lib key mod 8) 0); lia. Qed.

(** ** Signature conversion *)

Lemma write_zero_padded pre k post n : n < 256 ^ N.of_nat k ->
  write_at (pre ++ repeat x00 k ++ post) (Z.of_nat (length pre + k) - Z.of_N (bn_num_bytes n)) (bn_bn2bin n)
  = Ret (pre ++ big_endian k n ++ post).
Proof.
  intro H. pose proof (num_bytes_least _ _ H) as W.
  assert (Lb : blen (bn_bn2bin n) = bn_num_bytes n) by apply bn2bin_len.
  set (w := N.to_nat (bn_num_bytes n)) in *.
  assert (E : big_endian k n = repeat x00 (k - w) ++ bn_bn2bin n).
  { rewrite bn2bin_spec. fold w. replace k with ((k - w) + w)%nat at 1 by lia. apply big_endian_pad.
    replace (N.of_nat w) with (bn_num_bytes n) by lia. apply num_bytes_bound. }
  assert (R : repeat x00 k = repeat x00 (k - w) ++ repeat x00 w) by (rewrite <- repeat_app; f_equal; lia).
  unfold write_at. destruct (bn_bn2bin n) as [|b0 bs] eqn:D.
  - rewrite E, app_nil_r. change (blen (@nil byte)) with 0 in Lb. rewrite R.
    replace w with 0%nat at 2 by lia. cbn [repeat]. now rewrite app_nil_r.
  - rewrite <- D in *. clear D.
    assert (Lw : length (bn_bn2bin n) = w) by (unfold blen in Lb; lia).
    replace ((0 <=? Z.of_nat (length pre + k) - Z.of_N (bn_num_bytes n))%Z) with true by lia.
    replace ((Z.of_nat (length pre + k) - Z.of_N (bn_num_bytes n) + Z.of_N (blen (bn_bn2bin n))
              <=? Z.of_N (blen (pre ++ repeat x00 k ++ post)))%Z) with true
      by (rewrite !blen_app; unfold blen; rewrite repeat_length; lia).
    cbn [andb]. rewrite E, R.
    replace (Z.to_nat (Z.of_nat (length pre + k) - Z.of_N (bn_num_bytes n))) with (length (pre ++ repeat x00 (k - w)))
      by (rewrite app_length, repeat_length; lia).
    f_equal. rewrite <- !app_assoc. rewrite (app_assoc pre).
    rewrite firstn_app, firstn_all, Nat.sub_diag, firstn_O, app_nil_r.
    rewrite skipn_app. rewrite skipn_all2 by lia. cbn [app].
    replace (length (pre ++ repeat x00 (k - w)) + length (bn_bn2bin n) - length (pre ++ repeat x00 (k - w)))%nat with w by lia.
    rewrite skipn_app, repeat_length, Nat.sub_diag, skipn_O. rewrite skipn_all2 by (rewrite repeat_length; lia).
    rewrite <- !app_assoc. reflexivity.
Qed.

Lemma der_to_cose_ok lib key der room r s k : ecdsa_key_size lib key = k -> d2i_sig lib der = Some (r, s) ->
  r < 256 ^ k -> s < 256 ^ k -> 2 * k <= room ->
  ecdsa_signature_der_to_cose lib key der room = ([RAlloc RSig; RFree RSig], Ret (Some (cose_signature k r s))).
Proof.
  intros K D Hr Hs R. unfold ecdsa_signature_der_to_cose. rewrite D, K.
  pose proof (num_bytes_least _ _ Hr) as Wr. pose proof (num_bytes_least _ _ Hs) as Ws.
  replace (room <? bn_num_bytes r + bn_num_bytes s) with false by lia.
  set (kn := N.to_nat k). assert (EK : k = N.of_nat kn) by lia.
  set (rest := (N.to_nat room - 2 * kn)%nat).
  assert (B : repeat x00 (N.to_nat room) = [] ++ repeat x00 kn ++ (repeat x00 kn ++ repeat x00 rest)).
  { cbn [app]. rewrite <- !repeat_app. f_equal. lia. }
  rewrite B.
  pose proof (write_zero_padded [] kn (repeat x00 kn ++ repeat x00 rest) r) as W1. rewrite <- EK in W1.
  replace (Z.of_nat (length (@nil byte) + kn)) with (Z.of_N k) in W1 by (cbn [length]; lia).
  rewrite W1 by exact Hr. cbn [lbind app].
  pose proof (write_zero_padded (big_endian kn r) kn (repeat x00 rest) s) as W2. rewrite <- EK, big_endian_length in W2.
  replace (Z.of_nat (kn + kn)) with (2 * Z.of_N k)%Z in W2 by lia.
  rewrite W2 by exact Hs. cbn [lbind].
  assert (Lc : length (big_endian kn r ++ big_endian kn s) = (2 * kn)%nat) by (rewrite app_length, !big_endian_length; lia).
  rewrite app_assoc. set (sig := big_endian kn r ++ big_endian kn s) in *.
  replace (blen (sig ++ repeat x00 rest) <? 2 * k) with false
    by (rewrite blen_app; unfold blen; rewrite repeat_length, Lc; lia).
  cbn [lbind free lret alloc app]. do 3 f_equal.
  replace (N.to_nat (2 * k)) with (length sig) by lia. now rewrite firstn_app, firstn_all, Nat.sub_diag, firstn_O, app_nil_r.
Qed.

(** The outcome when [r] and [s] fit the buffer but twice the key length does
    not: a byte of [s] goes beyond the end. *)
Lemma der_to_cose_overflow lib key der room r s k : ecdsa_key_size lib key = k -> d2i_sig lib der = Some (r, s) ->
  r < 256 ^ k -> 0 < s -> bn_num_bytes r + bn_num_bytes s <= room -> room < 2 * k ->
  snd (ecdsa_signature_der_to_cose lib key der room) = UB OOBWrite.
Proof.
  intros K D Hr Hs F R. unfold ecdsa_signature_der_to_cose. rewrite D, K.
  replace (room <? bn_num_bytes r + bn_num_bytes s) with false by lia. cbn [lbind alloc].
  set (buf := repeat x00 (N.to_nat room)).
  assert (Lb : forall off d b, write_at buf off d = Ret b -> blen b = room).
  { intros off d b H. unfold write_at in H. destruct d as [|d0 d]; [injection H as <-; unfold buf, blen; rewrite repeat_length; lia|].
    destruct (_ && _)%bool eqn:C; [|discriminate]. injection H as <-.
    apply andb_true_iff in C as [C1 C2]. unfold blen in *. rewrite app_length, firstn_length. cbn [app length] in *.
    rewrite app_length, skipn_length. unfold buf in *. rewrite repeat_length in *. lia. }
  destruct (write_at buf (Z.of_N k - Z.of_N (bn_num_bytes r)) (bn_bn2bin r)) as [b|u] eqn:W; cbn [lbind].
  - apply Lb in W. unfold write_at.
    assert (Ls : blen (bn_bn2bin s) = bn_num_bytes s) by apply bn2bin_len.
    assert (P : 0 < bn_num_bytes s).
    { unfold bn_num_bytes. destruct s as [|p]; [lia|]. assert (0 < N.size (N.pos p)) by (cbn; lia). lia. }
    destruct (bn_bn2bin s) as [|b0 bs] eqn:E; [change (blen (@nil byte)) with 0 in Ls; lia|]. rewrite <- E in *.
    replace (2 * Z.of_N k - Z.of_N (bn_num_bytes s) + Z.of_N (blen (bn_bn2bin s)) <=? Z.of_N (blen b))%Z with false by lia.
    rewrite andb_false_r. reflexivity.
  - unfold write_at in W. destruct (bn_bn2bin r) as [|b0 bs]; [discriminate|]. destruct (_ && _)%bool; [discriminate|].
    injection W as <-. reflexivity.
Qed.

Lemma cose_to_der_length lib key sig room : blen sig <> 2 * ecdsa_key_size lib key ->
  ecdsa_signature_cose_to_der lib key sig room = ([], Ret (ERR_SIG_VERIFY, [])).
Proof.
  intro H. unfold ecdsa_signature_cose_to_der.
  replace (blen sig =? ecdsa_key_size lib key * 2) with false by lia. reflexivity.
Qed.

Lemma cose_halves k r s : let sig := cose_signature k r s in
  blen sig = k * 2 /\ firstn (N.to_nat k) sig = big_endian (N.to_nat k) r /\
  firstn (N.to_nat k) (skipn (N.to_nat k) sig) = big_endian (N.to_nat k) s.
Proof.
  unfold cose_signature. set (kn := N.to_nat k). split; [|split].
  - unfold blen. rewrite app_length, !big_endian_length. lia.
  - rewrite <- (big_endian_length kn r) at 1. now rewrite firstn_app, firstn_all, Nat.sub_diag, firstn_O, app_nil_r.
  - rewrite <- (big_endian_length kn r) at 2. rewrite skipn_app, skipn_all, Nat.sub_diag, skipn_O. cbn [app].
    rewrite <- (big_endian_length kn s) at 1. apply firstn_all.
Qed.

Lemma cose_to_der_ok lib key r s k der room : ecdsa_key_size lib key = k -> r < 256 ^ k -> s < 256 ^ k ->
  enough_memory lib -> i2d_sig lib r s = Some der -> 0 < blen der <= room ->
  exists log, ecdsa_signature_cose_to_der lib key (cose_signature k r s) room = (log, Ret (T_SUCCESS, der)) /\ released log.
Proof.
  intros K Hr Hs (M1 & M2 & M3) D R. unfold ecdsa_signature_cose_to_der. rewrite K.
  destruct (cose_halves k r s) as (E1 & E2 & E3). rewrite E1, E2, E3, N.eqb_refl, !M1, M2. cbn [negb].
  rewrite !bin2bn_big_endian by (rewrite N2Nat.id; assumption). rewrite M3, D. cbn [negb].
  replace ((room <? blen der) || (blen der =? 0)) with false by lia.
  cbn [lbind alloc free lret app]. eexists. split; reflexivity.
Qed.

(** Every signature of the right length is the format of some r and s. *)
Lemma cose_signature_onto k sig : blen sig = 2 * k ->
  exists r s, r < 256 ^ k /\ s < 256 ^ k /\ sig = cose_signature k r s.
Proof.
  intro H. set (kn := N.to_nat k).
  exists (bn_bin2bn (firstn kn sig)), (bn_bin2bn (skipn kn sig)).
  assert (L1 : length (firstn kn sig) = kn) by (rewrite firstn_length; unfold blen in H; lia).
  assert (L2 : length (skipn kn sig) = kn) by (rewrite skipn_length; unfold blen in H; lia).
  split; [|split].
  - pose proof (bin2bn_bound (firstn kn sig)) as B. unfold blen in B. rewrite L1 in B. now replace k with (N.of_nat kn) by lia.
  - pose proof (bin2bn_bound (skipn kn sig)) as B. unfold blen in B. rewrite L2 in B. now replace k with (N.of_nat kn) by lia.
  - unfold cose_signature. fold kn. pose proof (big_endian_bin2bn (firstn kn sig)) as B1. rewrite L1 in B1.
    pose proof (big_endian_bin2bn (skipn kn sig)) as B2. rewrite L2 in B2. rewrite B1, B2. symmetry. apply firstn_skipn.
Qed.

(** Size of a DER signature. *)
Lemma byte_width_bound n : N.of_nat (byte_width n) = (N.size n + 7) / 8.
Proof. unfold byte_width. lia. Qed.

Lemma size_mono n k : n < 2 ^ k -> N.size n <= k.
Proof.
  intro H. destruct (N.eq_dec n 0) as [->|NZ]; [cbn; lia|]. rewrite N.size_log2 by exact NZ. apply N.le_succ_l.
  apply N.log2_lt_pow2; lia.
Qed.

Lemma der_length_bound n : n < 2 ^ 16 -> blen (der_length n) <= 3.
Proof.
  intro H. unfold der_length. destruct (n <? 128); [cbn; lia|]. apply size_mono in H.
  unfold blen. cbn [length]. rewrite big_endian_length. unfold byte_width. lia.
Qed.

Lemma der_uint_bound n k : n < 256 ^ k -> k < 60000 -> blen (der_uint n) <= k + 5 /\ (k < 127 -> blen (der_uint n) <= k + 3).
Proof.
  intros H K. rewrite <- pow8 in H. apply size_mono in H. unfold der_uint.
  set (w := S (N.to_nat (N.size n / 8))). assert (Hw : N.of_nat w <= k + 1) by lia.
  rewrite !blen_app. change (blen [x02]) with 1.
  replace (blen (big_endian w n)) with (N.of_nat w) by (unfold blen; now rewrite big_endian_length).
  split.
  - pose proof (der_length_bound (N.of_nat w)). change (2 ^ 16) with 65536 in *. lia.
  - intro K2. unfold der_length. replace (N.of_nat w <? 128) with true by lia. cbn [blen length]. change (blen [byte_of_N (N.of_nat w)]) with 1. lia.
Qed.

Lemma der_signature_bound r s k : r < 256 ^ k -> s < 256 ^ k -> k < 127 -> 0 < blen (der_signature r s) <= 2 * k + 10.
Proof.
  intros Hr Hs K. apply der_uint_bound in Hr as [_ Hr]; [|lia]. apply der_uint_bound in Hs as [_ Hs]; [|lia].
  specialize (Hr K). specialize (Hs K). unfold der_signature. rewrite !blen_app. change (blen [x30]) with 1.
  pose proof (der_length_bound (blen (der_uint r) + blen (der_uint s))) as B.
  change (2 ^ 16) with 65536 in *. lia.
Qed.
