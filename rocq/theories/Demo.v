(** Small concrete libraries, used only to exhibit cases that meet the
    hypotheses of the theorems about adapters. Not part of the code under study. *)
From Verif Require Import Base Const Crypto Algs OpenSSL Psa BaseFacts Spec SignSpec AdapterSpec OpenSSLFacts Toy.
From Verif Require Export DemoLib.
From Coq Require Import Lia ZifyBool ZifyNat ZifyN.
Ltac Zify.zify_post_hook ::= Z.div_mod_to_equations.
Open Scope N_scope. Open Scope list_scope.

(** ** Reading DER *)

Lemma take_app {A} n (a b : list A) : length a = n -> firstn n (a ++ b) = a /\ skipn n (a ++ b) = b.
Proof.
  intros <-. split.
  - now rewrite firstn_app, firstn_all, Nat.sub_diag, firstn_O, app_nil_r.
  - now rewrite skipn_app, skipn_all, Nat.sub_diag, skipn_O.
Qed.

Lemma width_is n : n < 256 ^ N.of_nat (byte_width n).
Proof. rewrite byte_width_bound. exact (num_bytes_bound n). Qed.

Lemma read_length_ok n r : n < 256 ^ 120 -> read_length (der_length n ++ r) = Some (n, r).
Proof.
  intro L. unfold der_length. destruct (N.ltb_spec n 128) as [H|H]; cbn [app read_length].
  - rewrite to_of_N. replace (n mod 256) with n by (symmetry; apply N.mod_small; lia). replace (n <? 128) with true by lia. reflexivity.
  - assert (W : N.of_nat (byte_width n) <= 120) by (rewrite byte_width_bound; apply num_bytes_least; exact L).
    rewrite to_of_N. replace ((128 + N.of_nat (byte_width n)) mod 256) with (128 + N.of_nat (byte_width n)) by (symmetry; apply N.mod_small; lia).
    replace (_ <? 128) with false by lia. cbv zeta. replace (N.to_nat _) with (byte_width n) by lia.
    destruct (take_app (byte_width n) (big_endian (byte_width n) n) r (big_endian_length _ _)) as [-> ->].
    rewrite bin2bn_big_endian by apply width_is. reflexivity.
Qed.

Lemma der_uint_shape n : der_uint n = x02 :: der_length (N.of_nat (S (N.to_nat (N.size n / 8)))) ++ big_endian (S (N.to_nat (N.size n / 8))) n.
Proof. reflexivity. Qed.

Lemma size_small n : n < 256 ^ 200 -> N.size n <= 1600.
Proof. intro H. apply size_mono. rewrite <- pow8 in H. exact H. Qed.

Lemma small_pow k n : k <= 1000 -> n <= k -> n < 256 ^ 120.
Proof. intros K L. assert (1000 < 256 ^ 120) by reflexivity. lia. Qed.

Lemma read_uint_ok n r : n < 256 ^ 200 -> read_uint (der_uint n ++ r) = Some (n, r).
Proof.
  intro L. apply size_small in L. rewrite der_uint_shape. set (w := S (N.to_nat (N.size n / 8))).
  assert (B : n < 256 ^ N.of_nat w).
  { rewrite <- pow8. eapply N.lt_le_trans; [apply N.size_gt|]. apply N.pow_le_mono_r; [lia|]. unfold w. lia. }
  cbn [app read_uint]. rewrite <- app_assoc. rewrite read_length_ok by (apply (small_pow 1000); unfold w; lia).
  rewrite Nat2N.id. destruct (take_app w (big_endian w n) r (big_endian_length _ _)) as [-> ->].
  rewrite bin2bn_big_endian by exact B. reflexivity.
Qed.

Lemma der_uint_len n : n < 256 ^ 200 -> blen (der_uint n) <= 300.
Proof.
  intro L. apply size_small in L. rewrite der_uint_shape, blen_cons, blen_app. set (w := S (N.to_nat (N.size n / 8))).
  assert (blen (big_endian w n) = N.of_nat w) by (unfold blen; now rewrite big_endian_length).
  assert (blen (der_length (N.of_nat w)) <= 3) by (apply der_length_bound; change (2 ^ 16) with 65536; unfold w; lia).
  unfold w in *. lia.
Qed.

Lemma read_signature_ok r s : r < 256 ^ 200 -> s < 256 ^ 200 -> read_signature (der_signature r s) = Some (r, s).
Proof.
  intros R S. unfold der_signature. cbn [app read_signature]. rewrite read_length_ok.
  - rewrite read_uint_ok by exact R. rewrite <- (app_nil_r (der_uint s)), read_uint_ok by exact S. reflexivity.
  - apply (small_pow 1000); [lia|]. rewrite blen_app. pose proof (der_uint_len _ R). pose proof (der_uint_len _ S). lia.
Qed.

(** ** An OpenSSL *)

Lemma demo_sig_len h : blen (demo_sig h) = 64.
Proof. exact (blen_firstn_pad 64 _). Qed.

Lemma demo_numbers h : demo_r h < 256 ^ 32 /\ demo_s h < 256 ^ 32.
Proof.
  pose proof (demo_sig_len h) as L. unfold demo_r, demo_s.
  assert (A : blen (firstn 32 (demo_sig h)) = 32) by (unfold blen in *; rewrite firstn_length; lia).
  assert (B : blen (skipn 32 (demo_sig h)) = 32) by (unfold blen in *; rewrite skipn_length; lia).
  pose proof (bin2bn_bound (firstn 32 (demo_sig h))) as X. pose proof (bin2bn_bound (skipn 32 (demo_sig h))) as Y.
  rewrite A in X. rewrite B in Y. auto.
Qed.

Lemma far k n : n < 256 ^ k -> k <= 200 -> n < 256 ^ 200.
Proof. intros H K. eapply N.lt_le_trans; [exact H|]. apply N.pow_le_mono_r; lia. Qed.

Lemma made_inv b room x : made b room = Some x -> x = b /\ blen b <= room.
Proof. unfold made. destruct (N.leb_spec (blen b) room); [|discriminate]. intro H0. injection H0 as <-. auto. Qed.

Lemma demo_read h : read_signature (demo_der h) = Some (demo_r h, demo_s h).
Proof. destruct (demo_numbers h) as [R S]. exact (read_signature_ok (demo_r h) (demo_s h) (far 32 _ R (proj1 (N.leb_le 32 200) eq_refl)) (far 32 _ S (proj1 (N.leb_le 32 200) eq_refl))). Qed.

Lemma demo_works : openssl_works demo_ossl demo_hash.
Proof.
  repeat apply conj; try reflexivity; try exact read_signature_ok.
  - intros x h room b H. cbn [pkey_sign demo_ossl] in H. destruct (px_params x); apply made_inv in H as [-> H]; exact H.
  - intros key t room b H. cbn [dsign demo_ossl] in H. apply made_inv in H as [-> H]; exact H.
  - intros x h room b r s E H D. cbn [pkey_sign d2i_sig demo_ossl ev_bits] in *. rewrite E in H. apply made_inv in H as [-> _].
    rewrite demo_read in D. injection D as <- <-. exact (demo_numbers h).
  - intros md data [-> | [-> | ->]]; unfold demo_hash; apply blen_firstn_pad.
Qed.

Lemma demo_pair alg sk vk : key_pair demo_ossl alg sk vk.
Proof.
  split; [reflexivity|]. split; [|split].
  - intros h room der r s H D. cbn [pkey_sign d2i_sig demo_ossl px_params i2d_sig pkey_verify] in *. apply made_inv in H as [-> _].
    rewrite demo_read in D. injection D as <- <-. eexists. split; [reflexivity|]. fold (demo_der h). now rewrite bytes_eqb_refl.
  - intros h room sig H. cbn [pkey_sign demo_ossl px_params pkey_verify pss_settings] in *. apply made_inv in H as [-> _]. now rewrite bytes_eqb_refl.
  - intros t room sig H. cbn [dsign demo_ossl dverify_init dverify] in *. apply made_inv in H as [-> _]. now rewrite bytes_eqb_refl.
Qed.

Lemma demo_sizes key : size_reported demo_ossl key.
Proof.
  split.
  - intros x h room b _ P H. cbn [pkey_sign demo_ossl ev_size] in *. destruct (px_params x); [contradiction|].
    apply made_inv in H as [-> _]. apply demo_sig_len.
  - intros t room b H. cbn [dsign demo_ossl ev_size] in *. apply made_inv in H as [-> _]. apply demo_sig_len.
Qed.

Lemma demo_rooms key : room_no_matter demo_ossl key.
Proof.
  split.
  - intros x h room room' b _ H L. cbn [pkey_sign demo_ossl] in *. destruct (px_params x); apply made_inv in H as [-> _];
      unfold made; destruct (N.leb_spec (blen (demo_der h)) room'); destruct (N.leb_spec (blen (demo_sig h)) room'); try reflexivity; lia.
  - intros t room room' b H L. cbn [dsign demo_ossl] in *. apply made_inv in H as [-> _].
    unfold made. destruct (N.leb_spec (blen (demo_sig t)) room'); [reflexivity|lia].
Qed.

Lemma demo_curve alg key : on_curve demo_ossl alg key.
Proof. intros [-> | [-> | ->]]; vm_compute; discriminate. Qed.

(** ** A PSA *)

Lemma demo_psa_room : psa_within_room demo_psa.
Proof.
  split.
  - intros key a h room. cbn [psa_sign_hash demo_psa]. destruct (N.leb_spec 64 room); cbn [snd]; [rewrite demo_sig_len; lia|change (blen (@nil byte)) with 0; lia].
  - intros a data room. cbn [psa_hash_finish demo_psa]. destruct a; try (change (blen (snd ((-137)%Z, @nil byte))) with 0; lia).
    destruct (N.leb_spec (blen (demo_hash hash data)) room); cbn [snd]; [lia|change (blen (@nil byte)) with 0; lia].
Qed.

Lemma demo_psa_hash : psa_hash_library demo_psa demo_hash.
Proof.
  split; [discriminate|]. split; [reflexivity|]. split; [reflexivity|].
  intros md data [-> | [-> | ->]]; unfold demo_hash; apply blen_firstn_pad.
Qed.

Lemma demo_psa_pair sk vk : psa_key_pair demo_psa sk vk.
Proof.
  intros a h room sig H. cbn [psa_sign_hash psa_verify_hash demo_psa] in *. destruct (64 <=? room); [|discriminate].
  injection H as <-. now rewrite bytes_eqb_refl.
Qed.

Lemma demo_psa_sizes key : psa_size_reported demo_psa key.
Proof.
  exists PKEcc, 256. split; [reflexivity|]. intros a h room sig H. cbn [psa_sign_hash demo_psa] in H. destruct (64 <=? room); [|discriminate].
  injection H as <-. rewrite demo_sig_len. reflexivity.
Qed.

Lemma demo_psa_rooms key : psa_room_no_matter demo_psa key.
Proof.
  intros a h room room' sig H L. cbn [psa_sign_hash demo_psa] in *. destruct (64 <=? room); [|discriminate].
  injection H as <-. rewrite demo_sig_len in L. replace (64 <=? room') with true by lia. reflexivity.
Qed.
