(** The small concrete libraries of DemoLib.v can sign. *)
From Verif Require Import Base Const Crypto OpenSSL Psa BaseFacts Spec SignSpec AdapterSpec OpenSSLFacts Toy Demo Sign LiveSpec.
From Coq Require Import Lia ZifyBool ZifyNat ZifyN.
Open Scope N_scope. Open Scope list_scope.

Lemma toy_works c q parts : wants_short_circuit (q_flags q) = false -> signer_works c toy q parts 64.
Proof.
  intro W. unfold signer_works. rewrite W. split; [reflexivity|].
  assert (S : forall d room, 64 <= room -> exists sig, (if room <? 64 then Ret (ERR_SIG_BUFFER_SIZE, []) else Ret (T_SUCCESS, toy_sig d)) = Ret (T_SUCCESS, sig) /\ blen sig = 64).
  { intros d room L. replace (room <? 64) with false by lia. eexists. split; [reflexivity|apply toy_sig_len]. }
  destruct (q_alg q =? -8)%Z; [exact S|]. split.
  - split; [intros; eexists; reflexivity|apply toy_reliable].
  - intros halg data d room _ _ L. exact (S d room L).
Qed.

Lemma demo_can_hash : ossl_can_hash demo_ossl.
Proof. intros md _. split; reflexivity. Qed.

Lemma made_fits b room : blen b <= room -> made b room = Some b.
Proof. intro L. unfold made. replace (_ <=? _) with true by lia. reflexivity. Qed.

Lemma demo_can_sign alg key : ossl_can_sign demo_ossl alg key.
Proof.
  unfold ossl_can_sign. destruct (alg =? -8)%Z.
  { split; [reflexivity|]. intros t room L. exists (demo_sig t). split; [|apply demo_sig_len]. apply made_fits. rewrite demo_sig_len. exact L. }
  intros halg d room HF _. change (coordinate_length (ev_bits demo_ossl key)) with 32. destruct (is_ecdsa_id alg) eqn:E.
  - intro L. destruct (demo_numbers d) as [Hr Hs]. exists (demo_r d), (demo_s d). split; [|auto].
    apply made_fits. pose proof (der_signature_bound _ _ 32 Hr Hs ltac:(lia)) as B. unfold demo_der. lia.
  - intro L. exists (demo_sig d). split; [|apply demo_sig_len].
    apply made_fits. rewrite demo_sig_len. exact L.
Qed.

Lemma demo_psa_can_hash : psa_can_hash demo_psa.
Proof. intros md _. reflexivity. Qed.
Lemma demo_psa_can_sign alg key : is_ecdsa_id alg = true -> psa_can_sign demo_psa alg key 64.
Proof.
  intro E. exists 256. rewrite E. split; [reflexivity|]. split; [reflexivity|]. intros halg d room _ _ L.
  exists (demo_sig d). split; [|apply demo_sig_len]. cbn [psa_sign_hash demo_psa]. replace (64 <=? room) with true by lia. reflexivity.
Qed.
