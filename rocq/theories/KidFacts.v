(** Finding the key by its id with two calls (C75). *)
From Verif Require Import Base Const QEnc QDec Crypto Util Sign Params Verify BaseFacts Spec SignSpec DecSpec VerifySpec VerifyTop VerifyMore Unique ProtocolSpec ProtocolVerify KidSpec.
From Coq Require Import Lia ZifyBool ZifyNat ZifyN.
Open Scope N_scope. Open Scope list_scope. Open Scope mon_scope.

Lemma lor8 flags n : n <> 3 -> N.testbit (N.lor flags 8) n = N.testbit flags n.
Proof. intros Hn. rewrite N.lor_spec. change 8 with (2 ^ 3). rewrite N.pow2_bits_false by congruence. apply orb_false_r. Qed.
Lemma lor8_only flags : decode_only (N.lor flags 8) = true.
Proof. unfold decode_only. rewrite N.lor_spec. change 8 with (2 ^ 3). rewrite N.pow2_bits_true. apply orb_true_r. Qed.

Lemma acceptable_lor8 c flags dc gv g pm p pl : acceptable c (N.lor flags 8) dc gv g pm p pl <-> acceptable c flags dc gv g pm p pl.
Proof.
  split; intros [A1 A2 A3 A4 A5 A6 A7]; constructor; auto;
    unfold tag_accepted, requires_tag, prohibits_tag, crit_ok, allows_unknown_crit, kid_ok, requires_kid in *;
    rewrite ?lor8 in * by lia; assumption.
Qed.

(** The first call. *)
Lemma first_call c cr junk flags msg aad payload dc ad gv log w :
  holds aad ad -> detached_arg dc payload gv ->
  verify_internal c cr junk (verify_init (N.lor flags 8)) msg aad payload true dc = (log, Ret w) -> w_err w = T_SUCCESS ->
  log = [] /\ exists g pm p pl, message msg g pm /\ acceptable c flags dc gv g pm p pl /\ w_params w = Some p /\
    (short_circuit_kid c p = false -> uses_eddsa c p = true ->
     blen (sig_structure (g_prot g) ad pl) <= SIZE_MAX /\
     verify_auxiliary_buffer_size c (w_ctx w) = blen (sig_structure (g_prot g) ad pl)).
Proof.
  intros A G H W.
  pose proof (decode_only_independent c cr cr junk (verify_init (N.lor flags 8)) (verify_init (N.lor flags 8)) msg aad payload true dc
    eq_refl eq_refl eq_refl (lor8_only flags)) as [_ N]. rewrite H in N. cbn [fst] in N. split; [exact N|].
  destruct (verify_sound_full _ _ _ _ _ _ _ _ _ _ _ _ _ (eq_refl : length (v_tags (verify_init (N.lor flags 8))) = 4%nat) A G H W)
    as (g & pm & p & pl & M & Ac & (_ & D & _) & _ & X & _ & S).
  exists g, pm, p, pl. cbn [v_flags verify_init] in Ac. apply (acceptable_lor8 c flags) in Ac. split; [exact M|]. split; [exact Ac|]. split; [exact D|].
  intros SC ED. destruct (X SC ED) as [L _]. cbn [v_aux verify_init wb_len] in L. split; [exact L|].
  unfold verify_auxiliary_buffer_size. rewrite S, SC, ED. cbn [negb andb]. unfold uses_eddsa in ED.
  destruct (dis_eddsa c); [discriminate ED|reflexivity].
Qed.

Definition second_ctx (flags : N) (k : tkey) (n : N) : vctx :=
  verify_set_auxiliary_buffer (set_verification_key (verify_init flags) k) {| wb_null := false; wb_len := n |}.

Lemma by_kid_inv c cr junk flags lookup msg aad payload dc log r :
  verify_by_kid c cr junk flags lookup msg aad payload dc = (log, Ret r) ->
  exists log1 w1, verify_internal c cr junk (verify_init (N.lor flags 8)) msg aad payload true dc = (log1, Ret w1) /\
  ((w_err w1 <> T_SUCCESS \/ w_params w1 = None) /\ log = log1 /\ r = Some w1 \/
   exists p, w_err w1 = T_SUCCESS /\ w_params w1 = Some p /\
     (lookup (p_kid p) = None /\ r = None /\ log = log1 \/
      exists k log2 w2, lookup (p_kid p) = Some k /\
        verify_internal c cr junk (second_ctx flags k (verify_auxiliary_buffer_size c (w_ctx w1))) msg aad payload true dc = (log2, Ret w2) /\
        r = Some w2 /\ log = log1 ++ log2)).
Proof.
  unfold verify_by_kid. intros H.
  destruct (verify_internal c cr junk (verify_init (N.lor flags 8)) msg aad payload true dc) as [log1 [w1|u]] eqn:E; [|discriminate H].
  exists log1, w1. split; [reflexivity|]. cbn [mbind] in H.
  assert (T : w_err w1 = T_SUCCESS \/ w_err w1 <> T_SUCCESS) by (destruct (w_err w1); (left; reflexivity) || (right; discriminate)).
  destruct T as [T|T].
  2:{ left. split; [now left|]. destruct (w_err w1); try congruence; cbn in H; injection H as <- <-; rewrite ?app_nil_r; auto. }
  rewrite T in H. destruct (w_params w1) as [p|]; [|left; split; [now right|]; cbn in H; injection H as <- <-; rewrite ?app_nil_r; auto].
  right. exists p. split; [exact T|]. split; [reflexivity|].
  destruct (lookup (p_kid p)) as [k|]; [|left; cbn in H; injection H as <- <-; rewrite ?app_nil_r; auto].
  right. exists k. fold (second_ctx flags k (verify_auxiliary_buffer_size c (w_ctx w1))) in H.
  destruct (verify_internal c cr junk (second_ctx _ _ _) msg aad payload true dc) as [log2 [w2|u]]; [|discriminate H].
  cbn in H. injection H as <- <-. exists log2, w2. rewrite app_nil_r. auto.
Qed.

Theorem by_kid_sound c cr junk flags lookup msg aad payload dc ad gv log w :
  decode_only flags = false -> holds aad ad -> detached_arg dc payload gv ->
  verify_by_kid c cr junk flags lookup msg aad payload dc = (log, Ret (Some w)) -> w_err w = T_SUCCESS ->
  exists g pm p pl k, message msg g pm /\ acceptable c flags dc gv g pm p pl /\ lookup (p_kid p) = Some k /\
    w_params w = Some p /\ w_payload w = match payload with Some _ => if dc then None else Some (UBuf pl) | None => None end /\
    accepted c cr flags k p (sig_structure (g_prot g) ad pl) (g_sig g) /\
    orderly c cr (p_alg p) (verifies_directly (p_alg p) k (p_kid p) (g_sig g)) (verifies_digest (p_alg p) k (p_kid p) (g_sig g)) log.
Proof.
  intros D A G H W. destruct (by_kid_inv _ _ _ _ _ _ _ _ _ _ _ H) as (log1 & w1 & H1 & [(X & _ & E)|(p & W1 & P1 & [(_ & E & _)|(k & log2 & w2 & K & H2 & E & ->)])]).
  - injection E as <-. destruct X as [X|X]; [congruence|].
    destruct (first_call _ _ _ _ _ _ _ _ _ _ _ _ A G H1 W) as (_ & g & pm & p & pl & _ & _ & Y & _). congruence.
  - discriminate E.
  - injection E as <-. destruct (first_call _ _ _ _ _ _ _ _ _ _ _ _ A G H1 W1) as (-> & g1 & pm1 & p1 & pl1 & M1 & Ac1 & P1' & _).
    rewrite P1 in P1'. injection P1' as <-. cbn [app].
    set (me := second_ctx flags k (verify_auxiliary_buffer_size c (w_ctx w1))) in *.
    destruct (verify_sound_full c cr junk me _ _ _ _ _ _ _ _ _ (eq_refl : length (v_tags me) = 4%nat) A G H2 W)
      as (g & pm & p' & pl & M & Ac & (_ & D1 & D2) & S & _).
    destruct (message_unique _ _ _ _ _ M M1) as [-> ->].
    assert (p' = p) as -> by exact (reported_det _ _ _ _ _ (ac_params _ _ _ _ _ _ _ _ Ac) (ac_params _ _ _ _ _ _ _ _ Ac1)).
    exists g1, pm1, p, pl, k. split; [exact M|]. split; [exact Ac|]. split; [exact K|]. split; [exact D1|]. split; [exact D2|].
    split; [exact (S D)|].
    destruct (verify_orderly c cr junk me _ _ _ _ _ _ _ _ _ (eq_refl : length (v_tags me) = 4%nat) A G H2) as [->|(g' & pm' & p' & pl' & M' & Ac' & O & _)]; [constructor|].
    destruct (message_unique _ _ _ _ _ M' M) as [-> ->].
    assert (p' = p) as -> by exact (reported_det _ _ _ _ _ (ac_params _ _ _ _ _ _ _ _ Ac') (ac_params _ _ _ _ _ _ _ _ Ac)).
    exact O.
Qed.

Theorem by_kid_exact c cr junk flags lookup msg aad payload dc ad gv :
  decode_only flags = false -> holds aad ad -> detached_arg dc payload gv -> one_digest cr -> hash_reliable c cr [msg; ad; gv] ->
  (exists log w, verify_by_kid c cr junk flags lookup msg aad payload dc = (log, Ret (Some w)) /\ w_err w = T_SUCCESS) <->
  (exists g pm p pl k, message msg g pm /\ acceptable c flags dc gv g pm p pl /\ lookup (p_kid p) = Some k /\
     accepted c cr flags k p (sig_structure (g_prot g) ad pl) (g_sig g) /\
     (short_circuit_kid c p = false -> uses_eddsa c p = true -> blen (sig_structure (g_prot g) ad pl) <= SIZE_MAX)).
Proof.
  intros D A G OD HR. split.
  - intros (log & w & H & W). destruct (by_kid_sound _ _ _ _ _ _ _ _ _ _ _ _ _ D A G H W) as (g & pm & p & pl & k & M & Ac & K & _ & _ & S & _).
    exists g, pm, p, pl, k. repeat (split; [assumption|]).
    destruct (by_kid_inv _ _ _ _ _ _ _ _ _ _ _ H) as (log1 & w1 & H1 & X).
    assert (W1 : w_err w1 = T_SUCCESS).
    { destruct X as [(_ & _ & E)|(? & E & _)]; [injection E as <-; exact W|exact E]. }
    destruct (first_call _ _ _ _ _ _ _ _ _ _ _ _ A G H1 W1) as (_ & g1 & pm1 & p1 & pl1 & M1 & Ac1 & _ & Y).
    destruct (message_unique _ _ _ _ _ M M1) as [<- <-].
    assert (p1 = p) as -> by exact (reported_det _ _ _ _ _ (ac_params _ _ _ _ _ _ _ _ Ac1) (ac_params _ _ _ _ _ _ _ _ Ac)).
    assert (pl1 = pl) as -> by exact (payload_det _ _ _ _ _ (ac_payload _ _ _ _ _ _ _ _ Ac1) (ac_payload _ _ _ _ _ _ _ _ Ac)).
    intros SC ED. exact (proj1 (Y SC ED)).
  - intros (g & pm & p & pl & k & M & Ac & K & S & L).
    destruct (proj2 (verify_iff c cr junk (verify_init (N.lor flags 8)) msg aad payload true dc ad gv eq_refl A G OD HR)) as (log1 & w1 & H1 & W1).
    { exists g, pm, p, pl. split; [exact M|]. split; [apply acceptable_lor8; exact Ac|]. split.
      - cbn [v_flags verify_init]. rewrite lor8_only. discriminate.
      - intros SC ED. split; [exact (L SC ED)|]. cbn [v_flags verify_init]. rewrite lor8_only. discriminate. }
    destruct (first_call _ _ _ _ _ _ _ _ _ _ _ _ A G H1 W1) as (E & g1 & pm1 & p1 & pl1 & M1 & Ac1 & P1 & Y).
    destruct (message_unique _ _ _ _ _ M M1) as [<- <-].
    assert (p1 = p) as -> by exact (reported_det _ _ _ _ _ (ac_params _ _ _ _ _ _ _ _ Ac1) (ac_params _ _ _ _ _ _ _ _ Ac)).
    assert (pl1 = pl) as -> by exact (payload_det _ _ _ _ _ (ac_payload _ _ _ _ _ _ _ _ Ac1) (ac_payload _ _ _ _ _ _ _ _ Ac)).
    destruct (proj2 (verify_iff c cr junk (second_ctx flags k (verify_auxiliary_buffer_size c (w_ctx w1))) msg aad payload true dc ad gv eq_refl A G OD HR)) as (log2 & w2 & H2 & W2).
    { exists g, pm, p, pl. split; [exact M|]. split; [exact Ac|]. split; [intros _; exact S|].
      intros SC ED. destruct (Y SC ED) as (_ & N). cbn [second_ctx verify_set_auxiliary_buffer v_aux wb_len wb_null]. rewrite N. split; [lia|reflexivity]. }
    exists (log1 ++ log2), w2. split; [|exact W2]. unfold verify_by_kid. rewrite H1. cbn [mbind]. rewrite W1, P1, K.
    fold (second_ctx flags k (verify_auxiliary_buffer_size c (w_ctx w1))). rewrite H2. cbn. now rewrite app_nil_r.
Qed.

(** No key, no call of the adapter. *)
Theorem by_kid_unknown c cr junk flags lookup msg aad payload dc ad gv log r :
  holds aad ad -> detached_arg dc payload gv ->
  verify_by_kid c cr junk flags lookup msg aad payload dc = (log, Ret r) ->
  (forall g pm p pl, message msg g pm -> acceptable c flags dc gv g pm p pl -> lookup (p_kid p) = None) ->
  log = [] /\ (r = None \/ exists w, r = Some w /\ w_err w <> T_SUCCESS).
Proof.
  intros A G H U. destruct (by_kid_inv _ _ _ _ _ _ _ _ _ _ _ H) as (log1 & w1 & H1 & X).
  assert (N : log1 = []).
  { pose proof (decode_only_independent c cr cr junk (verify_init (N.lor flags 8)) (verify_init (N.lor flags 8)) msg aad payload true dc
      eq_refl eq_refl eq_refl (lor8_only flags)) as [_ N]. now rewrite H1 in N. }
  destruct X as [([X|X] & -> & ->)|(p & W1 & P1 & [(_ & -> & ->)|(k & log2 & w2 & K & _ & _ & _)])].
  - split; [exact N|]. right. eauto.
  - split; [exact N|]. right. exists w1. split; [reflexivity|]. intros W1.
    destruct (first_call _ _ _ _ _ _ _ _ _ _ _ _ A G H1 W1) as (_ & g & pm & p & pl & _ & _ & Y & _). congruence.
  - split; [exact N|]. now left.
  - exfalso. destruct (first_call _ _ _ _ _ _ _ _ _ _ _ _ A G H1 W1) as (_ & g & pm & p1 & pl & M & Ac & Y & _).
    rewrite P1 in Y. injection Y as <-. rewrite (U _ _ _ _ M Ac) in K. discriminate K.
Qed.
