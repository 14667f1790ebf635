(** The contracts the rest of the theory asks of an adapter, proved of the test
    and OpenSSL adapters. *)
From Verif Require Import Base Const Crypto Params Sha256 Sha256Spec Sha256Facts Algs TestCrypto OpenSSL AdapterSpec.
From Verif Require Import Spec SignSpec BaseFacts OpenSSLFacts OpenSSLFacts2 SignMore VerifySpec.
From Coq Require Import Lia ZifyBool ZifyNat ZifyN.
Ltac Zify.zify_post_hook ::= Z.div_mod_to_equations.
Open Scope N_scope. Open Scope list_scope.

Lemma one_digest_of cr H : hash_is cr H -> one_digest cr.
Proof. intros X halg data d d' D D'. rewrite (X _ _ _ D). symmetry. exact (X _ _ _ D'). Qed.

Lemma max_hash_32 c : 32 <= max_hash_size c.
Proof. unfold max_hash_size. destruct (_ || _); [lia|]. destruct (_ || _); lia. Qed.

Lemma longest_bounds parts u : u_len u <= longest parts -> blen (u_data u) <= longest parts.
Proof. destruct u; cbn [u_len u_data]; [|auto]. intros _. change (blen []) with 0. lia. Qed.

Lemma firstn_exact {A} n (a b : list A) : length a = n -> firstn n (a ++ b) = a.
Proof. intros <-. rewrite firstn_app, firstn_all, Nat.sub_diag, firstn_O. apply app_nil_r. Qed.

(** ** The test adapter *)

Section Test.
Context (junk : bytes) (c : cfg) (J : length junk = 64%nat).
Let cr := test_crypto true junk c.

Lemma test_start halg h : cr_hash_start cr halg = (T_SUCCESS, h) -> halg = (-16)%Z /\ has_absorbed h [].
Proof.
  cbn [cr cr_hash_start test_crypto]. unfold test_hash_start.
  destruct (Z.eqb_spec halg SHA_256) as [->|]; cbn [negb]; [|discriminate]. intro H. injection H as <-.
  split; [reflexivity|]. now apply init_absorbed.
Qed.

Lemma test_update h D u h1 : has_absorbed h D -> test_hash_update true h u = Ret h1 -> has_absorbed h1 (D ++ u_data u).
Proof.
  intros A. destruct u as [n|b]; cbn [test_hash_update u_data].
  - intro H. injection H as <-. now rewrite app_nil_r.
  - destruct (N.lt_ge_cases (blen b) (2 ^ 32)) as [L|L].
    + destruct (update_spec h D b A L) as (h' & E & A'). rewrite E. intro H. injection H as <-. exact A'.
    + unfold sha256_update. rewrite (update_diverges b L _ _ _ _ A) by reflexivity. discriminate.
Qed.

Lemma test_fed (h : cr_hctx cr) data h' : fed cr h data h' -> forall D, has_absorbed h D -> has_absorbed h' (D ++ data).
Proof.
  induction 1 as [h|h u b h1 data h2 Hu Up _ IH]; intros D A; [now rewrite app_nil_r|].
  cbn [cr cr_hash_update test_crypto] in Up. apply (test_update _ _ _ _ A) in Up.
  rewrite app_assoc. apply IH. destruct Hu as [->|[-> ->]]; exact Up.
Qed.

Theorem test_hash_is : hash_is cr (fun _ => sha256).
Proof.
  intros halg data d (h & h' & n & S & F & Fi). apply test_start in S as [_ A].
  pose proof (test_fed _ _ _ F [] A) as A'. cbn [app] in A'. cbn [cr cr_hash_finish test_crypto] in Fi. unfold test_hash_finish in Fi.
  destruct (N.lt_ge_cases n 32) as [L|L].
  - exfalso. revert Fi. destruct (sha256_final true h' (repeat x00 (N.to_nat n))) as [x|w] eqn:E; [|discriminate].
    apply final_room in E. rewrite repeat_length in E. lia.
  - rewrite (final_spec _ data) in Fi; [|exact A'|rewrite repeat_length; lia]. cbn [obind] in Fi.
    match type of Fi with Ret (_, ?x) = _ => assert (E : d = x) by congruence end. rewrite E. apply firstn_exact, sha256_length.
Qed.

Lemma test_updates parts l : longest parts < 2 ^ 32 -> pieces_within parts l -> forall (h : sha_ctx) D, has_absorbed h D ->
  exists h' D', update_all cr h l = Ret h' /\ has_absorbed h' D'.
Proof.
  intros B W. induction W as [|u l U W IH]; intros h D A; [eexists _, _; split; [reflexivity|exact A]|].
  cbn [update_all cr cr_hash_update test_crypto].
  assert (X : exists h1, test_hash_update true h u = Ret h1 /\ has_absorbed h1 (D ++ u_data u)).
  { destruct u as [n|b]; cbn [test_hash_update u_data].
    - exists h. split; [reflexivity|]. now rewrite app_nil_r.
    - apply update_spec; [exact A|]. cbn [u_len] in U. lia. }
  destruct X as (h1 & -> & A1). exact (IH _ _ A1).
Qed.

Theorem test_reliable parts : longest parts < 2 ^ 32 -> hash_reliable c cr parts.
Proof.
  intros B halg h l S W. apply test_start in S as [_ A]. destruct (test_updates _ _ B W _ _ A) as (h' & D & U & A').
  exists h', (sha256 D). split; [exact U|]. cbn [cr cr_hash_finish test_crypto]. unfold test_hash_finish.
  rewrite (final_spec _ D _ A') by (rewrite repeat_length; pose proof (max_hash_32 c); lia). cbn [obind].
  f_equal. f_equal. apply firstn_exact, sha256_length.
Qed.

Theorem test_safe parts : longest parts < 2 ^ 32 -> adapter_safe c cr parts.
Proof.
  intro B. split; [|split]; [|intros; exact I|intros; exact I].
  intros halg h l S W. destruct (test_reliable _ B _ _ _ S W) as (h' & d & U & F). exists h'. split; [exact U|]. now rewrite F.
Qed.

Theorem test_sizes q : sizes_agree cr q.
Proof. split; intros ? ? ? H; discriminate H. Qed.
Theorem test_rooms q : room_irrelevant cr q.
Proof. split; intros ? ? ? ? H; discriminate H. Qed.
Theorem test_null : null_is_empty cr.
Proof. intro h. reflexivity. Qed.
Theorem test_keys alg sk vk : keys_match cr alg sk vk.
Proof. split; intros ? ? ? ? H; discriminate H. Qed.
End Test.

(** ** The OpenSSL adapter *)

Section OpenSSL.
Context (c : cfg) (lib : ossl).
Let cr := openssl c lib.

Lemma ossl_start_inv halg h : cr_hash_start cr halg = (T_SUCCESS, h) ->
  h = {| oh_md := halg; oh_data := []; oh_ok := true |} /\
  (halg = (-16)%Z \/ (halg = (-43)%Z /\ (dis_es384 c = false \/ dis_ps384 c = false)) \/
   (halg = (-44)%Z /\ (dis_es512 c = false \/ dis_ps512 c = false))).
Proof.
  cbn [cr cr_hash_start openssl]. unfold ossl_hash_start, SHA_256, SHA_384, SHA_512.
  match goal with |- context [if ?b then _ else _] => destruct b eqn:S end; [|discriminate].
  destruct (md_known lib halg); cbn [negb lret snd]; [|discriminate].
  destruct (md_new lib); cbn [negb lret snd lbind alloc]; [|discriminate].
  destruct (md_init lib halg); cbn [negb lret snd lbind free]; [|discriminate].
  intro H. injection H as <-. split; [reflexivity|]. destruct (dis_es384 c), (dis_ps384 c), (dis_es512 c), (dis_ps512 c); cbn [negb orb andb] in S; lia.
Qed.

Context (H : Z -> bytes -> bytes) (HL : hash_library lib H).

Lemma ossl_update_ok h u : oh_ok h = true ->
  ossl_hash_update lib h u = {| oh_md := oh_md h; oh_data := oh_data h ++ u_data u; oh_ok := true |}.
Proof.
  intro O. unfold ossl_hash_update. rewrite O. destruct HL as (U & _). destruct u; cbn [u_data]; [|now rewrite U].
  rewrite app_nil_r. destruct h as [md da ok]. cbn [oh_ok] in O. now subst.
Qed.

Lemma ossl_fed (h : ohash) data h' : fed cr h data h' -> oh_ok h = true ->
  h' = {| oh_md := oh_md h; oh_data := oh_data h ++ data; oh_ok := true |}.
Proof.
  induction 1 as [h|h u b h1 data h2 Hu Up _ IH]; intro O.
  - rewrite app_nil_r. destruct h as [md da ok]. cbn [oh_ok] in O. now subst.
  - cbn [cr cr_hash_update openssl] in Up. rewrite (ossl_update_ok _ _ O) in Up. injection Up as <-.
    rewrite IH by reflexivity. cbn [oh_md oh_data]. rewrite <- app_assoc. now destruct Hu as [->|[-> ->]].
Qed.

Theorem ossl_hash_is : hash_is cr H.
Proof.
  intros halg data d (h & h' & n & S & F & Fi). apply ossl_start_inv in S as [-> _].
  rewrite (ossl_fed _ _ _ F eq_refl) in Fi. cbn [oh_md oh_data app] in Fi.
  cbn [cr cr_hash_finish openssl] in Fi. unfold ossl_hash_finish in Fi. cbn [oh_ok negb oh_md oh_data] in Fi.
  destruct HL as (_ & Fin & _). rewrite Fin in Fi. unfold stored in Fi. destruct (n <? _); cbn [lbind lub lret free snd] in Fi; congruence.
Qed.

Lemma digest_fits halg : (halg = (-16)%Z \/ (halg = (-43)%Z /\ (dis_es384 c = false \/ dis_ps384 c = false)) \/
   (halg = (-44)%Z /\ (dis_es512 c = false \/ dis_ps512 c = false))) -> digest_length halg <= max_hash_size c.
Proof.
  unfold digest_length, max_hash_size. intros [->|[[-> D]|[-> D]]]; cbn [Z.eqb Pos.eqb].
  - fold (max_hash_size c). apply max_hash_32.
  - destruct (_ || _); [lia|]. destruct D as [-> | ->]; cbn [negb orb]; rewrite ?orb_true_r; lia.
  - destruct D as [-> | ->]; cbn [negb orb]; rewrite ?orb_true_r; lia.
Qed.

Lemma ossl_updates l : forall h, oh_ok h = true ->
  exists data, update_all cr h l = Ret {| oh_md := oh_md h; oh_data := data; oh_ok := true |}.
Proof.
  induction l as [|u l IH]; intros h O; cbn [update_all].
  - exists (oh_data h). destruct h as [md da ok]. cbn [oh_ok] in O. now subst.
  - cbn [cr cr_hash_update openssl]. rewrite (ossl_update_ok _ _ O). destruct (IH {| oh_md := oh_md h; oh_data := oh_data h ++ u_data u; oh_ok := true |} eq_refl) as (data & E).
    exists data. exact E.
Qed.

Theorem ossl_reliable parts : hash_reliable c cr parts.
Proof.
  intros halg h l S _. apply ossl_start_inv in S as [-> A]. destruct (ossl_updates l {| oh_md := halg; oh_data := []; oh_ok := true |} eq_refl) as (data & U). cbn [oh_md] in U.
  exists {| oh_md := halg; oh_data := data; oh_ok := true |}, (H halg data). split; [exact U|]. cbn [cr cr_hash_finish openssl]. unfold ossl_hash_finish. cbn [oh_ok negb oh_md oh_data].
  destruct HL as (_ & Fin & Len). rewrite Fin. unfold stored. rewrite Len by tauto.
  pose proof (digest_fits _ A). replace (_ <? _) with false by lia. reflexivity.
Qed.

Theorem ossl_null : null_is_empty cr.
Proof.
  intro h. cbn [cr cr_hash_update openssl]. f_equal. unfold ossl_hash_update. destruct (oh_ok h) eqn:O; [|reflexivity].
  destruct HL as (U & _). rewrite U, app_nil_r. destruct h as [md da ok]. cbn [oh_ok] in O. now subst.
Qed.
End OpenSSL.

(** No update or finish of OpenSSL's can make the adapter overrun a buffer when
    digests have their length. *)
Theorem ossl_safe c lib parts :
  (forall md data d, md = (-16)%Z \/ md = (-43)%Z \/ md = (-44)%Z -> md_final lib md data = Some d -> blen d = digest_length md) ->
  adapter_safe c (openssl c lib) parts.
Proof.
  intro DL. split; [|split].
  - intros halg h l S _. apply ossl_start_inv in S as [-> A].
    assert (U : forall l h, oh_md h = halg -> exists h', update_all (openssl c lib) h l = Ret h' /\ oh_md h' = halg).
    { clear. induction l as [|u l IH]; intros h E; cbn [update_all]; [eauto|].
      apply IH. unfold ossl_hash_update. destruct (oh_ok h); [destruct u; auto|auto]. }
    destruct (U l {| oh_md := halg; oh_data := []; oh_ok := true |} eq_refl) as (h' & E & M). exists h'. split; [exact E|].
    cbn [cr_hash_finish openssl]. unfold ossl_hash_finish. destruct (oh_ok h'); cbn [negb]; [|exact I].
    rewrite M. destruct (md_final lib halg (oh_data h')) as [d|] eqn:F; [|exact I].
    unfold stored. apply DL in F; [|tauto]. pose proof (digest_fits c _ A). replace (_ <? _) with false by lia. exact I.
  - intros. cbn [cr_verify openssl]. destruct (ossl_verify_total c lib alg key kid d sig) as (e & ->). exact I.
  - intros. cbn [cr_verify_eddsa openssl]. destruct (ossl_verify_eddsa_total lib key kid tbs sig) as (e & ->). exact I.
Qed.

Section OpenSSLSigning.
Context (c : cfg) (lib : ossl) (SL : sign_library lib).
Let cr := openssl c lib.

Lemma ossl_sign_alg alg k hash room sig : snd (ossl_sign c lib alg k hash room) = Ret (T_SUCCESS, sig) ->
  (ecdsa_enabled c alg \/ pss_enabled c alg) /\ ossl_key k.
Proof. intro H. apply ossl_sign_result in H as (K & [(E & _)|(P & _)]); auto. Qed.

Lemma cose_signature_length len r s : blen (cose_signature len r s) = 2 * len.
Proof. unfold cose_signature. rewrite blen_app. unfold blen. rewrite !big_endian_length. lia. Qed.

Theorem ossl_sizes q : size_reported lib (k_handle (q_key q)) -> sizes_agree cr q.
Proof.
  intros (RS & ED). split; cbn [cr cr_sign cr_sig_size cr_sign_eddsa openssl].
  - intros d room sig S. apply ossl_sign_result in S as (K & [(E & der & r & s & _ & _ & -> & _)|(P & S)]); [| |exact SL];
      apply key_convert_spec in K; unfold ossl_sig_size; rewrite K; cbn [terr_eqb negb].
    + rewrite (proj2 (is_ecdsa_spec c _) E). rewrite cose_signature_length, key_size_spec. f_equal. lia.
    + destruct (t_cose_algorithm_is_ecdsa c (q_alg q)) eqn:E; [apply is_ecdsa_spec in E; destruct (not_both _ _ E P)|].
      rewrite (proj2 (is_pss_spec c _) P). cbn [orb]. erewrite <- RS; [reflexivity| | |exact S]; [reflexivity|discriminate].
  - intros t room sig. unfold ossl_sign_eddsa. destruct (terr_eqb (key_convert (q_key q)) T_SUCCESS) eqn:K; cbn [negb]; [|discriminate 1 || (intro X; exfalso; injection X as X _; rewrite X in K; discriminate)].
    destruct (md_new lib); cbn [negb lret snd lbind alloc]; [|discriminate].
    destruct (dsign_init lib _); cbn [negb lret snd lbind free]; [|discriminate].
    destruct (dsign lib _ t room) as [b|] eqn:D; cbn [lret lbind snd free]; [|discriminate].
    unfold stored. destruct (room <? blen b); cbn [lret lub lbind snd free]; [discriminate|]. intro X. injection X as <-.
    apply terr_eqb_success in K. unfold ossl_sig_size. rewrite K. cbn [terr_eqb negb].
    assert (t_cose_algorithm_is_ecdsa c (-8) = false) as ->.
    { destruct (t_cose_algorithm_is_ecdsa c (-8)) eqn:E; [|reflexivity]. apply is_ecdsa_spec in E. unfold ecdsa_enabled in E. lia. }
    change ((-8 =? EDDSA)%Z) with true. rewrite orb_true_r. now rewrite (ED _ _ _ D).
Qed.

Theorem ossl_rooms q : room_no_matter lib (k_handle (q_key q)) -> room_irrelevant cr q.
Proof.
  intros (RM & RD). split; cbn [cr cr_sign cr_sign_eddsa openssl].
  - intros d room sig room' S L'. pose proof (ossl_sign_result _ _ _ _ _ _ _ SL S) as (K & R). revert S. unfold ossl_sign.
    destruct (negb _ && negb _)%bool; [discriminate|].
    apply key_convert_spec in K. rewrite K. cbn [terr_eqb negb].
    destruct (ctx_new lib (k_handle (q_key q))); cbn [negb]; [|discriminate]. cbn [lbind alloc].
    destruct (ctx_init lib _); cbn [negb]; [|discriminate].
    destruct R as [(E & der & r & s & PS & D & -> & _)|(P & PS)].
    + rewrite (proj2 (is_ecdsa_spec c _) E), configure_ecdsa by exact E. cbn [terr_eqb negb].
      rewrite PS. unfold stored. destruct (der_buffer_size c <? blen der); [discriminate|]. cbn [lbind lret].
      intros _. destruct SL as (_ & _ & SL3). destruct (fun e => SL3 _ _ _ _ r s e PS D) as (Hr & Hs); [reflexivity|]. cbn [px_key] in Hr, Hs.
      rewrite cose_signature_length in L'.
      rewrite (der_to_cose_ok lib (k_handle (q_key q)) der room' r s _ (key_size_spec _ _) D Hr Hs L'). reflexivity.
    + destruct (t_cose_algorithm_is_ecdsa c (q_alg q)) eqn:E; [apply is_ecdsa_spec in E; destruct (not_both _ _ E P)|].
      rewrite (proj2 (is_pss_spec c _) P).
      destruct (configure_pkey_context c lib _ (q_alg q)) as [err x] eqn:C.
      destruct (terr_eqb err T_SUCCESS) eqn:Er; cbn [negb]; [|auto].
      apply terr_eqb_success in Er. subst err. apply configure_pss in C; [|exact P]. cbn [px_key px_verify px_params app] in C. subst x.
      rewrite PS. rewrite (RM {| px_key := k_handle (q_key q); px_verify := false; px_params := pss_settings (q_alg q) |} _ _ room' _ eq_refl PS L'). intros _. unfold stored. replace (room' <? blen sig) with false by lia. reflexivity.
  - intros t room sig room'. unfold ossl_sign_eddsa.
    destruct (terr_eqb (key_convert (q_key q)) T_SUCCESS) eqn:K; cbn [negb]; [|auto].
    destruct (md_new lib); cbn [negb lret snd lbind alloc]; [|auto].
    destruct (dsign_init lib _); cbn [negb lret snd lbind free]; [|auto].
    destruct (dsign lib _ t room) as [b|] eqn:D; cbn [lret lbind snd free]; [|discriminate].
    unfold stored at 1. destruct (room <? blen b); cbn [lret lub lbind snd free]; [discriminate|]. intros X L'. injection X as <-.
    rewrite (RD _ _ room' _ D L'). unfold stored. replace (room' <? blen b) with false by lia. reflexivity.
Qed.

(** Keys that belong together. *)
Theorem ossl_keys alg sk vk :
  setup_works lib -> enough_memory lib -> md_new lib = true ->
  (ecdsa_enabled c alg -> der_fits c lib (k_handle vk)) -> ossl_key vk -> key_pair lib alg (k_handle sk) (k_handle vk) ->
  keys_match cr alg sk vk.
Proof.
  intros SW M MN F V (B & EC & PS & ED). split; cbn [cr cr_sign cr_verify cr_sign_eddsa cr_verify_eddsa openssl].
  - intros d room sig kid S. apply ossl_verify_complete; auto.
    apply ossl_sign_result in S as (K & [(E & der & r & s & P & D & -> & _)|(P & S)]); [| |exact SL].
    + left. split; [exact E|]. destruct SL as (_ & _ & SL3). destruct (fun e => SL3 _ _ _ _ r s e P D) as (Hr & Hs); [reflexivity|].
      cbn [px_key] in Hr, Hs. destruct (EC _ _ _ _ _ P D) as (der' & I & A). exists r, s, der'. cbv zeta. rewrite <- B. auto.
    + right. split; [exact P|]. exact (PS _ _ _ S).
  - intros t room sig kid S. apply ossl_verify_eddsa_iff. split; [exact V|]. split; [exact MN|]. revert S. unfold ossl_sign_eddsa.
    destruct (terr_eqb (key_convert sk) T_SUCCESS) eqn:K; cbn [negb]; [|intro X; exfalso; injection X as X _; rewrite X in K; discriminate].
    destruct (md_new lib); cbn [negb lret snd lbind alloc]; [|discriminate].
    destruct (dsign_init lib _); cbn [negb lret snd lbind free]; [|discriminate].
    destruct (dsign lib _ t room) as [b|] eqn:D; cbn [lret lbind snd free]; [|discriminate].
    unfold stored. destruct (room <? blen b); cbn [lret lub lbind snd free]; [discriminate|]. intro X. injection X as <-. exact (ED _ _ _ D).
Qed.

End OpenSSLSigning.
