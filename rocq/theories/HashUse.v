(** How t_cose uses the adapter's hash: every hash that was started is finished,
    once, and nothing is fed to a hash that is not running. *)
From Verif Require Import Base Const QEnc Crypto Util ShortCircuit Sign Params Verify.
Open Scope N_scope. Open Scope list_scope.

(** Following a log of adapter calls: whether a hash is running at the end;
    [None]: a call out of order. [ok]: which starts succeed. *)
Fixpoint hash_running (ok : Z -> bool) (running : bool) (log : list event) : option bool :=
  match log with
  | [] => Some running
  | EvHashStart a :: log => if running then None else hash_running ok (ok a) log
  | EvHashUpdate _ :: log => if running then hash_running ok true log else None
  | EvHashFinish :: log => if running then hash_running ok false log else None
  | _ :: log => if running then None else hash_running ok running log
  end.

Definition start_ok (cr : crypto) (a : Z) : bool := terr_eqb (fst (cr_hash_start cr a)) T_SUCCESS.

(** The calls are in order and no hash is left running. *)
Definition hashes_finished (cr : crypto) (log : list event) : Prop :=
  hash_running (start_ok cr) false log = Some false.

Lemma running_app ok a b : forall r, hash_running ok r (a ++ b) =
  match hash_running ok r a with Some r' => hash_running ok r' b | None => None end.
Proof.
  induction a as [|e a IH]; intro r; [reflexivity|].
  destruct e; cbn [app hash_running]; destruct r; try reflexivity; apply IH.
Qed.

Definition tidy {A} (cr : crypto) (x : M A) : Prop := forall log r, x = (log, Ret r) -> hashes_finished cr log.

Lemma tidy_ret {A} cr (a : A) : tidy cr (mret a).
Proof. intros log r H. injection H as <- _. reflexivity. Qed.
Lemma tidy_ub {A} cr w : tidy cr (@mub A w).
Proof. intros log r H. discriminate. Qed.
Lemma tidy_lift {A} cr (x : out A) : tidy cr (mlift x).
Proof. intros log r H. injection H as <- _. reflexivity. Qed.
Lemma tidy_log {A} cr e (x : out A) : hash_running (start_ok cr) false [e] = Some false -> tidy cr (mlog e x).
Proof. intros E log r H. injection H as <- _. exact E. Qed.
Lemma tidy_bind {A B} cr (x : M A) (f : A -> M B) : tidy cr x -> (forall a, tidy cr (f a)) -> tidy cr (mbind x f).
Proof.
  intros X F log r H. destruct x as [l [a|w]]; cbn [mbind] in H; [|discriminate].
  destruct (f a) as [l' r'] eqn:E. injection H as <- ->. unfold hashes_finished. rewrite running_app.
  rewrite (X _ _ eq_refl). exact (F a _ _ E).
Qed.

Lemma tidy_hash c cr alg prot aad payload n : tidy cr (create_tbs_hash c cr alg prot aad payload n).
Proof.
  intros log r. unfold create_tbs_hash. set (halg := hash_alg_id_from_sig_alg_id c alg).
  destruct (halg =? INVALID_ALGORITHM_ID)%Z; [intro H; injection H as <- _; reflexivity|].
  unfold mlog at 1. destruct (cr_hash_start cr halg) as [err h] eqn:S. cbn [mbind].
  destruct (terr_eqb err T_SUCCESS) eqn:E; cbn [negb].
  - assert (O : start_ok cr halg = true) by (unfold start_ok; rewrite S; exact E).
    unfold hash_bstr, m_hash_update, mlog.
    repeat (cbn [mbind]; match goal with |- context [cr_hash_update cr ?a ?b] => destruct (cr_hash_update cr a b) as [?|?] end; cbn [mbind]; [|discriminate]).
    intro H. injection H as <- _. unfold hashes_finished. cbn [app hash_running]. rewrite O. reflexivity.
  - assert (O : start_ok cr halg = false) by (unfold start_ok; rewrite S; exact E).
    cbn [mret app]. intro H. injection H as <- _. unfold hashes_finished. cbn [app hash_running]. now rewrite O.
Qed.

Ltac tidy :=
  repeat first
    [ apply tidy_ret | apply tidy_ub | apply tidy_lift | apply tidy_hash | (apply tidy_log; reflexivity)
    | (apply tidy_bind; [|intro])
    | match goal with
      | |- tidy _ (let '(_, _) := ?x in _) => destruct x
      | |- tidy _ (match ?x with _ => _ end) => destruct x
      end ].

Theorem encode_signature_tidy c cr me aad payload e : tidy cr (encode_signature_aad_internal c cr me aad payload e).
Proof.
  unfold encode_signature_aad_internal, sign1_sign_short_circuit, sign1_sign_eddsa, sign1_sign_default, m_sig_size. tidy.
Qed.

Theorem sign_tidy c cr me detached payload aad buf : tidy cr (sign_aad_internal c cr me detached payload aad buf).
Proof. unfold sign_aad_internal. cbv zeta. repeat first [apply encode_signature_tidy | progress tidy]. Qed.

Theorem verify_tidy c cr junk me msg aad payload want dc : tidy cr (verify_internal c cr junk me msg aad payload want dc).
Proof.
  unfold verify_internal, verify_check, sign1_verify_short_circuit, sign1_verify_eddsa, sign1_verify_default. tidy.
Qed.
