(** What the example programs are to do with keys and memory. *)
From Verif Require Import Base Const QEnc Crypto Psa ExampleRun.
Open Scope N_scope. Open Scope list_scope.

Definition xobj_eq_dec (a b : xobj) : {a = b} + {a <> b}.
Proof. decide equality. apply Nat.eq_dec. Defined.

(** What is held after a log, given what was held before; [None]: something is
    given back or used that is not held, or taken twice. *)
Fixpoint held (l : list xobj) (log : list xevent) : option (list xobj) :=
  match log with
  | [] => Some l
  | XTake o :: log => if in_dec xobj_eq_dec o l then None else held (o :: l) log
  | XGive o :: log => if in_dec xobj_eq_dec o l then held (remove xobj_eq_dec o l) log else None
  | XUse o :: log => if in_dec xobj_eq_dec o l then held l log else None
  end.

(** No use after free, no double free; [left] is never given back. *)
Definition leaves {A} (x : X A) (left : list xobj) : Prop := held [] (fst x) = Some left.

(** Everything in [left] is lost. *)
Definition at_most (left : list xobj) : Prop := incl left [XKeyCtx; XKey; XBuf 0; XBuf 1; XBuf 2].

(** Making a key of this kind gives key [h]. *)
Definition generates (kg : keygen) (kind : key_kind) (h : N) : Prop :=
  kg_ctx kg kind = true /\ (kg_init kg kind > 0)%Z /\
  match kind with KEc bits => kg_curve kg bits = 1%Z | KEd25519 => True end /\ kg_gen kg kind = (1%Z, h).
(** PSA imports a key with this policy as key [h]. *)
Definition imports (ks : keystore) (a : palg) (h : N) : Prop := ks_init ks = 0%Z /\ ks_import ks a = (0%Z, h).
