(** Messages whose bytes stop being data items part of the way: truncated ones,
    malformed ones and those beyond the limits of the decoder. *)
From Verif Require Import Base Const Spec DecSpec VerifySpec ErrorSpec WideSpec ItemSpec.
Open Scope N_scope. Open Scope list_scope.

(** No data item starts here. *)
Definition no_item (d : nat) (rest : bytes) : Prop := forall x bx r, rest = bx ++ r -> ~ reads d x bx.

(** After [n] elements the array is not over. *)
Definition goes_on (cnt : option N) (n : N) (rest : bytes) : Prop :=
  match cnt with Some m => n < m | None => forall r, rest <> xff :: r end.

(** An array with tags [ts] opens and has the elements [l]; its next element
    should start at [rest], but no data item does. *)
Definition breaks_off (msg : bytes) (ts : list N) (l : list cbor) (rest : bytes) : Prop :=
  exists cnt hb b, msg = hb ++ b ++ rest /\ opens 4 ts cnt hb /\ reads_all 1 l b /\ goes_on cnt (blen l) rest /\ no_item 1 rest.

(** Neither a data item nor the head of an array. *)
Definition no_array (msg : bytes) : Prop :=
  no_item 0 msg /\ forall ts cnt hb r, msg = hb ++ r -> ~ opens 4 ts cnt hb.

(** An array or a map with more than four tags starts here. *)
Definition many_tags (rest : bytes) : Prop :=
  exists mt ts cnt hb r, (mt = 4 \/ mt = 5) /\ rest = hb ++ r /\ opens mt ts cnt hb /\ (4 < length ts)%nat.

(** The codes for bytes at which no data item starts; what is called malformed is
    so by RFC 8949, not just beyond the limits of the decoder. *)
Definition no_item_code (rest : bytes) (e : terr) : Prop :=
  (e = ERR_SIGN1_FORMAT \/ e = ERR_CBOR_NOT_WELL_FORMED /\ malformed rest) \/ e = ERR_TOO_MANY_TAGS /\ many_tags rest.

(** The code by the number of complete elements. *)
Definition break_code (detached : bool) (l : list cbor) (rest : bytes) (e : terr) : Prop :=
  match length l with
  | O => e = ERR_PARAMETER_CBOR \/ e = ERR_CBOR_NOT_WELL_FORMED /\ malformed rest
  | 1%nat => (e = ERR_PARAMETER_CBOR \/ e = ERR_CBOR_NOT_WELL_FORMED /\ malformed rest) \/
      e = ERR_TOO_MANY_PARAMETERS /\ exists b pm prest, l = [CBytes b] /\ protected_map b pm prest /\ many_labels 1 pm rest
  | 2%nat => if detached then e = ERR_CBOR_FORMATTING else no_item_code rest e
  | 3%nat => no_item_code rest e
  | _ => e = ERR_SIGN1_FORMAT \/ e = ERR_CBOR_NOT_WELL_FORMED /\ malformed rest
  end.
