(** What RFC 8152 (sections 3 and 3.1) demands of header parameters, read off the
    data items of a message. *)
From Verif Require Import Base Spec DecSpec VerifySpec.
Open Scope N_scope. Open Scope list_scope.

(** Labels are integers and texts. *)
Definition a_label (k : cbor) : Prop := (exists s, k = CText s) \/ exists z, k = CInt z.

(** alg is an integer (a text is for algorithms that t_cose has none of); kid, IV and
    Partial IV are byte strings; the content type is a text or a number of a
    CoAP content format; crit is an array of labels with at least one. *)
Definition value_type (z : Z) (v : cbor) : Prop :=
  (z = 1%Z -> exists a, v = CInt a) /\
  (z = 2%Z -> exists xs, v = CArray xs /\ xs <> [] /\ Forall a_label xs) /\
  (z = 3%Z -> (exists s, v = CText s) \/ exists n, v = CUInt n /\ n < 65536) /\
  (z = 4%Z \/ z = 5%Z \/ z = 6%Z -> exists b, v = CBytes b).

(** Data items without the tags around them and, of an array, its elements. *)
Definition untagged (v : cbor) : cbor :=
  match body v with CArray xs => CArray (map body xs) | b => b end.

(** The rules for protected parameters [pm] and unprotected parameters [um]. *)
Record conforms (pm um : params_map) : Prop := {
  cf_labels : forall k v, In (k, v) (pm ++ um) -> a_label k;
  cf_types : forall z v, In (CInt z, v) (pm ++ um) -> value_type z v;
  cf_once : NoDup (map fst (pm ++ um));
  cf_protected : forall z v, In (CInt z, v) um -> z <> 1%Z /\ z <> 2%Z;
  cf_crit : forall xs x, In (CInt 2, CArray xs) pm -> In x xs -> exists v, In (x, v) pm;
  cf_iv : forall v v', In (CInt 5, v) (pm ++ um) -> In (CInt 6, v') (pm ++ um) -> False }.
