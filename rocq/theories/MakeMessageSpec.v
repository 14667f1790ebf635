(** What the maker of test messages and t_cose_sign1_sign have in common (C83),
    and what a message made with any options holds (C84). *)
From Verif Require Import Base Const QEnc Crypto Sign MakeMessage Spec SignSpec.
Open Scope N_scope. Open Scope list_scope.

(** No content type has been set in the context, or the build has none. *)
Definition without_content_type (c : cfg) (me : sctx) : Prop :=
  dis_content_type c = true \/ (c_ct_uint me = EMPTY_UINT_CONTENT_TYPE /\ c_ct_tstr me = None).

(** The short circuit is not requested; or it is, with ECDSA and without a kid. *)
Definition short_circuit_default (me : sctx) : Prop :=
  has_flag (c_flags me) OPT_SHORT_CIRCUIT_SIG = true ->
  u_is_null_or_empty (c_kid me) = true /\
  (c_alg me = (-7)%Z \/ c_alg me = (-35)%Z \/ c_alg me = (-36)%Z).

(** Contexts for which the maker is a replica. *)
Definition replicated (c : cfg) (me : sctx) : Prop :=
  without_content_type c me /\ short_circuit_default me /\ c_alg me <> (-8)%Z.

(** The first and the last byte of the array of a message: it says how many items
    it holds, or it is of indefinite length. *)
Definition array_start (ind : bool) (k : N) : bytes := if ind then [x9f] else short_head 4 k.
Definition array_end (ind : bool) : bytes := if ind then [xff] else [].

(** What the maker was asked for. *)
Definition asked (o what : N) : bool := has_flag o what.

(** The items of the array: payload, signature, and the parameters not left out. *)
Definition items_of (o : N) : N :=
  (if asked o T_NO_PROTECTED_PARAMETERS then 0 else 1) + (if asked o T_NO_UNPROTECTED_PARAMETERS then 0 else 1) + 2.

(** Protected parameters that do not depend on the algorithm: none, empty, a map
    of one entry without the entry, an array that holds 42. *)
Definition protected_wanted (o : N) : option bytes :=
  if asked o T_NO_PROTECTED_PARAMETERS || asked o T_EMPTY_PROTECTED_PARAMETERS then Some []
  else if asked o T_UNCLOSED_PROTECTED then Some [xa1]
  else if asked o T_BAD_PROTECTED then Some [x81; x18; x2a] else None.

(** [m] is a message with protected parameters [prot], unless left out (and then
    [prot] is empty); something in place of the unprotected ones, unless left out;
    the payload [pl] and the signature [sig]. *)
Definition message_of (me : sctx) (o : N) (prot pl sig m : bytes) : Prop :=
  exists rest,
    m = (if has_flag (c_flags me) OPT_OMIT_CBOR_TAG then [] else [xd2]) ++
        array_start (asked o T_INDEFINITE_MAPS_ARRAYS) (items_of o) ++
        (if asked o T_NO_PROTECTED_PARAMETERS then [] else encode (CBytes prot)) ++
        rest ++ encode (CBytes pl) ++ encode (CBytes sig) ++ array_end (asked o T_INDEFINITE_MAPS_ARRAYS) /\
    (forall p, protected_wanted o = Some p -> prot = p) /\
    (asked o T_NO_UNPROTECTED_PARAMETERS = true -> rest = []).

(** [sig] is made from the digest [d]: by the key, or by copying the digest. *)
Definition made_from (cr : crypto) (me : sctx) (d sig : bytes) : Prop :=
  if has_flag (c_flags me) OPT_SHORT_CIRCUIT_SIG
  then sig = repeat_to d (ecdsa_sig_size (c_alg me)) /\ sig <> []
  else exists room, cr_sign cr (c_alg me) (c_key me) d room = Ret (T_SUCCESS, sig).
