(** What the errors of verification say about a data item that is no COSE_Sign1. *)
From Verif Require Import Base Const Spec DecSpec VerifySpec ErrorSpec WideSpec.
Open Scope N_scope. Open Scope list_scope.

(** An element [x] of the wrong type: reported as [e0], or as not well-formed if
    it is no data item. *)
Definition reported (e0 : terr) (x : cbor) (e : terr) : Prop :=
  e = e0 \/ e = ERR_CBOR_NOT_WELL_FORMED /\ exists b, body x = CJunk b.

(** The same for the whole, the payload and the signature, where too many tags
    have their own code. *)
Definition reported_tags (x : cbor) (e : terr) : Prop :=
  reported ERR_SIGN1_FORMAT x e \/ e = ERR_TOO_MANY_TAGS /\ (4 < length (tags_of x))%nat.

(** What is wrong with a message that has these parameters and is fine otherwise. *)
Definition params_fault (c : cfg) (pm um : params_map) (e : terr) : Prop :=
  format_fault c 0 false
    {| g_tags := []; g_prot := []; g_unprot := um; g_payload := CBytes []; g_sig := []; g_extra := [] |} pm e.

(** The tag options against the tags of the item. *)
Definition tags_fit (flags : N) (t : cbor) : Prop :=
  let tagged := match rev (tags_of t) with n :: _ => n =? 18 | [] => false end in
  (requires_tag flags = true -> tagged = true) /\ (prohibits_tag flags = true -> tagged = false).

(** [u] is an unprotected bucket with parameters [um]. *)
Definition unprot_map (u : cbor) (um : params_map) : Prop := readable u /\ body u = CMap um.

(** The tags [ts] and the head of an array ([mt] is 4) or a map (5) that says it
    has [cnt] elements, or is of indefinite length. *)
Inductive opens (mt : N) : list N -> option N -> bytes -> Prop :=
| op_def n h : is_head mt n h -> n <= max_items -> opens mt [] (Some n) h
| op_indef : opens mt [] None [initial mt 31]
| op_tag t ts cnt h b : is_head 6 t h -> opens mt ts cnt b -> opens mt (t :: ts) cnt (h ++ b).

(** At depth [d] a map starts that has, up to and including the label [k], more
    than ten labels of a kind, counted together with those of [pm]. *)
Definition many_labels (d : nat) (pm : params_map) (rest : bytes) : Prop :=
  exists ts cnt hb um bb k bk r, rest = hb ++ bb ++ bk ++ r /\ opens 5 ts cnt hb /\ reads_pairs (S d) um bb /\ reads (S d) k bk /\
    let m := pm ++ um ++ [(k, CNull)] in
    (10 < length (int_labels m))%nat \/ (10 < length (text_labels m))%nat.

Inductive item_fault (c : cfg) (flags : N) (detached : bool) (t : cbor) : terr -> Prop :=
| if_type e : (forall l, body t <> CArray l) -> reported_tags t e -> item_fault c flags detached t e
| if_tags l : body t = CArray l -> (4 < length (tags_of t))%nat -> item_fault c flags detached t ERR_TOO_MANY_TAGS
| if_option l : body t = CArray l -> ~ tags_fit flags t -> item_fault c flags detached t ERR_INCORRECTLY_TAGGED
| if_empty : body t = CArray [] -> item_fault c flags detached t ERR_PARAMETER_CBOR
| if_prot_type x l e : body t = CArray (x :: l) -> (forall b, x <> CBytes b) ->
    reported ERR_PARAMETER_CBOR x e -> item_fault c flags detached t e
| if_prot_item b l x bx rest e : body t = CArray (CBytes b :: l) -> b = bx ++ rest -> reads 2 x bx ->
    ~ (readable x /\ exists m, body x = CMap m) -> reported ERR_PARAMETER_CBOR x e -> item_fault c flags detached t e
| if_prot_bytes b l e : body t = CArray (CBytes b :: l) -> b <> [] -> (forall x bx rest, b = bx ++ rest -> ~ reads 2 x bx) ->
    (e = ERR_PARAMETER_CBOR \/ e = ERR_CBOR_NOT_WELL_FORMED /\ malformed b) \/ e = ERR_TOO_MANY_PARAMETERS /\ many_labels 2 [] b -> item_fault c flags detached t e
| if_prot_params b l pm rest e : body t = CArray (CBytes b :: l) -> protected_map b pm rest ->
    params_fault c pm [] e -> item_fault c flags detached t e
| if_no_unprot b : body t = CArray [CBytes b] -> item_fault c flags detached t ERR_PARAMETER_CBOR
| if_unprot_type b x l e : body t = CArray (CBytes b :: x :: l) -> (forall um, ~ unprot_map x um) ->
    reported ERR_PARAMETER_CBOR x e -> item_fault c flags detached t e
| if_unprot_params b pm rest x um l e : body t = CArray (CBytes b :: x :: l) -> protected_map b pm rest -> unprot_map x um ->
    params_fault c pm um e -> item_fault c flags detached t e
| if_detached b x l : body t = CArray (CBytes b :: x :: l) -> detached = true ->
    (forall p l', l = p :: l' -> ~ (readable p /\ body p = CNull)) -> item_fault c flags detached t ERR_CBOR_FORMATTING
| if_no_payload b x : body t = CArray [CBytes b; x] -> detached = false -> item_fault c flags detached t ERR_SIGN1_FORMAT
| if_payload_type b x p l e : body t = CArray (CBytes b :: x :: p :: l) -> detached = false -> (forall s, p <> CBytes s) ->
    reported_tags p e -> item_fault c flags detached t e
| if_no_signature b x p : body t = CArray [CBytes b; x; p] -> item_fault c flags detached t ERR_SIGN1_FORMAT
| if_signature_type b x p s l e : body t = CArray (CBytes b :: x :: p :: s :: l) -> (forall s', s <> CBytes s') ->
    reported_tags s e -> item_fault c flags detached t e.

(** [part x c]: [x] is [c] or lies somewhere in it. *)
Inductive part (x : cbor) : cbor -> Prop :=
| pt_self : part x x
| pt_tag n c : part x c -> part x (CTag n c)
| pt_elem y l : In y l -> part x y -> part x (CArray l)
| pt_key k v l : In (k, v) l -> part x k -> part x (CMap l)
| pt_value k v l : In (k, v) l -> part x v -> part x (CMap l).

(** Nothing in it is malformed. *)
Definition all_formed (c : cbor) : Prop := forall b, ~ part (CJunk b) c.

(** The protected byte string begins with something well-formed, and its crit lists
    only what the decoder can read. *)
Definition prot_formed (b : bytes) : Prop :=
  b = [] \/ (exists w r, b = w ++ r /\ well_formed w) /\
  forall x bx rest m v xs y, b = bx ++ rest -> reads 2 x bx -> body x = CMap m -> In v (values 2 m) -> body v = CArray xs -> In y xs -> readable y.
