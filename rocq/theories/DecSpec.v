(** Specification of what a CBOR decoder with QCBOR's documented limits reads:
    which byte strings represent a data item, in any permitted representation
    (RFC 8949 section 3: every head width, definite or indefinite length arrays
    and maps; strings of definite length). Uses only bytes and Spec.v. *)
From Verif Require Import Base Spec.
Open Scope N_scope.

(** Limits documented by QCBOR: levels of nesting, items in an array or map. *)
Definition max_nesting : nat := 15.
Definition max_items : N := 65534.

(** Bytes that are no data item but that the decoder steps over: reserved
    additional information 28 to 30; integers and tags of "indefinite length";
    two byte simple values below 32. *)
Inductive junk : bytes -> Prop :=
| junk_reserved mt ai : mt < 8 -> 28 <= ai < 31 -> junk [initial mt ai]
| junk_indefinite mt : mt = 0 \/ mt = 1 \/ mt = 6 -> junk [initial mt 31]
| junk_simple n : n < 32 -> junk [initial 7 24; byte_of_N n].

Fixpoint body (c : cbor) : cbor := match c with CTag _ c' => body c' | _ => c end.

(** Tag numbers, outermost first. *)
Fixpoint tags_of (c : cbor) : list N := match c with CTag n c' => n :: tags_of c' | _ => [] end.

(** Map labels the decoder can handle. *)
Definition label_like (c : cbor) : Prop :=
  match body c with
  | CUInt _ | CBytes _ | CText _ => True
  | CNInt n => n < 2 ^ 63
  | _ => False
  end.

(** [reads d c b]: with [d] arrays or maps open around it, [b] is one of the
    representations of [c] and is within the decoder's limits. *)
Inductive reads : nat -> cbor -> bytes -> Prop :=
| rd_uint d n h : is_head 0 n h -> reads d (CUInt n) h
| rd_nint d n h : is_head 1 n h -> reads d (CNInt n) h
| rd_bytes d b h : is_head 2 (blen b) h -> reads d (CBytes b) (h ++ b)
| rd_text d b h : is_head 3 (blen b) h -> reads d (CText b) (h ++ b)
| rd_array d l h b :
    is_head 4 (blen l) h -> blen l <= max_items -> l = [] \/ (d < max_nesting)%nat ->
    reads_all (S d) l b -> reads d (CArray l) (h ++ b)
| rd_array_indef d l b :
    (d < max_nesting)%nat -> reads_all (S d) l b ->
    reads d (CArray l) ([initial 4 31] ++ b ++ [xff])
| rd_map d l h b :
    is_head 5 (blen l) h -> blen l <= max_items -> l = [] \/ (d < max_nesting)%nat ->
    reads_pairs (S d) l b -> reads d (CMap l) (h ++ b)
| rd_map_indef d l b :
    (d < max_nesting)%nat -> reads_pairs (S d) l b ->
    reads d (CMap l) ([initial 5 31] ++ b ++ [xff])
| rd_tag d n c h b : is_head 6 n h -> reads d c b -> reads d (CTag n c) (h ++ b)
| rd_simple d n : n < 24 -> reads d (CSimple n) [initial 7 n]
| rd_simple8 d n : 32 <= n < 256 -> reads d (CSimple n) [initial 7 24; byte_of_N n]
| rd_float d ai b :
    (ai = 25 /\ length b = 2%nat) \/ (ai = 26 /\ length b = 4%nat) \/ (ai = 27 /\ length b = 8%nat) ->
    reads d (CFloat b) (initial 7 ai :: b)
| rd_junk d b : junk b -> reads d (CJunk b) b
with reads_all : nat -> list cbor -> bytes -> Prop :=
| rda_nil d : reads_all d [] []
| rda_cons d c l b bs : reads d c b -> reads_all d l bs -> reads_all d (c :: l) (b ++ bs)
with reads_pairs : nat -> list (cbor * cbor) -> bytes -> Prop :=
| rdp_nil d : reads_pairs d [] []
| rdp_cons d k v l bk bv bs :
    reads d k bk -> label_like k -> reads d v bv -> reads_pairs d l bs ->
    reads_pairs d ((k, v) :: l) (bk ++ bv ++ bs).

Scheme reads_ind' := Induction for reads Sort Prop
  with reads_all_ind' := Induction for reads_all Sort Prop
  with reads_pairs_ind' := Induction for reads_pairs Sort Prop.
Combined Scheme reads_mutind from reads_ind', reads_all_ind', reads_pairs_ind'.
