(** Core deterministic encoding, RFC 8949 section 4.2.1, of the data items that
    occur in what is made when signing. *)
From Coq Require Import Sorting.Sorted.
From Verif Require Import Base Spec.
Open Scope N_scope. Open Scope list_scope.

(** The shortest of the heads with a major type and an argument. *)
Definition shortest (mt n : N) (h : bytes) : Prop :=
  is_head mt n h /\ forall h', is_head mt n h' -> (length h <= length h')%nat.

(** Bytewise lexicographic order. *)
Inductive lex_lt : bytes -> bytes -> Prop :=
| lex_end b y : lex_lt [] (b :: y)
| lex_here a b x y : Byte.to_N a < Byte.to_N b -> lex_lt (a :: x) (b :: y)
| lex_next a x y : lex_lt x y -> lex_lt (a :: x) (a :: y).

(** Shortest heads, definite lengths, and the keys of maps in ascending order of
    their encodings. *)
Inductive deterministic : cbor -> bytes -> Prop :=
| dt_uint n h : shortest 0 n h -> deterministic (CUInt n) h
| dt_nint n h : shortest 1 n h -> deterministic (CNInt n) h
| dt_bytes b h : shortest 2 (blen b) h -> deterministic (CBytes b) (h ++ b)
| dt_text b h : shortest 3 (blen b) h -> deterministic (CText b) (h ++ b)
| dt_array l h b : shortest 4 (blen l) h -> deterministic_all l b -> deterministic (CArray l) (h ++ b)
| dt_map l h ks b :
    shortest 5 (blen l) h -> deterministic_pairs l ks b -> Sorted lex_lt ks -> deterministic (CMap l) (h ++ b)
| dt_tag n c h b : shortest 6 n h -> deterministic c b -> deterministic (CTag n c) (h ++ b)
| dt_simple n : n < 24 -> deterministic (CSimple n) [initial 7 n]
| dt_simple8 n : 32 <= n < 256 -> deterministic (CSimple n) [initial 7 24; byte_of_N n]
with deterministic_all : list cbor -> bytes -> Prop :=
| dta_nil : deterministic_all [] []
| dta_cons c l b bs : deterministic c b -> deterministic_all l bs -> deterministic_all (c :: l) (b ++ bs)
with deterministic_pairs : list (cbor * cbor) -> list bytes -> bytes -> Prop :=
| dtp_nil : deterministic_pairs [] [] []
| dtp_cons k v l bk bv ks bs :
    deterministic k bk -> deterministic v bv -> deterministic_pairs l ks bs ->
    deterministic_pairs ((k, v) :: l) (bk :: ks) (bk ++ bv ++ bs).

(** The Sig_structure of a COSE_Sign1 (RFC 8152 section 4.4). *)
From Coq Require Import String.
Definition sig_item (prot aad payload : bytes) : cbor :=
  CArray [CText (text "Signature1"); CBytes prot; CBytes aad; CBytes payload].
