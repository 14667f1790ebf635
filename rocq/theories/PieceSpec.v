(** Signing piecewise: the payload an application builds with the encoder
    between the two calls, as a tree, and the bytes it stands for. *)
From Verif Require Import Base Const QEnc Crypto Util Sign Spec.
Open Scope N_scope. Open Scope list_scope.
Local Open Scope mon_scope.

(** What is built: items, tagged items, arrays, maps (keys and values
    alternating), wrapped byte strings; [BEncoded] is QCBOREncode_AddEncoded. *)
Inductive btree :=
| BUInt (n : N) | BInt (z : Z) | BBytes (b : bytes) | BText (b : bytes) | BNull
| BEncoded (b : bytes)
| BTag (t : N) (x : btree)
| BArray (f : bforest) | BMap (f : bforest) | BWrap (f : bforest)
with bforest :=
| BNil | BCons (x : btree) (f : bforest).

Fixpoint bcount (f : bforest) : N :=
  match f with BNil => 0 | BCons _ f => 1 + bcount f end.

(** The encoding of the tree. *)
Fixpoint tree_bytes (x : btree) : bytes :=
  match x with
  | BUInt n => encode (CUInt n)
  | BInt z => encode (CInt z)
  | BBytes b => encode (CBytes b)
  | BText b => encode (CText b)
  | BNull => encode CNull
  | BEncoded b => b
  | BTag t x => short_head 6 t ++ tree_bytes x
  | BArray f => short_head 4 (bcount f) ++ forest_bytes f
  | BMap f => short_head 5 (bcount f / 2) ++ forest_bytes f
  | BWrap f => encode (CBytes (forest_bytes f))
  end
with forest_bytes (f : bforest) : bytes :=
  match f with BNil => [] | BCons x f => tree_bytes x ++ forest_bytes f end.

(** The encoder calls that build it. *)
Fixpoint tree_ops (x : btree) : list eop :=
  match x with
  | BUInt n => [OpUInt n]
  | BInt z => [OpInt z]
  | BBytes b => [OpBytes (UBuf b)]
  | BText b => [OpText (UBuf b)]
  | BNull => [OpNull]
  | BEncoded b => [OpEncoded (UBuf b)]
  | BTag t x => OpTag t :: tree_ops x
  | BArray f => OpOpenArray :: forest_ops f ++ [OpCloseArray]
  | BMap f => OpOpenMap :: forest_ops f ++ [OpCloseMap]
  | BWrap f => OpOpenBstr :: forest_ops f ++ [OpCloseBstr]
  end
with forest_ops (f : bforest) : list eop :=
  match f with BNil => [] | BCons x f => tree_ops x ++ forest_ops f end.

(** Limits of the encoder: less than 65534 items in a level, and the levels. *)
Fixpoint tree_fits (x : btree) : Prop :=
  match x with
  | BTag _ x => tree_fits x
  | BArray f | BMap f | BWrap f => bcount f < 65534 /\ forest_fits f
  | _ => True
  end
with forest_fits (f : bforest) : Prop :=
  match f with BNil => True | BCons x f => tree_fits x /\ forest_fits f end.

Fixpoint tree_depth (x : btree) : nat :=
  match x with
  | BTag _ x => tree_depth x
  | BArray f | BMap f | BWrap f => S (forest_depth f)
  | _ => 0
  end
with forest_depth (f : bforest) : nat :=
  match f with BNil => 0 | BCons x f => Nat.max (tree_depth x) (forest_depth f) end.

(** The documented way to sign piecewise: encode_parameters, the application's
    own encoder calls, encode_signature_aad. *)
Definition piecewise_on (c : cfg) (cr : crypto) (me : sctx) (aad : ubufc) (ops : list eop) (e : enc)
  : M (terr * sctx * enc) :=
  let '(err, me, e) := encode_parameters c me e in
  if negb (terr_eqb err T_SUCCESS) then mret (err, me, e)
  else encode_signature_aad c cr me aad (eops_run e ops).

(** ... on a fresh encoder, ended by QCBOREncode_Finish. *)
Definition piecewise (c : cfg) (cr : crypto) (me : sctx) (aad : ubufc) (ops : list eop) (buf : wbuf)
  : M (terr * sctx * option ubufc) :=
  let! (err, me, e) := piecewise_on c cr me aad ops (enc_init buf) in
  if negb (terr_eqb err T_SUCCESS) then mret (err, me, None)
  else match enc_finish e with
       | (QE_SUCCESS, r) => mret (T_SUCCESS, me, r)
       | (QE_BUFFER_TOO_SMALL, _) => mret (ERR_TOO_SMALL, me, None)
       | (_, _) => mret (ERR_CBOR_FORMATTING, me, None)
       end.

(** Levels an application has open after a sequence of encoder calls, counted
    from where it started: open levels, innermost first; or it closed a level as
    something else than it was opened; or it closed the payload byte string
    itself, which t_cose had opened. *)
Inductive level := LArray | LMap | LBstr.
Inductive nesting := Open (l : list level) | Mismatched | Escaped.

Definition close_level (l : level) (open : list level) : nesting :=
  match open with
  | [] => match l with LBstr => Escaped | _ => Mismatched end
  | k :: o => match k, l with
              | LArray, LArray | LMap, LMap | LBstr, LBstr => Open o
              | _, _ => Mismatched
              end
  end.

Definition nest_op (s : nesting) (o : eop) : nesting :=
  match s with
  | Open open =>
      match o with
      | OpOpenArray => Open (LArray :: open)
      | OpOpenMap => Open (LMap :: open)
      | OpOpenBstr => Open (LBstr :: open)
      | OpCloseArray => close_level LArray open
      | OpCloseMap => close_level LMap open
      | OpCloseBstr => close_level LBstr open
      | _ => Open open
      end
  | s => s
  end.

Definition nesting_of (ops : list eop) : nesting := fold_left nest_op ops (Open []).
