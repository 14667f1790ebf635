(** Model of the QCBOR decoder functions t_cose calls ("spiffy decode", normal
    mode, no string allocator). QCBOR is not in /repo; this file follows its
    public documentation and the behaviour recorded by /repo/test, and is part
    of the trusted base (DESIGN.md, "QCBOR"). Executable; no proofs here. *)
From Verif Require Import Base QEnc.
Open Scope N_scope.

Inductive qd_err :=
| QD_SUCCESS
(* not well-formed *)
| QD_BAD_TYPE_7 | QD_EXTRA_BYTES | QD_UNSUPPORTED | QD_UNCONSUMED | QD_BAD_INT
(* not well-formed and unrecoverable *)
| QD_HIT_END | QD_BAD_BREAK
(* unrecoverable *)
| QD_NESTING_TOO_DEEP | QD_ARRAY_TOO_LONG | QD_NO_STRING_ALLOCATOR | QD_MAP_LABEL_TYPE
(* other *)
| QD_TOO_MANY_TAGS | QD_UNEXPECTED_TYPE | QD_DUPLICATE_LABEL | QD_INT_OVERFLOW
| QD_NO_MORE_ITEMS | QD_LABEL_NOT_FOUND | QD_CALLBACK_FAIL | QD_EXIT_MISMATCH
| QD_MAP_NOT_ENTERED
(* model only: recursion fuel exhausted; proved unreachable *)
| QD_FUEL.

Definition qd_ok (e : qd_err) : bool := match e with QD_SUCCESS => true | _ => false end.

(** QCBORDecode_IsNotWellFormedError *)
Definition is_not_wf (e : qd_err) : bool :=
  match e with
  | QD_BAD_TYPE_7 | QD_EXTRA_BYTES | QD_UNSUPPORTED | QD_UNCONSUMED | QD_BAD_INT
  | QD_HIT_END | QD_BAD_BREAK => true
  | _ => false
  end.

(** Decoded value. [VAgg is_map count]: array or map head; [None] is
    indefinite length. [VOther]: booleans, undefined, floats, simple values.
    [VNone]: QCBOR_TYPE_NONE, an item that could not be decoded. *)
Inductive val :=
| VInt (z : Z) | VUInt (n : N) | VBytes (b : bytes) | VText (b : bytes)
| VAgg (is_map : bool) (count : option N)
| VNullV | VOther | VBreak | VNone.

(** An item with its tag numbers (innermost first) and recoverable error. *)
Record item := { i_val : val; i_tags : list N; i_err : qd_err }.

Inductive label := LblInt (z : Z) | LblUInt (n : N) | LblText (b : bytes) | LblBytes (b : bytes).

(** ** Heads *)

Inductive hres :=
| HErr (e : qd_err) (rest : bytes)
| HOk (major ai arg : N) (rest : bytes).

Fixpoint be_value (acc : N) (l : bytes) : N :=
  match l with [] => acc | b :: r => be_value (acc * 256 + Byte.to_N b) r end.

Definition head_arg (w : nat) (major ai : N) (r : bytes) : hres :=
  if Nat.ltb (length r) w then HErr QD_HIT_END []
  else HOk major ai (be_value 0 (firstn w r)) (skipn w r).

Definition decode_head (bs : bytes) : hres :=
  match bs with
  | [] => HErr QD_HIT_END []
  | b :: r =>
    let n := Byte.to_N b in
    let major := n / 32 in
    let ai := n mod 32 in
    if ai <? 24 then HOk major ai ai r
    else if ai =? 24 then head_arg 1 major ai r
    else if ai =? 25 then head_arg 2 major ai r
    else if ai =? 26 then head_arg 4 major ai r
    else if ai =? 27 then head_arg 8 major ai r
    else if ai =? 31 then HOk major ai 31 r
    else HErr QD_UNSUPPORTED r
  end.

(** ** Items *)

Definition is_unrecoverable (e : qd_err) : bool :=
  match e with
  | QD_HIT_END | QD_BAD_BREAK | QD_NESTING_TOO_DEEP | QD_ARRAY_TOO_LONG
  | QD_NO_STRING_ALLOCATOR | QD_MAP_LABEL_TYPE | QD_FUEL => true
  | _ => false
  end.

(** Result of decoding one item: cannot continue, or an item (possibly with a
    recoverable error) and the input after it. *)
Inductive ires := IErr (e : qd_err) | IItem (it : item) (rest : bytes).

(** An untagged item with this recoverable error: its type is NONE. *)
Definition bad_item (e : qd_err) : item := {| i_val := VNone; i_tags := []; i_err := e |}.
Definition good_item (v : val) : item := {| i_val := v; i_tags := []; i_err := QD_SUCCESS |}.

Definition dec_string (text : bool) (ai arg : N) (r : bytes) : ires :=
  if ai =? 31 then IErr QD_NO_STRING_ALLOCATOR
  else if blen r <? arg then IErr QD_HIT_END
  else let s := firstn (N.to_nat arg) r in
       IItem (good_item (if text then VText s else VBytes s)) (skipn (N.to_nat arg) r).

Definition dec_type7 (ai arg : N) (r : bytes) : ires :=
  if ai =? 31 then IItem (good_item VBreak) r
  else if ai =? 22 then IItem (good_item VNullV) r
  else if (ai =? 24) && (arg <? 32) then IItem (bad_item QD_BAD_TYPE_7) r
  else IItem (good_item VOther) r.

Definition MAX_DEC_ITEMS : N := 65534.

Definition INT64_LIMIT : N := 9223372036854775808.

(** An item other than a tag, given its head. *)
Definition dec_atom (major ai arg : N) (r : bytes) : ires :=
  if major =? 0 then
    if ai =? 31 then IItem (bad_item QD_BAD_INT) r
    else if arg <? INT64_LIMIT then IItem (good_item (VInt (Z.of_N arg))) r
    else IItem (good_item (VUInt arg)) r
  else if major =? 1 then
    if ai =? 31 then IItem (bad_item QD_BAD_INT) r
    else if arg <? INT64_LIMIT then IItem (good_item (VInt (- Z.of_N arg - 1))) r
    else IItem (bad_item QD_INT_OVERFLOW) r
  else if major =? 2 then dec_string false ai arg r
  else if major =? 3 then dec_string true ai arg r
  else if (major =? 4) || (major =? 5) then
    if ai =? 31 then IItem (good_item (VAgg (major =? 5) None)) r
    else if MAX_DEC_ITEMS <? arg then IErr QD_ARRAY_TOO_LONG
    else IItem (good_item (VAgg (major =? 5) (Some arg))) r
  else dec_type7 ai arg r.

(** QCBOR_MAX_TAGS_PER_ITEM *)
Definition MAX_TAGS_PER_ITEM : nat := 4.

(** Attach the tag numbers read before an item. Undecodable items lose them. *)
Definition with_tags (tags : list N) (too_many : bool) (it : item) : item :=
  if negb (qd_ok (i_err it)) then it
  else {| i_val := i_val it; i_tags := tags;
          i_err := if too_many then QD_TOO_MANY_TAGS else QD_SUCCESS |}.

(** Tags then an item. [tags] accumulates, so ends with the innermost first. *)
Fixpoint get_item_f (fuel : nat) (tags : list N) (too_many : bool) (bs : bytes) : ires :=
  match fuel with
  | O => IErr QD_FUEL
  | S f =>
    match decode_head bs with
    | HErr e r => if is_unrecoverable e then IErr e else IItem (bad_item e) r
    | HOk major ai arg r =>
      if major =? 6 then
        if ai =? 31 then IItem (bad_item QD_BAD_INT) r
        else if Nat.leb MAX_TAGS_PER_ITEM (length tags) then get_item_f f tags true r
        else get_item_f f (arg :: tags) too_many r
      else match dec_atom major ai arg r with
           | IErr e => IErr e
           | IItem it r' => IItem (with_tags tags too_many it) r'
           end
    end
  end.

Definition get_item (bs : bytes) : ires := get_item_f (S (length bs)) [] false bs.

(** Can the item be read at this nesting depth? Non-empty arrays and maps (and
    indefinite length ones) open a level when read. *)
Definition opens_level (v : val) : bool :=
  match v with
  | VAgg _ (Some n) => negb (n =? 0)
  | VAgg _ None => true
  | _ => false
  end.

Definition depth_ok (depth : nat) (v : val) : bool :=
  negb (opens_level v) || Nat.ltb depth MAX_NESTING.

(** An array element at nesting depth [depth]. *)
Definition get_elem (depth : nat) (bs : bytes) : ires :=
  match get_item bs with
  | IErr e => IErr e
  | IItem it r =>
    match i_val it with
    | VBreak => IErr QD_BAD_BREAK
    | v => if depth_ok depth v then IItem it r else IErr QD_NESTING_TOO_DEEP
    end
  end.

Inductive eres := EErr (e : qd_err) | EEntry (l : label) (it : item) (rest : bytes).

Definition as_label (v : val) : option label :=
  match v with
  | VInt z => Some (LblInt z)
  | VUInt n => Some (LblUInt n)
  | VText b => Some (LblText b)
  | VBytes b => Some (LblBytes b)
  | _ => None
  end.

(** A map entry: label, then value. *)
Definition get_entry (depth : nat) (bs : bytes) : eres :=
  match get_item bs with
  | IErr e => EErr e
  | IItem lit r =>
    match i_val lit with
    | VBreak => EErr QD_BAD_BREAK
    | lv =>
      match get_item r with
      | IErr e => EErr e
      | IItem it r' =>
        match as_label lv with
        | None => EErr QD_MAP_LABEL_TYPE
        | Some l =>
          match i_val it with
          | VBreak => EErr QD_BAD_BREAK
          | v => if depth_ok depth v then EEntry l it r' else EErr QD_NESTING_TOO_DEEP
          end
        end
      end
    end
  end.

(** ** Traversal *)

Definition dec_count (c : option N) : option N :=
  match c with Some n => Some (n - 1) | None => None end.

Definition starts_with_break (bs : bytes) : bool :=
  match bs with b :: _ => Byte.to_N b =? 255 | [] => false end.

(** Drop levels with nothing left. *)
Fixpoint pop_done (st : list (bool * option N)) : list (bool * option N) :=
  match st with
  | (_, Some 0) :: r => pop_done r
  | _ => st
  end.

Definition push_val (v : val) (st : list (bool * option N)) : list (bool * option N) :=
  match v with VAgg m c => (m, c) :: st | _ => st end.

(** Read everything left in the open levels [st] (innermost first); [base]
    levels are open outside of them. *)
Fixpoint skip_f (fuel : nat) (base : nat) (st : list (bool * option N)) (bs : bytes) : qd_err + bytes :=
  match fuel with
  | O => inl QD_FUEL
  | S f =>
    match pop_done st with
    | [] => inr bs
    | (m, c) :: r =>
      if (match c with None => true | Some _ => false end) && starts_with_break bs
      then skip_f f base r (tl bs)
      else match bs with
           | [] => inl QD_NO_MORE_ITEMS
           | _ =>
             if m then
               match get_entry (base + S (length r)) bs with
               | EErr e => inl e
               | EEntry _ it bs' => skip_f f base (push_val (i_val it) ((m, dec_count c) :: r)) bs'
               end
             else
               match get_elem (base + S (length r)) bs with
               | IErr e => inl e
               | IItem it bs' => skip_f f base (push_val (i_val it) ((m, dec_count c) :: r)) bs'
               end
           end
    end
  end.

Definition skip (base : nat) (st : list (bool * option N)) (bs : bytes) : qd_err + bytes :=
  skip_f (S (length bs)) base st bs.

(** A map entry found by a search; [en_content] is the input after the value's
    head. *)
Record entry := { en_label : label; en_item : item; en_content : bytes }.

(** Every entry of the map whose content is [bs], at depth [depth] (the map's
    own level counted), up to the end of the map or the first error that stops
    the search. *)
Fixpoint scan_map_f (fuel : nat) (depth : nat) (c : option N) (bs : bytes)
  : list entry * (qd_err + bytes) :=
  match fuel with
  | O => ([], inl QD_FUEL)
  | S f =>
    match c with
    | Some 0 => ([], inr bs)
    | _ =>
      if (match c with None => true | Some _ => false end) && starts_with_break bs
      then ([], inr (tl bs))
      else match bs with
           | [] => ([], inl QD_NO_MORE_ITEMS)
           | _ =>
             match get_entry depth bs with
             | EErr e => ([], inl e)
             | EEntry l it bs' =>
               let en := {| en_label := l; en_item := it; en_content := bs' |} in
               match skip depth (push_val (i_val it) []) bs' with
               | inl e => ([en], inl e)
               | inr bs'' =>
                 let (es, fin) := scan_map_f f depth (dec_count c) bs'' in (en :: es, fin)
               end
             end
           end
    end
  end.

Definition scan_map (depth : nat) (c : option N) (bs : bytes) : list entry * (qd_err + bytes) :=
  scan_map_f (S (length bs)) depth c bs.

(** ** Decode context *)

(** Entered levels. [cnt]: items left; [scnt], [start]: item count and content
    at the start of the level. [LvBstr after]: wrapped byte string, with the
    input following it. *)
Inductive level :=
| LvAgg (is_map : bool) (cnt scnt : option N) (start : bytes)
| LvBstr (after : bytes).

(** QCBORDecodeContext. [d_err]: uLastError. *)
Record dctx := { d_err : qd_err; d_in : bytes; d_levels : list level; d_tags : list N }.

(** QCBORDecode_Init. *)
Definition dec_init (bs : bytes) : dctx :=
  {| d_err := QD_SUCCESS; d_in := bs; d_levels := []; d_tags := [] |}.

Definition d_set_err (d : dctx) (e : qd_err) : dctx :=
  {| d_err := e; d_in := d_in d; d_levels := d_levels d; d_tags := d_tags d |}.
Definition d_set_in (d : dctx) (bs : bytes) : dctx :=
  {| d_err := d_err d; d_in := bs; d_levels := d_levels d; d_tags := d_tags d |}.
Definition d_set_levels (d : dctx) (l : list level) : dctx :=
  {| d_err := d_err d; d_in := d_in d; d_levels := l; d_tags := d_tags d |}.
Definition d_set_tags (d : dctx) (l : list N) : dctx :=
  {| d_err := d_err d; d_in := d_in d; d_levels := d_levels d; d_tags := l |}.

Definition d_depth (d : dctx) : nat := length (d_levels d).

(** Nothing left in the current level. *)
Definition at_end (d : dctx) : bool :=
  match d_in d with
  | [] => true
  | _ =>
    match d_levels d with
    | LvAgg _ (Some 0) _ _ :: _ => true
    | LvAgg _ None _ _ :: _ => starts_with_break (d_in d)
    | _ => false
    end
  end.

Definition dec_level (l : list level) : list level :=
  match l with
  | LvAgg m c sc s :: r => LvAgg m (dec_count c) sc s :: r
  | _ => l
  end.

(** The item GetNext hands out: type NONE when there is an error. *)
Definition got (it : item) : item :=
  if qd_ok (i_err it) then it else bad_item (i_err it).

(** QCBORDecode_GetNext, except that a non-empty array or map is left
    unentered: its content is what [d_in] holds next. t_cose never calls
    GetNext again after getting an array or map this way
    (src/t_cose_parameters.c 150-186, src/t_cose_sign1_verify.c 428-433). *)
Definition get_next (d : dctx) : qd_err * item * dctx :=
  if at_end d then (QD_NO_MORE_ITEMS, bad_item QD_NO_MORE_ITEMS, d)
  else
    match d_levels d with
    | LvAgg true _ _ _ :: _ =>
      match get_entry (d_depth d) (d_in d) with
      | EErr e => (e, bad_item e, d)
      | EEntry _ it r => (i_err it, got it, d_set_levels (d_set_in d r) (dec_level (d_levels d)))
      end
    | _ =>
      match get_elem (d_depth d) (d_in d) with
      | IErr e => (e, bad_item e, d)
      | IItem it r => (i_err it, got it, d_set_levels (d_set_in d r) (dec_level (d_levels d)))
      end
    end.

(** QCBORDecode_EnterArray / EnterMap *)
Definition enter_agg (want_map : bool) (d : dctx) : dctx :=
  if negb (qd_ok (d_err d)) then d
  else match get_next d with
       | (e, it, d') =>
         if negb (qd_ok e) then d_set_err d' e
         else match i_val it with
              | VAgg m c =>
                if Bool.eqb m want_map
                then d_set_tags (d_set_levels d' (LvAgg m c c (d_in d') :: d_levels d')) (i_tags it)
                else d_set_err d' QD_UNEXPECTED_TYPE
              | _ => d_set_err d' QD_UNEXPECTED_TYPE
              end
       end.

Definition enter_array := enter_agg false.
Definition enter_map := enter_agg true.

(** An untagged byte string, or UNEXPECTED_TYPE. *)
Definition untagged_bytes (it : item) : option bytes :=
  match i_val it, i_tags it with VBytes b, [] => Some b | _, _ => None end.

(** QCBORDecode_EnterBstrWrapped with QCBOR_TAG_REQUIREMENT_NOT_A_TAG. The
    second result is the value left in the caller's buffer descriptor; [None]
    when the function returns without setting it. *)
Definition enter_bstr_wrapped (d : dctx) : dctx * option ubufc :=
  if negb (qd_ok (d_err d)) then (d, None)
  else match get_next d with
       | (e, it, d') =>
         if negb (qd_ok e) then (d_set_err d' e, None)
         else match untagged_bytes it with
              | Some b =>
                (d_set_in (d_set_levels d' (LvBstr (d_in d') :: d_levels d')) b, Some (UBuf b))
              | None => (d_set_err d' QD_UNEXPECTED_TYPE, Some NULL_UBUF)
              end
       end.

(** QCBORDecode_ExitBstrWrapped *)
Definition exit_bstr_wrapped (d : dctx) : dctx :=
  if negb (qd_ok (d_err d)) then d
  else match d_levels d with
       | LvBstr after :: r => d_set_levels (d_set_in d after) r
       | _ => d_set_err d QD_EXIT_MISMATCH
       end.

(** QCBORDecode_GetByteString *)
Definition get_byte_string (d : dctx) : dctx * option ubufc :=
  if negb (qd_ok (d_err d)) then (d, None)
  else match get_next d with
       | (e, it, d') =>
         if negb (qd_ok e) then (d_set_err d' e, None)
         else match untagged_bytes it with
              | Some b => (d', Some (UBuf b))
              | None => (d_set_err d' QD_UNEXPECTED_TYPE, Some NULL_UBUF)
              end
       end.

(** QCBORDecode_ExitArray: whatever was not read is skipped. *)
Definition exit_array (d : dctx) : dctx :=
  if negb (qd_ok (d_err d)) then d
  else match d_levels d with
       | LvAgg false _ sc start :: r =>
         match skip (length r) [(false, sc)] start with
         | inl e => d_set_err d e
         | inr rest => d_set_levels (d_set_in d rest) r
         end
       | _ => d_set_err d QD_EXIT_MISMATCH
       end.

(** QCBORDecode_ExitMap *)
Definition exit_map (d : dctx) : dctx :=
  if negb (qd_ok (d_err d)) then d
  else match d_levels d with
       | LvAgg true _ sc start :: r =>
         match snd (scan_map (d_depth d) sc start) with
         | inl e => d_set_err d e
         | inr rest => d_set_levels (d_set_in d rest) r
         end
       | _ => d_set_err d QD_EXIT_MISMATCH
       end.

(** ** Map search *)

Inductive qtype := QT_INT64 | QT_BSTR | QT_ARRAY | QT_ANY.

Definition type_matches (t : qtype) (v : val) : bool :=
  match t, v with
  | QT_ANY, _ => true
  | QT_INT64, VInt _ => true
  | QT_BSTR, VBytes _ => true
  | QT_ARRAY, VAgg false _ => true
  | _, _ => false
  end.

(** One sought label: QCBORItem array element of GetItemsInMap. *)
Record slot := { sl_label : Z; sl_type : qtype; sl_found : option entry }.

Definition slot_fill (s : slot) (e : entry) : slot :=
  {| sl_label := sl_label s; sl_type := sl_type s; sl_found := Some e |}.

Definition label_is (z : Z) (l : label) : bool :=
  match l with LblInt y => (z =? y)%Z | _ => false end.

(** Put an entry in the slot with its label: the slots, or an error; [None]
    when no slot has this label. *)
Fixpoint fill_slots (ss : list slot) (e : entry) : option (qd_err + list slot) :=
  match ss with
  | [] => None
  | s :: r =>
    if label_is (sl_label s) (en_label e) then
      Some (match sl_found s with
            | Some _ => inl QD_DUPLICATE_LABEL
            | None =>
              if negb (qd_ok (i_err (en_item e))) then inl (i_err (en_item e))
              else if type_matches (sl_type s) (i_val (en_item e)) then inr (slot_fill s e :: r)
              else inl QD_UNEXPECTED_TYPE
            end)
    else match fill_slots r e with
         | None => None
         | Some (inl x) => Some (inl x)
         | Some (inr r') => Some (inr (s :: r'))
         end
  end.

Section Search.
  (** State of the caller's callback; [cb] returns false to fail the search. *)
  Variable S : Type.
  Variable cb : S -> entry -> out (S * bool).

  (** Entries in order; each goes to its slot or else to the callback. *)
  Fixpoint search_entries (ss : list slot) (st : S) (es : list entry)
    : out (list slot * S * qd_err) :=
    match es with
    | [] => Ret (ss, st, QD_SUCCESS)
    | e :: r =>
      match fill_slots ss e with
      | Some (inl x) => Ret (ss, st, x)
      | Some (inr ss') => search_entries ss' st r
      | None =>
        obind (cb st e) (fun '(st', ok) =>
          if ok : bool then search_entries ss st' r
          else Ret (ss, st', QD_CALLBACK_FAIL))
      end
    end.

  (** QCBORDecode_GetItemsInMapWithCallback: the slots found (meaningful only
      without error), the callback state, the context with its error set. *)
  Definition get_items_in_map (d : dctx) (ss : list slot) (st : S)
    : out (dctx * list slot * S) :=
    if negb (qd_ok (d_err d)) then Ret (d, ss, st)
    else match d_levels d with
         | LvAgg true _ sc start :: _ =>
           let (es, fin) := scan_map (d_depth d) sc start in
           obind (search_entries ss st es) (fun '(ss', st', x) =>
             let x' := if negb (qd_ok x) then x
                       else match fin with inl e => e | inr _ => QD_SUCCESS end in
             Ret (d_set_err d x', ss', st'))
         | _ => Ret (d_set_err d QD_MAP_NOT_ENTERED, ss, st)
         end.
End Search.
Arguments search_entries {S}.
Arguments get_items_in_map {S}.

(** QCBORDecode_EnterArrayFromMapN *)
Definition enter_array_from_map (d : dctx) (lbl : Z) : dctx :=
  if negb (qd_ok (d_err d)) then d
  else match d_levels d with
       | LvAgg true _ sc start :: _ =>
         let (es, fin) := scan_map (d_depth d) sc start in
         match search_entries (fun (_ : unit) _ => Ret (tt, true))
                 [{| sl_label := lbl; sl_type := QT_ARRAY; sl_found := None |}] tt es with
         | UB _ => d_set_err d QD_FUEL
         | Ret (ss, _, x) =>
           if negb (qd_ok x) then d_set_err d x
           else match fin with
                | inl e => d_set_err d e
                | inr _ =>
                  match ss with
                  | [ {| sl_found := Some e |} ] =>
                    match i_val (en_item e) with
                    | VAgg false c =>
                      d_set_tags
                        (d_set_in (d_set_levels d (LvAgg false c c (en_content e) :: d_levels d))
                                  (en_content e)) (i_tags (en_item e))
                    | _ => d_set_err d QD_UNEXPECTED_TYPE
                    end
                  | _ => d_set_err d QD_LABEL_NOT_FOUND
                  end
                end
         end
       | _ => d_set_err d QD_MAP_NOT_ENTERED
       end.

(** QCBORDecode_GetAndResetError *)
Definition get_and_reset_error (d : dctx) : qd_err * dctx := (d_err d, d_set_err d QD_SUCCESS).

(** QCBORDecode_GetNthTagOfLast *)
Definition get_nth_tag_of_last (d : dctx) (i : nat) : N :=
  if negb (qd_ok (d_err d)) then 18446744073709551615
  else nth i (d_tags d) 18446744073709551615.

(** QCBORDecode_Finish *)
Definition dec_finish (d : dctx) : qd_err :=
  if negb (qd_ok (d_err d)) then d_err d
  else match d_levels d with
       | _ :: _ => QD_UNCONSUMED
       | [] => match d_in d with [] => QD_SUCCESS | _ => QD_EXTRA_BYTES end
       end.
