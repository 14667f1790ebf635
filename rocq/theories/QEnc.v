(** Model of the QCBOR encoder functions t_cose calls. QCBOR is not in /repo;
    this file follows its public header documentation and is part of the
    trusted base (DESIGN.md, "QCBOR"). Executable; no proofs here. *)
From Verif Require Import Base.
Open Scope N_scope.

(** CBOR major types. *)
Definition MT_UINT : N := 0.
Definition MT_NINT : N := 1.
Definition MT_BSTR : N := 2.
Definition MT_TSTR : N := 3.
Definition MT_ARRAY : N := 4.
Definition MT_MAP : N := 5.
Definition MT_TAG : N := 6.

Fixpoint be_bytes (w : nat) (n : N) : bytes :=
  match w with
  | O => []
  | S w' => byte_of_N (n / 256 ^ N.of_nat w') :: be_bytes w' n
  end.

(** QCBOREncode_EncodeHead with uMinLen 0: shortest head for an argument,
    big endian. Called directly at src/t_cose_util.c 147-149. *)
Definition encode_head (major arg : N) : bytes :=
  if arg <? 24 then [byte_of_N (major * 32 + arg)]
  else if arg <? 256 then byte_of_N (major * 32 + 24) :: be_bytes 1 arg
  else if arg <? 65536 then byte_of_N (major * 32 + 25) :: be_bytes 2 arg
  else if arg <? 4294967296 then byte_of_N (major * 32 + 26) :: be_bytes 4 arg
  else byte_of_N (major * 32 + 27) :: be_bytes 8 arg.

Inductive qe_err :=
| QE_SUCCESS | QE_BUFFER_TOO_SMALL | QE_BUFFER_TOO_LARGE | QE_NESTING_TOO_DEEP
| QE_TOO_MANY_CLOSES | QE_CLOSE_MISMATCH | QE_ARRAY_TOO_LONG | QE_STILL_OPEN.

Definition qe_ok (e : qe_err) : bool := match e with QE_SUCCESS => true | _ => false end.

Inductive ntype := NArray | NMap | NBstr | NOpenBytes.

Definition ntype_eqb (a b : ntype) : bool :=
  match a, b with
  | NArray, NArray | NMap, NMap | NBstr, NBstr | NOpenBytes, NOpenBytes => true
  | _, _ => false
  end.

(** One open array, map, wrapping byte string or open byte string. *)
Record nest := { n_type : ntype; n_start : N; n_count : N }.

(** QCBOREncodeContext. [e_null]: the buffer pointer is NULL (size
    calculation); then [e_data] is a ghost: its length is exact but its bytes
    were never stored. [e_oerr]: UsefulOutBuf error. [e_top]: count of items at
    top level. [e_nest]: open levels, innermost first. [e_err]: uError. *)
Record enc := {
  e_null : bool; e_cap : N; e_data : bytes; e_oerr : bool;
  e_top : N; e_nest : list nest; e_err : qe_err }.

(** QCBOREncode_Init *)
Definition enc_init (b : wbuf) : enc :=
  {| e_null := wb_null b; e_cap := wb_len b; e_data := []; e_oerr := false;
     e_top := 0; e_nest := []; e_err := QE_SUCCESS |}.

Definition e_pos (e : enc) : N := blen (e_data e).
Definition e_room (e : enc) : N := e_cap e - e_pos e.

(** Bytes an insertion stores. A NULL source only advances the length. *)
Definition src_bytes (u : ubufc) : bytes :=
  match u with UNull n => repeat x00 (N.to_nat n) | UBuf d => d end.

Definition set_data (e : enc) (d : bytes) : enc :=
  {| e_null := e_null e; e_cap := e_cap e; e_data := d; e_oerr := e_oerr e;
     e_top := e_top e; e_nest := e_nest e; e_err := e_err e |}.
Definition set_oerr (e : enc) : enc :=
  {| e_null := e_null e; e_cap := e_cap e; e_data := e_data e; e_oerr := true;
     e_top := e_top e; e_nest := e_nest e; e_err := e_err e |}.
Definition set_err (e : enc) (x : qe_err) : enc :=
  {| e_null := e_null e; e_cap := e_cap e; e_data := e_data e; e_oerr := e_oerr e;
     e_top := e_top e; e_nest := e_nest e; e_err := x |}.
Definition set_nest (e : enc) (n : list nest) : enc :=
  {| e_null := e_null e; e_cap := e_cap e; e_data := e_data e; e_oerr := e_oerr e;
     e_top := e_top e; e_nest := n; e_err := e_err e |}.
Definition set_top (e : enc) (n : N) : enc :=
  {| e_null := e_null e; e_cap := e_cap e; e_data := e_data e; e_oerr := e_oerr e;
     e_top := n; e_nest := e_nest e; e_err := e_err e |}.

(** UsefulOutBuf_InsertUsefulBuf: sticky error when the data does not fit. *)
Definition enc_insert (e : enc) (u : ubufc) (pos : N) : enc :=
  if e_oerr e then e
  else if e_room e <? u_len u then set_oerr e
  else if e_pos e <? pos then set_oerr e
  else set_data e (firstn (N.to_nat pos) (e_data e) ++ src_bytes u ++ skipn (N.to_nat pos) (e_data e)).

Definition enc_append (e : enc) (u : ubufc) : enc := enc_insert e u (e_pos e).

(** QCBOR_MAX_ITEMS_IN_ARRAY *)
Definition MAX_ITEMS : N := 65534.

(** Count one item in the current level. *)
Definition enc_increment (e : enc) : enc :=
  if negb (qe_ok (e_err e)) then e
  else match e_nest e with
       | [] => if MAX_ITEMS <=? e_top e + 1 then set_err e QE_ARRAY_TOO_LONG
               else set_top e (e_top e + 1)
       | n :: r => if MAX_ITEMS <=? n_count n + 1 then set_err e QE_ARRAY_TOO_LONG
                   else set_nest e ({| n_type := n_type n; n_start := n_start n;
                                       n_count := n_count n + 1 |} :: r)
       end.

Definition enc_add_head (e : enc) (major arg : N) : enc :=
  enc_append e (UBuf (encode_head major arg)).

(** QCBOREncode_AddTag *)
Definition enc_add_tag (e : enc) (t : N) : enc := enc_add_head e MT_TAG t.

(** QCBOREncode_AddUInt64 *)
Definition enc_add_uint (e : enc) (n : N) : enc :=
  enc_increment (enc_add_head e MT_UINT n).

(** QCBOREncode_AddInt64 *)
Definition enc_add_int (e : enc) (z : Z) : enc :=
  if (z <? 0)%Z then enc_increment (enc_add_head e MT_NINT (Z.to_N (- z - 1)))
  else enc_increment (enc_add_head e MT_UINT (Z.to_N z)).

(** QCBOREncode_AddBytes *)
Definition enc_add_bytes (e : enc) (u : ubufc) : enc :=
  enc_increment (enc_append (enc_add_head e MT_BSTR (u_len u)) u).

(** QCBOREncode_AddText / AddSZString (the string's bytes without the NUL) *)
Definition enc_add_text (e : enc) (u : ubufc) : enc :=
  enc_increment (enc_append (enc_add_head e MT_TSTR (u_len u)) u).

(** QCBOREncode_AddNULL *)
Definition enc_add_null (e : enc) : enc :=
  enc_increment (enc_append e (UBuf [xf6])).

(** QCBOREncode_AddEncoded *)
Definition enc_add_encoded (e : enc) (u : ubufc) : enc :=
  enc_increment (enc_append e u).

(** QCBOREncode_Add*ToMapN *)
Definition enc_add_int_to_map (e : enc) (lbl z : Z) := enc_add_int (enc_add_int e lbl) z.
Definition enc_add_uint_to_map (e : enc) (lbl : Z) (n : N) := enc_add_uint (enc_add_int e lbl) n.
Definition enc_add_bytes_to_map (e : enc) (lbl : Z) (u : ubufc) := enc_add_bytes (enc_add_int e lbl) u.
Definition enc_add_text_to_map (e : enc) (lbl : Z) (u : ubufc) := enc_add_text (enc_add_int e lbl) u.

(** QCBOR_MAX_ARRAY_NESTING and QCBOR_MAX_ARRAY_OFFSET (UINT32_MAX - 100). *)
Definition MAX_NESTING : nat := 15.
Definition MAX_OFFSET : N := 4294967195.

(** QCBOREncode_OpenMapOrArray / BstrWrap / OpenBytes: open a level *)
Definition enc_open (e : enc) (t : ntype) : enc :=
  let e := enc_increment e in
  if negb (qe_ok (e_err e)) then e
  else if MAX_OFFSET <? e_pos e then set_err e QE_BUFFER_TOO_LARGE
  else if Nat.leb MAX_NESTING (length (e_nest e)) then set_err e QE_NESTING_TOO_DEEP
  else set_nest e ({| n_type := t; n_start := e_pos e; n_count := 0 |} :: e_nest e).

Definition enc_open_map (e : enc) := enc_open e NMap.
Definition enc_open_array (e : enc) := enc_open e NArray.
Definition enc_open_bstr (e : enc) := enc_open e NBstr.

(** Insert the head of the level being closed at its start; close it. *)
Definition enc_close (e : enc) (t : ntype) (major : N) (arg : nest -> enc -> N) : enc :=
  if negb (qe_ok (e_err e)) then e
  else match e_nest e with
       | [] => set_err e QE_TOO_MANY_CLOSES
       | n :: r =>
         if negb (ntype_eqb (n_type n) t) then set_err e QE_CLOSE_MISMATCH
         else set_nest (enc_insert e (UBuf (encode_head major (arg n e))) (n_start n)) r
       end.

(** QCBOREncode_CloseMap / CloseArray *)
Definition enc_close_map (e : enc) : enc :=
  enc_close e NMap MT_MAP (fun n _ => n_count n / 2).
Definition enc_close_array (e : enc) : enc :=
  enc_close e NArray MT_ARRAY (fun n _ => n_count n).

(** A part of the encoder's output buffer: what CloseBstrWrap2 hands back. *)
Record slice := { s_null : bool; s_off : N; s_len : N }.

Definition NULL_SLICE : slice := {| s_null := true; s_off := 0; s_len := 0 |}.

(** The bytes a slice refers to, given the present content of the buffer. *)
Definition resolve (e : enc) (s : slice) : ubufc :=
  if s_null s then UNull (s_len s) else UBuf (sub_bytes (e_data e) (s_off s) (s_len s)).

(** QCBOREncode_CloseBstrWrap2 with bIncludeCBORHead false. The returned slice
    is the wrapped content; it is NULL_SLICE when an error prevents closing. *)
Definition enc_close_bstr (e : enc) : enc * slice :=
  let blen_wrapped n (e : enc) := e_pos e - n_start n in
  let e' := enc_close e NBstr MT_BSTR blen_wrapped in
  if negb (qe_ok (e_err e)) || negb (qe_ok (e_err e')) then (e', NULL_SLICE)
  else match e_nest e with
       | [] => (e', NULL_SLICE)
       | n :: _ =>
         if e_oerr e' then (e', NULL_SLICE)
         else
           let len := e_pos e - n_start n in
           let off := n_start n + blen (encode_head MT_BSTR len) in
           (e', {| s_null := e_null e; s_off := off; s_len := len |})
       end.

(** QCBOREncode_OpenBytes: a place to write a byte string of yet unknown
    length: the rest of the buffer, NULL if there is none. *)
Definition enc_open_bytes (e : enc) : enc * wbuf :=
  let place := {| wb_null := e_null e || (e_room e =? 0); wb_len := e_room e |} in
  (enc_open e NOpenBytes, place).

(** QCBOREncode_CloseBytes: [written] is what the caller stored at the place. *)
Definition enc_close_bytes (e : enc) (amount : N) (written : bytes) : enc :=
  if negb (qe_ok (e_err e)) then e
  else if e_oerr e then e
  else if e_room e <? amount then set_oerr e
  else
    let e1 := set_data e (e_data e ++
                firstn (N.to_nat amount) (written ++ repeat x00 (N.to_nat amount))) in
    enc_close e1 NOpenBytes MT_BSTR (fun _ _ => amount).

(** QCBOREncode_GetErrorState: an output-buffer error masks any other. *)
Definition enc_error (e : enc) : qe_err :=
  if e_oerr e then QE_BUFFER_TOO_SMALL else e_err e.

(** UsefulOutBuf_OutUBuf *)
Definition enc_out (e : enc) : ubufc :=
  if e_oerr e then NULL_UBUF
  else if e_null e then UNull (e_pos e) else UBuf (e_data e).

(** QCBOREncode_Finish: the output is set only on success. *)
Definition enc_finish (e : enc) : qe_err * option ubufc :=
  match enc_error e with
  | QE_SUCCESS => match e_nest e with
                  | [] => (QE_SUCCESS, Some (enc_out e))
                  | _ => (QE_STILL_OPEN, None)
                  end
  | x => (x, None)
  end.

(** Operations an application may perform on the encoder between
    t_cose_sign1_encode_parameters and t_cose_sign1_encode_signature. *)
Inductive eop :=
| OpTag (t : N) | OpUInt (n : N) | OpInt (z : Z) | OpBytes (u : ubufc) | OpText (u : ubufc)
| OpNull | OpEncoded (u : ubufc)
| OpOpenMap | OpOpenArray | OpOpenBstr | OpCloseMap | OpCloseArray | OpCloseBstr.

Definition eop_run (e : enc) (o : eop) : enc :=
  match o with
  | OpTag t => enc_add_tag e t
  | OpUInt n => enc_add_uint e n
  | OpInt z => enc_add_int e z
  | OpBytes u => enc_add_bytes e u
  | OpText u => enc_add_text e u
  | OpNull => enc_add_null e
  | OpEncoded u => enc_add_encoded e u
  | OpOpenMap => enc_open_map e
  | OpOpenArray => enc_open_array e
  | OpOpenBstr => enc_open_bstr e
  | OpCloseMap => enc_close_map e
  | OpCloseArray => enc_close_array e
  | OpCloseBstr => fst (enc_close_bstr e)
  end.

Definition eops_run (e : enc) (l : list eop) : enc := fold_left eop_run l e.
