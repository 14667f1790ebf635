(** Model of src/t_cose_parameters.c. *)
From Verif Require Import Base Const QEnc QDec.
Open Scope N_scope.
Local Open Scope mon_scope.

(** struct t_cose_label_list, src/t_cose_parameters.h 38-43: two C arrays of
    T_COSE_PARAMETER_LIST_MAX+1 elements. *)
Record llist := { ll_int : list Z; ll_tstr : list ubufc }.

(** clear_label_list, src/t_cose_parameters.h 63-66 *)
Definition clear_label_list : llist :=
  {| ll_int := repeat 0%Z (S PARAMETER_LIST_MAX);
     ll_tstr := repeat NULL_UBUF (S PARAMETER_LIST_MAX) |}.

(** struct t_cose_parameters, inc/t_cose/t_cose_common.h 448-490, and
    clear_cose_parameters, src/t_cose_parameters.h 88-108 *)
Record params := {
  p_alg : Z; p_kid : ubufc; p_iv : ubufc; p_partial_iv : ubufc;
  p_ct_tstr : ubufc; p_ct_uint : N }.

Definition clear_params : params :=
  {| p_alg := ALG_RESERVED; p_kid := NULL_UBUF; p_iv := NULL_UBUF; p_partial_iv := NULL_UBUF;
     p_ct_tstr := NULL_UBUF; p_ct_uint := EMPTY_UINT_CONTENT_TYPE |}.

Definition p_set_alg (p : params) (z : Z) : params :=
  {| p_alg := z; p_kid := p_kid p; p_iv := p_iv p; p_partial_iv := p_partial_iv p;
     p_ct_tstr := p_ct_tstr p; p_ct_uint := p_ct_uint p |}.
Definition p_set_kid (p : params) (u : ubufc) : params :=
  {| p_alg := p_alg p; p_kid := u; p_iv := p_iv p; p_partial_iv := p_partial_iv p;
     p_ct_tstr := p_ct_tstr p; p_ct_uint := p_ct_uint p |}.
Definition p_set_iv (p : params) (u : ubufc) : params :=
  {| p_alg := p_alg p; p_kid := p_kid p; p_iv := u; p_partial_iv := p_partial_iv p;
     p_ct_tstr := p_ct_tstr p; p_ct_uint := p_ct_uint p |}.
Definition p_set_partial_iv (p : params) (u : ubufc) : params :=
  {| p_alg := p_alg p; p_kid := p_kid p; p_iv := p_iv p; p_partial_iv := u;
     p_ct_tstr := p_ct_tstr p; p_ct_uint := p_ct_uint p |}.
Definition p_set_ct_tstr (p : params) (u : ubufc) : params :=
  {| p_alg := p_alg p; p_kid := p_kid p; p_iv := p_iv p; p_partial_iv := p_partial_iv p;
     p_ct_tstr := u; p_ct_uint := p_ct_uint p |}.
Definition p_set_ct_uint (p : params) (n : N) : params :=
  {| p_alg := p_alg p; p_kid := p_kid p; p_iv := p_iv p; p_partial_iv := p_partial_iv p;
     p_ct_tstr := p_ct_tstr p; p_ct_uint := n |}.

(** ** C array accesses; outside of the array is undefined behaviour *)

Fixpoint arr_set {A} (l : list A) (n : nat) (a : A) : out (list A) :=
  match l, n with
  | [], _ => UB OOBWrite
  | _ :: r, O => Ret (a :: r)
  | x :: r, S n' => let? r' := arr_set r n' a in Ret (x :: r')
  end.

Definition arr_get {A} (l : list A) (n : nat) : out A :=
  match nth_error l n with Some a => Ret a | None => UB OOBRead end.

(** [for(n = 0; !stop(a[n]); n++);] -- index of the first element that stops. *)
Fixpoint arr_find {A} (stop : A -> bool) (l : list A) : out nat :=
  match l with
  | [] => UB OOBRead
  | x :: r => if stop x then Ret O else let? n := arr_find stop r in Ret (S n)
  end.

(** add_label_to_list, src/t_cose_parameters.c 39-85 *)
Definition add_label_to_list (l : label) (ll : llist) : out (terr * llist) :=
  match l with
  | LblInt z =>
    let? n := arr_find (fun x => (x =? 0)%Z) (ll_int ll) in
    if Nat.eqb n PARAMETER_LIST_MAX then Ret (ERR_TOO_MANY_PARAMETERS, ll)
    else let? a := arr_set (ll_int ll) n z in
         Ret (T_SUCCESS, {| ll_int := a; ll_tstr := ll_tstr ll |})
  | LblText s =>
    let? n := arr_find u_is_null (ll_tstr ll) in
    if Nat.eqb n PARAMETER_LIST_MAX then Ret (ERR_TOO_MANY_PARAMETERS, ll)
    else let? a := arr_set (ll_tstr ll) n (UBuf s) in
         Ret (T_SUCCESS, {| ll_int := ll_int ll; ll_tstr := a |})
  | _ => Ret (ERR_PARAMETER_CBOR, ll)
  end.

(** is_label_list_clear, src/t_cose_parameters.c 95-100 *)
Definition is_label_list_clear (ll : llist) : out bool :=
  let? z := arr_get (ll_int ll) 0 in
  if negb (z =? 0)%Z then Ret false
  else let? s := arr_get (ll_tstr ll) 0 in Ret (u_is_null_or_empty s).

(** The loop of decode_critical_parameter, src/t_cose_parameters.c 149-181. *)
Fixpoint crit_loop (fuel : nat) (d : dctx) (ll : llist) (ni nt : nat) : out (terr * llist * dctx) :=
  match fuel with
  | O => UB Diverges
  | S f =>
    match get_next d with
    | (x, it, d') =>
      match x with
      | QD_NO_MORE_ITEMS => Ret (T_SUCCESS, ll, d')
      | QD_SUCCESS =>
        match i_val it with
        | VInt z =>
          if Nat.leb PARAMETER_LIST_MAX ni then Ret (ERR_CRIT_PARAMETER, ll, d')
          else let? a := arr_set (ll_int ll) ni z in
               crit_loop f d' {| ll_int := a; ll_tstr := ll_tstr ll |} (S ni) nt
        | VText s =>
          if Nat.leb PARAMETER_LIST_MAX nt then Ret (ERR_CRIT_PARAMETER, ll, d')
          else let? a := arr_set (ll_tstr ll) nt (UBuf s) in
               crit_loop f d' {| ll_int := ll_int ll; ll_tstr := a |} ni (S nt)
        | _ => Ret (ERR_CRIT_PARAMETER, ll, d')
        end
      | _ => Ret (ERR_CBOR_NOT_WELL_FORMED, ll, d')
      end
    end
  end.

(** decode_critical_parameter, src/t_cose_parameters.c 117-199.
    [crit = None]: critical_labels is NULL. *)
Definition decode_critical_parameter (d : dctx) (crit : option llist)
  : out (terr * option llist * dctx) :=
  let d := enter_array_from_map d LABEL_CRIT in
  let (x, d) := get_and_reset_error d in
  match x with
  | QD_LABEL_NOT_FOUND => Ret (T_SUCCESS, crit, d)
  | QD_SUCCESS =>
    match crit with
    | None => Ret (ERR_PARAMETER_NOT_PROTECTED, None, d)
    | Some ll =>
      let? (err, ll, d) := crit_loop (S (length (d_in d))) d ll 0 0 in
      if negb (terr_eqb err T_SUCCESS) then Ret (err, Some ll, d)
      else
        let d := exit_array d in
        let? clear := is_label_list_clear ll in
        Ret (if clear then ERR_CRIT_PARAMETER else T_SUCCESS, Some ll, d)
    end
  | _ => Ret (ERR_CRIT_PARAMETER, crit, d)
  end.

(** [for(n = 0; a[n] not end; n++) if(hit(a[n])) goto found;] *)
Fixpoint arr_any {A} (stop : A -> bool) (hit : A -> out bool) (l : list A) : out bool :=
  match l with
  | [] => UB OOBRead
  | x :: r => if stop x then Ret false
              else let? h := hit x in
                   if h then Ret true else arr_any stop hit r
  end.

(** check_critical_labels, src/t_cose_parameters.c 205-252 *)
Definition check_critical_labels (crit unknown : llist) : out terr :=
  let? i := arr_any (fun x => (x =? 0)%Z)
              (fun u => arr_any (fun x => (x =? 0)%Z) (fun c => Ret (c =? u)%Z) (ll_int crit))
              (ll_int unknown) in
  if i then Ret ERR_UNKNOWN_CRITICAL_PARAMETER
  else
    let? t := arr_any u_is_null
                (fun u => arr_any u_is_null (fun c => u_equal c u) (ll_tstr crit))
                (ll_tstr unknown) in
    Ret (if t then ERR_UNKNOWN_CRITICAL_PARAMETER else T_SUCCESS).

(** header_parameter_callback, src/t_cose_parameters.c 274-304. State: unknown
    labels and the recorded error. *)
Definition header_parameter_callback (st : llist * terr) (e : entry)
  : out ((llist * terr) * bool) :=
  if label_is LABEL_CRIT (en_label e) then Ret ((fst st, T_SUCCESS), true)
  else
    let? (err, ll) := add_label_to_list (en_label e) (fst st) in
    Ret ((ll, err), terr_eqb err T_SUCCESS).

Definition mk_slot (l : Z) (t : qtype) : slot := {| sl_label := l; sl_type := t; sl_found := None |}.

(** The header_items array, src/t_cose_parameters.c 366-391 *)
Definition header_slots : list slot :=
  [ mk_slot LABEL_ALG QT_INT64; mk_slot LABEL_KID QT_BSTR; mk_slot LABEL_IV QT_BSTR;
    mk_slot LABEL_PARTIAL_IV QT_BSTR; mk_slot LABEL_CONTENT_TYPE QT_ANY ].

(** header_items[n] after the search; [None]: uDataType is NONE. *)
Definition slot_val (ss : list slot) (n : nat) : option val :=
  match nth_error ss n with
  | Some {| sl_found := Some e |} => Some (i_val (en_item e))
  | _ => None
  end.

(** src/t_cose_parameters.c 431-442; [prot]: critical_labels is not NULL *)
Definition take_alg (prot : bool) (v : option val) (p : params) : terr * params :=
  match v with
  | Some (VInt z) =>
    if negb prot then (ERR_PARAMETER_NOT_PROTECTED, p)
    else if (z =? ALG_RESERVED)%Z || (INT32_MAX <? z)%Z then (ERR_NON_INTEGER_ALG_ID, p)
    else (T_SUCCESS, p_set_alg p (to_int32 z))
  | _ => (T_SUCCESS, p)
  end.

(** src/t_cose_parameters.c 445-472: kid, iv, partial iv *)
Definition take_bstr (get : params -> ubufc) (set : params -> ubufc -> params)
           (v : option val) (p : params) : terr * params :=
  match v with
  | Some (VBytes b) =>
    if u_is_null (get p) then (T_SUCCESS, set p (UBuf b)) else (ERR_DUPLICATE_PARAMETER, p)
  | _ => (T_SUCCESS, p)
  end.

(** src/t_cose_parameters.c 474-497 *)
Definition take_content_type (c : cfg) (v : option val) (p : params) : terr * params :=
  if dis_content_type c then (T_SUCCESS, p)
  else match v with
       | Some (VText s) =>
         if negb (u_is_null_or_empty (p_ct_tstr p)) then (ERR_DUPLICATE_PARAMETER, p)
         else (T_SUCCESS, p_set_ct_tstr p (UBuf s))
       | Some (VInt z) =>
         if (z <? 0)%Z || (65535 <? z)%Z then (ERR_BAD_CONTENT_TYPE, p)
         else if negb (p_ct_uint p =? EMPTY_UINT_CONTENT_TYPE) then (ERR_DUPLICATE_PARAMETER, p)
         else (T_SUCCESS, p_set_ct_uint p (Z.to_N z))
       | Some _ => (ERR_BAD_CONTENT_TYPE, p)
       | None => (T_SUCCESS, p)
       end.

Definition tbind {A B} (x : terr * A) (f : A -> terr * B) (g : A -> B) : terr * B :=
  match x with
  | (T_SUCCESS, a) => f a
  | (e, a) => (e, g a)
  end.

(** src/t_cose_parameters.c 431-497: copy out the parameters found. *)
Definition take_all (c : cfg) (prot : bool) (ss : list slot) (p : params) : terr * params :=
  tbind (take_alg prot (slot_val ss 0) p) (fun p =>
  tbind (take_bstr p_kid p_set_kid (slot_val ss 1) p) (fun p =>
  tbind (take_bstr p_iv p_set_iv (slot_val ss 2) p) (fun p =>
  tbind (take_bstr p_partial_iv p_set_partial_iv (slot_val ss 3) p) (fun p =>
  take_content_type c (slot_val ss 4) p) id) id) id) id.

(** Result of parsing one bucket of header parameters. *)
Record parsed := { r_err : terr; r_d : dctx; r_params : params;
                   r_crit : option llist; r_unknown : llist }.

(** parse_cose_header_parameters, src/t_cose_parameters.c 340-506 *)
Definition parse_cose_header_parameters (c : cfg) (d : dctx) (p : params)
           (crit : option llist) (unknown : llist) : out parsed :=
  let d := enter_map d in
  let? (d, ss, st) := get_items_in_map header_parameter_callback d header_slots (unknown, T_SUCCESS) in
  let unknown := fst st in
  let stop err := Ret {| r_err := err; r_d := d; r_params := p; r_crit := crit; r_unknown := unknown |} in
  match d_err d with
  | QD_CALLBACK_FAIL => stop (snd st)
  | QD_SUCCESS =>
    let (err, p) := take_all c (match crit with Some _ => true | None => false end) ss p in
    if negb (terr_eqb err T_SUCCESS)
    then Ret {| r_err := err; r_d := d; r_params := p; r_crit := crit; r_unknown := unknown |}
    else
      let? (err, crit, d) := decode_critical_parameter d crit in
      let d := exit_map d in
      Ret {| r_err := err; r_d := d; r_params := p; r_crit := crit; r_unknown := unknown |}
  | x => stop (if is_not_wf x then ERR_CBOR_NOT_WELL_FORMED else ERR_PARAMETER_CBOR)
  end.
