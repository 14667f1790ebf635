(** Model of src/t_cose_sign1_verify.c and the inline functions of
    inc/t_cose/t_cose_sign1_verify.h. *)
From Verif Require Import Base Const QEnc QDec Crypto Util ShortCircuit Params.
Open Scope N_scope.
Local Open Scope mon_scope.

(** struct t_cose_sign1_verify_ctx, inc/t_cose/t_cose_sign1_verify.h 205-225.
    [v_tags] is the C array auTags of T_COSE_MAX_TAGS_TO_RETURN elements. *)
Record vctx := {
  v_key : tkey; v_flags : N; v_tags : list N; v_aux : wbuf; v_aux_size : N }.

Definition v_set_tags (me : vctx) (t : list N) : vctx :=
  {| v_key := v_key me; v_flags := v_flags me; v_tags := t; v_aux := v_aux me;
     v_aux_size := v_aux_size me |}.
Definition v_set_aux_size (me : vctx) (n : N) : vctx :=
  {| v_key := v_key me; v_flags := v_flags me; v_tags := v_tags me; v_aux := v_aux me;
     v_aux_size := n |}.

(** t_cose_sign1_verify_init, inc/t_cose/t_cose_sign1_verify.h 493-506 *)
Definition verify_init (flags : N) : vctx :=
  {| v_key := NULL_KEY; v_flags := flags; v_tags := repeat 0 (N.to_nat MAX_TAGS_TO_RETURN);
     v_aux := {| wb_null := true; wb_len := SIZE_MAX |}; v_aux_size := 0 |}.

(** t_cose_sign1_set_verification_key, inc/t_cose/t_cose_sign1_verify.h 509-514 *)
Definition set_verification_key (me : vctx) (k : tkey) : vctx :=
  {| v_key := k; v_flags := v_flags me; v_tags := v_tags me; v_aux := v_aux me;
     v_aux_size := v_aux_size me |}.

(** t_cose_sign1_verify_set_auxiliary_buffer / _auxiliary_buffer_size, 517-538 *)
Definition verify_set_auxiliary_buffer (me : vctx) (b : wbuf) : vctx :=
  {| v_key := v_key me; v_flags := v_flags me; v_tags := v_tags me; v_aux := b;
     v_aux_size := v_aux_size me |}.
Definition verify_auxiliary_buffer_size (c : cfg) (me : vctx) : N :=
  if dis_eddsa c then 0 else v_aux_size me.

(** t_cose_sign1_get_nth_tag, inc/t_cose/t_cose_sign1_verify.h 541-549 *)
Definition get_nth_tag (me : vctx) (n : N) : out N :=
  if MAX_TAGS_TO_RETURN <? n then Ret TAG_INVALID64
  else arr_get (v_tags me) (N.to_nat n).

(** The loop of process_tags, src/t_cose_sign1_verify.c 104-117. At most as
    many rounds as the item has tags, so [fuel] is never the reason to stop. *)
Fixpoint tags_loop (fuel : nat) (d : dctx) (item_idx : nat) (ret_idx : nat) (tags : list N)
  : out (terr * list N) :=
  match fuel with
  | O => UB Diverges
  | S f =>
    let t := get_nth_tag_of_last d item_idx in
    if t =? TAG_INVALID64 then Ret (T_SUCCESS, tags)
    else if Nat.ltb (N.to_nat MAX_TAGS_TO_RETURN) ret_idx then Ret (ERR_TOO_MANY_TAGS, tags)
    else let? tags := arr_set tags ret_idx t in
         tags_loop f d (S item_idx) (S ret_idx) tags
  end.

(** process_tags, src/t_cose_sign1_verify.c 51-120 *)
Definition process_tags (me : vctx) (d : dctx) : out (terr * vctx) :=
  let t := get_nth_tag_of_last d 0 in
  if has_flag (v_flags me) OPT_TAG_REQUIRED && negb (t =? TAG_COSE_SIGN1)
  then Ret (ERR_INCORRECTLY_TAGGED, me)
  else if has_flag (v_flags me) OPT_TAG_PROHIBITED && (t =? TAG_COSE_SIGN1)
  then Ret (ERR_INCORRECTLY_TAGGED, me)
  else
    let tags := repeat TAG_INVALID64 (length (v_tags me)) in
    let? (ridx, tags) :=
      if negb (t =? TAG_COSE_SIGN1)
      then (let? tags := arr_set tags 0 t in Ret (1%nat, tags))
      else Ret (0%nat, tags) in
    let? (err, tags) := tags_loop (S (length (d_tags d))) d 1 ridx tags in
    Ret (err, v_set_tags me tags).

(** qcbor_decode_error_to_t_cose_error, src/t_cose_sign1_verify.c 131-144 *)
Definition decode_error_to_terr (x : qd_err) : terr :=
  match x with
  | QD_SUCCESS => T_SUCCESS
  | QD_TOO_MANY_TAGS => ERR_TOO_MANY_TAGS
  | _ => if is_not_wf x then ERR_CBOR_NOT_WELL_FORMED else ERR_SIGN1_FORMAT
  end.

(** sign1_verify_short_circuit, src/t_cose_sign1_verify.c 168-205 *)
Definition sign1_verify_short_circuit (c : cfg) (cr : crypto) (me : vctx) (p : params)
           (sig : bytes) (prot aad payload : ubufc) : M terr :=
  if has_flag (v_flags me) OPT_DECODE_ONLY then mret T_SUCCESS
  else if negb (has_flag (v_flags me) OPT_ALLOW_SHORT_CIRCUIT) then mret ERR_SHORT_CIRCUIT_SIG
  else
    let! (err, hash) := create_tbs_hash c cr (p_alg p) prot aad payload (max_hash_size c) in
    if negb (terr_eqb err T_SUCCESS) then mret err
    else mlift (short_circuit_verify hash (UBuf sig)).

(** sign1_verify_eddsa, src/t_cose_sign1_verify.c 233-287 *)
Definition sign1_verify_eddsa (cr : crypto) (me : vctx) (p : params)
           (sig : bytes) (prot aad payload : ubufc) : M (terr * vctx) :=
  let (err, tbs) := create_tbs prot aad payload (v_aux me) in
  let err := if terr_eqb err ERR_TOO_SMALL then ERR_AUXILIARY_BUFFER_SIZE else err in
  if negb (terr_eqb err T_SUCCESS) then mret (err, me)
  else match tbs with
       | None => mub Uninit
       | Some tbs =>
         let me := v_set_aux_size me (u_len tbs) in
         if has_flag (v_flags me) OPT_DECODE_ONLY then mret (T_SUCCESS, me)
         else if wb_null (v_aux me) then mret (ERR_NEED_AUXILIARY_BUFFER, me)
         else
           let! err := mlog (EvVerifyEddsa (v_key me) (p_kid p) (u_data tbs) sig)
                            (cr_verify_eddsa cr (v_key me) (p_kid p) (u_data tbs) sig) in
           mret (err, me)
       end.

(** sign1_verify_default, src/t_cose_sign1_verify.c 311-348 *)
Definition sign1_verify_default (c : cfg) (cr : crypto) (me : vctx) (p : params)
           (sig : bytes) (prot aad payload : ubufc) : M terr :=
  if has_flag (v_flags me) OPT_DECODE_ONLY then mret T_SUCCESS
  else
    let! (err, hash) := create_tbs_hash c cr (p_alg p) prot aad payload (max_hash_size c) in
    if negb (terr_eqb err T_SUCCESS) then mret err
    else mlog (EvVerify (p_alg p) (v_key me) (p_kid p) hash sig)
              (cr_verify cr (p_alg p) (v_key me) (p_kid p) hash sig).

(** What t_cose_sign1_verify_internal decodes before any checking. *)
Record decoded := { m_params : params; m_prot : ubufc; m_payload : ubufc; m_sig : bytes;
                    m_crit : llist; m_unknown : llist }.

(** Either an error or the decoded message. *)
Inductive dres := DErr (e : terr) | DOk (m : decoded).

(** An uninitialised variable read on a path where it must have been set. *)
Definition need {A} (x : option A) : out A := match x with Some a => Ret a | None => UB Uninit end.

(** t_cose_sign1_verify_internal, src/t_cose_sign1_verify.c 395-458, up to "End
    of the decoding". [junk]: whatever the uninitialised variable
    protected_parameters holds on entry; it is read at 410 when
    EnterBstrWrapped did not set it. [payload]: the pointer argument ([None]:
    NULL), dereferenced only for detached content. *)
Definition verify_decode (c : cfg) (junk : ubufc) (me : vctx) (msg : bytes)
           (payload : option ubufc) (is_dc : bool) : out (dres * vctx) :=
  let d := enter_array (dec_init msg) in
  let err := decode_error_to_terr (d_err d) in
  if negb (terr_eqb err T_SUCCESS) then Ret (DErr err, me)
  else
    let? (err, me) := process_tags me d in
    if negb (terr_eqb err T_SUCCESS) then Ret (DErr err, me)
    else
      (* the protected parameters, 408-419 *)
      let (d, oprot) := enter_bstr_wrapped d in
      let prot := match oprot with Some u => u | None => junk end in
      let? r1 :=
        if negb (u_len prot =? 0)
        then parse_cose_header_parameters c d clear_params (Some clear_label_list) clear_label_list
        else Ret {| r_err := T_SUCCESS; r_d := d; r_params := clear_params;
                    r_crit := Some clear_label_list; r_unknown := clear_label_list |} in
      if negb (terr_eqb (r_err r1) T_SUCCESS) then Ret (DErr (r_err r1), me)
      else
        let d := exit_bstr_wrapped (r_d r1) in
        (* the unprotected parameters, 421-428 *)
        let? r2 := parse_cose_header_parameters c d (r_params r1) None (r_unknown r1) in
        if negb (terr_eqb (r_err r2) T_SUCCESS) then Ret (DErr (r_err r2), me)
        else
          let d := r_d r2 in
          (* the payload, 430-444 *)
          let? (bad, d, opay) :=
            if is_dc then
              match payload with
              | None => UB NullDeref
              | Some pl =>
                match get_next d with
                | (_, it, d') =>
                  Ret (match i_val it with VNullV => false | _ => true end, d', Some pl)
                end
              end
            else let (d', o) := get_byte_string d in Ret (false, d', o) in
          if bad then Ret (DErr ERR_CBOR_FORMATTING, me)
          else
            (* the signature and the end, 446-461 *)
            let (d, osig) := get_byte_string d in
            let d := exit_array d in
            let err := decode_error_to_terr (dec_finish d) in
            if negb (terr_eqb err T_SUCCESS) then Ret (DErr err, me)
            else
              let? pay := need opay in
              let? sig := need osig in
              let? crit := need (r_crit r1) in
              Ret (DOk {| m_params := r_params r2; m_prot := prot; m_payload := pay;
                          m_sig := u_data sig; m_crit := crit; m_unknown := r_unknown r2 |}, me).

(** t_cose_sign1_verify_internal, 466-493: checks and signature. *)
Definition verify_check (c : cfg) (cr : crypto) (me : vctx) (m : decoded) (aad : ubufc)
  : M (terr * vctx) :=
  let p := m_params m in
  if has_flag (v_flags me) OPT_REQUIRE_KID && u_is_null (p_kid p) then mret (ERR_NO_KID, me)
  else
    let! err := if negb (has_flag (v_flags me) OPT_UNKNOWN_CRIT_ALLOWED)
                then mlift (check_critical_labels (m_crit m) (m_unknown m))
                else mret T_SUCCESS in
    if negb (terr_eqb err T_SUCCESS) then mret (err, me)
    else
      let! sc := if dis_short_circuit c then mret false
                 else mlift (u_equal (p_kid p) get_short_circuit_kid) in
      if sc : bool then
        let! err := sign1_verify_short_circuit c cr me p (m_sig m) (m_prot m) aad (m_payload m) in
        mret (err, me)
      else if negb (dis_eddsa c) && (p_alg p =? EDDSA)%Z
      then sign1_verify_eddsa cr me p (m_sig m) (m_prot m) aad (m_payload m)
      else
        let! err := sign1_verify_default c cr me p (m_sig m) (m_prot m) aad (m_payload m) in
        mret (err, me).

(** Everything a verify call does: return code, context, what it stored
    through the payload and parameters pointers ([None]: untouched). *)
Record vres := { w_err : terr; w_ctx : vctx; w_payload : option ubufc; w_params : option params }.

(** t_cose_sign1_verify_internal, src/t_cose_sign1_verify.c 354-506 *)
Definition verify_internal (c : cfg) (cr : crypto) (junk : ubufc) (me : vctx) (msg : bytes)
           (aad : ubufc) (payload : option ubufc) (want_params : bool) (is_dc : bool) : M vres :=
  let! (r, me) := mlift (verify_decode c junk me msg payload is_dc) in
  match r with
  | DErr e => mret {| w_err := e; w_ctx := me; w_payload := None; w_params := None |}
  | DOk m =>
    let! (err, me) := verify_check c cr me m aad in
    if terr_eqb err T_SUCCESS then
      mret {| w_err := err; w_ctx := me;
              w_payload := match payload with
                           | Some _ => if is_dc then None else Some (m_payload m)
                           | None => None
                           end;
              w_params := if want_params then Some (m_params m) else None |}
    else mret {| w_err := err; w_ctx := me; w_payload := None; w_params := None |}
  end.

(** t_cose_sign1_verify, inc/t_cose/t_cose_sign1_verify.h 579-592 *)
Definition verify (c : cfg) (cr : crypto) (junk : ubufc) (me : vctx) (msg : bytes)
           (payload : option ubufc) (want_params : bool) : M vres :=
  verify_internal c cr junk me msg NULL_UBUF payload want_params false.

(** t_cose_sign1_verify_aad, inc/t_cose/t_cose_sign1_verify.h 594-608 *)
Definition verify_aad (c : cfg) (cr : crypto) (junk : ubufc) (me : vctx) (msg : bytes)
           (aad : ubufc) (payload : option ubufc) (want_params : bool) : M vres :=
  verify_internal c cr junk me msg aad payload want_params false.

(** t_cose_sign1_verify_detached, inc/t_cose/t_cose_sign1_verify.h 610-623: the
    payload is passed by value, its address taken. *)
Definition verify_detached (c : cfg) (cr : crypto) (junk : ubufc) (me : vctx) (msg : bytes)
           (aad detached_payload : ubufc) (want_params : bool) : M vres :=
  verify_internal c cr junk me msg aad (Some detached_payload) want_params true.
