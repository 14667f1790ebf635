(** Specification vocabulary for verification: what a COSE_Sign1 message is made
    of, read off the data item it represents (Spec.v, DecSpec.v). Independent
    of the verification code (from Params.v only the struct the API reports is
    used; from SignSpec.v what a digest is); numbers are written out from RFC 8152 and the public headers. *)
From Verif Require Import Base Const Crypto Spec DecSpec Params SignSpec.
Open Scope N_scope. Open Scope list_scope.

(** ** Header maps *)

(** The integer a data item is, tags ignored, when it fits int64. *)
Definition int_value (c : cbor) : option Z :=
  match body c with
  | CUInt n => if n <? 2 ^ 63 then Some (Z.of_N n) else None
  | CNInt n => if n <? 2 ^ 63 then Some (- Z.of_N n - 1)%Z else None
  | _ => None
  end.

Definition has_int (z : Z) (c : cbor) : bool :=
  match int_value c with Some y => (z =? y)%Z | None => false end.

Definition params_map := list (cbor * cbor).

(** The values of the parameters with label [z]. *)
Definition values (z : Z) (m : params_map) : list cbor :=
  map snd (filter (fun kv => has_int z (fst kv)) m).

(** Data items the decoder can deliver: well-formed, no integer below -2^63, at
    most four tags. *)
Definition readable (c : cbor) : Prop :=
  (length (tags_of c) <= 4)%nat /\
  match body c with CJunk _ => False | CNInt n => n < 2 ^ 63 | _ => True end.

(** Labels defined by RFC 8152 section 3.1 that t_cose processes: alg 1, crit 2,
    content type 3, kid 4, IV 5, partial IV 6. *)
Definition understood (k : cbor) : bool :=
  existsb (fun z => has_int z k) [1; 2; 3; 4; 5; 6]%Z.

(** The other labels: integers and texts. *)
Definition int_labels (m : params_map) : list Z :=
  flat_map (fun kv => if understood (fst kv) then []
                      else match int_value (fst kv) with Some z => [z] | None => [] end) m.
Definition text_labels (m : params_map) : list bytes :=
  flat_map (fun kv => match body (fst kv) with CText s => [s] | _ => [] end) m.

(** Labels that are neither (byte strings, integers of 2^63 and more). *)
Definition odd_label (k : cbor) : bool :=
  match body k with
  | CText _ => false
  | _ => match int_value k with Some _ => false | None => true end
  end.

(** ** Messages *)

(** The parts of a COSE_Sign1. *)
Record sign1 := {
  g_tags : list N;          (* innermost first *)
  g_prot : bytes;           (* content of the protected byte string *)
  g_unprot : params_map;
  g_payload : cbor;
  g_sig : bytes;
  g_extra : list cbor }.    (* elements after the fourth *)

Definition is_sign1 (t : cbor) (g : sign1) : Prop :=
  rev (tags_of t) = g_tags g /\
  (length (g_tags g) <= 4)%nat /\
  exists u, readable u /\ body u = CMap (g_unprot g) /\
    body t = CArray (CBytes (g_prot g) :: u :: g_payload g :: CBytes (g_sig g) :: g_extra g).

(** The protected parameters [m] held by the byte string [b], and what follows
    them inside of it. *)
Definition protected_map (b : bytes) (m : params_map) (rest : bytes) : Prop :=
  (b = [] /\ m = [] /\ rest = []) \/
  exists x bx, b = bx ++ rest /\ reads 2 x bx /\ readable x /\ body x = CMap m.

(** [msg] is a COSE_Sign1 with parts [g] and protected parameters [pm]. *)
Definition message (msg : bytes) (g : sign1) (pm : params_map) : Prop :=
  exists t rest, reads 0 t msg /\ is_sign1 t g /\ protected_map (g_prot g) pm rest.

(** All parameters. *)
Definition all_params (g : sign1) (pm : params_map) : params_map := pm ++ g_unprot g.

(** The payload: in the message, or the caller's when it is null (tags on null
    are ignored). *)
Definition payload_is (g : sign1) (detached : bool) (given : bytes) (pl : bytes) : Prop :=
  if detached then readable (g_payload g) /\ body (g_payload g) = CNull /\ pl = given
  else g_payload g = CBytes pl.

(** ** Option flags, inc/t_cose/t_cose_sign1_verify.h *)

Definition allows_short_circuit (flags : N) : bool := N.testbit flags 0.
Definition requires_kid (flags : N) : bool := N.testbit flags 1.
Definition requires_tag (flags : N) : bool := N.testbit flags 2.
Definition decode_only (flags : N) : bool := N.testbit flags 3.
Definition prohibits_tag (flags : N) : bool := N.testbit flags 4.
Definition allows_unknown_crit (flags : N) : bool := N.testbit flags 5.

(** ** The crit parameter *)

(** The labels an array of labels lists. *)
Definition listed_ints (xs : list cbor) : list Z :=
  flat_map (fun x => match int_value x with Some z => [z] | None => [] end) xs.
Definition listed_texts (xs : list cbor) : list bytes :=
  flat_map (fun x => match body x with CText s => [s] | _ => [] end) xs.

(** An element the decoder takes as a label. *)
Definition label_item (x : cbor) : Prop := readable x /\ odd_label x = false.

(** What the crit parameter lists, given the values with label 2; [ci], [ct]:
    nothing when there is no crit parameter. An array starting with the integer
    0 (or without integers) and with an empty text (or without texts) counts as
    empty and is an error. *)
Definition crit_from (vs : list cbor) (ci : list Z) (ct : list bytes) : Prop :=
  (vs = [] /\ ci = [] /\ ct = []) \/
  exists v xs, vs = [v] /\ readable v /\ body v = CArray xs /\ Forall label_item xs /\
    ci = listed_ints xs /\ ct = listed_texts xs /\ (length ci <= 10)%nat /\ (length ct <= 10)%nat /\
    (hd 0%Z ci <> 0%Z \/ hd [] ct <> []).

(** ** Reported parameters, given the values with their label *)

(** The algorithm; 0 stands for none. Identifiers below -2^31 are reduced modulo
    2^32 (see C19). *)
Definition alg_from (vs : list cbor) (a : Z) : Prop :=
  (vs = [] /\ a = 0%Z) \/
  exists v z, vs = [v] /\ readable v /\ int_value v = Some z /\ z <> 0%Z /\ (z <= 2147483647)%Z /\ a = to_int32 z.

(** kid, IV, partial IV; NULL if absent. *)
Definition bytes_from (vs : list cbor) (u : ubufc) : Prop :=
  (vs = [] /\ u = UNull 0) \/
  exists v b, vs = [v] /\ readable v /\ body v = CBytes b /\ u = UBuf b.

(** Effect of one bucket on the reported content type: text and integer, NULL
    and 65536 when absent. *)
Inductive ct_step : list cbor -> ubufc * N -> ubufc * N -> Prop :=
| ct_none x : ct_step [] x x
| ct_text v s u n : readable v -> body v = CText s -> u = UNull 0 \/ u = UBuf [] ->
    ct_step [v] (u, n) (UBuf s, n)
| ct_uint v n u : readable v -> body v = CUInt n -> n < 65536 -> ct_step [v] (u, 65536) (u, n).

Definition ct_from (pm um : params_map) (x : ubufc * N) : Prop :=
  exists y, ct_step (values 3 pm) (UNull 0, 65536) y /\ ct_step (values 3 um) y x.

(** Builds without content types still want at most one per bucket. *)
Definition ct_ignored (vs : list cbor) : Prop := vs = [] \/ exists v, vs = [v] /\ readable v.

(** Everything reported about parameters. *)
Record reported (c : cfg) (g : sign1) (pm : params_map) (p : params) : Prop := {
  rp_alg_prot : values 1 (g_unprot g) = [];
  rp_alg : alg_from (values 1 pm) (p_alg p);
  rp_kid : bytes_from (values 4 (all_params g pm)) (p_kid p);
  rp_iv : bytes_from (values 5 (all_params g pm)) (p_iv p);
  rp_piv : bytes_from (values 6 (all_params g pm)) (p_partial_iv p);
  rp_ct : if dis_content_type c
          then ct_ignored (values 3 pm) /\ ct_ignored (values 3 (g_unprot g)) /\
               p_ct_tstr p = UNull 0 /\ p_ct_uint p = 65536
          else ct_from pm (g_unprot g) (p_ct_tstr p, p_ct_uint p) }.

(** ** Unknown parameters *)

Definition nonzero (zs : list Z) : list Z := filter (fun z => negb (z =? 0)%Z) zs.

(** Room for ten integer labels when [n] are recorded: a label 0 is not
    recorded, but needs room. *)
Fixpoint ints_fit (n : nat) (zs : list Z) : Prop :=
  match zs with
  | [] => True
  | z :: r => (n < 10)%nat /\ ints_fit (n + length (nonzero [z])) r
  end.

Definition labels_ok (m : params_map) : Prop :=
  Forall (fun kv => understood (fst kv) = false -> odd_label (fst kv) = false) m /\
  ints_fit 0 (int_labels m) /\ (length (text_labels m) <= 10)%nat.

(** ** Tags *)

(** The message is tagged as a COSE_Sign1: tag 18 innermost. *)
Definition tagged (g : sign1) : bool := match g_tags g with t :: _ => t =? 18 | [] => false end.

Definition tag_accepted (flags : N) (g : sign1) : Prop :=
  (requires_tag flags = true -> tagged g = true) /\ (prohibits_tag flags = true -> tagged g = false).

(** The tags around the COSE tag, innermost first. *)
Definition outer_tags (g : sign1) : list N :=
  match g_tags g with t :: r => if t =? 18 then r else t :: r | [] => [] end.

(** ** Checks on a decoded message *)

(** Entries before the first 0. *)
Fixpoint upto0 (zs : list Z) : list Z :=
  match zs with [] => [] | z :: r => if (z =? 0)%Z then [] else z :: upto0 r end.

(** No listed label (of those before a 0) belongs to a parameter that is
    present and not understood. *)
Definition crit_ok (flags : N) (ci : list Z) (ct : list bytes) (m : params_map) : Prop :=
  allows_unknown_crit flags = true \/
  (forall z, In z (upto0 ci) -> ~ In z (int_labels m)) /\ (forall s, In s ct -> ~ In s (text_labels m)).

Definition kid_ok (flags : N) (p : params) : Prop := requires_kid flags = true -> p_kid p <> UNull 0.

(** ** The signature *)

Definition short_circuit_kid (c : cfg) (p : params) : bool :=
  negb (dis_short_circuit c) && bytes_eqb (u_data (p_kid p)) reserved_kid.
Definition uses_eddsa (c : cfg) (p : params) : bool := negb (dis_eddsa c) && (p_alg p =? -8)%Z.

(** The adapter (or, when allowed, the short-circuit comparison) accepts [sig]
    as a signature over [tbs]. *)
Definition accepted (c : cfg) (cr : crypto) (flags : N) (key : tkey) (p : params) (tbs sig : bytes) : Prop :=
  if short_circuit_kid c p then
    allows_short_circuit flags = true /\
      exists halg d rest, hash_for (p_alg p) = Some halg /\ enabled c (p_alg p) /\ digest_of cr halg tbs d /\
      sig = d ++ rest
  else if uses_eddsa c p then cr_verify_eddsa cr key (p_kid p) tbs sig = Ret T_SUCCESS
  else exists halg d, hash_for (p_alg p) = Some halg /\ enabled c (p_alg p) /\ digest_of cr halg tbs d /\
      cr_verify cr (p_alg p) key (p_kid p) d sig = Ret T_SUCCESS.

(** A call verification of signature [sig] over [tbs] may make. *)
Definition verify_event_ok (cr : crypto) (key : tkey) (p : params) (tbs sig : bytes) (e : event) : Prop :=
  match e with
  | EvHashStart halg => hash_for (p_alg p) = Some halg
  | EvHashUpdate _ | EvHashFinish => True
  | EvVerify a k kid h s => a = p_alg p /\ k = key /\ kid = p_kid p /\ s = sig /\
      exists halg, hash_for (p_alg p) = Some halg /\ digest_of cr halg tbs h
  | EvVerifyEddsa k kid t s => p_alg p = (-8)%Z /\ k = key /\ kid = p_kid p /\ s = sig /\ t = tbs
  | EvSigSize _ _ | EvSign _ _ _ | EvSignEddsa _ _ => False
  end.

(** Everything verification demands of a message besides its signature; [p]
    are the parameters it reports, [pl] the payload. *)
Record acceptable (c : cfg) (flags : N) (detached : bool) (given : bytes) (g : sign1) (pm : params_map)
       (p : params) (pl : bytes) : Prop := {
  ac_tag : tag_accepted flags g;
  ac_params : reported c g pm p;
  ac_crit_prot : values 2 (g_unprot g) = [];
  ac_crit : exists ci ct, crit_from (values 2 pm) ci ct /\ crit_ok flags ci ct (all_params g pm);
  ac_labels : labels_ok (all_params g pm);
  ac_payload : payload_is g detached given pl;
  ac_kid : kid_ok flags p }.

(** Adapters that compute the same digest however the data is cut up. *)
Definition one_digest (cr : crypto) : Prop :=
  forall halg data d d', digest_of cr halg data d -> digest_of cr halg data d' -> d = d'.

(** Hashing such pieces has no undefined behaviour. *)
Definition hashing_safe (c : cfg) (cr : crypto) (parts : list bytes) : Prop :=
  forall halg h l, cr_hash_start cr halg = (T_SUCCESS, h) -> pieces_within parts l ->
    exists h', update_all cr h l = Ret h' /\ is_ret (cr_hash_finish cr h' (max_hash_size c)).

(** Adapters whose functions, used in order, have no undefined behaviour. *)
Definition adapter_safe (c : cfg) (cr : crypto) (parts : list bytes) : Prop :=
  hashing_safe c cr parts /\
  (forall alg key kid d sig, is_ret (cr_verify cr alg key kid d sig)) /\
  (forall key kid tbs sig, is_ret (cr_verify_eddsa cr key kid tbs sig)).

(** The detached payload passed by the caller holds [given]. *)
Definition detached_arg (detached : bool) (payload : option ubufc) (given : bytes) : Prop :=
  detached = true -> exists u, payload = Some u /\ holds u given.

(** ** Verifying what was signed *)

(** The parameters of a message signed for request [q]. *)
Definition asked_params (c : cfg) (q : request) : params :=
  {| p_alg := q_alg q;
     p_kid := match requested_kid q with [] => UNull 0 | k => UBuf k end;
     p_iv := UNull 0; p_partial_iv := UNull 0;
     p_ct_tstr := match requested_ct c q with CtText s => UBuf s | _ => UNull 0 end;
     p_ct_uint := match requested_ct c q with CtUInt n => n | _ => 65536 end |}.

(** [vkey] verifies what [skey] signs, whatever the kid. *)
Definition keys_match (cr : crypto) (alg : Z) (skey vkey : tkey) : Prop :=
  (forall d room sig kid, cr_sign cr alg skey d room = Ret (T_SUCCESS, sig) ->
     cr_verify cr alg vkey kid d sig = Ret T_SUCCESS) /\
  (forall t room sig kid, cr_sign_eddsa cr skey t room = Ret (T_SUCCESS, sig) ->
     cr_verify_eddsa cr vkey kid t sig = Ret T_SUCCESS).

(** The verifier's demands on tag and kid are met by request [q]. *)
Definition demands_met (q : request) (flags : N) : Prop :=
  (requires_tag flags = true -> wants_tag (q_flags q) = true) /\
  (prohibits_tag flags = true -> wants_tag (q_flags q) = false) /\
  (requires_kid flags = true -> requested_kid q <> []).
