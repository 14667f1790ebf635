(** What the error codes of verification say about a message, after the
    descriptions in inc/t_cose/t_cose_common.h 250-414. *)
From Verif Require Import Base Const Crypto Spec DecSpec Params SignSpec VerifySpec PassSpec.
Open Scope N_scope. Open Scope list_scope.

(** A parameter whose format is wrong: a label that is neither integer nor text;
    two parameters with one label; a value of the wrong type or one that cannot be
    read. Labels 1, 3, 4, 5, 6 only, crit has its own error. *)
Definition wrong_format (m : params_map) : Prop :=
  (exists kv, In kv m /\ understood (fst kv) = false /\ odd_label (fst kv) = true) \/
  exists z v, In z [1; 3; 4; 5; 6]%Z /\ In v (values z m) /\
    ((2 <= length (values z m))%nat \/ ~ readable v \/ z = 1%Z /\ int_value v = None \/
     In z [4; 5; 6]%Z /\ (forall b, body v <> CBytes b)).

(** Bytes that are no data item where the value of a parameter should be, or in
    the crit array something that cannot be read. *)
Definition not_well_formed (g : sign1) (pm : params_map) : Prop :=
  (exists z v b, In z [1; 3; 4; 5; 6]%Z /\ In v (values z (all_params g pm)) /\ body v = CJunk b) \/
  (exists v xs x, In v (values 2 pm) /\ body v = CArray xs /\ In x xs /\ ~ readable x) \/
  exists b, body (g_payload g) = CJunk b.

(** The content type is neither text nor a number below 65536. *)
Definition wrong_content_type (v : cbor) : Prop :=
  (forall s, body v <> CText s) /\ (forall n, body v = CUInt n -> 65536 <= n).

(** Decoding: what is wrong with the message. *)
Definition format_fault (c : cfg) (flags : N) (detached : bool) (g : sign1) (pm : params_map) (e : terr) : Prop :=
  match e with
  | ERR_INCORRECTLY_TAGGED => ~ tag_accepted flags g
  | ERR_PARAMETER_CBOR => wrong_format pm \/ wrong_format (g_unprot g)
  | ERR_CBOR_NOT_WELL_FORMED => not_well_formed g pm
  | ERR_TOO_MANY_PARAMETERS =>
      (10 < length (int_labels (all_params g pm)))%nat \/ (10 < length (text_labels (all_params g pm)))%nat
  | ERR_NON_INTEGER_ALG_ID =>
      exists v z, In v (values 1 pm) /\ int_value v = Some z /\ (z = 0 \/ 2147483647 < z)%Z
  | ERR_PARAMETER_NOT_PROTECTED => values 1 (g_unprot g) <> [] \/ values 2 (g_unprot g) <> []
  | ERR_DUPLICATE_PARAMETER =>
      exists z, In z [3; 4; 5; 6]%Z /\ values z pm <> [] /\ values z (g_unprot g) <> []
  | ERR_BAD_CONTENT_TYPE =>
      dis_content_type c = false /\ exists v, In v (values 3 (all_params g pm)) /\ wrong_content_type v
  | ERR_CRIT_PARAMETER =>
      (values 2 pm <> [] /\ forall ci ct, ~ crit_from (values 2 pm) ci ct) \/ values 2 (g_unprot g) <> []
  | ERR_CBOR_FORMATTING => detached = true /\ ~ (readable (g_payload g) /\ body (g_payload g) = CNull)
  | ERR_SIGN1_FORMAT => detached = false /\ forall b, g_payload g <> CBytes b
  | ERR_TOO_MANY_TAGS => detached = false /\ (4 < length (tags_of (g_payload g)))%nat
  | _ => False
  end.

(** The errors of decoding. *)
Definition format_errors : list terr :=
  [ERR_INCORRECTLY_TAGGED; ERR_PARAMETER_CBOR; ERR_CBOR_NOT_WELL_FORMED; ERR_TOO_MANY_PARAMETERS; ERR_NON_INTEGER_ALG_ID;
   ERR_PARAMETER_NOT_PROTECTED; ERR_DUPLICATE_PARAMETER; ERR_BAD_CONTENT_TYPE; ERR_CRIT_PARAMETER; ERR_CBOR_FORMATTING;
   ERR_SIGN1_FORMAT; ERR_TOO_MANY_TAGS].

(** Checks of a message that decodes. *)
Definition check_fault (flags : N) (g : sign1) (pm : params_map) (e : terr) : Prop :=
  match e with
  | ERR_NO_KID => requires_kid flags = true /\ values 4 (all_params g pm) = []
  | ERR_UNKNOWN_CRITICAL_PARAMETER =>
      allows_unknown_crit flags = false /\
      exists ci ct, crit_from (values 2 pm) ci ct /\
        ((exists z, In z ci /\ In z (int_labels (all_params g pm))) \/
         (exists s, In s ct /\ In s (text_labels (all_params g pm))))
  | _ => False
  end.

(** The signature [sig] over [tbs], nothing else being wrong with the message. *)
Definition signature_fault (c : cfg) (cr : crypto) (flags : N) (aux : wbuf) (p : params) (tbs sig : bytes) (log : list event)
           (e : terr) : Prop :=
  decode_only flags = false /\
  (e = ERR_SHORT_CIRCUIT_SIG /\ short_circuit_kid c p = true /\ allows_short_circuit flags = false \/
   e = ERR_SIG_VERIFY /\ short_circuit_kid c p = true /\ allows_short_circuit flags = true /\
     (exists halg d, hash_for (p_alg p) = Some halg /\ digest_of cr halg tbs d /\ forall rest, sig <> d ++ rest) \/
   e = ERR_UNSUPPORTED_SIGNING_ALG /\ (hash_for (p_alg p) = None \/ ~ enabled c (p_alg p)) \/
   e = ERR_NEED_AUXILIARY_BUFFER /\ p_alg p = (-8)%Z /\ wb_null aux = true \/
   exists before ev, log = before ++ [ev] /\ answers cr ev e) \/
  e = ERR_AUXILIARY_BUFFER_SIZE /\ p_alg p = (-8)%Z /\ wb_len aux < blen tbs.

(** Everything an error says. *)
Definition error_true (c : cfg) (cr : crypto) (flags : N) (aux : wbuf) (msg ad : bytes) (detached : bool) (given : bytes)
           (log : list event) (e : terr) : Prop :=
  (log = [] /\ In e format_errors /\ forall g pm, message msg g pm -> format_fault c flags detached g pm e) \/
  exists g pm, message msg g pm /\
    ((log = [] /\ check_fault flags g pm e) \/
     exists p pl, acceptable c flags detached given g pm p pl /\
       signature_fault c cr flags aux p (sig_structure (g_prot g) ad pl) (g_sig g) log e).
