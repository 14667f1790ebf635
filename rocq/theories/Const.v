(** Constants of t_cose: error codes, COSE labels, algorithm identifiers,
    option flags, build switches. *)
From Verif Require Import Base.
Open Scope Z_scope.

(** enum t_cose_err_t, inc/t_cose/t_cose_common.h 250-415. *)
Inductive terr :=
| T_SUCCESS | ERR_UNSUPPORTED_SIGNING_ALG | ERR_MAKING_PROTECTED | ERR_UNSUPPORTED_HASH
| ERR_HASH_GENERAL_FAIL | ERR_HASH_BUFFER_SIZE | ERR_SIG_BUFFER_SIZE | ERR_SIGN1_FORMAT
| ERR_CBOR_NOT_WELL_FORMED | ERR_PARAMETER_CBOR | ERR_NO_ALG_ID | ERR_NO_KID | ERR_SIG_VERIFY
| ERR_BAD_SHORT_CIRCUIT_KID | ERR_INVALID_ARGUMENT | ERR_INSUFFICIENT_MEMORY | ERR_FAIL
| ERR_TAMPERING_DETECTED | ERR_UNKNOWN_KEY | ERR_WRONG_TYPE_OF_KEY | ERR_SIG_STRUCT
| ERR_SHORT_CIRCUIT_SIG | ERR_SIG_FAIL | ERR_CBOR_FORMATTING | ERR_TOO_SMALL
| ERR_TOO_MANY_PARAMETERS | ERR_UNKNOWN_CRITICAL_PARAMETER | ERR_SHORT_CIRCUIT_SIG_DISABLED
| ERR_INCORRECT_KEY_FOR_LIB | ERR_NON_INTEGER_ALG_ID | ERR_BAD_CONTENT_TYPE
| ERR_INCORRECTLY_TAGGED | ERR_EMPTY_KEY | ERR_DUPLICATE_PARAMETER
| ERR_PARAMETER_NOT_PROTECTED | ERR_CRIT_PARAMETER | ERR_TOO_MANY_TAGS
| ERR_NEED_AUXILIARY_BUFFER | ERR_AUXILIARY_BUFFER_SIZE.

Definition terr_eqb (a b : terr) : bool :=
  match a, b with
  | T_SUCCESS, T_SUCCESS | ERR_UNSUPPORTED_SIGNING_ALG, ERR_UNSUPPORTED_SIGNING_ALG
  | ERR_MAKING_PROTECTED, ERR_MAKING_PROTECTED | ERR_UNSUPPORTED_HASH, ERR_UNSUPPORTED_HASH
  | ERR_HASH_GENERAL_FAIL, ERR_HASH_GENERAL_FAIL | ERR_HASH_BUFFER_SIZE, ERR_HASH_BUFFER_SIZE
  | ERR_SIG_BUFFER_SIZE, ERR_SIG_BUFFER_SIZE | ERR_SIGN1_FORMAT, ERR_SIGN1_FORMAT
  | ERR_CBOR_NOT_WELL_FORMED, ERR_CBOR_NOT_WELL_FORMED | ERR_PARAMETER_CBOR, ERR_PARAMETER_CBOR
  | ERR_NO_ALG_ID, ERR_NO_ALG_ID | ERR_NO_KID, ERR_NO_KID | ERR_SIG_VERIFY, ERR_SIG_VERIFY
  | ERR_BAD_SHORT_CIRCUIT_KID, ERR_BAD_SHORT_CIRCUIT_KID
  | ERR_INVALID_ARGUMENT, ERR_INVALID_ARGUMENT
  | ERR_INSUFFICIENT_MEMORY, ERR_INSUFFICIENT_MEMORY | ERR_FAIL, ERR_FAIL
  | ERR_TAMPERING_DETECTED, ERR_TAMPERING_DETECTED | ERR_UNKNOWN_KEY, ERR_UNKNOWN_KEY
  | ERR_WRONG_TYPE_OF_KEY, ERR_WRONG_TYPE_OF_KEY | ERR_SIG_STRUCT, ERR_SIG_STRUCT
  | ERR_SHORT_CIRCUIT_SIG, ERR_SHORT_CIRCUIT_SIG | ERR_SIG_FAIL, ERR_SIG_FAIL
  | ERR_CBOR_FORMATTING, ERR_CBOR_FORMATTING | ERR_TOO_SMALL, ERR_TOO_SMALL
  | ERR_TOO_MANY_PARAMETERS, ERR_TOO_MANY_PARAMETERS
  | ERR_UNKNOWN_CRITICAL_PARAMETER, ERR_UNKNOWN_CRITICAL_PARAMETER
  | ERR_SHORT_CIRCUIT_SIG_DISABLED, ERR_SHORT_CIRCUIT_SIG_DISABLED
  | ERR_INCORRECT_KEY_FOR_LIB, ERR_INCORRECT_KEY_FOR_LIB
  | ERR_NON_INTEGER_ALG_ID, ERR_NON_INTEGER_ALG_ID | ERR_BAD_CONTENT_TYPE, ERR_BAD_CONTENT_TYPE
  | ERR_INCORRECTLY_TAGGED, ERR_INCORRECTLY_TAGGED | ERR_EMPTY_KEY, ERR_EMPTY_KEY
  | ERR_DUPLICATE_PARAMETER, ERR_DUPLICATE_PARAMETER
  | ERR_PARAMETER_NOT_PROTECTED, ERR_PARAMETER_NOT_PROTECTED
  | ERR_CRIT_PARAMETER, ERR_CRIT_PARAMETER | ERR_TOO_MANY_TAGS, ERR_TOO_MANY_TAGS
  | ERR_NEED_AUXILIARY_BUFFER, ERR_NEED_AUXILIARY_BUFFER
  | ERR_AUXILIARY_BUFFER_SIZE, ERR_AUXILIARY_BUFFER_SIZE => true
  | _, _ => false
  end.

(** src/t_cose_standard_constants.h 53-114. *)
Definition LABEL_ALG : Z := 1.
Definition LABEL_CRIT : Z := 2.
Definition LABEL_CONTENT_TYPE : Z := 3.
Definition LABEL_KID : Z := 4.
Definition LABEL_IV : Z := 5.
Definition LABEL_PARTIAL_IV : Z := 6.

(** src/t_cose_standard_constants.h 148-264. *)
Definition ALG_RESERVED : Z := 0.
Definition ES256 : Z := -7.
Definition EDDSA : Z := -8.
Definition ES384 : Z := -35.
Definition ES512 : Z := -36.
Definition PS256 : Z := -37.
Definition PS384 : Z := -38.
Definition PS512 : Z := -39.
Definition SHA_256 : Z := -16.
Definition SHA_384 : Z := -43.
Definition SHA_512 : Z := -44.

(** T_COSE_INVALID_ALGORITHM_ID, src/t_cose_util.h (= COSE_ALGORITHM_RESERVED). *)
Definition INVALID_ALGORITHM_ID : Z := ALG_RESERVED.

Definition INT32_MAX : Z := 2147483647.
Definition INT32_MIN : Z := -2147483648.
Definition INT64_MAX : Z := 9223372036854775807.

(** The C conversion (int32_t) of an int64 (two's complement truncation, as
    defined by every compiler t_cose supports). *)
Definition to_int32 (z : Z) : Z := (z + 2147483648) mod 4294967296 - 2147483648.

Open Scope N_scope.

(** inc/t_cose/t_cose_sign1_sign.h 120, 133. *)
Definition OPT_SHORT_CIRCUIT_SIG : N := 1.
Definition OPT_OMIT_CBOR_TAG : N := 2.

(** inc/t_cose/t_cose_sign1_verify.h 121-188. *)
Definition OPT_ALLOW_SHORT_CIRCUIT : N := 1.
Definition OPT_REQUIRE_KID : N := 2.
Definition OPT_TAG_REQUIRED : N := 4.
Definition OPT_DECODE_ONLY : N := 8.
Definition OPT_TAG_PROHIBITED : N := 16.
Definition OPT_UNKNOWN_CRIT_ALLOWED : N := 32.

(** CBOR_TAG_COSE_SIGN1 and CBOR_TAG_INVALID64 (QCBOR). *)
Definition TAG_COSE_SIGN1 : N := 18.
Definition TAG_INVALID64 : N := 18446744073709551615.

(** T_COSE_MAX_TAGS_TO_RETURN, inc/t_cose/t_cose_sign1_verify.h 197. *)
Definition MAX_TAGS_TO_RETURN : N := 4.

(** T_COSE_PARAMETER_LIST_MAX, inc/t_cose/t_cose_common.h 433. *)
Definition PARAMETER_LIST_MAX : nat := 10.

(** T_COSE_EMPTY_UINT_CONTENT_TYPE = UINT16_MAX+1, inc/t_cose/t_cose_common.h 441. *)
Definition EMPTY_UINT_CONTENT_TYPE : N := 65536.

(** Build switches: T_COSE_DISABLE_* macros, inc/t_cose/t_cose_common.h 30-60
    and README. [true] means the macro is defined. *)
Record cfg := {
  dis_es384 : bool; dis_es512 : bool;
  dis_ps256 : bool; dis_ps384 : bool; dis_ps512 : bool;
  dis_eddsa : bool; dis_short_circuit : bool; dis_content_type : bool }.

(** No macro defined. *)
Definition cfg_full : cfg :=
  {| dis_es384 := false; dis_es512 := false; dis_ps256 := false; dis_ps384 := false;
     dis_ps512 := false; dis_eddsa := false; dis_short_circuit := false;
     dis_content_type := false |}.

(** T_COSE_EC_P*_SIG_SIZE, src/t_cose_crypto.h 101-103. *)
Definition P256_SIG_SIZE : N := 64.
Definition P384_SIG_SIZE : N := 96.
Definition P512_SIG_SIZE : N := 132.

(** T_COSE_MAX_ECDSA_SIG_SIZE, src/t_cose_crypto.h 125-133. *)
Definition max_ecdsa_sig_size (c : cfg) : N :=
  if negb (dis_es512 c) then P512_SIG_SIZE
  else if negb (dis_es384 c) then P384_SIG_SIZE else P256_SIG_SIZE.

(** T_COSE_CRYPTO_MAX_HASH_SIZE, src/t_cose_crypto.h 478-503. *)
Definition max_hash_size (c : cfg) : N :=
  if negb (dis_es512 c) || negb (dis_ps512 c) then 64
  else if negb (dis_es384 c) || negb (dis_ps384 c) then 48 else 32.
