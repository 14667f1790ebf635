(** The size of a message and of the EdDSA auxiliary buffer, counted by hand. *)
From Verif Require Import Base Const Crypto Sign Spec SignSpec.
Open Scope N_scope. Open Scope list_scope.

(** Bytes a CBOR length or number takes (RFC 8949 section 3, shortest form). *)
Definition head_bytes (n : N) : N :=
  if n <? 24 then 1 else if n <? 256 then 2 else if n <? 65536 then 3 else if n <? 4294967296 then 5 else 9.
Definition string_bytes (n : N) : N := head_bytes n + n.

(** Protected parameters: one pair, label 1, algorithm. ES256 and EdDSA are small
    numbers that take one byte, the others take two. *)
Definition protected_bytes (alg : Z) : N := if ((alg =? -7) || (alg =? -8))%Z then 3 else 4.

(** The message: tag, array of four, protected parameters, map with kid and
    content type, payload or nil, signature of [n] bytes. *)
Definition counted_size (c : cfg) (q : request) (payload : option bytes) (n : N) : N :=
  (if wants_tag (q_flags q) then 1 else 0) + 1 +
  (1 + protected_bytes (q_alg q)) +
  1 + (if blen (requested_kid q) =? 0 then 0 else 1 + string_bytes (blen (requested_kid q))) +
  (match requested_ct c q with
   | CtNone => 0 | CtUInt k => 1 + head_bytes k | CtText s => 1 + string_bytes (blen s) end) +
  (match payload with Some p => string_bytes (blen p) | None => 1 end) +
  string_bytes n.

(** The Sig_structure: array of four, the text Signature1 (11 bytes), protected
    parameters, AAD, payload. *)
Definition counted_aux (q : request) (aad payload : bytes) : N :=
  1 + 11 + (1 + protected_bytes (q_alg q)) + string_bytes (blen aad) + string_bytes (blen payload).

(** The data a message carries; the rest is formatting overhead. *)
Definition carried (c : cfg) (q : request) (payload : option bytes) (n : N) : N :=
  match payload with Some p => blen p | None => 0 end + n + blen (requested_kid q) +
  match requested_ct c q with CtText s => blen s | _ => 0 end.
