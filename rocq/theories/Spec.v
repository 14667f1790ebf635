(** Independent specifications: CBOR data items and their encodings (RFC 8949),
    the COSE structures (RFC 8152 / RFC 9052 sections 3, 4.2, 4.4). Nothing here
    uses a definition of the model other than bytes. *)
From Verif Require Import Base.
From Coq Require Import String.
Open Scope N_scope.
Open Scope list_scope.

(** ** CBOR *)

(** CBOR data items. [CNInt n] is the integer -1-n. [CSimple n]: simple value
    (20 false, 21 true, 22 null, ...). [CFloat b]: floating-point number given
    by its 2, 4 or 8 bytes. [CJunk b]: not a data item; bytes that are not well
    formed but that a lenient decoder steps over (see [junk] in DecSpec.v). *)
Inductive cbor :=
| CUInt (n : N)
| CNInt (n : N)
| CBytes (b : bytes)
| CText (b : bytes)
| CArray (l : list cbor)
| CMap (l : list (cbor * cbor))
| CTag (n : N) (c : cbor)
| CSimple (n : N)
| CFloat (b : bytes)
| CJunk (b : bytes).

Definition CInt (z : Z) : cbor :=
  if (z <? 0)%Z then CNInt (Z.to_N (- z - 1)) else CUInt (Z.to_N z).

Definition CNull : cbor := CSimple 22.

(** [n] as [w] bytes, least significant first / big endian. *)
Fixpoint little_endian (w : nat) (n : N) : bytes :=
  match w with
  | O => []
  | S w' => byte_of_N (n mod 256) :: little_endian w' (n / 256)
  end.

Definition big_endian (w : nat) (n : N) : bytes := rev (little_endian w n).

(** Initial byte with major type [mt] and additional information [ai]. *)
Definition initial (mt ai : N) : byte := byte_of_N (mt * 32 + ai).

(** A head: major type and argument, in any of the permitted widths. *)
Inductive is_head (mt n : N) : bytes -> Prop :=
| head0 : n < 24 -> is_head mt n [initial mt n]
| head1 : n < 2 ^ 8 -> is_head mt n (initial mt 24 :: big_endian 1 n)
| head2 : n < 2 ^ 16 -> is_head mt n (initial mt 25 :: big_endian 2 n)
| head4 : n < 2 ^ 32 -> is_head mt n (initial mt 26 :: big_endian 4 n)
| head8 : n < 2 ^ 64 -> is_head mt n (initial mt 27 :: big_endian 8 n).

(** The shortest head (RFC 8949 section 4.2.1, preferred serialisation). *)
Definition short_head (mt n : N) : bytes :=
  if n <? 24 then [initial mt n]
  else if n <? 2 ^ 8 then initial mt 24 :: big_endian 1 n
  else if n <? 2 ^ 16 then initial mt 25 :: big_endian 2 n
  else if n <? 2 ^ 32 then initial mt 26 :: big_endian 4 n
  else initial mt 27 :: big_endian 8 n.

(** Deterministic encoding with definite lengths. *)
Fixpoint encode (c : cbor) : bytes :=
  match c with
  | CUInt n => short_head 0 n
  | CNInt n => short_head 1 n
  | CBytes b => short_head 2 (blen b) ++ b
  | CText b => short_head 3 (blen b) ++ b
  | CArray l => short_head 4 (blen l) ++ flat_map encode l
  | CMap l => short_head 5 (blen l) ++ flat_map (fun kv => encode (fst kv) ++ encode (snd kv)) l
  | CTag n c => short_head 6 n ++ encode c
  | CSimple n => if n <? 24 then [initial 7 n] else [initial 7 24; byte_of_N n]
  | CFloat b => initial 7 (if blen b =? 2 then 25 else if blen b =? 4 then 26 else 27) :: b
  | CJunk b => b
  end.

(** ** COSE_Sign1 *)

Definition text (s : string) : bytes := list_byte_of_string s.

(** RFC 8152 section 4.4: the Sig_structure of a COSE_Sign1, encoded. *)
Definition sig_structure (body_protected external_aad payload : bytes) : bytes :=
  encode (CArray [CText (text "Signature1"); CBytes body_protected; CBytes external_aad;
                  CBytes payload]).

(** Protected header with just the algorithm. *)
Definition protected_header (alg : Z) : bytes := encode (CMap [(CInt 1, CInt alg)]).

(** Content type, RFC 8152 section 3.1: uint or tstr. *)
Inductive ctype := CtNone | CtUInt (n : N) | CtText (s : bytes).

(** Unprotected header with an optional kid (absent when empty) and an optional
    content type. *)
Definition unprotected_header (kid : bytes) (ct : ctype) : cbor :=
  CMap ((match kid with [] => [] | _ => [(CInt 4, CBytes kid)] end) ++
        (match ct with
         | CtNone => []
         | CtUInt n => [(CInt 3, CUInt n)]
         | CtText s => [(CInt 3, CText s)]
         end)).

(** RFC 8152 section 4.2: the four elements; payload [None] is nil (detached). *)
Definition cose_sign1 (tagged : bool) (prot : bytes) (unprot : cbor) (payload : option bytes)
           (sig : bytes) : bytes :=
  let a := CArray [CBytes prot; unprot;
                   match payload with Some p => CBytes p | None => CNull end; CBytes sig] in
  encode (if tagged then CTag 18 a else a).

(** ** Observations *)

(** Bytes passed to the hash by a log of calls. *)
Definition hashed (l : list event) : bytes :=
  flat_map (fun e => match e with EvHashUpdate u => u_data u | _ => [] end) l.
