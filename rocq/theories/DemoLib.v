(** Small concrete libraries, used only to exhibit cases. Not part of the code
    under study; Demo.v has the lemmas about them. *)
From Verif Require Import Base Const Crypto OpenSSL Psa Spec SignSpec AdapterSpec Toy.
Open Scope N_scope. Open Scope list_scope.

(** ** Reading DER *)

Definition read_length (b : bytes) : option (N * bytes) :=
  match b with
  | [] => None
  | x :: r => let n := Byte.to_N x in
      if n <? 128 then Some (n, r)
      else let w := N.to_nat (n - 128) in Some (bn_bin2bn (firstn w r), skipn w r)
  end.
Definition read_uint (b : bytes) : option (N * bytes) :=
  match b with
  | x02 :: r => match read_length r with
      | Some (n, r) => Some (bn_bin2bn (firstn (N.to_nat n) r), skipn (N.to_nat n) r)
      | None => None
      end
  | _ => None
  end.
Definition read_signature (b : bytes) : option (N * N) :=
  match b with
  | x30 :: r => match read_length r with
      | Some (_, r) => match read_uint r with
          | Some (x, r) => match read_uint r with Some (y, _) => Some (x, y) | None => None end
          | None => None
          end
      | None => None
      end
  | _ => None
  end.

(** ** An OpenSSL *)

(** Digests: the last bytes, padded; signatures: the digest, padded to 64 bytes,
    for ECDSA taken as two numbers. *)
Definition demo_hash (md : Z) (data : bytes) : bytes :=
  firstn (N.to_nat (digest_length md)) (rev data ++ zeros (N.to_nat (digest_length md))).
Definition demo_sig (h : bytes) : bytes := firstn 64 (h ++ zeros 64).
Definition demo_r (h : bytes) : N := bn_bin2bn (firstn 32 (demo_sig h)).
Definition demo_s (h : bytes) : N := bn_bin2bn (skipn 32 (demo_sig h)).
Definition demo_der (h : bytes) : bytes := der_signature (demo_r h) (demo_s h).
Definition made (b : bytes) (room : N) : option bytes := if blen b <=? room then Some b else None.

Definition demo_ossl : ossl := {|
  ev_bits := fun _ => 256; ev_size := fun _ => 64;
  d2i_sig := read_signature; bn_ok := fun _ _ => true; sig_new := true; sig_set0 := fun _ _ => true;
  i2d_sig := fun r s => Some (der_signature r s);
  ctx_new := fun _ => true; ctx_init := fun _ => true; ctx_set := fun _ _ => true;
  pkey_sign := fun x h room => match px_params x with [] => made (demo_der h) room | _ => made (demo_sig h) room end;
  pkey_verify := fun x sig h => let good := match px_params x with [] => demo_der h | _ => demo_sig h end in
    if bytes_eqb sig good then 1%Z else 0%Z;
  md_known := fun _ => true; md_new := true; md_init := fun _ => true;
  md_update := fun _ _ _ => true; md_final := fun md data => Some (demo_hash md data);
  dsign_init := fun _ => true; dsign := fun _ t room => made (demo_sig t) room;
  dverify_init := fun _ => true;
  dverify := fun _ sig t => if bytes_eqb sig (demo_sig t) then 1%Z else 0%Z |}.

(** ** A PSA *)

Definition demo_psa : psa := {|
  psa_verify_hash := fun _ _ h sig => if bytes_eqb sig (demo_sig h) then 0%Z else (-149)%Z;
  psa_sign_hash := fun _ _ h room => if 64 <=? room then (0%Z, demo_sig h) else ((-138)%Z, []);
  psa_key := fun _ => (0%Z, PKEcc, 256);
  psa_hash_setup := fun a => match a with PHash _ => 0%Z | _ => (-134)%Z end;
  psa_hash_update := fun _ _ _ => 0%Z;
  psa_hash_finish := fun a data room => match a with
    | PHash md => if blen (demo_hash md data) <=? room then (0%Z, demo_hash md data) else ((-138)%Z, [])
    | _ => ((-137)%Z, []) end;
  psa_aborts := true |}.

(** ** Libraries in which one call fails *)

Inductive fault :=
| FNone | FBn (r : bool) | FSigNew | FSet0 | FI2d | FD2i | FCtxNew | FCtxInit | FCtxSet (n : nat) | FSign | FVerify (result : Z)
| FKnown | FNew | FInit | FUpdate (n : nat) | FFinal | FDsignInit | FDsign | FDverifyInit | FDverify (result : Z).

(** Settings become part of a signature, so that wrong ones are noticed. *)
Definition setting_code (p : pparam) : bytes :=
  match p with
  | PadPSS => [x01]
  | SigMd md => [x02; byte_of_N (Z.to_N (- md))]
  | Mgf1Md md => [x03; byte_of_N (Z.to_N (- md))]
  | SaltlenDigest => [x04]
  end.
Definition pss_sig (l : list pparam) (h : bytes) : bytes := firstn 64 (concat (map setting_code l) ++ h ++ zeros 64).

(** [FCtxSet n]: the setting after [n] others; [FUpdate n]: the update after [n] bytes. *)
Definition faulty (f : fault) : ossl := {|
  ev_bits := fun _ => 256; ev_size := fun _ => 64;
  d2i_sig := match f with FD2i => fun _ => None | _ => read_signature end;
  bn_ok := fun r _ => match f with FBn x => negb (Bool.eqb r x) | _ => true end;
  sig_new := match f with FSigNew => false | _ => true end;
  sig_set0 := fun _ _ => match f with FSet0 => false | _ => true end;
  i2d_sig := fun r s => match f with FI2d => None | _ => Some (der_signature r s) end;
  ctx_new := fun _ => match f with FCtxNew => false | _ => true end;
  ctx_init := fun _ => match f with FCtxInit => false | _ => true end;
  ctx_set := fun x _ => match f with FCtxSet n => negb (Nat.eqb (length (px_params x)) n) | _ => true end;
  pkey_sign := fun x h room => match f with
    | FSign => None
    | _ => match px_params x with [] => made (demo_der h) room | l => made (pss_sig l h) room end end;
  pkey_verify := fun x sig h => match f with
    | FVerify r => r
    | _ => if bytes_eqb sig (match px_params x with [] => demo_der h | l => pss_sig l h end) then 1%Z else 0%Z end;
  md_known := fun _ => match f with FKnown => false | _ => true end;
  md_new := match f with FNew => false | _ => true end;
  md_init := fun _ => match f with FInit => false | _ => true end;
  md_update := fun _ before _ => match f with FUpdate n => negb (Nat.eqb (length before) n) | _ => true end;
  md_final := fun md data => match f with FFinal => None | _ => Some (demo_hash md data) end;
  dsign_init := fun _ => match f with FDsignInit => false | _ => true end;
  dsign := fun _ t room => match f with FDsign => None | _ => made (demo_sig t) room end;
  dverify_init := fun _ => match f with FDverifyInit => false | _ => true end;
  dverify := fun _ sig t => match f with FDverify r => r | _ => if bytes_eqb sig (demo_sig t) then 1%Z else 0%Z end |}.

Inductive pfault := PFNone | PFVerify (s : Z) | PFSign (s : Z) | PFKey (s : Z) | PFSetup (s : Z) | PFUpdate (n : nat) (s : Z) | PFFinish (s : Z).

(** ECDSA and PSS signatures with another hash differ. *)
Definition psa_alg_code (a : palg) : bytes :=
  match a with
  | PEcdsa md => [x01; byte_of_N (Z.to_N (- md))]
  | PRsaPss md => [x02; byte_of_N (Z.to_N (- md))]
  | _ => [xff]
  end.
Definition psa_sig (a : palg) (h : bytes) : bytes := firstn 64 (psa_alg_code a ++ h ++ zeros 64).
Definition faulty_psa (f : pfault) : psa := {|
  psa_verify_hash := fun _ a h sig => match f with PFVerify s => s | _ => if bytes_eqb sig (psa_sig a h) then 0%Z else (-149)%Z end;
  psa_sign_hash := fun _ a h room => match f with PFSign s => (s, []) | _ => if 64 <=? room then (0%Z, psa_sig a h) else ((-138)%Z, []) end;
  psa_key := fun _ => (match f with PFKey s => s | _ => 0%Z end, PKEcc, 256);
  psa_hash_setup := fun a => match f with PFSetup s => s | _ => match a with PHash _ => 0%Z | _ => (-134)%Z end end;
  psa_hash_update := fun _ before _ => match f with PFUpdate n s => if Nat.eqb (length before) n then s else 0%Z | _ => 0%Z end;
  psa_hash_finish := fun a data room => match f with PFFinish s => (s, []) | _ => match a with
    | PHash md => if blen (demo_hash md data) <=? room then (0%Z, demo_hash md data) else ((-138)%Z, [])
    | _ => ((-137)%Z, []) end end;
  psa_aborts := true |}.
