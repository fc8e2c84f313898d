(* Key agreement: src/ossl/ecdh.rs and src/ossl/ffdh.rs with ossl/src/derive.rs.  OpenSSL is a record of functions: the shared
   secret of a private and a public value, the two key derivation functions of ECDH. *)
From Verif Require Export Monad Attr Obj Factory Create Der.
Local Open Scope N_scope.

(* [g_bits]: EVP_PKEY_get_bits; [g_len]: the size EVP_PKEY_derive answers to a call without buffer (the size of the field, of the
   modulus); [g_secret]: with or without cofactor, the private value, the public value, both as they are stored; the secret is
   written in [g_len] bytes; None when OpenSSL refuses the public value.
   [g_kdf]: X9.63 or SP 800-56C one-step, digest, secret, shared data, size. *)
Record group := {
  g_bits : N;
  g_len : N;
  g_secret : bool -> bytes -> bytes -> option bytes;
  g_kdf : bool -> N -> bytes -> option bytes -> N -> option bytes }.

(* ossl/src/derive.rs:921-959 and 832-869: [s] is what OpenSSL puts at the start of a buffer of [full] bytes that is zero
   otherwise, [n] the size of the output buffer.  Answered: the used part of the output buffer. *)
Definition os_derive (full : N) (s : bytes) (n : N) : bytes :=
  if full <=? n then firstn (N.to_nat n) s
  else
    let len := if blen s <? n then blen s else n in
    skipn (N.to_nat (full - len)) (s ++ repeat 0 (N.to_nat (full - blen s))).

(* [SecretKeyFactory::recommend_key_size], src/object/key.rs:448-456, 611-620, src/aes.rs:221-231, src/hotp.rs:267-271; [as_secret_key_factory] of the
   other factories, src/object/factory.rs:563-565 *)
Definition recommend (k : fkind) (max : N) : result N :=
  match k with
  | FSecret n => if negb (n =? 0) then Ok n else Ok max
  | FAes => aes_recommend max
  | FHotp => Ok 32
  | _ => Err CKR_GENERAL_ERROR
  end.
(* the search for CKA_VALUE_LEN, src/ossl/ecdh.rs:157-160, ffdh.rs:175-178 *)
Definition value_len (tmpl : list ckattr) : result (option N) :=
  match find_ck tmpl CKA_VALUE_LEN with Some c => let? n := ck_to_ulong c in Ok (Some n) | None => Ok None end.
(* [add_vec] and the creation of the object, src/ossl/ecdh.rs:233-238, ffdh.rs:231-236: the template with the value at the end *)
Definition with_value (tmpl : list ckattr) (v : bytes) : list ckattr := tmpl ++ [ca CKA_VALUE v].

(* ---- ECDH ---- *)
(* CK_EC_KDF_TYPE: pkcs11.h:306-327 *)
Definition CKD_NULL : N := 1.
(* src/ossl/ecdh.rs:21-38 [kdf_type_to_digest_alg]; a digest is written as the number of its mechanism.  CKD_* by their numbers
   in pkcs11.h:307-327. *)
Definition kdf_digest (k : N) : result N :=
  if (k =? 2) || (k =? 14) then Ok CKM_SHA_1
  else if (k =? 5) || (k =? 15) then Ok CKM_SHA224
  else if (k =? 6) || (k =? 16) then Ok CKM_SHA256
  else if (k =? 7) || (k =? 17) then Ok CKM_SHA384
  else if (k =? 8) || (k =? 18) then Ok CKM_SHA512
  else if (k =? 10) || (k =? 19) then Ok CKM_SHA3_224
  else if (k =? 11) || (k =? 20) then Ok CKM_SHA3_256
  else if (k =? 12) || (k =? 21) then Ok CKM_SHA3_384
  else if (k =? 13) || (k =? 22) then Ok CKM_SHA3_512
  else Err CKR_MECHANISM_PARAM_INVALID.
(* src/ossl/ecdh.rs:40-56 [kdf_type_is_x963] *)
Definition kdf_is_x963 (k : N) : result bool :=
  if existsb (N.eqb k) [2; 5; 6; 7; 8; 10; 11; 12; 13] then Ok true
  else if existsb (N.eqb k) [14; 15; 16; 17; 18; 19; 20; 21; 22] then Ok false
  else Err CKR_MECHANISM_PARAM_INVALID.
(* A pointer and a length of CK_ECDH1_DERIVE_PARAMS *)
Inductive area := Null (len : N) | Area (b : bytes).
Definition a_bytes (a : area) : bytes := match a with Null _ => [] | Area b => b end.
Definition a_empty (a : area) : bool := match a with Null n => n =? 0 | Area b => blen b =? 0 end.
Definition a_null (a : area) : bool := match a with Null _ => true | Area _ => false end.
(* src/ossl/ecdh.rs:60-72 *)
Record ecdh := { h_mech : N; h_kdf : N; h_public : bytes; h_shared : option bytes; h_final : bool }.
(* src/ossl/ecdh.rs:79-112 [derive_new] *)
Definition ecdh_new (mech kdf : N) (public shared : area) : result ecdh :=
  if (kdf =? CKD_NULL) && (negb (a_null shared) || negb (a_empty shared)) then Err CKR_MECHANISM_PARAM_INVALID
  else if a_null public || a_empty public then Err CKR_MECHANISM_PARAM_INVALID
  else Ok {| h_mech := mech; h_kdf := kdf; h_public := a_bytes public;
             h_shared := if negb (a_null shared) || negb (a_empty shared) then Some (a_bytes shared) else None; h_final := false |}.

Section G.
Context (G : group).
Definition raw_max : N := (g_bits G + 7) / 8.

(* src/ossl/ecdh.rs:157-180 *)
Definition ecdh_len (kdf : N) (k : fkind) (tmpl : list ckattr) : result N :=
  let? v := value_len tmpl in
  match v with
  | Some n => if (kdf =? CKD_NULL) && (raw_max <? n) then Err CKR_TEMPLATE_INCONSISTENT else Ok n
  | None =>
      if negb (kdf =? CKD_NULL) then Err CKR_TEMPLATE_INCONSISTENT
      else match k with
           | FSecret _ | FAes | FHotp => match recommend k raw_max with Ok n => Ok n | Err _ => Err CKR_TEMPLATE_INCONSISTENT end
           | _ => Err CKR_GENERAL_ERROR
           end
  end.
(* src/ossl/ecdh.rs:182-192 *)
Definition ecdh_point (public : bytes) : result bytes :=
  if 2 * raw_max + 1 <? blen public then
    match read_tlv TAG_OCTETS public with Some (p, []) => Ok p | _ => Err CKR_MECHANISM_PARAM_INVALID end
  else Ok public.
(* src/ossl/ecdh.rs:195-230: the value of the new key.  [priv]: the private value of the base key. *)
Definition ecdh_value (o : ecdh) (priv : bytes) (k : fkind) (tmpl : list ckattr) : result bytes :=
  let? keylen := ecdh_len (h_kdf o) k tmpl in
  let? pt := ecdh_point (h_public o) in
  match g_secret G (h_mech o =? CKM_ECDH1_COFACTOR_DERIVE) priv pt with
  | None => Err CKR_DEVICE_ERROR
  | Some s =>
      let z := os_derive (g_len G) s raw_max in
      if h_kdf o =? CKD_NULL then
        if blen z <? keylen then Err CKR_TEMPLATE_INCONSISTENT
        else Ok (skipn (N.to_nat (blen z - keylen)) z)
      else
        let? d := kdf_digest (h_kdf o) in
        let? x := kdf_is_x963 (h_kdf o) in
        match g_kdf G x d z (h_shared o) keylen with Some r => Ok r | None => Err CKR_DEVICE_ERROR end
  end.
(* src/ossl/ecdh.rs:131-240 [derive]: the template the object is made from by [create] and [default_key_attributes].  Loading
   the private key is taken to succeed. *)
Definition ecdh_derive (priv : bytes) (fs : factories) (tmpl : list ckattr) : M ecdh (list ckattr) :=
  let! o := gets id in
  ensure (negb (h_final o)) CKR_OPERATION_NOT_INITIALIZED ;;;
  modify (fun o => {| h_mech := h_mech o; h_kdf := h_kdf o; h_public := h_public o; h_shared := h_shared o; h_final := true |}) ;;;
  let! f := lift (get_obj_factory_from_key_template fs tmpl) in
  let! v := lift (ecdh_value o priv (f_kind f) tmpl) in
  ret (with_value tmpl v).

(* ---- finite field DH ---- *)
(* src/ossl/ffdh.rs:174-191 *)
Definition ffdh_len (k : fkind) (tmpl : list ckattr) : result N :=
  let? v := value_len tmpl in
  match v with
  | Some n => if g_len G <? n then Err CKR_TEMPLATE_INCONSISTENT else Ok n
  | None => match k with
            | FSecret _ | FAes | FHotp => match recommend k (g_len G) with Ok n => Ok n | Err _ => Err CKR_TEMPLATE_INCONSISTENT end
            | _ => Err CKR_GENERAL_ERROR
            end
  end.
(* src/ossl/ffdh.rs:193-229.  The secret OpenSSL writes has no leading zeros (DH_compute_key without padding). *)
Definition ffdh_value (public priv : bytes) (k : fkind) (tmpl : list ckattr) : result bytes :=
  let? n := ffdh_len k tmpl in
  match g_secret G false priv public with
  | None => Err CKR_DEVICE_ERROR
  | Some s =>
      let z := os_derive (g_len G) (nopad s) n in
      if blen z =? n then Ok z
      else if negb (n =? g_len G) then Err CKR_GENERAL_ERROR
      else match k with
           | FSecret _ | FAes | FHotp =>
               match recommend k (blen z) with
               | Ok m => if blen z =? m then Ok z else Err CKR_TEMPLATE_INCONSISTENT
               | Err _ => Err CKR_TEMPLATE_INCONSISTENT
               end
           | _ => Err CKR_GENERAL_ERROR
           end
  end.
(* src/ossl/ffdh.rs:91-105 [derive_new], 155-238 [derive] *)
Definition ffdh_derive (public priv : bytes) (fs : factories) (tmpl : list ckattr) : result (list ckattr) :=
  if blen public =? 0 then Err CKR_MECHANISM_PARAM_INVALID
  else
    let? f := get_obj_factory_from_key_template fs tmpl in
    let? v := ffdh_value public priv (f_kind f) tmpl in
    Ok (with_value tmpl v).
End G.
