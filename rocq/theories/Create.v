(* The create, generate, unwrap and derive entry points of the factories. *)
From Verif Require Import Base Attr Obj Factory Tables.

(* Attribute types the asymmetric key modules write after the template has been applied: the key material itself and
   the SubjectPublicKeyInfo (src/rsa.rs:188,503-533,692,721, src/ec/mod.rs:241,337,367, src/ec/ecdsa.rs:67,439-450,
   src/ec/eddsa.rs:62,408-419, src/ec/montgomery.rs:57,346-357, src/ffdh.rs:98,297-312, src/mldsa.rs:54,278,450-458,
   src/mlkem.rs:60,271, src/slhdsa.rs and the generate_keypair functions under src/ossl). *)
Definition material : list N :=
  [CKA_MODULUS; CKA_PUBLIC_EXPONENT; CKA_PRIVATE_EXPONENT; CKA_PRIME_1; CKA_PRIME_2; CKA_EXPONENT_1;
   CKA_EXPONENT_2; CKA_COEFFICIENT; CKA_PRIME; CKA_BASE; CKA_EC_PARAMS; CKA_EC_POINT; CKA_VALUE; CKA_SEED;
   CKA_PARAMETER_SET; CKA_PUBLIC_KEY_INFO; CKA_VALUE_BITS].
Definition is_material (t : N) : bool := existsb (N.eqb t) material.

(* What the code asks of the cryptographic backend when it builds keys.  Every function is arbitrary in the theorems.
   - k_import: the import checks of the asymmetric key factories (rsa_check_import, mldsa_priv_check_import, ...): an
     error, or the material attributes they fill in;
   - k_pair: generate_keypair of the backend: the material attributes of the public and of the private key;
   - k_random: CSPRNG::generate_random.
   Simplification: the order of the individual checks inside these functions is not modelled. *)
Record keyenv := KeyEnv {
  k_import : N -> N -> object -> result (list (N * bytes));
  k_pair : N -> object -> object -> result (list (N * bytes) * list (N * bytes));
  k_random : N -> result bytes }.

(* CKA_PARAMETER_SET and CKA_VALUE_BITS are numbers, the others byte strings. *)
Definition mat_attr (t : N) (v : bytes) : attr :=
  if (t =? CKA_PARAMETER_SET) || (t =? CKA_VALUE_BITS) then from_ulong t (unle (firstn 8 v)) else from_bytes t v.
Definition put_material (o : object) (l : list (N * bytes)) : object :=
  foldl (fun o p => if is_material (fst p) then put_attr o (mat_attr (fst p) (snd p)) else o) o l.

(* CertFactory::basic_cert_object_create_checks, src/object/certs.rs:57-80. *)
Definition basic_cert_checks (o : object) : result unit :=
  let? _ := match get_bool o CKA_TRUSTED with Ok true => Err CKR_ATTRIBUTE_READ_ONLY | _ => Ok tt end in
  match get_ulong o CKA_CERTIFICATE_CATEGORY with
  | Ok c => if c <=? CK_CERTIFICATE_CATEGORY_OTHER_ENTITY then Ok tt else Err CKR_ATTRIBUTE_VALUE_INVALID
  | Err _ => Ok tt
  end.

(* X509Factory::create, src/object/certs.rs:146-194 (the hash of the subject key is checked twice there; the
   second check is the same as the first). *)
Definition x509_create (uid : bytes) (f : factory) (tmpl : list ckattr) : result object :=
  let? o := default_object_create uid f tmpl in
  let? _ := basic_cert_checks o in
  let? value := match get_bytes o CKA_VALUE with Ok v => Ok v | Err _ => Err CKR_TEMPLATE_INCOMPLETE end in
  let url := match get_string o CKA_URL with Ok u => u | Err _ => [] end in
  if (blen value =? 0) && (blen url =? 0) then Err CKR_ATTRIBUTE_VALUE_INVALID else
  let? _ := (if 0 <? blen url then
               match get_bytes o CKA_HASH_OF_SUBJECT_PUBLIC_KEY with
               | Ok h => if blen h =? 0 then Err CKR_ATTRIBUTE_VALUE_INVALID else Ok tt
               | Err _ => Err CKR_TEMPLATE_INCOMPLETE
               end
             else Ok tt) in
  match get_ulong o CKA_JAVA_MIDP_SECURITY_DOMAIN with
  | Ok sd => if sd <=? CK_SECURITY_DOMAIN_THIRD_PARTY then Ok o else Err CKR_ATTRIBUTE_VALUE_INVALID
  | Err _ => Ok o
  end.

Definition trust_types : list N :=
  [CKA_TRUST_SERVER_AUTH; CKA_TRUST_CLIENT_AUTH; CKA_TRUST_CODE_SIGNING; CKA_TRUST_EMAIL_PROTECTION;
   CKA_TRUST_IPSEC_IKE; CKA_TRUST_TIME_STAMPING; CKA_TRUST_OCSP_SIGNING].

(* for attr_type in trust_attributes, src/object/certs.rs:298-306. *)
Fixpoint some_trusted (o : object) (l : list N) : result bool :=
  match l with
  | [] => Ok false
  | t :: r => let? v := get_ulong o t in
              if negb (v =? CKT_TRUST_UNKNOWN) && negb (v =? CKT_NOT_TRUSTED) then Ok true
              else some_trusted o r
  end.

Definition map_err {A} (r : result A) (e : N) : result A := match r with Ok a => Ok a | Err _ => Err e end.

(* TrustObject::create, src/object/certs.rs:282-328. *)
Definition trust_create (uid : bytes) (f : factory) (tmpl : list ckattr) : result object :=
  let? o0 := default_object_create uid f tmpl in
  let? o := map_err (ensure_ulong o0 CKA_CLASS CKO_TRUST) CKR_TEMPLATE_INCONSISTENT in
  let? st := some_trusted o trust_types in
  if st then
    let? h := match get_attr o CKA_HASH_OF_CERTIFICATE with
              | None => Err CKR_TEMPLATE_INCOMPLETE | Some a => attr_to_bytes a end in
    if blen h =? 0 then Err CKR_ATTRIBUTE_VALUE_INVALID else
    let? _ := match get_attr o CKA_NAME_HASH_ALGORITHM with
              | None => Err CKR_TEMPLATE_INCOMPLETE | Some a => attr_to_ulong a end in
    Ok o
  else if has_attr o CKA_NAME_HASH_ALGORITHM then Ok o
  else Ok (put_attr o (from_ulong CKA_NAME_HASH_ALGORITHM CKM_SHA_1)).

(* NSSTrustObject::create, src/object/certs.rs:427-443. *)
Definition nss_trust_create (uid : bytes) (f : factory) (tmpl : list ckattr) : result object :=
  let? o0 := default_object_create uid f tmpl in
  let? o := map_err (ensure_ulong o0 CKA_CLASS CKO_NSS_TRUST) CKR_TEMPLATE_INCONSISTENT in
  match get_bool o CKA_PRIVATE with Ok true => Err CKR_ATTRIBUTE_VALUE_INVALID | _ => Ok o end.

(* GenericSecretKeyFactory::create, src/object/key.rs:566-578. *)
Definition secret_create (uid : bytes) (keysize : N) (f : factory) (tmpl : list ckattr) : result object :=
  let? o := key_create uid f tmpl in
  let? len := get_key_buffer_len o in
  if len =? 0 then Err CKR_ATTRIBUTE_VALUE_INVALID else
  if negb (keysize =? 0) && negb (len =? keysize) then Err CKR_ATTRIBUTE_VALUE_INVALID else
  ensure_ulong o CKA_VALUE_LEN len.

(* AesKeyFactory::create, src/aes.rs:129-136. *)
Definition aes_create (uid : bytes) (f : factory) (tmpl : list ckattr) : result object :=
  let? o := key_create uid f tmpl in
  let? len := get_key_buffer_len o in
  let? _ := aes_check_key_len len in
  ensure_ulong o CKA_VALUE_LEN len.

Definition check_ulong (o : object) (t : N) (p : N -> bool) : result unit :=
  match get_ulong o t with
  | Ok v => if p v then Ok tt else Err CKR_ATTRIBUTE_VALUE_INVALID
  | Err _ => Ok tt
  end.

(* HOTPKeyFactory::validate_object, src/hotp.rs:138-217. *)
Definition hotp_validate (o0 : object) : result object :=
  let? o1 := map_err (ensure_ulong o0 CKA_CLASS CKO_OTP_KEY) CKR_TEMPLATE_INCONSISTENT in
  let? o2 := map_err (ensure_ulong o1 CKA_KEY_TYPE CKK_HOTP) CKR_TEMPLATE_INCONSISTENT in
  if existsb (fun t => match get_bool o2 t with Ok true => true | _ => false end)
       [CKA_ENCRYPT; CKA_DECRYPT; CKA_WRAP; CKA_UNWRAP] then Err CKR_ATTRIBUTE_VALUE_INVALID else
  let? set_mech := match get_bytes o2 CKA_ALLOWED_MECHANISMS with
                   | Ok m => if blen m =? 0 then Ok true
                             else if negb (bytes_eqb m (le64 CKM_HOTP)) then Err CKR_ATTRIBUTE_VALUE_INVALID
                             else Ok false
                   | Err _ => Ok true
                   end in
  let o := if set_mech : bool then put_attr o2 (from_bytes CKA_ALLOWED_MECHANISMS (le64 CKM_HOTP)) else o2 in
  let? _ := match get_bytes o CKA_OTP_COUNTER with
            | Ok c => if negb (blen c =? 8) then Err CKR_ATTRIBUTE_VALUE_INVALID else Ok tt
            | Err _ => Ok tt end in
  let? _ := check_ulong o CKA_OTP_FORMAT (fun v => v =? CK_OTP_FORMAT_DECIMAL) in
  let? _ := check_ulong o CKA_VALUE_LEN (fun v => (v =? 20) || (v =? 32) || (v =? 64)) in
  let? _ := check_ulong o CKA_OTP_LENGTH (fun v => (6 <=? v) && (v <=? 8)) in
  let? _ := match get_string o CKA_OTP_TIME with
            | Ok s => if negb (blen s =? 0) then Err CKR_ATTRIBUTE_VALUE_INVALID else Ok tt
            | Err _ => Ok tt end in
  let? _ := check_ulong o CKA_OTP_TIME_REQUIREMENT (fun v => v =? CK_OTP_PARAM_IGNORED) in
  let? _ := check_ulong o CKA_OTP_CHALLENGE_REQUIREMENT (fun v => v =? CK_OTP_PARAM_IGNORED) in
  let? _ := check_ulong o CKA_OTP_PIN_REQUIREMENT (fun v => v =? CK_OTP_PARAM_IGNORED) in
  Ok o.

(* HOTPKeyFactory::create, src/hotp.rs:222-236. *)
Definition hotp_create (uid : bytes) (f : factory) (tmpl : list ckattr) : result object :=
  let? o := key_create uid f tmpl in
  let? len := get_key_buffer_len o in
  if len =? 0 then Err CKR_ATTRIBUTE_VALUE_INVALID else
  hotp_validate (put_attr o (from_ulong CKA_VALUE_LEN len)).

(* The create functions of the asymmetric key factories (src/rsa.rs:238,408, src/ec/ecdsa.rs:150,265,
   src/ec/eddsa.rs:131,251, src/ec/montgomery.rs:125,236, src/ffdh.rs:147,215, src/mldsa.rs:186,324, src/mlkem.rs:179,
   src/slhdsa.rs): key_create, then type specific checks that may fill in key material. *)
Definition asym_create (env : keyenv) (uid : bytes) (f : factory) (tmpl : list ckattr) : result object :=
  let? o := key_create uid f tmpl in
  let? kt := get_ulong o CKA_KEY_TYPE in
  let? l := k_import env (f_class f) kt o in
  Ok (put_material o l).

(* ObjectFactory::create of each factory. *)
Definition factory_create (env : keyenv) (uid : bytes) (f : factory) (tmpl : list ckattr) : result object :=
  match f_kind f with
  | FData => default_object_create uid f tmpl               (* src/object/factory.rs:609-611 *)
  | FBuiltin => Err CKR_TEMPLATE_INCOMPLETE                 (* src/object/factory.rs:662-664, 728-730 *)
  | FX509 => x509_create uid f tmpl
  | FTrust => trust_create uid f tmpl
  | FNssTrust => nss_trust_create uid f tmpl
  | FSecret n => secret_create uid n f tmpl
  | FAes => aes_create uid f tmpl
  | FHotp => hotp_create uid f tmpl
  | FPublic | FPrivate => asym_create env uid f tmpl
  end.

Definition tmpl_ulong (tmpl : list ckattr) (t : N) : result N :=
  match find_ck tmpl t with Some c => ck_to_ulong c | None => Err CKR_TEMPLATE_INCOMPLETE end.

(* ObjectFactories::create, src/object/factory.rs:830-874. *)
Definition factories_create (env : keyenv) (uid : bytes) (fs : factories) (tmpl : list ckattr) : result object :=
  let? class := tmpl_ulong tmpl CKA_CLASS in
  let? ty := (if (class =? CKO_DATA) || (class =? CKO_TRUST) || (class =? CKO_PROFILE) || (class =? CKO_MECHANISM)
                 || (class =? CKO_NSS_TRUST) then Ok 0
              else if class =? CKO_CERTIFICATE then tmpl_ulong tmpl CKA_CERTIFICATE_TYPE
              else if (class =? CKO_PUBLIC_KEY) || secret_class class then tmpl_ulong tmpl CKA_KEY_TYPE
              else Err CKR_TEMPLATE_INCONSISTENT) in
  let? f := get_factory fs (class, ty) in
  factory_create env uid f tmpl.

(* default_secret_key_generate, src/object/key.rs:468-481. *)
Definition default_secret_key_generate (env : keyenv) (o : object) : result object :=
  let? n := get_ulong o CKA_VALUE_LEN in
  let? v := k_random env n in
  Ok (put_attr o (from_bytes CKA_VALUE v)).

(* GenericSecretKeyMechanism::generate_key, src/object/key.rs:664-682, and AesMechanism::generate_key,
   src/aes.rs:299-319: the same steps with the key type and the factory of the mechanism. *)
Definition secret_generate (env : keyenv) (uid : bytes) (f : factory) (ktype mech : N) (tmpl : list ckattr)
  : result object :=
  let? o := key_generate uid f tmpl in
  let? o1 := map_err (ensure_ulong o CKA_CLASS CKO_SECRET_KEY) CKR_TEMPLATE_INCONSISTENT in
  let? o2 := map_err (ensure_ulong o1 CKA_KEY_TYPE ktype) CKR_TEMPLATE_INCONSISTENT in
  let? o3 := default_secret_key_generate env o2 in
  Ok (default_key_attributes o3 mech).

(* HOTPKeyMechanism::generate_key, src/hotp.rs:303-323. *)
Definition hotp_generate (env : keyenv) (uid : bytes) (f : factory) (mech : N) (tmpl : list ckattr)
  : result object :=
  let? o := key_generate uid f tmpl in
  let? o1 := hotp_validate o in
  let? o2 := default_secret_key_generate env o1 in
  let o3 := default_key_attributes o2 mech in
  match get_bytes o3 CKA_OTP_COUNTER with
  | Ok _ => Ok o3
  | Err _ => Ok (put_attr o3 (from_bytes CKA_OTP_COUNTER (repeat 0 8%nat)))
  end.

(* generate_keypair of the asymmetric mechanisms (src/rsa.rs:665-730, src/ec/ecdsa.rs:405-460, src/ec/eddsa.rs:376-428,
   src/ec/montgomery.rs:314-366, src/ffdh.rs:264-322, src/mldsa.rs:410-470, src/mlkem.rs, src/slhdsa.rs). *)
Definition pair_generate (env : keyenv) (uidpub uidprv : bytes) (fpub fprv : factory) (ktype mech : N)
  (tpub tprv : list ckattr) : result (object * object) :=
  let? p := key_generate uidpub fpub tpub in
  let? p1 := map_err (ensure_ulong p CKA_CLASS CKO_PUBLIC_KEY) CKR_TEMPLATE_INCONSISTENT in
  let? p2 := map_err (ensure_ulong p1 CKA_KEY_TYPE ktype) CKR_TEMPLATE_INCONSISTENT in
  let? s := key_generate uidprv fprv tprv in
  let? s1 := map_err (ensure_ulong s CKA_CLASS CKO_PRIVATE_KEY) CKR_TEMPLATE_INCONSISTENT in
  let? s2 := map_err (ensure_ulong s1 CKA_KEY_TYPE ktype) CKR_TEMPLATE_INCONSISTENT in
  let? m := k_pair env ktype p2 s2 in
  Ok (default_key_attributes (put_material p2 (fst m)) mech,
      default_key_attributes (put_material s2 (snd m)) mech).

(* SecretKeyFactory::set_key_len, src/object/key.rs:426-436. *)
Definition set_key_len (o : object) (len : N) : result object :=
  let? _ := match get_key_buffer_len o with
            | Ok b => if negb (len =? b) then Err CKR_GENERAL_ERROR else Ok tt
            | Err _ => Ok tt
            end in
  ensure_ulong o CKA_VALUE_LEN len.

(* SecretKeyFactory::set_key, src/object/key.rs:441-446, and the AES override, src/aes.rs:206-212. *)
Definition set_key (f : factory) (o : object) (key : bytes) : result object :=
  let? _ := match f_kind f with FAes => aes_check_key_len (blen key) | _ => Ok tt end in
  set_key_len (put_attr o (from_bytes CKA_VALUE key)) (blen key).

(* default_import_from_wrapped, src/object/key.rs:384-399, and AesKeyFactory::import_from_wrapped, src/aes.rs:177-202. *)
Definition secret_import (uid : bytes) (f : factory) (data : bytes) (tmpl : list ckattr) : result object :=
  let? data := match f_kind f with
               | FAes =>
                 let? d := match find_ck tmpl CKA_VALUE_LEN with
                           | Some c => let? len := ck_to_ulong c in
                                       if blen data <? len then Err CKR_KEY_SIZE_RANGE
                                       else Ok (firstn (N.to_nat len) data)
                           | None => Ok data
                           end in
                 let? _ := aes_check_key_len (blen d) in Ok d
               | _ => Ok data
               end in
  let? o := key_unwrap uid f tmpl in
  set_key f o data.

(* default_export_for_wrapping, src/object/key.rs:374-382. *)
Definition secret_export (o : object) : result bytes :=
  if negb (is_extractable o) then Err CKR_KEY_UNEXTRACTABLE else
  match get_bytes o CKA_VALUE with Ok v => Ok v | Err _ => Err CKR_DEVICE_ERROR end.

(* get_key_len, src/object/key.rs:411-419. *)
Definition get_key_len (o : object) : N := match get_ulong o CKA_VALUE_LEN with Ok n => n | Err _ => 0 end.

(* KeyFactory::key_derive, src/object/key.rs:188-194, and AesKeyFactory::key_derive, src/aes.rs:157-171. *)
Definition key_derive (uid : bytes) (f : factory) (tmpl : list ckattr) (origin : object) : result object :=
  let? o := internal_key_derive uid f tmpl origin in
  match f_kind f with
  | FAes => let n := get_key_len o in
            if negb (n =? 0) && negb (aes_len_ok n) then Err CKR_TEMPLATE_INCONSISTENT else Ok o
  | _ => Ok o
  end.

(* recommend_key_size, src/object/key.rs:611-617 and src/aes.rs:216-226. *)
Definition aes_recommend (max : N) : result N :=
  if 32 <=? max then Ok 32 else if 24 <? max then Ok 24 else if 16 <? max then Ok 16 else Err CKR_KEY_SIZE_RANGE.
