(* Attributes: src/attribute.rs and the CK_ATTRIBUTE helpers of src/pkcs11/mod.rs. *)
From Verif Require Import Base.

(* AttrType, src/attribute.rs:27-52. *)
Inductive akind := KBool | KNum | KString | KBytes | KUlongArray | KDate | KDeny | KIgnore.
Global Instance akind_eq_dec : EqDecision akind.
Proof. solve_decision. Defined.

(* struct Attribute, src/attribute.rs:304-312. *)
Record attr := Attr { a_type : N; a_kind : akind; a_val : bytes }.
Global Instance attr_eq_dec : EqDecision attr.
Proof. solve_decision. Defined.

(* CK_ATTRIBUTE as passed in by the application in an input template: pValue is null ([None]) or
   points to ulValueLen readable bytes.  Simplification: for a non null pointer the stated length is the length of
   the buffer (an application lying about the length of its own memory is outside the model). *)
Record ckattr := CkAttr { ca_type : N; ca_ptr : option bytes; ca_nulllen : N }.
Global Instance ckattr_eq_dec : EqDecision ckattr.
Proof. solve_decision. Defined.
Definition ca (t : N) (v : bytes) : ckattr := CkAttr t (Some v) 0.
Definition ca_len (c : ckattr) : N :=
  match ca_ptr c with Some b => blen b | None => ca_nulllen c end.

(* bytes_to_vec!, src/pkcs11/mod.rs:844-859 and CK_ATTRIBUTE::to_buf, 981-983. *)
Definition ck_to_buf (c : ckattr) : bytes :=
  match ca_ptr c with Some b => b | None => [] end.

(* CK_ATTRIBUTE::to_ulong, src/pkcs11/mod.rs:915-920: the pointer is not checked. *)
Definition ck_to_ulong (c : ckattr) : result N :=
  if ca_len c =? 8 then
    match ca_ptr c with Some b => Ok (unle b) | None => Err RV_NULL_DEREF end
  else Err CKR_ATTRIBUTE_VALUE_INVALID.

(* CK_ATTRIBUTE::to_bool, src/pkcs11/mod.rs:925-935: the pointer is not checked. *)
Definition ck_to_bool (c : ckattr) : result bool :=
  if ca_len c =? 1 then
    match ca_ptr c with Some b => Ok (negb (unle b =? 0)) | None => Err RV_NULL_DEREF end
  else Err CKR_ATTRIBUTE_VALUE_INVALID.

(* std::str::from_utf8: validity of a byte string as UTF-8. *)
Definition cont (b : N) : bool := (0x80 <=? b) && (b <=? 0xBF).
Fixpoint utf8_valid_fuel (n : nat) (b : bytes) : bool :=
  match n with
  | O => match b with [] => true | _ => false end
  | S n' =>
    match b with
    | [] => true
    | x :: r =>
      if x <? 0x80 then utf8_valid_fuel n' r
      else match r with
      | y :: r1 =>
        if (0xC2 <=? x) && (x <=? 0xDF) then cont y && utf8_valid_fuel n' r1
        else match r1 with
        | z :: r2 =>
          if x =? 0xE0 then (0xA0 <=? y) && (y <=? 0xBF) && cont z && utf8_valid_fuel n' r2
          else if x =? 0xED then (0x80 <=? y) && (y <=? 0x9F) && cont z && utf8_valid_fuel n' r2
          else if (0xE1 <=? x) && (x <=? 0xEF) then cont y && cont z && utf8_valid_fuel n' r2
          else match r2 with
          | w :: r3 =>
            if x =? 0xF0 then (0x90 <=? y) && (y <=? 0xBF) && cont z && cont w && utf8_valid_fuel n' r3
            else if x =? 0xF4 then (0x80 <=? y) && (y <=? 0x8F) && cont z && cont w && utf8_valid_fuel n' r3
            else if (0xF1 <=? x) && (x <=? 0xF3) then cont y && cont z && cont w && utf8_valid_fuel n' r3
            else false
          | [] => false
          end
        | [] => false
        end
      | [] => false
      end
    end
  end.
Definition utf8_valid (b : bytes) : bool := utf8_valid_fuel (length b) b.

(* CK_ATTRIBUTE::to_string, src/pkcs11/mod.rs:941-958. *)
Definition ck_to_string (c : ckattr) : result bytes :=
  if ca_len c =? 0 then Ok [] else
  match ca_ptr c with
  | None => Err CKR_ATTRIBUTE_VALUE_INVALID
  | Some b => if utf8_valid b then Ok b else Err CKR_ATTRIBUTE_VALUE_INVALID
  end.

Definition ascii_digit (n : N) : bool := (0x30 <=? n) && (n <=? 0x39).

(* vec_to_date_validate, src/pkcs11/mod.rs:872-886; a CK_DATE is represented by its 8 bytes. *)
Definition vec_to_date_validate (v : bytes) : result bytes :=
  if negb (blen v =? 8) then Err CKR_ATTRIBUTE_VALUE_INVALID
  else if forallb ascii_digit v then Ok v else Err CKR_ATTRIBUTE_VALUE_INVALID.

(* CK_ATTRIBUTE::to_date, src/pkcs11/mod.rs:988-1004. *)
Definition ck_to_date (c : ckattr) : result bytes :=
  if ca_len c =? 0 then Ok (repeat 0x30 8) else
  match ca_ptr c with
  | None => Err CKR_ATTRIBUTE_VALUE_INVALID
  | Some b => vec_to_date_validate b
  end.

(* Attribute constructors, src/attribute.rs:464-595. *)
Definition from_bool (t : N) (b : bool) : attr := Attr t KBool [if b then 1 else 0].
Definition from_ulong (t : N) (x : N) : attr := Attr t KNum (le64 x).
Definition from_string (t : N) (s : bytes) : attr := Attr t KString s.
Definition from_bytes (t : N) (s : bytes) : attr := Attr t KBytes s.
Definition from_ulong_bytevec (t : N) (s : bytes) : attr := Attr t KUlongArray s.
Definition from_date (t : N) (s : bytes) : attr := Attr t KDate s.
Definition from_ignore (t : N) : attr := Attr t KIgnore [].

(* Attribute::to_bool etc, src/attribute.rs:353-460. *)
Definition attr_to_bool (a : attr) : result bool :=
  match a_kind a with
  | KBool => match a_val a with
             | [x] => Ok (negb (x =? 0))
             | _ => Err CKR_ATTRIBUTE_VALUE_INVALID
             end
  | _ => Err CKR_ATTRIBUTE_TYPE_INVALID
  end.
Definition attr_to_ulong (a : attr) : result N :=
  match a_kind a with
  | KNum => if blen (a_val a) =? 8 then Ok (unle (a_val a)) else Err CKR_ATTRIBUTE_VALUE_INVALID
  | _ => Err CKR_ATTRIBUTE_TYPE_INVALID
  end.
Definition attr_to_string (a : attr) : result bytes :=
  match a_kind a with
  | KString => if utf8_valid (a_val a) then Ok (a_val a) else Err CKR_ATTRIBUTE_VALUE_INVALID
  | _ => Err CKR_ATTRIBUTE_TYPE_INVALID
  end.
Definition attr_to_bytes (a : attr) : result bytes :=
  match a_kind a with
  | KBytes => Ok (a_val a)
  | _ => Err CKR_ATTRIBUTE_TYPE_INVALID
  end.

(* Attribute::match_ck_attr, src/attribute.rs:330-338. *)
Definition match_ck_attr (a : attr) (c : ckattr) : bool :=
  (a_type a =? ca_type c) && bytes_eqb (ck_to_buf c) (a_val a).

(* ATTRMAP, src/attribute.rs:112-290, in source order.  The entries under the nssdb feature are included. *)
Definition attrmap : list (N * akind) :=
  [
   (CKA_CLASS, KNum);
   (CKA_TOKEN, KBool);
   (CKA_PRIVATE, KBool);
   (CKA_LABEL, KString);
   (CKA_UNIQUE_ID, KString);
   (CKA_APPLICATION, KString);
   (CKA_VALUE, KBytes);
   (CKA_OBJECT_ID, KBytes);
   (CKA_CERTIFICATE_TYPE, KNum);
   (CKA_ISSUER, KBytes);
   (CKA_SERIAL_NUMBER, KBytes);
   (CKA_AC_ISSUER, KBytes);
   (CKA_OWNER, KBytes);
   (CKA_ATTR_TYPES, KBytes);
   (CKA_TRUSTED, KBool);
   (CKA_CERTIFICATE_CATEGORY, KNum);
   (CKA_JAVA_MIDP_SECURITY_DOMAIN, KNum);
   (CKA_URL, KString);
   (CKA_HASH_OF_SUBJECT_PUBLIC_KEY, KBytes);
   (CKA_HASH_OF_ISSUER_PUBLIC_KEY, KBytes);
   (CKA_NAME_HASH_ALGORITHM, KNum);
   (CKA_CHECK_VALUE, KIgnore);
   (CKA_KEY_TYPE, KNum);
   (CKA_SUBJECT, KBytes);
   (CKA_ID, KBytes);
   (CKA_SENSITIVE, KBool);
   (CKA_ENCRYPT, KBool);
   (CKA_DECRYPT, KBool);
   (CKA_WRAP, KBool);
   (CKA_UNWRAP, KBool);
   (CKA_SIGN, KBool);
   (CKA_SIGN_RECOVER, KBool);
   (CKA_VERIFY, KBool);
   (CKA_VERIFY_RECOVER, KBool);
   (CKA_DERIVE, KBool);
   (CKA_START_DATE, KDate);
   (CKA_END_DATE, KDate);
   (CKA_MODULUS, KBytes);
   (CKA_MODULUS_BITS, KNum);
   (CKA_PUBLIC_EXPONENT, KBytes);
   (CKA_PRIVATE_EXPONENT, KBytes);
   (CKA_PRIME_1, KBytes);
   (CKA_PRIME_2, KBytes);
   (CKA_EXPONENT_1, KBytes);
   (CKA_EXPONENT_2, KBytes);
   (CKA_COEFFICIENT, KBytes);
   (CKA_PUBLIC_KEY_INFO, KBytes);
   (CKA_PRIME, KBytes);
   (CKA_SUBPRIME, KBytes);
   (CKA_BASE, KBytes);
   (CKA_PRIME_BITS, KBytes);
   (CKA_SUBPRIME_BITS, KNum);
   (CKA_VALUE_BITS, KNum);
   (CKA_VALUE_LEN, KNum);
   (CKA_EXTRACTABLE, KBool);
   (CKA_LOCAL, KBool);
   (CKA_NEVER_EXTRACTABLE, KBool);
   (CKA_ALWAYS_SENSITIVE, KBool);
   (CKA_KEY_GEN_MECHANISM, KNum);
   (CKA_MODIFIABLE, KBool);
   (CKA_COPYABLE, KBool);
   (CKA_DESTROYABLE, KBool);
   (CKA_EC_PARAMS, KBytes);
   (CKA_EC_POINT, KBytes);
   (CKA_ALWAYS_AUTHENTICATE, KBool);
   (CKA_WRAP_WITH_TRUSTED, KBool);
   (CKA_OTP_FORMAT, KNum);
   (CKA_OTP_LENGTH, KNum);
   (CKA_OTP_TIME_INTERVAL, KNum);
   (CKA_OTP_USER_FRIENDLY_MODE, KBool);
   (CKA_OTP_CHALLENGE_REQUIREMENT, KNum);
   (CKA_OTP_TIME_REQUIREMENT, KNum);
   (CKA_OTP_COUNTER_REQUIREMENT, KNum);
   (CKA_OTP_PIN_REQUIREMENT, KNum);
   (CKA_OTP_USER_IDENTIFIER, KString);
   (CKA_OTP_SERVICE_IDENTIFIER, KString);
   (CKA_OTP_SERVICE_LOGO, KBytes);
   (CKA_OTP_SERVICE_LOGO_TYPE, KString);
   (CKA_OTP_COUNTER, KBytes);
   (CKA_OTP_TIME, KString);
   (CKA_GOSTR3410_PARAMS, KBytes);
   (CKA_GOSTR3411_PARAMS, KBytes);
   (CKA_GOST28147_PARAMS, KBytes);
   (CKA_HW_FEATURE_TYPE, KNum);
   (CKA_RESET_ON_INIT, KBool);
   (CKA_HAS_RESET, KBool);
   (CKA_PIXEL_X, KNum);
   (CKA_PIXEL_Y, KNum);
   (CKA_RESOLUTION, KNum);
   (CKA_CHAR_ROWS, KNum);
   (CKA_CHAR_COLUMNS, KNum);
   (CKA_COLOR, KBool);
   (CKA_BITS_PER_PIXEL, KNum);
   (CKA_CHAR_SETS, KString);
   (CKA_ENCODING_METHODS, KString);
   (CKA_MIME_TYPES, KString);
   (CKA_MECHANISM_TYPE, KNum);
   (CKA_REQUIRED_CMS_ATTRIBUTES, KBytes);
   (CKA_DEFAULT_CMS_ATTRIBUTES, KBytes);
   (CKA_SUPPORTED_CMS_ATTRIBUTES, KBytes);
   (CKA_PROFILE_ID, KNum);
   (CKA_X2RATCHET_BAG, KBytes);
   (CKA_X2RATCHET_BAGSIZE, KNum);
   (CKA_X2RATCHET_BOBS1STMSG, KBool);
   (CKA_X2RATCHET_CKR, KBytes);
   (CKA_X2RATCHET_CKS, KBytes);
   (CKA_X2RATCHET_DHP, KBytes);
   (CKA_X2RATCHET_DHR, KBytes);
   (CKA_X2RATCHET_DHS, KBytes);
   (CKA_X2RATCHET_HKR, KBytes);
   (CKA_X2RATCHET_HKS, KBytes);
   (CKA_X2RATCHET_ISALICE, KBool);
   (CKA_X2RATCHET_NHKR, KBytes);
   (CKA_X2RATCHET_NHKS, KBytes);
   (CKA_X2RATCHET_NR, KNum);
   (CKA_X2RATCHET_NS, KNum);
   (CKA_X2RATCHET_PNS, KNum);
   (CKA_X2RATCHET_RK, KBytes);
   (CKA_HSS_LEVELS, KNum);
   (CKA_HSS_LMS_TYPE, KNum);
   (CKA_HSS_LMOTS_TYPE, KNum);
   (CKA_HSS_LMS_TYPES, KBytes);
   (CKA_HSS_LMOTS_TYPES, KBytes);
   (CKA_HSS_KEYS_REMAINING, KNum);
   (CKA_PARAMETER_SET, KNum);
   (CKA_OBJECT_VALIDATION_FLAGS, KNum);
   (CKA_VALIDATION_TYPE, KNum);
   (CKA_VALIDATION_VERSION, KBytes);
   (CKA_VALIDATION_LEVEL, KNum);
   (CKA_VALIDATION_MODULE_ID, KString);
   (CKA_VALIDATION_FLAG, KNum);
   (CKA_VALIDATION_AUTHORITY_TYPE, KNum);
   (CKA_VALIDATION_COUNTRY, KString);
   (CKA_VALIDATION_CERTIFICATE_IDENTIFIER, KString);
   (CKA_VALIDATION_CERTIFICATE_URI, KString);
   (CKA_VALIDATION_VENDOR_URI, KString);
   (CKA_VALIDATION_PROFILE, KString);
   (CKA_ENCAPSULATE_TEMPLATE, KDeny);
   (CKA_DECAPSULATE_TEMPLATE, KDeny);
   (CKA_TRUST_SERVER_AUTH, KNum);
   (CKA_TRUST_CLIENT_AUTH, KNum);
   (CKA_TRUST_CODE_SIGNING, KNum);
   (CKA_TRUST_EMAIL_PROTECTION, KNum);
   (CKA_TRUST_IPSEC_IKE, KNum);
   (CKA_TRUST_TIME_STAMPING, KNum);
   (CKA_TRUST_OCSP_SIGNING, KNum);
   (CKA_ENCAPSULATE, KBool);
   (CKA_DECAPSULATE, KBool);
   (CKA_HASH_OF_CERTIFICATE, KBytes);
   (CKA_PUBLIC_CRC64_VALUE, KBytes);
   (CKA_SEED, KBytes);
   (CKA_WRAP_TEMPLATE, KDeny);
   (CKA_UNWRAP_TEMPLATE, KDeny);
   (CKA_DERIVE_TEMPLATE, KDeny);
   (CKA_ALLOWED_MECHANISMS, KUlongArray);
   (CKA_VENDOR_DEFINED, KDeny);
   (KRA_MAX_LOGIN_ATTEMPTS, KNum);
   (KRA_LOGIN_ATTEMPTS, KNum);
   (CKA_NSS_TRUST_SERVER_AUTH, KNum);
   (CKA_NSS_TRUST_CLIENT_AUTH, KNum);
   (CKA_NSS_TRUST_CODE_SIGNING, KNum);
   (CKA_NSS_TRUST_EMAIL_PROTECTION, KNum);
   (CKA_NSS_TRUST_STEP_UP_APPROVED, KNum);
   (CKA_NSS_CERT_SHA1_HASH, KBytes);
   (CKA_NSS_CERT_MD5_HASH, KBytes)].

(* Attrmap::search_by_id, src/attribute.rs:82-91.  The binary search of the sorted table is modelled by
   a linear lookup; [attrmap_sorted] below justifies it. *)
Fixpoint alookup (m : list (N * akind)) (t : N) : option akind :=
  match m with
  | [] => None
  | (k, v) :: r => if k =? t then Some v else alookup r t
  end.
Definition search_by_id (t : N) : option akind := alookup attrmap t.

Fixpoint strictly_sorted (m : list (N * akind)) : bool :=
  match m with
  | (a, _) :: (((b, _) :: _) as r) => (a <? b) && strictly_sorted r
  | _ => true
  end.
Lemma attrmap_sorted : strictly_sorted attrmap = true.
Proof. vm_compute. reflexivity. Qed.

(* Attribute::from_ck_attr, src/attribute.rs:599-628. *)
Definition from_ck_attr (c : ckattr) : result attr :=
  match search_by_id (ca_type c) with
  | None => Err CKR_ATTRIBUTE_TYPE_INVALID
  | Some KBool => let? b := ck_to_bool c in Ok (from_bool (ca_type c) b)
  | Some KNum => let? x := ck_to_ulong c in Ok (from_ulong (ca_type c) x)
  | Some KString => let? s := ck_to_string c in Ok (from_string (ca_type c) s)
  | Some KBytes => Ok (from_bytes (ca_type c) (ck_to_buf c))
  | Some KUlongArray => Ok (from_ulong_bytevec (ca_type c) (ck_to_buf c))
  | Some KDate => let? d := ck_to_date c in Ok (from_date (ca_type c) d)
  | Some KDeny => Err CKR_ATTRIBUTE_TYPE_INVALID
  | Some KIgnore => Ok (from_ignore (ca_type c))
  end.

(* First template entry of a type: CkAttrs::find_attr, src/attribute.rs:934-942, and
   template.iter().find/position used throughout. *)
Fixpoint find_ck (tmpl : list ckattr) (t : N) : option ckattr :=
  match tmpl with
  | [] => None
  | c :: r => if ca_type c =? t then Some c else find_ck r t
  end.
