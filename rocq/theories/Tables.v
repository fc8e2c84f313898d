(* GENERATED by a script from the attribute tables of the object factories; each entry cites its line. *)
From Verif Require Import Base Attr Obj Factory.

(* attributes[idx] = a, or push (for example src/object/key.rs:538-544). *)
Fixpoint tab_replace (tab : list oattr) (a : oattr) : list oattr :=
  match tab with
  | [] => [a]
  | x :: r => if oa_type x =? oa_type a then a :: r else x :: tab_replace r a
  end.

(* src/object/factory.rs:265-273 *)
Definition tab_object : list oattr :=
  [
   OA (from_ulong CKA_CLASS 0) (OA_RequiredOnCreate) (* object/factory.rs:268 *);
   OA (from_string CKA_UNIQUE_ID []) (OA_NeverSettable .|. OA_Unchangeable) (* object/factory.rs:271 *)].

(* src/object/factory.rs:276-297 *)
Definition tab_storage (private : bool) : list oattr :=
  tab_object ++ [
   OA (from_bool CKA_TOKEN false) (OA_Defval .|. OA_ChangeOnCopy) (* object/factory.rs:280 *);
   OA (from_bool CKA_PRIVATE private) (OA_Defval .|. OA_ChangeOnCopy) (* object/factory.rs:283 *);
   OA (from_bool CKA_MODIFIABLE true) (OA_Defval .|. OA_ChangeOnCopy) (* object/factory.rs:286 *);
   OA (from_string CKA_LABEL []) (0) (* object/factory.rs:289 *);
   OA (from_bool CKA_COPYABLE true) (OA_Defval .|. OA_ChangeToFalse) (* object/factory.rs:292 *);
   OA (from_bool CKA_DESTROYABLE true) (OA_Defval) (* object/factory.rs:295 *)].

(* src/object/key.rs:24-54 *)
Definition tab_key (private : bool) : list oattr :=
  tab_storage private ++ [
   OA (from_ulong CKA_KEY_TYPE CK_UNAVAILABLE_INFORMATION) (OA_RequiredOnCreate) (* object/key.rs:28 *);
   OA (from_bytes CKA_ID []) (0) (* object/key.rs:31 *);
   OA (from_date CKA_START_DATE []) (OA_Defval) (* object/key.rs:34 *);
   OA (from_date CKA_END_DATE []) (OA_Defval) (* object/key.rs:37 *);
   OA (from_bool CKA_DERIVE false) (OA_Defval) (* object/key.rs:40 *);
   OA (from_bool CKA_LOCAL false) (OA_Defval .|. OA_NeverSettable) (* object/key.rs:42 *);
   OA (from_ulong CKA_KEY_GEN_MECHANISM CK_UNAVAILABLE_INFORMATION) (OA_Defval .|. OA_NeverSettable) (* object/key.rs:45 *);
   OA (from_bytes CKA_ALLOWED_MECHANISMS []) (0) (* object/key.rs:48 *);
   OA (from_ulong CKA_OBJECT_VALIDATION_FLAGS 0) (OA_NeverSettable .|. OA_Ephemeral) (* object/key.rs:51 *)].

(* src/object/key.rs:224-251 *)
Definition tab_public_key : list oattr :=
  tab_key false ++ [
   OA (from_bytes CKA_SUBJECT []) (OA_Defval) (* object/key.rs:228 *);
   OA (from_bool CKA_ENCRYPT false) (OA_Defval) (* object/key.rs:231 *);
   OA (from_bool CKA_VERIFY false) (OA_Defval) (* object/key.rs:233 *);
   OA (from_bool CKA_VERIFY_RECOVER false) (OA_Defval) (* object/key.rs:235 *);
   OA (from_bool CKA_WRAP false) (OA_Defval) (* object/key.rs:238 *);
   OA (from_bool CKA_TRUSTED false) (OA_NeverSettable .|. OA_Defval) (* object/key.rs:240 *);
   OA (from_bytes CKA_WRAP_TEMPLATE []) (0) (* object/key.rs:243 *);
   OA (from_bytes CKA_PUBLIC_KEY_INFO []) (0) (* object/key.rs:246 *);
   OA (from_bool CKA_ENCAPSULATE false) (OA_Defval) (* object/key.rs:249 *)].

(* src/object/key.rs:271-316 *)
Definition tab_private_key : list oattr :=
  tab_key true ++ [
   OA (from_bytes CKA_SUBJECT []) (OA_Defval) (* object/key.rs:275 *);
   OA (from_bool CKA_SENSITIVE true) (OA_Defval .|. OA_ChangeToTrue) (* object/key.rs:278 *);
   OA (from_bool CKA_DECRYPT false) (OA_Defval) (* object/key.rs:281 *);
   OA (from_bool CKA_SIGN false) (OA_Defval) (* object/key.rs:283 *);
   OA (from_bool CKA_SIGN_RECOVER false) (OA_Defval) (* object/key.rs:285 *);
   OA (from_bool CKA_UNWRAP false) (OA_Defval) (* object/key.rs:288 *);
   OA (from_bool CKA_EXTRACTABLE false) (OA_ChangeToFalse .|. OA_Defval) (* object/key.rs:290 *);
   OA (from_bool CKA_ALWAYS_SENSITIVE false) (OA_NeverSettable) (* object/key.rs:293 *);
   OA (from_bool CKA_NEVER_EXTRACTABLE false) (OA_NeverSettable) (* object/key.rs:296 *);
   OA (from_bool CKA_WRAP_WITH_TRUSTED false) (OA_Defval .|. OA_ChangeToTrue) (* object/key.rs:299 *);
   OA (from_bytes CKA_UNWRAP_TEMPLATE []) (0) (* object/key.rs:302 *);
   OA (from_bool CKA_ALWAYS_AUTHENTICATE false) (OA_Defval) (* object/key.rs:305 *);
   OA (from_bytes CKA_PUBLIC_KEY_INFO []) (0) (* object/key.rs:308 *);
   OA (from_bytes CKA_DERIVE_TEMPLATE []) (0) (* object/key.rs:311 *);
   OA (from_bool CKA_DECAPSULATE false) (OA_Defval) (* object/key.rs:314 *)].

(* src/object/key.rs:327-372 *)
Definition tab_secret_key : list oattr :=
  tab_key true ++ [
   OA (from_bool CKA_SENSITIVE true) (OA_Defval .|. OA_ChangeToTrue) (* object/key.rs:331 *);
   OA (from_bool CKA_ENCRYPT false) (OA_Defval) (* object/key.rs:334 *);
   OA (from_bool CKA_DECRYPT false) (OA_Defval) (* object/key.rs:336 *);
   OA (from_bool CKA_SIGN false) (OA_Defval) (* object/key.rs:338 *);
   OA (from_bool CKA_VERIFY false) (OA_Defval) (* object/key.rs:340 *);
   OA (from_bool CKA_WRAP false) (OA_Defval) (* object/key.rs:342 *);
   OA (from_bool CKA_UNWRAP false) (OA_Defval) (* object/key.rs:344 *);
   OA (from_bool CKA_EXTRACTABLE false) (OA_ChangeToFalse .|. OA_Defval) (* object/key.rs:346 *);
   OA (from_bool CKA_ALWAYS_SENSITIVE false) (OA_NeverSettable) (* object/key.rs:349 *);
   OA (from_bool CKA_NEVER_EXTRACTABLE false) (OA_NeverSettable) (* object/key.rs:352 *);
   OA (from_ignore CKA_CHECK_VALUE) (OA_Ignored) (* object/key.rs:355 *);
   OA (from_bool CKA_WRAP_WITH_TRUSTED false) (OA_Defval .|. OA_ChangeToTrue) (* object/key.rs:358 *);
   OA (from_bool CKA_TRUSTED false) (OA_NeverSettable .|. OA_Defval) (* object/key.rs:361 *);
   OA (from_bytes CKA_WRAP_TEMPLATE []) (0) (* object/key.rs:364 *);
   OA (from_bytes CKA_UNWRAP_TEMPLATE []) (0) (* object/key.rs:367 *);
   OA (from_bytes CKA_DERIVE_TEMPLATE []) (0) (* object/key.rs:370 *)].

(* src/object/otp.rs:16-45 *)
Definition tab_otp_key : list oattr :=
  tab_secret_key ++ [
   OA (from_ulong CKA_OTP_FORMAT CK_OTP_FORMAT_DECIMAL) (OA_Defval .|. OA_SettableOnlyOnCreate) (* object/otp.rs:20 *);
   OA (from_ulong CKA_OTP_LENGTH 6) (OA_Defval .|. OA_SettableOnlyOnCreate) (* object/otp.rs:22 *);
   OA (from_bool CKA_OTP_USER_FRIENDLY_MODE false) (OA_Defval) (* object/otp.rs:24 *);
   OA (from_ulong CKA_OTP_CHALLENGE_REQUIREMENT CK_OTP_PARAM_IGNORED) (OA_Defval .|. OA_SettableOnlyOnCreate) (* object/otp.rs:26 *);
   OA (from_ulong CKA_OTP_TIME_REQUIREMENT CK_OTP_PARAM_IGNORED) (OA_Defval .|. OA_SettableOnlyOnCreate) (* object/otp.rs:28 *);
   OA (from_ulong CKA_OTP_COUNTER_REQUIREMENT CK_OTP_PARAM_IGNORED) (OA_Defval .|. OA_SettableOnlyOnCreate) (* object/otp.rs:30 *);
   OA (from_ulong CKA_OTP_PIN_REQUIREMENT CK_OTP_PARAM_IGNORED) (OA_Defval .|. OA_SettableOnlyOnCreate) (* object/otp.rs:32 *);
   OA (from_bytes CKA_OTP_COUNTER (repeat 0 8%nat)) (OA_Defval) (* object/otp.rs:34 *);
   OA (from_string CKA_OTP_TIME []) (OA_Defval) (* object/otp.rs:36 *);
   OA (from_string CKA_OTP_USER_IDENTIFIER []) (0) (* object/otp.rs:38 *);
   OA (from_string CKA_OTP_SERVICE_IDENTIFIER []) (0) (* object/otp.rs:40 *);
   OA (from_bytes CKA_OTP_SERVICE_LOGO []) (0) (* object/otp.rs:42 *);
   OA (from_string CKA_OTP_SERVICE_LOGO_TYPE []) (0) (* object/otp.rs:44 *)].

(* src/object/certs.rs:23-48 *)
Definition tab_certificate : list oattr :=
  tab_storage false ++ [
   OA (from_ulong CKA_CERTIFICATE_TYPE 0) (OA_AlwaysRequired) (* object/certs.rs:27 *);
   OA (from_bool CKA_TRUSTED false) (OA_Defval) (* object/certs.rs:30 *);
   OA (from_ulong CKA_CERTIFICATE_CATEGORY CK_CERTIFICATE_CATEGORY_UNSPECIFIED) (OA_Defval) (* object/certs.rs:33 *);
   OA (from_ignore CKA_CHECK_VALUE) (OA_Ignored) (* object/certs.rs:37 *);
   OA (from_date CKA_START_DATE []) (OA_Defval) (* object/certs.rs:40 *);
   OA (from_date CKA_END_DATE []) (OA_Defval) (* object/certs.rs:43 *);
   OA (from_bytes CKA_PUBLIC_KEY_INFO []) (0) (* object/certs.rs:46 *)].

(* src/object/factory.rs:580-602 *)
Definition tab_data : list oattr :=
  tab_storage false ++ [
   OA (from_string CKA_APPLICATION []) (OA_Defval) (* object/factory.rs:590 *);
   OA (from_bytes CKA_OBJECT_ID []) (0) (* object/factory.rs:593 *);
   OA (from_bytes CKA_VALUE []) (OA_Defval) (* object/factory.rs:596 *)].

(* src/object/factory.rs:641-657 *)
Definition tab_profile : list oattr :=
  tab_object ++ [
   OA (from_ulong CKA_PROFILE_ID CK_UNAVAILABLE_INFORMATION) (OA_RequiredOnCreate) (* object/factory.rs:651 *)].

(* src/object/factory.rs:708-724 *)
Definition tab_mechanism : list oattr :=
  tab_object ++ [
   OA (from_ulong CKA_MECHANISM_TYPE CK_UNAVAILABLE_INFORMATION) (OA_RequiredOnCreate) (* object/factory.rs:718 *)].

(* src/object/certs.rs:96-138 *)
Definition tab_x509 : list oattr :=
  tab_certificate ++ [
   OA (from_bytes CKA_SUBJECT []) (OA_AlwaysRequired) (* object/certs.rs:106 *);
   OA (from_bytes CKA_ID []) (OA_Defval) (* object/certs.rs:109 *);
   OA (from_bytes CKA_ISSUER []) (OA_Defval) (* object/certs.rs:111 *);
   OA (from_bytes CKA_SERIAL_NUMBER []) (OA_Defval) (* object/certs.rs:114 *);
   OA (from_bytes CKA_VALUE []) (OA_AlwaysRequired) (* object/certs.rs:117 *);
   OA (from_string CKA_URL []) (0) (* object/certs.rs:120 *);
   OA (from_bytes CKA_HASH_OF_SUBJECT_PUBLIC_KEY []) (OA_Defval) (* object/certs.rs:123 *);
   OA (from_bytes CKA_HASH_OF_ISSUER_PUBLIC_KEY []) (OA_Defval) (* object/certs.rs:126 *);
   OA (from_ulong CKA_JAVA_MIDP_SECURITY_DOMAIN CK_SECURITY_DOMAIN_UNSPECIFIED) (OA_Defval) (* object/certs.rs:129 *);
   OA (from_ulong CKA_NAME_HASH_ALGORITHM CKM_SHA_1) (0) (* object/certs.rs:132 *)].

(* src/object/certs.rs:220-278 *)
Definition tab_trust : list oattr :=
  tab_storage false ++ [
   OA (from_bytes CKA_ISSUER []) (OA_RequiredOnCreate) (* object/certs.rs:233 *);
   OA (from_bytes CKA_SERIAL_NUMBER []) (OA_RequiredOnCreate) (* object/certs.rs:239 *);
   OA (from_bytes CKA_HASH_OF_CERTIFICATE []) (0) (* object/certs.rs:245 *);
   OA (from_ulong CKA_NAME_HASH_ALGORITHM CKM_SHA_1) (0) (* object/certs.rs:251 *);
   OA (from_ulong CKA_TRUST_SERVER_AUTH CKT_TRUST_UNKNOWN) (OA_Defval) (* object/certs.rs:269 *);
   OA (from_ulong CKA_TRUST_CLIENT_AUTH CKT_TRUST_UNKNOWN) (OA_Defval) (* object/certs.rs:269 *);
   OA (from_ulong CKA_TRUST_CODE_SIGNING CKT_TRUST_UNKNOWN) (OA_Defval) (* object/certs.rs:269 *);
   OA (from_ulong CKA_TRUST_EMAIL_PROTECTION CKT_TRUST_UNKNOWN) (OA_Defval) (* object/certs.rs:269 *);
   OA (from_ulong CKA_TRUST_IPSEC_IKE CKT_TRUST_UNKNOWN) (OA_Defval) (* object/certs.rs:269 *);
   OA (from_ulong CKA_TRUST_TIME_STAMPING CKT_TRUST_UNKNOWN) (OA_Defval) (* object/certs.rs:269 *);
   OA (from_ulong CKA_TRUST_OCSP_SIGNING CKT_TRUST_UNKNOWN) (OA_Defval) (* object/certs.rs:269 *)].

(* src/object/certs.rs:352-422 *)
Definition tab_nss_trust : list oattr :=
  tab_storage false ++ [
   OA (from_bytes CKA_ISSUER []) (OA_RequiredOnCreate) (* object/certs.rs:361 *);
   OA (from_bytes CKA_SERIAL_NUMBER []) (OA_RequiredOnCreate) (* object/certs.rs:367 *);
   OA (from_bytes CKA_NSS_CERT_SHA1_HASH []) (OA_RequiredOnCreate) (* object/certs.rs:373 *);
   OA (from_bytes CKA_NSS_CERT_MD5_HASH []) (OA_RequiredOnCreate) (* object/certs.rs:379 *);
   OA (from_ulong CKA_NSS_TRUST_SERVER_AUTH 0) (0) (* object/certs.rs:413 *);
   OA (from_ulong CKA_NSS_TRUST_CLIENT_AUTH 0) (0) (* object/certs.rs:413 *);
   OA (from_ulong CKA_NSS_TRUST_CODE_SIGNING 0) (0) (* object/certs.rs:413 *);
   OA (from_ulong CKA_NSS_TRUST_EMAIL_PROTECTION 0) (0) (* object/certs.rs:413 *);
   OA (from_ulong CKA_NSS_TRUST_STEP_UP_APPROVED 0) (0) (* object/certs.rs:413 *)].

(* src/fips/indicators.rs:43-100 *)
Definition tab_validation : list oattr :=
  tab_object ++ [
   OA (from_ulong CKA_VALIDATION_TYPE 0) (OA_AlwaysRequired .|. OA_NeverSettable .|. OA_Unchangeable) (* fips/indicators.rs:53 *);
   OA (from_bytes CKA_VALIDATION_VERSION []) (OA_AlwaysRequired .|. OA_NeverSettable .|. OA_Unchangeable) (* fips/indicators.rs:57 *);
   OA (from_ulong CKA_VALIDATION_LEVEL 0) (OA_AlwaysRequired .|. OA_NeverSettable .|. OA_Unchangeable) (* fips/indicators.rs:61 *);
   OA (from_string CKA_VALIDATION_MODULE_ID []) (OA_AlwaysRequired .|. OA_NeverSettable .|. OA_Unchangeable) (* fips/indicators.rs:65 *);
   OA (from_ulong CKA_VALIDATION_FLAG 0) (OA_AlwaysRequired .|. OA_NeverSettable .|. OA_Unchangeable) (* fips/indicators.rs:69 *);
   OA (from_ulong CKA_VALIDATION_AUTHORITY_TYPE 0) (OA_AlwaysRequired .|. OA_NeverSettable .|. OA_Unchangeable) (* fips/indicators.rs:73 *);
   OA (from_string CKA_VALIDATION_COUNTRY []) (OA_AlwaysRequired .|. OA_NeverSettable .|. OA_Unchangeable) (* fips/indicators.rs:77 *);
   OA (from_string CKA_VALIDATION_CERTIFICATE_IDENTIFIER []) (OA_AlwaysRequired .|. OA_NeverSettable .|. OA_Unchangeable) (* fips/indicators.rs:81 *);
   OA (from_string CKA_VALIDATION_CERTIFICATE_URI []) (OA_AlwaysRequired .|. OA_NeverSettable .|. OA_Unchangeable) (* fips/indicators.rs:85 *);
   OA (from_string CKA_VALIDATION_VENDOR_URI []) (OA_AlwaysRequired .|. OA_NeverSettable .|. OA_Unchangeable) (* fips/indicators.rs:89 *);
   OA (from_string CKA_VALIDATION_PROFILE []) (OA_AlwaysRequired .|. OA_NeverSettable .|. OA_Unchangeable) (* fips/indicators.rs:93 *)].

(* src/object/key.rs:519-548 *)
Definition tab_generic : list oattr :=
  tab_replace (tab_secret_key ++ [
   OA (from_bytes CKA_VALUE []) (OA_Sensitive .|. OA_RequiredOnCreate .|. OA_SettableOnlyOnCreate) (* object/key.rs:530 *);
   OA (from_bytes CKA_VALUE_LEN []) (OA_RequiredOnGenerate) (* object/key.rs:534 *)])
   (OA (from_bool CKA_PRIVATE true) (OA_Defval .|. OA_ChangeOnCopy) (* object/key.rs:539 *)).

(* src/aes.rs:102-122 *)
Definition tab_aes : list oattr :=
  tab_secret_key ++ [
   OA (from_bytes CKA_VALUE []) (OA_Defval .|. OA_Sensitive .|. OA_RequiredOnCreate .|. OA_SettableOnlyOnCreate) (* aes.rs:112 *);
   OA (from_bytes CKA_VALUE_LEN []) (OA_RequiredOnGenerate) (* aes.rs:116 *)].

(* src/hotp.rs:60-136 *)
Definition tab_hotp : list oattr :=
  tab_replace (tab_replace (tab_replace (tab_replace (tab_replace (tab_replace (tab_otp_key ++ [
   OA (from_bytes CKA_VALUE []) (OA_Sensitive .|. OA_RequiredOnCreate .|. OA_SettableOnlyOnCreate) (* hotp.rs:70 *);
   OA (from_ulong CKA_VALUE_LEN 20) (OA_Defval) (* hotp.rs:74 *)])
   (OA (from_bool CKA_PRIVATE true) (OA_Defval .|. OA_ChangeOnCopy) (* hotp.rs:79 *)))
   (OA (from_bool CKA_SIGN true) (OA_Defval) (* hotp.rs:85 *)))
   (OA (from_bool CKA_VERIFY true) (OA_Defval) (* hotp.rs:91 *)))
   (OA (from_bytes CKA_OTP_COUNTER (repeat 0 8%nat)) (OA_Defval .|. OA_SettableOnlyOnCreate) (* hotp.rs:99 *)))
   (OA (from_ulong CKA_OTP_FORMAT CK_OTP_FORMAT_DECIMAL) (OA_Defval .|. OA_SettableOnlyOnCreate) (* hotp.rs:111 *)))
   (OA (from_bool CKA_OTP_USER_FRIENDLY_MODE true) (OA_Defval) (* hotp.rs:123 *)).

(* src/rsa.rs:208-230 *)
Definition tab_rsa_pub : list oattr :=
  tab_public_key ++ [
   OA (from_bytes CKA_MODULUS []) (OA_RequiredOnCreate .|. OA_Unchangeable) (* rsa.rs:218 *);
   OA (from_ulong CKA_MODULUS_BITS 0) (OA_RequiredOnGenerate .|. OA_Unchangeable) (* rsa.rs:221 *);
   OA (from_bytes CKA_PUBLIC_EXPONENT []) (OA_RequiredOnCreate .|. OA_Unchangeable) (* rsa.rs:224 *)].

(* src/rsa.rs:362-400 *)
Definition tab_rsa_priv : list oattr :=
  tab_private_key ++ [
   OA (from_bytes CKA_MODULUS []) (OA_RequiredOnCreate .|. OA_Unchangeable) (* rsa.rs:372 *);
   OA (from_bytes CKA_PUBLIC_EXPONENT []) (OA_RequiredOnCreate .|. OA_Unchangeable) (* rsa.rs:375 *);
   OA (from_bytes CKA_PRIVATE_EXPONENT []) (OA_Sensitive .|. OA_RequiredOnCreate .|. OA_SettableOnlyOnCreate .|. OA_Unchangeable) (* rsa.rs:378 *);
   OA (from_bytes CKA_PRIME_1 []) (OA_Sensitive .|. OA_SettableOnlyOnCreate .|. OA_Unchangeable) (* rsa.rs:382 *);
   OA (from_bytes CKA_PRIME_2 []) (OA_Sensitive .|. OA_SettableOnlyOnCreate .|. OA_Unchangeable) (* rsa.rs:385 *);
   OA (from_bytes CKA_EXPONENT_1 []) (OA_Sensitive .|. OA_SettableOnlyOnCreate .|. OA_Unchangeable) (* rsa.rs:388 *);
   OA (from_bytes CKA_EXPONENT_2 []) (OA_Sensitive .|. OA_SettableOnlyOnCreate .|. OA_Unchangeable) (* rsa.rs:391 *);
   OA (from_bytes CKA_COEFFICIENT []) (OA_Sensitive .|. OA_SettableOnlyOnCreate .|. OA_Unchangeable) (* rsa.rs:394 *)].

(* src/ec/ecdsa.rs:120-140 *)
Definition tab_ec_pub : list oattr :=
  tab_public_key ++ [
   OA (from_bytes CKA_EC_PARAMS []) (OA_AlwaysRequired .|. OA_Unchangeable) (* ec/ecdsa.rs:130 *);
   OA (from_bytes CKA_EC_POINT []) (OA_RequiredOnCreate .|. OA_SettableOnlyOnCreate .|. OA_Unchangeable) (* ec/ecdsa.rs:133 *)].

(* src/ec/ecdsa.rs:235-255 *)
Definition tab_ec_priv : list oattr :=
  tab_private_key ++ [
   OA (from_bytes CKA_EC_PARAMS []) (OA_RequiredOnCreate .|. OA_Unchangeable) (* ec/ecdsa.rs:245 *);
   OA (from_bytes CKA_VALUE []) (OA_Sensitive .|. OA_RequiredOnCreate .|. OA_SettableOnlyOnCreate .|. OA_Unchangeable) (* ec/ecdsa.rs:248 *)].

(* src/ec/eddsa.rs:101-121 *)
Definition tab_eddsa_pub : list oattr :=
  tab_public_key ++ [
   OA (from_bytes CKA_EC_PARAMS []) (OA_AlwaysRequired .|. OA_Unchangeable) (* ec/eddsa.rs:111 *);
   OA (from_bytes CKA_EC_POINT []) (OA_RequiredOnCreate .|. OA_SettableOnlyOnCreate .|. OA_Unchangeable) (* ec/eddsa.rs:114 *)].

(* src/ec/eddsa.rs:212-241 *)
Definition tab_eddsa_priv : list oattr :=
  tab_replace (tab_private_key ++ [
   OA (from_bytes CKA_EC_PARAMS []) (OA_RequiredOnCreate .|. OA_Unchangeable) (* ec/eddsa.rs:222 *);
   OA (from_bytes CKA_VALUE []) (OA_Sensitive .|. OA_RequiredOnCreate .|. OA_SettableOnlyOnCreate .|. OA_Unchangeable) (* ec/eddsa.rs:225 *)])
   (OA (from_bool CKA_PRIVATE true) (OA_Defval .|. OA_ChangeOnCopy) (* ec/eddsa.rs:231 *)).

(* src/ec/montgomery.rs:95-115 *)
Definition tab_montgomery_pub : list oattr :=
  tab_public_key ++ [
   OA (from_bytes CKA_EC_PARAMS []) (OA_AlwaysRequired .|. OA_Unchangeable) (* ec/montgomery.rs:105 *);
   OA (from_bytes CKA_EC_POINT []) (OA_RequiredOnCreate .|. OA_SettableOnlyOnCreate .|. OA_Unchangeable) (* ec/montgomery.rs:108 *)].

(* src/ec/montgomery.rs:206-226 *)
Definition tab_montgomery_priv : list oattr :=
  tab_private_key ++ [
   OA (from_bytes CKA_EC_PARAMS []) (OA_RequiredOnCreate .|. OA_Unchangeable) (* ec/montgomery.rs:216 *);
   OA (from_bytes CKA_VALUE []) (OA_Sensitive .|. OA_RequiredOnCreate .|. OA_SettableOnlyOnCreate .|. OA_Unchangeable) (* ec/montgomery.rs:219 *)].

(* src/ffdh.rs:114-137 *)
Definition tab_dh_pub : list oattr :=
  tab_public_key ++ [
   OA (from_bytes CKA_PRIME []) (OA_AlwaysRequired .|. OA_Unchangeable) (* ffdh.rs:124 *);
   OA (from_bytes CKA_BASE []) (OA_AlwaysRequired .|. OA_Unchangeable) (* ffdh.rs:127 *);
   OA (from_bytes CKA_VALUE []) (OA_RequiredOnCreate .|. OA_SettableOnlyOnCreate .|. OA_Unchangeable) (* ffdh.rs:130 *)].

(* src/ffdh.rs:178-205 *)
Definition tab_dh_priv : list oattr :=
  tab_private_key ++ [
   OA (from_bytes CKA_PRIME []) (OA_RequiredOnCreate .|. OA_Unchangeable) (* ffdh.rs:188 *);
   OA (from_bytes CKA_BASE []) (OA_RequiredOnCreate .|. OA_Unchangeable) (* ffdh.rs:191 *);
   OA (from_bytes CKA_VALUE []) (OA_RequiredOnCreate .|. OA_SettableOnlyOnCreate .|. OA_Unchangeable) (* ffdh.rs:194 *);
   OA (from_ulong CKA_VALUE_BITS 0) (OA_SettableOnlyOnCreate .|. OA_Unchangeable) (* ffdh.rs:198 *)].

(* src/mldsa.rs:158-177 *)
Definition tab_mldsa_pub : list oattr :=
  tab_public_key ++ [
   OA (from_ulong CKA_PARAMETER_SET 0) (OA_RequiredOnCreate .|. OA_Unchangeable) (* mldsa.rs:168 *);
   OA (from_bytes CKA_VALUE []) (OA_RequiredOnCreate .|. OA_Unchangeable) (* mldsa.rs:171 *)].

(* src/mldsa.rs:293-315 *)
Definition tab_mldsa_priv : list oattr :=
  tab_private_key ++ [
   OA (from_ulong CKA_PARAMETER_SET 0) (OA_RequiredOnCreate .|. OA_Unchangeable) (* mldsa.rs:303 *);
   OA (from_bytes CKA_VALUE []) (OA_Sensitive .|. OA_SettableOnlyOnCreate .|. OA_Unchangeable) (* mldsa.rs:306 *);
   OA (from_bytes CKA_SEED []) (OA_Sensitive .|. OA_SettableOnlyOnCreate .|. OA_Unchangeable) (* mldsa.rs:309 *)].

(* src/mlkem.rs:151-170 *)
Definition tab_mlkem_pub : list oattr :=
  tab_public_key ++ [
   OA (from_ulong CKA_PARAMETER_SET 0) (OA_RequiredOnCreate .|. OA_Unchangeable) (* mlkem.rs:161 *);
   OA (from_bytes CKA_VALUE []) (OA_RequiredOnCreate .|. OA_Unchangeable) (* mlkem.rs:164 *)].

(* src/mlkem.rs:286-317 *)
Definition tab_mlkem_priv : list oattr :=
  tab_replace (tab_private_key ++ [
   OA (from_ulong CKA_PARAMETER_SET 0) (OA_RequiredOnCreate .|. OA_Unchangeable) (* mlkem.rs:296 *);
   OA (from_bytes CKA_VALUE []) (OA_Sensitive .|. OA_SettableOnlyOnCreate .|. OA_Unchangeable) (* mlkem.rs:299 *);
   OA (from_bytes CKA_SEED []) (OA_Sensitive .|. OA_SettableOnlyOnCreate .|. OA_Unchangeable) (* mlkem.rs:302 *)])
   (OA (from_bool CKA_PRIVATE true) (OA_Defval .|. OA_ChangeOnCopy) (* mlkem.rs:307 *)).

(* src/slhdsa.rs:180-199 *)
Definition tab_slhdsa_pub : list oattr :=
  tab_public_key ++ [
   OA (from_ulong CKA_PARAMETER_SET 0) (OA_RequiredOnCreate .|. OA_Unchangeable) (* slhdsa.rs:190 *);
   OA (from_bytes CKA_VALUE []) (OA_RequiredOnCreate .|. OA_Unchangeable) (* slhdsa.rs:193 *)].

(* src/slhdsa.rs:301-320 *)
Definition tab_slhdsa_priv : list oattr :=
  tab_private_key ++ [
   OA (from_ulong CKA_PARAMETER_SET 0) (OA_RequiredOnCreate .|. OA_Unchangeable) (* slhdsa.rs:311 *);
   OA (from_bytes CKA_VALUE []) (OA_Sensitive .|. OA_SettableOnlyOnCreate .|. OA_Unchangeable) (* slhdsa.rs:314 *)].

(* All factories of a build with every feature: src/object/factory.rs:1092-1113, src/hmac.rs:76-113 with the sizes of
   src/hash.rs:74-187, src/hkdf.rs:38-47, src/aes.rs:59-70, src/hotp.rs:39-47, src/fips/mod.rs:33-38 and the register
   functions of the asymmetric keys.  The order is irrelevant, the keys are distinct (checked in TableFacts.v). *)
Definition all_factories : factories :=
 [ ((CKO_DATA, 0), Factory FData CKO_DATA tab_data);
   ((CKO_CERTIFICATE, CKC_X_509), Factory FX509 CKO_CERTIFICATE tab_x509);
   ((CKO_SECRET_KEY, CKK_GENERIC_SECRET), Factory (FSecret 0) CKO_SECRET_KEY tab_generic);
   ((CKO_TRUST, 0), Factory FTrust CKO_TRUST tab_trust);
   ((CKO_NSS_TRUST, 0), Factory FNssTrust CKO_NSS_TRUST tab_nss_trust);
   ((CKO_PROFILE, 0), Factory FBuiltin CKO_PROFILE tab_profile);
   ((CKO_MECHANISM, 0), Factory FBuiltin CKO_MECHANISM tab_mechanism);
   ((CKO_VALIDATION, 0), Factory FBuiltin CKO_VALIDATION tab_validation);
   ((CKO_SECRET_KEY, CKK_SHA_1_HMAC), Factory (FSecret 20) CKO_SECRET_KEY tab_generic);
   ((CKO_SECRET_KEY, CKK_SHA224_HMAC), Factory (FSecret 28) CKO_SECRET_KEY tab_generic);
   ((CKO_SECRET_KEY, CKK_SHA256_HMAC), Factory (FSecret 32) CKO_SECRET_KEY tab_generic);
   ((CKO_SECRET_KEY, CKK_SHA384_HMAC), Factory (FSecret 48) CKO_SECRET_KEY tab_generic);
   ((CKO_SECRET_KEY, CKK_SHA512_HMAC), Factory (FSecret 64) CKO_SECRET_KEY tab_generic);
   ((CKO_SECRET_KEY, CKK_SHA3_224_HMAC), Factory (FSecret 28) CKO_SECRET_KEY tab_generic);
   ((CKO_SECRET_KEY, CKK_SHA3_256_HMAC), Factory (FSecret 32) CKO_SECRET_KEY tab_generic);
   ((CKO_SECRET_KEY, CKK_SHA3_384_HMAC), Factory (FSecret 48) CKO_SECRET_KEY tab_generic);
   ((CKO_SECRET_KEY, CKK_SHA3_512_HMAC), Factory (FSecret 64) CKO_SECRET_KEY tab_generic);
   ((CKO_SECRET_KEY, CKK_SHA512_224_HMAC), Factory (FSecret 28) CKO_SECRET_KEY tab_generic);
   ((CKO_SECRET_KEY, CKK_SHA512_256_HMAC), Factory (FSecret 32) CKO_SECRET_KEY tab_generic);
   ((CKO_SECRET_KEY, CKK_HKDF), Factory (FSecret 0) CKO_SECRET_KEY tab_generic);
   ((CKO_SECRET_KEY, CKK_AES), Factory FAes CKO_SECRET_KEY tab_aes);
   ((CKO_OTP_KEY, CKK_HOTP), Factory FHotp CKO_OTP_KEY tab_hotp);
   ((CKO_PUBLIC_KEY, CKK_RSA), Factory FPublic CKO_PUBLIC_KEY tab_rsa_pub);
   ((CKO_PRIVATE_KEY, CKK_RSA), Factory FPrivate CKO_PRIVATE_KEY tab_rsa_priv);
   ((CKO_PUBLIC_KEY, CKK_EC), Factory FPublic CKO_PUBLIC_KEY tab_ec_pub);
   ((CKO_PRIVATE_KEY, CKK_EC), Factory FPrivate CKO_PRIVATE_KEY tab_ec_priv);
   ((CKO_PUBLIC_KEY, CKK_EC_EDWARDS), Factory FPublic CKO_PUBLIC_KEY tab_eddsa_pub);
   ((CKO_PRIVATE_KEY, CKK_EC_EDWARDS), Factory FPrivate CKO_PRIVATE_KEY tab_eddsa_priv);
   ((CKO_PUBLIC_KEY, CKK_EC_MONTGOMERY), Factory FPublic CKO_PUBLIC_KEY tab_montgomery_pub);
   ((CKO_PRIVATE_KEY, CKK_EC_MONTGOMERY), Factory FPrivate CKO_PRIVATE_KEY tab_montgomery_priv);
   ((CKO_PUBLIC_KEY, CKK_DH), Factory FPublic CKO_PUBLIC_KEY tab_dh_pub);
   ((CKO_PRIVATE_KEY, CKK_DH), Factory FPrivate CKO_PRIVATE_KEY tab_dh_priv);
   ((CKO_PUBLIC_KEY, CKK_ML_DSA), Factory FPublic CKO_PUBLIC_KEY tab_mldsa_pub);
   ((CKO_PRIVATE_KEY, CKK_ML_DSA), Factory FPrivate CKO_PRIVATE_KEY tab_mldsa_priv);
   ((CKO_PUBLIC_KEY, CKK_ML_KEM), Factory FPublic CKO_PUBLIC_KEY tab_mlkem_pub);
   ((CKO_PRIVATE_KEY, CKK_ML_KEM), Factory FPrivate CKO_PRIVATE_KEY tab_mlkem_priv);
   ((CKO_PUBLIC_KEY, CKK_SLH_DSA), Factory FPublic CKO_PUBLIC_KEY tab_slhdsa_pub);
   ((CKO_PRIVATE_KEY, CKK_SLH_DSA), Factory FPrivate CKO_PRIVATE_KEY tab_slhdsa_priv) ].
