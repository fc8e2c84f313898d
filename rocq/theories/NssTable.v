(* The table of attributes an NSS database knows: src/storage/nssdb/attrs.rs.  Generated from that file by a script; the
   constants private to it (lines 12-63) are written as numbers. *)
From Verif Require Import Base.

(* The macros nssattrinfo_*!, src/storage/nssdb/attrs.rs:66-171: each sets a different combination of the flags of
   NssAttributeInfo. *)
Inductive nclass := NRegular | NAuth | NSens | NMasked | NSkip | NDepr | NAuthMasked.
Definition nc_authenticated (c : nclass) : bool := match c with NAuth | NAuthMasked => true | _ => false end.
Definition nc_sensitive (c : nclass) : bool := match c with NSens => true | _ => false end.
Definition nc_masked (c : nclass) : bool := match c with NMasked | NAuthMasked => true | _ => false end.
Definition nc_skippable (c : nclass) : bool := match c with NSkip => true | _ => false end.
Definition nc_deprecated (c : nclass) : bool := match c with NDepr => true | _ => false end.

(* ALL_ATTRIBUTES, src/storage/nssdb/attrs.rs:174-369, in source order. *)
Definition all_attributes : list (N * nclass) :=
  [
   (CKA_CLASS, NRegular); (* attrs.rs:175 *)
   (CKA_TOKEN, NRegular); (* attrs.rs:176 *)
   (CKA_PRIVATE, NRegular); (* attrs.rs:177 *)
   (CKA_LABEL, NRegular); (* attrs.rs:178 *)
   (CKA_UNIQUE_ID, NRegular); (* attrs.rs:179 *)
   (CKA_APPLICATION, NRegular); (* attrs.rs:180 *)
   (CKA_VALUE, NSens); (* attrs.rs:181 *)
   (CKA_OBJECT_ID, NRegular); (* attrs.rs:182 *)
   (CKA_CERTIFICATE_TYPE, NRegular); (* attrs.rs:183 *)
   (CKA_ISSUER, NRegular); (* attrs.rs:184 *)
   (CKA_SERIAL_NUMBER, NRegular); (* attrs.rs:185 *)
   (CKA_AC_ISSUER, NRegular); (* attrs.rs:186 *)
   (CKA_OWNER, NRegular); (* attrs.rs:187 *)
   (CKA_ATTR_TYPES, NRegular); (* attrs.rs:188 *)
   (CKA_TRUSTED, NRegular); (* attrs.rs:189 *)
   (CKA_CERTIFICATE_CATEGORY, NRegular); (* attrs.rs:190 *)
   (CKA_JAVA_MIDP_SECURITY_DOMAIN, NRegular); (* attrs.rs:191 *)
   (CKA_URL, NRegular); (* attrs.rs:192 *)
   (CKA_HASH_OF_SUBJECT_PUBLIC_KEY, NRegular); (* attrs.rs:193 *)
   (CKA_HASH_OF_ISSUER_PUBLIC_KEY, NRegular); (* attrs.rs:194 *)
   (CKA_NAME_HASH_ALGORITHM, NAuth); (* attrs.rs:195 *)
   (CKA_CHECK_VALUE, NRegular); (* attrs.rs:196 *)
   (CKA_KEY_TYPE, NRegular); (* attrs.rs:197 *)
   (CKA_SUBJECT, NRegular); (* attrs.rs:198 *)
   (CKA_ID, NRegular); (* attrs.rs:199 *)
   (CKA_SENSITIVE, NRegular); (* attrs.rs:200 *)
   (CKA_ENCRYPT, NRegular); (* attrs.rs:201 *)
   (CKA_DECRYPT, NRegular); (* attrs.rs:202 *)
   (CKA_WRAP, NRegular); (* attrs.rs:203 *)
   (CKA_UNWRAP, NRegular); (* attrs.rs:204 *)
   (CKA_SIGN, NRegular); (* attrs.rs:205 *)
   (CKA_SIGN_RECOVER, NRegular); (* attrs.rs:206 *)
   (CKA_VERIFY, NRegular); (* attrs.rs:207 *)
   (CKA_VERIFY_RECOVER, NRegular); (* attrs.rs:208 *)
   (CKA_DERIVE, NRegular); (* attrs.rs:209 *)
   (CKA_START_DATE, NRegular); (* attrs.rs:210 *)
   (CKA_END_DATE, NRegular); (* attrs.rs:211 *)
   (CKA_MODULUS, NAuth); (* attrs.rs:212 *)
   (CKA_MODULUS_BITS, NRegular); (* attrs.rs:213 *)
   (CKA_PUBLIC_EXPONENT, NAuth); (* attrs.rs:214 *)
   (CKA_PRIVATE_EXPONENT, NSens); (* attrs.rs:215 *)
   (CKA_PRIME_1, NSens); (* attrs.rs:216 *)
   (CKA_PRIME_2, NSens); (* attrs.rs:217 *)
   (CKA_EXPONENT_1, NSens); (* attrs.rs:218 *)
   (CKA_EXPONENT_2, NSens); (* attrs.rs:219 *)
   (CKA_COEFFICIENT, NSens); (* attrs.rs:220 *)
   (CKA_PUBLIC_KEY_INFO, NRegular); (* attrs.rs:221 *)
   (CKA_PRIME, NRegular); (* attrs.rs:222 *)
   (CKA_SUBPRIME, NRegular); (* attrs.rs:223 *)
   (CKA_BASE, NRegular); (* attrs.rs:224 *)
   (CKA_PRIME_BITS, NRegular); (* attrs.rs:225 *)
   (CKA_SUB_PRIME_BITS, NRegular); (* attrs.rs:226 *)
   (CKA_VALUE_BITS, NRegular); (* attrs.rs:227 *)
   (CKA_VALUE_LEN, NRegular); (* attrs.rs:228 *)
   (CKA_EXTRACTABLE, NRegular); (* attrs.rs:229 *)
   (CKA_LOCAL, NRegular); (* attrs.rs:230 *)
   (CKA_NEVER_EXTRACTABLE, NRegular); (* attrs.rs:231 *)
   (CKA_ALWAYS_SENSITIVE, NRegular); (* attrs.rs:232 *)
   (CKA_KEY_GEN_MECHANISM, NRegular); (* attrs.rs:233 *)
   (CKA_MODIFIABLE, NRegular); (* attrs.rs:234 *)
   (CKA_COPYABLE, NRegular); (* attrs.rs:235 *)
   (CKA_DESTROYABLE, NRegular); (* attrs.rs:236 *)
   (CKA_EC_PARAMS, NRegular); (* attrs.rs:237 *)
   (CKA_EC_POINT, NRegular); (* attrs.rs:238 *)
   (0x200, NDepr); (* DEPRECATED_CKA_SECONDARY_AUTH:239 *)
   (0x201, NDepr); (* DEPRECATED_CKA_AUTH_PIN_FLAGS:240 *)
   (CKA_ALWAYS_AUTHENTICATE, NRegular); (* attrs.rs:241 *)
   (CKA_WRAP_WITH_TRUSTED, NRegular); (* attrs.rs:242 *)
   (CKA_WRAP_TEMPLATE, NRegular); (* attrs.rs:243 *)
   (CKA_UNWRAP_TEMPLATE, NRegular); (* attrs.rs:244 *)
   (CKA_DERIVE_TEMPLATE, NRegular); (* attrs.rs:245 *)
   (CKA_OTP_FORMAT, NRegular); (* attrs.rs:246 *)
   (CKA_OTP_LENGTH, NRegular); (* attrs.rs:247 *)
   (CKA_OTP_TIME_INTERVAL, NRegular); (* attrs.rs:248 *)
   (CKA_OTP_USER_FRIENDLY_MODE, NRegular); (* attrs.rs:249 *)
   (CKA_OTP_CHALLENGE_REQUIREMENT, NRegular); (* attrs.rs:250 *)
   (CKA_OTP_TIME_REQUIREMENT, NRegular); (* attrs.rs:251 *)
   (CKA_OTP_COUNTER_REQUIREMENT, NRegular); (* attrs.rs:252 *)
   (CKA_OTP_PIN_REQUIREMENT, NRegular); (* attrs.rs:253 *)
   (CKA_OTP_COUNTER, NRegular); (* attrs.rs:254 *)
   (CKA_OTP_TIME, NRegular); (* attrs.rs:255 *)
   (CKA_OTP_USER_IDENTIFIER, NRegular); (* attrs.rs:256 *)
   (CKA_OTP_SERVICE_IDENTIFIER, NRegular); (* attrs.rs:257 *)
   (CKA_OTP_SERVICE_LOGO, NRegular); (* attrs.rs:258 *)
   (CKA_OTP_SERVICE_LOGO_TYPE, NRegular); (* attrs.rs:259 *)
   (CKA_GOSTR3410_PARAMS, NRegular); (* attrs.rs:260 *)
   (CKA_GOSTR3411_PARAMS, NRegular); (* attrs.rs:261 *)
   (CKA_GOST28147_PARAMS, NRegular); (* attrs.rs:262 *)
   (CKA_HW_FEATURE_TYPE, NRegular); (* attrs.rs:263 *)
   (CKA_RESET_ON_INIT, NRegular); (* attrs.rs:264 *)
   (CKA_HAS_RESET, NRegular); (* attrs.rs:265 *)
   (CKA_PIXEL_X, NRegular); (* attrs.rs:266 *)
   (CKA_PIXEL_Y, NRegular); (* attrs.rs:267 *)
   (CKA_RESOLUTION, NRegular); (* attrs.rs:268 *)
   (CKA_CHAR_ROWS, NRegular); (* attrs.rs:269 *)
   (CKA_CHAR_COLUMNS, NRegular); (* attrs.rs:270 *)
   (CKA_COLOR, NRegular); (* attrs.rs:271 *)
   (CKA_BITS_PER_PIXEL, NRegular); (* attrs.rs:272 *)
   (CKA_CHAR_SETS, NRegular); (* attrs.rs:273 *)
   (CKA_ENCODING_METHODS, NRegular); (* attrs.rs:274 *)
   (CKA_MIME_TYPES, NRegular); (* attrs.rs:275 *)
   (CKA_MECHANISM_TYPE, NRegular); (* attrs.rs:276 *)
   (CKA_REQUIRED_CMS_ATTRIBUTES, NRegular); (* attrs.rs:277 *)
   (CKA_DEFAULT_CMS_ATTRIBUTES, NRegular); (* attrs.rs:278 *)
   (CKA_SUPPORTED_CMS_ATTRIBUTES, NRegular); (* attrs.rs:279 *)
   (CKA_PROFILE_ID, NRegular); (* attrs.rs:280 *)
   (CKA_X2RATCHET_BAG, NRegular); (* attrs.rs:281 *)
   (CKA_X2RATCHET_BAGSIZE, NRegular); (* attrs.rs:282 *)
   (CKA_X2RATCHET_BOBS1STMSG, NRegular); (* attrs.rs:283 *)
   (CKA_X2RATCHET_CKR, NRegular); (* attrs.rs:284 *)
   (CKA_X2RATCHET_CKS, NRegular); (* attrs.rs:285 *)
   (CKA_X2RATCHET_DHP, NRegular); (* attrs.rs:286 *)
   (CKA_X2RATCHET_DHR, NRegular); (* attrs.rs:287 *)
   (CKA_X2RATCHET_DHS, NRegular); (* attrs.rs:288 *)
   (CKA_X2RATCHET_HKR, NRegular); (* attrs.rs:289 *)
   (CKA_X2RATCHET_HKS, NRegular); (* attrs.rs:290 *)
   (CKA_X2RATCHET_ISALICE, NRegular); (* attrs.rs:291 *)
   (CKA_X2RATCHET_NHKR, NRegular); (* attrs.rs:292 *)
   (CKA_X2RATCHET_NHKS, NRegular); (* attrs.rs:293 *)
   (CKA_X2RATCHET_NR, NRegular); (* attrs.rs:294 *)
   (CKA_X2RATCHET_NS, NRegular); (* attrs.rs:295 *)
   (CKA_X2RATCHET_PNS, NRegular); (* attrs.rs:296 *)
   (CKA_X2RATCHET_RK, NRegular); (* attrs.rs:297 *)
   (CKA_HSS_LEVELS, NRegular); (* attrs.rs:298 *)
   (CKA_HSS_LMS_TYPE, NRegular); (* attrs.rs:299 *)
   (CKA_HSS_LMOTS_TYPE, NRegular); (* attrs.rs:300 *)
   (CKA_HSS_LMS_TYPES, NRegular); (* attrs.rs:301 *)
   (CKA_HSS_LMOTS_TYPES, NRegular); (* attrs.rs:302 *)
   (CKA_HSS_KEYS_REMAINING, NRegular); (* attrs.rs:303 *)
   (CKA_OBJECT_VALIDATION_FLAGS, NRegular); (* attrs.rs:304 *)
   (CKA_PARAMETER_SET, NRegular); (* attrs.rs:305 *)
   (CKA_VALIDATION_TYPE, NRegular); (* attrs.rs:306 *)
   (CKA_VALIDATION_VERSION, NRegular); (* attrs.rs:307 *)
   (CKA_VALIDATION_LEVEL, NRegular); (* attrs.rs:308 *)
   (CKA_VALIDATION_MODULE_ID, NRegular); (* attrs.rs:309 *)
   (CKA_VALIDATION_FLAG, NRegular); (* attrs.rs:310 *)
   (CKA_VALIDATION_AUTHORITY_TYPE, NRegular); (* attrs.rs:311 *)
   (CKA_VALIDATION_COUNTRY, NRegular); (* attrs.rs:312 *)
   (CKA_VALIDATION_CERTIFICATE_IDENTIFIER, NRegular); (* attrs.rs:313 *)
   (CKA_VALIDATION_CERTIFICATE_URI, NRegular); (* attrs.rs:314 *)
   (CKA_VALIDATION_PROFILE, NRegular); (* attrs.rs:315 *)
   (CKA_VALIDATION_VENDOR_URI, NRegular); (* attrs.rs:316 *)
   (CKA_ENCAPSULATE_TEMPLATE, NRegular); (* attrs.rs:317 *)
   (CKA_DECAPSULATE_TEMPLATE, NRegular); (* attrs.rs:318 *)
   (CKA_TRUST_SERVER_AUTH, NAuth); (* attrs.rs:319 *)
   (CKA_TRUST_CLIENT_AUTH, NAuth); (* attrs.rs:320 *)
   (CKA_TRUST_CODE_SIGNING, NAuth); (* attrs.rs:321 *)
   (CKA_TRUST_EMAIL_PROTECTION, NAuth); (* attrs.rs:322 *)
   (CKA_TRUST_IPSEC_IKE, NAuth); (* attrs.rs:323 *)
   (CKA_TRUST_TIME_STAMPING, NAuth); (* attrs.rs:324 *)
   (CKA_TRUST_OCSP_SIGNING, NAuth); (* attrs.rs:325 *)
   (CKA_ENCAPSULATE, NRegular); (* attrs.rs:326 *)
   (CKA_DECAPSULATE, NRegular); (* attrs.rs:327 *)
   (CKA_HASH_OF_CERTIFICATE, NAuth); (* attrs.rs:328 *)
   (CKA_PUBLIC_CRC64_VALUE, NRegular); (* attrs.rs:329 *)
   (CKA_SEED, NSens); (* attrs.rs:330 *)
   (0x80000001, NMasked); (* CKA_NSS_TRUST:331 *)
   (0xce534351, NMasked); (* CKA_NSS_URL:332 *)
   (0xce534352, NMasked); (* CKA_NSS_EMAIL:333 *)
   (0xce534353, NMasked); (* CKA_NSS_SMIME_INFO:334 *)
   (0xce534354, NMasked); (* CKA_NSS_SMIME_TIMESTAMP:335 *)
   (0xce534355, NMasked); (* CKA_NSS_PKCS8_SALT:336 *)
   (0xce534356, NMasked); (* CKA_NSS_PASSWORD_CHECK:337 *)
   (0xce534357, NMasked); (* CKA_NSS_EXPIRES:338 *)
   (0xce534358, NMasked); (* CKA_NSS_KRL:339 *)
   (0xce534364, NMasked); (* CKA_NSS_PQG_COUNTER:340 *)
   (0xce534365, NMasked); (* CKA_NSS_PQG_SEED:341 *)
   (0xce534366, NMasked); (* CKA_NSS_PQG_H:342 *)
   (0xce534367, NMasked); (* CKA_NSS_PQG_SEED_BITS:343 *)
   (0xce534368, NMasked); (* CKA_NSS_MODULE_SPEC:344 *)
   (0xce534369, NAuthMasked); (* CKA_NSS_OVERRIDE_EXTENSIONS:345 *)
   (0xce534373, NMasked); (* CKA_NSS_SERVER_DISTRUST_AFTER:346 *)
   (0xce534374, NMasked); (* CKA_NSS_EMAIL_DISTRUST_AFTER:347 *)
   (0xce536351, NMasked); (* CKA_NSS_TRUST_DIGITAL_SIGNATURE:348 *)
   (0xce536352, NMasked); (* CKA_NSS_TRUST_NON_REPUDIATION:349 *)
   (0xce536353, NMasked); (* CKA_NSS_TRUST_KEY_ENCIPHERMENT:350 *)
   (0xce536354, NMasked); (* CKA_NSS_TRUST_DATA_ENCIPHERMENT:351 *)
   (0xce536355, NMasked); (* CKA_NSS_TRUST_KEY_AGREEMENT:352 *)
   (0xce536356, NMasked); (* CKA_NSS_TRUST_KEY_CERT_SIGN:353 *)
   (0xce536357, NMasked); (* CKA_NSS_TRUST_CRL_SIGN:354 *)
   (0xce536358, NAuth); (* CKA_NSS_TRUST_SERVER_AUTH:355 *)
   (0xce536359, NAuth); (* CKA_NSS_TRUST_CLIENT_AUTH:356 *)
   (0xce53635a, NAuth); (* CKA_NSS_TRUST_CODE_SIGNING:357 *)
   (0xce53635b, NAuth); (* CKA_NSS_TRUST_EMAIL_PROTECTION:358 *)
   (0xce53635c, NMasked); (* CKA_NSS_TRUST_IPSEC_END_SYSTEM:359 *)
   (0xce53635d, NMasked); (* CKA_NSS_TRUST_IPSEC_TUNNEL:360 *)
   (0xce53635e, NMasked); (* CKA_NSS_TRUST_IPSEC_USER:361 *)
   (0xce53635f, NMasked); (* CKA_NSS_TRUST_TIME_STAMPING:362 *)
   (0xce536360, NAuth); (* CKA_NSS_TRUST_STEP_UP_APPROVED:363 *)
   (0xce5363b4, NAuth); (* CKA_NSS_CERT_SHA1_HASH:364 *)
   (0xce5363b5, NAuth); (* CKA_NSS_CERT_MD5_HASH:365 *)
   (0xd5a0db00, NMasked); (* CKA_NSS_DB:366 *)
   (CKA_ALLOWED_MECHANISMS, NSkip) (* attrs.rs:368 *)
  ].
