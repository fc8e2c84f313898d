(* GENERATED from /repo/src/pkcs11/headers/3.2/pkcs11.h (constants used by the bindings included at
   src/pkcs11/mod.rs:15) and src/pkcs11/vendor.rs; each line cites its source line. CK_ULONG is 64 bit. *)
Require Import NArith.
Local Open Scope N_scope.

Definition CK_EFFECTIVELY_INFINITE : N := 0x0. (* pkcs11.h:28 *)
Definition CK_INVALID_HANDLE : N := 0x0. (* pkcs11.h:30 *)
Definition CK_TRUE : N := 0x1. (* pkcs11.h:31 *)
Definition CK_FALSE : N := 0x0. (* pkcs11.h:32 *)
Definition CK_CERTIFICATE_CATEGORY_UNSPECIFIED : N := 0x0. (* pkcs11.h:89 *)
Definition CK_CERTIFICATE_CATEGORY_TOKEN_USER : N := 0x1. (* pkcs11.h:90 *)
Definition CK_CERTIFICATE_CATEGORY_AUTHORITY : N := 0x2. (* pkcs11.h:91 *)
Definition CK_CERTIFICATE_CATEGORY_OTHER_ENTITY : N := 0x3. (* pkcs11.h:92 *)
Definition CK_OTP_VALUE : N := 0x0. (* pkcs11.h:95 *)
Definition CK_OTP_PIN : N := 0x1. (* pkcs11.h:96 *)
Definition CK_OTP_CHALLENGE : N := 0x2. (* pkcs11.h:97 *)
Definition CK_OTP_TIME : N := 0x3. (* pkcs11.h:98 *)
Definition CK_OTP_COUNTER : N := 0x4. (* pkcs11.h:99 *)
Definition CK_OTP_FLAGS : N := 0x5. (* pkcs11.h:100 *)
Definition CK_OTP_OUTPUT_LENGTH : N := 0x6. (* pkcs11.h:101 *)
Definition CK_OTP_OUTPUT_FORMAT : N := 0x7. (* pkcs11.h:102 *)
Definition CK_OTP_FORMAT_DECIMAL : N := 0x0. (* pkcs11.h:105 *)
Definition CK_OTP_FORMAT_HEXADECIMAL : N := 0x1. (* pkcs11.h:106 *)
Definition CK_OTP_FORMAT_ALPHANUMERIC : N := 0x2. (* pkcs11.h:107 *)
Definition CK_OTP_FORMAT_BINARY : N := 0x3. (* pkcs11.h:108 *)
Definition CK_OTP_PARAM_IGNORED : N := 0x0. (* pkcs11.h:111 *)
Definition CK_OTP_PARAM_OPTIONAL : N := 0x1. (* pkcs11.h:112 *)
Definition CK_OTP_PARAM_MANDATORY : N := 0x2. (* pkcs11.h:113 *)
Definition CK_SECURITY_DOMAIN_UNSPECIFIED : N := 0x0. (* pkcs11.h:116 *)
Definition CK_SECURITY_DOMAIN_MANUFACTURER : N := 0x1. (* pkcs11.h:117 *)
Definition CK_SECURITY_DOMAIN_OPERATOR : N := 0x2. (* pkcs11.h:118 *)
Definition CK_SECURITY_DOMAIN_THIRD_PARTY : N := 0x3. (* pkcs11.h:119 *)
Definition CK_SP800_108_ITERATION_VARIABLE : N := 0x1. (* pkcs11.h:122 *)
Definition CK_SP800_108_OPTIONAL_COUNTER : N := 0x2. (* pkcs11.h:123 *)
Definition CK_SP800_108_COUNTER : N := 0x2. (* pkcs11.h:124 *)
Definition CK_SP800_108_DKM_LENGTH : N := 0x3. (* pkcs11.h:125 *)
Definition CK_SP800_108_BYTE_ARRAY : N := 0x4. (* pkcs11.h:126 *)
Definition CK_SP800_108_KEY_HANDLE : N := 0x5. (* pkcs11.h:127 *)
Definition CK_SP800_108_DKM_LENGTH_SUM_OF_KEYS : N := 0x1. (* pkcs11.h:130 *)
Definition CK_SP800_108_DKM_LENGTH_SUM_OF_SEGMENTS : N := 0x2. (* pkcs11.h:131 *)
Definition CKA_CLASS : N := 0x0. (* pkcs11.h:134 *)
Definition CKA_TOKEN : N := 0x1. (* pkcs11.h:135 *)
Definition CKA_PRIVATE : N := 0x2. (* pkcs11.h:136 *)
Definition CKA_LABEL : N := 0x3. (* pkcs11.h:137 *)
Definition CKA_UNIQUE_ID : N := 0x4. (* pkcs11.h:138 *)
Definition CKA_APPLICATION : N := 0x10. (* pkcs11.h:139 *)
Definition CKA_VALUE : N := 0x11. (* pkcs11.h:140 *)
Definition CKA_OBJECT_ID : N := 0x12. (* pkcs11.h:141 *)
Definition CKA_CERTIFICATE_TYPE : N := 0x80. (* pkcs11.h:142 *)
Definition CKA_ISSUER : N := 0x81. (* pkcs11.h:143 *)
Definition CKA_SERIAL_NUMBER : N := 0x82. (* pkcs11.h:144 *)
Definition CKA_AC_ISSUER : N := 0x83. (* pkcs11.h:145 *)
Definition CKA_OWNER : N := 0x84. (* pkcs11.h:146 *)
Definition CKA_ATTR_TYPES : N := 0x85. (* pkcs11.h:147 *)
Definition CKA_TRUSTED : N := 0x86. (* pkcs11.h:148 *)
Definition CKA_CERTIFICATE_CATEGORY : N := 0x87. (* pkcs11.h:149 *)
Definition CKA_JAVA_MIDP_SECURITY_DOMAIN : N := 0x88. (* pkcs11.h:150 *)
Definition CKA_URL : N := 0x89. (* pkcs11.h:151 *)
Definition CKA_HASH_OF_SUBJECT_PUBLIC_KEY : N := 0x8a. (* pkcs11.h:152 *)
Definition CKA_HASH_OF_ISSUER_PUBLIC_KEY : N := 0x8b. (* pkcs11.h:153 *)
Definition CKA_NAME_HASH_ALGORITHM : N := 0x8c. (* pkcs11.h:154 *)
Definition CKA_CHECK_VALUE : N := 0x90. (* pkcs11.h:155 *)
Definition CKA_KEY_TYPE : N := 0x100. (* pkcs11.h:156 *)
Definition CKA_SUBJECT : N := 0x101. (* pkcs11.h:157 *)
Definition CKA_ID : N := 0x102. (* pkcs11.h:158 *)
Definition CKA_SENSITIVE : N := 0x103. (* pkcs11.h:159 *)
Definition CKA_ENCRYPT : N := 0x104. (* pkcs11.h:160 *)
Definition CKA_DECRYPT : N := 0x105. (* pkcs11.h:161 *)
Definition CKA_WRAP : N := 0x106. (* pkcs11.h:162 *)
Definition CKA_UNWRAP : N := 0x107. (* pkcs11.h:163 *)
Definition CKA_SIGN : N := 0x108. (* pkcs11.h:164 *)
Definition CKA_SIGN_RECOVER : N := 0x109. (* pkcs11.h:165 *)
Definition CKA_VERIFY : N := 0x10a. (* pkcs11.h:166 *)
Definition CKA_VERIFY_RECOVER : N := 0x10b. (* pkcs11.h:167 *)
Definition CKA_DERIVE : N := 0x10c. (* pkcs11.h:168 *)
Definition CKA_START_DATE : N := 0x110. (* pkcs11.h:169 *)
Definition CKA_END_DATE : N := 0x111. (* pkcs11.h:170 *)
Definition CKA_MODULUS : N := 0x120. (* pkcs11.h:171 *)
Definition CKA_MODULUS_BITS : N := 0x121. (* pkcs11.h:172 *)
Definition CKA_PUBLIC_EXPONENT : N := 0x122. (* pkcs11.h:173 *)
Definition CKA_PRIVATE_EXPONENT : N := 0x123. (* pkcs11.h:174 *)
Definition CKA_PRIME_1 : N := 0x124. (* pkcs11.h:175 *)
Definition CKA_PRIME_2 : N := 0x125. (* pkcs11.h:176 *)
Definition CKA_EXPONENT_1 : N := 0x126. (* pkcs11.h:177 *)
Definition CKA_EXPONENT_2 : N := 0x127. (* pkcs11.h:178 *)
Definition CKA_COEFFICIENT : N := 0x128. (* pkcs11.h:179 *)
Definition CKA_PUBLIC_KEY_INFO : N := 0x129. (* pkcs11.h:180 *)
Definition CKA_PRIME : N := 0x130. (* pkcs11.h:181 *)
Definition CKA_SUBPRIME : N := 0x131. (* pkcs11.h:182 *)
Definition CKA_BASE : N := 0x132. (* pkcs11.h:183 *)
Definition CKA_PRIME_BITS : N := 0x133. (* pkcs11.h:184 *)
Definition CKA_SUBPRIME_BITS : N := 0x134. (* pkcs11.h:185 *)
Definition CKA_SUB_PRIME_BITS : N := 0x134. (* pkcs11.h:186 *)
Definition CKA_VALUE_BITS : N := 0x160. (* pkcs11.h:187 *)
Definition CKA_VALUE_LEN : N := 0x161. (* pkcs11.h:188 *)
Definition CKA_EXTRACTABLE : N := 0x162. (* pkcs11.h:189 *)
Definition CKA_LOCAL : N := 0x163. (* pkcs11.h:190 *)
Definition CKA_NEVER_EXTRACTABLE : N := 0x164. (* pkcs11.h:191 *)
Definition CKA_ALWAYS_SENSITIVE : N := 0x165. (* pkcs11.h:192 *)
Definition CKA_KEY_GEN_MECHANISM : N := 0x166. (* pkcs11.h:193 *)
Definition CKA_MODIFIABLE : N := 0x170. (* pkcs11.h:194 *)
Definition CKA_COPYABLE : N := 0x171. (* pkcs11.h:195 *)
Definition CKA_DESTROYABLE : N := 0x172. (* pkcs11.h:196 *)
Definition CKA_EC_PARAMS : N := 0x180. (* pkcs11.h:197 *)
Definition CKA_EC_POINT : N := 0x181. (* pkcs11.h:198 *)
Definition CKA_ALWAYS_AUTHENTICATE : N := 0x202. (* pkcs11.h:199 *)
Definition CKA_WRAP_WITH_TRUSTED : N := 0x210. (* pkcs11.h:200 *)
Definition CKA_OTP_FORMAT : N := 0x220. (* pkcs11.h:201 *)
Definition CKA_OTP_LENGTH : N := 0x221. (* pkcs11.h:202 *)
Definition CKA_OTP_TIME_INTERVAL : N := 0x222. (* pkcs11.h:203 *)
Definition CKA_OTP_USER_FRIENDLY_MODE : N := 0x223. (* pkcs11.h:204 *)
Definition CKA_OTP_CHALLENGE_REQUIREMENT : N := 0x224. (* pkcs11.h:205 *)
Definition CKA_OTP_TIME_REQUIREMENT : N := 0x225. (* pkcs11.h:206 *)
Definition CKA_OTP_COUNTER_REQUIREMENT : N := 0x226. (* pkcs11.h:207 *)
Definition CKA_OTP_PIN_REQUIREMENT : N := 0x227. (* pkcs11.h:208 *)
Definition CKA_OTP_COUNTER : N := 0x22e. (* pkcs11.h:209 *)
Definition CKA_OTP_TIME : N := 0x22f. (* pkcs11.h:210 *)
Definition CKA_OTP_USER_IDENTIFIER : N := 0x22a. (* pkcs11.h:211 *)
Definition CKA_OTP_SERVICE_IDENTIFIER : N := 0x22b. (* pkcs11.h:212 *)
Definition CKA_OTP_SERVICE_LOGO : N := 0x22c. (* pkcs11.h:213 *)
Definition CKA_OTP_SERVICE_LOGO_TYPE : N := 0x22d. (* pkcs11.h:214 *)
Definition CKA_GOSTR3410_PARAMS : N := 0x250. (* pkcs11.h:215 *)
Definition CKA_GOSTR3411_PARAMS : N := 0x251. (* pkcs11.h:216 *)
Definition CKA_GOST28147_PARAMS : N := 0x252. (* pkcs11.h:217 *)
Definition CKA_HW_FEATURE_TYPE : N := 0x300. (* pkcs11.h:218 *)
Definition CKA_RESET_ON_INIT : N := 0x301. (* pkcs11.h:219 *)
Definition CKA_HAS_RESET : N := 0x302. (* pkcs11.h:220 *)
Definition CKA_PIXEL_X : N := 0x400. (* pkcs11.h:221 *)
Definition CKA_PIXEL_Y : N := 0x401. (* pkcs11.h:222 *)
Definition CKA_RESOLUTION : N := 0x402. (* pkcs11.h:223 *)
Definition CKA_CHAR_ROWS : N := 0x403. (* pkcs11.h:224 *)
Definition CKA_CHAR_COLUMNS : N := 0x404. (* pkcs11.h:225 *)
Definition CKA_COLOR : N := 0x405. (* pkcs11.h:226 *)
Definition CKA_BITS_PER_PIXEL : N := 0x406. (* pkcs11.h:227 *)
Definition CKA_CHAR_SETS : N := 0x480. (* pkcs11.h:228 *)
Definition CKA_ENCODING_METHODS : N := 0x481. (* pkcs11.h:229 *)
Definition CKA_MIME_TYPES : N := 0x482. (* pkcs11.h:230 *)
Definition CKA_MECHANISM_TYPE : N := 0x500. (* pkcs11.h:231 *)
Definition CKA_REQUIRED_CMS_ATTRIBUTES : N := 0x501. (* pkcs11.h:232 *)
Definition CKA_DEFAULT_CMS_ATTRIBUTES : N := 0x502. (* pkcs11.h:233 *)
Definition CKA_SUPPORTED_CMS_ATTRIBUTES : N := 0x503. (* pkcs11.h:234 *)
Definition CKA_PROFILE_ID : N := 0x601. (* pkcs11.h:235 *)
Definition CKA_X2RATCHET_BAG : N := 0x602. (* pkcs11.h:236 *)
Definition CKA_X2RATCHET_BAGSIZE : N := 0x603. (* pkcs11.h:237 *)
Definition CKA_X2RATCHET_BOBS1STMSG : N := 0x604. (* pkcs11.h:238 *)
Definition CKA_X2RATCHET_CKR : N := 0x605. (* pkcs11.h:239 *)
Definition CKA_X2RATCHET_CKS : N := 0x606. (* pkcs11.h:240 *)
Definition CKA_X2RATCHET_DHP : N := 0x607. (* pkcs11.h:241 *)
Definition CKA_X2RATCHET_DHR : N := 0x608. (* pkcs11.h:242 *)
Definition CKA_X2RATCHET_DHS : N := 0x609. (* pkcs11.h:243 *)
Definition CKA_X2RATCHET_HKR : N := 0x60a. (* pkcs11.h:244 *)
Definition CKA_X2RATCHET_HKS : N := 0x60b. (* pkcs11.h:245 *)
Definition CKA_X2RATCHET_ISALICE : N := 0x60c. (* pkcs11.h:246 *)
Definition CKA_X2RATCHET_NHKR : N := 0x60d. (* pkcs11.h:247 *)
Definition CKA_X2RATCHET_NHKS : N := 0x60e. (* pkcs11.h:248 *)
Definition CKA_X2RATCHET_NR : N := 0x60f. (* pkcs11.h:249 *)
Definition CKA_X2RATCHET_NS : N := 0x610. (* pkcs11.h:250 *)
Definition CKA_X2RATCHET_PNS : N := 0x611. (* pkcs11.h:251 *)
Definition CKA_X2RATCHET_RK : N := 0x612. (* pkcs11.h:252 *)
Definition CKA_HSS_LEVELS : N := 0x617. (* pkcs11.h:253 *)
Definition CKA_HSS_LMS_TYPE : N := 0x618. (* pkcs11.h:254 *)
Definition CKA_HSS_LMOTS_TYPE : N := 0x619. (* pkcs11.h:255 *)
Definition CKA_HSS_LMS_TYPES : N := 0x61a. (* pkcs11.h:256 *)
Definition CKA_HSS_LMOTS_TYPES : N := 0x61b. (* pkcs11.h:257 *)
Definition CKA_HSS_KEYS_REMAINING : N := 0x61c. (* pkcs11.h:258 *)
Definition CKA_PARAMETER_SET : N := 0x61d. (* pkcs11.h:259 *)
Definition CKA_OBJECT_VALIDATION_FLAGS : N := 0x61e. (* pkcs11.h:260 *)
Definition CKA_VALIDATION_TYPE : N := 0x61f. (* pkcs11.h:261 *)
Definition CKA_VALIDATION_VERSION : N := 0x620. (* pkcs11.h:262 *)
Definition CKA_VALIDATION_LEVEL : N := 0x621. (* pkcs11.h:263 *)
Definition CKA_VALIDATION_MODULE_ID : N := 0x622. (* pkcs11.h:264 *)
Definition CKA_VALIDATION_FLAG : N := 0x623. (* pkcs11.h:265 *)
Definition CKA_VALIDATION_AUTHORITY_TYPE : N := 0x624. (* pkcs11.h:266 *)
Definition CKA_VALIDATION_COUNTRY : N := 0x625. (* pkcs11.h:267 *)
Definition CKA_VALIDATION_CERTIFICATE_IDENTIFIER : N := 0x626. (* pkcs11.h:268 *)
Definition CKA_VALIDATION_CERTIFICATE_URI : N := 0x627. (* pkcs11.h:269 *)
Definition CKA_VALIDATION_VENDOR_URI : N := 0x628. (* pkcs11.h:270 *)
Definition CKA_VALIDATION_PROFILE : N := 0x629. (* pkcs11.h:271 *)
Definition CKA_ENCAPSULATE_TEMPLATE : N := 0x62a. (* pkcs11.h:272 *)
Definition CKA_DECAPSULATE_TEMPLATE : N := 0x62b. (* pkcs11.h:273 *)
Definition CKA_TRUST_SERVER_AUTH : N := 0x62c. (* pkcs11.h:274 *)
Definition CKA_TRUST_CLIENT_AUTH : N := 0x62d. (* pkcs11.h:275 *)
Definition CKA_TRUST_CODE_SIGNING : N := 0x62e. (* pkcs11.h:276 *)
Definition CKA_TRUST_EMAIL_PROTECTION : N := 0x62f. (* pkcs11.h:277 *)
Definition CKA_TRUST_IPSEC_IKE : N := 0x630. (* pkcs11.h:278 *)
Definition CKA_TRUST_TIME_STAMPING : N := 0x631. (* pkcs11.h:279 *)
Definition CKA_TRUST_OCSP_SIGNING : N := 0x632. (* pkcs11.h:280 *)
Definition CKA_ENCAPSULATE : N := 0x633. (* pkcs11.h:281 *)
Definition CKA_DECAPSULATE : N := 0x634. (* pkcs11.h:282 *)
Definition CKA_HASH_OF_CERTIFICATE : N := 0x635. (* pkcs11.h:283 *)
Definition CKA_PUBLIC_CRC64_VALUE : N := 0x636. (* pkcs11.h:284 *)
Definition CKA_SEED : N := 0x637. (* pkcs11.h:285 *)
Definition CKA_VENDOR_DEFINED : N := 0x80000000. (* pkcs11.h:286 *)
Definition CKA_WRAP_TEMPLATE : N := 0x40000211. (* pkcs11.h:288 *)
Definition CKA_UNWRAP_TEMPLATE : N := 0x40000212. (* pkcs11.h:289 *)
Definition CKA_DERIVE_TEMPLATE : N := 0x40000213. (* pkcs11.h:290 *)
Definition CKA_ALLOWED_MECHANISMS : N := 0x40000600. (* pkcs11.h:291 *)
Definition CKA_ECDSA_PARAMS : N := 0x180. (* pkcs11.h:294 *)
Definition CKA_SECONDARY_AUTH : N := 0x200. (* pkcs11.h:295 *)
Definition CKA_AUTH_PIN_FLAGS : N := 0x201. (* pkcs11.h:296 *)
Definition CKC_X_509 : N := 0x0. (* pkcs11.h:300 *)
Definition CKC_X_509_ATTR_CERT : N := 0x1. (* pkcs11.h:301 *)
Definition CKC_WTLS : N := 0x2. (* pkcs11.h:302 *)
Definition CKC_VENDOR_DEFINED : N := 0x80000000. (* pkcs11.h:303 *)
Definition CKD_NULL : N := 0x1. (* pkcs11.h:306 *)
Definition CKD_SHA1_KDF : N := 0x2. (* pkcs11.h:307 *)
Definition CKD_SHA1_KDF_ASN1 : N := 0x3. (* pkcs11.h:308 *)
Definition CKD_SHA1_KDF_CONCATENATE : N := 0x4. (* pkcs11.h:309 *)
Definition CKD_SHA224_KDF : N := 0x5. (* pkcs11.h:310 *)
Definition CKD_SHA256_KDF : N := 0x6. (* pkcs11.h:311 *)
Definition CKD_SHA384_KDF : N := 0x7. (* pkcs11.h:312 *)
Definition CKD_SHA512_KDF : N := 0x8. (* pkcs11.h:313 *)
Definition CKD_CPDIVERSIFY_KDF : N := 0x9. (* pkcs11.h:314 *)
Definition CKD_SHA3_224_KDF : N := 0xa. (* pkcs11.h:315 *)
Definition CKD_SHA3_256_KDF : N := 0xb. (* pkcs11.h:316 *)
Definition CKD_SHA3_384_KDF : N := 0xc. (* pkcs11.h:317 *)
Definition CKD_SHA3_512_KDF : N := 0xd. (* pkcs11.h:318 *)
Definition CKD_SHA1_KDF_SP800 : N := 0xe. (* pkcs11.h:319 *)
Definition CKD_SHA224_KDF_SP800 : N := 0xf. (* pkcs11.h:320 *)
Definition CKD_SHA256_KDF_SP800 : N := 0x10. (* pkcs11.h:321 *)
Definition CKD_SHA384_KDF_SP800 : N := 0x11. (* pkcs11.h:322 *)
Definition CKD_SHA512_KDF_SP800 : N := 0x12. (* pkcs11.h:323 *)
Definition CKD_SHA3_224_KDF_SP800 : N := 0x13. (* pkcs11.h:324 *)
Definition CKD_SHA3_256_KDF_SP800 : N := 0x14. (* pkcs11.h:325 *)
Definition CKD_SHA3_384_KDF_SP800 : N := 0x15. (* pkcs11.h:326 *)
Definition CKD_SHA3_512_KDF_SP800 : N := 0x16. (* pkcs11.h:327 *)
Definition CKD_BLAKE2B_160_KDF : N := 0x17. (* pkcs11.h:328 *)
Definition CKD_BLAKE2B_256_KDF : N := 0x18. (* pkcs11.h:329 *)
Definition CKD_BLAKE2B_384_KDF : N := 0x19. (* pkcs11.h:330 *)
Definition CKD_BLAKE2B_512_KDF : N := 0x1a. (* pkcs11.h:331 *)
Definition CKF_ARRAY_ATTRIBUTE : N := 0x40000000. (* pkcs11.h:334 *)
Definition CKF_LIBRARY_CANT_CREATE_OS_THREADS : N := 0x1. (* pkcs11.h:337 *)
Definition CKF_OS_LOCKING_OK : N := 0x2. (* pkcs11.h:338 *)
Definition CKF_HKDF_SALT_NULL : N := 0x1. (* pkcs11.h:341 *)
Definition CKF_HKDF_SALT_DATA : N := 0x2. (* pkcs11.h:342 *)
Definition CKF_HKDF_SALT_KEY : N := 0x4. (* pkcs11.h:343 *)
Definition CKF_INTERFACE_FORK_SAFE : N := 0x1. (* pkcs11.h:346 *)
Definition CKF_HW : N := 0x1. (* pkcs11.h:349 *)
Definition CKF_MESSAGE_ENCRYPT : N := 0x2. (* pkcs11.h:350 *)
Definition CKF_MESSAGE_DECRYPT : N := 0x4. (* pkcs11.h:351 *)
Definition CKF_MESSAGE_SIGN : N := 0x8. (* pkcs11.h:352 *)
Definition CKF_MESSAGE_VERIFY : N := 0x10. (* pkcs11.h:353 *)
Definition CKF_MULTI_MESSAGE : N := 0x20. (* pkcs11.h:354 *)
Definition CKF_MULTI_MESSGE : N := 0x20. (* pkcs11.h:355 *)
Definition CKF_FIND_OBJECTS : N := 0x40. (* pkcs11.h:356 *)
Definition CKF_ENCRYPT : N := 0x100. (* pkcs11.h:357 *)
Definition CKF_DECRYPT : N := 0x200. (* pkcs11.h:358 *)
Definition CKF_DIGEST : N := 0x400. (* pkcs11.h:359 *)
Definition CKF_SIGN : N := 0x800. (* pkcs11.h:360 *)
Definition CKF_SIGN_RECOVER : N := 0x1000. (* pkcs11.h:361 *)
Definition CKF_VERIFY : N := 0x2000. (* pkcs11.h:362 *)
Definition CKF_VERIFY_RECOVER : N := 0x4000. (* pkcs11.h:363 *)
Definition CKF_GENERATE : N := 0x8000. (* pkcs11.h:364 *)
Definition CKF_GENERATE_KEY_PAIR : N := 0x10000. (* pkcs11.h:365 *)
Definition CKF_WRAP : N := 0x20000. (* pkcs11.h:366 *)
Definition CKF_UNWRAP : N := 0x40000. (* pkcs11.h:367 *)
Definition CKF_DERIVE : N := 0x80000. (* pkcs11.h:368 *)
Definition CKF_EC_F_P : N := 0x100000. (* pkcs11.h:369 *)
Definition CKF_EC_F_2M : N := 0x200000. (* pkcs11.h:370 *)
Definition CKF_EC_ECPARAMETERS : N := 0x400000. (* pkcs11.h:371 *)
Definition CKF_EC_OID : N := 0x800000. (* pkcs11.h:372 *)
Definition CKF_EC_UNCOMPRESS : N := 0x1000000. (* pkcs11.h:373 *)
Definition CKF_EC_COMPRESS : N := 0x2000000. (* pkcs11.h:374 *)
Definition CKF_EC_CURVENAME : N := 0x4000000. (* pkcs11.h:375 *)
Definition CKF_ENCAPSULATE : N := 0x10000000. (* pkcs11.h:376 *)
Definition CKF_DECAPSULATE : N := 0x20000000. (* pkcs11.h:377 *)
Definition CKF_EXTENSION : N := 0x80000000. (* pkcs11.h:378 *)
Definition CKF_EC_NAMEDCURVE : N := 0x800000. (* pkcs11.h:381 *)
Definition CKF_END_OF_MESSAGE : N := 0x1. (* pkcs11.h:385 *)
Definition CKF_NEXT_OTP : N := 0x1. (* pkcs11.h:388 *)
Definition CKF_EXCLUDE_TIME : N := 0x2. (* pkcs11.h:389 *)
Definition CKF_EXCLUDE_COUNTER : N := 0x4. (* pkcs11.h:390 *)
Definition CKF_EXCLUDE_CHALLENGE : N := 0x8. (* pkcs11.h:391 *)
Definition CKF_EXCLUDE_PIN : N := 0x10. (* pkcs11.h:392 *)
Definition CKF_USER_FRIENDLY_OTP : N := 0x20. (* pkcs11.h:393 *)
Definition CKF_DONT_BLOCK : N := 0x1. (* pkcs11.h:396 *)
Definition CKF_RW_SESSION : N := 0x2. (* pkcs11.h:399 *)
Definition CKF_SERIAL_SESSION : N := 0x4. (* pkcs11.h:400 *)
Definition CKF_ASYNC_SESSION : N := 0x8. (* pkcs11.h:401 *)
Definition CKF_TOKEN_PRESENT : N := 0x1. (* pkcs11.h:404 *)
Definition CKF_REMOVABLE_DEVICE : N := 0x2. (* pkcs11.h:405 *)
Definition CKF_HW_SLOT : N := 0x4. (* pkcs11.h:406 *)
Definition CKF_RNG : N := 0x1. (* pkcs11.h:409 *)
Definition CKF_WRITE_PROTECTED : N := 0x2. (* pkcs11.h:410 *)
Definition CKF_LOGIN_REQUIRED : N := 0x4. (* pkcs11.h:411 *)
Definition CKF_USER_PIN_INITIALIZED : N := 0x8. (* pkcs11.h:412 *)
Definition CKF_RESTORE_KEY_NOT_NEEDED : N := 0x20. (* pkcs11.h:413 *)
Definition CKF_CLOCK_ON_TOKEN : N := 0x40. (* pkcs11.h:414 *)
Definition CKF_PROTECTED_AUTHENTICATION_PATH : N := 0x100. (* pkcs11.h:415 *)
Definition CKF_DUAL_CRYPTO_OPERATIONS : N := 0x200. (* pkcs11.h:416 *)
Definition CKF_TOKEN_INITIALIZED : N := 0x400. (* pkcs11.h:417 *)
Definition CKF_SECONDARY_AUTHENTICATION : N := 0x800. (* pkcs11.h:418 *)
Definition CKF_USER_PIN_COUNT_LOW : N := 0x10000. (* pkcs11.h:419 *)
Definition CKF_USER_PIN_FINAL_TRY : N := 0x20000. (* pkcs11.h:420 *)
Definition CKF_USER_PIN_LOCKED : N := 0x40000. (* pkcs11.h:421 *)
Definition CKF_USER_PIN_TO_BE_CHANGED : N := 0x80000. (* pkcs11.h:422 *)
Definition CKF_SO_PIN_COUNT_LOW : N := 0x100000. (* pkcs11.h:423 *)
Definition CKF_SO_PIN_FINAL_TRY : N := 0x200000. (* pkcs11.h:424 *)
Definition CKF_SO_PIN_LOCKED : N := 0x400000. (* pkcs11.h:425 *)
Definition CKF_SO_PIN_TO_BE_CHANGED : N := 0x800000. (* pkcs11.h:426 *)
Definition CKF_ERROR_STATE : N := 0x1000000. (* pkcs11.h:427 *)
Definition CKF_SEED_RANDOM_REQUIRED : N := 0x2000000. (* pkcs11.h:428 *)
Definition CKF_ASYNC_SESSION_SUPPORTED : N := 0x4000000. (* pkcs11.h:429 *)
Definition CKG_NO_GENERATE : N := 0x0. (* pkcs11.h:432 *)
Definition CKG_GENERATE : N := 0x1. (* pkcs11.h:433 *)
Definition CKG_GENERATE_COUNTER : N := 0x2. (* pkcs11.h:434 *)
Definition CKG_GENERATE_RANDOM : N := 0x3. (* pkcs11.h:435 *)
Definition CKG_GENERATE_COUNTER_XOR : N := 0x4. (* pkcs11.h:436 *)
Definition CKG_MGF1_SHA1 : N := 0x1. (* pkcs11.h:439 *)
Definition CKG_MGF1_SHA256 : N := 0x2. (* pkcs11.h:440 *)
Definition CKG_MGF1_SHA384 : N := 0x3. (* pkcs11.h:441 *)
Definition CKG_MGF1_SHA512 : N := 0x4. (* pkcs11.h:442 *)
Definition CKG_MGF1_SHA224 : N := 0x5. (* pkcs11.h:443 *)
Definition CKG_MGF1_SHA3_224 : N := 0x6. (* pkcs11.h:444 *)
Definition CKG_MGF1_SHA3_256 : N := 0x7. (* pkcs11.h:445 *)
Definition CKG_MGF1_SHA3_384 : N := 0x8. (* pkcs11.h:446 *)
Definition CKG_MGF1_SHA3_512 : N := 0x9. (* pkcs11.h:447 *)
Definition CKK_RSA : N := 0x0. (* pkcs11.h:461 *)
Definition CKK_DSA : N := 0x1. (* pkcs11.h:462 *)
Definition CKK_DH : N := 0x2. (* pkcs11.h:463 *)
Definition CKK_EC : N := 0x3. (* pkcs11.h:464 *)
Definition CKK_X9_42_DH : N := 0x4. (* pkcs11.h:465 *)
Definition CKK_KEA : N := 0x5. (* pkcs11.h:466 *)
Definition CKK_GENERIC_SECRET : N := 0x10. (* pkcs11.h:467 *)
Definition CKK_RC2 : N := 0x11. (* pkcs11.h:468 *)
Definition CKK_RC4 : N := 0x12. (* pkcs11.h:469 *)
Definition CKK_DES : N := 0x13. (* pkcs11.h:470 *)
Definition CKK_DES2 : N := 0x14. (* pkcs11.h:471 *)
Definition CKK_DES3 : N := 0x15. (* pkcs11.h:472 *)
Definition CKK_CAST : N := 0x16. (* pkcs11.h:473 *)
Definition CKK_CAST3 : N := 0x17. (* pkcs11.h:474 *)
Definition CKK_CAST128 : N := 0x18. (* pkcs11.h:475 *)
Definition CKK_RC5 : N := 0x19. (* pkcs11.h:476 *)
Definition CKK_IDEA : N := 0x1a. (* pkcs11.h:477 *)
Definition CKK_SKIPJACK : N := 0x1b. (* pkcs11.h:478 *)
Definition CKK_BATON : N := 0x1c. (* pkcs11.h:479 *)
Definition CKK_JUNIPER : N := 0x1d. (* pkcs11.h:480 *)
Definition CKK_CDMF : N := 0x1e. (* pkcs11.h:481 *)
Definition CKK_AES : N := 0x1f. (* pkcs11.h:482 *)
Definition CKK_BLOWFISH : N := 0x20. (* pkcs11.h:483 *)
Definition CKK_TWOFISH : N := 0x21. (* pkcs11.h:484 *)
Definition CKK_SECURID : N := 0x22. (* pkcs11.h:485 *)
Definition CKK_HOTP : N := 0x23. (* pkcs11.h:486 *)
Definition CKK_ACTI : N := 0x24. (* pkcs11.h:487 *)
Definition CKK_CAMELLIA : N := 0x25. (* pkcs11.h:488 *)
Definition CKK_ARIA : N := 0x26. (* pkcs11.h:489 *)
Definition CKK_MD5_HMAC : N := 0x27. (* pkcs11.h:490 *)
Definition CKK_SHA_1_HMAC : N := 0x28. (* pkcs11.h:491 *)
Definition CKK_RIPEMD128_HMAC : N := 0x29. (* pkcs11.h:492 *)
Definition CKK_RIPEMD160_HMAC : N := 0x2a. (* pkcs11.h:493 *)
Definition CKK_SHA256_HMAC : N := 0x2b. (* pkcs11.h:494 *)
Definition CKK_SHA384_HMAC : N := 0x2c. (* pkcs11.h:495 *)
Definition CKK_SHA512_HMAC : N := 0x2d. (* pkcs11.h:496 *)
Definition CKK_SHA224_HMAC : N := 0x2e. (* pkcs11.h:497 *)
Definition CKK_SEED : N := 0x2f. (* pkcs11.h:498 *)
Definition CKK_GOSTR3410 : N := 0x30. (* pkcs11.h:499 *)
Definition CKK_GOSTR3411 : N := 0x31. (* pkcs11.h:500 *)
Definition CKK_GOST28147 : N := 0x32. (* pkcs11.h:501 *)
Definition CKK_CHACHA20 : N := 0x33. (* pkcs11.h:502 *)
Definition CKK_POLY1305 : N := 0x34. (* pkcs11.h:503 *)
Definition CKK_AES_XTS : N := 0x35. (* pkcs11.h:504 *)
Definition CKK_SHA3_224_HMAC : N := 0x36. (* pkcs11.h:505 *)
Definition CKK_SHA3_256_HMAC : N := 0x37. (* pkcs11.h:506 *)
Definition CKK_SHA3_384_HMAC : N := 0x38. (* pkcs11.h:507 *)
Definition CKK_SHA3_512_HMAC : N := 0x39. (* pkcs11.h:508 *)
Definition CKK_BLAKE2B_160_HMAC : N := 0x3a. (* pkcs11.h:509 *)
Definition CKK_BLAKE2B_256_HMAC : N := 0x3b. (* pkcs11.h:510 *)
Definition CKK_BLAKE2B_384_HMAC : N := 0x3c. (* pkcs11.h:511 *)
Definition CKK_BLAKE2B_512_HMAC : N := 0x3d. (* pkcs11.h:512 *)
Definition CKK_SALSA20 : N := 0x3e. (* pkcs11.h:513 *)
Definition CKK_X2RATCHET : N := 0x3f. (* pkcs11.h:514 *)
Definition CKK_EC_EDWARDS : N := 0x40. (* pkcs11.h:515 *)
Definition CKK_EC_MONTGOMERY : N := 0x41. (* pkcs11.h:516 *)
Definition CKK_HKDF : N := 0x42. (* pkcs11.h:517 *)
Definition CKK_SHA512_224_HMAC : N := 0x43. (* pkcs11.h:518 *)
Definition CKK_SHA512_256_HMAC : N := 0x44. (* pkcs11.h:519 *)
Definition CKK_SHA512_T_HMAC : N := 0x45. (* pkcs11.h:520 *)
Definition CKK_HSS : N := 0x46. (* pkcs11.h:521 *)
Definition CKK_XMSS : N := 0x47. (* pkcs11.h:522 *)
Definition CKK_XMSSMT : N := 0x48. (* pkcs11.h:523 *)
Definition CKK_ML_KEM : N := 0x49. (* pkcs11.h:524 *)
Definition CKK_ML_DSA : N := 0x4a. (* pkcs11.h:525 *)
Definition CKK_SLH_DSA : N := 0x4b. (* pkcs11.h:526 *)
Definition CKK_VENDOR_DEFINED : N := 0x80000000. (* pkcs11.h:527 *)
Definition CKK_ECDSA : N := 0x3. (* pkcs11.h:530 *)
Definition CKK_CAST5 : N := 0x18. (* pkcs11.h:531 *)
Definition CKM_RSA_PKCS_KEY_PAIR_GEN : N := 0x0. (* pkcs11.h:535 *)
Definition CKM_RSA_PKCS : N := 0x1. (* pkcs11.h:536 *)
Definition CKM_RSA_9796 : N := 0x2. (* pkcs11.h:537 *)
Definition CKM_RSA_X_509 : N := 0x3. (* pkcs11.h:538 *)
Definition CKM_MD2_RSA_PKCS : N := 0x4. (* pkcs11.h:539 *)
Definition CKM_MD5_RSA_PKCS : N := 0x5. (* pkcs11.h:540 *)
Definition CKM_SHA1_RSA_PKCS : N := 0x6. (* pkcs11.h:541 *)
Definition CKM_RIPEMD128_RSA_PKCS : N := 0x7. (* pkcs11.h:542 *)
Definition CKM_RIPEMD160_RSA_PKCS : N := 0x8. (* pkcs11.h:543 *)
Definition CKM_RSA_PKCS_OAEP : N := 0x9. (* pkcs11.h:544 *)
Definition CKM_RSA_X9_31_KEY_PAIR_GEN : N := 0xa. (* pkcs11.h:545 *)
Definition CKM_RSA_X9_31 : N := 0xb. (* pkcs11.h:546 *)
Definition CKM_SHA1_RSA_X9_31 : N := 0xc. (* pkcs11.h:547 *)
Definition CKM_RSA_PKCS_PSS : N := 0xd. (* pkcs11.h:548 *)
Definition CKM_SHA1_RSA_PKCS_PSS : N := 0xe. (* pkcs11.h:549 *)
Definition CKM_ML_KEM_KEY_PAIR_GEN : N := 0xf. (* pkcs11.h:550 *)
Definition CKM_DSA_KEY_PAIR_GEN : N := 0x10. (* pkcs11.h:551 *)
Definition CKM_DSA : N := 0x11. (* pkcs11.h:552 *)
Definition CKM_DSA_SHA1 : N := 0x12. (* pkcs11.h:553 *)
Definition CKM_DSA_SHA224 : N := 0x13. (* pkcs11.h:554 *)
Definition CKM_DSA_SHA256 : N := 0x14. (* pkcs11.h:555 *)
Definition CKM_DSA_SHA384 : N := 0x15. (* pkcs11.h:556 *)
Definition CKM_DSA_SHA512 : N := 0x16. (* pkcs11.h:557 *)
Definition CKM_ML_KEM : N := 0x17. (* pkcs11.h:558 *)
Definition CKM_DSA_SHA3_224 : N := 0x18. (* pkcs11.h:559 *)
Definition CKM_DSA_SHA3_256 : N := 0x19. (* pkcs11.h:560 *)
Definition CKM_DSA_SHA3_384 : N := 0x1a. (* pkcs11.h:561 *)
Definition CKM_DSA_SHA3_512 : N := 0x1b. (* pkcs11.h:562 *)
Definition CKM_ML_DSA_KEY_PAIR_GEN : N := 0x1c. (* pkcs11.h:563 *)
Definition CKM_ML_DSA : N := 0x1d. (* pkcs11.h:564 *)
Definition CKM_HASH_ML_DSA : N := 0x1f. (* pkcs11.h:565 *)
Definition CKM_DH_PKCS_KEY_PAIR_GEN : N := 0x20. (* pkcs11.h:566 *)
Definition CKM_DH_PKCS_DERIVE : N := 0x21. (* pkcs11.h:567 *)
Definition CKM_HASH_ML_DSA_SHA224 : N := 0x23. (* pkcs11.h:568 *)
Definition CKM_HASH_ML_DSA_SHA256 : N := 0x24. (* pkcs11.h:569 *)
Definition CKM_HASH_ML_DSA_SHA384 : N := 0x25. (* pkcs11.h:570 *)
Definition CKM_HASH_ML_DSA_SHA512 : N := 0x26. (* pkcs11.h:571 *)
Definition CKM_HASH_ML_DSA_SHA3_224 : N := 0x27. (* pkcs11.h:572 *)
Definition CKM_HASH_ML_DSA_SHA3_256 : N := 0x28. (* pkcs11.h:573 *)
Definition CKM_HASH_ML_DSA_SHA3_384 : N := 0x29. (* pkcs11.h:574 *)
Definition CKM_HASH_ML_DSA_SHA3_512 : N := 0x2a. (* pkcs11.h:575 *)
Definition CKM_HASH_ML_DSA_SHAKE128 : N := 0x2b. (* pkcs11.h:576 *)
Definition CKM_HASH_ML_DSA_SHAKE256 : N := 0x2c. (* pkcs11.h:577 *)
Definition CKM_SLH_DSA_KEY_PAIR_GEN : N := 0x2d. (* pkcs11.h:578 *)
Definition CKM_SLH_DSA : N := 0x2e. (* pkcs11.h:579 *)
Definition CKM_X9_42_DH_KEY_PAIR_GEN : N := 0x30. (* pkcs11.h:580 *)
Definition CKM_X9_42_DH_DERIVE : N := 0x31. (* pkcs11.h:581 *)
Definition CKM_X9_42_DH_HYBRID_DERIVE : N := 0x32. (* pkcs11.h:582 *)
Definition CKM_X9_42_MQV_DERIVE : N := 0x33. (* pkcs11.h:583 *)
Definition CKM_HASH_SLH_DSA : N := 0x34. (* pkcs11.h:584 *)
Definition CKM_HASH_SLH_DSA_SHA224 : N := 0x36. (* pkcs11.h:585 *)
Definition CKM_HASH_SLH_DSA_SHA256 : N := 0x37. (* pkcs11.h:586 *)
Definition CKM_HASH_SLH_DSA_SHA384 : N := 0x38. (* pkcs11.h:587 *)
Definition CKM_HASH_SLH_DSA_SHA512 : N := 0x39. (* pkcs11.h:588 *)
Definition CKM_HASH_SLH_DSA_SHA3_224 : N := 0x3a. (* pkcs11.h:589 *)
Definition CKM_HASH_SLH_DSA_SHA3_256 : N := 0x3b. (* pkcs11.h:590 *)
Definition CKM_HASH_SLH_DSA_SHA3_384 : N := 0x3c. (* pkcs11.h:591 *)
Definition CKM_HASH_SLH_DSA_SHA3_512 : N := 0x3d. (* pkcs11.h:592 *)
Definition CKM_HASH_SLH_DSA_SHAKE128 : N := 0x3e. (* pkcs11.h:593 *)
Definition CKM_HASH_SLH_DSA_SHAKE256 : N := 0x3f. (* pkcs11.h:594 *)
Definition CKM_SHA256_RSA_PKCS : N := 0x40. (* pkcs11.h:595 *)
Definition CKM_SHA384_RSA_PKCS : N := 0x41. (* pkcs11.h:596 *)
Definition CKM_SHA512_RSA_PKCS : N := 0x42. (* pkcs11.h:597 *)
Definition CKM_SHA256_RSA_PKCS_PSS : N := 0x43. (* pkcs11.h:598 *)
Definition CKM_SHA384_RSA_PKCS_PSS : N := 0x44. (* pkcs11.h:599 *)
Definition CKM_SHA512_RSA_PKCS_PSS : N := 0x45. (* pkcs11.h:600 *)
Definition CKM_SHA224_RSA_PKCS : N := 0x46. (* pkcs11.h:601 *)
Definition CKM_SHA224_RSA_PKCS_PSS : N := 0x47. (* pkcs11.h:602 *)
Definition CKM_SHA512_224 : N := 0x48. (* pkcs11.h:603 *)
Definition CKM_SHA512_224_HMAC : N := 0x49. (* pkcs11.h:604 *)
Definition CKM_SHA512_224_HMAC_GENERAL : N := 0x4a. (* pkcs11.h:605 *)
Definition CKM_SHA512_224_KEY_DERIVATION : N := 0x4b. (* pkcs11.h:606 *)
Definition CKM_SHA512_256 : N := 0x4c. (* pkcs11.h:607 *)
Definition CKM_SHA512_256_HMAC : N := 0x4d. (* pkcs11.h:608 *)
Definition CKM_SHA512_256_HMAC_GENERAL : N := 0x4e. (* pkcs11.h:609 *)
Definition CKM_SHA512_256_KEY_DERIVATION : N := 0x4f. (* pkcs11.h:610 *)
Definition CKM_SHA512_T : N := 0x50. (* pkcs11.h:611 *)
Definition CKM_SHA512_T_HMAC : N := 0x51. (* pkcs11.h:612 *)
Definition CKM_SHA512_T_HMAC_GENERAL : N := 0x52. (* pkcs11.h:613 *)
Definition CKM_SHA512_T_KEY_DERIVATION : N := 0x53. (* pkcs11.h:614 *)
Definition CKM_TLS12_EXTENDED_MASTER_KEY_DERIVE : N := 0x56. (* pkcs11.h:615 *)
Definition CKM_TLS12_EXTENDED_MASTER_KEY_DERIVE_DH : N := 0x57. (* pkcs11.h:616 *)
Definition CKM_SHA3_256_RSA_PKCS : N := 0x60. (* pkcs11.h:617 *)
Definition CKM_SHA3_384_RSA_PKCS : N := 0x61. (* pkcs11.h:618 *)
Definition CKM_SHA3_512_RSA_PKCS : N := 0x62. (* pkcs11.h:619 *)
Definition CKM_SHA3_256_RSA_PKCS_PSS : N := 0x63. (* pkcs11.h:620 *)
Definition CKM_SHA3_384_RSA_PKCS_PSS : N := 0x64. (* pkcs11.h:621 *)
Definition CKM_SHA3_512_RSA_PKCS_PSS : N := 0x65. (* pkcs11.h:622 *)
Definition CKM_SHA3_224_RSA_PKCS : N := 0x66. (* pkcs11.h:623 *)
Definition CKM_SHA3_224_RSA_PKCS_PSS : N := 0x67. (* pkcs11.h:624 *)
Definition CKM_RC2_KEY_GEN : N := 0x100. (* pkcs11.h:625 *)
Definition CKM_RC2_ECB : N := 0x101. (* pkcs11.h:626 *)
Definition CKM_RC2_CBC : N := 0x102. (* pkcs11.h:627 *)
Definition CKM_RC2_MAC : N := 0x103. (* pkcs11.h:628 *)
Definition CKM_RC2_MAC_GENERAL : N := 0x104. (* pkcs11.h:629 *)
Definition CKM_RC2_CBC_PAD : N := 0x105. (* pkcs11.h:630 *)
Definition CKM_RC4_KEY_GEN : N := 0x110. (* pkcs11.h:631 *)
Definition CKM_RC4 : N := 0x111. (* pkcs11.h:632 *)
Definition CKM_DES_KEY_GEN : N := 0x120. (* pkcs11.h:633 *)
Definition CKM_DES_ECB : N := 0x121. (* pkcs11.h:634 *)
Definition CKM_DES_CBC : N := 0x122. (* pkcs11.h:635 *)
Definition CKM_DES_MAC : N := 0x123. (* pkcs11.h:636 *)
Definition CKM_DES_MAC_GENERAL : N := 0x124. (* pkcs11.h:637 *)
Definition CKM_DES_CBC_PAD : N := 0x125. (* pkcs11.h:638 *)
Definition CKM_DES2_KEY_GEN : N := 0x130. (* pkcs11.h:639 *)
Definition CKM_DES3_KEY_GEN : N := 0x131. (* pkcs11.h:640 *)
Definition CKM_DES3_ECB : N := 0x132. (* pkcs11.h:641 *)
Definition CKM_DES3_CBC : N := 0x133. (* pkcs11.h:642 *)
Definition CKM_DES3_MAC : N := 0x134. (* pkcs11.h:643 *)
Definition CKM_DES3_MAC_GENERAL : N := 0x135. (* pkcs11.h:644 *)
Definition CKM_DES3_CBC_PAD : N := 0x136. (* pkcs11.h:645 *)
Definition CKM_DES3_CMAC_GENERAL : N := 0x137. (* pkcs11.h:646 *)
Definition CKM_DES3_CMAC : N := 0x138. (* pkcs11.h:647 *)
Definition CKM_CDMF_KEY_GEN : N := 0x140. (* pkcs11.h:648 *)
Definition CKM_CDMF_ECB : N := 0x141. (* pkcs11.h:649 *)
Definition CKM_CDMF_CBC : N := 0x142. (* pkcs11.h:650 *)
Definition CKM_CDMF_MAC : N := 0x143. (* pkcs11.h:651 *)
Definition CKM_CDMF_MAC_GENERAL : N := 0x144. (* pkcs11.h:652 *)
Definition CKM_CDMF_CBC_PAD : N := 0x145. (* pkcs11.h:653 *)
Definition CKM_DES_OFB64 : N := 0x150. (* pkcs11.h:654 *)
Definition CKM_DES_OFB8 : N := 0x151. (* pkcs11.h:655 *)
Definition CKM_DES_CFB64 : N := 0x152. (* pkcs11.h:656 *)
Definition CKM_DES_CFB8 : N := 0x153. (* pkcs11.h:657 *)
Definition CKM_MD2 : N := 0x200. (* pkcs11.h:658 *)
Definition CKM_MD2_HMAC : N := 0x201. (* pkcs11.h:659 *)
Definition CKM_MD2_HMAC_GENERAL : N := 0x202. (* pkcs11.h:660 *)
Definition CKM_MD5 : N := 0x210. (* pkcs11.h:661 *)
Definition CKM_MD5_HMAC : N := 0x211. (* pkcs11.h:662 *)
Definition CKM_MD5_HMAC_GENERAL : N := 0x212. (* pkcs11.h:663 *)
Definition CKM_SHA_1 : N := 0x220. (* pkcs11.h:664 *)
Definition CKM_SHA_1_HMAC : N := 0x221. (* pkcs11.h:665 *)
Definition CKM_SHA_1_HMAC_GENERAL : N := 0x222. (* pkcs11.h:666 *)
Definition CKM_RIPEMD128 : N := 0x230. (* pkcs11.h:667 *)
Definition CKM_RIPEMD128_HMAC : N := 0x231. (* pkcs11.h:668 *)
Definition CKM_RIPEMD128_HMAC_GENERAL : N := 0x232. (* pkcs11.h:669 *)
Definition CKM_RIPEMD160 : N := 0x240. (* pkcs11.h:670 *)
Definition CKM_RIPEMD160_HMAC : N := 0x241. (* pkcs11.h:671 *)
Definition CKM_RIPEMD160_HMAC_GENERAL : N := 0x242. (* pkcs11.h:672 *)
Definition CKM_SHA256 : N := 0x250. (* pkcs11.h:673 *)
Definition CKM_SHA256_HMAC : N := 0x251. (* pkcs11.h:674 *)
Definition CKM_SHA256_HMAC_GENERAL : N := 0x252. (* pkcs11.h:675 *)
Definition CKM_SHA224 : N := 0x255. (* pkcs11.h:676 *)
Definition CKM_SHA224_HMAC : N := 0x256. (* pkcs11.h:677 *)
Definition CKM_SHA224_HMAC_GENERAL : N := 0x257. (* pkcs11.h:678 *)
Definition CKM_SHA384 : N := 0x260. (* pkcs11.h:679 *)
Definition CKM_SHA384_HMAC : N := 0x261. (* pkcs11.h:680 *)
Definition CKM_SHA384_HMAC_GENERAL : N := 0x262. (* pkcs11.h:681 *)
Definition CKM_SHA512 : N := 0x270. (* pkcs11.h:682 *)
Definition CKM_SHA512_HMAC : N := 0x271. (* pkcs11.h:683 *)
Definition CKM_SHA512_HMAC_GENERAL : N := 0x272. (* pkcs11.h:684 *)
Definition CKM_SECURID_KEY_GEN : N := 0x280. (* pkcs11.h:685 *)
Definition CKM_SECURID : N := 0x282. (* pkcs11.h:686 *)
Definition CKM_HOTP_KEY_GEN : N := 0x290. (* pkcs11.h:687 *)
Definition CKM_HOTP : N := 0x291. (* pkcs11.h:688 *)
Definition CKM_ACTI : N := 0x2a0. (* pkcs11.h:689 *)
Definition CKM_ACTI_KEY_GEN : N := 0x2a1. (* pkcs11.h:690 *)
Definition CKM_SHA3_256 : N := 0x2b0. (* pkcs11.h:691 *)
Definition CKM_SHA3_256_HMAC : N := 0x2b1. (* pkcs11.h:692 *)
Definition CKM_SHA3_256_HMAC_GENERAL : N := 0x2b2. (* pkcs11.h:693 *)
Definition CKM_SHA3_256_KEY_GEN : N := 0x2b3. (* pkcs11.h:694 *)
Definition CKM_SHA3_224 : N := 0x2b5. (* pkcs11.h:695 *)
Definition CKM_SHA3_224_HMAC : N := 0x2b6. (* pkcs11.h:696 *)
Definition CKM_SHA3_224_HMAC_GENERAL : N := 0x2b7. (* pkcs11.h:697 *)
Definition CKM_SHA3_224_KEY_GEN : N := 0x2b8. (* pkcs11.h:698 *)
Definition CKM_SHA3_384 : N := 0x2c0. (* pkcs11.h:699 *)
Definition CKM_SHA3_384_HMAC : N := 0x2c1. (* pkcs11.h:700 *)
Definition CKM_SHA3_384_HMAC_GENERAL : N := 0x2c2. (* pkcs11.h:701 *)
Definition CKM_SHA3_384_KEY_GEN : N := 0x2c3. (* pkcs11.h:702 *)
Definition CKM_SHA3_512 : N := 0x2d0. (* pkcs11.h:703 *)
Definition CKM_SHA3_512_HMAC : N := 0x2d1. (* pkcs11.h:704 *)
Definition CKM_SHA3_512_HMAC_GENERAL : N := 0x2d2. (* pkcs11.h:705 *)
Definition CKM_SHA3_512_KEY_GEN : N := 0x2d3. (* pkcs11.h:706 *)
Definition CKM_CAST_KEY_GEN : N := 0x300. (* pkcs11.h:707 *)
Definition CKM_CAST_ECB : N := 0x301. (* pkcs11.h:708 *)
Definition CKM_CAST_CBC : N := 0x302. (* pkcs11.h:709 *)
Definition CKM_CAST_MAC : N := 0x303. (* pkcs11.h:710 *)
Definition CKM_CAST_MAC_GENERAL : N := 0x304. (* pkcs11.h:711 *)
Definition CKM_CAST_CBC_PAD : N := 0x305. (* pkcs11.h:712 *)
Definition CKM_CAST3_KEY_GEN : N := 0x310. (* pkcs11.h:713 *)
Definition CKM_CAST3_ECB : N := 0x311. (* pkcs11.h:714 *)
Definition CKM_CAST3_CBC : N := 0x312. (* pkcs11.h:715 *)
Definition CKM_CAST3_MAC : N := 0x313. (* pkcs11.h:716 *)
Definition CKM_CAST3_MAC_GENERAL : N := 0x314. (* pkcs11.h:717 *)
Definition CKM_CAST3_CBC_PAD : N := 0x315. (* pkcs11.h:718 *)
Definition CKM_CAST128_KEY_GEN : N := 0x320. (* pkcs11.h:719 *)
Definition CKM_CAST128_ECB : N := 0x321. (* pkcs11.h:720 *)
Definition CKM_CAST128_MAC : N := 0x323. (* pkcs11.h:721 *)
Definition CKM_CAST128_CBC : N := 0x322. (* pkcs11.h:722 *)
Definition CKM_CAST128_MAC_GENERAL : N := 0x324. (* pkcs11.h:723 *)
Definition CKM_CAST128_CBC_PAD : N := 0x325. (* pkcs11.h:724 *)
Definition CKM_RC5_KEY_GEN : N := 0x330. (* pkcs11.h:725 *)
Definition CKM_RC5_ECB : N := 0x331. (* pkcs11.h:726 *)
Definition CKM_RC5_CBC : N := 0x332. (* pkcs11.h:727 *)
Definition CKM_RC5_MAC : N := 0x333. (* pkcs11.h:728 *)
Definition CKM_RC5_MAC_GENERAL : N := 0x334. (* pkcs11.h:729 *)
Definition CKM_RC5_CBC_PAD : N := 0x335. (* pkcs11.h:730 *)
Definition CKM_IDEA_KEY_GEN : N := 0x340. (* pkcs11.h:731 *)
Definition CKM_IDEA_ECB : N := 0x341. (* pkcs11.h:732 *)
Definition CKM_IDEA_CBC : N := 0x342. (* pkcs11.h:733 *)
Definition CKM_IDEA_MAC : N := 0x343. (* pkcs11.h:734 *)
Definition CKM_IDEA_MAC_GENERAL : N := 0x344. (* pkcs11.h:735 *)
Definition CKM_IDEA_CBC_PAD : N := 0x345. (* pkcs11.h:736 *)
Definition CKM_GENERIC_SECRET_KEY_GEN : N := 0x350. (* pkcs11.h:737 *)
Definition CKM_CONCATENATE_BASE_AND_KEY : N := 0x360. (* pkcs11.h:738 *)
Definition CKM_CONCATENATE_BASE_AND_DATA : N := 0x362. (* pkcs11.h:739 *)
Definition CKM_CONCATENATE_DATA_AND_BASE : N := 0x363. (* pkcs11.h:740 *)
Definition CKM_XOR_BASE_AND_DATA : N := 0x364. (* pkcs11.h:741 *)
Definition CKM_EXTRACT_KEY_FROM_KEY : N := 0x365. (* pkcs11.h:742 *)
Definition CKM_SSL3_PRE_MASTER_KEY_GEN : N := 0x370. (* pkcs11.h:743 *)
Definition CKM_SSL3_MASTER_KEY_DERIVE : N := 0x371. (* pkcs11.h:744 *)
Definition CKM_SSL3_KEY_AND_MAC_DERIVE : N := 0x372. (* pkcs11.h:745 *)
Definition CKM_SSL3_MASTER_KEY_DERIVE_DH : N := 0x373. (* pkcs11.h:746 *)
Definition CKM_TLS_PRE_MASTER_KEY_GEN : N := 0x374. (* pkcs11.h:747 *)
Definition CKM_TLS_MASTER_KEY_DERIVE : N := 0x375. (* pkcs11.h:748 *)
Definition CKM_TLS_KEY_AND_MAC_DERIVE : N := 0x376. (* pkcs11.h:749 *)
Definition CKM_TLS_MASTER_KEY_DERIVE_DH : N := 0x377. (* pkcs11.h:750 *)
Definition CKM_TLS_PRF : N := 0x378. (* pkcs11.h:751 *)
Definition CKM_SSL3_MD5_MAC : N := 0x380. (* pkcs11.h:752 *)
Definition CKM_SSL3_SHA1_MAC : N := 0x381. (* pkcs11.h:753 *)
Definition CKM_MD5_KEY_DERIVATION : N := 0x390. (* pkcs11.h:754 *)
Definition CKM_MD2_KEY_DERIVATION : N := 0x391. (* pkcs11.h:755 *)
Definition CKM_SHA1_KEY_DERIVATION : N := 0x392. (* pkcs11.h:756 *)
Definition CKM_SHA256_KEY_DERIVATION : N := 0x393. (* pkcs11.h:757 *)
Definition CKM_SHA384_KEY_DERIVATION : N := 0x394. (* pkcs11.h:758 *)
Definition CKM_SHA512_KEY_DERIVATION : N := 0x395. (* pkcs11.h:759 *)
Definition CKM_SHA224_KEY_DERIVATION : N := 0x396. (* pkcs11.h:760 *)
Definition CKM_SHA3_256_KEY_DERIVATION : N := 0x397. (* pkcs11.h:761 *)
Definition CKM_SHA3_256_KEY_DERIVE : N := 0x397. (* pkcs11.h:762 *)
Definition CKM_SHA3_224_KEY_DERIVATION : N := 0x398. (* pkcs11.h:763 *)
Definition CKM_SHA3_224_KEY_DERIVE : N := 0x398. (* pkcs11.h:764 *)
Definition CKM_SHA3_384_KEY_DERIVATION : N := 0x399. (* pkcs11.h:765 *)
Definition CKM_SHA3_384_KEY_DERIVE : N := 0x399. (* pkcs11.h:766 *)
Definition CKM_SHA3_512_KEY_DERIVATION : N := 0x39a. (* pkcs11.h:767 *)
Definition CKM_SHA3_512_KEY_DERIVE : N := 0x39a. (* pkcs11.h:768 *)
Definition CKM_SHAKE_128_KEY_DERIVATION : N := 0x39b. (* pkcs11.h:769 *)
Definition CKM_SHAKE_128_KEY_DERIVE : N := 0x39b. (* pkcs11.h:770 *)
Definition CKM_SHAKE_256_KEY_DERIVATION : N := 0x39c. (* pkcs11.h:771 *)
Definition CKM_SHAKE_256_KEY_DERIVE : N := 0x39c. (* pkcs11.h:772 *)
Definition CKM_PBE_MD2_DES_CBC : N := 0x3a0. (* pkcs11.h:773 *)
Definition CKM_PBE_MD5_DES_CBC : N := 0x3a1. (* pkcs11.h:774 *)
Definition CKM_PBE_MD5_CAST_CBC : N := 0x3a2. (* pkcs11.h:775 *)
Definition CKM_PBE_MD5_CAST3_CBC : N := 0x3a3. (* pkcs11.h:776 *)
Definition CKM_PBE_MD5_CAST128_CBC : N := 0x3a4. (* pkcs11.h:777 *)
Definition CKM_PBE_SHA1_CAST128_CBC : N := 0x3a5. (* pkcs11.h:778 *)
Definition CKM_PBE_SHA1_RC4_128 : N := 0x3a6. (* pkcs11.h:779 *)
Definition CKM_PBE_SHA1_RC4_40 : N := 0x3a7. (* pkcs11.h:780 *)
Definition CKM_PBE_SHA1_DES3_EDE_CBC : N := 0x3a8. (* pkcs11.h:781 *)
Definition CKM_PBE_SHA1_DES2_EDE_CBC : N := 0x3a9. (* pkcs11.h:782 *)
Definition CKM_PBE_SHA1_RC2_128_CBC : N := 0x3aa. (* pkcs11.h:783 *)
Definition CKM_PBE_SHA1_RC2_40_CBC : N := 0x3ab. (* pkcs11.h:784 *)
Definition CKM_PKCS5_PBKD2 : N := 0x3b0. (* pkcs11.h:785 *)
Definition CKM_PBA_SHA1_WITH_SHA1_HMAC : N := 0x3c0. (* pkcs11.h:786 *)
Definition CKM_WTLS_PRE_MASTER_KEY_GEN : N := 0x3d0. (* pkcs11.h:787 *)
Definition CKM_WTLS_MASTER_KEY_DERIVE : N := 0x3d1. (* pkcs11.h:788 *)
Definition CKM_WTLS_MASTER_KEY_DERIVE_DH_ECC : N := 0x3d2. (* pkcs11.h:789 *)
Definition CKM_WTLS_PRF : N := 0x3d3. (* pkcs11.h:790 *)
Definition CKM_WTLS_SERVER_KEY_AND_MAC_DERIVE : N := 0x3d4. (* pkcs11.h:791 *)
Definition CKM_WTLS_CLIENT_KEY_AND_MAC_DERIVE : N := 0x3d5. (* pkcs11.h:792 *)
Definition CKM_TLS10_MAC_SERVER : N := 0x3d6. (* pkcs11.h:793 *)
Definition CKM_TLS10_MAC_CLIENT : N := 0x3d7. (* pkcs11.h:794 *)
Definition CKM_TLS12_MAC : N := 0x3d8. (* pkcs11.h:795 *)
Definition CKM_TLS12_KDF : N := 0x3d9. (* pkcs11.h:796 *)
Definition CKM_TLS12_MASTER_KEY_DERIVE : N := 0x3e0. (* pkcs11.h:797 *)
Definition CKM_TLS12_KEY_AND_MAC_DERIVE : N := 0x3e1. (* pkcs11.h:798 *)
Definition CKM_TLS12_MASTER_KEY_DERIVE_DH : N := 0x3e2. (* pkcs11.h:799 *)
Definition CKM_TLS12_KEY_SAFE_DERIVE : N := 0x3e3. (* pkcs11.h:800 *)
Definition CKM_TLS_MAC : N := 0x3e4. (* pkcs11.h:801 *)
Definition CKM_TLS_KDF : N := 0x3e5. (* pkcs11.h:802 *)
Definition CKM_KEY_WRAP_LYNKS : N := 0x400. (* pkcs11.h:803 *)
Definition CKM_KEY_WRAP_SET_OAEP : N := 0x401. (* pkcs11.h:804 *)
Definition CKM_CMS_SIG : N := 0x500. (* pkcs11.h:805 *)
Definition CKM_KIP_DERIVE : N := 0x510. (* pkcs11.h:806 *)
Definition CKM_KIP_WRAP : N := 0x511. (* pkcs11.h:807 *)
Definition CKM_KIP_MAC : N := 0x512. (* pkcs11.h:808 *)
Definition CKM_CAMELLIA_KEY_GEN : N := 0x550. (* pkcs11.h:809 *)
Definition CKM_CAMELLIA_ECB : N := 0x551. (* pkcs11.h:810 *)
Definition CKM_CAMELLIA_CBC : N := 0x552. (* pkcs11.h:811 *)
Definition CKM_CAMELLIA_MAC : N := 0x553. (* pkcs11.h:812 *)
Definition CKM_CAMELLIA_MAC_GENERAL : N := 0x554. (* pkcs11.h:813 *)
Definition CKM_CAMELLIA_CBC_PAD : N := 0x555. (* pkcs11.h:814 *)
Definition CKM_CAMELLIA_ECB_ENCRYPT_DATA : N := 0x556. (* pkcs11.h:815 *)
Definition CKM_CAMELLIA_CBC_ENCRYPT_DATA : N := 0x557. (* pkcs11.h:816 *)
Definition CKM_CAMELLIA_CTR : N := 0x558. (* pkcs11.h:817 *)
Definition CKM_ARIA_KEY_GEN : N := 0x560. (* pkcs11.h:818 *)
Definition CKM_ARIA_ECB : N := 0x561. (* pkcs11.h:819 *)
Definition CKM_ARIA_CBC : N := 0x562. (* pkcs11.h:820 *)
Definition CKM_ARIA_MAC : N := 0x563. (* pkcs11.h:821 *)
Definition CKM_ARIA_MAC_GENERAL : N := 0x564. (* pkcs11.h:822 *)
Definition CKM_ARIA_CBC_PAD : N := 0x565. (* pkcs11.h:823 *)
Definition CKM_ARIA_ECB_ENCRYPT_DATA : N := 0x566. (* pkcs11.h:824 *)
Definition CKM_ARIA_CBC_ENCRYPT_DATA : N := 0x567. (* pkcs11.h:825 *)
Definition CKM_SEED_KEY_GEN : N := 0x650. (* pkcs11.h:826 *)
Definition CKM_SEED_ECB : N := 0x651. (* pkcs11.h:827 *)
Definition CKM_SEED_CBC : N := 0x652. (* pkcs11.h:828 *)
Definition CKM_SEED_MAC : N := 0x653. (* pkcs11.h:829 *)
Definition CKM_SEED_MAC_GENERAL : N := 0x654. (* pkcs11.h:830 *)
Definition CKM_SEED_CBC_PAD : N := 0x655. (* pkcs11.h:831 *)
Definition CKM_SEED_ECB_ENCRYPT_DATA : N := 0x656. (* pkcs11.h:832 *)
Definition CKM_SEED_CBC_ENCRYPT_DATA : N := 0x657. (* pkcs11.h:833 *)
Definition CKM_SKIPJACK_KEY_GEN : N := 0x1000. (* pkcs11.h:834 *)
Definition CKM_SKIPJACK_ECB64 : N := 0x1001. (* pkcs11.h:835 *)
Definition CKM_SKIPJACK_CBC64 : N := 0x1002. (* pkcs11.h:836 *)
Definition CKM_SKIPJACK_OFB64 : N := 0x1003. (* pkcs11.h:837 *)
Definition CKM_SKIPJACK_CFB64 : N := 0x1004. (* pkcs11.h:838 *)
Definition CKM_SKIPJACK_CFB32 : N := 0x1005. (* pkcs11.h:839 *)
Definition CKM_SKIPJACK_CFB16 : N := 0x1006. (* pkcs11.h:840 *)
Definition CKM_SKIPJACK_CFB8 : N := 0x1007. (* pkcs11.h:841 *)
Definition CKM_SKIPJACK_WRAP : N := 0x1008. (* pkcs11.h:842 *)
Definition CKM_SKIPJACK_PRIVATE_WRAP : N := 0x1009. (* pkcs11.h:843 *)
Definition CKM_SKIPJACK_RELAYX : N := 0x100a. (* pkcs11.h:844 *)
Definition CKM_KEA_KEY_PAIR_GEN : N := 0x1010. (* pkcs11.h:845 *)
Definition CKM_KEA_KEY_DERIVE : N := 0x1011. (* pkcs11.h:846 *)
Definition CKM_KEA_DERIVE : N := 0x1012. (* pkcs11.h:847 *)
Definition CKM_FORTEZZA_TIMESTAMP : N := 0x1020. (* pkcs11.h:848 *)
Definition CKM_BATON_KEY_GEN : N := 0x1030. (* pkcs11.h:849 *)
Definition CKM_BATON_ECB128 : N := 0x1031. (* pkcs11.h:850 *)
Definition CKM_BATON_ECB96 : N := 0x1032. (* pkcs11.h:851 *)
Definition CKM_BATON_CBC128 : N := 0x1033. (* pkcs11.h:852 *)
Definition CKM_BATON_COUNTER : N := 0x1034. (* pkcs11.h:853 *)
Definition CKM_BATON_SHUFFLE : N := 0x1035. (* pkcs11.h:854 *)
Definition CKM_BATON_WRAP : N := 0x1036. (* pkcs11.h:855 *)
Definition CKM_EC_KEY_PAIR_GEN : N := 0x1040. (* pkcs11.h:856 *)
Definition CKM_ECDSA : N := 0x1041. (* pkcs11.h:857 *)
Definition CKM_ECDSA_SHA1 : N := 0x1042. (* pkcs11.h:858 *)
Definition CKM_ECDSA_SHA224 : N := 0x1043. (* pkcs11.h:859 *)
Definition CKM_ECDSA_SHA256 : N := 0x1044. (* pkcs11.h:860 *)
Definition CKM_ECDSA_SHA384 : N := 0x1045. (* pkcs11.h:861 *)
Definition CKM_ECDSA_SHA512 : N := 0x1046. (* pkcs11.h:862 *)
Definition CKM_EC_KEY_PAIR_GEN_W_EXTRA_BITS : N := 0x140b. (* pkcs11.h:863 *)
Definition CKM_ECDH1_DERIVE : N := 0x1050. (* pkcs11.h:864 *)
Definition CKM_ECDH1_COFACTOR_DERIVE : N := 0x1051. (* pkcs11.h:865 *)
Definition CKM_ECMQV_DERIVE : N := 0x1052. (* pkcs11.h:866 *)
Definition CKM_ECDH_AES_KEY_WRAP : N := 0x1053. (* pkcs11.h:867 *)
Definition CKM_RSA_AES_KEY_WRAP : N := 0x1054. (* pkcs11.h:868 *)
Definition CKM_JUNIPER_KEY_GEN : N := 0x1060. (* pkcs11.h:869 *)
Definition CKM_JUNIPER_ECB128 : N := 0x1061. (* pkcs11.h:870 *)
Definition CKM_JUNIPER_CBC128 : N := 0x1062. (* pkcs11.h:871 *)
Definition CKM_JUNIPER_COUNTER : N := 0x1063. (* pkcs11.h:872 *)
Definition CKM_JUNIPER_SHUFFLE : N := 0x1064. (* pkcs11.h:873 *)
Definition CKM_JUNIPER_WRAP : N := 0x1065. (* pkcs11.h:874 *)
Definition CKM_FASTHASH : N := 0x1070. (* pkcs11.h:875 *)
Definition CKM_AES_XTS : N := 0x1071. (* pkcs11.h:876 *)
Definition CKM_AES_XTS_KEY_GEN : N := 0x1072. (* pkcs11.h:877 *)
Definition CKM_AES_KEY_GEN : N := 0x1080. (* pkcs11.h:878 *)
Definition CKM_AES_ECB : N := 0x1081. (* pkcs11.h:879 *)
Definition CKM_AES_CBC : N := 0x1082. (* pkcs11.h:880 *)
Definition CKM_AES_MAC : N := 0x1083. (* pkcs11.h:881 *)
Definition CKM_AES_MAC_GENERAL : N := 0x1084. (* pkcs11.h:882 *)
Definition CKM_AES_CBC_PAD : N := 0x1085. (* pkcs11.h:883 *)
Definition CKM_AES_CTR : N := 0x1086. (* pkcs11.h:884 *)
Definition CKM_AES_GCM : N := 0x1087. (* pkcs11.h:885 *)
Definition CKM_AES_CCM : N := 0x1088. (* pkcs11.h:886 *)
Definition CKM_AES_CTS : N := 0x1089. (* pkcs11.h:887 *)
Definition CKM_AES_CMAC : N := 0x108a. (* pkcs11.h:888 *)
Definition CKM_AES_CMAC_GENERAL : N := 0x108b. (* pkcs11.h:889 *)
Definition CKM_AES_XCBC_MAC : N := 0x108c. (* pkcs11.h:890 *)
Definition CKM_AES_XCBC_MAC_96 : N := 0x108d. (* pkcs11.h:891 *)
Definition CKM_AES_GMAC : N := 0x108e. (* pkcs11.h:892 *)
Definition CKM_BLOWFISH_KEY_GEN : N := 0x1090. (* pkcs11.h:893 *)
Definition CKM_BLOWFISH_CBC : N := 0x1091. (* pkcs11.h:894 *)
Definition CKM_TWOFISH_KEY_GEN : N := 0x1092. (* pkcs11.h:895 *)
Definition CKM_TWOFISH_CBC : N := 0x1093. (* pkcs11.h:896 *)
Definition CKM_BLOWFISH_CBC_PAD : N := 0x1094. (* pkcs11.h:897 *)
Definition CKM_TWOFISH_CBC_PAD : N := 0x1095. (* pkcs11.h:898 *)
Definition CKM_DES_ECB_ENCRYPT_DATA : N := 0x1100. (* pkcs11.h:899 *)
Definition CKM_DES_CBC_ENCRYPT_DATA : N := 0x1101. (* pkcs11.h:900 *)
Definition CKM_DES3_ECB_ENCRYPT_DATA : N := 0x1102. (* pkcs11.h:901 *)
Definition CKM_DES3_CBC_ENCRYPT_DATA : N := 0x1103. (* pkcs11.h:902 *)
Definition CKM_AES_ECB_ENCRYPT_DATA : N := 0x1104. (* pkcs11.h:903 *)
Definition CKM_AES_CBC_ENCRYPT_DATA : N := 0x1105. (* pkcs11.h:904 *)
Definition CKM_GOSTR3410_KEY_PAIR_GEN : N := 0x1200. (* pkcs11.h:905 *)
Definition CKM_GOSTR3410 : N := 0x1201. (* pkcs11.h:906 *)
Definition CKM_GOSTR3410_WITH_GOSTR3411 : N := 0x1202. (* pkcs11.h:907 *)
Definition CKM_GOSTR3410_KEY_WRAP : N := 0x1203. (* pkcs11.h:908 *)
Definition CKM_GOSTR3410_DERIVE : N := 0x1204. (* pkcs11.h:909 *)
Definition CKM_GOSTR3411 : N := 0x1210. (* pkcs11.h:910 *)
Definition CKM_GOSTR3411_HMAC : N := 0x1211. (* pkcs11.h:911 *)
Definition CKM_GOST28147_KEY_GEN : N := 0x1220. (* pkcs11.h:912 *)
Definition CKM_GOST28147_ECB : N := 0x1221. (* pkcs11.h:913 *)
Definition CKM_GOST28147 : N := 0x1222. (* pkcs11.h:914 *)
Definition CKM_GOST28147_MAC : N := 0x1223. (* pkcs11.h:915 *)
Definition CKM_GOST28147_KEY_WRAP : N := 0x1224. (* pkcs11.h:916 *)
Definition CKM_CHACHA20_KEY_GEN : N := 0x1225. (* pkcs11.h:917 *)
Definition CKM_CHACHA20 : N := 0x1226. (* pkcs11.h:918 *)
Definition CKM_POLY1305_KEY_GEN : N := 0x1227. (* pkcs11.h:919 *)
Definition CKM_POLY1305 : N := 0x1228. (* pkcs11.h:920 *)
Definition CKM_DSA_PARAMETER_GEN : N := 0x2000. (* pkcs11.h:921 *)
Definition CKM_DH_PKCS_PARAMETER_GEN : N := 0x2001. (* pkcs11.h:922 *)
Definition CKM_X9_42_DH_PARAMETER_GEN : N := 0x2002. (* pkcs11.h:923 *)
Definition CKM_DSA_PROBABILISTIC_PARAMETER_GEN : N := 0x2003. (* pkcs11.h:924 *)
Definition CKM_DSA_SHAWE_TAYLOR_PARAMETER_GEN : N := 0x2004. (* pkcs11.h:925 *)
Definition CKM_DSA_FIPS_G_GEN : N := 0x2005. (* pkcs11.h:926 *)
Definition CKM_AES_OFB : N := 0x2104. (* pkcs11.h:927 *)
Definition CKM_AES_CFB64 : N := 0x2105. (* pkcs11.h:928 *)
Definition CKM_AES_CFB8 : N := 0x2106. (* pkcs11.h:929 *)
Definition CKM_AES_CFB128 : N := 0x2107. (* pkcs11.h:930 *)
Definition CKM_AES_CFB1 : N := 0x2108. (* pkcs11.h:931 *)
Definition CKM_AES_KEY_WRAP : N := 0x2109. (* pkcs11.h:932 *)
Definition CKM_AES_KEY_WRAP_PAD : N := 0x210a. (* pkcs11.h:933 *)
Definition CKM_AES_KEY_WRAP_KWP : N := 0x210b. (* pkcs11.h:934 *)
Definition CKM_AES_KEY_WRAP_PKCS7 : N := 0x210c. (* pkcs11.h:935 *)
Definition CKM_RSA_PKCS_TPM_1_1 : N := 0x4001. (* pkcs11.h:936 *)
Definition CKM_RSA_PKCS_OAEP_TPM_1_1 : N := 0x4002. (* pkcs11.h:937 *)
Definition CKM_SHA_1_KEY_GEN : N := 0x4003. (* pkcs11.h:938 *)
Definition CKM_SHA224_KEY_GEN : N := 0x4004. (* pkcs11.h:939 *)
Definition CKM_SHA256_KEY_GEN : N := 0x4005. (* pkcs11.h:940 *)
Definition CKM_SHA384_KEY_GEN : N := 0x4006. (* pkcs11.h:941 *)
Definition CKM_SHA512_KEY_GEN : N := 0x4007. (* pkcs11.h:942 *)
Definition CKM_SHA512_224_KEY_GEN : N := 0x4008. (* pkcs11.h:943 *)
Definition CKM_SHA512_256_KEY_GEN : N := 0x4009. (* pkcs11.h:944 *)
Definition CKM_SHA512_T_KEY_GEN : N := 0x400a. (* pkcs11.h:945 *)
Definition CKM_NULL : N := 0x400b. (* pkcs11.h:946 *)
Definition CKM_BLAKE2B_160 : N := 0x400c. (* pkcs11.h:947 *)
Definition CKM_BLAKE2B_160_HMAC : N := 0x400d. (* pkcs11.h:948 *)
Definition CKM_BLAKE2B_160_HMAC_GENERAL : N := 0x400e. (* pkcs11.h:949 *)
Definition CKM_BLAKE2B_160_KEY_DERIVE : N := 0x400f. (* pkcs11.h:950 *)
Definition CKM_BLAKE2B_160_KEY_GEN : N := 0x4010. (* pkcs11.h:951 *)
Definition CKM_BLAKE2B_256 : N := 0x4011. (* pkcs11.h:952 *)
Definition CKM_BLAKE2B_256_HMAC : N := 0x4012. (* pkcs11.h:953 *)
Definition CKM_BLAKE2B_256_HMAC_GENERAL : N := 0x4013. (* pkcs11.h:954 *)
Definition CKM_BLAKE2B_256_KEY_DERIVE : N := 0x4014. (* pkcs11.h:955 *)
Definition CKM_BLAKE2B_256_KEY_GEN : N := 0x4015. (* pkcs11.h:956 *)
Definition CKM_BLAKE2B_384 : N := 0x4016. (* pkcs11.h:957 *)
Definition CKM_BLAKE2B_384_HMAC : N := 0x4017. (* pkcs11.h:958 *)
Definition CKM_BLAKE2B_384_HMAC_GENERAL : N := 0x4018. (* pkcs11.h:959 *)
Definition CKM_BLAKE2B_384_KEY_DERIVE : N := 0x4019. (* pkcs11.h:960 *)
Definition CKM_BLAKE2B_384_KEY_GEN : N := 0x401a. (* pkcs11.h:961 *)
Definition CKM_BLAKE2B_512 : N := 0x401b. (* pkcs11.h:962 *)
Definition CKM_BLAKE2B_512_HMAC : N := 0x401c. (* pkcs11.h:963 *)
Definition CKM_BLAKE2B_512_HMAC_GENERAL : N := 0x401d. (* pkcs11.h:964 *)
Definition CKM_BLAKE2B_512_KEY_DERIVE : N := 0x401e. (* pkcs11.h:965 *)
Definition CKM_BLAKE2B_512_KEY_GEN : N := 0x401f. (* pkcs11.h:966 *)
Definition CKM_SALSA20 : N := 0x4020. (* pkcs11.h:967 *)
Definition CKM_CHACHA20_POLY1305 : N := 0x4021. (* pkcs11.h:968 *)
Definition CKM_SALSA20_POLY1305 : N := 0x4022. (* pkcs11.h:969 *)
Definition CKM_X3DH_INITIALIZE : N := 0x4023. (* pkcs11.h:970 *)
Definition CKM_X3DH_RESPOND : N := 0x4024. (* pkcs11.h:971 *)
Definition CKM_X2RATCHET_INITIALIZE : N := 0x4025. (* pkcs11.h:972 *)
Definition CKM_X2RATCHET_RESPOND : N := 0x4026. (* pkcs11.h:973 *)
Definition CKM_X2RATCHET_ENCRYPT : N := 0x4027. (* pkcs11.h:974 *)
Definition CKM_X2RATCHET_DECRYPT : N := 0x4028. (* pkcs11.h:975 *)
Definition CKM_XEDDSA : N := 0x4029. (* pkcs11.h:976 *)
Definition CKM_HKDF_DERIVE : N := 0x402a. (* pkcs11.h:977 *)
Definition CKM_HKDF_DATA : N := 0x402b. (* pkcs11.h:978 *)
Definition CKM_HKDF_KEY_GEN : N := 0x402c. (* pkcs11.h:979 *)
Definition CKM_SALSA20_KEY_GEN : N := 0x402d. (* pkcs11.h:980 *)
Definition CKM_ECDSA_SHA3_224 : N := 0x1047. (* pkcs11.h:981 *)
Definition CKM_ECDSA_SHA3_256 : N := 0x1048. (* pkcs11.h:982 *)
Definition CKM_ECDSA_SHA3_384 : N := 0x1049. (* pkcs11.h:983 *)
Definition CKM_ECDSA_SHA3_512 : N := 0x104a. (* pkcs11.h:984 *)
Definition CKM_EC_EDWARDS_KEY_PAIR_GEN : N := 0x1055. (* pkcs11.h:985 *)
Definition CKM_EC_MONTGOMERY_KEY_PAIR_GEN : N := 0x1056. (* pkcs11.h:986 *)
Definition CKM_EDDSA : N := 0x1057. (* pkcs11.h:987 *)
Definition CKM_SP800_108_COUNTER_KDF : N := 0x3ac. (* pkcs11.h:988 *)
Definition CKM_SP800_108_FEEDBACK_KDF : N := 0x3ad. (* pkcs11.h:989 *)
Definition CKM_SP800_108_DOUBLE_PIPELINE_KDF : N := 0x3ae. (* pkcs11.h:990 *)
Definition CKM_IKE2_PRF_PLUS_DERIVE : N := 0x402e. (* pkcs11.h:991 *)
Definition CKM_IKE_PRF_DERIVE : N := 0x402f. (* pkcs11.h:992 *)
Definition CKM_IKE1_PRF_DERIVE : N := 0x4030. (* pkcs11.h:993 *)
Definition CKM_IKE1_EXTENDED_DERIVE : N := 0x4031. (* pkcs11.h:994 *)
Definition CKM_HSS_KEY_PAIR_GEN : N := 0x4032. (* pkcs11.h:995 *)
Definition CKM_HSS : N := 0x4033. (* pkcs11.h:996 *)
Definition CKM_XMSS_KEY_PAIR_GEN : N := 0x4034. (* pkcs11.h:997 *)
Definition CKM_XMSSMT_KEY_PAIR_GEN : N := 0x4035. (* pkcs11.h:998 *)
Definition CKM_XMSS : N := 0x4036. (* pkcs11.h:999 *)
Definition CKM_XMSSMT : N := 0x4037. (* pkcs11.h:1000 *)
Definition CKM_ECDH_X_AES_KEY_WRAP : N := 0x4038. (* pkcs11.h:1001 *)
Definition CKM_ECDH_COF_AES_KEY_WRAP : N := 0x4039. (* pkcs11.h:1002 *)
Definition CKM_PUB_KEY_FROM_PRIV_KEY : N := 0x403a. (* pkcs11.h:1003 *)
Definition CKM_VENDOR_DEFINED : N := 0x80000000. (* pkcs11.h:1004 *)
Definition CKM_CAST5_KEY_GEN : N := 0x320. (* pkcs11.h:1007 *)
Definition CKM_CAST5_ECB : N := 0x321. (* pkcs11.h:1008 *)
Definition CKM_CAST5_CBC : N := 0x322. (* pkcs11.h:1009 *)
Definition CKM_CAST5_MAC : N := 0x323. (* pkcs11.h:1010 *)
Definition CKM_CAST5_MAC_GENERAL : N := 0x324. (* pkcs11.h:1011 *)
Definition CKM_CAST5_CBC_PAD : N := 0x325. (* pkcs11.h:1012 *)
Definition CKM_PBE_MD5_CAST5_CBC : N := 0x3a4. (* pkcs11.h:1013 *)
Definition CKM_PBE_SHA1_CAST5_CBC : N := 0x3a5. (* pkcs11.h:1014 *)
Definition CKM_ECDSA_KEY_PAIR_GEN : N := 0x1040. (* pkcs11.h:1015 *)
Definition CKM_DSA_PROBABLISTIC_PARAMETER_GEN : N := 0x2003. (* pkcs11.h:1016 *)
Definition CKO_DATA : N := 0x0. (* pkcs11.h:1024 *)
Definition CKO_CERTIFICATE : N := 0x1. (* pkcs11.h:1025 *)
Definition CKO_PUBLIC_KEY : N := 0x2. (* pkcs11.h:1026 *)
Definition CKO_PRIVATE_KEY : N := 0x3. (* pkcs11.h:1027 *)
Definition CKO_SECRET_KEY : N := 0x4. (* pkcs11.h:1028 *)
Definition CKO_HW_FEATURE : N := 0x5. (* pkcs11.h:1029 *)
Definition CKO_DOMAIN_PARAMETERS : N := 0x6. (* pkcs11.h:1030 *)
Definition CKO_MECHANISM : N := 0x7. (* pkcs11.h:1031 *)
Definition CKO_OTP_KEY : N := 0x8. (* pkcs11.h:1032 *)
Definition CKO_PROFILE : N := 0x9. (* pkcs11.h:1033 *)
Definition CKO_VALIDATION : N := 0xa. (* pkcs11.h:1034 *)
Definition CKO_TRUST : N := 0xb. (* pkcs11.h:1035 *)
Definition CKO_VENDOR_DEFINED : N := 0x80000000. (* pkcs11.h:1036 *)
Definition CKP_INVALID_ID : N := 0x0. (* pkcs11.h:1039 *)
Definition CKP_BASELINE_PROVIDER : N := 0x1. (* pkcs11.h:1040 *)
Definition CKP_EXTENDED_PROVIDER : N := 0x2. (* pkcs11.h:1041 *)
Definition CKP_AUTHENTICATION_TOKEN : N := 0x3. (* pkcs11.h:1042 *)
Definition CKP_PUBLIC_CERTIFICATES_TOKEN : N := 0x4. (* pkcs11.h:1043 *)
Definition CKP_COMPLETE_PROVIDER : N := 0x5. (* pkcs11.h:1044 *)
Definition CKP_HKDF_TLS_TOKEN : N := 0x6. (* pkcs11.h:1045 *)
Definition CKP_VENDOR_DEFINED : N := 0x80000000. (* pkcs11.h:1046 *)
Definition CKP_PKCS5_PBKD2_HMAC_SHA1 : N := 0x1. (* pkcs11.h:1049 *)
Definition CKP_PKCS5_PBKD2_HMAC_GOSTR3411 : N := 0x2. (* pkcs11.h:1050 *)
Definition CKP_PKCS5_PBKD2_HMAC_SHA224 : N := 0x3. (* pkcs11.h:1051 *)
Definition CKP_PKCS5_PBKD2_HMAC_SHA256 : N := 0x4. (* pkcs11.h:1052 *)
Definition CKP_PKCS5_PBKD2_HMAC_SHA384 : N := 0x5. (* pkcs11.h:1053 *)
Definition CKP_PKCS5_PBKD2_HMAC_SHA512 : N := 0x6. (* pkcs11.h:1054 *)
Definition CKP_PKCS5_PBKD2_HMAC_SHA512_224 : N := 0x7. (* pkcs11.h:1055 *)
Definition CKP_PKCS5_PBKD2_HMAC_SHA512_256 : N := 0x8. (* pkcs11.h:1056 *)
Definition CKP_ML_DSA_44 : N := 0x1. (* pkcs11.h:1059 *)
Definition CKP_ML_DSA_65 : N := 0x2. (* pkcs11.h:1060 *)
Definition CKP_ML_DSA_87 : N := 0x3. (* pkcs11.h:1061 *)
Definition CKP_ML_KEM_512 : N := 0x1. (* pkcs11.h:1064 *)
Definition CKP_ML_KEM_768 : N := 0x2. (* pkcs11.h:1065 *)
Definition CKP_ML_KEM_1024 : N := 0x3. (* pkcs11.h:1066 *)
Definition CKP_SLH_DSA_SHA2_128S : N := 0x1. (* pkcs11.h:1069 *)
Definition CKP_SLH_DSA_SHAKE_128S : N := 0x2. (* pkcs11.h:1070 *)
Definition CKP_SLH_DSA_SHA2_128F : N := 0x3. (* pkcs11.h:1071 *)
Definition CKP_SLH_DSA_SHAKE_128F : N := 0x4. (* pkcs11.h:1072 *)
Definition CKP_SLH_DSA_SHA2_192S : N := 0x5. (* pkcs11.h:1073 *)
Definition CKP_SLH_DSA_SHAKE_192S : N := 0x6. (* pkcs11.h:1074 *)
Definition CKP_SLH_DSA_SHA2_192F : N := 0x7. (* pkcs11.h:1075 *)
Definition CKP_SLH_DSA_SHAKE_192F : N := 0x8. (* pkcs11.h:1076 *)
Definition CKP_SLH_DSA_SHA2_256S : N := 0x9. (* pkcs11.h:1077 *)
Definition CKP_SLH_DSA_SHAKE_256S : N := 0xa. (* pkcs11.h:1078 *)
Definition CKP_SLH_DSA_SHA2_256F : N := 0xb. (* pkcs11.h:1079 *)
Definition CKP_SLH_DSA_SHAKE_256F : N := 0xc. (* pkcs11.h:1080 *)
Definition CKR_OK : N := 0x0. (* pkcs11.h:1083 *)
Definition CKR_CANCEL : N := 0x1. (* pkcs11.h:1084 *)
Definition CKR_HOST_MEMORY : N := 0x2. (* pkcs11.h:1085 *)
Definition CKR_SLOT_ID_INVALID : N := 0x3. (* pkcs11.h:1086 *)
Definition CKR_GENERAL_ERROR : N := 0x5. (* pkcs11.h:1087 *)
Definition CKR_FUNCTION_FAILED : N := 0x6. (* pkcs11.h:1088 *)
Definition CKR_ARGUMENTS_BAD : N := 0x7. (* pkcs11.h:1089 *)
Definition CKR_NO_EVENT : N := 0x8. (* pkcs11.h:1090 *)
Definition CKR_NEED_TO_CREATE_THREADS : N := 0x9. (* pkcs11.h:1091 *)
Definition CKR_CANT_LOCK : N := 0xa. (* pkcs11.h:1092 *)
Definition CKR_ATTRIBUTE_READ_ONLY : N := 0x10. (* pkcs11.h:1093 *)
Definition CKR_ATTRIBUTE_SENSITIVE : N := 0x11. (* pkcs11.h:1094 *)
Definition CKR_ATTRIBUTE_TYPE_INVALID : N := 0x12. (* pkcs11.h:1095 *)
Definition CKR_ATTRIBUTE_VALUE_INVALID : N := 0x13. (* pkcs11.h:1096 *)
Definition CKR_ACTION_PROHIBITED : N := 0x1b. (* pkcs11.h:1097 *)
Definition CKR_DATA_INVALID : N := 0x20. (* pkcs11.h:1098 *)
Definition CKR_DATA_LEN_RANGE : N := 0x21. (* pkcs11.h:1099 *)
Definition CKR_DEVICE_ERROR : N := 0x30. (* pkcs11.h:1100 *)
Definition CKR_DEVICE_MEMORY : N := 0x31. (* pkcs11.h:1101 *)
Definition CKR_DEVICE_REMOVED : N := 0x32. (* pkcs11.h:1102 *)
Definition CKR_ENCRYPTED_DATA_INVALID : N := 0x40. (* pkcs11.h:1103 *)
Definition CKR_ENCRYPTED_DATA_LEN_RANGE : N := 0x41. (* pkcs11.h:1104 *)
Definition CKR_AEAD_DECRYPT_FAILED : N := 0x42. (* pkcs11.h:1105 *)
Definition CKR_FUNCTION_CANCELED : N := 0x50. (* pkcs11.h:1106 *)
Definition CKR_FUNCTION_NOT_PARALLEL : N := 0x51. (* pkcs11.h:1107 *)
Definition CKR_FUNCTION_NOT_SUPPORTED : N := 0x54. (* pkcs11.h:1108 *)
Definition CKR_KEY_HANDLE_INVALID : N := 0x60. (* pkcs11.h:1109 *)
Definition CKR_KEY_SIZE_RANGE : N := 0x62. (* pkcs11.h:1110 *)
Definition CKR_KEY_TYPE_INCONSISTENT : N := 0x63. (* pkcs11.h:1111 *)
Definition CKR_KEY_NOT_NEEDED : N := 0x64. (* pkcs11.h:1112 *)
Definition CKR_KEY_CHANGED : N := 0x65. (* pkcs11.h:1113 *)
Definition CKR_KEY_NEEDED : N := 0x66. (* pkcs11.h:1114 *)
Definition CKR_KEY_INDIGESTIBLE : N := 0x67. (* pkcs11.h:1115 *)
Definition CKR_KEY_FUNCTION_NOT_PERMITTED : N := 0x68. (* pkcs11.h:1116 *)
Definition CKR_KEY_NOT_WRAPPABLE : N := 0x69. (* pkcs11.h:1117 *)
Definition CKR_KEY_UNEXTRACTABLE : N := 0x6a. (* pkcs11.h:1118 *)
Definition CKR_MECHANISM_INVALID : N := 0x70. (* pkcs11.h:1119 *)
Definition CKR_MECHANISM_PARAM_INVALID : N := 0x71. (* pkcs11.h:1120 *)
Definition CKR_OBJECT_HANDLE_INVALID : N := 0x82. (* pkcs11.h:1121 *)
Definition CKR_OPERATION_ACTIVE : N := 0x90. (* pkcs11.h:1122 *)
Definition CKR_OPERATION_NOT_INITIALIZED : N := 0x91. (* pkcs11.h:1123 *)
Definition CKR_PIN_INCORRECT : N := 0xa0. (* pkcs11.h:1124 *)
Definition CKR_PIN_INVALID : N := 0xa1. (* pkcs11.h:1125 *)
Definition CKR_PIN_LEN_RANGE : N := 0xa2. (* pkcs11.h:1126 *)
Definition CKR_PIN_EXPIRED : N := 0xa3. (* pkcs11.h:1127 *)
Definition CKR_PIN_LOCKED : N := 0xa4. (* pkcs11.h:1128 *)
Definition CKR_SESSION_CLOSED : N := 0xb0. (* pkcs11.h:1129 *)
Definition CKR_SESSION_COUNT : N := 0xb1. (* pkcs11.h:1130 *)
Definition CKR_SESSION_HANDLE_INVALID : N := 0xb3. (* pkcs11.h:1131 *)
Definition CKR_SESSION_PARALLEL_NOT_SUPPORTED : N := 0xb4. (* pkcs11.h:1132 *)
Definition CKR_SESSION_READ_ONLY : N := 0xb5. (* pkcs11.h:1133 *)
Definition CKR_SESSION_EXISTS : N := 0xb6. (* pkcs11.h:1134 *)
Definition CKR_SESSION_READ_ONLY_EXISTS : N := 0xb7. (* pkcs11.h:1135 *)
Definition CKR_SESSION_READ_WRITE_SO_EXISTS : N := 0xb8. (* pkcs11.h:1136 *)
Definition CKR_SIGNATURE_INVALID : N := 0xc0. (* pkcs11.h:1137 *)
Definition CKR_SIGNATURE_LEN_RANGE : N := 0xc1. (* pkcs11.h:1138 *)
Definition CKR_TEMPLATE_INCOMPLETE : N := 0xd0. (* pkcs11.h:1139 *)
Definition CKR_TEMPLATE_INCONSISTENT : N := 0xd1. (* pkcs11.h:1140 *)
Definition CKR_TOKEN_NOT_PRESENT : N := 0xe0. (* pkcs11.h:1141 *)
Definition CKR_TOKEN_NOT_RECOGNIZED : N := 0xe1. (* pkcs11.h:1142 *)
Definition CKR_TOKEN_WRITE_PROTECTED : N := 0xe2. (* pkcs11.h:1143 *)
Definition CKR_UNWRAPPING_KEY_HANDLE_INVALID : N := 0xf0. (* pkcs11.h:1144 *)
Definition CKR_UNWRAPPING_KEY_SIZE_RANGE : N := 0xf1. (* pkcs11.h:1145 *)
Definition CKR_UNWRAPPING_KEY_TYPE_INCONSISTENT : N := 0xf2. (* pkcs11.h:1146 *)
Definition CKR_USER_ALREADY_LOGGED_IN : N := 0x100. (* pkcs11.h:1147 *)
Definition CKR_USER_NOT_LOGGED_IN : N := 0x101. (* pkcs11.h:1148 *)
Definition CKR_USER_PIN_NOT_INITIALIZED : N := 0x102. (* pkcs11.h:1149 *)
Definition CKR_USER_TYPE_INVALID : N := 0x103. (* pkcs11.h:1150 *)
Definition CKR_USER_ANOTHER_ALREADY_LOGGED_IN : N := 0x104. (* pkcs11.h:1151 *)
Definition CKR_USER_TOO_MANY_TYPES : N := 0x105. (* pkcs11.h:1152 *)
Definition CKR_WRAPPED_KEY_INVALID : N := 0x110. (* pkcs11.h:1153 *)
Definition CKR_WRAPPED_KEY_LEN_RANGE : N := 0x112. (* pkcs11.h:1154 *)
Definition CKR_WRAPPING_KEY_HANDLE_INVALID : N := 0x113. (* pkcs11.h:1155 *)
Definition CKR_WRAPPING_KEY_SIZE_RANGE : N := 0x114. (* pkcs11.h:1156 *)
Definition CKR_WRAPPING_KEY_TYPE_INCONSISTENT : N := 0x115. (* pkcs11.h:1157 *)
Definition CKR_RANDOM_SEED_NOT_SUPPORTED : N := 0x120. (* pkcs11.h:1158 *)
Definition CKR_RANDOM_NO_RNG : N := 0x121. (* pkcs11.h:1159 *)
Definition CKR_DOMAIN_PARAMS_INVALID : N := 0x130. (* pkcs11.h:1160 *)
Definition CKR_CURVE_NOT_SUPPORTED : N := 0x140. (* pkcs11.h:1161 *)
Definition CKR_BUFFER_TOO_SMALL : N := 0x150. (* pkcs11.h:1162 *)
Definition CKR_SAVED_STATE_INVALID : N := 0x160. (* pkcs11.h:1163 *)
Definition CKR_INFORMATION_SENSITIVE : N := 0x170. (* pkcs11.h:1164 *)
Definition CKR_STATE_UNSAVEABLE : N := 0x180. (* pkcs11.h:1165 *)
Definition CKR_CRYPTOKI_NOT_INITIALIZED : N := 0x190. (* pkcs11.h:1166 *)
Definition CKR_CRYPTOKI_ALREADY_INITIALIZED : N := 0x191. (* pkcs11.h:1167 *)
Definition CKR_MUTEX_BAD : N := 0x1a0. (* pkcs11.h:1168 *)
Definition CKR_MUTEX_NOT_LOCKED : N := 0x1a1. (* pkcs11.h:1169 *)
Definition CKR_NEW_PIN_MODE : N := 0x1b0. (* pkcs11.h:1170 *)
Definition CKR_NEXT_OTP : N := 0x1b1. (* pkcs11.h:1171 *)
Definition CKR_EXCEEDED_MAX_ITERATIONS : N := 0x1b5. (* pkcs11.h:1172 *)
Definition CKR_FIPS_SELF_TEST_FAILED : N := 0x1b6. (* pkcs11.h:1173 *)
Definition CKR_LIBRARY_LOAD_FAILED : N := 0x1b7. (* pkcs11.h:1174 *)
Definition CKR_PIN_TOO_WEAK : N := 0x1b8. (* pkcs11.h:1175 *)
Definition CKR_PUBLIC_KEY_INVALID : N := 0x1b9. (* pkcs11.h:1176 *)
Definition CKR_FUNCTION_REJECTED : N := 0x200. (* pkcs11.h:1177 *)
Definition CKR_TOKEN_RESOURCE_EXCEEDED : N := 0x201. (* pkcs11.h:1178 *)
Definition CKR_OPERATION_CANCEL_FAILED : N := 0x202. (* pkcs11.h:1179 *)
Definition CKR_KEY_EXHAUSTED : N := 0x203. (* pkcs11.h:1180 *)
Definition CKR_PENDING : N := 0x204. (* pkcs11.h:1181 *)
Definition CKR_SESSION_ASYNC_NOT_SUPPORTED : N := 0x205. (* pkcs11.h:1182 *)
Definition CKR_SEED_RANDOM_REQUIRED : N := 0x206. (* pkcs11.h:1183 *)
Definition CKR_OPERATION_NOT_VALIDATED : N := 0x207. (* pkcs11.h:1184 *)
Definition CKR_TOKEN_NOT_INITIALIZED : N := 0x208. (* pkcs11.h:1185 *)
Definition CKR_PARAMETER_SET_NOT_SUPPORTED : N := 0x209. (* pkcs11.h:1186 *)
Definition CKR_VENDOR_DEFINED : N := 0x80000000. (* pkcs11.h:1187 *)
Definition CKS_RO_PUBLIC_SESSION : N := 0x0. (* pkcs11.h:1190 *)
Definition CKS_RO_USER_FUNCTIONS : N := 0x1. (* pkcs11.h:1191 *)
Definition CKS_RW_PUBLIC_SESSION : N := 0x2. (* pkcs11.h:1192 *)
Definition CKS_RW_USER_FUNCTIONS : N := 0x3. (* pkcs11.h:1193 *)
Definition CKS_RW_SO_FUNCTIONS : N := 0x4. (* pkcs11.h:1194 *)
Definition CKS_LAST_VALIDATION_OK : N := 0x1. (* pkcs11.h:1197 *)
Definition CKT_TRUST_UNKNOWN : N := 0x0. (* pkcs11.h:1200 *)
Definition CKT_TRUSTED : N := 0x1. (* pkcs11.h:1201 *)
Definition CKT_TRUST_ANCHOR : N := 0x2. (* pkcs11.h:1202 *)
Definition CKT_NOT_TRUSTED : N := 0x3. (* pkcs11.h:1203 *)
Definition CKT_TRUST_MUST_VERIFY_TRUST : N := 0x4. (* pkcs11.h:1204 *)
Definition CKU_SO : N := 0x0. (* pkcs11.h:1207 *)
Definition CKU_USER : N := 0x1. (* pkcs11.h:1208 *)
Definition CKU_CONTEXT_SPECIFIC : N := 0x2. (* pkcs11.h:1209 *)
Definition CK_UNAVAILABLE_INFORMATION : N := 0xffffffffffffffff. (* src/pkcs11/mod.rs:23 *)
Definition KRY_VENDOR_OFFSET : N := 0x8007678b. (* src/pkcs11/vendor.rs:8 *)
Definition KRO_TOKEN_DATA : N := 0x8007678c. (* src/pkcs11/vendor.rs:11 *)
Definition KRA_MAX_LOGIN_ATTEMPTS : N := 0x8007678c. (* src/pkcs11/vendor.rs:15 *)
Definition KRA_LOGIN_ATTEMPTS : N := 0x8007678d. (* src/pkcs11/vendor.rs:16 *)
Definition KRR_SLOT_CONFIG : N := 0x8007678d. (* src/pkcs11/vendor.rs:23 *)
Definition KRR_CONFIG_ERROR : N := 0x8007678e. (* src/pkcs11/vendor.rs:24 *)
Definition KRY_UNSPEC : N := 0xffffffffffffffff. (* src/pkcs11/vendor.rs:26 *)
Definition KRM_SSHKDF_DERIVE : N := 0x8007678c. (* src/pkcs11/vendor.rs:35 *)
Definition NSS_VENDOR_OFFSET : N := 0xce534350. (* src/pkcs11/vendor.rs *)
Definition CKO_NSS_TRUST : N := 0xce534353. (* src/pkcs11/vendor.rs *)
Definition CKA_NSS_TRUST_DIGITAL_SIGNATURE : N := 0xce536351. (* src/pkcs11/vendor.rs *)
Definition CKA_NSS_TRUST_NON_REPUDIATION : N := 0xce536352. (* src/pkcs11/vendor.rs *)
Definition CKA_NSS_TRUST_KEY_ENCIPHERMENT : N := 0xce536353. (* src/pkcs11/vendor.rs *)
Definition CKA_NSS_TRUST_DATA_ENCIPHERMENT : N := 0xce536354. (* src/pkcs11/vendor.rs *)
Definition CKA_NSS_TRUST_KEY_AGREEMENT : N := 0xce536355. (* src/pkcs11/vendor.rs *)
Definition CKA_NSS_TRUST_KEY_CERT_SIGN : N := 0xce536356. (* src/pkcs11/vendor.rs *)
Definition CKA_NSS_TRUST_CRL_SIGN : N := 0xce536357. (* src/pkcs11/vendor.rs *)
Definition CKA_NSS_TRUST_SERVER_AUTH : N := 0xce536358. (* src/pkcs11/vendor.rs *)
Definition CKA_NSS_TRUST_CLIENT_AUTH : N := 0xce536359. (* src/pkcs11/vendor.rs *)
Definition CKA_NSS_TRUST_CODE_SIGNING : N := 0xce53635a. (* src/pkcs11/vendor.rs *)
Definition CKA_NSS_TRUST_EMAIL_PROTECTION : N := 0xce53635b. (* src/pkcs11/vendor.rs *)
Definition CKA_NSS_TRUST_IPSEC_END_SYSTEM : N := 0xce53635c. (* src/pkcs11/vendor.rs *)
Definition CKA_NSS_TRUST_IPSEC_TUNNEL : N := 0xce53635d. (* src/pkcs11/vendor.rs *)
Definition CKA_NSS_TRUST_IPSEC_USER : N := 0xce53635e. (* src/pkcs11/vendor.rs *)
Definition CKA_NSS_TRUST_TIME_STAMPING : N := 0xce53635f. (* src/pkcs11/vendor.rs *)
Definition CKA_NSS_TRUST_STEP_UP_APPROVED : N := 0xce536360. (* src/pkcs11/vendor.rs *)
Definition CKA_NSS_CERT_SHA1_HASH : N := 0xce5363b4. (* src/pkcs11/vendor.rs *)
Definition CKA_NSS_CERT_MD5_HASH : N := 0xce5363b5. (* src/pkcs11/vendor.rs *)
