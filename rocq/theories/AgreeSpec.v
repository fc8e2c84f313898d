(* What key agreement should give: PKCS #11 v3.2 6.3.19-21 (CKM_ECDH1_DERIVE), 6.4.9 (CKM_DH_PKCS_DERIVE). *)
From Verif Require Import Base Pkcs11 DerSpec.
Local Open Scope N_scope.

(* "the key type of the template determines how many bytes are taken, from the end of the secret" *)
Definition is_tail (n : N) (s v : bytes) : Prop := blen v = n /\ exists p, s = p ++ v.
(* The functions named by CK_EC_KDF_TYPE: ANSI X9.63 or SP 800-56C, and the hash *)
Definition kdf_table : list (N * (bool * N)) :=
  [(2, (true, CKM_SHA_1)); (5, (true, CKM_SHA224)); (6, (true, CKM_SHA256)); (7, (true, CKM_SHA384)); (8, (true, CKM_SHA512));
   (10, (true, CKM_SHA3_224)); (11, (true, CKM_SHA3_256)); (12, (true, CKM_SHA3_384)); (13, (true, CKM_SHA3_512));
   (14, (false, CKM_SHA_1)); (15, (false, CKM_SHA224)); (16, (false, CKM_SHA256)); (17, (false, CKM_SHA384)); (18, (false, CKM_SHA512));
   (19, (false, CKM_SHA3_224)); (20, (false, CKM_SHA3_256)); (21, (false, CKM_SHA3_384)); (22, (false, CKM_SHA3_512))].
(* A public value may be given as it is, or as a DER OCTET STRING. *)
Definition spells (p b : bytes) : Prop := b = p \/ is_tlv 4 p b.
