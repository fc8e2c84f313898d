(* What HKDF is to compute: RFC 5869. *)
From Verif Require Export Hkdf KdfSpec.
Local Open Scope N_scope.

(* 2.2: PRK = HMAC(salt, IKM).  2.3: T(0) is empty, T(i) = HMAC(PRK, T(i-1) || info || i); the output is the leading bytes of
   T(1) || T(2) || ... || T(255). *)
Fixpoint hk_t (hm : bytes -> bytes -> bytes) (prk info : bytes) (i : nat) : bytes :=
  match i with O => [] | S k => hm prk (hk_t hm prk info k ++ info ++ [N.of_nat i]) end.
Definition hk_stream (hm : bytes -> bytes -> bytes) (prk info : bytes) : bytes := blocks_1 (hk_t hm prk info) 255.

(* What is taken from OpenSSL: it computes just that, with no salt for an empty one and no info for an empty one. *)
Definition or_empty (x : option bytes) : bytes := match x with Some b => b | None => [] end.
Record kdf_law (hm : bytes -> bytes -> bytes) (hs : nat) (kdf : okdf) : Prop := {
  kl_len : forall k d, length (hm k d) = hs;
  kl_extract : forall v s i n, kdf HExtract v s i n = if (n =? hs)%nat then Some (hm (or_empty s) v) else None;
  kl_expand : forall v s i n, kdf HExpand v s i n = if (n <=? 255 * hs)%nat then Some (firstn n (hk_stream hm v (or_empty i))) else None;
  kl_both : forall v s i n, kdf HBoth v s i n = if (n <=? 255 * hs)%nat then Some (firstn n (hk_stream hm (hm (or_empty s) v) (or_empty i))) else None }.

(* CK_BBOOL has two values. *)
Definition bbool (x : N) : Prop := x = CK_FALSE \/ x = CK_TRUE.
(* The salt of PKCS #11 v3.1, 6.62.3: zeros, the bytes given, or the value of the key given *)
Definition salt_is (p : hparams) (hs : nat) (salt_key : object) (s : bytes) : Prop :=
  (hp_stype p = CKF_HKDF_SALT_NULL /\ s = repeat 0 hs) \/
  (hp_stype p = CKF_HKDF_SALT_DATA /\ exists b, hp_salt p = Some b /\ s = firstn (N.to_nat (hp_salt_len p)) b) \/
  (hp_stype p = CKF_HKDF_SALT_KEY /\ get_bytes salt_key CKA_VALUE = Ok s).
Definition info_of (p : hparams) : bytes := match hp_info p with Some b => firstn (N.to_nat (hp_info_len p)) b | None => [] end.
(* The pseudorandom key and the output, from the value [v] of the base key *)
Definition prk_is (hm : bytes -> bytes -> bytes) (hs : nat) (p : hparams) (salt_key : object) (v prk : bytes) : Prop :=
  if hp_extract p =? CK_TRUE then exists s, salt_is p hs salt_key s /\ prk = hm s v else prk = v.
Definition okm_is (hm : bytes -> bytes -> bytes) (hs : nat) (p : hparams) (prk : bytes) (n : nat) (k : bytes) : Prop :=
  if hp_expand p =? CK_TRUE then (n <= 255 * hs)%nat /\ k = firstn n (hk_stream hm prk (info_of p)) else n = hs /\ k = prk.
(* A key the mechanism takes as base key or as salt: a secret key for derivation, generic or of the type CKK_HKDF, with a value *)
Definition hkdf_key (key : object) (v : bytes) : Prop :=
  get_ulong key CKA_CLASS = Ok CKO_SECRET_KEY /\ (get_ulong key CKA_KEY_TYPE = Ok CKK_GENERIC_SECRET \/ get_ulong key CKA_KEY_TYPE = Ok CKK_HKDF) /\
  get_bool key CKA_DERIVE = Ok true /\ get_bytes key CKA_VALUE = Ok v /\ v <> [] /\
  (forall n, get_ulong key CKA_VALUE_LEN = Ok n -> n = blen v).
(* Parameters that are in order *)
Definition hparams_ok (p : hparams) (hs : nat) : Prop :=
  hp_size p = Some hs /\ bbool (hp_extract p) /\ bbool (hp_expand p) /\ (hp_extract p = CK_TRUE \/ hp_expand p = CK_TRUE) /\
  ((hp_stype p = CKF_HKDF_SALT_NULL /\ hp_salt p = None /\ hp_salt_len p = 0) \/
   (hp_stype p = CKF_HKDF_SALT_DATA /\ hp_salt_len p <> 0 /\ hp_salt p <> None) \/
   (hp_stype p = CKF_HKDF_SALT_KEY /\ (hp_salt_len p = 0 \/ hp_salt p <> None))) /\
  (hp_info_len p = 0 \/ hp_info p <> None).
