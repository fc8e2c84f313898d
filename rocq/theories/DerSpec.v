(* What the DER encodings should be, in terms of numbers (ITU-T X.690 8.1.3, 8.3, 10.1). *)
From Verif Require Export Base.
Local Open Scope N_scope.

(* An INTEGER that is not negative: the shortest nonempty string of bytes, the first of them below 128, with that value. *)
Definition encodes (x : N) (b : bytes) : Prop := b <> [] /\ bytesok b /\ hd 0 b < 128 /\ unbe b = x.
Definition is_int (x : N) (b : bytes) : Prop := encodes x b /\ forall b', encodes x b' -> (length b <= length b')%nat.
(* A length: one byte below 128, or the number of bytes and the bytes, without a leading zero. *)
Inductive is_len (n : N) : bytes -> Prop :=
| len_short : n < 128 -> is_len n [n]
| len_long c : 128 <= n -> bytesok c -> hd 0 c <> 0 -> unbe c = n -> is_len n ((128 + N.of_nat (length c)) :: c).
Definition is_tlv (tag : N) (c b : bytes) : Prop := exists l, is_len (blen c) l /\ b = tag :: l ++ c.
(* The DER form of the ECDSA signature (r, s): SEQUENCE { INTEGER r, INTEGER s } (RFC 3279 2.2.3) *)
Definition is_sig (r s : N) (b : bytes) : Prop :=
  exists i j bi bj, is_int r i /\ is_int s j /\ is_tlv 2 i bi /\ is_tlv 2 j bj /\ is_tlv 48 (bi ++ bj) b.
(* A sequence of INTEGERs, one after the other *)
Inductive is_ints : list N -> bytes -> Prop :=
| ints_nil : is_ints [] []
| ints_cons x xs i b r : is_int x i -> is_tlv 2 i b -> is_ints xs r -> is_ints (x :: xs) (b ++ r).
(* RSAPrivateKey with version 0 and two primes (RFC 8017 A.1.2), inside an OCTET STRING inside a PrivateKeyInfo with version 0
   and algorithm rsaEncryption with a NULL parameter (RFC 5958) *)
Definition oid_rsa : bytes := [6; 9; 42; 134; 72; 134; 247; 13; 1; 1; 1; 5; 0].
Definition is_rsa_key (xs : list N) (b : bytes) : Prop := exists c, is_ints (0 :: xs) c /\ is_tlv 48 c b.
Definition is_rsa_pkcs8 (xs : list N) (b : bytes) : Prop :=
  exists v a k o, is_ints [0] v /\ is_tlv 48 oid_rsa a /\ is_rsa_key xs k /\ is_tlv 4 k o /\ is_tlv 48 (v ++ a ++ o) b.
(* The same number without leading zeros *)
Definition trimmed (a b : bytes) : Prop := bytesok b /\ unbe b = unbe a /\ (b = [] \/ hd 0 b <> 0).
