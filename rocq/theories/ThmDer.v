(* C49: the two forms of an ECDSA signature.  C50: an RSA private key wrapped and unwrapped. *)
From Verif Require Import MsgFacts.
From Verif Require Export DerFacts.
From Coq Require Import Arith.
Local Open Scope N_scope.

Lemma is_sig_unique r s a b : is_sig r s a -> is_sig r s b -> a = b.
Proof.
  intros (i & j & bi & bj & Hi & Hj & Ti & Tj & T) (i' & j' & bi' & bj' & Hi' & Hj' & Ti' & Tj' & T').
  rewrite <- (is_int_unique _ _ _ Hi Hi') in Ti'. rewrite <- (is_int_unique _ _ _ Hj Hj') in Tj'.
  rewrite <- (is_tlv_unique _ _ _ _ Ti Ti'), <- (is_tlv_unique _ _ _ _ Tj Tj') in T'. by apply (is_tlv_unique _ _ _ _ T T').
Qed.
Lemma halves n r s : (length (be n r ++ be n s) / 2 = n)%nat /\ firstn n (be n r ++ be n s) = be n r /\ skipn n (be n r ++ be n s) = be n s.
Proof.
  rewrite app_length, !be_length. replace (n + n)%nat with (n * 2)%nat by lia. rewrite Nat.div_mul by lia. split; [done|].
  rewrite firstn_app, skipn_app, firstn_all2, skipn_all2 by (rewrite be_length; lia). rewrite be_length, Nat.sub_diag. cbn [firstn skipn]. by rewrite app_nil_r.
Qed.

(* C49.  For every pair of numbers that fit in [n] bytes each: the form an application sees (both numbers on [n] bytes, one
   after the other) is turned into the DER form of these numbers, which is the only one, and the DER form is turned back into
   the same bytes.  [n < 2^28] keeps the DER lengths within the four bytes the reader takes. *)
Theorem C49_ecdsa_forms n r s : (0 < n)%nat -> N.of_nat n < 2 ^ 28 -> r < 256 ^ N.of_nat n -> s < 256 ^ N.of_nat n ->
  exists b, is_sig r s b /\ (forall b', is_sig r s b' -> b' = b) /\
    der_of_sig (be n r ++ be n s) = Ok b /\ sig_of_der b (2 * n) = Ok (be n r ++ be n s) /\ blen b <= 2 * N.of_nat n + 20.
Proof.
  intros Hn Hb Hr Hs. change (2 ^ 28) with 268435456 in Hb.
  assert (Ne : forall x, be n x <> []) by (intros x E; apply (f_equal (@length N)) in E; rewrite be_length in E; cbn [length] in E; lia).
  destruct (der_uint_ok (be n r) (be_ok _ _) (Ne r)) as (i & Ei & Ii & Bi). destruct (der_uint_ok (be n s) (be_ok _ _) (Ne s)) as (j & Ej & Ij & Bj).
  rewrite unbe_be in Ii, Ij by done. pose proof (is_int_size _ _ _ Ii Hr) as Li. pose proof (is_int_size _ _ _ Ij Hs) as Lj.
  assert (Si : blen i < 2 ^ 32) by (unfold blen; lia). assert (Sj : blen j < 2 ^ 32) by (unfold blen; lia).
  pose proof (der_tlv_ok 2 i Si) as Ti. pose proof (der_tlv_ok 2 j Sj) as Tj.
  pose proof (is_tlv_size _ _ _ Si Ti) as Zi. pose proof (is_tlv_size _ _ _ Sj Tj) as Zj.
  assert (Sc : blen (der_tlv 2 i ++ der_tlv 2 j) < 2 ^ 32) by (unfold blen in *; rewrite app_length; lia).
  pose proof (der_tlv_ok 48 (der_tlv 2 i ++ der_tlv 2 j) Sc) as Tc.
  exists (der_tlv 48 (der_tlv 2 i ++ der_tlv 2 j)).
  assert (Hsig : is_sig r s (der_tlv 48 (der_tlv 2 i ++ der_tlv 2 j))) by (exists i, j, (der_tlv 2 i), (der_tlv 2 j); done).
  split; [exact Hsig|]. split; [intros b' Hb'; by apply (is_sig_unique r s)|]. split; [|split].
  - destruct (halves n r s) as (H1 & H2 & H3). unfold der_of_sig. rewrite H1, H2, H3. cbv zeta. rewrite Ei. cbn [rbind]. rewrite Ej. done.
  - unfold sig_of_der, TAG_SEQUENCE. pose proof (read_tlv_ok 48 _ _ [] Sc Tc) as R. rewrite app_nil_r in R. rewrite R. cbn [read_uints].
    rewrite (read_uint_ok _ _ _ _ _ Si Ii Ti). cbn [rbind].
    pose proof (read_uint_ok CKR_GENERAL_ERROR _ _ _ [] Sj Ij Tj) as R2. rewrite app_nil_r in R2. rewrite R2. cbn [rbind]. cbv zeta.
    replace (2 * n / 2)%nat with n by (rewrite Nat.mul_comm, Nat.div_mul by lia; done). replace (2 * n - n)%nat with n by lia.
    rewrite (sig_half_ok _ _ _ Ii Hn Hr). cbn [rbind]. rewrite (sig_half_ok _ _ _ Ij Hn Hs). done.
  - pose proof (is_tlv_size _ _ _ Sc Tc). unfold blen in *. rewrite app_length in *. lia.
Qed.
(* For the curves in use (up to 120 bytes per number) the DER form takes at most 10 bytes more: the room C_SignFinal gives
   OpenSSL (src/ossl/ecdsa.rs:329). *)
Theorem C49_room n r s b : (n <= 120)%nat -> r < 256 ^ N.of_nat n -> s < 256 ^ N.of_nat n -> is_sig r s b -> blen b <= 2 * N.of_nat n + 10.
Proof.
  intros Hn Hr Hs (i & j & bi & bj & Ii & Ij & (li & Hli & ->) & (lj & Hlj & ->) & (l & Hl & ->)).
  pose proof (is_int_size _ _ _ Ii Hr) as Li. pose proof (is_int_size _ _ _ Ij Hs) as Lj.
  assert (Short : forall c l, blen c < 128 -> is_len (blen c) l -> length l = 1%nat) by (intros c l0 Hc [?|c0 ? ? ? ?]; [done|lia]).
  pose proof (Short i li ltac:(unfold blen; lia) Hli) as L1. pose proof (Short j lj ltac:(unfold blen; lia) Hlj) as L2.
  assert (Lc : blen ((2 :: li ++ i) ++ 2 :: lj ++ j) <= 2 * N.of_nat n + 6) by (unfold blen; cbn [app length]; rewrite !app_length; cbn [length]; rewrite app_length; lia).
  assert (L3 : (length l <= 2)%nat).
  { rewrite (is_len_unique _ _ _ Hl (der_len_ok (blen ((2 :: li ++ i) ++ 2 :: lj ++ j)) ltac:(eapply N.le_lt_trans; [exact Lc|change (2 ^ 32) with 4294967296; lia]))). unfold der_len.
    destruct (blen _ <? 128); [cbn [length]; lia|]. assert ((blen ((2 :: li ++ i) ++ 2 :: lj ++ j) <? 256) = true) as -> by lia. cbn [length]. rewrite be_length. lia. }
  revert Lc. generalize ((2 :: li ++ i) ++ 2 :: lj ++ j). intros c Lc. unfold blen in *. cbn [length]. rewrite app_length. lia.
Qed.
(* The bound is tight: with 121 bytes and both numbers at their largest the room is one byte short of what is needed. *)
Example C49_room_tight : match der_of_sig (repeat 255 242) with Ok b => blen b | Err _ => 0 end = 251.
Proof. reflexivity. Qed.
Example C49_case : der_of_sig [0; 0; 1; 2; 128; 3; 4; 5] = Ok [48; 11; 2; 2; 1; 2; 2; 5; 0; 128; 3; 4; 5].
Proof. reflexivity. Qed.
(* A signature of no bytes is not turned down: taking the first byte of nothing panics.  The length check before it keeps this
   from a caller. *)
Example C49_empty_refuted : der_of_sig [] = Err RV_PANIC.
Proof. reflexivity. Qed.

(* C50 *)
Lemma is_ints_app xs ys a b : is_ints xs a -> is_ints ys b -> is_ints (xs ++ ys) (a ++ b).
Proof. induction 1; intros; [done|]. cbn [app]. rewrite <- app_assoc. econstructor; eauto. Qed.
Definition fits (d : bytes) : Prop := bytesok d /\ d <> [] /\ blen d < 2 ^ 24.
Lemma der_uints_ok k : Forall fits k -> exists c xs, der_uints k = Ok c /\ is_ints (map unbe k) c /\ Forall2 is_int (map unbe k) xs /\
  blen c <= N.of_nat (length k) * (2 ^ 24 + 7) /\ forall e r, read_uints e (length k) (c ++ r) = Ok (xs, r).
Proof.
  induction k as [|d k IH]; intros Hk.
  - exists [], []. split; [done|]. split; [constructor|]. split; [constructor|]. split; [done|]. done.
  - apply List.Forall_cons_iff in Hk as [(Hd & Hn & Hl) Hk]. destruct (IH Hk) as (c & xs & E & I & F & L & R).
    destruct (der_uint_ok d Hd Hn) as (i & Ei & Ii & _). pose proof (is_int_size _ _ (length d) Ii (unbe_bound _ Hd)) as Li.
    assert (Si : blen i <= blen d + 1) by (unfold blen; lia). assert (S2 : blen i < 2 ^ 32) by (change (2 ^ 24) with 16777216 in Hl; lia).
    pose proof (der_tlv_ok 2 i S2) as Ti. pose proof (is_tlv_size _ _ _ S2 Ti) as Zi.
    exists (der_tlv 2 i ++ c), (i :: xs). cbn [der_uints map length]. rewrite Ei. cbn [rbind]. rewrite E. cbn [rbind].
    split; [done|]. split; [econstructor; eauto|]. split; [by constructor|]. split.
    + unfold blen in *. rewrite app_length. change (2 ^ 24) with 16777216 in *. lia.
    + intros e r. cbn [read_uints]. rewrite <- app_assoc, (read_uint_ok _ _ _ _ _ S2 Ii Ti). cbn [rbind]. rewrite R. done.
Qed.
Lemma zero_ok : is_ints [0] der_zero.
Proof.
  change der_zero with (der_zero ++ []). apply (ints_cons 0 [] [0]); [apply (biguint_int [0]); [constructor; [unfold byteok; lia|constructor]|done]|by apply der_tlv_ok|constructor].
Qed.
Lemma zero_read r : read_u64 (der_zero ++ r) = Some (0, r).
Proof.
  unfold read_u64. change der_zero with (der_tlv 2 [0]). unfold TAG_INTEGER. rewrite (read_tlv_ok 2 [0] (der_tlv 2 [0]) r); [done|done|by apply der_tlv_ok].
Qed.
Lemma trimmed_nopad d i : is_int (unbe d) i -> trimmed d (nopad i) /\ bytesok (nopad i).
Proof. intros [(Hn & Hb & Hh & V) _]. destruct (nopad_ok i Hb) as (B & V' & T & _). split; [|done]. split; [done|]. split; [congruence|done]. Qed.

(* C50.  Every key of eight parts (none of them empty, none longer than 2^24 bytes, modulus and public exponent not zero) is
   wrapped as the DER encoding of its numbers; unwrapping it, with any number of zero bytes the wrapping may have added, gives
   parts of the same values, without leading zeros. *)
Theorem C50_rsa_transport k z : length k = 8%nat -> Forall fits k -> unbe (nth 0 k []) <> 0 -> unbe (nth 1 k []) <> 0 ->
  exists b k', rsa_export k = Ok b /\ is_rsa_pkcs8 (map unbe k) b /\ rsa_import (b ++ repeat 0 z) = Ok k' /\ Forall2 trimmed k k'.
Proof.
  intros L8 Hk H0 H1. destruct (der_uints_ok k Hk) as (c & xs & E & I & F & Lc & R). rewrite L8 in Lc, R.
  assert (Lz : blen (der_zero ++ c) < 2 ^ 31) by (unfold blen in *; rewrite app_length; change (length der_zero) with 3%nat; change (2 ^ 24) with 16777216 in *; change (2 ^ 31) with 2147483648; lia).
  assert (L32 : forall a, a < 2 ^ 31 -> a < 2 ^ 32) by (intros a; change (2 ^ 31) with 2147483648; change (2 ^ 32) with 4294967296; lia).
  pose proof (der_tlv_ok 48 (der_zero ++ c) (L32 _ Lz)) as Tk. pose proof (is_tlv_size _ _ _ (L32 _ Lz) Tk) as Zk.
  set (key := der_tlv 48 (der_zero ++ c)) in *. assert (Sk : blen key < 2 ^ 32) by (change (2 ^ 31) with 2147483648 in *; change (2 ^ 32) with 4294967296; lia).
  pose proof (der_tlv_ok 4 key Sk) as To. pose proof (is_tlv_size _ _ _ Sk To) as Zo. set (oct := der_tlv 4 key) in *.
  assert (Ta : is_tlv 48 oid_rsa (der_tlv 48 rsa_alg)) by (by apply der_tlv_ok).
  set (all := der_zero ++ der_tlv 48 rsa_alg ++ oct).
  assert (Sa : blen all < 2 ^ 32) by (unfold all, blen in *; rewrite !app_length; change (length der_zero) with 3%nat; change (length (der_tlv 48 rsa_alg)) with 15%nat; change (2 ^ 31) with 2147483648 in *; change (2 ^ 32) with 4294967296 in *; lia).
  pose proof (der_tlv_ok 48 all Sa) as Tall.
  assert (Tr : Forall2 trimmed k (map nopad xs) /\ Forall bytesok (map nopad xs)).
  { clear - F. revert xs F. induction k as [|d k IH]; intros xs F; inversion F as [|? ? ? ? Hi Hr]; subst; [by repeat constructor|].
    destruct (IH _ Hr) as [A B]. destruct (trimmed_nopad _ _ Hi) as [T O]. cbn [map]. split; by constructor. }
  destruct Tr as [Tr Bk].
  exists (der_tlv 48 all), (map nopad xs). split; [|split; [|split; [|exact Tr]]].
  - unfold rsa_export, rsa_key_der. rewrite E. cbn [rbind]. done.
  - exists der_zero, (der_tlv 48 rsa_alg), key, oct. split; [apply zero_ok|]. split; [exact Ta|]. split; [|done].
    exists (der_zero ++ c). split; [apply (is_ints_app [0]); [apply zero_ok|exact I]|exact Tk].
  - unfold rsa_import, TAG_SEQUENCE. rewrite (read_tlv_ok 48 all _ _ Sa Tall).
    assert (forallb (fun b => b =? 0) (repeat 0 z) = true) as -> by (apply forallb_forall; intros y Hy; apply repeat_spec in Hy as ->; done). cbn [negb].
    unfold key_info_read, all. rewrite zero_read. unfold TAG_SEQUENCE. rewrite (read_tlv_ok 48 oid_rsa _ _ ltac:(done) Ta).
    unfold TAG_OCTETS. pose proof (read_tlv_ok 4 key oct [] Sk To) as Ro. rewrite app_nil_r in Ro. rewrite Ro.
    assert (bytes_eqb oid_rsa rsa_alg = true) as -> by (by apply bool_decide_eq_true). cbn [rbind].
    unfold rsa_key_read, TAG_SEQUENCE. pose proof (read_tlv_ok 48 _ _ [] (L32 _ Lz) Tk) as Rk. rewrite app_nil_r in Rk. fold key in Rk. rewrite Rk, zero_read.
    pose proof (R CKR_WRAPPED_KEY_INVALID []) as Rx. rewrite app_nil_r in Rx. rewrite Rx. cbn [rbind]. cbv zeta.
    destruct k as [|k0 [|k1 k]]; [done|done|]. cbn [nth] in H0, H1.
    destruct (map nopad xs) as [|p0 [|p1 ps]]; [inversion Tr|inversion Tr as [|? ? ? ? _ Tr2]; inversion Tr2|].
    inversion Tr as [|? ? ? ? (_ & V0 & _) Tr2]; subst. inversion Tr2 as [|? ? ? ? (_ & V1 & _) _]; subst. cbn [nth]. unfold public_info.
    apply List.Forall_cons_iff in Bk as [B0 Bk]. apply List.Forall_cons_iff in Bk as [B1 _].
    destruct (der_uint_ok p0 B0) as (? & -> & _); [intros ->; by apply H0|]. cbn [rbind].
    destruct (der_uint_ok p1 B1) as (? & -> & _); [intros ->; by apply H1|]. done.
Qed.
(* C50.  Anything else after the encoding is refused. *)
Theorem C50_trailing xs b extra : is_rsa_pkcs8 xs b -> blen b < 2 ^ 32 -> Exists (fun x => x <> 0) extra -> rsa_import (b ++ extra) = Err CKR_WRAPPED_KEY_INVALID.
Proof.
  intros (v & a & k & o & _ & _ & _ & _ & T) Sz Ex.
  assert (S : blen (v ++ a ++ o) < 2 ^ 32).
  { destruct T as (l & _ & ->). unfold blen in *. cbn [length] in Sz. rewrite app_length in Sz. lia. }
  unfold rsa_import, TAG_SEQUENCE. rewrite (read_tlv_ok 48 _ _ _ S T).
  assert (forallb (fun x => x =? 0) extra = false) as ->; [|done].
  destruct (forallb _ extra) eqn:F; [|done]. exfalso. apply List.Exists_exists in Ex as (x & I & N0). rewrite forallb_forall in F. apply F in I. lia.
Qed.
(* Parts without leading zeros come back as they were. *)
Corollary C50_same k z : length k = 8%nat -> Forall fits k -> Forall (fun d => hd 0 d <> 0) k ->
  exists b, rsa_export k = Ok b /\ rsa_import (b ++ repeat 0 z) = Ok k.
Proof.
  intros L8 Hk Ht.
  assert (Nz : forall n, (n < 8)%nat -> unbe (nth n k []) <> 0).
  { intros n Hn. pose proof (proj1 (List.Forall_forall _ _) Hk _ (nth_In k [] ltac:(rewrite L8; exact Hn))) as (Hb & Hne & _).
    pose proof (proj1 (List.Forall_forall _ _) Ht _ (nth_In k [] ltac:(rewrite L8; exact Hn))) as Hh. cbv beta in Hh.
    pose proof (unbe_top _ Hb Hne Hh). pose proof (p256_pos (N.of_nat (length (nth n k []) - 1))). lia. }
  destruct (C50_rsa_transport k z L8 Hk (Nz 0%nat ltac:(lia)) (Nz 1%nat ltac:(lia))) as (b & k' & E & _ & Im & T).
  exists b. split; [done|]. rewrite Im. f_equal.
  clear - Hk Ht T. revert k' T. induction k as [|d k IH]; intros k' T; inversion T as [|? d' ? k2 (B & V & Hd') T']; subst; [done|].
  apply List.Forall_cons_iff in Hk as [(Hb & Hne & _) Hk]. apply List.Forall_cons_iff in Ht as [Hh Ht].
  f_equal; [|by apply IH]. destruct Hd' as [->|Hd'].
  - exfalso. pose proof (unbe_top _ Hb Hne Hh). pose proof (p256_pos (N.of_nat (length d - 1))). change (unbe []) with 0 in V. lia.
  - assert (d' <> []) by (intros ->; by apply Hd'). apply tops_same; try done. 
Qed.
(* A key of small numbers, with a leading zero in one part and a first bit set in another *)
Definition small_key : rsa_parts := [[0; 200; 1]; [1; 0; 1]; [5]; [11]; [13]; [128]; [7]; [2]].
Example C50_case : exists b, rsa_export small_key = Ok b /\ blen b = 56 /\
  rsa_import (b ++ [0; 0; 0]) = Ok [[200; 1]; [1; 0; 1]; [5]; [11]; [13]; [128]; [7]; [2]].
Proof. eexists. split; [vm_compute; reflexivity|]. split; vm_compute; reflexivity. Qed.
Example C50_case_fits : length small_key = 8%nat /\ Forall fits small_key /\ unbe (nth 0 small_key []) <> 0 /\ unbe (nth 1 small_key []) <> 0.
Proof.
  split; [done|]. split; [|split; vm_compute; discriminate].
  unfold small_key. repeat (constructor; [split; [repeat (constructor; [unfold byteok; lia|]); constructor|split; [discriminate|vm_compute; reflexivity]]|]). constructor.
Qed.

(* Where it goes wrong.  Unwrapping a key whose public exponent is zero panics: the attribute is left empty, and the encoding
   of the public key takes the first byte of it (src/rsa.rs:530, 178-195, src/kasn1/mod.rs:41).  Whoever can have a wrapped key
   unwrapped can choose these bytes when they hold the wrapping key or its public half. *)
Theorem C50_zero_refuted : exists k b, length k = 8%nat /\ Forall fits k /\ rsa_export k = Ok b /\ is_rsa_pkcs8 (map unbe k) b /\ rsa_import b = Err RV_PANIC.
Proof.
  set (k := [[200; 1]; [0]; [5]; [11]; [13]; [128]; [7]; [2]]).
  assert (Hk : Forall fits k) by (unfold k; repeat (constructor; [split; [repeat (constructor; [unfold byteok; lia|]); constructor|split; [discriminate|vm_compute; reflexivity]]|]); constructor).
  destruct (der_uints_ok k Hk) as (c & xs & E & I & _). exists k. eexists. split; [done|]. split; [done|].
  split; [vm_compute; reflexivity|]. split; [|vm_compute; reflexivity].
  vm_compute in E. injection E as <-.
  exists der_zero, (der_tlv 48 rsa_alg). eexists. eexists. split; [apply zero_ok|]. split; [by apply der_tlv_ok|]. split; [|split].
  - eexists. split; [apply (is_ints_app [0]); [apply zero_ok|exact I]|by apply der_tlv_ok].
  - by apply der_tlv_ok.
  - apply (der_tlv_ok 48); done.
Qed.
(* So does any INTEGER without content. *)
Example C50_no_content_refuted : rsa_import (der_tlv 48 (der_zero ++ der_tlv 48 rsa_alg ++ der_tlv 4 (der_tlv 48 (der_zero ++ [2; 0])))) = Err RV_PANIC.
Proof. vm_compute. reflexivity. Qed.
(* Wrapping a key that was created with an empty prime panics (src/rsa.rs:165-169 lets such a key be created). *)
Example C50_empty_prime_refuted : rsa_export [[200; 1]; [1; 0; 1]; [5]; []; [13]; [128]; [7]; [2]] = Err RV_PANIC.
Proof. vm_compute. reflexivity. Qed.
(* A key with a third prime is accepted and the third prime dropped: the numbers left are not a key of that modulus. *)
Example C50_third_prime_refuted :
  let ints := der_tlv 2 [100] ++ der_tlv 2 [3] ++ der_tlv 2 [5] ++ der_tlv 2 [2] ++ der_tlv 2 [5] ++ der_tlv 2 [1] ++ der_tlv 2 [1] ++ der_tlv 2 [1] in
  let third := der_tlv 48 (der_tlv 48 (der_tlv 2 [10] ++ der_tlv 2 [1] ++ der_tlv 2 [1])) in
  rsa_import (der_tlv 48 (der_zero ++ der_tlv 48 rsa_alg ++ der_tlv 4 (der_tlv 48 (der_tlv 2 [1] ++ ints ++ third)))) = Ok [[100]; [3]; [5]; [2]; [5]; [1]; [1]; [1]].
Proof. vm_compute. reflexivity. Qed.
