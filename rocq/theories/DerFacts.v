(* The DER functions of the model against the specification. *)
From Verif Require Import MsgFacts.
From Verif Require Export Der DerSpec.
From Coq Require Import Arith.
Local Open Scope N_scope.

Lemma p256_pos n : 0 < 256 ^ n. Proof. apply N.neq_0_lt_0, N.pow_nonzero. lia. Qed.
Lemma pow_mono a b : (a <= b)%nat -> 256 ^ N.of_nat a <= 256 ^ N.of_nat b.
Proof. intros H. apply N.pow_le_mono_r; lia. Qed.
Lemma be_unbe b : bytesok b -> be (length b) (unbe b) = b.
Proof.
  intros H. unfold be, unbe. rewrite <- (rev_length b), le_unle by (by apply Forall_rev). apply rev_involutive.
Qed.
Lemma unbe_inj a b : bytesok a -> bytesok b -> length a = length b -> unbe a = unbe b -> a = b.
Proof. intros Ha Hb L E. rewrite <- (be_unbe a Ha), <- (be_unbe b Hb), L, E. done. Qed.
Lemma unbe_top b : bytesok b -> b <> [] -> hd 0 b <> 0 -> 256 ^ N.of_nat (length b - 1) <= unbe b.
Proof.
  destruct b as [|x r]; [done|]. intros Hb _ Hx. cbn [hd] in Hx. rewrite unbe_cons. cbn [length].
  replace (S (length r) - 1)%nat with (length r) by lia. pose proof (p256_pos (N.of_nat (length r))). nia.
Qed.
Lemma tops_same a b : bytesok a -> bytesok b -> a <> [] -> b <> [] -> hd 0 a <> 0 -> hd 0 b <> 0 -> unbe a = unbe b -> a = b.
Proof.
  assert (S : forall a b, bytesok a -> bytesok b -> a <> [] -> b <> [] -> hd 0 b <> 0 -> unbe a = unbe b -> (length b <= length a)%nat).
  { intros a' b' Ha Hb Na Nb Zb E. pose proof (unbe_bound _ Ha) as Ua. pose proof (unbe_top _ Hb Nb Zb) as Tb.
    destruct (Nat.le_gt_cases (length b') (length a')) as [|L]; [done|].
    pose proof (pow_mono (length a') (length b' - 1) ltac:(lia)). lia. }
  intros Ha Hb Na Nb Za Zb E. apply unbe_inj; try done.
  pose proof (S a b Ha Hb Na Nb Zb E). pose proof (S b a Hb Ha Nb Na Za (eq_sym E)). lia.
Qed.

(* Integers *)
Lemma biguint_int b : bytesok b -> biguint_ok b = true -> is_int (unbe b) b.
Proof.
  intros Hb Hok. assert (Hh : b <> [] /\ hd 0 b < 128) by (destruct b as [|x [|y r]]; cbn [biguint_ok hd] in *; [done|split; [done|lia]..]).
  destruct Hh as [Hn Hh]. split; [split_and!; done|]. intros b' (Hn' & Hb' & Hh' & E).
  destruct (Nat.le_gt_cases (length b) (length b')) as [|L]; [done|exfalso].
  destruct b' as [|x' r']; [done|]. destruct b as [|x [|y r]]; [done|cbn [length] in L; lia|]. cbn [biguint_ok hd length] in *.
  rewrite !unbe_cons in E. cbn [length] in E.
  apply List.Forall_cons_iff in Hb' as [Hx' Hr']. pose proof (unbe_bound _ Hr') as Ub.
  pose proof (pow_mono (length r') (length r) ltac:(lia)) as Hp. pose proof (p256_pos (N.of_nat (length r))) as P1.
  rewrite Nat2N.inj_succ, N.pow_succ_r' in E.
  assert (x' * 256 ^ N.of_nat (length r') + unbe r' < 128 * 256 ^ N.of_nat (length r)) by nia.
  destruct (N.eq_dec x 0) as [->|Hx]; [assert (128 <= y) by lia; nia|]. nia.
Qed.
Lemma is_int_unique x a b : is_int x a -> is_int x b -> a = b.
Proof.
  intros [Ea Ma] [Eb Mb]. pose proof (Ma b Eb). pose proof (Mb a Ea).
  destruct Ea as (_ & Ha & _ & Va), Eb as (_ & Hb & _ & Vb). apply unbe_inj; try done; [lia|congruence].
Qed.
Lemma skip_zeros_ok d : bytesok d -> d <> [] -> hd 0 d < 128 ->
  bytesok (skip_zeros d) /\ unbe (skip_zeros d) = unbe d /\ biguint_ok (skip_zeros d) = true.
Proof.
  induction d as [|x r IH]; [done|]. intros Hd _ Hx. pose proof Hd as Hd'. apply List.Forall_cons_iff in Hd' as [_ Hr].
  cbn [skip_zeros hd] in *. destruct r as [|y s].
  - split; [exact Hd|]. split; [done|]. cbn [biguint_ok]. lia.
  - destruct ((x =? 0) && (y <? 128)) eqn:E.
    + destruct (IH Hr ltac:(done) ltac:(cbn [hd]; lia)) as (B1 & V1 & O1). split; [done|]. split; [|done].
      rewrite V1, (unbe_cons x). assert (x = 0) as -> by lia. lia.
    + split; [done|]. split; [done|]. cbn [biguint_ok]. rewrite E. lia.
Qed.
Lemma der_uint_ok d : bytesok d -> d <> [] -> exists b, der_uint d = Ok b /\ is_int (unbe d) b /\ bytesok b.
Proof.
  intros Hd Hn. destruct d as [|x r] eqn:Ed; [done|]. rewrite <- Ed in *. assert (Hx : x < 256) by (rewrite Ed in Hd; by inversion Hd).
  unfold der_uint. rewrite Ed. rewrite <- Ed. cbv zeta. destruct (128 <=? x) eqn:Eh.
  - assert (Hc : bytesok (0 :: d)) by (constructor; [unfold byteok; lia|done]).
    assert (Hok : biguint_ok (0 :: d) = true) by (rewrite Ed; cbn [biguint_ok]; lia). rewrite Hok.
    exists (0 :: d). split; [done|]. split; [|done]. replace (unbe d) with (unbe (0 :: d)) by (rewrite unbe_cons; lia). by apply biguint_int.
  - destruct (skip_zeros_ok d Hd Hn) as (B & V & O); [rewrite Ed; cbn [hd]; lia|]. rewrite O.
    exists (skip_zeros d). split; [done|]. split; [|done]. rewrite <- V. by apply biguint_int.
Qed.
Lemma der_uint_int x i : is_int x i -> der_uint i = Ok i.
Proof.
  intros Hi. pose proof Hi as [(Hn & Hb & Hh & V) _]. destruct (der_uint_ok i Hb Hn) as (b & E & I & _).
  rewrite V in I. rewrite E. f_equal. by apply (is_int_unique x).
Qed.
Lemma is_int_ex x : exists i, is_int x i.
Proof.
  set (k := N.to_nat (N.size x)). assert (Hx : x < 256 ^ N.of_nat (S k)).
  { eapply N.lt_le_trans; [apply N.size_gt|]. rewrite pow256. apply N.pow_le_mono_r; unfold k; lia. }
  destruct (der_uint_ok (be (S k) x)) as (b & _ & I & _); [apply be_ok|rewrite be_snoc; by destruct (be k _)|].
  exists b. by rewrite unbe_be in I.
Qed.

Lemma nopad_ok d : bytesok d -> bytesok (nopad d) /\ unbe (nopad d) = unbe d /\ (nopad d = [] \/ hd 0 (nopad d) <> 0) /\ (length (nopad d) <= length d)%nat.
Proof.
  induction d as [|x r IH]; intros Hd; [by repeat split; try left|]. pose proof Hd as Hd'. apply List.Forall_cons_iff in Hd' as [_ Hr].
  cbn [nopad]. destruct (x =? 0) eqn:E.
  - destruct (IH Hr) as (B & V & T & L). split; [done|]. split; [|split; [done|cbn [length]; lia]].
    rewrite V, unbe_cons. assert (x = 0) as -> by lia. lia.
  - split; [done|]. split; [done|]. split; [right; cbn [hd]; lia|done].
Qed.
Lemma nopad_len d n : bytesok d -> unbe d < 256 ^ N.of_nat n -> (length (nopad d) <= n)%nat.
Proof.
  intros Hd Hv. destruct (nopad_ok d Hd) as (B & V & T & _). destruct T as [->|T]; [cbn [length]; lia|].
  destruct (Nat.le_gt_cases (length (nopad d)) n) as [|L]; [done|exfalso].
  assert (Hn : nopad d <> []) by (intros Z; rewrite Z in L; cbn [length] in L; lia).
  pose proof (unbe_top _ B Hn T) as Ht. pose proof (pow_mono n (length (nopad d) - 1) ltac:(lia)). lia.
Qed.
Lemma pad_be h n : bytesok h -> (length h <= n)%nat -> repeat 0 (n - length h) ++ h = be n (unbe h).
Proof.
  intros Hh L. apply unbe_inj; [|apply be_ok|rewrite app_length, repeat_length, be_length; lia|].
  - apply List.Forall_app. split; [|done]. apply List.Forall_forall. intros y Hy. apply repeat_spec in Hy as ->. unfold byteok. lia.
  - rewrite unbe_app, unbe_zeros, unbe_be; [lia|]. eapply N.lt_le_trans; [by apply unbe_bound|by apply pow_mono].
Qed.
Lemma sig_half_ok x i n : is_int x i -> (0 < n)%nat -> x < 256 ^ N.of_nat n -> sig_half i n = Ok (be n x).
Proof.
  intros [(Hn & Hb & Hh & V) Hm] Hpos Hx. unfold sig_half. destruct (n <? length i)%nat eqn:El.
  - apply Nat.ltb_lt in El. destruct (nopad_ok i Hb) as (B & V' & T & _). pose proof (nopad_len i n Hb ltac:(congruence)) as L.
    assert (Hz : length (nopad i) <> 0%nat).
    { intros Z. apply nil_length_inv in Z. rewrite Z in V'. change (unbe []) with 0 in V'.
      pose proof (Hm [0] ltac:(split_and!; [done|constructor; [unfold byteok; lia|constructor]|cbn [hd]; lia|rewrite <- V, <- V'; done])) as Hl. cbn [length] in Hl. lia. }
    assert ((length (nopad i) =? 0)%nat = false) as -> by (by apply Nat.eqb_neq). assert ((n <? length (nopad i))%nat = false) as -> by (apply Nat.ltb_ge; lia).
    cbn [andb orb]. by rewrite pad_be, V', V.
  - apply Nat.ltb_ge in El. cbn [andb]. by rewrite pad_be, V.
Qed.

(* Lengths *)
Lemma be_top k n : 256 ^ N.of_nat k <= n -> n < 256 ^ N.of_nat (S k) -> hd 0 (be (S k) n) <> 0.
Proof.
  intros H1 H2. replace (S k) with (1 + k)%nat by lia. rewrite be_app. change (be 1 (n / 256 ^ N.of_nat k)) with [(n / 256 ^ N.of_nat k) mod 256].
  cbn [app hd]. pose proof (p256_pos (N.of_nat k)) as P. rewrite Nat2N.inj_succ, N.pow_succ_r' in H2.
  rewrite N.mod_small by (apply N.div_lt_upper_bound; lia). intros Z. apply N.div_small_iff in Z; lia.
Qed.
Lemma der_len_ok n : n < 2 ^ 32 -> is_len n (der_len n).
Proof.
  intros Hn. unfold der_len. change (2 ^ 32) with (256 ^ N.of_nat 4) in Hn.
  assert (L : forall k, 128 <= n -> (k = 0%nat \/ 256 ^ N.of_nat k <= n) -> n < 256 ^ N.of_nat (S k) -> is_len n ((128 + N.of_nat (S k)) :: be (S k) n)).
  { intros k H128 Hl Hu. replace (N.of_nat (S k)) with (N.of_nat (length (be (S k) n))) by (by rewrite be_length).
    constructor; [done|apply be_ok| |by rewrite unbe_be].
    destruct Hl as [->|Hl]; [|by apply be_top]. apply be_top; [|done]. change (256 ^ N.of_nat 0) with 1. lia. }
  destruct (n <? 128) eqn:E0; [constructor; lia|].
  destruct (n <? 256) eqn:E1; [apply (L 0%nat); [lia|by left|change (256 ^ N.of_nat 1) with 256; lia]|].
  destruct (n <? 65536) eqn:E2; [apply (L 1%nat); [lia|right; change (256 ^ N.of_nat 1) with 256; lia|change (256 ^ N.of_nat 2) with 65536; lia]|].
  destruct (n <? 16777216) eqn:E3; [apply (L 2%nat); [lia|right; change (256 ^ N.of_nat 2) with 65536; lia|change (256 ^ N.of_nat 3) with 16777216; lia]|].
  apply (L 3%nat); [lia|right; change (256 ^ N.of_nat 3) with 16777216; lia|done].
Qed.
Lemma is_len_unique n a b : is_len n a -> is_len n b -> a = b.
Proof.
  intros [Ha|c Ha Bc Zc Vc] [Hb|c' Hb Bc' Zc' Vc']; [done|lia|lia|].
  assert (c = c') as ->; [|done]. apply tops_same; try done; [intros ->; done|intros ->; done|congruence].
Qed.
Lemma read_len_ok n l r : n < 2 ^ 32 -> is_len n l -> read_len (l ++ r) = Some (n, r).
Proof.
  intros Hn Hl. rewrite (is_len_unique n l (der_len n) Hl (der_len_ok n Hn)). change (2 ^ 32) with (256 ^ N.of_nat 4) in Hn.
  assert (L : forall k low, n < 256 ^ N.of_nat k -> low <= n ->
    (if (length (be k n ++ r) <? k)%nat then None
     else let m := unbe (firstn k (be k n ++ r)) in if m <? low then None else Some (m, skipn k (be k n ++ r))) = Some (n, r)).
  { intros k low Hu Hlow. rewrite app_length, be_length. assert ((k + length r <? k)%nat = false) as -> by (apply Nat.ltb_ge; lia). cbv zeta.
    rewrite firstn_app, firstn_all2 by (rewrite be_length; lia). rewrite be_length, Nat.sub_diag. cbn [firstn]. rewrite app_nil_r, unbe_be by done.
    assert ((n <? low) = false) as -> by lia. rewrite skipn_app, skipn_all2 by (rewrite be_length; lia). rewrite be_length, Nat.sub_diag. done. }
  unfold der_len. destruct (n <? 128) eqn:E0; [cbn [app read_len]; cbv zeta; by rewrite E0|].
  destruct (n <? 256) eqn:E1; [cbn [app]; unfold read_len; cbv zeta; change (129 <? 128) with false; cbv iota; change (129 =? 129) with true; cbv iota; apply L; [change (256 ^ N.of_nat 1) with 256; lia|lia]|].
  destruct (n <? 65536) eqn:E2; [cbn [app]; unfold read_len; cbv zeta; change (130 <? 128) with false; change (130 =? 129) with false; change (130 =? 130) with true; cbv iota; apply L; [change (256 ^ N.of_nat 2) with 65536; lia|lia]|].
  destruct (n <? 16777216) eqn:E3; [cbn [app]; unfold read_len; cbv zeta; change (131 <? 128) with false; change (131 =? 129) with false; change (131 =? 130) with false; change (131 =? 131) with true; cbv iota; apply L; [change (256 ^ N.of_nat 3) with 16777216; lia|lia]|].
  cbn [app]; unfold read_len; cbv zeta; change (132 <? 128) with false; change (132 =? 129) with false; change (132 =? 130) with false; change (132 =? 131) with false; change (132 =? 132) with true; cbv iota. apply L; [done|lia].
Qed.
Lemma der_tlv_ok tag c : blen c < 2 ^ 32 -> is_tlv tag c (der_tlv tag c).
Proof. intros H. exists (der_len (blen c)). split; [by apply der_len_ok|done]. Qed.
Lemma is_tlv_unique tag c a b : is_tlv tag c a -> is_tlv tag c b -> a = b.
Proof. intros (l & Hl & ->) (l' & Hl' & ->). by rewrite (is_len_unique _ _ _ Hl Hl'). Qed.
Lemma read_tlv_ok tag c b r : blen c < 2 ^ 32 -> is_tlv tag c b -> read_tlv tag (b ++ r) = Some (c, r).
Proof.
  intros Hc (l & Hl & ->). cbn [app]. unfold read_tlv. rewrite N.eqb_refl. cbn [negb]. rewrite <- app_assoc, (read_len_ok _ _ _ Hc Hl).
  assert ((blen (c ++ r) <? blen c) = false) as -> by (unfold blen; rewrite app_length; lia).
  unfold blen. rewrite Nat2N.id, firstn_app, skipn_app, firstn_all, skipn_all, Nat.sub_diag. cbn [firstn skipn]. by rewrite app_nil_r.
Qed.
Lemma der_len_size n : (length (der_len n) <= 5)%nat.
Proof. unfold der_len. repeat (match goal with |- context [if ?b then _ else _] => destruct b end); cbn [length]; rewrite ?be_length; lia. Qed.
Lemma der_tlv_size tag c : blen (der_tlv tag c) <= blen c + 6.
Proof. unfold der_tlv, blen. cbn [length]. rewrite app_length. pose proof (der_len_size (N.of_nat (length c))). lia. Qed.
Lemma is_tlv_size tag c b : blen c < 2 ^ 32 -> is_tlv tag c b -> blen b <= blen c + 6.
Proof. intros Hc H. rewrite (is_tlv_unique _ _ _ _ H (der_tlv_ok tag c Hc)). apply der_tlv_size. Qed.
Lemma read_uint_ok e x i b r : blen i < 2 ^ 32 -> is_int x i -> is_tlv 2 i b -> read_uint e (b ++ r) = Ok (i, r).
Proof. intros Hi Hx Hb. unfold read_uint, TAG_INTEGER. rewrite (read_tlv_ok _ _ _ _ Hi Hb), (der_uint_int _ _ Hx). done. Qed.
(* The encoding is at most one byte longer than a string of that value. *)
Lemma is_int_size x i n : is_int x i -> x < 256 ^ N.of_nat n -> (length i <= S n)%nat.
Proof.
  intros [_ Hm] Hx. rewrite <- (be_length (S n) x). apply Hm. split_and!; [rewrite be_snoc; by destruct (be n _)|apply be_ok| |].
  - replace (S n) with (1 + n)%nat by lia. rewrite be_app. rewrite N.div_small by done. change (be 1 0) with [0]. cbn [app hd]. lia.
  - apply unbe_be. eapply N.lt_le_trans; [exact Hx|apply pow_mono; lia].
Qed.
