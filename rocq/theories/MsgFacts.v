(* The value of a generated IV as a number. *)
From Verif Require Import Msg.
From Coq Require Import Arith.
Local Open Scope N_scope.

Lemma unle_app a b : unle (a ++ b) = unle a + 256 ^ N.of_nat (length a) * unle b.
Proof.
  induction a as [|x a IH]; [cbn [app length]; change (N.of_nat 0) with 0; rewrite N.pow_0_r; unfold unle; lia|].
  cbn [app length]. rewrite Nat2N.inj_succ, N.pow_succ_r'. cbn [unle]. rewrite IH. lia.
Qed.
Lemma unbe_app a b : unbe (a ++ b) = unbe a * 256 ^ N.of_nat (length b) + unbe b.
Proof. unfold unbe. rewrite rev_app_distr, unle_app, rev_length. lia. Qed.
Lemma unbe_one x : unbe [x] = x.
Proof. unfold unbe. cbn. lia. Qed.
Lemma unbe_cons x b : unbe (x :: b) = x * 256 ^ N.of_nat (length b) + unbe b.
Proof. change (x :: b) with ([x] ++ b). by rewrite unbe_app, unbe_one. Qed.
Lemma unbe_zeros k : unbe (repeat 0 k) = 0.
Proof. induction k as [|k IH]; [done|]. cbn [repeat]. rewrite unbe_cons, IH. lia. Qed.
Lemma be_snoc n x : be (S n) x = be n (x / 256) ++ [x mod 256].
Proof. unfold be. cbn [le]. by cbn [rev]. Qed.
Lemma be_app k n x : be (k + n) x = be k (x / 256 ^ N.of_nat n) ++ be n x.
Proof.
  revert x. induction n as [|n IH]; intros x.
  - rewrite Nat.add_0_r. change (N.of_nat 0) with 0. rewrite N.pow_0_r, N.div_1_r. change (be 0 x) with (@nil N).
    by rewrite app_nil_r.
  - rewrite Nat.add_succ_r, !be_snoc, IH, app_assoc. do 2 f_equal.
    rewrite Nat2N.inj_succ, N.pow_succ_r', N.div_div by lia. done.
Qed.
Lemma be_mod n x : unbe (be n x) = x mod 256 ^ N.of_nat n.
Proof.
  revert x. induction n as [|n IH]; intros x; [change (N.of_nat 0) with 0; rewrite N.pow_0_r, N.mod_1_r; done|].
  rewrite be_snoc, unbe_app, unbe_one, IH. cbn [length].
  change (256 ^ N.of_nat 1) with 256. rewrite Nat2N.inj_succ, N.pow_succ_r'.
  rewrite (N.mod_mul_r x 256) by (try apply N.pow_nonzero; lia). lia.
Qed.
Lemma pow256 n : 256 ^ n = 2 ^ (8 * n).
Proof. rewrite N.pow_mul_r. done. Qed.

(* The counter, split at byte [c] of its eight. *)
Lemma cnt_split x (c : nat) : (c < 8)%nat ->
  nth c (be 8 x) 0 = (x / 256 ^ N.of_nat (7 - c)) mod 256 /\ skipn (c + 1) (be 8 x) = be (7 - c) x.
Proof.
  intros Hc. assert (Eb : be 8 x = be (c + 1) (x / 256 ^ N.of_nat (7 - c)) ++ be (7 - c) x) by (rewrite <- be_app; f_equal; lia). rewrite Eb.
  assert (L : length (be (c + 1) (x / 256 ^ N.of_nat (7 - c))) = (c + 1)%nat) by apply be_length.
  split.
  - rewrite app_nth1 by lia. rewrite Nat.add_1_r, be_snoc, app_nth2 by (rewrite be_length; lia).
    rewrite be_length, Nat.sub_diag. done.
  - rewrite skipn_app, skipn_all2 by lia. rewrite L, Nat.sub_diag. done.
Qed.

(* How the fixed bits divide the buffer: [i] whole bytes, then a byte with [r] fixed bits. *)
Record cut (v : ivd) (i r k : nat) : Prop := {
  ct_fixed : v_fixed v = (8 * i + r)%nat; ct_r : (r < 8)%nat; ct_len : length (v_buf v) = (i + 1 + k)%nat;
  ct_bits : gen_bits v = (8 * k + (8 - r))%nat; ct_bytes : gen_bytes v = (k + 1)%nat;
  ct_mask : gen_mask v = 2 ^ N.of_nat (8 - r) - 1; ct_i : (v_fixed v / 8 = i)%nat }.
Lemma cut_ex v : (0 < gen_bits v)%nat -> exists i r k, cut v i r k.
Proof.
  intros Hg. unfold gen_bits in Hg.
  pose proof (Nat.div_mod (v_fixed v) 8 ltac:(lia)) as Hd. pose proof (Nat.mod_upper_bound (v_fixed v) 8 ltac:(lia)) as Hm.
  set (i := (v_fixed v / 8)%nat) in *. set (r := (v_fixed v mod 8)%nat) in *.
  exists i, r, (length (v_buf v) - i - 1)%nat.
  assert (Hb : gen_bits v = (8 * (length (v_buf v) - i - 1) + (8 - r))%nat) by (unfold gen_bits; lia).
  split; try lia.
  - unfold gen_bytes. rewrite Hb. set (k := (length (v_buf v) - i - 1)%nat).
    symmetry. apply (Nat.div_unique _ 8 _ (7 - r)); lia.
  - unfold gen_mask. rewrite Hb. set (k := (length (v_buf v) - i - 1)%nat). cbv zeta.
    destruct (Nat.eq_dec r 0) as [->|Hr].
    + assert (((8 * k + (8 - 0)) mod 8)%nat = 0%nat) as -> by (symmetry; apply (Nat.mod_unique _ 8 (k + 1)); lia). done.
    + assert (((8 * k + (8 - r)) mod 8)%nat = (8 - r)%nat) as -> by (symmetry; apply (Nat.mod_unique _ 8 k); lia).
      destruct (Nat.eqb_spec (8 - r) 0); [lia|]. rewrite N.shiftl_1_l. done.
Qed.
Lemma buf_cut v i r k : cut v i r k ->
  v_buf v = firstn i (v_buf v) ++ [nth i (v_buf v) 0] ++ skipn (i + 1) (v_buf v) /\ length (firstn i (v_buf v)) = i /\
  length (skipn (i + 1) (v_buf v)) = k.
Proof.
  intros C. pose proof (ct_len _ _ _ _ C) as L. split; [|split; [rewrite firstn_length; lia|rewrite skipn_length; lia]].
  rewrite <- (firstn_skipn i (v_buf v)) at 1. f_equal.
  rewrite Nat.add_1_r. revert L. generalize (v_buf v). clear. induction i as [|i IH]; intros l L; destruct l as [|x l]; cbn in L; try lia; [done|].
  cbn [skipn nth]. apply IH. cbn in *. lia.
Qed.

Lemma land_mask a r : N.land a (2 ^ r - 1) = a mod 2 ^ r.
Proof. rewrite <- N.land_ones. f_equal. rewrite N.ones_equiv. lia. Qed.
(* A byte without its low [8 - r] bits. *)
Lemma land_top a (r : nat) : a < 256 -> (r < 8)%nat ->
  N.land a (255 - (2 ^ N.of_nat (8 - r) - 1)) = a / 2 ^ N.of_nat (8 - r) * 2 ^ N.of_nat (8 - r).
Proof.
  intros Ha Hr. set (s := N.of_nat (8 - r)).
  assert (255 - (2 ^ s - 1) = N.ldiff 255 (N.ones s)) as ->.
  { assert (Hs : In s (map N.of_nat (seq 1 8))) by (apply in_map_iff; exists (8 - r)%nat; split; [done|apply in_seq; lia]).
    revert Hs. generalize s. clear. cbn [seq map]. intros s Hs. cbn in Hs.
    repeat (destruct Hs as [<-|Hs]; [vm_compute; reflexivity|]). done. }
  rewrite <- (N.shiftl_mul_pow2), <- N.shiftr_div_pow2, <- N.ldiff_ones_r.
  apply N.bits_inj. intros j. rewrite ?N.land_spec, ?N.ldiff_spec.
  destruct (N.lt_ge_cases j 8) as [Hj|Hj].
  - change 255 with (N.ones 8). rewrite (N.ones_spec_low 8) by done. by rewrite andb_true_l.
  - assert (N.testbit a j = false) as ->; [|done].
    destruct (N.eq_0_gt_0_cases a) as [->|Ha0]; [apply N.bits_0|]. apply N.bits_above_log2.
    apply N.log2_lt_pow2; [done|]. apply N.lt_le_trans with (2 ^ 8); [exact Ha|]. apply N.pow_le_mono_r; lia.
Qed.

(* The bits of a number put together from two. *)
Lemma bits_concat a b k j : b < 2 ^ k -> N.testbit (a * 2 ^ k + b) j = if j <? k then N.testbit b j else N.testbit a (j - k).
Proof.
  intros Hb. assert (Hp : 2 ^ k <> 0) by (apply N.pow_nonzero; lia). destruct (N.ltb_spec j k) as [Hj|Hj].
  - rewrite <- (N.mod_pow2_bits_low _ k j Hj). f_equal. rewrite N.add_comm, N.mod_add by done. by apply N.mod_small.
  - replace j with (j - k + k) at 1 by lia. rewrite <- N.div_pow2_bits. f_equal.
    rewrite N.add_comm, N.div_add by done. rewrite N.div_small by done. lia.
Qed.
Lemma small_bits b k j : b < 2 ^ k -> k <= j -> N.testbit b j = false.
Proof.
  intros Hb Hj. pose proof (bits_concat 0 b k j Hb) as H. rewrite N.mul_0_l, N.add_0_l in H. rewrite H.
  destruct (N.ltb_spec j k); [lia|]. apply N.bits_0.
Qed.
Lemma lor_concat a b k : b < 2 ^ k -> N.lor (a * 2 ^ k) b = a * 2 ^ k + b.
Proof.
  intros Hb. apply N.bits_inj. intros j. rewrite N.lor_spec, (bits_concat a b k j Hb).
  pose proof (bits_concat a 0 k j ltac:(lia)) as H0. rewrite N.add_0_r in H0. rewrite H0.
  destruct (N.ltb_spec j k); [by rewrite N.bits_0|]. by rewrite (small_bits b k j Hb), orb_false_r.
Qed.
Lemma lxor_small a b k : a < 2 ^ k -> b < 2 ^ k -> N.lxor a b < 2 ^ k.
Proof.
  intros Ha Hb. assert (N.lxor a b = N.lxor a b mod 2 ^ k) as ->; [|apply N.mod_lt, N.pow_nonzero; lia].
  apply N.bits_inj. intros j. destruct (N.lt_ge_cases j k) as [Hj|Hj].
  - by rewrite N.mod_pow2_bits_low.
  - by rewrite N.mod_pow2_bits_high, N.lxor_spec, (small_bits a k), (small_bits b k).
Qed.
Lemma lxor_concat a b c d k : b < 2 ^ k -> d < 2 ^ k -> N.lxor (a * 2 ^ k + b) (c * 2 ^ k + d) = N.lxor a c * 2 ^ k + N.lxor b d.
Proof.
  intros Hb Hd. apply N.bits_inj. intros j.
  rewrite N.lxor_spec, !bits_concat by (try apply lxor_small; done). destruct (j <? k); by rewrite N.lxor_spec.
Qed.
Lemma unbe_bound b : bytesok b -> unbe b < 256 ^ N.of_nat (length b).
Proof. intros H. unfold unbe. rewrite <- (rev_length b). apply unle_bound. by apply Forall_rev. Qed.
Lemma xor_zip_val a b : bytesok a -> bytesok b -> length a = length b ->
  unbe (xor_zip a b) = N.lxor (unbe a) (unbe b) /\ length (xor_zip a b) = length a.
Proof.
  revert b. induction a as [|x a IH]; intros [|y b] Ha Hb L; try done.
  apply List.Forall_cons_iff in Ha as [Hx Ha]. apply List.Forall_cons_iff in Hb as [Hy Hb]. injection L as L.
  destruct (IH b Ha Hb L) as [V1 L1]. cbn [xor_zip length]. split; [|by rewrite L1].
  rewrite !unbe_cons, V1, L1, <- L, pow256. apply eq_sym, lxor_concat; rewrite <- pow256; [by apply unbe_bound|rewrite L; by apply unbe_bound].
Qed.

Lemma be_ok n x : bytesok (be n x).
Proof. unfold be. apply Forall_rev, le_bytesok. Qed.
Lemma part_ok {b i} : bytesok b -> bytesok (firstn i b) /\ bytesok (skipn i b) /\ nth i b 0 < 256.
Proof.
  intros H. split; [by apply Forall_take|]. split; [by apply Forall_drop|].
  revert i. induction H as [|x l Hx Hl IH]; intros [|i]; cbn [nth]; first [done|apply IH|lia].
Qed.

Lemma limit_pow v i r k : cut v i r k -> 2 ^ N.of_nat (gen_bits v) = 2 ^ N.of_nat (8 - r) * 256 ^ N.of_nat k.
Proof. intros C. rewrite (ct_bits _ _ _ _ C), pow256, <- N.pow_add_r. f_equal. lia. Qed.
Lemma byte_pow (r : nat) : (r < 8)%nat -> 2 ^ N.of_nat r * 2 ^ N.of_nat (8 - r) = 256.
Proof. intros Hr. rewrite <- N.pow_add_r. replace (N.of_nat r + N.of_nat (8 - r)) with 8 by lia. done. Qed.

Lemma buf_val v i r k : cut v i r k ->
  unbe (v_buf v) = (unbe (firstn i (v_buf v)) * 256 + nth i (v_buf v) 0) * 256 ^ N.of_nat k + unbe (skipn (i + 1) (v_buf v)).
Proof.
  intros C. destruct (buf_cut _ _ _ _ C) as (E & L1 & L2). rewrite E at 1. rewrite !unbe_app, unbe_one, app_length, L2. cbn [length].
  replace (N.of_nat (1 + k)) with (N.succ (N.of_nat k)) by lia. rewrite N.pow_succ_r'. lia.
Qed.
Lemma div_val v i r k : cut v i r k -> bytesok (v_buf v) ->
  unbe (v_buf v) / 2 ^ N.of_nat (gen_bits v) * 2 ^ N.of_nat (gen_bits v) =
  unbe (firstn i (v_buf v)) * 256 * 256 ^ N.of_nat k +
  nth i (v_buf v) 0 / 2 ^ N.of_nat (8 - r) * 2 ^ N.of_nat (8 - r) * 256 ^ N.of_nat k.
Proof.
  intros C Ho. rewrite (limit_pow _ _ _ _ C), (buf_val _ _ _ _ C).
  destruct (buf_cut _ _ _ _ C) as (E & L1 & L2).
  pose proof (unbe_bound (skipn (i + 1) (v_buf v)) (proj1 (proj2 (part_ok Ho)))) as Hb. rewrite L2 in Hb.
  pose proof (byte_pow r (ct_r _ _ _ _ C)) as Hp. rewrite (N.mul_comm (2 ^ N.of_nat (8 - r)) (256 ^ N.of_nat k)).
  assert (K0 : 256 ^ N.of_nat k <> 0) by (apply N.pow_nonzero; lia).
  assert (S0 : 2 ^ N.of_nat (8 - r) <> 0) by (apply N.pow_nonzero; lia).
  set (A := unbe (firstn i (v_buf v))) in *. set (b := nth i (v_buf v) 0) in *. set (R := unbe (skipn (i + 1) (v_buf v))) in *.
  set (K := 256 ^ N.of_nat k) in *. set (s := 2 ^ N.of_nat (8 - r)) in *. set (t := 2 ^ N.of_nat r) in *. rewrite <- N.div_div by done.
  assert (((A * 256 + b) * K + R) / K = A * 256 + b) as -> by (rewrite N.div_add_l, N.div_small by done; lia).
  assert ((A * 256 + b) / s = A * t + b / s) as -> by (rewrite <- Hp, N.mul_assoc, N.div_add_l by done; done).
  rewrite <- Hp. lia.
Qed.

Theorem gen_counter_val v : (0 < gen_bits v)%nat -> bytesok (v_buf v) -> v_count v < 2 ^ 64 ->
  v_count v < 2 ^ N.of_nat (gen_bits v) ->
  unbe (gen_counter v) = unbe (v_buf v) / 2 ^ N.of_nat (gen_bits v) * 2 ^ N.of_nat (gen_bits v) + v_count v /\
  length (gen_counter v) = length (v_buf v) /\ bytesok (gen_counter v).
Proof.
  intros Hg Ho H64 Hlt. destruct (cut_ex v Hg) as (i & r & k & C). rewrite (div_val _ _ _ _ C Ho).
  destruct (buf_cut _ _ _ _ C) as (E & L1 & L2). destruct C as [c1 c2 c3 c4 c5 c6 c7].
  pose proof (byte_pow r c2) as Hp. destruct (part_ok (i := i) Ho) as (O1 & O2 & O3).
  assert (Hl : 2 ^ N.of_nat (gen_bits v) = 2 ^ N.of_nat (8 - r) * 256 ^ N.of_nat k) by (rewrite c4, pow256, <- N.pow_add_r; f_equal; lia).
  assert (S0 : 2 ^ N.of_nat (8 - r) <> 0) by (apply N.pow_nonzero; lia).
  assert (K0 : 256 ^ N.of_nat k <> 0) by (apply N.pow_nonzero; lia).
  pose proof (N.mul_div_le (nth i (v_buf v) 0) (2 ^ N.of_nat (8 - r)) S0) as Hd.
  pose proof (land_top (nth i (v_buf v) 0) r O3 c2) as Ht.
  unfold gen_counter. rewrite c5, c6, c7, Ht. cbv zeta. destruct (Nat.ltb_spec 8 (k + 1)) as [Hk|Hk].
  - rewrite !unbe_app, unbe_one, unbe_zeros, !app_length, repeat_length, be_length, unbe_be by exact H64. cbn [length]. rewrite L1, c3.
    replace (N.of_nat (1 + (i + 1 + k - 8 - (i + 1) + 8))) with (N.succ (N.of_nat k)) by lia.
    replace (N.of_nat (i + 1 + k - 8 - (i + 1) + 8)) with (N.of_nat k) by lia. rewrite N.pow_succ_r'.
    split; [lia|]. split; [lia|].
    unfold bytesok. rewrite !List.Forall_app. split; [done|]. split; [apply List.Forall_cons; [unfold byteok; lia|done]|].
    split; [apply List.Forall_forall; intros x Hx; apply repeat_spec in Hx; subst x; unfold byteok; lia|apply be_ok].
  - destruct (cnt_split (v_count v) (8 - (k + 1)) ltac:(lia)) as [-> ->].
    replace (7 - (8 - (k + 1)))%nat with k by lia. rewrite land_mask.
    set (q := v_count v / 256 ^ N.of_nat k).
    assert (Hq : q < 2 ^ N.of_nat (8 - r)) by (apply N.div_lt_upper_bound; [done|lia]).
    assert (Hs : 2 ^ N.of_nat (8 - r) <= 256) by (rewrite <- Hp; pose proof (N.pow_nonzero 2 (N.of_nat r)); nia).
    rewrite (N.mod_small q 256), (N.mod_small q) by lia. rewrite lor_concat by done.
    rewrite !unbe_app, unbe_one, be_mod, !app_length, be_length. cbn [length]. rewrite L1, c3.
    replace (N.of_nat (1 + k)) with (N.succ (N.of_nat k)) by lia. rewrite N.pow_succ_r'.
    pose proof (N.div_mod (v_count v) (256 ^ N.of_nat k) K0) as Hx. fold q in Hx.
    split; [lia|]. split; [lia|].
    unfold bytesok. rewrite !List.Forall_app. split; [done|]. split; [|apply be_ok].
    apply List.Forall_cons; [|done]. unfold byteok.
    set (b := nth i (v_buf v) 0) in *. set (s := 2 ^ N.of_nat (8 - r)) in *.
    assert (Hbs : b / s < 2 ^ N.of_nat r) by (apply N.div_lt_upper_bound; [done|lia]). nia.
Qed.

Theorem gen_xor_val v : (0 < gen_bits v)%nat -> bytesok (v_buf v) -> v_count v < 2 ^ 64 ->
  v_count v < 2 ^ N.of_nat (gen_bits v) ->
  unbe (gen_xor v) = N.lxor (unbe (v_buf v)) (v_count v) /\ length (gen_xor v) = length (v_buf v).
Proof.
  intros Hg Ho H64 Hlt. destruct (cut_ex v Hg) as (i & r & k & C). pose proof (buf_val _ _ _ _ C) as Hv.
  destruct (buf_cut _ _ _ _ C) as (E & L1 & L2). destruct C as [c1 c2 c3 c4 c5 c6 c7].
  pose proof (byte_pow r c2) as Hp. destruct (part_ok (i := i) Ho) as (O1 & _ & O3). destruct (part_ok (i := i + 1) Ho) as (_ & O2 & _).
  assert (Hl : 2 ^ N.of_nat (gen_bits v) = 2 ^ N.of_nat (8 - r) * 256 ^ N.of_nat k) by (rewrite c4, pow256, <- N.pow_add_r; f_equal; lia).
  assert (S0 : 2 ^ N.of_nat (8 - r) <> 0) by (apply N.pow_nonzero; lia).
  assert (K0 : 256 ^ N.of_nat k <> 0) by (apply N.pow_nonzero; lia).
  unfold gen_xor. rewrite c5, c6, c7. cbv zeta. destruct (Nat.ltb_spec 8 (k + 1)) as [Hk|Hk].
  - set (c := (length (v_buf v) - 8)%nat). destruct (part_ok (i := c) Ho) as (A1 & A2 & _).
    assert (Lc : length (skipn c (v_buf v)) = 8%nat) by (rewrite skipn_length; unfold c; lia).
    destruct (xor_zip_val (skipn c (v_buf v)) (be 8 (v_count v)) A2 (be_ok _ _)) as [X1 X2]; [by rewrite be_length|].
    rewrite unbe_app, app_length, X1, X2, Lc, unbe_be by exact H64. split.
    + rewrite <- (firstn_skipn c (v_buf v)) at 3. rewrite unbe_app, Lc.
      replace (v_count v) with (0 * 2 ^ 64 + v_count v) at 2 by lia.
      change (256 ^ N.of_nat 8) with (2 ^ 64). rewrite lxor_concat; [by rewrite N.lxor_0_r| |done].
      pose proof (unbe_bound _ A2) as Hb. rewrite Lc in Hb. exact Hb.
    + rewrite firstn_length. unfold c. lia.
  - destruct (cnt_split (v_count v) (8 - (k + 1)) ltac:(lia)) as [-> ->].
    replace (7 - (8 - (k + 1)))%nat with k by lia. rewrite land_mask.
    set (q := v_count v / 256 ^ N.of_nat k).
    assert (Hq : q < 2 ^ N.of_nat (8 - r)) by (apply N.div_lt_upper_bound; [done|lia]).
    assert (Hs : 2 ^ N.of_nat (8 - r) <= 256) by (rewrite <- Hp; pose proof (N.pow_nonzero 2 (N.of_nat r)); nia).
    rewrite (N.mod_small q 256), (N.mod_small q) by lia.
    destruct (xor_zip_val (skipn (i + 1) (v_buf v)) (be k (v_count v)) O2 (be_ok _ _)) as [X1 X2]; [by rewrite be_length|].
    rewrite !unbe_app, unbe_one, X1, be_mod, !app_length, X2, L2. cbn [length]. rewrite L1, c3. split; [|lia].
    rewrite Hv. pose proof (N.div_mod (v_count v) (256 ^ N.of_nat k) K0) as Hx. fold q in Hx.
    replace (v_count v) with (q * 256 ^ N.of_nat k + v_count v mod 256 ^ N.of_nat k) at 2 by lia.
    replace (N.of_nat (1 + k)) with (N.succ (N.of_nat k)) by lia. rewrite N.pow_succ_r'.
    pose proof (unbe_bound _ O2) as Hb. rewrite L2 in Hb. rewrite pow256 in *.
    rewrite lxor_concat; [|done|apply N.mod_lt, N.pow_nonzero; lia].
    replace q with (0 * 256 + q) at 2 by lia. change 256 with (2 ^ 8). rewrite lxor_concat; [|exact O3|change (2 ^ 8) with 256; lia].
    rewrite N.lxor_0_r. lia.
Qed.
