(* Facts on the loops of the key derivation functions. *)
From Verif Require Export KdfSpec.
From Coq Require Import Arith.
Local Open Scope nat_scope.

Lemma firstn_app_le {A} n (a b : list A) : n <= length a -> firstn n (a ++ b) = firstn n a.
Proof. intros. rewrite firstn_app. replace (n - length a) with 0 by lia. by rewrite firstn_O, app_nil_r. Qed.
Lemma ceil_le n h l : 0 < h -> n <= l * h -> (n + h - 1) / h <= l.
Proof. intros Hh Hl. apply Nat.lt_succ_r. apply Nat.div_lt_upper_bound; [lia|]. nia. Qed.
Lemma ceil_ge n h : 0 < h -> n <= (n + h - 1) / h * h.
Proof.
  intros Hh. pose proof (Nat.div_mod (n + h - 1) h). pose proof (Nat.mod_upper_bound (n + h - 1) h). nia.
Qed.
Lemma ceil_lt n h b : 0 < h -> b < (n + h - 1) / h -> b * h < n.
Proof.
  intros Hh Hb. pose proof (Nat.div_mod (n + h - 1) h). pose proof (Nat.mod_upper_bound (n + h - 1) h). nia.
Qed.

(* Material of [n] bytes with the blocks before number [b] written. *)
Section upto.
Context (st : nat -> bytes) (blk : nat -> bytes) (h : nat).
Hypothesis st_0 : st 0 = [].
Hypothesis st_S : forall b, st (S b) = st b ++ blk b.
Hypothesis blk_len : forall b, length (blk b) = h.
Lemma st_len b : length (st b) = b * h.
Proof using st_0 st_S blk_len. induction b as [|b IH]; [by rewrite st_0|]. rewrite st_S, app_length, IH, blk_len. lia. Qed.
Definition upto (n b : nat) : bytes := firstn n (st b) ++ repeat 0%N (n - b * h).
Lemma upto_0 n : upto n 0 = repeat 0%N n.
Proof using st_0 st_S blk_len. unfold upto. rewrite st_0, firstn_nil. cbn [app]. f_equal. lia. Qed.
Lemma upto_len n b : length (upto n b) = n.
Proof using st_0 st_S blk_len. unfold upto. rewrite app_length, firstn_length, repeat_length, st_len. lia. Qed.
Lemma upto_write n b d : b * h < n -> d = firstn (n - b * h) (blk b) ->
  write_at (upto n b) (b * h) d = Ok (upto n (S b)).
Proof using st_0 st_S blk_len.
  intros Hb ->. unfold write_at. rewrite upto_len, firstn_length, blk_len.
  destruct (_ <=? _) eqn:E; [|apply Nat.leb_gt in E; lia]. f_equal. unfold upto. rewrite st_S.
  assert (X1 : firstn (b * h) (firstn n (st b) ++ repeat 0%N (n - b * h)) = st b).
  { rewrite firstn_all2 with (l := st b) by (rewrite st_len; lia). rewrite firstn_app_le by (rewrite st_len; lia).
    apply firstn_all2. rewrite st_len. lia. }
  rewrite X1. rewrite firstn_app, st_len. rewrite (firstn_all2 (st b)) by (rewrite st_len; lia). rewrite <- app_assoc.
  f_equal. f_equal. rewrite skipn_app, st_len. rewrite skipn_all2 by (rewrite st_len; lia). cbn [app].
  replace (b * h + Nat.min (n - b * h) h - b * h) with (Nat.min (n - b * h) h) by lia.
  assert (Hsk : forall k m, skipn k (repeat 0%N m) = repeat 0%N (m - k)).
  { intros k. induction k as [|k IH]; intros m; [by rewrite Nat.sub_0_r|]. destruct m as [|m]; [done|]. cbn [repeat skipn Nat.sub]. apply IH. }
  rewrite Hsk. f_equal. lia.
Qed.
Lemma st_prefix n a b : n <= a * h -> a <= b -> firstn n (st b) = firstn n (st a).
Proof using st_0 st_S blk_len.
  intros Hn Hab. induction Hab as [|b Hab IH]; [done|]. rewrite st_S, firstn_app_le by (rewrite st_len; nia). done.
Qed.
Lemma upto_all n l m : 0 < h -> n <= l * h -> n <= m * h -> upto n l = firstn n (st m).
Proof using st_0 st_S blk_len.
  intros Hh Hl Hm. unfold upto. replace (n - l * h) with 0 by lia. cbn [repeat]. rewrite app_nil_r.
  destruct (Nat.le_ge_cases l m); [symmetry|]; by apply st_prefix.
Qed.
Lemma upto_done n b : n <= b * h -> b * h <= n -> upto n b = st b.
Proof using st_0 st_S blk_len.
  intros. unfold upto. replace (n - b * h) with 0 by lia. cbn [repeat]. rewrite app_nil_r. apply firstn_all2. rewrite st_len. lia.
Qed.
Lemma upto_slice n b : b * h <= n -> slice (upto n b) 0 (b * h) = Ok (st b).
Proof using st_0 st_S blk_len.
  intros Hb. unfold slice. rewrite upto_len. replace (b * h <=? n) with true by (symmetry; by apply Nat.leb_le). cbn [Nat.leb andb].
  rewrite skipn_O, Nat.sub_0_r. f_equal. unfold upto. rewrite firstn_all2 with (l := st b) by (rewrite st_len; lia).
  rewrite firstn_app_le by (rewrite st_len; lia). apply firstn_all2. rewrite st_len. lia.
Qed.
Lemma upto_last n b : S b * h <= n -> slice (upto n (S b)) (S b * h - h) (S b * h) = Ok (blk b).
Proof using st_0 st_S blk_len.
  intros Hb. unfold slice. rewrite upto_len. replace (S b * h <=? n) with true by (symmetry; by apply Nat.leb_le).
  replace (S b * h - h <=? S b * h) with true by (symmetry; apply Nat.leb_le; lia). cbn [andb]. f_equal.
  unfold upto. rewrite firstn_all2 with (l := st (S b)) by (rewrite st_len; lia). rewrite st_S.
  replace (S b * h - h) with (b * h) by lia. replace (S b * h - b * h) with h by lia.
  rewrite <- app_assoc, skipn_app, st_len. rewrite skipn_all2 by (rewrite st_len; lia). rewrite Nat.sub_diag, skipn_O. cbn [app].
  rewrite firstn_app_le by (rewrite blk_len; lia). apply firstn_all2. rewrite blk_len. lia.
Qed.
End upto.

Lemma blocks_1_S blk n : blocks_1 blk (S n) = blocks_1 blk n ++ blk (S n).
Proof. unfold blocks_1. rewrite seq_S, map_app, concat_app. cbn. by rewrite app_nil_r. Qed.
Lemma blocks_1_0 blk : blocks_1 blk 0 = []. Proof. done. Qed.

(* The MACs of the code. *)
Lemma hmac_len H key d : hash_ok H -> length (hmac_of H key d) = h_size H.
Proof. intros (_ & _ & Hl & _). apply Hl. Qed.
Definition hmac_fed (H : hash) (key : bytes) (m : hmac H) (D : bytes) : Prop := exists u, m = hmac_at H key (h_size H) u D.
Lemma hmac_fin_key H key out u D : hash_ok H -> m_key H (fst (hmac_final H (hmac_at H key out u D) out)) = key /\
  m_out H (fst (hmac_final H (hmac_at H key out u D) out)) = out.
Proof.
  intros HH. unfold hmac_final, hmac_at. cbv zeta. cbn [m_final m_inner m_key m_out m_ipad m_opad].
  repeat case_match; done.
Qed.
Lemma hmac_computes H key : hash_ok H -> 0 < h_size H ->
  computes (hmac_macop H key) (hmac_of H key) (hmac_fed H key) /\ starts_over (hmac_macop H key) (hmac_fed H key).
Proof.
  intros HH Hp. assert (E0 : forall key, hmac_new H key (h_size H) = Ok (hmac_at H key (h_size H) false [])).
  { intros k. destruct (hmac_new_ok H HH k (h_size H)) as (m & Em & Hm). rewrite Em, Hm. unfold hmac_at. by rewrite app_nil_r. }
  assert (Hf : forall k D, firstn (h_size H) (hmac_of H k D) = hmac_of H k D).
  { intros k D. apply firstn_all2. by rewrite hmac_len. }
  split; [constructor; cbn [hmac_macop f_len f_st f_new f_once f_upd f_fin f_reset]|].
  - done.
  - intros d. by apply hmac_len.
  - eexists. split; [apply E0|]. split; [by exists false|]. intros d. unfold hmac_once. rewrite hmac_step by done.
    cbn [hmac_at m_used]. rewrite hmac_end by done. by rewrite Hf.
  - intros s D d [u ->]. rewrite hmac_step by done. eexists. split; [reflexivity|]. by exists true.
  - intros s D [u ->]. rewrite hmac_end by done. by rewrite Hf.
  - intros s D [u ->]. cbn [hmac_macop f_len f_fin f_reset]. unfold hmac_reset.
    destruct (hmac_fin_key H key (h_size H) u D HH) as [X1 X2]. 
    exists (hmac_at H key (h_size H) false []). split; [|by exists false].
    rewrite <- E0. unfold hmac_new, dig_reset. by f_equal.
Qed.
Lemma cmac_computes H : hash_ok H -> h_size H = 16 ->
  computes (cmac_macop H) (digest_of H) (fun s D => k_st H s = h_upd H (h_init H) D /\ k_final H s = false).
Proof.
  intros (Ha & He & Hl & Hb) Hs. constructor; cbn [cmac_macop f_len f_st f_new f_once f_upd f_fin].
  - lia.
  - intros d. unfold digest_of. by rewrite Hl.
  - eexists. split; [reflexivity|]. split; [cbn; by rewrite He|]. intros d. unfold cmac_once, cmac_new, cmac_update, cmac_final.
    cbn [k_used k_final k_st]. rewrite Hl, Hs. cbn [negb Nat.eqb snd]. f_equal. unfold digest_of.
    apply firstn_all2. rewrite Hl. lia.
  - intros s D d [E1 E2]. unfold cmac_update. rewrite E2. eexists. split; [reflexivity|]. cbn. by rewrite E1, Ha.
  - intros s D [E1 E2]. unfold cmac_final. rewrite E2. cbv zeta. rewrite Hl, Hs, Nat.eqb_refl. cbn [negb snd]. f_equal.
    rewrite E1. unfold digest_of. apply firstn_all2. rewrite Hl. lia.
Qed.
