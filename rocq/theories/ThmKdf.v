(* C35: the key derivation functions give the bytes their specifications say. *)
From Verif Require Export KdfFacts.
From Coq Require Import Arith.
Local Open Scope nat_scope.

Section pbkdf2.
Context (F : macop) (f : bytes -> bytes) (st : f_st F -> bytes -> Prop) (HF : computes F f st).
Lemma prf_is d : prf_fn F d = Ok (f d).
Proof using HF. unfold prf_fn. destruct (cm_new _ _ _ HF) as (s & -> & _ & H). apply H. Qed.
Lemma xor_bytes_eq a b h : length a = h -> length b = h ->
  xor_bytes a b = map (fun k => N.lxor (byte_of a k) (byte_of b k)) (seq 0 h).
Proof using Type.
  intros <-. revert b. induction a as [|x a IH]; intros [|y b] Hb; try discriminate Hb; [done|].
  injection Hb as Hb. cbn [length seq map]. unfold xor_bytes. cbn [combine map fst snd]. f_equal.
  rewrite <- seq_shift, map_map. change (map (fun p => N.lxor p.1 p.2) (combine a b)) with (xor_bytes a b). by rewrite IH.
Qed.
Lemma rounds_is iter : forall t u, length t = f_len F ->
  pbkdf2_rounds F iter t u = Ok (map (fun k => N.lxor (byte_of t k) (byte_of (xor_all (f_len F) (pb_us f u iter)) k)) (seq 0 (f_len F))).
Proof using HF.
  assert (Hb : forall g h k, k < h -> byte_of (map g (seq 0 h)) k = g k).
  { intros g h k Hk. unfold byte_of. rewrite nth_indep with (d' := g 0) by (by rewrite map_length, seq_length).
    rewrite map_nth. by rewrite seq_nth. }
  induction iter as [|iter IH]; intros t u Ht; cbn [pbkdf2_rounds pb_us].
  - f_equal. transitivity (map (byte_of t) (seq 0 (f_len F))).
    + rewrite <- Ht. unfold byte_of. clear. induction t as [|x t IH]; [done|]. cbn [length seq map nth]. f_equal.
      rewrite <- seq_shift, map_map. exact IH.
    + apply map_ext_in. intros k Hk%in_seq. unfold xor_all. rewrite Hb by lia. cbn. by rewrite N.lxor_0_r.
  - rewrite prf_is, (xor_bytes_eq _ _ (f_len F)); [|done|apply (cm_len _ _ _ HF)]. rewrite IH by (by rewrite map_length, seq_length).
    f_equal. apply map_ext_in. intros k Hk%in_seq. unfold xor_all. rewrite !Hb by lia. cbn [map fold_right]. by rewrite N.lxor_assoc.
Qed.
Lemma blocks_is l b salt iter dklen :
  (N.of_nat (b + l) < 2 ^ 32)%N -> (forall k, k < b + l -> k * f_len F < dklen) ->
  pbkdf2_blocks F l b salt iter dklen (upto (blocks_1 (pb_block f (f_len F) salt iter)) (f_len F) dklen b) =
  Ok (upto (blocks_1 (pb_block f (f_len F) salt iter)) (f_len F) dklen (b + l)).
Proof using HF.
  assert (Hlen : forall i, length (pb_block f (f_len F) salt iter i) = f_len F).
  { intros i. unfold pb_block, xor_all. by rewrite map_length, seq_length. }
  revert b. induction l as [|l IH]; intros b Hn Hk; cbn [pbkdf2_blocks]; [by rewrite Nat.add_0_r|].
  destruct (2 ^ 32 <=? N.of_nat (b + 1))%N eqn:E; [apply N.leb_le in E; lia|].
  rewrite rounds_is by (by rewrite repeat_length). cbv zeta.
  set (blk := fun b => pb_block f (f_len F) salt iter (S b)).
  assert (Et : map (fun k => N.lxor (byte_of (repeat 0%N (f_len F)) k)
     (byte_of (xor_all (f_len F) (pb_us f (salt ++ be 4 (N.of_nat (b + 1))) iter)) k)) (seq 0 (f_len F)) = blk b).
  { unfold blk, pb_block. rewrite Nat.add_1_r. set (v := xor_all _ _).
    assert (Hv : length v = f_len F) by (unfold v, xor_all; by rewrite map_length, seq_length).
    transitivity (map (byte_of v) (seq 0 (f_len F))).
    - apply map_ext. intros k. unfold byte_of at 1. by rewrite nth_repeat, N.lxor_0_l.
    - rewrite <- Hv. unfold byte_of. clear. clearbody v. induction v as [|x v IH]; [done|]. cbn [length seq map nth]. f_equal.
      rewrite <- seq_shift, map_map. exact IH. }
  rewrite Et. rewrite (upto_write (blocks_1 (pb_block f (f_len F) salt iter)) blk); try done.
  - rewrite <- (Nat.add_1_r b), IH; [f_equal; f_equal; lia|lia|]. intros k Hkk. apply Hk. lia.
  - intros k. apply blocks_1_S.
  - intros k. apply Hlen.
  - apply Hk. lia.
  - destruct (_ <? _) eqn:E2; [|done]. apply Nat.ltb_lt in E2. rewrite !firstn_all2; [done| |]; unfold blk; rewrite Hlen; lia.
Qed.
Lemma pbkdf2_is salt iter dklen l :
  (N.of_nat dklen <= (2 ^ 32 - 1) * N.of_nat (f_len F))%N -> dklen <= l * f_len F ->
  pbkdf2_derive F salt iter dklen = Ok (firstn dklen (blocks_1 (pb_block f (f_len F) salt iter) l)).
Proof using HF.
  intros Hd Hl. pose proof (cm_pos _ _ _ HF) as Hp. unfold pbkdf2_derive.
  pose proof (ceil_ge dklen (f_len F) Hp) as Hc.
  assert (Hm : ((N.of_nat dklen + N.of_nat (f_len F) - 1) / N.of_nat (f_len F) <= 2 ^ 32 - 1)%N).
  { apply N.lt_succ_r. apply N.div_lt_upper_bound; [lia|]. lia. }
  assert (En : N.of_nat ((dklen + f_len F - 1) / f_len F) = ((N.of_nat dklen + N.of_nat (f_len F) - 1) / N.of_nat (f_len F))%N).
  { rewrite Nat2N.inj_div. f_equal. lia. }
  assert (Hq : (N.of_nat (dklen / f_len F) <= 2 ^ 32 - 1)%N).
  { rewrite Nat2N.inj_div. apply N.le_trans with (2 := Hm). apply N.div_le_mono; lia. }
  destruct (2 ^ 32 - 1 <? _)%N eqn:E; [apply N.ltb_lt in E; lia|].
  rewrite <- (upto_0 (blocks_1 (pb_block f (f_len F) salt iter)) (fun b => pb_block f (f_len F) salt iter (S b)) (f_len F)); try done.
  2: { intros b. apply blocks_1_S. }
  2: { intros b. unfold pb_block, xor_all. by rewrite map_length, seq_length. }
  rewrite blocks_is.
  - f_equal. cbn [Nat.add]. apply upto_all with (blk := fun b => pb_block f (f_len F) salt iter (S b)); try done.
    + intros b. apply blocks_1_S.
    + intros b. unfold pb_block, xor_all. by rewrite map_length, seq_length.
  - cbn [Nat.add]. lia.
  - intros k Hk. apply ceil_lt; [done|]. lia.
Qed.
End pbkdf2.

(* C35, PBKDF2: every password, salt, number of iterations and length the counter of 32 bits allows; l is any number
   of blocks that is enough. *)
Theorem C35_pbkdf2 H : hash_ok H -> 0 < h_size H -> forall pass salt iter dklen l,
  (N.of_nat dklen <= (2 ^ 32 - 1) * N.of_nat (h_size H))%N -> dklen <= l * h_size H ->
  pbkdf2_derive (hmac_macop H pass) salt iter dklen =
  Ok (firstn dklen (blocks_1 (pb_block (hmac_of H pass) (h_size H) salt iter) l)).
Proof.
  intros HH Hp pass salt iter dklen l Hd Hl. destruct (hmac_computes H pass HH Hp) as [HF _].
  apply (pbkdf2_is (hmac_macop H pass) _ _ HF); done.
Qed.
Example C35_pbkdf2_case : exists k k', pbkdf2_derive (hmac_macop toy_hash (counted 5)) (counted 8) 3 40 = Ok k /\
  pbkdf2_derive (hmac_macop toy_hash (counted 6)) (counted 8) 3 40 = Ok k' /\ length k = 40 /\ k <> k' /\ 40 <= 3 * h_size toy_hash.
Proof. do 2 eexists. split; [vm_compute; reflexivity|]. split; [vm_compute; reflexivity|]. split; [vm_compute; reflexivity|].
  split; [vm_compute; discriminate|]. cbn. lia. Qed.
(* RFC 8018 wants a positive number of iterations.  None is accepted too, and the key then is all zeroes, whatever the
   password and the salt are. *)
Theorem C35_pbkdf2_zero_refuted H : hash_ok H -> 0 < h_size H -> forall pass salt dklen,
  (N.of_nat dklen <= (2 ^ 32 - 1) * N.of_nat (h_size H))%N ->
  pbkdf2_derive (hmac_macop H pass) salt 0 dklen = Ok (repeat 0%N dklen).
Proof.
  intros HH Hp pass salt dklen Hd. rewrite (C35_pbkdf2 H HH Hp pass salt 0 dklen dklen Hd) by nia. f_equal.
  assert (Hz : forall n, blocks_1 (pb_block (hmac_of H pass) (h_size H) salt 0) n = repeat 0%N (n * h_size H)).
  { induction n as [|n IH]; [done|]. rewrite blocks_1_S, IH. cbn [Nat.mul]. rewrite Nat.add_comm, repeat_app. f_equal.
    unfold pb_block, xor_all. cbn [pb_us map fold_right].
    assert (X : forall (l : list nat), map (fun _ => 0%N) l = repeat 0%N (length l)) by (induction l; cbn; congruence).
    by rewrite X, seq_length. }
  rewrite Hz. assert (X : forall a b, a <= b -> firstn a (repeat 0%N b) = repeat 0%N a).
  { induction a as [|a IH]; intros b Hb; [done|]. destruct b as [|b]; [lia|]. cbn [repeat firstn]. f_equal. apply IH. lia. }
  apply X. nia.
Qed.

(* SP 800-108. *)
Section sp800.
Context (F : macop) (f : bytes -> bytes) (st : f_st F -> bytes -> Prop) (HF : computes F f st).
Lemma num_is little bits x : num_bytes (little && negb (bits =? 8)) (bits / 8) x = num little bits x.
Proof using Type.
  unfold num_bytes, num. destruct (bits =? 8) eqn:E; [|by rewrite andb_true_r].
  apply Nat.eqb_eq in E as ->. rewrite andb_false_r. change (8 / 8) with 1. destruct little; [|done].
  unfold be. cbn [le]. done.
Qed.
Lemma ctr_is c i b : ctr_bytes c i = Ok b -> b = num (cf_le c) (cf_bits c) (N.of_nat i).
Proof using Type.
  unfold ctr_bytes. destruct (negb _); [discriminate|]. rewrite <- num_is. intros H.
  repeat case_match; try discriminate H; apply ok_inj in H as <-; congruence.
Qed.
(* The length of what is derived fits in its field, and is not its greatest value (see the refutation below). *)
Definition len_fits (sizes : list nat) (seg : nat) (l : lformat) : Prop :=
  (N.of_nat (list_sum (if lf_keys l then sizes else map (fun k : nat => ((k + seg - 1) / seg * seg)%nat) sizes)) <
   2 ^ N.of_nat (lf_bits l) - 1)%N.
Lemma len_is sizes l b : len_fits sizes (f_len F) l ->
  len_bytes l (list_sum sizes) (list_sum (map (seg_size F) sizes)) = Ok b -> b = len_field 1 sizes (f_len F) l.
Proof using Type.
  unfold len_fits, len_bytes, len_field. intros Hf H. rewrite <- num_is, N.mul_1_l.
  assert (E : (if lf_keys l then list_sum sizes else list_sum (map (seg_size F) sizes)) =
    list_sum (if lf_keys l then sizes else map (fun k => (k + f_len F - 1) / f_len F * f_len F) sizes)) by (by destruct (lf_keys l)).
  cbv zeta in H. rewrite E in H. rewrite N.mod_small in H by done.
  repeat case_match; try discriminate H; apply ok_inj in H as <-; congruence.
Qed.
Lemma feed_is s D r s' u : st s D -> feed F s r = (s', Ok u) -> exists d, r = Ok d /\ st s' (D ++ d).
Proof using HF.
  intros Hs H. unfold feed in H. destruct r as [d|e]; [|discriminate H]. exists d. split; [done|].
  destruct (cm_upd _ _ _ HF s D d Hs) as (s2 & E & Hs2). rewrite E in H. congruence.
Qed.
Lemma counter_is sizes i ps : Forall (fun p => match p with SLen l => len_fits sizes (f_len F) l | _ => True end) ps ->
  forall s D si sl s' u, st s D ->
  counter_updates F ps s i (list_sum sizes) (list_sum (map (seg_size F) sizes)) si sl = (s', Ok u) ->
  st s' (D ++ sp_data 1 sizes (f_len F) None ps i).
Proof using HF.
  induction 1 as [|p ps Hp Hps IH]; intros s D si sl s' u Hs H; cbn [counter_updates] in H.
  - assert (s' = s) as -> by (destruct si; congruence). cbn. by rewrite app_nil_r.
  - assert (Ed : forall d, d = match p with SIter c | SCounter c => num (cf_le c) (cf_bits c) (N.of_nat i) | SBytes b => b
      | SLen l => len_field 1 sizes (f_len F) l end -> D ++ sp_data 1 sizes (f_len F) None (p :: ps) i = (D ++ d) ++ sp_data 1 sizes (f_len F) None ps i).
    { intros d ->. unfold sp_data. cbn [map concat]. rewrite app_assoc. by destruct p. }
    destruct p as [c|c|b|l]; [| discriminate H| |].
    + destruct si; [discriminate H|]. destruct (feed F s _) as [s1 [u1|e]] eqn:E1; [|discriminate H].
      destruct (feed_is _ _ _ _ _ Hs E1) as (d & E2 & Hs1). apply ctr_is in E2. rewrite (Ed d E2). by apply (IH _ _ _ _ _ _ Hs1 H).
    + destruct (feed F s _) as [s1 [u1|e]] eqn:E1; [|discriminate H].
      destruct (feed_is _ _ _ _ _ Hs E1) as (d & E2 & Hs1). apply ok_inj in E2. rewrite (Ed d (eq_sym E2)). by apply (IH _ _ _ _ _ _ Hs1 H).
    + destruct sl; [discriminate H|]. destruct (feed F s _) as [s1 [u1|e]] eqn:E1; [|discriminate H].
      destruct (feed_is _ _ _ _ _ Hs E1) as (d & E2 & Hs1). apply len_is in E2; [|done]. rewrite (Ed d E2). by apply (IH _ _ _ _ _ _ Hs1 H).
Qed.
Lemma feedback_is sizes i prev ps : Forall (fun p => match p with SLen l => len_fits sizes (f_len F) l | _ => True end) ps ->
  forall s D si sc sl s' u, st s D ->
  feedback_updates F ps s prev i (list_sum sizes) (list_sum (map (seg_size F) sizes)) si sc sl = (s', Ok u) ->
  st s' (D ++ sp_data 1 sizes (f_len F) (Some prev) ps i).
Proof using HF.
  induction 1 as [|p ps Hp Hps IH]; intros s D si sc sl s' u Hs H; cbn [feedback_updates] in H.
  - assert (s' = s) as -> by (destruct si; congruence). cbn. by rewrite app_nil_r.
  - assert (Ed : forall d, d = match p with SIter c => prev | SCounter c => num (cf_le c) (cf_bits c) (N.of_nat i) | SBytes b => b
      | SLen l => len_field 1 sizes (f_len F) l end -> D ++ sp_data 1 sizes (f_len F) (Some prev) (p :: ps) i = (D ++ d) ++ sp_data 1 sizes (f_len F) (Some prev) ps i).
    { intros d ->. unfold sp_data. cbn [map concat]. rewrite app_assoc. by destruct p. }
    destruct p as [c|c|b|l].
    + destruct si; [discriminate H|]. destruct (cf_defined c); [discriminate H|]. destruct (feed F s _) as [s1 [u1|e]] eqn:E1; [|discriminate H].
      destruct (feed_is _ _ _ _ _ Hs E1) as (d & E2 & Hs1). apply ok_inj in E2. rewrite (Ed d (eq_sym E2)). by apply (IH _ _ _ _ _ _ _ Hs1 H).
    + destruct sc; [discriminate H|]. destruct (feed F s _) as [s1 [u1|e]] eqn:E1; [|discriminate H].
      destruct (feed_is _ _ _ _ _ Hs E1) as (d & E2 & Hs1). apply ctr_is in E2. rewrite (Ed d E2). by apply (IH _ _ _ _ _ _ _ Hs1 H).
    + destruct (feed F s _) as [s1 [u1|e]] eqn:E1; [|discriminate H].
      destruct (feed_is _ _ _ _ _ Hs E1) as (d & E2 & Hs1). apply ok_inj in E2. rewrite (Ed d (eq_sym E2)). by apply (IH _ _ _ _ _ _ _ Hs1 H).
    + destruct sl; [discriminate H|]. destruct (feed F s _) as [s1 [u1|e]] eqn:E1; [|discriminate H].
      destruct (feed_is _ _ _ _ _ Hs E1) as (d & E2 & Hs1). apply len_is in E2; [|done]. rewrite (Ed d E2). by apply (IH _ _ _ _ _ _ _ Hs1 H).
Qed.
Lemma segments_is sizes mode ps n : Forall (fun p => match p with SLen l => len_fits sizes (f_len F) l | _ => True end) ps ->
  forall k i slen dkm, slen = (i + k) * f_len F -> n = slen ->
  sp800_segments F k i mode ps (list_sum sizes) (list_sum (map (seg_size F) sizes))
    (upto (blocks_1 (sp_segment f 1 sizes (f_len F) mode ps)) (f_len F) n i) = Ok dkm ->
  dkm = upto (blocks_1 (sp_segment f 1 sizes (f_len F) mode ps)) (f_len F) n (i + k).
Proof using HF.
  intros Hps. pose proof (cm_pos _ _ _ HF) as Hp. set (S1 := blocks_1 (sp_segment f 1 sizes (f_len F) mode ps)).
  set (blk := fun b => sp_segment f 1 sizes (f_len F) mode ps (S b)).
  assert (H0 : S1 0 = []) by done. assert (HS : forall b, S1 (S b) = S1 b ++ blk b) by (intros b; apply blocks_1_S).
  assert (HL : forall b, length (blk b) = f_len F) by (intros b; apply (cm_len _ _ _ HF)).
  induction k as [|k IH]; intros i slen dkm Hsl Hn H; cbn [sp800_segments] in H.
  - rewrite Nat.add_0_r. by apply ok_inj in H.
  - destruct (cm_new _ _ _ HF) as (s & Es & Hs & _). rewrite Es in H. cbv zeta in H.
    match type of H with match ?X with _ => _ end = _ => destruct X as [s1 [u1|e]] eqn:E1 end; [|discriminate H].
    assert (Hs1 : st s1 (sp_data 1 sizes (f_len F) (match mode with Some _ => Some (sp_segment f 1 sizes (f_len F) mode ps i) | None => None end) ps (S i))).
    { destruct mode as [iv|].
      - assert (Ei : (if i =? 0 then Ok iv else slice (upto S1 (f_len F) n i) (i * f_len F - f_len F) (i * f_len F)) =
          Ok (sp_segment f 1 sizes (f_len F) (Some iv) ps i)).
        { destruct i as [|i]; [done|]. cbn [Nat.eqb]. apply (upto_last S1 blk (f_len F) H0 HS HL). nia. }
        rewrite Ei in E1. rewrite Nat.add_1_r in E1. apply (feedback_is sizes (S i) _ ps Hps _ [] _ _ _ _ _ Hs) in E1. done.
      - rewrite Nat.add_1_r in E1. apply (counter_is sizes (S i) ps Hps _ [] _ _ _ _ Hs) in E1. done. }
    rewrite (cm_fin _ _ _ HF _ _ Hs1) in H.
    rewrite (upto_write S1 blk (f_len F) H0 HS HL) in H; [|nia|].
    + rewrite <- (Nat.add_1_r i) in H. apply (IH (i + 1) slen) in H; [|lia|done]. rewrite H. f_equal. lia.
    + symmetry. rewrite firstn_all2; [done|]. rewrite HL. nia.
Qed.
Lemma cut_is sizes : forall dkm cursor keys, Forall (fun k => k <> 0) sizes ->
  length dkm = cursor + list_sum (map (seg_size F) sizes) -> cut_keys F sizes cursor dkm = Ok keys ->
  cut_from (f_len F) (skipn cursor dkm) sizes keys.
Proof using HF.
  pose proof (cm_pos _ _ _ HF) as Hp.
  induction sizes as [|k sizes IH]; intros dkm cursor keys Hk Hd H; cbn [cut_keys] in H.
  - apply ok_inj in H as <-. split; [done|]. exists []. split; [done|]. split; [constructor|]. cbn in Hd. rewrite skipn_all2 by lia. done.
  - destruct (slice dkm cursor (cursor + k)) as [v|e] eqn:E1; [|discriminate H].
    destruct (cut_keys F sizes _ dkm) as [l|e] eqn:E2; [|discriminate H]. apply ok_inj in H as <-.
    apply List.Forall_cons_iff in Hk as [Hk0 Hk]. cbn [map list_sum fold_right] in Hd. unfold seg_size at 1 in Hd.
    pose proof (ceil_ge k (f_len F) Hp) as Hc.
    assert (Hlt : (k + f_len F - 1) / f_len F * f_len F < k + f_len F).
    { pose proof (Nat.div_mod (k + f_len F - 1) (f_len F)). nia. }
    apply IH in E2; [|done|]. 2: { unfold seg_size at 1. change (list_sum (map (seg_size F) sizes)) with (fold_right Nat.add 0 (map (seg_size F) sizes)). lia. }
    destruct E2 as (Hl & rests & Hr1 & Hr2 & Hr3). unfold slice in E1.
    destruct (_ && _) eqn:Eb; [|discriminate E1]. apply ok_inj in E1. replace (cursor + k - cursor) with k in E1 by lia.
    assert (Hv : length v = k) by (rewrite <- E1, firstn_length, skipn_length; lia).
    split; [cbn [map]; by rewrite Hv, Hl|].
    exists (firstn (seg_size F k - k) (skipn k (skipn cursor dkm)) :: rests). split; [cbn; by rewrite Hr1|]. split.
    + constructor; [|done]. rewrite firstn_length. unfold seg_size. lia.
    + cbn [zip_with concat]. rewrite <- Hr3, <- E1.
      rewrite <- (firstn_skipn k (skipn cursor dkm)) at 1. rewrite <- app_assoc. f_equal.
      rewrite <- (firstn_skipn (seg_size F k - k) (skipn k (skipn cursor dkm))) at 1. f_equal.
      rewrite !drop_drop. f_equal. unfold seg_size. lia.
Qed.
End sp800.

(* C35, SP 800-108 in counter and feedback mode: when the call gives keys, they are cut out of the segments of the
   specification, one after the other, each from a new segment on; every PRF, list of fields, IV and list of sizes.
   Missing: the length field in bits (SP 800-108 counts L in bits, the code in bytes, unit 1 here), the double pipeline
   mode, which the code refuses, and the OpenSSL implementation used in FIPS builds. *)
Theorem C35_sp800_partial F f st : computes F f st -> forall mode ps sizes keys,
  Forall (fun p => match p with SLen l => len_fits sizes (f_len F) l | _ => True end) ps ->
  sp800_derive F mode ps sizes = Ok keys ->
  exists n, cut_from (f_len F) (blocks_1 (sp_segment f 1 sizes (f_len F) mode ps) n) sizes keys.
Proof.
  intros HF mode ps sizes keys Hps H. pose proof (cm_pos _ _ _ HF) as Hp. unfold sp800_derive in H.
  destruct (existsb _ sizes) eqn:Ex; [discriminate H|]. cbv zeta in H.
  set (slen := list_sum (map (seg_size F) sizes)) in *.
  assert (Hm : slen = slen / f_len F * f_len F).
  { assert (X : slen mod f_len F = 0).
    { subst slen. clear - Hp. induction sizes as [|k l IH]; [cbn; apply Nat.mod_0_l; lia|]. cbn [map list_sum fold_right].
      change (fold_right Nat.add 0 (map (seg_size F) l)) with (list_sum (map (seg_size F) l)).
      unfold seg_size at 1. rewrite Nat.add_comm, Nat.mod_add by lia. exact IH. }
    pose proof (Nat.div_mod slen (f_len F)). lia. }
  assert (Hk : Forall (fun k => k <> 0) sizes).
  { clear - Ex. induction sizes as [|k l IH]; [constructor|]. cbn in Ex. apply orb_false_iff in Ex as [E1 E2]. apply orb_false_iff in E1 as [E1 _].
    constructor; [by apply Nat.eqb_neq|by apply IH]. }
  destruct (sp800_segments _ _ _ _ _ _ _ _) as [dkm|e] eqn:E1; [|discriminate H].
  set (n := slen / f_len F) in *. exists n.
  rewrite <- (upto_0 (blocks_1 (sp_segment f 1 sizes (f_len F) mode ps)) (fun b => sp_segment f 1 sizes (f_len F) mode ps (S b)) (f_len F)) in E1; try done.
  2: { intros b. apply blocks_1_S. } 2: { intros b. apply (cm_len _ _ _ HF). }
  apply (segments_is F f st HF sizes mode ps slen Hps n 0 slen) in E1; [|cbn [Nat.add]; done|done].
  cbn [Nat.add] in E1. rewrite (upto_done _ (fun b => sp_segment f 1 sizes (f_len F) mode ps (S b))) in E1; try (by rewrite <- Hm); try done.
  2: { intros b. apply blocks_1_S. } 2: { intros b. apply (cm_len _ _ _ HF). }
  subst dkm. apply (cut_is F f st HF sizes _ 0) in H; try done. cbn [Nat.add].
  rewrite (st_len _ (fun b => sp_segment f 1 sizes (f_len F) mode ps (S b)) (f_len F)); try done.
  - intros b. apply blocks_1_S.
  - intros b. apply (cm_len _ _ _ HF).
Qed.
