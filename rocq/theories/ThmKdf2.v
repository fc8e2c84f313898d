(* C35, second part: cases and limits of SP 800-108, the TLS and SSH derivations, and the simple ones. *)
From Verif Require Export ThmKdf.
From Coq Require Import Arith.
Local Open Scope nat_scope.

(* Two keys of 20 and 40 bytes in counter mode with a counter of 16 bits, a label and the length in 32 bits; and in
   feedback mode. *)
Definition sp_counter : list sparam := [SIter (CFormat true false 16); SBytes (counted 5); SLen (LFormat true false 32)].
Definition sp_feedback : list sparam := [SIter (CFormat false false 0); SCounter (CFormat true true 8); SBytes (counted 5)].
Example C35_sp800_case :
  (exists a b, sp800_derive (hmac_macop toy_hash (counted 5)) None sp_counter [20; 40] = Ok [a; b] /\
    length a = 20 /\ length b = 40 /\ a <> firstn 20 b /\
    Forall (fun p => match p with SLen l => len_fits [20; 40] (h_size toy_hash) l | _ => True end) sp_counter) /\
  (exists a b, sp800_derive (hmac_macop toy_hash (counted 5)) (Some (counted 3)) sp_feedback [20; 40] = Ok [a; b] /\
    length a = 20 /\ length b = 40 /\ a <> firstn 20 b).
Proof.
  split; do 2 eexists.
  - split; [vm_compute; reflexivity|]. split; [done|]. split; [done|]. split; [vm_compute; discriminate|].
    repeat constructor; unfold len_fits; vm_compute; done.
  - split; [vm_compute; reflexivity|]. split; [done|]. split; [done|]. vm_compute; discriminate.
Qed.
(* SP 800-108 has the length L in bits.  The code feeds the number of bytes: for no PRF, fields and sizes is the length
   field the one of the document, unless the length is 0 in it. *)
Theorem C35_sp800_bits_refuted : exists l sizes b, len_fits sizes 16 l /\
  len_bytes l (list_sum sizes) (list_sum sizes) = Ok b /\ b <> len_field 8 sizes 16 l /\ b = len_field 1 sizes 16 l.
Proof.
  exists (LFormat true false 32), [16], [0; 0; 0; 16]%N. split; [vm_compute; done|]. split; [done|].
  split; [vm_compute; discriminate|vm_compute; reflexivity].
Qed.
(* The greatest length a field can hold is written as 0. *)
Theorem C35_sp800_wrap_refuted bits : In bits [8; 16; 24; 32; 64] -> forall le slen,
  len_bytes (LFormat true le bits) (N.to_nat (2 ^ N.of_nat bits - 1)) slen = Ok (repeat 0%N (bits / 8)).
Proof.
  intros Hb le slen. unfold len_bytes. cbv zeta. cbn [lf_keys lf_bits lf_le]. rewrite N2Nat.id, N.mod_same.
  - repeat (destruct Hb as [<-|Hb]; [destruct le; reflexivity|]). destruct Hb.
  - repeat (destruct Hb as [<-|Hb]; [vm_compute; discriminate|]). destruct Hb.
Qed.
(* Lengths in 40, 48 or 56 bits, which the checks of the parameters let through, end in a slice out of range. *)
Theorem C35_sp800_panic_refuted H : hash_ok H -> 0 < h_size H -> forall key c bits le b size, In bits [40; 48; 56] ->
  cf_defined c = true -> In (cf_bits c) [8; 16; 24; 32] -> 0 < size -> (N.of_nat size < 2 ^ 32)%N ->
  sp800_derive (hmac_macop H key) None [SIter c; SBytes b; SLen (LFormat true le bits)] [size] = Err RV_PANIC.
Proof.
  intros HH Hp key c bits le b size Hb Hc Hcb Hs Hs2. unfold sp800_derive. cbn [existsb map list_sum fold_right].
  replace (size =? 0) with false by (symmetry; apply Nat.eqb_neq; lia).
  replace (2 ^ 32 - 1 <? N.of_nat size)%N with false by (symmetry; apply N.ltb_ge; lia). cbn [orb].
  set (F := hmac_macop H key). assert (HL : f_len F = h_size H) by done. rewrite !Nat.add_0_r.
  assert (E : exists n, seg_size F size / f_len F = S n).
  { unfold seg_size. rewrite Nat.div_mul by lia. pose proof (ceil_ge size (f_len F)).
    destruct ((size + f_len F - 1) / f_len F) as [|n]; [lia|by exists n]. }
  destruct E as [n ->]. cbn [sp800_segments]. destruct (hmac_computes H key HH Hp) as [HF _]. fold F in HF.
  destruct (cm_new _ _ _ HF) as (s & Es & Hs0 & _). rewrite Es. cbv zeta. cbn [Nat.add counter_updates].
  assert (Ec : exists d, ctr_bytes c 1 = Ok d).
  { unfold ctr_bytes. rewrite Hc. cbn [negb]. repeat (destruct Hcb as [Hcb|Hcb]; [rewrite <- Hcb; eexists; reflexivity|]). destruct Hcb. }
  destruct Ec as [d Ed]. rewrite Ed. cbn [feed]. destruct (cm_upd _ _ _ HF _ _ d Hs0) as (s1 & E1 & Hs1). rewrite E1.
  destruct (cm_upd _ _ _ HF _ _ b Hs1) as (s2 & E2 & Hs2'). rewrite E2.
  assert (El : forall k m, len_bytes (LFormat true le bits) k m = Err RV_PANIC).
  { intros k m. unfold len_bytes. repeat (destruct Hb as [<-|Hb]; [reflexivity|]). destruct Hb. }
  rewrite El. reflexivity.
Qed.
(* The derivation does not fail on well formed fields. *)
Theorem C35_sp800_total H : hash_ok H -> 0 < h_size H -> forall key c le bits a b size, In bits [8; 16; 24; 32; 64] ->
  cf_defined c = true -> cf_bits c = 32 -> 0 < size -> (N.of_nat size < 2 ^ 32)%N ->
  exists k, sp800_derive (hmac_macop H key) None [SIter c; SBytes a; SBytes b; SLen (LFormat true le bits)] [size] = Ok [k].
Proof.
  intros HH Hp key c le bits a b size Hb Hc Hcb Hs Hs2. unfold sp800_derive. cbn [existsb map list_sum fold_right].
  replace (size =? 0) with false by (symmetry; apply Nat.eqb_neq; lia).
  replace (2 ^ 32 - 1 <? N.of_nat size)%N with false by (symmetry; apply N.ltb_ge; lia). cbn [orb].
  set (F := hmac_macop H key). assert (HL : f_len F = h_size H) by done. rewrite !Nat.add_0_r.
  destruct (hmac_computes H key HH Hp) as [HF _]. fold F in HF.
  assert (Hn : (N.of_nat (seg_size F size / f_len F) < 2 ^ 32)%N).
  { unfold seg_size. rewrite Nat.div_mul by lia. assert ((size + f_len F - 1) / f_len F <= size); [|lia].
    apply ceil_le; nia. }
  assert (Hseg : seg_size F size / f_len F * f_len F = seg_size F size) by (unfold seg_size; rewrite Nat.div_mul by lia; done).
  assert (X : forall n i dkm, length dkm = seg_size F size -> (i + n) * f_len F <= seg_size F size ->
    (N.of_nat (i + n) < 2 ^ 32)%N -> exists d, length d = seg_size F size /\
    sp800_segments F n i None [SIter c; SBytes a; SBytes b; SLen (LFormat true le bits)] size (seg_size F size) dkm = Ok d).
  { induction n as [|n IH]; intros i dkm Hd Hi Hi2; [by exists dkm|]. cbn [sp800_segments].
    destruct (cm_new _ _ _ HF) as (s & Es & Hs0 & _). rewrite Es. cbv zeta. cbn [counter_updates].
    assert (Ec : exists d, ctr_bytes c (i + 1) = Ok d).
    { unfold ctr_bytes. rewrite Hc, Hcb. cbn [negb]. replace (2 ^ N.of_nat 32 - 1 <? N.of_nat (i + 1))%N with false by
        (symmetry; apply N.ltb_ge; change (2 ^ N.of_nat 32 - 1)%N with (2 ^ 32 - 1)%N; lia). by eexists. }
    destruct Ec as [d Ed]. rewrite Ed. cbn [feed]. destruct (cm_upd _ _ _ HF _ _ d Hs0) as (s1 & E1 & Hs1). rewrite E1.
    destruct (cm_upd _ _ _ HF _ _ a Hs1) as (s2 & E2 & Hs2'). rewrite E2.
    destruct (cm_upd _ _ _ HF _ _ b Hs2') as (s3 & E3 & Hs3). rewrite E3.
    assert (El : exists d, len_bytes (LFormat true le bits) size (seg_size F size) = Ok d).
    { unfold len_bytes. cbv zeta. cbn [lf_keys lf_bits lf_le]. repeat (destruct Hb as [<-|Hb]; [by eexists|]). destruct Hb. }
    destruct El as [d' El]. rewrite El. cbn [feed]. destruct (cm_upd _ _ _ HF _ _ d' Hs3) as (s4 & E4 & Hs4). rewrite E4.
    rewrite (cm_fin _ _ _ HF _ _ Hs4). unfold write_at. rewrite (cm_len _ _ _ HF).
    replace (i * f_len F + f_len F <=? length dkm) with true by (symmetry; apply Nat.leb_le; nia).
    apply IH; [|nia|lia]. rewrite !app_length, firstn_length, skipn_length, (cm_len _ _ _ HF). nia. }
  destruct (X (seg_size F size / f_len F) 0 (repeat 0%N (seg_size F size))) as (d & Hd & E); [by rewrite repeat_length|cbn [Nat.add]; lia|done|].
  rewrite E. cbn [cut_keys Nat.add]. unfold slice. rewrite Hd.
  replace (size <=? seg_size F size) with true by (symmetry; apply Nat.leb_le; unfold seg_size; apply ceil_ge; lia).
  cbn [Nat.leb andb]. by eexists.
Qed.

(* TLS: P_hash of RFC 5246. *)
Section tls.
Context (F : macop) (f : bytes -> bytes) (st : f_st F -> bytes -> Prop) (HF : computes F f st) (HR : starts_over F st).
Hypothesis fin_ok : forall s D, st s D -> exists s', f_fin F s (f_len F) = (s', Ok (f D)).
Lemma fin_is s D : st s D -> exists s' s'', f_fin F s (f_len F) = (s', Ok (f D)) /\ f_reset F s' = Ok s'' /\ st s'' [].
Proof using HR fin_ok.
  intros Hs. destruct (fin_ok s D Hs) as [s' E]. destruct (HR s D Hs) as (s'' & E2 & H2). rewrite E in E2. cbn [fst] in E2.
  by exists s', s''.
Qed.
End tls.
Lemma computes_fin F f st : computes F f st -> forall s D, st s D -> exists s', f_fin F s (f_len F) = (s', Ok (f D)).
Proof. intros HF s D Hs. pose proof (cm_fin _ _ _ HF s D Hs) as E. destruct (f_fin F s (f_len F)) as [s' r]. cbn in E. subst r. by exists s'. Qed.
Section tls2.
Context (F : macop) (f : bytes -> bytes) (st : f_st F -> bytes -> Prop) (HF : computes F f st) (HR : starts_over F st).
Context (seed : bytes) (reqlen : nat).
Notation blk := (fun b => f (tls_a f seed (S b) ++ seed)).
Notation stream := (blocks_1 (fun i => f (tls_a f seed i ++ seed))).
Notation room := ((reqlen + f_len F - 1) / f_len F * f_len F).
Notation at_ b := (upto stream (f_len F) room b).
Lemma tls_loop_is n : forall b s s1, b * f_len F < reqlen + f_len F -> reqlen <= (b + n) * f_len F ->
  f_reset F s = Ok s1 -> st s1 [] ->
  exists m, reqlen <= m * f_len F /\ m <= (reqlen + f_len F - 1) / f_len F /\
    tls_loop F n s (tls_a f seed (S b)) seed reqlen (b * f_len F) (at_ b) = Ok (at_ m).
Proof using HF HR.
  pose proof (cm_pos _ _ _ HF) as Hp. pose proof (computes_fin _ _ _ HF) as Hfin.
  assert (Hb' : forall b, b * f_len F < reqlen + f_len F -> b <= (reqlen + f_len F - 1) / f_len F).
  { intros b Hb. apply Nat.div_le_lower_bound; [lia|]. nia. }
  induction n as [|n IH]; intros b s s1 Hb Hn Hr Hs; cbn [tls_loop].
  - exists b. replace (reqlen <=? b * f_len F) with true by (symmetry; apply Nat.leb_le; lia). split; [lia|]. split; [by apply Hb'|done].
  - destruct (reqlen <=? b * f_len F) eqn:E0; [exists b; apply Nat.leb_le in E0; split; [done|]; split; [by apply Hb'|done]|].
    apply Nat.leb_gt in E0. rewrite Hr.
    destruct (cm_upd _ _ _ HF _ _ (tls_a f seed (S b)) Hs) as (s2 & E2 & Hs2). rewrite E2.
    destruct (cm_upd _ _ _ HF _ _ seed Hs2) as (s3 & E3 & Hs3). rewrite E3.
    destruct (fin_is F f st HR Hfin _ _ Hs3) as (s4 & s5 & E4 & E5 & Hs5). rewrite E4. cbn [app].
    pose proof (ceil_ge reqlen (f_len F) Hp) as Hc.
    assert (Hroom : b * f_len F + f_len F <= room).
    { assert (S b <= (reqlen + f_len F - 1) / f_len F); [|nia]. apply Nat.div_le_lower_bound; [lia|]. nia. }
    rewrite (upto_write stream blk (f_len F)).
    + cbv zeta. replace (b * f_len F + f_len F) with (S b * f_len F) by lia.
      destruct (S b * f_len F <? reqlen) eqn:E6.
      * apply Nat.ltb_lt in E6. rewrite E5. destruct (cm_upd _ _ _ HF _ _ (tls_a f seed (S b)) Hs5) as (s6 & E7 & Hs6). rewrite E7.
        destruct (fin_is F f st HR Hfin _ _ Hs6) as (s7 & s8 & E8 & E9 & Hs8). rewrite E8. cbn [app].
        apply (IH (S b) s7 s8); [lia|lia|done|done].
      * apply Nat.ltb_ge in E6. exists (S b). split; [done|]. split; [by apply Hb'; lia|].
        destruct n; cbn [tls_loop]; replace (reqlen <=? S b * f_len F) with true by (symmetry; by apply Nat.leb_le); done.
    + done.
    + intros k. apply blocks_1_S.
    + intros k. apply (cm_len _ _ _ HF).
    + lia.
    + symmetry. apply firstn_all2. rewrite (cm_len _ _ _ HF). lia.
Qed.
Lemma tls_prf_is l : reqlen <= l * f_len F -> tls_prf F seed reqlen = Ok (firstn reqlen (p_hash f seed l)).
Proof using HF HR.
  intros Hl. pose proof (cm_pos _ _ _ HF) as Hp. unfold tls_prf. destruct (cm_new _ _ _ HF) as (s & Es & Hs & _). rewrite Es.
  destruct (cm_upd _ _ _ HF _ _ seed Hs) as (s2 & E2 & Hs2). rewrite E2.
  destruct (fin_is F f st HR (computes_fin _ _ _ HF) _ _ Hs2) as (s4 & s5 & E4 & E5 & Hs5). rewrite E4. cbn [app].
  assert (B0 : stream 0 = []) by done. assert (BS : forall b, stream (S b) = stream b ++ blk b) by (intros b; apply blocks_1_S).
  assert (BL : forall b, length (blk b) = f_len F) by (intros b; apply (cm_len _ _ _ HF)).
  rewrite <- (upto_0 stream blk (f_len F)) by done.
  destruct (tls_loop_is reqlen 0 s4 s5) as (m & Hm & Hm2 & E); [lia|cbn [Nat.add]; nia|done|done|].
  cbn [Nat.mul tls_a] in E. cbn [tls_a]. rewrite E. f_equal. unfold resize_to.
  pose proof (ceil_ge reqlen (f_len F) Hp) as Hc.
  rewrite (upto_len stream blk (f_len F)) by done. replace (reqlen - room) with 0 by lia. cbn [repeat]. rewrite app_nil_r.
  unfold upto. rewrite firstn_app_le.
  2: { rewrite firstn_length, (st_len stream blk (f_len F)) by done. lia. }
  rewrite firstn_firstn, Nat.min_l by lia. unfold p_hash.
  destruct (Nat.le_ge_cases l m); [|symmetry]; by apply (st_prefix stream blk (f_len F)).
Qed.
End tls2.

(* C35, TLS: the PRF gives the leading bytes of P_hash, every secret, seed and length. *)
Theorem C35_tls_prf H : hash_ok H -> 0 < h_size H -> forall secret seed n l, n <= l * h_size H ->
  tls_prf (hmac_macop H secret) seed n = Ok (firstn n (p_hash (hmac_of H secret) seed l)).
Proof.
  intros HH Hp secret seed n l Hl. destruct (hmac_computes H secret HH Hp) as [HF HR]. by apply (tls_prf_is _ _ _ HF HR).
Qed.
(* The keys, MAC keys and IVs of the two sides are consecutive parts of that output, which they use up: RFC 5246, 6.3,
   the key block with the seed label || server random || client random. *)
Theorem C35_tls_keys H : hash_ok H -> 0 < h_size H -> forall secret label client server maclen keylen ivlen l,
  2 * (maclen + keylen + ivlen) <= l * h_size H ->
  exists parts, tls_keys (hmac_macop H secret) label client server maclen keylen ivlen = Ok parts /\
    map length parts = List.filter (fun k => 0 <? k) [maclen; maclen; keylen; keylen; ivlen; ivlen] /\
    concat parts = firstn (2 * (maclen + keylen + ivlen)) (p_hash (hmac_of H secret) (label ++ server ++ client) l).
Proof.
  intros HH Hp secret label client server maclen keylen ivlen l Hl. unfold tls_keys.
  rewrite (C35_tls_prf H HH Hp _ _ _ l Hl). unfold tls_seed. rewrite app_nil_r.
  set (dkm := firstn _ _). assert (Hd : length dkm = 2 * (maclen + keylen + ivlen)).
  { subst dkm. rewrite firstn_length. unfold p_hash.
    rewrite (st_len _ (fun b => hmac_of H secret (tls_a (hmac_of H secret) (label ++ server ++ client) (S b) ++ (label ++ server ++ client))) (h_size H)); [lia|done| |].
    - intros b. apply blocks_1_S.
    - intros b. by apply hmac_len. }
  clearbody dkm.
  assert (Sl : forall i n, i + n <= length dkm -> slice dkm i (i + n) = Ok (firstn n (skipn i dkm))).
  { intros i n Hi. unfold slice. replace (i <=? i + n) with true by (symmetry; apply Nat.leb_le; lia).
    replace (i + n <=? length dkm) with true by (symmetry; by apply Nat.leb_le). cbn [andb]. do 2 f_equal. lia. }
  cbv zeta beta.
  assert (L : forall i n, i + n <= length dkm -> length (firstn n (skipn i dkm)) = n).
  { intros i n Hi. rewrite firstn_length, skipn_length. lia. }
  assert (J : forall i n m, firstn n (skipn i dkm) ++ firstn m (skipn (i + n) dkm) = firstn (n + m) (skipn i dkm)).
  { intros i n m. rewrite <- (firstn_skipn n (firstn (n + m) (skipn i dkm))). rewrite firstn_firstn, Nat.min_l by lia. f_equal.
    rewrite skipn_firstn_comm. rewrite drop_drop. replace (n + m - n) with m by lia. f_equal. }
  assert (W : forall n, n = length dkm -> firstn n (skipn 0 dkm) = dkm) by (intros n ->; rewrite skipn_O; apply firstn_all).
  destruct maclen as [|ma]; destruct keylen as [|ke]; destruct ivlen as [|iv];
    repeat match goal with |- context[0 <? 0] => change (0 <? 0) with false | |- context[0 <? S ?x] => change (0 <? S x) with true end;
    cbv iota; repeat (rewrite Sl by lia; cbv iota); (eexists; split; [reflexivity|]); cbn [app map List.filter concat Nat.ltb Nat.leb];
    (split; [rewrite ?L by lia; reflexivity|]); rewrite ?app_nil_r.
  1: { symmetry. apply length_zero_iff_nil. lia. }
  all: rewrite ?J, ?Nat.add_assoc, ?J; rewrite <- ?Nat.add_assoc, ?J.
  all: try (apply W; lia).
Qed.
Example C35_tls_case : exists a b c d e f, tls_keys (hmac_macop toy_hash (counted 5)) (counted 3) (counted 4) (counted 6) 20 16 4 =
  Ok [a; b; c; d; e; f] /\ map length [a; b; c; d; e; f] = [20; 20; 16; 16; 4; 4] /\ a <> b /\ c <> d.
Proof.
  do 6 eexists. split; [vm_compute; reflexivity|]. split; [vm_compute; reflexivity|]. split; [vm_compute; discriminate|].
  vm_compute; discriminate.
Qed.

(* SSH: RFC 4253, 7.2. *)
Section ssh.
Context (H : hash) (HH : hash_ok H) (Hp : 0 < h_size H) (key xhash : bytes) (typ : N) (sid : bytes) (n : nat).
Notation stream := (ssh_stream (digest_of H) key xhash typ sid).
Notation blk := (fun m => digest_of H (key ++ xhash ++ match m with O => typ :: sid | _ => stream m end)).
Lemma dig_upd_is g D d : g_st H g = h_upd H (h_init H) D -> g_final H g = false ->
  exists g', dig_update H g d = (g', Ok tt) /\ g_st H g' = h_upd H (h_init H) (D ++ d) /\ g_final H g' = false.
Proof using HH.
  destruct HH as (Ha & _). intros E1 E2. unfold dig_update. rewrite E2. eexists. split; [reflexivity|]. cbn [g_st g_final].
  split; [|done]. by rewrite E1, Ha.
Qed.
Lemma dig_fin_is g D : g_st H g = h_upd H (h_init H) D -> g_final H g = false ->
  exists g', dig_final H g (h_size H) = (g', Ok (digest_of H D)).
Proof using HH.
  destruct HH as (_ & _ & Hl & _). intros E1 E2. unfold dig_final. rewrite E2, Nat.eqb_refl. cbn [negb]. rewrite Hl, Nat.eqb_refl.
  cbn [negb]. rewrite E1. by eexists.
Qed.
Lemma ssh_segments_is k : forall b g, g_st H (ssh_first H g b) = h_upd H (h_init H) [] -> g_final H (ssh_first H g b) = false ->
  (forall j, j < k -> (b + j) * h_size H < n) ->
  ssh_segments H k b g key xhash typ sid n (Nat.min n (b * h_size H)) (upto stream (h_size H) n b) = Ok (upto stream (h_size H) n (b + k)).
Proof using HH Hp.
  assert (B0 : stream 0 = []) by done. assert (BS : forall b, stream (S b) = stream b ++ blk b) by done.
  assert (BL : forall b, length (blk b) = h_size H) by (intros b; apply HH).
  induction k as [|k IH]; intros b g G1 G2 Hk; cbn [ssh_segments]; [by rewrite Nat.add_0_r|].
  assert (Hb : b * h_size H < n) by (rewrite <- (Nat.add_0_r b); apply Hk; lia).
  rewrite (Nat.min_r n (b * h_size H)) by lia.
  destruct (dig_upd_is _ _ key G1 G2) as (g1 & E1 & S1 & F1). rewrite E1. cbn [app] in S1.
  destruct (dig_upd_is _ _ xhash S1 F1) as (g2 & E2 & S2 & F2). rewrite E2.
  assert (E3 : exists g3, (if b =? 0 then
      match dig_update H g2 [typ] with (g, Ok _) => dig_update H g sid | (g, Err e) => (g, Err e) end
    else match slice (upto stream (h_size H) n b) 0 (b * h_size H) with Ok d => dig_update H g2 d | Err e => (g2, Err e) end) = (g3, Ok tt) /\
    g_st H g3 = h_upd H (h_init H) (key ++ xhash ++ match b with O => typ :: sid | _ => stream b end) /\ g_final H g3 = false).
  { destruct b as [|b].
    - cbn [Nat.eqb]. destruct (dig_upd_is _ _ [typ] S2 F2) as (g3 & E3 & S3 & F3). rewrite E3.
      destruct (dig_upd_is _ _ sid S3 F3) as (g4 & E4 & S4 & F4). exists g4. rewrite E4. split; [done|]. split; [|done].
      rewrite S4. f_equal. rewrite <- !app_assoc. done.
    - change (S b =? 0) with false. cbv iota. rewrite (upto_slice stream blk (h_size H) B0 BS BL) by lia.
      destruct (dig_upd_is _ _ (stream (S b)) S2 F2) as (g4 & E4 & S4 & F4). exists g4. rewrite E4. split; [done|]. split; [|done].
      rewrite S4. f_equal. by rewrite <- !app_assoc. }
  destruct E3 as (g3 & E3 & S3 & F3). rewrite E3. destruct (dig_fin_is _ _ S3 F3) as (g4 & E4). rewrite E4.
  set (len := if n <? b * h_size H + h_size H then n - b * h_size H else h_size H).
  rewrite (upto_write stream blk (h_size H) B0 BS BL); [|done|].
  - assert (El : b * h_size H + len = Nat.min n (S b * h_size H)).
    { subst len. destruct (n <? _) eqn:E; [apply Nat.ltb_lt in E|apply Nat.ltb_ge in E]; cbn [Nat.mul]; lia. }
    rewrite El, Nat.add_1_r. rewrite IH.
    + f_equal. f_equal. lia.
    + cbn [ssh_first Nat.eqb]. cbn [dig_reset dig_new g_st]. symmetry. apply HH.
    + done.
    + intros j Hj. replace (S b + j) with (b + S j) by lia. apply Hk. lia.
  - subst len. destruct (n <? _) eqn:E; [done|]. apply Nat.ltb_ge in E. rewrite !firstn_all2; [done| |]; pose proof (BL b); cbv beta in *; lia.
Qed.
End ssh.
(* C35, SSH: every shared secret, exchange hash, letter, session id and length. *)
Theorem C35_ssh H : hash_ok H -> 0 < h_size H -> forall key xhash typ sid n l,
  0 < n -> (N.of_nat n < 2 ^ 32)%N -> n <= l * h_size H ->
  ssh_derive H key xhash typ sid n = Ok (firstn n (ssh_stream (digest_of H) key xhash typ sid l)).
Proof.
  intros HH Hp key xhash typ sid n l Hn Hn2 Hl. unfold ssh_derive.
  replace (n =? 0) with false by (symmetry; apply Nat.eqb_neq; lia).
  replace (2 ^ 32 - 1 <? N.of_nat n)%N with false by (symmetry; apply N.ltb_ge; lia). cbn [orb].
  set (S1 := ssh_stream (digest_of H) key xhash typ sid).
  set (blk := fun m => digest_of H (key ++ xhash ++ match m with O => typ :: sid | _ => S1 m end)).
  assert (B0 : S1 0 = []) by done. assert (BS : forall b, S1 (S b) = S1 b ++ blk b) by done.
  assert (BL : forall b, length (blk b) = h_size H) by (intros b; apply HH).
  rewrite <- (upto_0 S1 blk (h_size H) B0 BS BL).
  pose proof (ssh_segments_is H HH Hp key xhash typ sid n ((n + h_size H - 1) / h_size H) 0 (dig_new H)) as X.
  rewrite Nat.mul_0_l, Nat.min_0_r in X. fold S1 in X. rewrite X.
  - f_equal. apply (upto_all S1 blk (h_size H) B0 BS BL); [done| |done]. cbn [Nat.add]. by apply ceil_ge.
  - symmetry. apply HH.
  - done.
  - intros j Hj. cbn [Nat.add]. by apply ceil_lt.
Qed.
Example C35_ssh_case : exists k k', ssh_derive toy_hash (counted 5) (counted 8) 65 (counted 3) 40 = Ok k /\
  ssh_derive toy_hash (counted 5) (counted 8) 66 (counted 3) 40 = Ok k' /\ length k = 40 /\ k <> k'.
Proof. do 2 eexists. split; [vm_compute; reflexivity|]. split; [vm_compute; reflexivity|]. split; [done|vm_compute; discriminate]. Qed.

(* The simple derivations: the leading bytes of a concatenation or of the exclusive or. *)
Theorem C35_simple base keylen k :
  (forall d m, m = ConcatKey d \/ m = ConcatData d -> simple_derive m base keylen = Ok k -> k = firstn keylen (base ++ d) /\ length k = keylen) /\
  (forall d, simple_derive (DataConcat d) base keylen = Ok k -> k = firstn keylen (d ++ base) /\ length k = keylen) /\
  (forall d, simple_derive (XorData d) base keylen = Ok k -> length k = keylen /\
     forall i, i < keylen -> byte_of k i = N.lxor (byte_of base i) (byte_of d i)).
Proof.
  assert (R : forall v, keylen <= length v -> resize_to keylen v = firstn keylen v).
  { intros v Hv. unfold resize_to. replace (keylen - length v) with 0 by lia. cbn [repeat]. by rewrite app_nil_r. }
  split; [|split].
  - intros d m Hm E. assert (E' : (if length base + length d <? keylen then Err CKR_TEMPLATE_INCONSISTENT else Ok (resize_to keylen (base ++ d))) = Ok k).
    { destruct Hm as [-> | ->]; exact E. }
    destruct (_ <? _) eqn:El; [discriminate E'|]. apply Nat.ltb_ge in El. apply ok_inj in E' as <-.
    rewrite R by (rewrite app_length; lia). split; [done|]. rewrite firstn_length, app_length. lia.
  - intros d E. unfold simple_derive, simple_out in E. destruct (_ <? _) eqn:El; [discriminate E|]. apply Nat.ltb_ge in El. apply ok_inj in E as <-.
    rewrite R by (rewrite app_length; lia). split; [done|]. rewrite firstn_length, app_length. lia.
  - intros d E. unfold simple_derive, simple_out in E. destruct (_ <? _) eqn:El; [discriminate E|]. apply Nat.ltb_ge in El. apply ok_inj in E as <-.
    assert (L : length (xor_bytes d base) = Nat.min (length base) (length d)) by (unfold xor_bytes; rewrite map_length, combine_length; lia).
    rewrite R by (rewrite app_length; lia). rewrite firstn_app_le by lia. split; [rewrite firstn_length; lia|].
    intros i Hi. unfold byte_of. assert (X : forall (l : bytes), nth i (firstn keylen l) 0%N = nth i l 0%N).
    { clear - Hi. revert keylen Hi. induction i as [|i IH]; intros [|k] Hk l; try lia; destruct l as [|x l]; try done. cbn [firstn nth]. apply IH. lia. }
    rewrite X. unfold xor_bytes. transitivity (N.lxor (nth i d 0%N) (nth i base 0%N)); [|apply N.lxor_comm].
    clear - Hi El. assert (Hd : i < length d) by lia. assert (Hb : i < length base) by lia. clear Hi El. revert d base Hd Hb.
    induction i as [|i IH]; intros [|x d] [|y b] Hd Hb; cbn [length] in *; try lia; [done|]. cbn [combine map nth]. apply IH; lia.
Qed.
(* C35, CKM_EXTRACT_KEY_FROM_KEY at an offset that is not a multiple of 8: the bits of the key from the offset on,
   beginning again after the last one. *)
Theorem C35_extract_partial base off keylen k : Forall (fun b => (b < 256)%N) base -> (off mod 8 <> 0)%N ->
  simple_derive (Extract off) base keylen = Ok k ->
  length k = keylen /\
  forall i, i < 8 * keylen -> bit_at k i = bit_at base ((N.to_nat off + i) mod (8 * length base)).
Proof.
  intros Hb Ho E. unfold simple_derive in E. destruct (_ || _) eqn:E1; [discriminate E|]. destruct (_ && _) eqn:E2; [discriminate E|].
  apply ok_inj in E as <-. apply orb_false_iff in E1 as [E1 _]. apply Nat.ltb_ge in E1.
  split; [by rewrite map_length, seq_length|]. intros i Hi. set (o := N.to_nat off).
  assert (Ho' : o mod 8 <> 0). { subst o. intros X. apply Ho. rewrite <- (N2Nat.id off). change 8%N with (N.of_nat 8). rewrite <- Nat2N.inj_mod, X. done. }
  assert (Hlen : length base <> 0) by lia.
  assert (Hi8 : i / 8 < keylen) by (apply Nat.div_lt_upper_bound; lia).
  unfold bit_at. rewrite nth_indep with (d' := extract_byte base o 0) by (by rewrite map_length, seq_length).
  rewrite map_nth. rewrite seq_nth by done. cbn [Nat.add].
  rewrite (Nat.mod_mul_r (o + i) 8 (length base)) by lia.
  set (T := o + i). assert (HT : (T mod 8 + 8 * ((T / 8) mod length base)) / 8 = (T / 8) mod length base).
  { rewrite Nat.add_comm, Nat.mul_comm, Nat.div_add_l by lia. rewrite (Nat.div_small (T mod 8) 8) by (apply Nat.mod_upper_bound; lia). lia. }
  assert (HM : (T mod 8 + 8 * ((T / 8) mod length base)) mod 8 = T mod 8).
  { rewrite Nat.add_comm, Nat.mul_comm, Nat.add_comm, Nat.mod_add by lia. by apply Nat.mod_mod. }
  rewrite HT, HM. unfold extract_byte. cbv zeta.
  replace ((o - o mod 8) / 8) with (o / 8).
  2: { rewrite (Nat.div_mod o 8) at 2 by lia. replace (8 * (o / 8) + o mod 8 - o mod 8) with (o / 8 * 8) by lia. by rewrite Nat.div_mul by lia. }
  assert (H8 : forall x, x mod 8 < 8) by (intros x; apply Nat.mod_upper_bound; lia).
  assert (Hbit : forall j p, 8 <= p -> N.testbit (nth j base 0%N) (N.of_nat p) = false).
  { intros j p Hp8. assert (nth j base 0 < 256)%N.
    { destruct (Nat.lt_ge_cases j (length base)) as [Hj|Hj]; [|rewrite nth_overflow by done; lia].
      rewrite List.Forall_forall in Hb. apply Hb. by apply nth_In. }
    destruct (nth j base 0%N) as [|q] eqn:Eq; [apply N.bits_0|]. apply N.bits_above_log2.
    apply N.log2_lt_pow2; [lia|]. apply N.lt_le_trans with (2 ^ 8)%N; [exact H|]. apply N.pow_le_mono_r; lia. }
  rewrite N.lor_spec. unfold shl8, shr8. change 256%N with (2 ^ 8)%N.
  rewrite (N.mod_pow2_bits_low) by (pose proof (H8 i); lia).
  rewrite N.shiftr_spec by lia. rewrite (Nat.mod_small (8 - o mod 8)) by (pose proof (H8 o); lia).
  pose proof (H8 i) as I8. pose proof (H8 o) as O8. pose proof (Nat.div_mod i 8) as Di. pose proof (Nat.div_mod o 8) as Do.
  replace (N.of_nat (7 - i mod 8) + N.of_nat (8 - o mod 8))%N with (N.of_nat (15 - i mod 8 - o mod 8)) by lia.
  destruct (Nat.lt_ge_cases (i mod 8 + o mod 8) 8) as [Hc|Hc].
  - rewrite N.shiftl_spec_high by lia. rewrite (Hbit _ (15 - i mod 8 - o mod 8)) by lia. rewrite orb_false_r.
    assert (T / 8 = o / 8 + i / 8) as -> by (symmetry; apply Nat.div_unique with (o mod 8 + i mod 8); subst T; lia).
    assert (T mod 8 = o mod 8 + i mod 8) as -> by (symmetry; apply Nat.mod_unique with (o / 8 + i / 8); subst T; lia).
    f_equal. lia.
  - rewrite N.shiftl_spec_low by lia. cbn [orb].
    assert (T / 8 = o / 8 + i / 8 + 1) as -> by (symmetry; apply Nat.div_unique with (o mod 8 + i mod 8 - 8); subst T; lia).
    assert (T mod 8 = o mod 8 + i mod 8 - 8) as -> by (symmetry; apply Nat.mod_unique with (o / 8 + i / 8 + 1); subst T; lia).
    f_equal. lia.
Qed.
Example C35_extract_case : simple_derive (Extract 21) [18; 52; 86; 120]%N 3 = Ok [207; 2; 70]%N.
Proof. vm_compute. reflexivity. Qed.
(* At a multiple of 8 every byte is mixed with the next one (where overflow is checked, the call panics). *)
Theorem C35_extract_refuted : exists base k, Forall (fun b => (b < 256)%N) base /\
  simple_derive (Extract 0) base 2 = Ok k /\ k <> firstn 2 base /\ bit_at k 2 <> bit_at base ((0 + 2) mod (8 * length base)).
Proof.
  exists [18; 52; 86; 120]%N, [54; 118]%N. split; [repeat constructor|]. split; [vm_compute; reflexivity|].
  split; vm_compute; discriminate.
Qed.
