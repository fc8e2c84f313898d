(* Decryption of GCM and of padded CBC in pieces, the final calls, and the round trip. *)
From Verif Require Export ChunkSpec.
From Coq Require Import Arith.
Local Open Scope nat_scope.

Section Facts.
Variable P : prim.
Hypothesis HP : prim_ok P.

(* ---- GCM decryption: the last bytes are kept, as many as the tag has ---- *)
Definition at_gcm (a : aes P) (s : pr_st P) (D : bytes) : aes P :=
  let k := length D - a_taglen P a in
  a_set P (a_use P a) (x_with P (a_ctx P a) (fst (run_bytes P s (firstn k D))) []) (skipn k D).
Definition gcm_out (t : nat) (s : pr_st P) (D : bytes) : bytes := snd (run_bytes P s (firstn (length D - t) D)).

Lemma gcm_split t (D p : bytes) :
  let b := skipn (length D - t) D in
  let k := length (b ++ p) - t in
  firstn (length (D ++ p) - t) (D ++ p) = firstn (length D - t) D ++ firstn k (b ++ p) /\
  skipn (length (D ++ p) - t) (D ++ p) = skipn k (b ++ p).
Proof using Type.
  intros b k. set (n := length D - t) in *.
  assert (HD : D ++ p = firstn n D ++ (b ++ p)) by (rewrite app_assoc; unfold b; by rewrite firstn_skipn).
  assert (Hf : length (firstn n D) = n) by (rewrite firstn_length; lia).
  assert (Hb : length b = length D - n) by (unfold b; by rewrite skipn_length).
  assert (Hn : length (D ++ p) - t = n + k) by (unfold k; rewrite !app_length, Hb; lia).
  rewrite Hn, HD. split.
  - replace (n + k) with (length (firstn n D) + k) by lia. apply firstn_app_2.
  - rewrite skipn_app, Hf, (skipn_all2 (firstn n D)) by lia. cbn [app]. f_equal. lia.
Qed.

Lemma at_gcm_step a s D p room :
  fresh P a MGcm false s -> 0 < a_taglen P a -> D = [] \/ length p <= a_taglen P a ->
  snd (op_update P false (at_gcm a s D) p room) = Err CKR_BUFFER_TOO_SMALL \/
  exists o, op_update P false (at_gcm a s D) p room = (at_gcm a s (D ++ p), Ok o) /\
            gcm_out (a_taglen P a) s (D ++ p) = gcm_out (a_taglen P a) s D ++ o /\ length o <= room.
Proof using Type.
  intros (Hm & Hf & Hb & Hx) Ht Hc. set (t := a_taglen P a) in *.
  set (k := length D - t). set (b := skipn k D).
  assert (Hbl : length b = length D - k) by (unfold b; by rewrite skipn_length).
  set (a1 := at_gcm a s D).
  set (need := if t <? length p + length b then length p + length b - t else 0).
  assert (U : op_update P false a1 p room =
    if room <? need then (a1, Err CKR_BUFFER_TOO_SMALL) else feed_gcm P a1 p room).
  { unfold op_update, a1, at_gcm. fold k b.
    unfold dec_update, dec_check, dec_need, dec_feed. cbn [a_final a_set a_use a_mode a_buf]. rewrite Hf, Hm.
    cbv beta iota zeta; unfold a_use, a_set; cbn [a_mode a_max a_datalen a_taglen
      a_final a_used a_ctx a_buf a_blocks]; rewrite ?Hm. reflexivity. }
  rewrite U. destruct (room <? need) eqn:Er; [by left|right]. apply Nat.ltb_ge in Er.
  destruct (gcm_split t D p) as [S1 S2]. fold k b in S1, S2.
  unfold gcm_out. rewrite S1, run_bytes_app. fold k. cbn [snd].
  set (k2 := length (b ++ p) - t) in *.
  assert (Hroom : length (firstn k2 (b ++ p)) <= room).
  { rewrite firstn_length, app_length. unfold k2, need in *. rewrite app_length.
    destruct (t <? length p + length b) eqn:E; [apply Nat.ltb_lt in E|apply Nat.ltb_ge in E]; lia. }
  eexists. split; [|split; [reflexivity|by rewrite run_bytes_len]].
  assert (Hgoal : at_gcm a s (D ++ p) =
    a_set P a1 (x_with P (a_ctx P a1) (fst (run_bytes P (fst (run_bytes P s (firstn k D))) (firstn k2 (b ++ p)))) [])
      (skipn k2 (b ++ p))).
  { unfold at_gcm. fold t. rewrite S1, S2, run_bytes_app. unfold a1, at_gcm, a_set, a_use, x_with.
    cbn [a_mode a_max a_datalen a_taglen a_final a_used a_ctx a_buf a_blocks x_mode x_enc x_st x_held x_tag fst].
    reflexivity. }
  rewrite Hgoal.
  assert (Hst : x_st P (a_ctx P a1) = fst (run_bytes P s (firstn k D))) by done.
  assert (Hmode : streamy (x_mode P (a_ctx P a1)) = true).
  { unfold a1, at_gcm. cbn [a_ctx a_set x_with x_mode]. by rewrite Hx. }
  unfold feed_gcm. replace (a_buf P a1) with b by done. replace (a_taglen P a1) with t by done. cbv zeta.
  destruct (0 <? length b) eqn:Eb.
  - apply Nat.ltb_lt in Eb.
    assert (Hp : (t <? length p) = false).
    { apply Nat.ltb_ge. destruct Hc as [->|Hc]; [|done]. unfold b in Eb. rewrite skipn_nil in Eb. cbn in Eb. lia. }
    rewrite Hp.
    destruct (t <? length (b ++ p)) eqn:El.
    + fold k2. rewrite cx_stream by done. rewrite Hst. f_equal.
    + apply Nat.ltb_ge in El. assert (k2 = 0) as -> by (unfold k2; lia).
      cbn [firstn skipn run_bytes fst snd]. f_equal.
  - apply Nat.ltb_ge in Eb. assert (Hb0 : b = []) by (destruct b; [done|cbn [length] in Eb; lia]).
    unfold k2 in *. clear k2. rewrite Hb0 in *. cbn [app] in *.
    destruct (t <? length p) eqn:El.
    + rewrite feed_rest_stream; [|done|done].
      cbn [a_ctx a_set a_buf]. rewrite Hst. f_equal.
    + apply Nat.ltb_ge in El. assert (length p - t = 0) as -> by lia.
      cbn [firstn skipn run_bytes fst snd]. f_equal.
Qed.

(* ---- decryption of padded CBC: the last block is held back by OpenSSL ---- *)
Definition at_pad (a : aes P) (s : pr_st P) (D : bytes) : aes P :=
  let n := length D / 16 - 1 in
  a_set P (a_use P a) (x_with P (a_ctx P a) (fst (run_blocks P n s D)) (skipn (16 * n) D)) [].
Definition pad_out (s : pr_st P) (D : bytes) : bytes := snd (run_blocks P (length D / 16 - 1) s D).

Lemma at_pad_step a s D p room :
  fresh P a MCbcPad false s -> length D mod 16 = 0 -> length p mod 16 = 0 ->
  snd (op_update P false (at_pad a s D) p room) = Err CKR_BUFFER_TOO_SMALL \/
  exists o, op_update P false (at_pad a s D) p room = (at_pad a s (D ++ p), Ok o) /\
            pad_out s (D ++ p) = pad_out s D ++ o /\ length o <= room.
Proof using HP.
  intros (Hm & Hf & Hb & Hx) HD Hp. set (a1 := at_pad a s D).
  pose proof (mod16 (length D)) as [MD _]. pose proof (mod16 (length p)) as [Mp _].
  assert (U : op_update P false a1 p room =
    if room <? length p / 16 * 16 then (a1, Err CKR_BUFFER_TOO_SMALL) else feed_blocks P a1 p room).
  { unfold op_update, a1, at_pad.
    unfold dec_update, dec_check, dec_need, dec_feed. cbn [a_final a_set a_use a_mode a_buf]. rewrite Hf, Hm.
    cbv beta iota zeta; unfold a_use, a_set; cbn [a_mode a_max a_datalen a_taglen
      a_final a_used a_ctx a_buf a_blocks]; rewrite ?Hm. reflexivity. }
  rewrite U. destruct (room <? length p / 16 * 16) eqn:Er; [by left|right]. apply Nat.ltb_ge in Er.
  assert (F : feed_blocks P a1 p room = feed_rest P a1 p room []).
  { unfold feed_blocks. replace (a_buf P a1) with (@nil N) by done. cbv zeta. change (0 <? length []) with false.
    cbn [andb]. cbv iota. rewrite Hp, Nat.sub_0_r, firstn_all, skipn_all. cbn [app].
    f_equal. }
  rewrite F. destruct (decide (p = [])) as [->|Hne].
  { exists []. rewrite !app_nil_r. split; [done|split; [done|cbn [length]; lia]]. }
  set (n := length D / 16 - 1). set (h := skipn (16 * n) D).
  assert (Hh : length h = length D - 16 * n) by (unfold h; by rewrite skipn_length).
  set (n2 := length (h ++ p) / 16 - 1).
  assert (Hl : (length D = 0 /\ n = 0 \/ length D = 16 * n + 16)) by lia.
  assert (Hall : length (h ++ p) mod 16 = 0).
  { rewrite app_length, Hh. destruct Hl as [[-> ->]| ->].
    - replace (0 - 16 * 0 + length p) with (length p) by lia. done.
    - replace (16 * n + 16 - 16 * n + length p) with (length p + 1 * 16) by lia. by rewrite Nat.mod_add by lia. }
  assert (Hn : length (D ++ p) / 16 - 1 = n + n2).
  { unfold n2. rewrite !app_length, Hh. destruct Hl as [[H0 H1]|Hl].
    - rewrite H0, H1. cbn [Nat.add Nat.mul Nat.sub]. done.
    - replace (length D + length p) with (n * 16 + (16 + length p)) by lia. rewrite Nat.div_add_l by lia.
      replace (length D - 16 * n + length p) with (1 * 16 + length p) by lia.
      replace (16 + length p) with (1 * 16 + length p) by lia. rewrite !Nat.div_add_l by lia. lia. }
  assert (Hf2 : length (firstn (16 * n) D) = 16 * n) by (rewrite firstn_length; lia).
  assert (HDp : D ++ p = firstn (16 * n) D ++ (h ++ p)) by (rewrite app_assoc; unfold h; by rewrite firstn_skipn).
  assert (HrD : run_blocks P n s D = run_blocks P n s (firstn (16 * n) D)).
  { etransitivity; [|by apply (run_blocks_pre P n s (firstn (16 * n) D) h)]. unfold h. by rewrite firstn_skipn. }
  assert (Hr : run_blocks P (n + n2) s (D ++ p) =
    (fst (run_blocks P n2 (fst (run_blocks P n s D)) (h ++ p)),
     snd (run_blocks P n s D) ++ snd (run_blocks P n2 (fst (run_blocks P n s D)) (h ++ p)))).
  { rewrite HDp, run_blocks_app by done. by rewrite <- HrD. }
  assert (Hsk : skipn (16 * (n + n2)) (D ++ p) = skipn (16 * n2) (h ++ p)).
  { rewrite HDp, skipn_app, Hf2, (skipn_all2 (firstn (16 * n) D)) by lia. cbn [app]. f_equal. lia. }
  unfold pad_out. rewrite Hn, Hr. fold n. cbn [snd]. eexists. split; [|split; [reflexivity|]].
  2:{ rewrite run_blocks_len by done. unfold n2. rewrite app_length, Hh.
      assert ((length D - 16 * n + length p) / 16 <= length p / 16 + 1).
      { apply Nat.lt_succ_r. apply Nat.div_lt_upper_bound; lia. }
      lia. }
  unfold feed_rest. destruct p as [|c p']; [done|]. set (p := c :: p') in *. cbn [length Nat.sub].
  rewrite Nat.sub_0_r.
  assert (Hxm : x_mode P (a_ctx P a1) = MCbcPad) by (unfold a1, at_pad; cbn [a_ctx a_set x_with x_mode]; by rewrite Hx).
  assert (Hxe : x_enc P (a_ctx P a1) = false) by (unfold a1, at_pad; cbn [a_ctx a_set x_with x_enc]; by rewrite Hx).
  unfold cx_update. rewrite buffer_size_whole; [|by rewrite Hxm|done|done].
  destruct (room <? length p) eqn:E; [apply Nat.ltb_lt in E; lia|].
  unfold evp_update. rewrite Hxm, Hxe. cbn [negb andb].
  replace (x_held P (a_ctx P a1)) with h by done. rewrite Hall. change (0 =? 0) with true. cbv iota zeta. fold n2.
  replace (x_st P (a_ctx P a1)) with (fst (run_blocks P n s D)) by done.
  destruct (run_blocks P n2 (fst (run_blocks P n s D)) (h ++ p)) as [s2 o2]. cbn [fst snd app].
  unfold at_pad. rewrite Hn, Hr, Hsk. cbn [fst]. unfold a_set, a1, at_pad, a_use, x_with.
  cbn [a_mode a_max a_datalen a_taglen a_final a_used a_ctx a_buf a_blocks x_mode x_enc x_st x_held x_tag]. reflexivity.
Qed.

(* ---- the final call ---- *)
Definition joined (out : bytes) (r : result bytes) : result bytes :=
  match r with Ok e => Ok (out ++ e) | Err e => Err e end.

Lemma final_plain a m enc s D last :
  fresh P a m enc s -> m = MEcb \/ m = MCbc ->
  joined (snd (blocks_of P s D)) (snd (op_final P enc (at_blocks P a s D) last)) = whole P enc m s (a_taglen P a) D.
Proof using Type.
  intros (Hm & Hf & Hb & Hx) Hc. pose proof (mod16 (length D)) as [M1 M2].
  assert (Hl : length (skipn (16 * (length D / 16)) D) = length D mod 16) by (rewrite skipn_length; lia).
  assert (Hw : whole P enc m s (a_taglen P a) D =
    if length D mod 16 =? 0 then Ok (snd (blocks_of P s D)) else Err CKR_DATA_LEN_RANGE)
    by (by destruct Hc as [->| ->]).
  rewrite Hw. unfold op_final, at_blocks.
  assert (Hcx : forall h, h = [] -> cx_final P (x_with P (a_ctx P a) (fst (blocks_of P s D)) h) 16 =
     Some (x_with P (a_ctx P a) (fst (blocks_of P s D)) h, [])).
  { intros h ->. unfold cx_final, buffer_size, evp_final. rewrite Hx. unfold x_with. cbn [x_mode x_enc x_held].
    destruct Hc as [->| ->]; reflexivity. }
  destruct enc.
  - unfold enc_final. cbn [a_final a_set a_use a_used negb a_mode a_buf a_ctx]. rewrite Hf, Hm.
    assert (X : forall A (u v : A), match m with MEcb | MCbc => u | _ => v end = u) by (intros; by destruct Hc as [->| ->]).
    destruct Hc as [->| ->]; cbv iota; rewrite Hl, (Hcx [] eq_refl);
      destruct (length D mod 16 =? 0) eqn:E; [apply Nat.eqb_eq in E; rewrite E; cbn; by rewrite app_nil_r|
      apply Nat.eqb_neq in E; destruct (0 <? length D mod 16) eqn:E2; [done|apply Nat.ltb_ge in E2; lia]|
      apply Nat.eqb_eq in E; rewrite E; cbn; by rewrite app_nil_r|
      apply Nat.eqb_neq in E; destruct (0 <? length D mod 16) eqn:E2; [done|apply Nat.ltb_ge in E2; lia]].
  - unfold dec_final. cbn [a_final a_set a_use a_used negb a_mode a_buf a_ctx a_end]. rewrite Hf, Hm.
    destruct Hc as [->| ->]; cbv iota; cbn [a_mode a_end a_buf a_set a_ctx]; rewrite ?Hm; cbv iota; rewrite Hl, (Hcx [] eq_refl);
      destruct (length D mod 16 =? 0) eqn:E; cbn; rewrite ?app_nil_r; done.
Qed.

Lemma final_stream a m enc s D last :
  fresh P a m enc s -> m = MCtr /\ a_max P a = 0%N \/ m = MStream ->
  joined (snd (run_bytes P s D)) (snd (op_final P enc (at_bytes P a s D) last)) = whole P enc m s (a_taglen P a) D.
Proof using Type.
  intros (Hm & Hf & Hb & Hx) Hc. unfold op_final, at_bytes, enc_final, dec_final.
  destruct enc; cbn [a_final a_set a_use a_used negb a_mode a_buf a_ctx a_end a_max]; rewrite Hf; cbn [a_mode a_end a_max a_set a_use];
  rewrite Hm; destruct Hc as [[-> Hc]| ->]; cbn [a_mode a_end a_max a_set a_use]; rewrite ?Hm, ?Hc; cbn; by rewrite app_nil_r.
Qed.
Lemma final_gcm_enc a s D last :
  fresh P a MGcm true s ->
  snd (op_final P true (at_bytes P a s D) last) <> Err CKR_BUFFER_TOO_SMALL ->
  joined (snd (run_bytes P s D)) (snd (op_final P true (at_bytes P a s D) last)) = whole P true MGcm s (a_taglen P a) D.
Proof using Type.
  intros (Hm & Hf & Hb & Hx). unfold op_final, at_bytes, enc_final.
  cbn [a_final a_set a_use a_used negb a_mode a_buf a_ctx a_taglen]. rewrite Hf, Hm. cbv iota.
  destruct (last <? a_taglen P a) eqn:E; [done|intros _].
  unfold cx_final, buffer_size. rewrite Hx. unfold x_with. cbn [x_mode block_size].
  cbv zeta. change (1 =? 1) with true. cbv iota. destruct (last <? 0) eqn:E0; [apply Nat.ltb_lt in E0; lia|].
  unfold evp_final. cbn [x_mode x_enc]. cbn [length]. change (0 =? 0) with true. cbv iota. cbn [snd joined].
  unfold cx_get_tag. cbn [x_st]. unfold whole. by destruct (run_bytes P s D).
Qed.
Lemma final_gcm_dec a s D last :
  fresh P a MGcm false s ->
  joined (gcm_out (a_taglen P a) s D) (snd (op_final P false (at_gcm a s D) last)) = whole P false MGcm s (a_taglen P a) D.
Proof using Type.
  intros (Hm & Hf & Hb & Hx). unfold op_final, at_gcm, dec_final, gcm_out.
  set (t := a_taglen P a). set (k := length D - t).
  cbn [a_final a_set a_use a_used negb a_mode a_buf a_ctx a_taglen a_end]. rewrite Hf. cbn [a_mode a_end a_set a_use].
  rewrite Hm. cbv iota. cbn [a_buf a_end a_set a_taglen a_use a_ctx]. fold t.
  assert (Hl : length (skipn k D) = length D - k) by (by rewrite skipn_length).
  unfold whole. destruct (length D <? t) eqn:E.
  - apply Nat.ltb_lt in E. assert (k = 0) as Hk by (unfold k; lia). rewrite Hl, Hk.
    destruct (length D - 0 =? t) eqn:E2; [apply Nat.eqb_eq in E2; lia|]. done.
  - apply Nat.ltb_ge in E. assert (length (skipn k D) = t) as Hlt by (rewrite Hl; unfold k; lia).
    rewrite Hlt, Nat.eqb_refl. cbn [negb]. cbv iota.
    unfold cx_final, buffer_size, cx_set_tag. rewrite Hx. unfold x_with. cbn [x_mode x_enc x_st x_held block_size].
    cbv zeta. change (1 =? 1) with true. cbv iota. destruct (last <? 0) eqn:E0; [apply Nat.ltb_lt in E0; lia|].
    unfold evp_final. cbn [x_mode x_enc x_tag x_st]. rewrite Hlt. fold k.
    destruct (run_bytes P s (firstn k D)) as [s1 o]. cbn [fst snd].
    destruct (bytes_eqb (skipn k D) (firstn t (pr_tag P s1))); [|done].
    cbn. by rewrite app_nil_r.
Qed.

Lemma pad_len (d : bytes) : length (d ++ pad_of d) = 16 * (length d / 16) + 16.
Proof using Type.
  pose proof (mod16 (length d)) as [M1 M2]. unfold pad_of. rewrite app_length, repeat_length. lia.
Qed.
Lemma pad_app (u d : bytes) : length u mod 16 = 0 -> pad_of (u ++ d) = pad_of d.
Proof using Type.
  intros H. unfold pad_of. rewrite app_length. rewrite <- (Nat.add_mod_idemp_l _ (length d)) by lia. by rewrite H.
Qed.

Lemma final_pad_enc a s D last :
  fresh P a MCbcPad true s ->
  snd (op_final P true (at_blocks P a s D) last) <> Err CKR_BUFFER_TOO_SMALL ->
  joined (snd (blocks_of P s D)) (snd (op_final P true (at_blocks P a s D) last)) = whole P true MCbcPad s (a_taglen P a) D.
Proof using HP.
  intros (Hm & Hf & Hb & Hx). unfold op_final, at_blocks, enc_final.
  set (b := skipn (16 * (length D / 16)) D). set (r := blocks_of P s D).
  cbn [a_final a_set a_use a_used negb a_mode a_buf a_ctx a_taglen]. rewrite Hf, Hm. cbv iota.
  destruct (last <? 16) eqn:E; [done|intros _]. apply Nat.ltb_ge in E.
  pose proof (mod16 (length D)) as [M1 M2].
  assert (Hbl : length b = length D mod 16) by (unfold b; rewrite skipn_length; lia).
  assert (U : (if 0 <? length b then cx_update P (x_with P (a_ctx P a) (fst r) []) b last
               else Some (x_with P (a_ctx P a) (fst r) [], [])) = Some (x_with P (a_ctx P a) (fst r) b, [])).
  { destruct (0 <? length b) eqn:E0.
    - apply Nat.ltb_lt in E0. unfold cx_update, buffer_size. rewrite Hx. unfold x_with. cbn [x_mode x_enc x_held x_st x_tag block_size].
      change (16 =? 1) with false. cbv zeta iota.
      destruct (length b =? 0) eqn:E1; [apply Nat.eqb_eq in E1; lia|].
      rewrite (Nat.mod_small (length b)) by lia. rewrite E1.
      destruct (last <? length b + 16 - length b) eqn:E2; [apply Nat.ltb_lt in E2; lia|].
      unfold evp_update. cbn [x_mode x_enc x_held x_st x_tag app negb andb].
      rewrite Nat.div_small by lia. cbn [run_blocks Nat.mul skipn]. reflexivity.
    - apply Nat.ltb_ge in E0. destruct b; [done|cbn [length] in E0; lia]. }
  rewrite U. cbn [length]. change (0 =? 0) with true. cbn [negb]. cbv iota.
  unfold cx_final, buffer_size. rewrite Hx. unfold x_with. cbn [x_mode x_enc x_held x_st x_tag block_size].
  change (16 =? 1) with false. change (0 =? 0) with true. cbv zeta iota.
  destruct (last <? 16) eqn:E1; [apply Nat.ltb_lt in E1; lia|].
  unfold evp_final. cbn [x_mode x_enc x_held x_st x_tag].
  pose proof (HP (fst r) (b ++ pad_of b)) as Ho.
  destruct (pr_block P (fst r) (b ++ pad_of b)) as [s2 o2] eqn:Eb. cbn [snd] in Ho. rewrite Ho. change (16 =? 16) with true.
  cbv iota. cbn [snd joined]. unfold whole. f_equal.
  assert (Hpad : pad_of D = pad_of b).
  { rewrite <- (firstn_skipn (16 * (length D / 16)) D). apply pad_app. rewrite firstn_length, Nat.min_l by lia.
    rewrite Nat.mul_comm. apply Nat.mod_mul. lia. }
  destruct (blocks_of_app P s D (pad_of D)) as (E2 & _ & _). fold b r in E2.
  rewrite E2, Hpad. cbn [snd]. f_equal.
  assert (Hlb : length (b ++ pad_of b) = 16).
  { rewrite pad_len. rewrite Nat.div_small by lia. lia. }
  rewrite Hlb. change (16 / 16) with 1. cbn [run_blocks].
  rewrite firstn_all2 by lia. rewrite Eb. cbn [snd]. by rewrite app_nil_r.
Qed.

Lemma unpad_app (u o : bytes) : length o = 16 ->
  unpad (u ++ o) = match unpad o with Some x => Some (u ++ x) | None => None end.
Proof using Type.
  intros Ho. unfold unpad.
  assert (Hlast : List.last (u ++ o) 0%N = List.last o 0%N).
  { destruct (exists_last (l := o)) as (o' & x & ->); [by intros ->|]. rewrite app_assoc, !last_last. done. }
  rewrite Hlast. set (k := N.to_nat (List.last o 0%N)). rewrite app_length, Ho.
  destruct (1 <=? k) eqn:E1; [|done]. destruct (k <=? 16) eqn:E2; [|done]. apply Nat.leb_le in E1, E2.
  destruct (k <=? length u + 16) eqn:E3; [|apply Nat.leb_gt in E3; lia]. cbn [andb].
  assert (S1 : skipn (length u + 16 - k) (u ++ o) = skipn (16 - k) o).
  { rewrite skipn_app, skipn_all2 by lia. cbn [app]. f_equal. lia. }
  assert (S2 : firstn (length u + 16 - k) (u ++ o) = u ++ firstn (16 - k) o).
  { rewrite firstn_app, firstn_all2 by lia. f_equal. f_equal. lia. }
  rewrite S1, S2. by destruct (bytes_eqb (skipn (16 - k) o) (repeat (N.of_nat k) k)).
Qed.
Lemma final_pad_dec a s D last :
  fresh P a MCbcPad false s -> length D mod 16 = 0 -> 16 <= last \/ D = [] ->
  joined (pad_out s D) (snd (op_final P false (at_pad a s D) last)) = whole P false MCbcPad s (a_taglen P a) D.
Proof using HP.
  intros (Hm & Hf & Hb & Hx) HD Hl. unfold op_final, at_pad, dec_final, pad_out.
  set (n := length D / 16 - 1). set (h := skipn (16 * n) D).
  cbn [a_final a_set a_use a_used negb a_mode a_buf a_ctx a_taglen a_end]. rewrite Hf. cbn [a_mode a_end a_set a_use].
  rewrite Hm. cbv iota. cbn [a_buf a_end a_set a_taglen a_use a_ctx length]. change (0 =? 0) with true. cbn [negb].
  cbv iota. unfold cx_final, buffer_size, evp_final. rewrite Hx. unfold x_with.
  cbn [x_mode x_enc x_held x_st x_tag block_size]. change (16 =? 1) with false. change (0 =? 0) with true. cbv zeta iota.
  unfold whole, blocks_of. pose proof (mod16 (length D)) as [M1 _].
  destruct (decide (D = [])) as [->|Hne].
  { subst h n. destruct (last <? 16); reflexivity. }
  assert (HD0 : length D <> 0) by (intros X; apply Hne; by apply length_zero_iff_nil in X).
  assert (Hn : length D = 16 * n + 16) by lia.
  assert (Hh : length h = 16) by (unfold h; rewrite skipn_length; lia).
  destruct (last <? 16) eqn:E; [apply Nat.ltb_lt in E; destruct Hl; [lia|done]|].
  rewrite Hh. change (16 =? 16) with true. cbv iota.
  assert (Hdn : length D / 16 = n + 1) by lia.
  assert (Hf2 : length (firstn (16 * n) D) = 16 * n) by (rewrite firstn_length; lia).
  assert (HrD : run_blocks P n s D = run_blocks P n s (firstn (16 * n) D)).
  { etransitivity; [|by apply (run_blocks_pre P n s (firstn (16 * n) D) h)]. unfold h. by rewrite firstn_skipn. }
  assert (Hall : run_blocks P (n + 1) s D =
    (fst (run_blocks P 1 (fst (run_blocks P n s D)) h), snd (run_blocks P n s D) ++ snd (run_blocks P 1 (fst (run_blocks P n s D)) h))).
  { replace D with (firstn (16 * n) D ++ h) at 1 by (unfold h; by rewrite firstn_skipn).
    rewrite run_blocks_app by done. by rewrite <- HrD. }
  rewrite Hdn, Hall. cbn [snd run_blocks]. rewrite (firstn_all2 h) by lia.
  pose proof (HP (fst (run_blocks P n s D)) h) as Ho.
  destruct (pr_block P (fst (run_blocks P n s D)) h) as [s2 o]. cbn [fst snd] in *. rewrite app_nil_r.
  rewrite unpad_app by done. by destruct (unpad o).
Qed.
End Facts.
