(* Facts about the AES model: what a sequence of updates has produced. *)
From Verif Require Export Aes.
From Coq Require Import Arith.
Local Open Scope nat_scope.

Section Facts.
Variable P : prim.
Hypothesis HP : prim_ok P.

Lemma run_blocks_pre n : forall s u v, length u = 16 * n -> run_blocks P n s (u ++ v) = run_blocks P n s u.
Proof using Type.
  induction n as [|n IH]; intros s u v H; [done|]. cbn [run_blocks].
  rewrite (firstn_app 16), (skipn_app 16).
  replace (16 - length u) with 0 by lia. cbn [firstn skipn]. rewrite app_nil_r.
  destruct (pr_block P s (firstn 16 u)) as [s1 o]. rewrite IH; [done|]. rewrite skipn_length. lia.
Qed.
Lemma run_blocks_app n m : forall s u v, length u = 16 * n ->
  run_blocks P (n + m) s (u ++ v) =
  (fst (run_blocks P m (fst (run_blocks P n s u)) v),
   snd (run_blocks P n s u) ++ snd (run_blocks P m (fst (run_blocks P n s u)) v)).
Proof using Type.
  induction n as [|n IH]; intros s u v H.
  - destruct u; [|cbn [length] in H; lia]. cbn [run_blocks app fst snd Nat.add].
    by destruct (run_blocks P m s v).
  - cbn [run_blocks Nat.add]. rewrite (firstn_app 16), (skipn_app 16).
    replace (16 - length u) with 0 by lia. cbn [firstn skipn]. rewrite app_nil_r.
    destruct (pr_block P s (firstn 16 u)) as [s1 o].
    rewrite IH by (rewrite skipn_length; lia).
    destruct (run_blocks P n s1 (skipn 16 u)) as [s2 o2]. cbn [fst snd]. by rewrite app_assoc.
Qed.
Lemma run_blocks_len n : forall s d, length (snd (run_blocks P n s d)) = 16 * n.
Proof using HP.
  induction n as [|n IH]; intros s d; [done|]. cbn [run_blocks].
  pose proof (HP s (firstn 16 d)) as X. destruct (pr_block P s (firstn 16 d)) as [s1 o].
  specialize (IH s1 (skipn 16 d)). destruct (run_blocks P n s1 (skipn 16 d)) as [s2 o2].
  cbn [fst snd] in *. rewrite app_length. lia.
Qed.
Lemma run_bytes_app u : forall s v,
  run_bytes P s (u ++ v) =
  (fst (run_bytes P (fst (run_bytes P s u)) v), snd (run_bytes P s u) ++ snd (run_bytes P (fst (run_bytes P s u)) v)).
Proof using Type.
  induction u as [|b u IH]; intros s v; cbn [app run_bytes fst snd].
  - by destruct (run_bytes P s v).
  - destruct (pr_byte P s b) as [s1 o]. rewrite IH. by destruct (run_bytes P s1 u).
Qed.
Lemma run_bytes_len d : forall s, length (snd (run_bytes P s d)) = length d.
Proof using Type.
  induction d as [|b d IH]; intros s; [done|]. cbn [run_bytes].
  destruct (pr_byte P s b) as [s1 o]. specialize (IH s1). destruct (run_bytes P s1 d). cbn [fst snd length] in *. lia.
Qed.

(* ---- one call of the context ---- *)

Definition blocky (m : amode) : bool := match m with MCbc | MEcb | MCbcPad => true | _ => false end.
Definition streamy (m : amode) : bool := match m with MGcm | MCtr | MStream => true | _ => false end.
(* Decryption of padded data holds a block back; nothing else does. *)
Definition holds_back (x : evp P) : bool := match x_mode P x with MCbcPad => negb (x_enc P x) | _ => false end.

Lemma mod16 n : 16 * (n / 16) + n mod 16 = n /\ n mod 16 < 16.
Proof using Type. split; [symmetry; by apply Nat.div_mod_eq|apply Nat.mod_upper_bound; lia]. Qed.

Lemma evp_whole x d :
  blocky (x_mode P x) = true -> holds_back x = false -> x_held P x = [] -> length d mod 16 = 0 ->
  evp_update P x d = Some (x_with P x (fst (run_blocks P (length d / 16) (x_st P x) d)) [],
                           snd (run_blocks P (length d / 16) (x_st P x) d)).
Proof using Type.
  intros Hb Hh Hx Hd. unfold evp_update. rewrite Hx. cbn [app].
  pose proof (mod16 (length d)) as [E _].
  assert (skipn (16 * (length d / 16)) d = []) as Hs by (apply skipn_all2; lia).
  assert (X : forall n, n = length d / 16 ->
    (let '(s, o) := run_blocks P n (x_st P x) d in Some (x_with P x s (skipn (16 * n) d), o)) =
    Some (x_with P x (fst (run_blocks P (length d / 16) (x_st P x) d)) [],
          snd (run_blocks P (length d / 16) (x_st P x) d))).
  { intros n ->. rewrite Hs. by destruct (run_blocks P (length d / 16) (x_st P x) d). }
  unfold holds_back in Hh. destruct (x_mode P x) eqn:Em; try discriminate Hb; cbv zeta; try by apply X.
  apply X. by rewrite Hh.
Qed.
Lemma buffer_size_whole x n : block_size (x_mode P x) = 16 -> n mod 16 = 0 -> n <> 0 -> buffer_size P x n = n.
Proof using Type.
  intros Hb Hn H0. unfold buffer_size. rewrite Hb. cbv zeta. change (16 =? 1) with false.
  destruct (n =? 0) eqn:E; [apply Nat.eqb_eq in E; lia|]. by rewrite Hn.
Qed.
Lemma blocky_size m : blocky m = true -> block_size m = 16.
Proof using Type. by destruct m. Qed.

Lemma cx_whole x d room :
  blocky (x_mode P x) = true -> holds_back x = false -> x_held P x = [] -> length d mod 16 = 0 -> d <> [] ->
  length d <= room ->
  cx_update P x d room = Some (x_with P x (fst (run_blocks P (length d / 16) (x_st P x) d)) [],
                               snd (run_blocks P (length d / 16) (x_st P x) d)).
Proof using Type.
  intros Hb Hh Hx Hd H0 Hr. unfold cx_update.
  rewrite buffer_size_whole; [|by apply blocky_size|done|by destruct d].
  destruct (room <? length d) eqn:E; [apply Nat.ltb_lt in E; lia|]. by apply evp_whole.
Qed.

Lemma feed_rest_whole a d room out :
  blocky (x_mode P (a_ctx P a)) = true -> holds_back (a_ctx P a) = false -> x_held P (a_ctx P a) = [] ->
  length d mod 16 = 0 -> length d + length out <= room ->
  feed_rest P a d room out =
  (a_set P a (x_with P (a_ctx P a) (fst (run_blocks P (length d / 16) (x_st P (a_ctx P a)) d)) []) (a_buf P a),
   Ok (out ++ snd (run_blocks P (length d / 16) (x_st P (a_ctx P a)) d))).
Proof using Type.
  intros Hb Hh Hx Hd Hr. unfold feed_rest. destruct d as [|c d].
  - change (length [] / 16) with 0. cbn [run_blocks fst snd]. rewrite app_nil_r.
    destruct a as [m mx dl tl f u x b n]; cbn in *. unfold x_with. destruct x as [xm xe xs xh xt]; cbn in *. by subst.
  - rewrite cx_whole; try done. lia.
Qed.

(* Feeding whole blocks from a buffer holding less than one. *)
Lemma feed_blocks_spec a d room :
  blocky (x_mode P (a_ctx P a)) = true -> holds_back (a_ctx P a) = false -> x_held P (a_ctx P a) = [] ->
  length (a_buf P a) < 16 ->
  let all := a_buf P a ++ d in
  let n := length all / 16 in
  n * 16 <= room ->
  feed_blocks P a d room =
  (a_set P a (x_with P (a_ctx P a) (fst (run_blocks P n (x_st P (a_ctx P a)) all)) []) (skipn (16 * n) all),
   Ok (snd (run_blocks P n (x_st P (a_ctx P a)) all))).
Proof using HP.
  intros Hb Hh Hx Hl all n Hr. subst all n. rewrite app_length in *.
  unfold feed_blocks. cbv zeta.
  set (b := a_buf P a) in *.
  destruct ((0 <? length b) && (16 <=? length b + length d)) eqn:E.
  - apply andb_true_iff in E as [E1 E2]. apply Nat.ltb_lt in E1. apply Nat.leb_le in E2.
    set (o := 16 - length b).
    assert (Hf : length (b ++ firstn o d) = 16) by (rewrite app_length, firstn_length; lia).
    assert (Hn : 1 <= (length b + length d) / 16) by (apply Nat.div_le_lower_bound; lia).
    rewrite cx_whole; [|done|done|done|by rewrite Hf|by destruct (b ++ firstn o d)|lia].
    rewrite Hf. change (16 / 16) with 1. cbv beta iota zeta.
    pose proof (run_blocks_len 1 (x_st P (a_ctx P a)) (b ++ firstn o d)) as Ho.
    set (r1 := run_blocks P 1 (x_st P (a_ctx P a)) (b ++ firstn o d)) in *.
    rewrite Ho. change (16 * 1 =? 16) with true. cbv beta iota.
    set (d' := skipn o d).
    assert (Hd' : length d' = length b + length d - 16) by (unfold d'; rewrite skipn_length; lia).
    set (k := length d' - length d' mod 16).
    pose proof (mod16 (length d')) as [M1 M2].
    assert (Hk : length (firstn k d') = 16 * (length d' / 16)) by (rewrite firstn_length; lia).
    assert (Hdiv : length (firstn k d') / 16 = length d' / 16) by (rewrite Hk, Nat.mul_comm, Nat.div_mul; lia).
    assert (Hn2 : (length b + length d) / 16 = 1 + length d' / 16).
    { rewrite Hd'. replace (length b + length d) with (1 * 16 + (length b + length d - 16)) at 1 by lia.
      rewrite Nat.div_add_l by lia. done. }
    rewrite feed_rest_whole; cbn [a_ctx a_set a_buf x_with x_mode x_enc x_held x_st]; try done.
    2:{ rewrite Hk, Nat.mul_comm. apply Nat.mod_mul. lia. }
    2:{ rewrite Ho, Hk. rewrite Hn2 in Hr. lia. }
    rewrite Hdiv, Hn2. cbn [app].
    assert (Hall : b ++ d = (b ++ firstn o d) ++ d').
    { rewrite <- app_assoc. f_equal. symmetry. apply firstn_skipn. }
    rewrite Hall, run_blocks_app by lia. fold r1. cbn [fst snd].
    assert (Hpre : run_blocks P (length d' / 16) (fst r1) d' = run_blocks P (length d' / 16) (fst r1) (firstn k d')).
    { etransitivity; [|by apply (run_blocks_pre _ _ (firstn k d') (skipn k d'))]. by rewrite firstn_skipn. }
    rewrite Hpre. unfold a_set, x_with. cbn [a_mode a_max a_datalen a_taglen a_final a_used a_ctx a_buf a_blocks x_mode x_enc x_st x_held x_tag]. f_equal. f_equal.
    rewrite skipn_app, Hf. rewrite (skipn_all2 (b ++ firstn o d)) by (rewrite Hf; lia). cbn [app].
    f_equal. lia.
  - assert (Hc : b = [] \/ length b + length d < 16).
    { apply andb_false_iff in E as [E|E]; [left|right].
      - apply Nat.ltb_ge in E. destruct b; [done|cbn [length] in E; lia].
      - apply Nat.leb_gt in E. lia. }
    pose proof (mod16 (length d)) as [M1 M2].
    set (k := length d - length d mod 16).
    assert (Hk : length (firstn k d) = 16 * (length d / 16)) by (rewrite firstn_length; lia).
    assert (Hdiv : length (firstn k d) / 16 = length d / 16) by (rewrite Hk, Nat.mul_comm, Nat.div_mul; lia).
    assert (Hn : (length b + length d) / 16 = length d / 16).
    { destruct Hc as [->|Hc]; [done|]. rewrite !Nat.div_small; lia. }
    rewrite feed_rest_whole; cbn [a_ctx a_set a_buf x_with x_mode x_enc x_held x_st length]; try done.
    2:{ rewrite Hk, Nat.mul_comm. apply Nat.mod_mul. lia. }
    2:{ rewrite Hk. rewrite Hn in Hr. lia. }
    rewrite Hdiv, Hn. cbn [app]. fold b.
    destruct Hc as [Hc|Hc].
    + rewrite Hc. cbn [app].
      assert (Hpre : run_blocks P (length d / 16) (x_st P (a_ctx P a)) d =
                     run_blocks P (length d / 16) (x_st P (a_ctx P a)) (firstn k d)).
      { etransitivity; [|by apply (run_blocks_pre _ _ (firstn k d) (skipn k d))]. by rewrite firstn_skipn. }
      rewrite Hpre. unfold a_set. cbn [a_mode a_max a_datalen a_taglen a_final a_used a_ctx a_buf a_blocks x_mode x_enc x_st x_held x_tag]. f_equal. f_equal. f_equal. lia.
    + assert (length d / 16 = 0) as -> by (apply Nat.div_small; lia).
      assert (k = 0) as -> by (unfold k; rewrite Nat.mod_small; lia). cbn [run_blocks fst snd Nat.mul skipn].
      reflexivity.
Qed.
End Facts.

(* ---- sequences of updates ---- *)
Section Pieces.
Variable P : prim.
Hypothesis HP : prim_ok P.

(* What the operation is after the data [D], and what it has put out by then. *)
Lemma pieces_run enc (at_ : bytes -> aes P) (out : bytes -> bytes) (good : bytes -> bytes -> Prop) :
  (forall D p room, good D p ->
     snd (op_update P enc (at_ D) p room) = Err CKR_BUFFER_TOO_SMALL \/
     exists o, op_update P enc (at_ D) p room = (at_ (D ++ p), Ok o) /\ out (D ++ p) = out D ++ o /\ length o <= room) ->
  forall l D last,
  (forall l1 p n l2, l = l1 ++ (p, n) :: l2 -> good (D ++ concat (map fst l1)) p) ->
  op_pieces P enc (at_ D) l last <> Err CKR_BUFFER_TOO_SMALL ->
  exists o, out (D ++ concat (map fst l)) = out D ++ o /\
    op_pieces P enc (at_ D) l last =
    match snd (op_final P enc (at_ (D ++ concat (map fst l))) last) with Ok e => Ok (o ++ e) | Err e => Err e end.
Proof using Type.
  intros Hstep l. induction l as [|[p n] l IH]; intros D last Hg Hn.
  - cbn [map concat op_pieces] in *. exists []. rewrite !app_nil_r. split; [done|]. cbn [app].
    by destruct (snd (op_final P enc (at_ D) last)).
  - cbn [map concat fst]. cbn [op_pieces] in Hn |- *.
    assert (G : good D p) by (specialize (Hg [] p n l eq_refl); cbn in Hg; by rewrite app_nil_r in Hg).
    destruct (Hstep D p n G) as [E|(o & E & Eo & _)].
    + destruct (op_update P enc (at_ D) p n) as [a' r]. cbn [snd] in E. subst r. done.
    + rewrite E in Hn |- *. cbv beta iota in Hn |- *.
      destruct (IH (D ++ p) last) as (o2 & Eo2 & E2).
      { intros l1 q m l2 ->. specialize (Hg ((p, n) :: l1) q m l2 eq_refl). cbn in Hg. by rewrite app_assoc in Hg. }
      { intros X. by rewrite X in Hn. }
      exists (o ++ o2). rewrite app_assoc. split.
      { rewrite Eo2, Eo. by rewrite app_assoc. }
      rewrite E2. destruct (snd (op_final P enc (at_ ((D ++ p) ++ concat (map fst l))) last)); [|done].
      by rewrite app_assoc.
Qed.

(* A freshly initialised operation. *)
Definition fresh (a : aes P) (m : amode) (enc : bool) (s : pr_st P) : Prop :=
  a_mode P a = m /\ a_final P a = false /\ a_buf P a = [] /\ a_ctx P a = Evp P m enc s [] None.
Lemma new_fresh m enc iv aad mx dl tl a : aes_new P m enc iv aad mx dl tl = Some a ->
  exists s, pr_start P m enc iv aad tl dl = Some s /\ fresh a m enc s /\ a_max P a = mx /\ a_taglen P a = tl /\
    a_datalen P a = dl /\ a_used P a = false /\ a_blocks P a = 0%N.
Proof using Type.
  unfold aes_new. destruct (pr_start P m enc iv aad tl dl) as [s|]; [|done]. intros H. injection H as <-.
  exists s. unfold fresh. cbn. done.
Qed.

Definition blocks_of (s : pr_st P) (D : bytes) : pr_st P * bytes := run_blocks P (length D / 16) s D.
Lemma blocks_of_app s D p :
  let b := skipn (16 * (length D / 16)) D in
  let r := blocks_of s D in
  let r2 := run_blocks P (length (b ++ p) / 16) (fst r) (b ++ p) in
  blocks_of s (D ++ p) = (fst r2, snd r ++ snd r2) /\
  skipn (16 * (length (D ++ p) / 16)) (D ++ p) = skipn (16 * (length (b ++ p) / 16)) (b ++ p) /\
  length b < 16.
Proof using Type.
  intros b r r2. pose proof (mod16 (length D)) as [M1 M2].
  set (k := length D / 16) in *.
  assert (Hb : length b = length D mod 16) by (unfold b; rewrite skipn_length; lia).
  assert (HD : D = firstn (16 * k) D ++ b) by (unfold b; by rewrite firstn_skipn).
  assert (Hf : length (firstn (16 * k) D) = 16 * k) by (rewrite firstn_length; lia).
  assert (Hn : length (D ++ p) / 16 = k + length (b ++ p) / 16).
  { rewrite !app_length, Hb. replace (length D + length p) with (k * 16 + (length D mod 16 + length p)) by lia.
    by rewrite Nat.div_add_l by lia. }
  assert (Hr : r = run_blocks P k s (firstn (16 * k) D)).
  { unfold r, blocks_of. fold k. etransitivity; [|by apply (run_blocks_pre P k s (firstn (16*k) D) b)].
    by rewrite <- HD. }
  split; [|split; [|lia]].
  - unfold blocks_of. rewrite Hn.
    replace (D ++ p) with (firstn (16 * k) D ++ (b ++ p)) by (rewrite app_assoc; by rewrite <- HD).
    rewrite run_blocks_app by done. rewrite <- Hr. done.
  - rewrite Hn. replace (D ++ p) with (firstn (16 * k) D ++ (b ++ p)) at 1 by (rewrite app_assoc; by rewrite <- HD).
    rewrite skipn_app, Hf, (skipn_all2 (firstn (16 * k) D)) by (rewrite Hf; lia). cbn [app]. f_equal. lia.
Qed.

Definition at_blocks (a : aes P) (s : pr_st P) (D : bytes) : aes P :=
  a_set P (a_use P a) (x_with P (a_ctx P a) (fst (blocks_of s D)) []) (skipn (16 * (length D / 16)) D).

Lemma at_blocks_step a m enc s D p room :
  fresh a m enc s -> blocky m = true -> (m = MCbcPad -> enc = true) ->
  snd (op_update P enc (at_blocks a s D) p room) = Err CKR_BUFFER_TOO_SMALL \/
  exists o, op_update P enc (at_blocks a s D) p room = (at_blocks a s (D ++ p), Ok o) /\
            snd (blocks_of s (D ++ p)) = snd (blocks_of s D) ++ o /\ length o <= room.
Proof using HP.
  intros (Hm & Hf & Hb & Hx) Hbl Hpad.
  destruct (blocks_of_app s D p) as (E1 & E2 & E3).
  set (b := skipn (16 * (length D / 16)) D) in *. set (r := blocks_of s D) in *.
  pose proof (feed_blocks_spec P HP (at_blocks a s D) p room) as F.
  unfold at_blocks in F |- *. fold b r in F |- *.
  cbn [a_ctx a_set a_use a_buf x_with x_mode x_enc x_held x_st] in F.
  rewrite Hx in F. cbn [x_mode x_enc x_st x_held x_with x_tag] in F.
  specialize (F Hbl).
  unfold holds_back in F. cbn [x_mode x_enc] in F.
  assert (Hh : match m with MCbcPad => negb enc | _ => false end = false).
  { destruct m; try done. by rewrite Hpad. }
  specialize (F Hh eq_refl E3). cbv zeta in F.
  assert (U : op_update P enc (a_set P (a_use P a) (x_with P (a_ctx P a) (fst r) []) b) p room =
    if room <? (length b + length p) / 16 * 16
    then (a_set P (a_use P a) (x_with P (a_ctx P a) (fst r) []) b, Err CKR_BUFFER_TOO_SMALL)
    else feed_blocks P (a_set P (a_use P a) (x_with P (a_ctx P a) (fst r) []) b) p room).
  { unfold op_update. destruct enc.
    - unfold enc_update, enc_len, enc_check, enc_feed. cbn [a_final a_set a_use a_mode a_buf]. rewrite Hf, Hm.
      destruct m; try discriminate Hbl; cbv beta iota zeta; unfold a_use, a_set; cbn [a_mode a_max a_datalen a_taglen
        a_final a_used a_ctx a_buf a_blocks]; rewrite ?Hm; reflexivity.
    - unfold dec_update, dec_check, dec_need, dec_feed. cbn [a_final a_set a_use a_mode a_buf]. rewrite Hf, Hm.
      destruct m; try discriminate Hbl; cbv beta iota zeta; unfold a_use, a_set; cbn [a_mode a_max a_datalen a_taglen
        a_final a_used a_ctx a_buf a_blocks]; rewrite ?Hm; reflexivity. }
  rewrite U. destruct (room <? (length b + length p) / 16 * 16) eqn:Er; [by left|right].
  apply Nat.ltb_ge in Er. rewrite app_length in F. specialize (F Er).
  rewrite Hx. unfold x_with in F |- *. cbn [x_mode x_enc x_st x_held x_tag] in F |- *.
  rewrite F. rewrite E1, E2. rewrite app_length. cbn [fst snd]. eexists. split; [|split; [reflexivity|rewrite run_blocks_len by done; lia]].
  unfold a_set, a_use. cbn [a_mode a_max a_datalen a_taglen a_final a_used a_ctx a_buf a_blocks x_tag]. reflexivity.
Qed.

(* ---- the stream modes, and GCM encryption ---- *)
Definition at_bytes (a : aes P) (s : pr_st P) (D : bytes) : aes P :=
  a_set P (a_use P a) (x_with P (a_ctx P a) (fst (run_bytes P s D)) []) [].

Lemma cx_stream x d room : streamy (x_mode P x) = true -> length d <= room ->
  cx_update P x d room = Some (x_with P x (fst (run_bytes P (x_st P x) d)) (x_held P x), snd (run_bytes P (x_st P x) d)).
Proof using Type.
  intros Hs Hr. unfold cx_update, buffer_size, evp_update.
  assert (block_size (x_mode P x) = 1) as -> by (destruct (x_mode P x); done). cbv zeta. change (1 =? 1) with true.
  cbv iota. destruct (room <? length d) eqn:E; [apply Nat.ltb_lt in E; lia|].
  destruct (x_mode P x); try discriminate Hs; by destruct (run_bytes P (x_st P x) d).
Qed.
Lemma feed_rest_stream a d room : streamy (x_mode P (a_ctx P a)) = true -> length d <= room ->
  feed_rest P a d room [] =
  (a_set P a (x_with P (a_ctx P a) (fst (run_bytes P (x_st P (a_ctx P a)) d)) (x_held P (a_ctx P a))) (a_buf P a),
   Ok (snd (run_bytes P (x_st P (a_ctx P a)) d))).
Proof using Type.
  intros Hs Hr. unfold feed_rest. destruct d as [|c d].
  - cbn [run_bytes fst snd]. destruct a as [m mx dl tl f u x b n]. unfold x_with, a_set. cbn. by destruct x.
  - rewrite cx_stream; [done|done|]. cbn [length] in *. lia.
Qed.

Lemma at_bytes_step a m enc s D p room :
  fresh a m enc s -> streamy m = true -> (m = MGcm -> enc = true) -> (m = MCtr -> a_max P a = 0%N) ->
  snd (op_update P enc (at_bytes a s D) p room) = Err CKR_BUFFER_TOO_SMALL \/
  exists o, op_update P enc (at_bytes a s D) p room = (at_bytes a s (D ++ p), Ok o) /\
            snd (run_bytes P s (D ++ p)) = snd (run_bytes P s D) ++ o /\ length o <= room.
Proof using Type.
  intros (Hm & Hf & Hb & Hx) Hs Hg Hc.
  set (need := match m with MGcm => length p + a_taglen P a | _ => length p end).
  assert (U : op_update P enc (at_bytes a s D) p room =
    if room <? need then (at_bytes a s D, Err CKR_BUFFER_TOO_SMALL) else feed_rest P (at_bytes a s D) p room []).
  { unfold op_update, at_bytes. destruct enc.
    - unfold enc_update, enc_len, enc_check, enc_feed, ctr_count. cbn [a_final a_set a_use a_mode a_buf a_max].
      rewrite Hf, Hm. unfold need.
      destruct m; try discriminate Hs; cbv beta iota zeta; unfold a_use, a_set; cbn [a_mode a_max a_datalen a_taglen
        a_final a_used a_ctx a_buf a_blocks]; rewrite ?Hm, ?Hc by done; reflexivity.
    - unfold dec_update, dec_check, dec_need, dec_feed, ctr_count. cbn [a_final a_set a_use a_mode a_buf a_max].
      rewrite Hf, Hm. unfold need.
      destruct m; try discriminate Hs; try (by discriminate (Hg eq_refl));
      cbv beta iota zeta; unfold a_use, a_set; cbn [a_mode a_max a_datalen a_taglen
        a_final a_used a_ctx a_buf a_blocks]; rewrite ?Hm, ?Hc by done; reflexivity. }
  rewrite U. destruct (room <? need) eqn:Er; [by left|right]. apply Nat.ltb_ge in Er.
  assert (length p <= room) by (unfold need in Er; destruct m; lia).
  rewrite run_bytes_app. cbn [snd]. eexists. split; [|split; [reflexivity|by rewrite run_bytes_len]].
  rewrite feed_rest_stream; [|unfold at_bytes; cbn [a_ctx a_set x_with x_mode]; by rewrite Hx|done].
  unfold at_bytes. rewrite run_bytes_app. unfold a_set, a_use, x_with.
  cbn [a_mode a_max a_datalen a_taglen a_final a_used a_ctx a_buf a_blocks x_mode x_enc x_st x_held x_tag fst snd].
  reflexivity.
Qed.
End Pieces.
