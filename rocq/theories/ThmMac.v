(* C34 for digests and MACs: the pieces do not matter, and the result is the one of the standard. *)
From Verif Require Export Mac ThmChunks.
From Coq Require Import Arith.
Local Open Scope nat_scope.

(* The specification: the digest of the data; HMAC of FIPS 198; the CBC-MAC of zero padded data. *)
Definition digest_of (H : hash) (d : bytes) : bytes := h_fin H (h_upd H (h_init H) d).
Definition key_block (H : hash) (key : bytes) : bytes :=
  let k := if length key <=? h_block H then key else digest_of H key in k ++ repeat 0%N (h_block H - length k).
Definition hmac_of (H : hash) (key d : bytes) : bytes :=
  let k0 := key_block H key in
  digest_of H (map (N.lxor 0x5c) k0 ++ digest_of H (map (N.lxor 0x36) k0 ++ d)).
Definition zero_padded (d : bytes) : bytes := d ++ repeat 0%N ((16 - length d mod 16) mod 16).
Definition last_block (o : bytes) : bytes := if length o <? 16 then repeat 0%N 16 else skipn (length o - 16) o.
Definition cbc_mac_of (P : prim) (s : pr_st P) (d : bytes) : bytes := last_block (snd (blocks_of P s (zero_padded d))).

(* A signature is accepted if it is the MAC (verify_final: hmac.rs:363-370, aes.rs:2575-2590 and 2899-2914; the MAC is
   computed into a buffer of the MAC length and compared). *)
Definition verified {S : Type} (fin : S -> nat -> S * result bytes) (len : nat) (s : S) (sig : bytes) : result unit :=
  match snd (fin s len) with
  | Ok o => if bytes_eqb o sig then Ok tt else Err CKR_SIGNATURE_INVALID
  | Err e => Err e
  end.
(* The state after feeding the pieces. *)
Fixpoint fed {S : Type} (upd : S -> bytes -> S * result unit) (s : S) (l : list bytes) : S :=
  match l with [] => s | p :: l => fed upd (fst (upd s p)) l end.

(* Everything but the arithmetic of the algorithm: a representation of the state after the data. *)
Lemma pieces_at {S : Type} upd fin (at_ : bytes -> S) n :
  (forall D p, upd (at_ D) p = (at_ (D ++ p), Ok tt)) ->
  forall l D, @pieces S upd fin (at_ D) l n = snd (fin (at_ (D ++ concat l)) n) /\
              fed upd (at_ D) l = at_ (D ++ concat l).
Proof.
  intros Hs l. induction l as [|p l IH]; intros D.
  - cbn [concat]. rewrite app_nil_r. done.
  - cbn [concat fed]. rewrite Hs. cbn [fst]. destruct (IH (D ++ p)) as [I1 I2]. rewrite app_assoc. split; [|done].
    rewrite <- I1. unfold pieces. cbv fix. by rewrite Hs.
Qed.

Section Hash.
Variable H : hash.
Hypothesis HH : hash_ok H.

Lemma dig_pieces l : l <> [] ->
  pieces (dig_update H) (dig_final H) (dig_new H) l (h_size H) = Ok (digest_of H (concat l)).
Proof using HH.
  destruct HH as (Ha & He & Hl & Hb). intros Hne.
  destruct (pieces_at (dig_update H) (dig_final H) (fun D => Dig H (h_upd H (h_init H) D) false true) (h_size H)) with (l := l) (D := @nil N) as [I _].
  { intros D p. unfold dig_update. cbn [g_final g_st]. by rewrite Ha. }
  cbn [app] in I. transitivity (snd (dig_final H (Dig H (h_upd H (h_init H) (concat l)) false true) (h_size H))).
  - rewrite <- I. rewrite He. destruct l as [|p l]; done.
  - unfold dig_final. cbn [g_final g_st g_used]. rewrite Nat.eqb_refl. cbn [negb]. rewrite Hl, Nat.eqb_refl. done.
Qed.

Lemma hmac_new_ok key out : exists m, hmac_new H key out = Ok m /\
  m = Hmac H key out (map (N.lxor 0x36) (key_block H key)) (map (N.lxor 0x5c) (key_block H key))
        (Dig H (h_upd H (h_init H) (map (N.lxor 0x36) (key_block H key))) false true) false false.
Proof using HH.
  destruct HH as (Ha & He & Hl & Hb). unfold hmac_new, hmac_init, key_block. destruct (length key <=? h_block H).
  - cbv iota beta zeta. unfold dig_update, dig_reset, dig_new. cbn [g_final g_st]. eexists. split; [reflexivity|done].
  - unfold dig_digest, dig_new. cbn [g_used g_final orb g_st]. rewrite Nat.eqb_refl. cbn [negb]. rewrite Hl, Nat.eqb_refl. cbn [negb].
    cbv iota beta zeta. unfold dig_update, dig_reset, dig_new. cbn [g_final g_st]. eexists. split; [reflexivity|].
    unfold digest_of, xor_with. rewrite Hl. done.
Qed.
Definition hmac_at (key : bytes) (out : nat) (used : bool) (D : bytes) : hmac H :=
  let k0 := key_block H key in
  Hmac H key out (map (N.lxor 0x36) k0) (map (N.lxor 0x5c) k0)
    (Dig H (h_upd H (h_init H) (map (N.lxor 0x36) k0 ++ D)) false true) false used.
Lemma hmac_step key out u D p : hmac_update H (hmac_at key out u D) p = (hmac_at key out true (D ++ p), Ok tt).
Proof using HH.
  destruct HH as (Ha & He & Hl & Hb). unfold hmac_update, hmac_at. cbv zeta. cbn [m_final m_inner m_key m_out m_ipad m_opad].
  unfold dig_update. cbn [g_final g_st]. rewrite Ha, app_assoc. done.
Qed.
Lemma hmac_end key out u D : snd (hmac_final H (hmac_at key out u D) out) = Ok (firstn out (hmac_of H key D)).
Proof using HH.
  destruct HH as (Ha & He & Hl & Hb). unfold hmac_final, hmac_at. cbv zeta. cbn [m_final m_inner m_key m_out m_ipad m_opad].
  rewrite Nat.eqb_refl. cbn [negb]. unfold dig_final at 1. cbn [g_final g_st g_used]. rewrite Nat.eqb_refl. cbn [negb].
  rewrite Hl, Nat.eqb_refl. cbn [negb]. cbv iota. unfold dig_update, dig_reset, dig_new. cbn [g_final g_st].
  unfold dig_final. cbn [g_final g_st g_used]. rewrite Nat.eqb_refl. cbn [negb]. rewrite Hl, Nat.eqb_refl. cbn [negb snd].
  rewrite Ha. done.
Qed.
End Hash.

(* C34, digests: every chunking gives the digest of the whole data, and so does C_Digest. *)
Theorem C34_digest H : hash_ok H ->
  (forall l, l <> [] -> pieces (dig_update H) (dig_final H) (dig_new H) l (h_size H) = Ok (digest_of H (concat l))) /\
  (forall d, snd (dig_digest H (dig_new H) d (h_size H)) = Ok (digest_of H d)).
Proof.
  intros HH. split; [intros l; by apply dig_pieces|]. destruct HH as (Ha & He & Hl & Hb). intros d.
  unfold dig_digest, dig_new. cbn [g_used g_final orb g_st]. rewrite Nat.eqb_refl. cbn [negb]. by rewrite Hl, Nat.eqb_refl.
Qed.

(* C34, HMAC: for every key, every output length and every chunking (none at all included), signing gives the leading
   bytes of the HMAC of the standard, and exactly that signature verifies. *)
Theorem C34_hmac H : hash_ok H -> forall key out, exists m, hmac_new H key out = Ok m /\
  (forall l, pieces (hmac_update H) (hmac_final H) m l out = Ok (firstn out (hmac_of H key (concat l)))) /\
  (forall d, snd (hmac_once H m d out) = Ok (firstn out (hmac_of H key d))) /\
  (forall l sig, verified (hmac_final H) out (fed (hmac_update H) m l) sig = Ok tt <->
                 sig = firstn out (hmac_of H key (concat l))).
Proof.
  intros HH key out. destruct (hmac_new_ok H HH key out) as (m & Em & Hm). exists m. split; [done|].
  assert (E0 : m = hmac_at H key out false []) by (unfold hmac_at; rewrite app_nil_r; done).
  assert (Hp : forall u l, pieces (hmac_update H) (hmac_final H) (hmac_at H key out u []) l out = Ok (firstn out (hmac_of H key (concat l))) /\
     exists u', fed (hmac_update H) (hmac_at H key out u []) l = hmac_at H key out u' (concat l)).
  { intros u l. destruct l as [|p l].
    - cbn [concat fed]. split; [by apply hmac_end|by exists u].
    - destruct (pieces_at (hmac_update H) (hmac_final H) (hmac_at H key out true) out (hmac_step H HH key out true) (p :: l) []) as [I1 I2].
      cbn [app] in I1, I2.
      assert (X : pieces (hmac_update H) (hmac_final H) (hmac_at H key out u []) (p :: l) out =
                  pieces (hmac_update H) (hmac_final H) (hmac_at H key out true []) (p :: l) out).
      { unfold pieces. cbv fix. by rewrite !hmac_step. }
      rewrite X, I1. split; [by apply hmac_end|]. exists true. rewrite <- I2. cbn [fed]. by rewrite !hmac_step. }
  subst m. rewrite E0. split; [intros l; by apply Hp|]. split.
  - intros d. unfold hmac_once. rewrite hmac_step by done. cbn [hmac_at m_used]. by apply hmac_end.
  - intros l sig. destruct (Hp false l) as [_ [u' E]]. rewrite E. unfold verified. rewrite hmac_end by done.
    unfold bytes_eqb. case_bool_decide as X; split; congruence.
Qed.

(* C34, CMAC: the same, over the MAC context of OpenSSL. *)
Theorem C34_cmac H : hash_ok H -> h_size H = 16 -> forall len,
  (forall l, pieces (cmac_update H) (cmac_final H) (cmac_new H len) l len = Ok (firstn len (digest_of H (concat l)))) /\
  (forall d, snd (cmac_once H (cmac_new H len) d len) = Ok (firstn len (digest_of H d))) /\
  (forall l sig, verified (cmac_final H) len (fed (cmac_update H) (cmac_new H len) l) sig = Ok tt <->
                 sig = firstn len (digest_of H (concat l))).
Proof.
  intros (Ha & He & Hl & Hb) H16 len.
  set (at_ u D := Cmac H (h_upd H (h_init H) D) len false u).
  assert (Hs : forall u D p, cmac_update H (at_ u D) p = (at_ true (D ++ p), Ok tt)).
  { intros u D p. unfold cmac_update, at_. cbn [k_final k_st k_len]. by rewrite Ha. }
  assert (Hf : forall u D, snd (cmac_final H (at_ u D) len) = Ok (firstn len (digest_of H D))).
  { intros u D. unfold cmac_final, at_. cbn [k_final k_st k_len]. rewrite Hl, H16. done. }
  assert (E0 : cmac_new H len = at_ false []) by (unfold cmac_new, at_; by rewrite He).
  assert (Hp : forall l, pieces (cmac_update H) (cmac_final H) (at_ false []) l len = Ok (firstn len (digest_of H (concat l))) /\
     exists u', fed (cmac_update H) (at_ false []) l = at_ u' (concat l)).
  { intros l. destruct l as [|p l].
    - cbn [concat fed]. split; [by apply Hf|by exists false].
    - destruct (pieces_at (cmac_update H) (cmac_final H) (at_ true) len (Hs true) (p :: l) []) as [I1 I2].
      cbn [app] in I1, I2.
      assert (X : pieces (cmac_update H) (cmac_final H) (at_ false []) (p :: l) len =
                  pieces (cmac_update H) (cmac_final H) (at_ true []) (p :: l) len).
      { unfold pieces. cbv fix. by rewrite !Hs. }
      rewrite X, I1. split; [by apply Hf|]. exists true. rewrite <- I2. cbn [fed]. by rewrite !Hs. }
  rewrite E0. split; [intros l; by apply Hp|]. split.
  - intros d. unfold cmac_once. rewrite Hs. cbn [at_ k_used]. by apply Hf.
  - intros l sig. destruct (Hp l) as [_ [u' E]]. rewrite E. unfold verified. rewrite Hf.
    unfold bytes_eqb. case_bool_decide as X; split; congruence.
Qed.

(* The CBC based MAC. *)
Section AesMac.
Variable P : prim.
Hypothesis HP : prim_ok P.
Variables (a0 : aes P) (s : pr_st P).
Hypothesis Hfr : fresh P a0 MCbc true s.

Lemma whole_rest (E : bytes) : length E mod 16 = 0 -> skipn (16 * (length E / 16)) E = [].
Proof using Type. intros X. pose proof (mod16 (length E)) as [M1 _]. apply skipn_all2. lia. Qed.
Lemma out_len (E : bytes) : length (snd (blocks_of P s E)) = 16 * (length E / 16).
Proof using HP. unfold blocks_of. by rewrite run_blocks_len. Qed.
Lemma div16_add (E b : bytes) : length E mod 16 = 0 -> length b = 16 -> length (E ++ b) / 16 = length E / 16 + 1.
Proof using Type. intros X Y. rewrite app_length, Y. replace (length E + 16) with (length E + 1 * 16) by lia. apply Nat.div_add. lia. Qed.

Lemma cbc_block E b : length E mod 16 = 0 -> length b = 16 ->
  exists o, enc_update P (at_blocks P a0 s E) b 16 = (at_blocks P a0 s (E ++ b), Ok o) /\
    snd (blocks_of P s (E ++ b)) = snd (blocks_of P s E) ++ o /\ length o = 16.
Proof using HP Hfr.
  intros HE Hb. destruct (at_blocks_step P HP a0 MCbc true s E b 16 Hfr) as [X|(o & E1 & E2 & _)]; [done|done| |].
  - exfalso. destruct Hfr as (Hm & Hf & Hbu & Hx). unfold op_update, enc_update in X. unfold at_blocks in X.
    cbn [a_final a_set a_use] in X. rewrite Hf, (whole_rest E HE) in X.
    unfold enc_len in X. cbn [a_final a_set a_use a_mode a_buf] in X. rewrite Hm in X. cbv iota beta zeta in X.
    cbn [length Nat.add] in X. rewrite Hb in X. unfold enc_check in X. cbn [a_set a_use a_mode] in X. rewrite ?Hm, ?Hf in X.
    change ((0 + 16) / 16 * 16) with 16 in X. change (16 / 16 * 16) with 16 in X. cbv iota beta zeta in X. cbn [Nat.ltb Nat.leb] in X.
    unfold enc_feed in X. cbn [a_set a_use a_mode] in X. rewrite ?Hm in X. cbv iota in X.
    rewrite feed_blocks_spec in X; cbn [a_set a_use a_ctx a_buf x_with x_mode x_held length Nat.add app]; rewrite ?Hx; try done.
    + cbn [a_set a_use a_ctx a_buf x_with x_mode x_held length Nat.add app]. lia.
    + cbn [a_set a_use a_ctx a_buf x_with x_mode x_held length Nat.add app]. rewrite Hb. change (16 / 16 * 16) with 16. lia.
  - exists o. split; [done|]. split; [done|].
    pose proof (f_equal length E2) as L. rewrite app_length, !out_len in L. rewrite (div16_add E b HE Hb) in L. lia.
Qed.

Definition op_like (a : aes P) (E : bytes) : Prop :=
  forall d room, enc_update P a d room = enc_update P (at_blocks P a0 s E) d room.
(* The state after the data [D]: whole blocks [E] went through the cipher, the rest is in the pad buffer. *)
Definition mac_at (len : nat) (used : bool) (m : amac P) (D : bytes) : Prop :=
  exists E, D = E ++ c_pad P m /\ length E mod 16 = 0 /\ length (c_pad P m) <= 16 /\ op_like (c_op P m) E /\
    c_mac P m = last_block (snd (blocks_of P s E)) /\ c_len P m = len /\ c_used P m = used /\ c_final P m = false.

Lemma last_app (x o : bytes) : length o = 16 -> last_block (x ++ o) = o.
Proof using Type.
  intros L. unfold last_block. rewrite app_length, L. destruct (length x + 16 <? 16) eqn:E; [apply Nat.ltb_lt in E; lia|].
  replace (length x + 16 - 16) with (length x) by lia. by rewrite skipn_app, skipn_all, Nat.sub_diag.
Qed.
Lemma mac_block m E b : length E mod 16 = 0 -> length b = 16 -> op_like (c_op P m) E ->
  exists a, amac_block P m b =
      (Amac P a (c_pad P m) (last_block (snd (blocks_of P s (E ++ b)))) (c_len P m) (c_final P m) (c_used P m), Ok tt) /\
    op_like a (E ++ b) /\ length (E ++ b) mod 16 = 0.
Proof using HP Hfr.
  intros HE Hb Ho. destruct (cbc_block E b HE Hb) as (o & E1 & E2 & E3). unfold amac_block. rewrite Ho, E1.
  rewrite E3, Nat.eqb_refl. cbn [negb]. exists (at_blocks P a0 s (E ++ b)). rewrite E2, last_app by done.
  split; [done|]. split; [by intros d room|]. rewrite app_length. apply mod16_add; [done|by rewrite Hb].
Qed.
Lemma mac_loop fuel : forall m E d, length d <= fuel -> length E mod 16 = 0 -> op_like (c_op P m) E ->
  c_mac P m = last_block (snd (blocks_of P s E)) ->
  exists a E' d', amac_loop P fuel m d =
      (Amac P a (c_pad P m) (last_block (snd (blocks_of P s E'))) (c_len P m) (c_final P m) (c_used P m), Ok d') /\
    op_like a E' /\ E ++ d = E' ++ d' /\ length E' mod 16 = 0 /\ length d' <= 16.
Proof using HP Hfr.
  induction fuel as [|fuel IH]; intros m E d Hd HE Ho Hm.
  - exists (c_op P m), E, d. cbn [amac_loop]. rewrite <- Hm. destruct m. split; [done|]. split_and!; try done. lia.
  - cbn [amac_loop]. destruct (16 <? length d) eqn:E16.
    + apply Nat.ltb_lt in E16. assert (Lf : length (firstn 16 d) = 16) by (rewrite firstn_length; lia).
      destruct (mac_block m E (firstn 16 d) HE Lf Ho) as (a & Eb & Ho' & HE'). rewrite Eb.
      destruct (IH (Amac P a (c_pad P m) (last_block (snd (blocks_of P s (E ++ firstn 16 d)))) (c_len P m) (c_final P m) (c_used P m))
                  (E ++ firstn 16 d) (skipn 16 d)) as (a' & E' & d' & El & R1 & R2 & R3 & R4); [rewrite skipn_length; lia|done|done|done|].
      exists a', E', d'. rewrite El. cbn [c_pad c_len c_final c_used]. split; [done|]. split; [done|]. split; [|done].
      rewrite <- R2, <- app_assoc, firstn_skipn. done.
    + apply Nat.ltb_ge in E16. exists (c_op P m), E, d. rewrite <- Hm. destruct m. split; [done|]. split_and!; try done.
Qed.
Lemma mac_step len u m D p : mac_at len u m D ->
  exists m', amac_update P m p = (m', Ok tt) /\ mac_at len true m' (D ++ p).
Proof using HP Hfr.
  intros (E & HD & HE & Hp & Ho & Hm & Hl & Hu & Hf). unfold amac_update. rewrite Hf. cbv zeta. cbn [c_pad c_op c_mac c_len c_final c_used].
  destruct (length (c_pad P m) + length p <? 16) eqn:E16.
  - apply Nat.ltb_lt in E16. eexists. split; [reflexivity|]. exists E. cbn [c_pad c_op c_mac c_len c_final c_used].
    split_and!; try done; [by rewrite HD, app_assoc|rewrite app_length; lia].
  - apply Nat.ltb_ge in E16. destruct (0 <? length (c_pad P m)) eqn:E0.
    + apply Nat.ltb_lt in E0. set (cur := 16 - length (c_pad P m)).
      assert (Lb : length (c_pad P m ++ firstn cur p) = 16) by (rewrite app_length, firstn_length; lia).
      destruct (mac_block (Amac P (c_op P m) (c_pad P m) (c_mac P m) (c_len P m) false true) E (c_pad P m ++ firstn cur p) HE Lb Ho) as (a & Eb & Ho' & HE').
      rewrite Eb. cbv iota beta. cbn [c_pad c_op c_mac c_len c_final c_used].
      match goal with |- context [amac_loop P ?k ?m1 _] => destruct (mac_loop k m1 (E ++ c_pad P m ++ firstn cur p) (skipn cur p)) as (a' & E' & d' & El & R1 & R2 & R3 & R4) end;
        [done|done|done|done|].
      rewrite El. eexists. split; [reflexivity|]. exists E'. cbn [c_pad c_op c_mac c_len c_final c_used].
      split_and!; try done. rewrite <- R2, HD. rewrite <- !app_assoc, firstn_skipn. done.
    + apply Nat.ltb_ge in E0. assert (Hn : c_pad P m = []) by (apply length_zero_iff_nil; lia).
      match goal with |- context [amac_loop P ?k ?m1 _] => destruct (mac_loop k m1 E p) as (a' & E' & d' & El & R1 & R2 & R3 & R4) end;
        [done|done|done|done|].
      rewrite El. eexists. split; [reflexivity|]. exists E'. cbn [c_pad c_op c_mac c_len c_final c_used].
      split_and!; try done. by rewrite <- R2, HD, Hn, app_nil_r.
Qed.
Lemma pad_split (E p : bytes) : length E mod 16 = 0 -> 0 < length p <= 16 ->
  zero_padded (E ++ p) = E ++ (p ++ repeat 0%N (16 - length p)).
Proof using Type.
  intros HE Hp. unfold zero_padded. rewrite app_length, <- (Nat.add_mod_idemp_l (length E)), HE by lia. cbn [Nat.add].
  rewrite <- app_assoc. do 3 f_equal. destruct (decide (length p = 16)) as [X|X].
  - by rewrite X.
  - rewrite (Nat.mod_small (length p)) by lia. rewrite Nat.mod_small by lia. done.
Qed.
Lemma mac_end len m D : mac_at len true m D -> snd (amac_final P m len) = Ok (firstn len (cbc_mac_of P s D)).
Proof using HP Hfr.
  intros (E & HD & HE & Hp & Ho & Hm & Hl & Hu & Hf). unfold amac_final. rewrite Hu, Hf, Hl. cbn [negb c_len]. rewrite Nat.eqb_refl. cbn [negb c_pad].
  unfold cbc_mac_of. destruct (0 <? length (c_pad P m)) eqn:E0.
  - apply Nat.ltb_lt in E0.
    assert (Lb : length (c_pad P m ++ repeat 0%N (16 - length (c_pad P m))) = 16) by (rewrite app_length, repeat_length; lia).
    destruct (mac_block (Amac P (c_op P m) (c_pad P m) (c_mac P m) len true true) E _ HE Lb Ho) as (a & Eb & _). rewrite Eb.
    cbn [c_mac snd]. rewrite HD, pad_split by (done || lia). done.
  - apply Nat.ltb_ge in E0. assert (Hn : c_pad P m = []) by (apply length_zero_iff_nil; lia). cbn [c_mac snd].
    rewrite HD, Hn, app_nil_r, Hm. unfold zero_padded. rewrite HE. change ((16 - 0) mod 16) with 0. cbn [repeat]. by rewrite app_nil_r.
Qed.
Lemma mac_first len : mac_at len false (Amac P a0 [] (repeat 0%N 16) len false false) [].
Proof using Hfr.
  exists []. cbn [c_pad c_op c_mac c_len c_final c_used]. split_and!; try done; [cbn [length]; lia|].
  intros d room. pose proof (first_use P MCbc true s a0 d room Hfr eq_refl) as X. unfold op_update in X. rewrite X.
  by rewrite <- (use_at_blocks P a0 MCbc true s Hfr).
Qed.
Lemma mac_pieces len l : forall u m D, mac_at len u m D -> u = true \/ l <> [] ->
  pieces (amac_update P) (amac_final P) m l len = Ok (firstn len (cbc_mac_of P s (D ++ concat l))) /\
  mac_at len true (fed (amac_update P) m l) (D ++ concat l).
Proof using HP Hfr.
  induction l as [|p l IH]; intros u m D Hm Hu.
  - destruct Hu as [->|X]; [|done]. cbn [concat fed]. rewrite app_nil_r. split; [by apply mac_end|done].
  - destruct (mac_step len u m D p Hm) as (m' & Em & Hm'). cbn [concat fed]. rewrite app_assoc.
    destruct (IH true m' (D ++ p) Hm' (or_introl eq_refl)) as [I1 I2]. rewrite Em. cbn [fst]. split; [|done].
    rewrite <- I1. unfold pieces. cbv fix. by rewrite Em.
Qed.
End AesMac.

(* C34, AES-MAC: for every cipher, MAC length and chunking, the result is the leading part of the last CBC block of the
   zero padded data, also for C_Sign, and exactly that signature verifies.  (Without any update C_SignFinal answers
   CKR_OPERATION_NOT_INITIALIZED, unlike for HMAC and CMAC.) *)
Theorem C34_aes_mac P : prim_ok P -> forall s, pr_start P MCbc true (repeat 0%N 16) [] 0 0 = Some s -> forall len,
  exists m, amac_new P len = Some m /\
  (forall l, l <> [] -> pieces (amac_update P) (amac_final P) m l len = Ok (firstn len (cbc_mac_of P s (concat l)))) /\
  (forall d, snd (amac_once P m d len) = Ok (firstn len (cbc_mac_of P s d))) /\
  (forall l sig, l <> [] -> (verified (amac_final P) len (fed (amac_update P) m l) sig = Ok tt <->
                             sig = firstn len (cbc_mac_of P s (concat l)))) /\
  snd (amac_final P m len) = Err CKR_OPERATION_NOT_INITIALIZED.
Proof.
  intros HP s Hs len. unfold amac_new. destruct (aes_new P MCbc true (repeat 0%N 16) [] 0 0 0) as [a|] eqn:Ea.
  2:{ unfold aes_new in Ea. by rewrite Hs in Ea. }
  destruct (new_fresh P _ _ _ _ _ _ _ _ Ea) as (s' & Hs' & Hfr & _). rewrite Hs in Hs'. injection Hs' as <-.
  eexists. split; [reflexivity|]. pose proof (mac_first P a s Hfr len) as H0. split; [|split; [|split]].
  - intros l Hl. by apply (mac_pieces P HP a s Hfr len l false _ [] H0 (or_intror Hl)).
  - intros d. destruct (mac_step P HP a s Hfr len false _ [] d H0) as (m' & Em & Hm'). unfold amac_once. cbn [c_used].
    rewrite Em. by apply (mac_end P HP a s Hfr len m' d).
  - intros l sig Hl. destruct (mac_pieces P HP a s Hfr len l false _ [] H0 (or_intror Hl)) as [_ Hm].
    unfold verified. rewrite (mac_end P HP a s Hfr len _ _ Hm). cbn [app].
    unfold bytes_eqb. case_bool_decide as X; split; congruence.
  - done.
Qed.

(* Concrete cases: a checksum as the hash. *)
Definition toy_hash : hash := {|
  h_st := N; h_init := 7%N; h_upd := fun s d => fold_left (fun s b => (s * 31 + b + 1) mod 65521)%N d s;
  h_fin := fun s => repeat (s mod 256)%N 16; h_size := 16; h_block := 64 |}.
Lemma toy_hash_ok : hash_ok toy_hash.
Proof. split; [|split; [|split]]; [intros s a b; symmetry; apply fold_left_app|done|done|]. cbn [toy_hash h_size h_block]. lia. Qed.
Example hmac_case : exists m, hmac_new toy_hash (counted 70) 12 = Ok m /\
  pieces (hmac_update toy_hash) (hmac_final toy_hash) m [counted 5; []; counted 9] 12 =
  snd (hmac_once toy_hash m (counted 5 ++ counted 9) 12).
Proof. eexists. split; [vm_compute; reflexivity|]. vm_compute. reflexivity. Qed.
Example aes_mac_case : exists m o, amac_new toy_prim 8 = Some m /\
  pieces (amac_update toy_prim) (amac_final toy_prim) m (cut [16; 0; 3; 30] (counted 60)) 8 = Ok o /\
  snd (amac_once toy_prim m (counted 60) 8) = Ok o /\ o <> repeat 0%N 8.
Proof.
  do 2 eexists. split; [vm_compute; reflexivity|]. split; [vm_compute; reflexivity|]. split; [vm_compute; reflexivity|].
  vm_compute. discriminate.
Qed.
