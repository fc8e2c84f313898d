(* C34 for the AES ciphers: feeding data in pieces gives what feeding it at once gives. *)
From Verif Require Export ChunkFacts.
From Coq Require Import Arith.
Local Open Scope nat_scope.
Global Instance amode_dec : EqDecision amode.
Proof. solve_decision. Defined.

(* A cipher to try the theorems on: a block is combined with the previous ciphertext block, a byte with a running key
   byte, the tag is a checksum of the ciphertext. *)
Lemma mod16_add a b : a mod 16 = 0 -> b mod 16 = 0 -> (a + b) mod 16 = 0.
Proof. intros Ha Hb. by rewrite Nat.add_mod, Ha, Hb. Qed.
Record toy_st := ToySt { ty_enc : bool; ty_prev : bytes; ty_key : N; ty_ct : N }.
Fixpoint mix (n : nat) (a b : bytes) : bytes :=
  match n with
  | O => []
  | S k => N.lxor (List.hd 0%N a) (List.hd 0%N b + 1) :: mix k (List.tl a) (List.tl b)
  end.
Definition toy_prim : prim := {|
  pr_st := toy_st;
  pr_start := fun _ enc iv _ _ _ => Some (ToySt enc iv 3 1);
  pr_block := fun s b =>
    let o := mix 16 b (ty_prev s) in
    (ToySt (ty_enc s) (if ty_enc s then o else b) (ty_key s) (ty_ct s), o);
  pr_byte := fun s b =>
    let o := N.lxor b (ty_key s) in
    let c := if ty_enc s then o else b in
    (ToySt (ty_enc s) (ty_prev s) ((ty_key s * 7 + 1) mod 256)%N ((ty_ct s * 5 + c) mod 256)%N, o);
  pr_shot := fun s d => Some (s, rev d);
  pr_tag := fun s => repeat (ty_ct s) 16 |}.
Lemma mix_len n : forall a b, length (mix n a b) = n.
Proof. induction n as [|n IH]; intros; [done|]. cbn [mix length]. by rewrite IH. Qed.
Lemma mix_mix n : forall a b, length a = n -> mix n (mix n a b) b = a.
Proof.
  induction n as [|n IH]; intros a b Ha; [by destruct a|]. destruct a as [|x a]; [done|].
  cbn [mix List.hd List.tl]. rewrite N.lxor_assoc, N.lxor_nilpotent, N.lxor_0_r. f_equal. apply IH. by injection Ha.
Qed.
Lemma toy_prim_ok : prim_ok toy_prim.
Proof. intros s b. cbn [toy_prim pr_block snd]. apply mix_len. Qed.
Lemma toy_undoes : forall prev k c, undoes toy_prim (ToySt true prev k c) (ToySt false prev k c).
Proof.
  cofix IH. intros prev k c. constructor.
  - intros b Hb. cbn [toy_prim pr_block fst snd ty_enc ty_prev ty_key ty_ct]. split; [apply IH|by apply mix_mix].
  - intros b. cbn [toy_prim pr_byte fst snd ty_enc ty_prev ty_key ty_ct]. split; [apply IH|].
    by rewrite N.lxor_assoc, N.lxor_nilpotent, N.lxor_0_r.
  - done.
Qed.

Section Thm.
Variable P : prim.
Hypothesis HP : prim_ok P.

Lemma first_use m enc s a d room : fresh P a m enc s -> in_pieces m = true ->
  op_update P enc a d room = op_update P enc (a_use P a) d room.
Proof using Type.
  intros (Hm & Hf & Hb & Hx) Hi. unfold op_update. destruct enc.
  - unfold enc_update. cbn [a_final a_use]. by destruct (a_final P a).
  - unfold dec_update, dec_check. cbn [a_final a_use a_mode]. rewrite Hm. destruct (a_final P a); [done|].
    destruct m; try discriminate Hi; done.
Qed.
Lemma pieces_first m enc s a l last : fresh P a m enc s -> in_pieces m = true -> l <> [] ->
  op_pieces P enc a l last = op_pieces P enc (a_use P a) l last.
Proof using Type.
  intros Hf Hi. destruct l as [|[p n] l]; [done|]. intros _. cbn [op_pieces]. by rewrite (first_use m enc s).
Qed.

(* One shot is one piece, finished with the room that is left. *)
Lemma single_pieces m enc s a d room at_ out :
  fresh P a m enc s -> in_pieces m = true -> at_ [] = a_use P a ->
  (snd (op_update P enc (at_ []) d room) = Err CKR_BUFFER_TOO_SMALL \/
   exists o, op_update P enc (at_ []) d room = (at_ ([] ++ d), Ok o) /\ out ([] ++ d) = out [] ++ o /\ length o <= room) ->
  snd (op_single P enc a d room) <> Err CKR_BUFFER_TOO_SMALL ->
  exists o, out d = out [] ++ o /\ length o <= room /\
    op_update P enc (at_ []) d room = (at_ d, Ok o) /\
    snd (op_single P enc a d room) = joined o (snd (op_final P enc (at_ d) (room - length o))).
Proof using Type.
  intros Hfr Hi H0 Hs Hn. pose proof Hfr as (Hm & Hf & _).
  pose proof (first_use m enc s a d room Hfr Hi) as Hu. rewrite <- H0 in Hu.
  assert (X : op_single P enc a d room =
    match op_update P enc a d room with
    | (a, Err e) => (a, Err e)
    | (a, Ok o) =>
      if room <? length o then fatal P a CKR_GENERAL_ERROR else
      match op_final P enc a (room - length o) with
      | (a, Err e) => (a, Err e)
      | (a, Ok o2) => (a, Ok (o ++ o2))
      end
    end).
  { unfold op_single, op_update, op_final. destruct enc; [unfold enc_single|unfold dec_single]; by rewrite Hf. }
  rewrite X, Hu in Hn. rewrite X, Hu.
  destruct Hs as [E|(o & E & Eo & El)].
  - destruct (op_update P enc (at_ []) d room) as [a' r]. cbn [snd] in E. by subst r.
  - cbn [app] in E, Eo. rewrite E in Hn |- *. cbv beta iota in Hn |- *.
    destruct (room <? length o) eqn:E2; [apply Nat.ltb_lt in E2; lia|].
    exists o. repeat split; try done.
    destruct (op_final P enc (at_ d) (room - length o)) as [a2 [o2|e2]]; done.
Qed.

Lemma use_at_blocks a m enc s : fresh P a m enc s -> at_blocks P a s [] = a_use P a.
Proof using Type.
  intros (Hm & Hf & Hb & Hx). unfold at_blocks, a_set, a_use, x_with, blocks_of. rewrite Hx, Hb. reflexivity.
Qed.
Lemma use_at_bytes a m enc s : fresh P a m enc s -> at_bytes P a s [] = a_use P a.
Proof using Type.
  intros (Hm & Hf & Hb & Hx). unfold at_bytes, a_set, a_use, x_with. rewrite Hx, Hb. reflexivity.
Qed.
Lemma use_at_gcm a m enc s : fresh P a m enc s -> at_gcm P a s [] = a_use P a.
Proof using Type.
  intros (Hm & Hf & Hb & Hx). unfold at_gcm, a_set, a_use, x_with. rewrite Hx, Hb. reflexivity.
Qed.
Lemma use_at_pad a m enc s : fresh P a m enc s -> at_pad P a s [] = a_use P a.
Proof using Type.
  intros (Hm & Hf & Hb & Hx). unfold at_pad, a_set, a_use, x_with. rewrite Hx, Hb. reflexivity.
Qed.

(* All modes at once: the state after the data, the output by then, and which pieces are allowed. *)
Definition allowed (enc : bool) (m : amode) (taglen : nat) (D p : bytes) : Prop :=
  (m = MCbcPad /\ enc = false -> length D mod 16 = 0 /\ length p mod 16 = 0) /\
  (m = MGcm /\ enc = false -> D = [] \/ length p <= taglen).
Definition enough (enc : bool) (m : amode) (D : bytes) (last : nat) : Prop :=
  m = MCbcPad /\ enc = false -> length D mod 16 = 0 /\ (16 <= last \/ D = []).

Lemma mode_run m enc s a :
  in_pieces m = true -> fresh P a m enc s -> a_max P a = 0%N -> 0 < a_taglen P a \/ m <> MGcm ->
  exists at_ out, at_ [] = a_use P a /\ out [] = [] /\
  (forall D p room, allowed enc m (a_taglen P a) D p ->
     snd (op_update P enc (at_ D) p room) = Err CKR_BUFFER_TOO_SMALL \/
     exists o, op_update P enc (at_ D) p room = (at_ (D ++ p), Ok o) /\ out (D ++ p) = out D ++ o /\ length o <= room) /\
  (forall D last, enough enc m D last -> snd (op_final P enc (at_ D) last) <> Err CKR_BUFFER_TOO_SMALL ->
     joined (out D) (snd (op_final P enc (at_ D) last)) = whole P enc m s (a_taglen P a) D) /\
  (m = MCbcPad -> enc = false -> forall D, out D = pad_out P s D).
Proof using HP.
  intros Hi Hf Hmax Ht.
  destruct (decide (m = MCbcPad /\ enc = false)) as [[-> ->]|Hnp].
  { exists (at_pad P a s), (pad_out P s).
    split; [by apply use_at_pad with MCbcPad false|]. split; [done|]. split.
    - intros D p room [HA _]. destruct HA as [HA1 HA2]; [done|]. by apply at_pad_step.
    - split; [|done]. intros D last He _. destruct He as [He1 He2]; [done|]. by apply final_pad_dec. }
  destruct (decide (m = MGcm /\ enc = false)) as [[-> ->]|Hng].
  { exists (at_gcm P a s), (gcm_out P (a_taglen P a) s).
    split; [by apply use_at_gcm with MGcm false|]. split; [done|]. split; [|split; [|done]].
    - intros D p room [_ HA]. apply at_gcm_step; [done|by destruct Ht|by apply HA].
    - intros D last _ _. by apply final_gcm_dec. }
  destruct (blocky m) eqn:Eb.
  { exists (at_blocks P a s), (fun D => snd (blocks_of P s D)).
    split; [by apply use_at_blocks with m enc|]. split; [done|]. split; [|split; [|by intros -> ->; destruct Hnp]].
    - intros D p room _. apply at_blocks_step with m; [done|done|done|]. intros ->. destruct enc; [done|by destruct Hnp].
    - intros D last _ Hn. destruct m; try discriminate Eb.
      + apply final_plain; [done|by right].
      + destruct enc; [by apply final_pad_enc|by destruct Hnp].
      + apply final_plain; [done|by left]. }
  exists (at_bytes P a s), (fun D => snd (run_bytes P s D)).
  assert (Es : streamy m = true) by (by destruct m).
  split; [by apply use_at_bytes with m enc|]. split; [done|]. split; [|split; [|by intros -> ->; destruct Hnp]].
  - intros D p room _. apply at_bytes_step with m; try done. intros ->. destruct enc; [done|by destruct Hng].
  - intros D last _ Hn. destruct m; try discriminate Es.
    + destruct enc; [by apply final_gcm_enc|by destruct Hng].
    + apply final_stream; [done|by left].
    + apply final_stream; [done|by right].
Qed.

Lemma pieces_whole m enc iv aad tl a s l last :
  in_pieces m = true -> aes_new P m enc iv aad 0 0 tl = Some a -> pr_start P m enc iv aad tl 0 = Some s -> 0 < tl \/ m <> MGcm ->
  l <> [] ->
  (forall l1 p n l2, l = l1 ++ (p, n) :: l2 -> allowed enc m tl (concat (map fst l1)) p) ->
  enough enc m (concat (map fst l)) last ->
  op_pieces P enc a l last <> Err CKR_BUFFER_TOO_SMALL ->
  op_pieces P enc a l last = whole P enc m s tl (concat (map fst l)).
Proof using HP.
  intros Hi Ha Hs Ht Hl Hal Hen Hn.
  destruct (new_fresh P _ _ _ _ _ _ _ _ Ha) as (s' & Hs' & Hf & Hmax & Htl & _). rewrite Hs in Hs'. injection Hs' as <-.
  rewrite <- Htl in *.
  destruct (mode_run m enc s a Hi Hf Hmax Ht) as (at_ & out & H0 & O0 & Hstep & Hfin & _).
  rewrite (pieces_first m enc s) in Hn |- * by done. rewrite <- H0 in Hn |- *.
  destruct (pieces_run P enc at_ out (allowed enc m (a_taglen P a)) Hstep l [] last) as (o & Eo & E); [done|done|].
  cbn [app] in Eo, E. rewrite O0 in Eo. cbn [app] in Eo. rewrite <- Eo in E.
  rewrite E. rewrite E in Hn. apply Hfin; [done|].
  intros X. rewrite X in Hn. done.
Qed.
Lemma single_whole m enc iv aad tl a s d room :
  in_pieces m = true -> aes_new P m enc iv aad 0 0 tl = Some a -> pr_start P m enc iv aad tl 0 = Some s -> 0 < tl \/ m <> MGcm ->
  (m = MCbcPad /\ enc = false -> length d mod 16 = 0) ->
  snd (op_single P enc a d room) <> Err CKR_BUFFER_TOO_SMALL ->
  snd (op_single P enc a d room) = whole P enc m s tl d.
Proof using HP.
  intros Hi Ha Hs Ht Hal Hn.
  destruct (new_fresh P _ _ _ _ _ _ _ _ Ha) as (s' & Hs' & Hf & Hmax & Htl & _). rewrite Hs in Hs'. injection Hs' as <-.
  rewrite <- Htl in *.
  destruct (mode_run m enc s a Hi Hf Hmax Ht) as (at_ & out & H0 & O0 & Hstep & Hfin & Hpo).
  destruct (single_pieces m enc s a d room at_ out Hf Hi H0) as (o & Eo & El & Eu & E); [|done|].
  { apply Hstep. split; [intros X; split; [done|by apply Hal]|by left]. }
  rewrite O0 in Eo. cbn [app] in Eo. rewrite <- Eo in E, El. rewrite E. rewrite <- Eo in *. apply Hfin.
  - intros X. split; [by apply Hal|]. destruct X as [-> ->].
    rewrite (Hpo eq_refl eq_refl) in *. unfold pad_out in *.
    rewrite run_blocks_len in * by done.
    destruct (decide (d = [])) as [->|Hd]; [by right|left].
    pose proof (mod16 (length d)) as [M1 _]. rewrite (Hal (conj eq_refl eq_refl)) in M1.
    assert (length d <> 0) by (intros X; apply Hd; by apply length_zero_iff_nil in X).
    (* the update succeeded, so the room is that of the whole data *)
    assert (Hroom : length d <= room).
    { rewrite H0 in Eu. destruct Hf as (Hm & Hfi & Hb & Hx). unfold op_update, dec_update, dec_check in Eu.
      cbn [a_final a_use a_mode] in Eu. rewrite Hfi, Hm in Eu. cbv iota in Eu. unfold dec_need in Eu.
      cbn [a_use a_mode a_buf] in Eu. rewrite Hm, Hb in Eu. cbv iota zeta in Eu. cbn [length Nat.add] in Eu.
      destruct (room <? length d / 16 * 16) eqn:E3; [done|]. apply Nat.ltb_ge in E3. lia. }
    lia.
  - intros X. rewrite E, X in Hn. done.
Qed.
End Thm.

(* C34, encryption.  For ECB, CBC, padded CBC, CTR with a 128 bit counter, CFB, OFB and GCM: however the data is cut
   into pieces and whatever room each call is given, if no call reports CKR_BUFFER_TOO_SMALL then the outputs together
   are the encryption of the whole data, and so is the output of C_Encrypt.  (Partial: CCM, CTS, key wrapping and CTR
   with a shorter counter are left out; see the refutations below for the last.) *)
Theorem C34_encrypt_partial P : prim_ok P ->
  forall m iv aad tl a s, in_pieces m = true -> (m = MGcm -> 0 < tl) ->
  aes_new P m true iv aad 0 0 tl = Some a -> pr_start P m true iv aad tl 0 = Some s ->
  (forall l last, l <> [] -> op_pieces P true a l last <> Err CKR_BUFFER_TOO_SMALL ->
     op_pieces P true a l last = whole P true m s tl (concat (map fst l))) /\
  (forall d room, snd (op_single P true a d room) <> Err CKR_BUFFER_TOO_SMALL ->
     snd (op_single P true a d room) = whole P true m s tl d).
Proof.
  intros HP m iv aad tl a s Hi Ht Ha Hs.
  assert (Ht' : 0 < tl \/ m <> MGcm) by (destruct (decide (m = MGcm)); [left; by apply Ht|by right]).
  split.
  - intros l last Hl Hn. eapply pieces_whole; try done.
    + intros l1 p n l2 _. split; by intros [_ X].
    + by intros [_ X].
  - intros d room Hn. eapply single_whole; try done. by intros [_ X].
Qed.

(* C34, decryption.  The same, with the pieces of padded CBC whole blocks (and room for a block in the last call), and
   the pieces of GCM after the first no longer than the tag.  Both conditions are needed, see below. *)
Theorem C34_decrypt_partial P : prim_ok P ->
  forall m iv aad tl a s, in_pieces m = true -> (m = MGcm -> 0 < tl) ->
  aes_new P m false iv aad 0 0 tl = Some a -> pr_start P m false iv aad tl 0 = Some s ->
  (forall l last, l <> [] ->
     (m = MCbcPad -> 16 <= last /\ Forall (fun x => length (fst x) mod 16 = 0) l) ->
     (m = MGcm -> Forall (fun x => length (fst x) <= tl) (tail l)) ->
     op_pieces P false a l last <> Err CKR_BUFFER_TOO_SMALL ->
     op_pieces P false a l last = whole P false m s tl (concat (map fst l))) /\
  (forall d room, (m = MCbcPad -> length d mod 16 = 0) ->
     snd (op_single P false a d room) <> Err CKR_BUFFER_TOO_SMALL ->
     snd (op_single P false a d room) = whole P false m s tl d).
Proof.
  intros HP m iv aad tl a s Hi Ht Ha Hs.
  assert (Ht' : 0 < tl \/ m <> MGcm) by (destruct (decide (m = MGcm)); [left; by apply Ht|by right]).
  assert (Hsum : forall l : list (bytes * nat), Forall (fun x => length (fst x) mod 16 = 0) l ->
     length (concat (map fst l)) mod 16 = 0).
  { intros l. induction 1 as [|x l Hx _ IH]; [done|]. cbn [map concat]. rewrite app_length. cbv beta in Hx.
    exact (mod16_add _ _ Hx IH). }
  split.
  - intros l last Hl Hpad Hgcm Hn. eapply pieces_whole; try done.
    + intros l1 p n l2 ->. split.
      * intros [-> _]. destruct (Hpad eq_refl) as [_ F]. apply List.Forall_app in F as [F1 F2].
        apply List.Forall_cons_iff in F2 as [F2 _]. split; [by apply Hsum|done].
      * intros [-> _]. specialize (Hgcm eq_refl). destruct l1 as [|y l1]; [by left|right]. cbn [tail app] in Hgcm.
        apply List.Forall_app in Hgcm as [_ F]. by apply List.Forall_cons_iff in F as [F _].
    + intros [-> _]. destruct (Hpad eq_refl) as [L F]. split; [by apply Hsum|by left].
  - intros d room Hpad Hn. eapply single_whole; try done. intros [X _]. by apply Hpad.
Qed.

(* Decrypting gives back what was encrypted, if the cipher undoes itself. *)
Lemma undo_blocks P : prim_ok P -> forall n s s' d, undoes P s s' -> length d = 16 * n ->
  snd (run_blocks P n s' (snd (run_blocks P n s d))) = d /\
  undoes P (fst (run_blocks P n s d)) (fst (run_blocks P n s' (snd (run_blocks P n s d)))).
Proof.
  intros HP. induction n as [|n IH]; intros s s' d Hu Hd.
  - destruct d; [done|cbn [length] in Hd; lia].
  - cbn [run_blocks]. pose proof (HP s (firstn 16 d)) as Hl.
    destruct (un_block _ _ _ Hu (firstn 16 d)) as [U1 U2]; [rewrite firstn_length; lia|].
    destruct (pr_block P s (firstn 16 d)) as [s1 o] eqn:E1. cbn [fst snd] in *.
    destruct (run_blocks P n s1 (skipn 16 d)) as [s2 os] eqn:E2. cbn [fst snd].
    rewrite firstn_app, firstn_all2, Hl by lia. rewrite skipn_app, skipn_all2, Hl by lia. rewrite Nat.sub_diag.
    cbn [firstn skipn app]. rewrite app_nil_r.
    destruct (pr_block P s' o) as [s1' b] eqn:E3. cbn [fst snd] in *. subst b.
    destruct (IH s1 s1' (skipn 16 d) U1) as [I1 I2]; [rewrite skipn_length; lia|]. rewrite E2 in I1, I2. cbn [fst snd] in *.
    destruct (run_blocks P n s1' os) as [s2' d2] eqn:E4. cbn [fst snd] in *. subst d2.
    change (skipn 0 os) with os. rewrite E4. cbn [fst snd]. split; [apply firstn_skipn|done].
Qed.
Lemma undo_bytes P : forall d s s', undoes P s s' ->
  snd (run_bytes P s' (snd (run_bytes P s d))) = d /\
  undoes P (fst (run_bytes P s d)) (fst (run_bytes P s' (snd (run_bytes P s d)))).
Proof.
  intros d. induction d as [|b d IH]; intros s s' Hu; [done|]. cbn [run_bytes].
  destruct (un_byte _ _ _ Hu b) as [U1 U2]. destruct (pr_byte P s b) as [s1 o]. cbn [fst snd] in *.
  specialize (IH s1 (fst (pr_byte P s' o)) U1). destruct (run_bytes P s1 d) as [s2 os]. cbn [fst snd] in *. cbn [run_bytes].
  destruct (pr_byte P s' o) as [s1' b']. cbn [fst snd] in *. subst b'. destruct IH as [I1 I2].
  destruct (run_bytes P s1' os) as [s2' d2]. cbn [fst snd] in *. by subst d2.
Qed.
Lemma unpad_pad (d : bytes) : unpad (d ++ pad_of d) = Some d.
Proof.
  unfold unpad, pad_of. pose proof (mod16 (length d)) as [_ M]. set (k := 16 - length d mod 16). cbv zeta.
  assert (Hk : 1 <= k <= 16) by lia.
  assert (Hl : List.last (d ++ repeat (N.of_nat k) k) 0%N = N.of_nat k).
  { generalize (N.of_nat k). intros x. destruct k as [|k']; [lia|]. change (repeat x (S k')) with (x :: repeat x k').
    rewrite repeat_cons, app_assoc, last_last. done. }
  rewrite Hl, Nat2N.id, app_length, repeat_length.
  replace (length d + k - k) with (length d) by lia. rewrite skipn_app, skipn_all, Nat.sub_diag. cbn [skipn app].
  rewrite firstn_app, firstn_all, Nat.sub_diag. cbn [firstn]. rewrite app_nil_r.
  destruct (1 <=? k) eqn:E1; [|apply Nat.leb_gt in E1; lia]. destruct (k <=? 16) eqn:E2; [|apply Nat.leb_gt in E2; lia].
  destruct (k <=? length d + k) eqn:E3; [|apply Nat.leb_gt in E3; lia]. cbn [andb].
  unfold bytes_eqb. by rewrite bool_decide_true.
Qed.

Lemma ok_inj A (x y : A) : Ok x = Ok y -> x = y.
Proof. congruence. Qed.
Theorem C34_round_trip_partial P : prim_ok P ->
  forall m s s' tl D C, in_pieces m = true -> undoes P s s' -> tl <= 16 ->
  whole P true m s tl D = Ok C -> whole P false m s' tl C = Ok D.
Proof.
  intros HP m s s' tl D C Hi Hu Ht. unfold whole, blocks_of. destruct m; try discriminate Hi.
  - destruct (undo_bytes P D s s' Hu) as [I1 I2]. pose proof (run_bytes_len P D s) as L.
    destruct (run_bytes P s D) as [s1 o] eqn:E. cbn [fst snd] in *. intros H. apply ok_inj in H as <-.
    destruct (un_tag _ _ _ I2) as [T1 T2].
    assert (Lt : length (firstn tl (pr_tag P s1)) = tl) by (rewrite firstn_length; lia).
    rewrite app_length, Lt. destruct (length o + tl <? tl) eqn:E2; [apply Nat.ltb_lt in E2; lia|].
    replace (length o + tl - tl) with (length o) by lia.
    rewrite firstn_app, firstn_all, Nat.sub_diag, skipn_app, skipn_all, Nat.sub_diag. cbn [firstn skipn app]. rewrite app_nil_r.
    destruct (run_bytes P s' o) as [s1' d'] eqn:E3. cbn [fst snd] in *. subst d'. rewrite T1.
    unfold bytes_eqb. by rewrite bool_decide_true.
  - intros H. apply ok_inj in H as <-. by destruct (undo_bytes P D s s' Hu) as [-> _].
  - pose proof (mod16 (length D)) as [M1 M2]. destruct (length D mod 16 =? 0) eqn:E; [|done]. apply Nat.eqb_eq in E.
    intros H. apply ok_inj in H as <-. rewrite run_blocks_len by done. rewrite Nat.mul_comm, Nat.mod_mul, Nat.div_mul by lia.
    change (0 =? 0) with true. cbv iota.
    destruct (undo_blocks P HP (length D / 16) s s' D Hu) as [I _]; [lia|exact (f_equal Ok I)].
  - intros H. apply ok_inj in H as <-. rewrite run_blocks_len by done.
    assert (Hq : length (D ++ pad_of D) / 16 = length D / 16 + 1).
    { rewrite pad_len. replace (16 * (length D / 16) + 16) with ((length D / 16 + 1) * 16) by lia. apply Nat.div_mul. lia. }
    assert (Hq2 : (16 * (length (D ++ pad_of D) / 16)) / 16 = length D / 16 + 1).
    { rewrite Hq, Nat.mul_comm. apply Nat.div_mul. lia. }
    rewrite Hq2, Hq.
    destruct (undo_blocks P HP (length D / 16 + 1) s s' (D ++ pad_of D) Hu) as [-> _]; [rewrite pad_len; lia|].
    by rewrite unpad_pad.
  - pose proof (mod16 (length D)) as [M1 M2]. destruct (length D mod 16 =? 0) eqn:E; [|done]. apply Nat.eqb_eq in E.
    intros H. apply ok_inj in H as <-. rewrite run_blocks_len by done. rewrite Nat.mul_comm, Nat.mod_mul, Nat.div_mul by lia.
    change (0 =? 0) with true. cbv iota. destruct (undo_blocks P HP (length D / 16) s s' D Hu) as [I _]; [lia|exact (f_equal Ok I)].
  - intros H. apply ok_inj in H as <-. by destruct (undo_bytes P D s s' Hu) as [-> _].
Qed.

(* Encrypting in pieces, then decrypting the ciphertext cut in other pieces, gives back the data. *)
Theorem C34_pieces_round_trip_partial P : prim_ok P ->
  forall m iv aad tl a a' s s', in_pieces m = true -> (m = MGcm -> 0 < tl) -> tl <= 16 ->
  aes_new P m true iv aad 0 0 tl = Some a -> pr_start P m true iv aad tl 0 = Some s ->
  aes_new P m false iv aad 0 0 tl = Some a' -> pr_start P m false iv aad tl 0 = Some s' -> undoes P s s' ->
  forall l last l' last' c, l <> [] -> l' <> [] ->
  op_pieces P true a l last = Ok c -> concat (map fst l') = c ->
  (m = MCbcPad -> 16 <= last' /\ Forall (fun x => length (fst x) mod 16 = 0) l') ->
  (m = MGcm -> Forall (fun x => length (fst x) <= tl) (tail l')) ->
  op_pieces P false a' l' last' <> Err CKR_BUFFER_TOO_SMALL ->
  op_pieces P false a' l' last' = Ok (concat (map fst l)).
Proof.
  intros HP m iv aad tl a a' s s' Hi Ht Ht2 Ha Hs Ha' Hs' Hu l last l' last' c Hl Hl' Hc Hc' Hp Hg Hn.
  destruct (C34_encrypt_partial P HP m iv aad tl a s Hi Ht Ha Hs) as [He _].
  destruct (C34_decrypt_partial P HP m iv aad tl a' s' Hi Ht Ha' Hs') as [Hd _].
  rewrite Hd by done. rewrite Hc'. apply C34_round_trip_partial with s; try done. rewrite <- (He l last); [done|done|].
  by rewrite Hc.
Qed.

(* Concrete cases. *)
Definition zero_iv : bytes := repeat 0%N 16.
Definition counted (n : nat) : bytes := map N.of_nat (seq 0 n).
(* The toy operation in the given direction. *)
Definition toy_op (m : amode) (enc : bool) (max : N) (tl : nat) : option (aes toy_prim) :=
  aes_new toy_prim m enc zero_iv [] max 0 tl.
Definition toy_pieces (m : amode) (enc : bool) (max : N) (tl : nat) (l : list bytes) (last : nat) : result bytes :=
  match toy_op m enc max tl with
  | Some a => op_pieces toy_prim enc a (map (fun p => (p, 100)) l) last
  | None => Err CKR_GENERAL_ERROR
  end.
Definition toy_once (m : amode) (enc : bool) (max : N) (tl : nat) (d : bytes) : result bytes :=
  match toy_op m enc max tl with
  | Some a => snd (op_single toy_prim enc a d 100)
  | None => Err CKR_GENERAL_ERROR
  end.
(* Cut a list at the given lengths. *)
Fixpoint cut (ns : list nat) (d : bytes) : list bytes :=
  match ns with [] => [d] | n :: ns => firstn n d :: cut ns (skipn n d) end.

Example encrypt_in_pieces :
  forallb (fun m => match toy_pieces m true 0 8 (cut [5; 0; 20; 1] (counted 48)) 100, toy_once m true 0 8 (counted 48) with
                    | Ok x, Ok y => bytes_eqb x y | _, _ => false end)
    [MEcb; MCbc; MCbcPad; MCtr; MStream; MGcm] = true.
Proof. vm_compute. reflexivity. Qed.
Example decrypt_in_pieces :
  forallb (fun m => match toy_once m true 0 8 (counted 48) with
     | Ok c => match toy_pieces m false 0 8 (cut [16; 0] c) 100 with Ok d => bytes_eqb d (counted 48) | _ => false end
     | _ => false end)
    [MEcb; MCbc; MCbcPad; MCtr; MStream] = true /\
  (exists c, toy_once MGcm true 0 8 (counted 30) = Ok c /\
             toy_pieces MGcm false 0 8 (cut [20; 7; 0; 5] c) 100 = Ok (counted 30)).
Proof. split; [vm_compute; reflexivity|]. eexists. split; [vm_compute; reflexivity|]. vm_compute. reflexivity. Qed.

(* A ciphertext that decrypts at once but not in pieces: GCM with a piece, not the first, longer than the tag.
   (src/ossl/aes.rs:1736 skips the data of that piece.) *)
Theorem C34_gcm_refuted : exists c,
  toy_once MGcm true 0 8 (counted 30) = Ok c /\
  toy_once MGcm false 0 8 c = Ok (counted 30) /\
  toy_pieces MGcm false 0 8 (cut [10] c) 100 = Err CKR_ENCRYPTED_DATA_INVALID.
Proof. eexists. split; [vm_compute; reflexivity|]. split; vm_compute; reflexivity. Qed.
(* Padded CBC: with pieces of 5, 11 and 32 bytes OpenSSL returns more than the room it is told of and the call fails
   with CKR_DEVICE_ERROR (src/ossl/aes.rs:1756-1764 expects a whole block out of the completed first block, which OpenSSL holds back). *)
Theorem C34_pad_refuted : exists c,
  toy_once MCbcPad true 0 0 (counted 40) = Ok c /\
  toy_once MCbcPad false 0 0 c = Ok (counted 40) /\
  toy_pieces MCbcPad false 0 0 (cut [5; 11] c) 100 = Err CKR_DEVICE_ERROR.
Proof. eexists. split; [vm_compute; reflexivity|]. split; vm_compute; reflexivity. Qed.
(* CTR with room for four counter values: 40 bytes are encrypted at once, but not in five pieces, because each piece is
   counted as at least a block (src/ossl/aes.rs:1240-1249). *)
Theorem C34_ctr_refuted : exists c,
  toy_once MCtr true 4 0 (counted 40) = Ok c /\
  toy_pieces MCtr true 4 0 (cut [1; 1; 1; 1] (counted 40)) 100 = Err CKR_DATA_LEN_RANGE.
Proof. eexists. split; vm_compute; reflexivity. Qed.
(* Key wrapping: every piece is wrapped on its own, with CKR_OK. *)
Theorem C34_wrap_refuted : exists c c',
  toy_once MKw true 0 0 (counted 32) = Ok c /\
  toy_pieces MKw true 0 0 (cut [16] (counted 32)) 100 = Ok c' /\ c <> c'.
Proof. do 2 eexists. split; [vm_compute; reflexivity|]. split; [vm_compute; reflexivity|]. vm_compute. discriminate. Qed.
