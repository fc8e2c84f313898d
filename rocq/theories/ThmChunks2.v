(* C34 for the modes of AES that take the whole message at once: CCM, which collects the pieces, and CTS, which does not. *)
From Verif Require Import ThmChunks.
From Coq Require Import Arith.
Local Open Scope nat_scope.

(* ---- the specification ---- *)
Section Spec.
Variable P : prim.
(* The whole message through the cipher in one call, with its tag behind it. *)
Definition ccm_whole (enc : bool) (s : pr_st P) (datalen taglen : nat) (D : bytes) : result bytes :=
  if enc then
    match pr_shot P s D with
    | Some (s1, o) => Ok (o ++ firstn taglen (pr_tag P s1))
    | None => Err CKR_DEVICE_ERROR
    end
  else
    match pr_shot P s (firstn datalen D) with
    | Some (s1, o) =>
      if bytes_eqb (skipn datalen D) (firstn taglen (pr_tag P s1)) then Ok o else Err CKR_DEVICE_ERROR
    | None => Err CKR_DEVICE_ERROR
    end.
Definition ccm_len (enc : bool) (datalen taglen : nat) : nat := if enc then datalen else datalen + taglen.
(* One call gives as many bytes as it takes. *)
Definition shot_len : Prop := forall s d s1 o, pr_shot P s d = Some (s1, o) -> length o = length d.
(* The two directions undo each other and come to the same tag. *)
Definition shot_undoes (s s' : pr_st P) : Prop :=
  forall d s1 o, pr_shot P s d = Some (s1, o) ->
  exists s1', pr_shot P s' o = Some (s1', d) /\ pr_tag P s1' = pr_tag P s1 /\ length (pr_tag P s1) = 16.
Definition cts_whole (s : pr_st P) (D : bytes) : result bytes :=
  match pr_shot P s D with Some (_, o) => Ok o | None => Err CKR_DEVICE_ERROR end.
(* The room OpenSSL asks for: whole blocks. *)
Definition cts_room (n : nat) : nat := (n + 15) / 16 * 16.
End Spec.

(* ---- CCM ---- *)
Lemma bytes_eqb_same b : bytes_eqb b b = true.
Proof. unfold bytes_eqb. by rewrite bool_decide_true. Qed.
Ltac fields := cbv [a_use a_set a_count a_mode a_max a_datalen a_taglen a_final a_used a_ctx a_buf a_blocks].
Section Ccm.
Variable P : prim.
Hypothesis HL : shot_len P.
Variables (enc : bool) (dl tl : nat).
Hypothesis Hdl : 0 < dl.
Hypothesis Hbig : (N.of_nat dl <= 1048576)%N.
Variable s : pr_st P.
(* The operation with the data [D] collected. *)
Definition at_ccm (D : bytes) : aes P := Aes P MCcm 0 dl tl false true (Evp P MCcm enc s [] None) D 0.

Lemma not_large (a : aes P) : a_datalen P a = dl -> ccm_large P a = false.
Proof using All. intros H. unfold ccm_large. rewrite H. apply N.ltb_ge. exact Hbig. Qed.

Lemma need_pos : 0 < ccm_len enc dl tl.
Proof using All. unfold ccm_len. destruct enc; lia. Qed.

(* A piece that leaves something to come. *)
Lemma ccm_more D p room : length (D ++ p) < ccm_len enc dl tl ->
  snd (op_update P enc (at_ccm D) p room) = Err CKR_BUFFER_TOO_SMALL \/
  op_update P enc (at_ccm D) p room = (at_ccm (D ++ p), Ok []).
Proof using All.
  rewrite app_length. unfold ccm_len, op_update. destruct enc eqn:Ee; intros H.
  - right. unfold enc_update. unfold at_ccm. rewrite ?Ee. fields. unfold enc_len. fields. unfold enc_check. fields.
    rewrite not_large by done. cbn [andb].
    destruct (dl <? length p + length D) eqn:E1; [apply Nat.ltb_lt in E1; lia|].
    destruct (length p + length D <? dl) eqn:E2; [|apply Nat.ltb_ge in E2; lia].
    change (room <? 0) with false. cbv iota. unfold enc_feed. fields.
    destruct (length p <? dl) eqn:E3; [|apply Nat.ltb_ge in E3; lia].
    rewrite app_length.
    destruct (length D + length p =? dl) eqn:E4; [apply Nat.eqb_eq in E4; lia|]. done.
  - unfold dec_update. unfold at_ccm. rewrite ?Ee. fields. unfold dec_check. fields.
    destruct (dl + tl <? length p + length D) eqn:E1; [apply Nat.ltb_lt in E1; lia|].
    unfold dec_need. fields. rewrite E1.
    rewrite not_large by done. cbn [andb].
    destruct (room <? dl); [by left|right]. unfold dec_feed, feed_ccm. fields.
    destruct (length p <? dl + tl) eqn:E3; [|apply Nat.ltb_ge in E3; lia]. rewrite app_length.
    destruct (length D + length p =? dl + tl) eqn:E4; [apply Nat.eqb_eq in E4; lia|]. done.
Qed.

(* The piece that completes the message: what comes out then and at the end is the whole message. *)
Definition done_with (a : aes P) (o : bytes) (D : bytes) : Prop :=
  a_final P a = false /\ a_used P a = true /\ a_mode P a = MCcm /\ a_buf P a = [] /\ a_datalen P a = dl /\ a_taglen P a = tl /\
  x_mode P (a_ctx P a) = MCcm /\
  Ok (o ++ (if enc then cx_get_tag P (a_ctx P a) tl else [])) = ccm_whole P enc s dl tl D.

Lemma ccm_last D p room : length (D ++ p) = ccm_len enc dl tl -> p <> [] ->
  let r := op_update P enc (at_ccm D) p room in
  snd r = Err CKR_BUFFER_TOO_SMALL \/
  (exists o, snd r = Ok o /\ done_with (fst r) o (D ++ p) /\ length o = dl /\ dl <= room) \/
  (snd r = Err CKR_DEVICE_ERROR /\ ccm_whole P enc s dl tl (D ++ p) = Err CKR_DEVICE_ERROR).
Proof using All.
  rewrite app_length. unfold ccm_len, op_update, done_with. intros H Hp.
  destruct enc eqn:Ee; cbv zeta.
  - unfold enc_update. unfold at_ccm. rewrite ?Ee. fields. unfold enc_len. fields. unfold enc_check. fields.
    rewrite not_large by done. cbn [andb].
    destruct (dl <? length p + length D) eqn:E1; [apply Nat.ltb_lt in E1; lia|].
    destruct (length p + length D <? dl) eqn:E2; [apply Nat.ltb_lt in E2; lia|].
    destruct (room <? dl + tl) eqn:E5; [by left|apply Nat.ltb_ge in E5]. right.
    unfold enc_feed. fields.
    assert (Hx : forall d, cx_update P (Evp P MCcm true s [] None) d room =
      if room <? length d then None else
      match pr_shot P s d with Some (s1, o) => Some (Evp P MCcm true s1 [] None, o) | None => None end) by done.
    destruct (length p <? dl) eqn:E3.
    + rewrite app_length. destruct (length D + length p =? dl) eqn:E4; [|apply Nat.eqb_neq in E4; lia].
      rewrite Hx. rewrite app_length. destruct (room <? length D + length p) eqn:E6; [apply Nat.ltb_lt in E6; lia|].
      unfold ccm_whole. destruct (pr_shot P s (D ++ p)) as [[s1 o]|] eqn:E7; [|by right].
      pose proof (HL _ _ _ _ E7) as L. rewrite app_length in L.
      destruct (length o =? dl) eqn:E8; [|apply Nat.eqb_neq in E8; lia]. left. exists o. split; [done|].
      split; [done|]. split; lia.
    + apply Nat.ltb_ge in E3. assert (D = []) as -> by (destruct D; [done|cbn [length] in *; lia]).
      cbn [app length] in *. unfold feed_rest. destruct p as [|x p]; [done|]. cbn [a_ctx length]. rewrite Nat.sub_0_r.
      rewrite Hx. destruct (room <? length (x :: p)) eqn:E6; [apply Nat.ltb_lt in E6; cbn [length] in *; lia|].
      unfold ccm_whole. destruct (pr_shot P s (x :: p)) as [[s1 o]|] eqn:E7; [|by right].
      pose proof (HL _ _ _ _ E7) as L. left. exists o. split; [done|].
      split; [done|]. split; lia.
  - unfold dec_update. unfold at_ccm. rewrite ?Ee. fields. unfold dec_check. fields.
    destruct (dl + tl <? length p + length D) eqn:E1; [apply Nat.ltb_lt in E1; lia|].
    unfold dec_need. fields. rewrite E1.
    rewrite not_large by done. cbn [andb].
    destruct (room <? dl) eqn:E5; [by left|apply Nat.ltb_ge in E5; right]. unfold dec_feed, feed_ccm. fields.
    assert (Hx : forall t d, length d = dl -> cx_update P (cx_set_tag P (Evp P MCcm false s [] None) t) d room =
      match pr_shot P s d with
      | Some (s1, o) => if bytes_eqb t (firstn (length t) (pr_tag P s1)) then Some (Evp P MCcm false s1 [] (Some t), o) else None
      | None => None end).
    { intros t d Ld. unfold cx_update, cx_set_tag, buffer_size. cbn [x_mode block_size]. change (1 =? 1) with true. cbv iota.
      rewrite Ld. destruct (room <? dl) eqn:E6; [apply Nat.ltb_lt in E6; lia|]. done. }
    assert (Hl : length (D ++ p) = dl + tl) by (rewrite app_length; lia).
    assert (H1 : length (firstn dl (D ++ p)) = dl) by (rewrite firstn_length; lia).
    assert (H2 : length (skipn dl (D ++ p)) = tl) by (rewrite skipn_length; lia).
    destruct (length p <? dl + tl) eqn:E3.
    + destruct (length (D ++ p) =? dl + tl) eqn:E4; [|apply Nat.eqb_neq in E4; lia]. cbn [a_set a_ctx].
      rewrite Hx by done. rewrite H2. unfold ccm_whole.
      destruct (pr_shot P s (firstn dl (D ++ p))) as [[s1 o]|] eqn:E7; [|by right].
      pose proof (HL _ _ _ _ E7) as L. destruct (bytes_eqb _ _) eqn:E8; [|by right]. left.
      exists o. split; [done|]. split; [rewrite app_nil_r; done|]. split; lia.
    + apply Nat.ltb_ge in E3. assert (D = []) as -> by (destruct D; [done|cbn [length] in *; lia]).
      cbn [app length] in *. destruct (length p =? dl + tl) eqn:E4; [|apply Nat.eqb_neq in E4; lia]. cbn [a_use a_ctx].
      rewrite Hx by done. rewrite H2. unfold ccm_whole.
      destruct (pr_shot P s (firstn dl p)) as [[s1 o]|] eqn:E7; [|by right].
      pose proof (HL _ _ _ _ E7) as L. destruct (bytes_eqb _ _) eqn:E8; [|by right]. left.
      exists o. split; [done|]. split; [rewrite app_nil_r; done|]. split; lia.
Qed.

(* The end of a completed message. *)
Lemma ccm_end a o D last : done_with a o D ->
  snd (op_final P enc a last) = Err CKR_BUFFER_TOO_SMALL \/
  (exists e, snd (op_final P enc a last) = Ok e /\ Ok (o ++ e) = ccm_whole P enc s dl tl D).
Proof using All.
  intros (Hf & Hu & Hm & Hb & _ & Ht & Hx & Hw). unfold op_final. destruct enc.
  - unfold enc_final. rewrite Hf, Hu, Hm, Ht. cbn [negb]. destruct (last <? tl); [by left|]. right.
    unfold cx_final, buffer_size, evp_final. rewrite Hx. cbn [block_size]. change (1 =? 1) with true. cbv iota.
    change (last <? 0) with false. cbv iota. change (length (@nil N) =? 0) with true. cbv iota. cbn [snd].
    eexists. split; [reflexivity|]. exact Hw.
  - unfold dec_final. rewrite Hf, Hu. cbn [negb]. unfold a_end. cbn [a_mode a_buf]. rewrite Hm, Hb. right.
    change (0 <? length (@nil N)) with false. cbv iota. cbn [snd]. eexists. split; [reflexivity|]. exact Hw.
Qed.
(* An empty piece changes nothing. *)
Lemma ccm_idle a o D room : done_with a o D ->
  snd (op_update P enc a [] room) = Err CKR_BUFFER_TOO_SMALL \/
  exists a', op_update P enc a [] room = (a', Ok []) /\ done_with a' o D.
Proof using All.
  destruct a as [m0 mx dl0 tl0 fi us cx bf bl]. unfold done_with. cbn [a_mode a_final a_used a_buf a_datalen a_taglen a_ctx].
  intros (Hf & Hu & Hm & Hb & Hd & Ht & Hx & Hw). subst fi us m0 bf dl0 tl0. unfold op_update. destruct enc eqn:Ee.
  - right. unfold enc_update. fields. unfold enc_len. fields. unfold enc_check. fields. rewrite not_large by done.
    cbn [andb length Nat.add]. change (dl <? 0) with false. cbv iota. destruct (0 <? dl) eqn:E; [|apply Nat.ltb_ge in E; lia].
    change (room <? 0) with false. cbv iota. unfold enc_feed. fields. cbn [app length]. rewrite E.
    destruct (0 =? dl) eqn:E2; [apply Nat.eqb_eq in E2; lia|]. eexists. split; [reflexivity|]. done.
  - unfold dec_update. fields. unfold dec_check. fields. cbn [length Nat.add].
    destruct (dl + tl <? 0) eqn:E0; [apply Nat.ltb_lt in E0; lia|].
    unfold dec_need. fields. rewrite not_large by done. cbn [andb length Nat.add]. rewrite E0.
    destruct (room <? dl); [by left|right].
    unfold dec_feed, feed_ccm. fields. cbn [app length].
    destruct (0 <? dl + tl) eqn:E; [|apply Nat.ltb_ge in E; lia].
    destruct (0 =? dl + tl) eqn:E2; [apply Nat.eqb_eq in E2; lia|]. eexists. split; [reflexivity|]. done.
Qed.

Lemma ccm_rest l : forall a o D last, done_with a o D -> concat (map fst l) = [] ->
  op_pieces P enc a l last <> Err CKR_BUFFER_TOO_SMALL ->
  exists e, op_pieces P enc a l last = Ok e /\ Ok (o ++ e) = ccm_whole P enc s dl tl D.
Proof using All.
  induction l as [|[p n] l IH]; intros a o D last Ha Hl Hn; cbn [op_pieces map concat fst] in *.
  - destruct (ccm_end a o D last Ha) as [E|E]; [done|]. destruct E as (e & E1 & E2). by exists e.
  - apply app_eq_nil in Hl as [-> Hl]. destruct (ccm_idle a o D n Ha) as [E|(a' & E & Ha')].
    { destruct (op_update P enc a [] n) as [a1 r]. cbn [snd] in E. by subst r. }
    rewrite E in Hn |- *. cbv beta iota in Hn |- *.
    destruct (IH a' o D last Ha' Hl) as (e & E1 & E2); [intros X; by rewrite X in Hn|].
    exists e. rewrite E1. done.
Qed.

Lemma ccm_pieces l : forall D last, length (D ++ concat (map fst l)) = ccm_len enc dl tl -> length D < ccm_len enc dl tl ->
  op_pieces P enc (at_ccm D) l last <> Err CKR_BUFFER_TOO_SMALL ->
  op_pieces P enc (at_ccm D) l last = ccm_whole P enc s dl tl (D ++ concat (map fst l)).
Proof using All.
  induction l as [|[p n] l IH]; intros D last Hl HD Hn.
  { cbn [map concat] in Hl. rewrite app_nil_r in Hl. lia. }
  cbn [op_pieces map concat fst] in *. destruct (decide (length (D ++ p) < ccm_len enc dl tl)) as [Hc|Hc].
  - destruct (ccm_more D p n Hc) as [E|E].
    { destruct (op_update P enc (at_ccm D) p n) as [a1 r]. cbn [snd] in E. by subst r. }
    rewrite E in Hn |- *. cbv beta iota in Hn |- *. rewrite app_assoc in Hl |- *.
    rewrite IH; [|done|done|intros X; by rewrite X in Hn].
    by destruct (ccm_whole P enc s dl tl _).
  - assert (length (D ++ p) = ccm_len enc dl tl /\ concat (map fst l) = []) as [Hp Hz].
    { rewrite app_assoc, app_length in Hl. split; [lia|]. apply length_zero_iff_nil. lia. }
    assert (Hne : p <> []) by (intros ->; rewrite app_nil_r in Hp; lia).
    rewrite Hz, app_nil_r. pose proof (ccm_last D p n Hp Hne) as C. cbv zeta in C.
    destruct (op_update P enc (at_ccm D) p n) as [a1 r]. cbn [fst snd] in C.
    destruct C as [C|[(o & -> & Hd & _)|[-> C]]]; [by subst r| |by rewrite C].
    destruct (ccm_rest l a1 o (D ++ p) last Hd Hz) as (e & E1 & E2); [intros X; by rewrite X in Hn|].
    rewrite E1. exact E2.
Qed.
Lemma ccm_single d room a : a = at_ccm [] -> length d = ccm_len enc dl tl ->
  snd (op_single P enc a d room) <> Err CKR_BUFFER_TOO_SMALL ->
  snd (op_single P enc a d room) = ccm_whole P enc s dl tl d.
Proof using All.
  intros -> Hl Hn. pose proof need_pos as Hnp.
  assert (Hne : d <> []) by (intros ->; cbn [length] in Hl; lia).
  pose proof (ccm_last [] d room Hl Hne) as C. cbn [app] in C. cbv zeta in C.
  assert (Hs : snd (op_single P enc (at_ccm []) d room) =
    match op_update P enc (at_ccm []) d room with
    | (_, Err e) => Err e
    | (a, Ok o) => if room <? length o then Err CKR_GENERAL_ERROR else joined o (snd (op_final P enc a (room - length o)))
    end).
  { unfold op_single, op_update, op_final. destruct enc.
    - unfold enc_single. cbn [at_ccm a_final]. destruct (enc_update P _ d room) as [a1 [o|e]]; [|done].
      destruct (room <? length o); [done|]. by destruct (enc_final P a1 (room - length o)) as [a2 [o2|e]].
    - unfold dec_single. cbn [at_ccm a_final]. destruct (dec_update P _ d room) as [a1 [o|e]]; [|done].
      destruct (room <? length o); [done|]. by destruct (dec_final P a1 (room - length o)) as [a2 [o2|e]]. }
  rewrite Hs in Hn |- *. destruct (op_update P enc (at_ccm []) d room) as [a1 r] eqn:Eu. cbn [fst snd] in C.
  destruct C as [C|[(o & -> & Hd & Lo & Hr)|[-> C]]]; [by subst r| |by rewrite C].
  assert (Hro : (room <? length o) = false).
  { apply Nat.ltb_ge. lia. }
  rewrite Hro in Hn |- *. destruct (ccm_end a1 o d (room - length o) Hd) as [E|(e & E & Ew)]; rewrite E in Hn |- *; cbn [joined] in *; done.
Qed.
End Ccm.

(* C34 for CCM, both directions: whatever pieces a message of the announced length is cut into, the outputs one after the
   other are the message through the cipher in one call, and so is the output of C_Encrypt and C_Decrypt.
   Partial: messages of up to 1 MiB, beyond which src/ossl/aes.rs takes one piece only; not the empty message; and pieces
   that make up the announced length, see C34_ccm_refuted. *)
Theorem C34_ccm_partial P : shot_len P ->
  forall enc iv aad dl tl a s, 0 < dl -> (N.of_nat dl <= 1048576)%N ->
  aes_new P MCcm enc iv aad 0 dl tl = Some a -> pr_start P MCcm enc iv aad tl dl = Some s ->
  (forall l last, length (concat (map fst l)) = ccm_len enc dl tl ->
     op_pieces P enc a l last <> Err CKR_BUFFER_TOO_SMALL ->
     op_pieces P enc a l last = ccm_whole P enc s dl tl (concat (map fst l))) /\
  (forall d room, length d = ccm_len enc dl tl ->
     snd (op_single P enc a d room) <> Err CKR_BUFFER_TOO_SMALL ->
     snd (op_single P enc a d room) = ccm_whole P enc s dl tl d).
Proof.
  intros HL enc iv aad dl tl a s Hd Hb Ha Hs. unfold aes_new in Ha. rewrite Hs in Ha. injection Ha as <-.
  set (a := Aes P MCcm 0 dl tl false false (Evp P MCcm enc s [] None) [] 0).
  assert (Hu : forall d room, op_update P enc a d room = op_update P enc (at_ccm P enc dl tl s []) d room \/
    exists a', op_update P enc a d room = (a', snd (op_update P enc (at_ccm P enc dl tl s []) d room)) /\ is_ok (snd (op_update P enc (at_ccm P enc dl tl s []) d room)) = false).
  { intros d room. destruct enc; [left; done|]. unfold op_update, dec_update, a, at_ccm. cbn [a_final]. unfold dec_check. cbn [a_mode a_datalen a_taglen a_buf].
    destruct (_ <? _); [right; eexists; split; reflexivity|left; done]. }
  split.
  - intros l last Hl Hn. pose proof (need_pos P HL enc dl tl Hd Hb s) as Hp.
    assert (Ho : op_pieces P enc a l last = op_pieces P enc (at_ccm P enc dl tl s []) l last).
    { destruct l as [|[p n] l]; [cbn in Hl; lia|]. cbn [op_pieces]. destruct (Hu p n) as [->|(a' & -> & Hr)]; [done|].
      destruct (op_update P enc (at_ccm P enc dl tl s []) p n) as [a2 [o|e]]; [discriminate Hr|done]. }
    rewrite Ho in Hn |- *. by apply (ccm_pieces P HL enc dl tl Hd Hb s l []).
  - intros d room Hl Hn.
    assert (Ho : snd (op_single P enc a d room) = snd (op_single P enc (at_ccm P enc dl tl s []) d room)).
    { unfold op_single, op_update in *. destruct enc.
      - unfold enc_single. unfold a at 1, at_ccm at 1. cbn [a_final]. destruct (Hu d room) as [->|(a' & -> & Hr)]; [done|].
        destruct (enc_update P (at_ccm P true dl tl s []) d room) as [a2 [o|e]]; [discriminate Hr|done].
      - unfold dec_single. unfold a at 1, at_ccm at 1. cbn [a_final]. destruct (Hu d room) as [->|(a' & -> & Hr)]; [done|].
        destruct (dec_update P (at_ccm P false dl tl s []) d room) as [a2 [o|e]]; [discriminate Hr|done]. }
    rewrite Ho in Hn |- *. by apply (ccm_single P HL enc dl tl Hd Hb s).
Qed.

(* What one side encrypts in pieces, the other gets back in any other pieces. *)
Theorem C34_ccm_round_trip_partial P : shot_len P ->
  forall iv aad dl tl a a' s s', 0 < dl -> (N.of_nat dl <= 1048576)%N -> tl <= 16 ->
  aes_new P MCcm true iv aad 0 dl tl = Some a -> pr_start P MCcm true iv aad tl dl = Some s ->
  aes_new P MCcm false iv aad 0 dl tl = Some a' -> pr_start P MCcm false iv aad tl dl = Some s' -> shot_undoes P s s' ->
  forall l last l' last' c, length (concat (map fst l)) = dl ->
  op_pieces P true a l last = Ok c -> concat (map fst l') = c ->
  op_pieces P false a' l' last' <> Err CKR_BUFFER_TOO_SMALL ->
  op_pieces P false a' l' last' = Ok (concat (map fst l)).
Proof.
  intros HL iv aad dl tl a a' s s' Hd Hb Ht Ha Hs Ha' Hs' Hu l last l' last' c Hl Hc Hc' Hn.
  destruct (C34_ccm_partial P HL true iv aad dl tl a s Hd Hb Ha Hs) as [T _].
  rewrite T in Hc; [|done|by rewrite Hc]. unfold ccm_whole in Hc.
  destruct (pr_shot P s (concat (map fst l))) as [[s1 o]|] eqn:E; [|done]. apply ok_inj in Hc. pose proof (HL _ _ _ _ E) as L.
  destruct (Hu _ _ _ E) as (s2 & E2 & Tg & Lt).
  assert (Lc : length (concat (map fst l')) = ccm_len false dl tl).
  { rewrite Hc', <- Hc, app_length, firstn_length, L, Lt, Hl. cbn. lia. }
  destruct (C34_ccm_partial P HL false iv aad dl tl a' s' Hd Hb Ha' Hs') as [T' _].
  rewrite T' by done. unfold ccm_whole. rewrite Hc', <- Hc.
  rewrite firstn_app, skipn_app. replace (dl - length o) with 0 by lia. rewrite firstn_all2, skipn_all2 by lia. cbn [firstn skipn app].
  rewrite app_nil_r, E2, Tg. by rewrite bytes_eqb_same.
Qed.

(* ---- CTS ---- *)
Definition at_cts P (enc used : bool) (s : pr_st P) (n : N) : aes P := Aes P MCts 0 0 0 false used (Evp P MCts enc s [] None) [] n.

Lemma cts_buffer P enc s n : 16 <= n -> buffer_size P (Evp P MCts enc s [] None) n = cts_room n.
Proof.
  intros Hn. unfold buffer_size, cts_room. cbn [x_mode block_size]. change (16 =? 1) with false. cbv iota.
  destruct (n =? 0) eqn:E; [apply Nat.eqb_eq in E; lia|].
  pose proof (Nat.div_mod n 16 ltac:(lia)) as M. pose proof (Nat.mod_upper_bound n 16 ltac:(lia)) as U.
  destruct (n mod 16 =? 0) eqn:E2.
  - apply Nat.eqb_eq in E2. rewrite E2 in M. replace (n + 15) with (n / 16 * 16 + 15) by lia.
    rewrite Nat.div_add_l by lia. change (15 / 16) with 0. lia.
  - apply Nat.eqb_neq in E2. replace (n + 15) with ((n / 16 + 1) * 16 + (n mod 16 - 1)) by lia.
    rewrite Nat.div_add_l by lia. rewrite (Nat.div_small (n mod 16 - 1)) by lia. lia.
Qed.
Lemma cts_feed P enc used s d room n : shot_len P -> 16 <= length d -> length d <= room ->
  let r := feed_cts P (at_cts P enc used s n) d room in
  snd r = match pr_shot P s d with
          | None => Err CKR_DEVICE_ERROR
          | Some (_, o) =>
            if room <? 32 then if room =? length d then Ok o else Err RV_PANIC
            else if room <? cts_room (length d) then Err CKR_DEVICE_ERROR else Ok o
          end /\
  (is_ok (snd r) = true -> exists s1, fst r = at_cts P enc used s1 n).
Proof.
  intros HL Hd Hr. cbv zeta. unfold feed_cts, at_cts. fields. unfold cx_update. rewrite cts_buffer by done.
  destruct (room <? 32) eqn:E.
  - apply Nat.ltb_lt in E. assert (Hc : cts_room (length d) <= 32).
    { unfold cts_room. pose proof (Nat.div_lt_upper_bound (length d + 15) 16 3 ltac:(lia) ltac:(lia)). lia. }
    destruct (32 <? cts_room (length d)) eqn:E2; [apply Nat.ltb_lt in E2; lia|].
    unfold evp_update. cbn [x_mode x_st x_held]. destruct (pr_shot P s d) as [[s1 o]|] eqn:E3; [|split; [done|intros [=]]].
    pose proof (HL _ _ _ _ E3) as L. destruct (length o =? length d) eqn:E4; [|apply Nat.eqb_neq in E4; lia]. cbn [negb]. rewrite L.
    destruct (room =? length d); cbn [negb]; (split; [done|]); [intros _; by exists s1|intros [=]].
  - unfold feed_rest. destruct d as [|x d]; [cbn [length] in Hd; lia|]. set (e := x :: d) in *. cbn [a_ctx].
    change (length (@nil N)) with 0. rewrite Nat.sub_0_r. unfold cx_update. rewrite cts_buffer by done.
    destruct (room <? cts_room (length e)) eqn:E2.
    { destruct (pr_shot P s e) as [[s1 o]|]; (split; [done|intros [=]]). }
    unfold evp_update. cbn [x_mode x_st x_held]. destruct (pr_shot P s e) as [[s1 o]|] eqn:E3; [|split; [done|intros [=]]].
    split; [done|]. intros _. by exists s1.
Qed.
Lemma cts_update P enc used s d room : shot_len P -> 16 <= length d ->
  let r := op_update P enc (at_cts P enc used s 0) d room in
  snd r = (if room <? length d then Err CKR_BUFFER_TOO_SMALL else
           match pr_shot P s d with
          | None => Err CKR_DEVICE_ERROR
          | Some (_, o) =>
            if room <? 32 then if room =? length d then Ok o else Err RV_PANIC
            else if room <? cts_room (length d) then Err CKR_DEVICE_ERROR else Ok o
          end) /\
  (is_ok (snd r) = true -> exists s1, fst r = at_cts P enc true s1 1).
Proof.
  intros HL Hd. cbv zeta. unfold op_update.
  assert (E16 : (length d <? 16) = false) by (by apply Nat.ltb_ge).
  destruct enc.
  - unfold enc_update, at_cts. fields. unfold enc_len. fields. unfold enc_check. fields. rewrite E16. change (0 =? 0)%N with true. cbv iota.
    destruct (room <? length d) eqn:E; [split; [done|intros [=]]|apply Nat.ltb_ge in E].
    unfold enc_feed. cbn [a_mode]. by apply (cts_feed P true true s d room 1).
  - unfold dec_update, at_cts. fields. unfold dec_check. fields. rewrite E16. change (0 =? 0)%N with true. cbv iota.
    unfold dec_need. fields. destruct (room <? length d) eqn:E; [split; [done|intros [=]]|apply Nat.ltb_ge in E].
    unfold dec_feed. cbn [a_mode]. by apply (cts_feed P false true s d room 1).
Qed.
Lemma cts_second P enc s p n : exists e, snd (op_update P enc (at_cts P enc true s 1) p n) = Err e.
Proof.
  unfold op_update. destruct enc.
  - unfold enc_update, at_cts. fields. unfold enc_len. fields. unfold enc_check. fields.
    change (1 =? 0)%N with false. cbv iota. destruct (length p <? 16); eexists; reflexivity.
  - unfold dec_update, at_cts. fields. unfold dec_check. fields.
    change (1 =? 0)%N with false. cbv iota. destruct (length p <? 16); eexists; reflexivity.
Qed.
Lemma cts_final P enc s n : snd (op_final P enc (at_cts P enc true s 1) n) = Ok [].
Proof. by destruct enc. Qed.

(* C34 for CTS, both directions: the message is one piece; whatever the room, what comes out is the message through the
   cipher in one call, or an error; a second piece is always refused.  Partial: with
   other rooms the call may fail, see C34_cts_refuted. *)
Theorem C34_cts_partial P : shot_len P ->
  forall enc iv aad a s, aes_new P MCts enc iv aad 0 0 0 = Some a -> pr_start P MCts enc iv aad 0 0 = Some s ->
  forall d room last, 16 <= length d ->
  (* with room for whole blocks, or with exactly the room of a message shorter than two blocks *)
  (32 <= room -> cts_room (length d) <= room -> snd (op_single P enc a d room) = cts_whole P s d /\ op_pieces P enc a [(d, room)] last = cts_whole P s d) /\
  (room < 32 -> room = length d -> snd (op_single P enc a d room) = cts_whole P s d /\ op_pieces P enc a [(d, room)] last = cts_whole P s d) /\
  (* any room: nothing but the message *)
  (forall o, snd (op_single P enc a d room) = Ok o -> cts_whole P s d = Ok o) /\
  (* a second piece *)
  (forall p n l, exists e, op_pieces P enc a ((d, room) :: (p, n) :: l) last = Err e).
Proof.
  intros HL enc iv aad a s Ha Hs d room last Hd. unfold aes_new in Ha. rewrite Hs in Ha. injection Ha as <-.
  change (Aes P MCts 0 0 0 false false (Evp P MCts enc s [] None) [] 0) with (at_cts P enc false s 0).
  destruct (cts_update P enc false s d room HL Hd) as [U1 U2]. cbv zeta in U1, U2.
  assert (Hr : length d <= cts_room (length d)).
  { unfold cts_room. pose proof (Nat.div_mod (length d + 15) 16 ltac:(lia)). pose proof (Nat.mod_upper_bound (length d + 15) 16 ltac:(lia)). lia. }
  assert (S : snd (op_single P enc (at_cts P enc false s 0) d room) = op_pieces P enc (at_cts P enc false s 0) [(d, room)] last /\
    op_pieces P enc (at_cts P enc false s 0) [(d, room)] last = snd (op_update P enc (at_cts P enc false s 0) d room)).
  { cbn [op_pieces]. destruct (op_update P enc (at_cts P enc false s 0) d room) as [a1 [o|e]] eqn:E; cbn [fst snd is_ok] in *.
    - destruct (U2 eq_refl) as [s1 ->]. rewrite cts_final, app_nil_r. split; [|done].
      assert (Lo : length o <= room).
      { destruct (room <? length d) eqn:E1; [discriminate U1|]. apply Nat.ltb_ge in E1.
        destruct (pr_shot P s d) as [[s2 o2]|] eqn:E2; [|discriminate U1]. pose proof (HL _ _ _ _ E2) as L.
        destruct (room <? 32), (room =? length d), (room <? cts_room (length d)); try discriminate U1; apply ok_inj in U1; subst o2; lia. }
      apply Nat.ltb_ge in Lo. unfold op_single, op_update in *. destruct enc.
      + unfold enc_single. rewrite E. cbn [at_cts a_final]. rewrite Lo.
        pose proof (cts_final P true s1 (room - length o)) as F. unfold op_final in F.
        destruct (enc_final P (at_cts P true true s1 1) (room - length o)) as [a2 r2]. cbn [snd] in F. subst r2. cbn [snd]. by rewrite app_nil_r.
      + unfold dec_single. rewrite E. cbn [at_cts a_final]. rewrite Lo.
        pose proof (cts_final P false s1 (room - length o)) as F. unfold op_final in F.
        destruct (dec_final P (at_cts P false true s1 1) (room - length o)) as [a2 r2]. cbn [snd] in F. subst r2. cbn [snd]. by rewrite app_nil_r.
    - split; [|done]. unfold op_single, op_update in *. destruct enc; [unfold enc_single|unfold dec_single]; rewrite E; done. }
  destruct S as [S1 S2]. rewrite S1, S2, U1. unfold cts_whole. split_and!.
  - intros H1 H2. destruct (room <? length d) eqn:E1; [apply Nat.ltb_lt in E1; lia|].
    destruct (room <? 32) eqn:E2; [apply Nat.ltb_lt in E2; lia|]. destruct (room <? cts_room (length d)) eqn:E3; [apply Nat.ltb_lt in E3; lia|].
    by destruct (pr_shot P s d) as [[s1 o]|].
  - intros H1 H2. destruct (room <? length d) eqn:E1; [apply Nat.ltb_lt in E1; lia|].
    destruct (room <? 32) eqn:E2; [|apply Nat.ltb_ge in E2; lia]. destruct (room =? length d) eqn:E3; [|apply Nat.eqb_neq in E3; lia].
    by destruct (pr_shot P s d) as [[s1 o]|].
  - intros o. destruct (room <? length d); [intros [=]|]. destruct (pr_shot P s d) as [[s1 o1]|]; [|intros [=]].
    destruct (room <? 32), (room =? length d), (room <? cts_room (length d)); intros H; try discriminate H; done.
  - intros p n l. cbn [op_pieces]. destruct (op_update P enc (at_cts P enc false s 0) d room) as [a1 [o|e]]; [|by eexists].
    cbn [fst snd is_ok] in U2. destruct (U2 eq_refl) as [s1 E1]. rewrite E1. destruct (cts_second P enc s1 p n) as [e E].
    destruct (op_update P enc (at_cts P enc true s1 1) p n) as [a2 r2]. cbn [snd] in E. subst r2. by eexists.
Qed.

(* ---- the cases ---- *)
Lemma toy_shot_len : shot_len toy_prim.
Proof. intros s d s1 o H. cbn in H. injection H as <- <-. apply rev_length. Qed.
Lemma toy_shot_undoes k p c : shot_undoes toy_prim (ToySt true p k c) (ToySt false p k c).
Proof.
  intros d s1 o H. cbn in H. injection H as <- <-. exists (ToySt false p k c). cbn. by rewrite rev_involutive.
Qed.
Definition toy_ccm (enc : bool) (dl tl : nat) (l : list bytes) : result bytes :=
  match aes_new toy_prim MCcm enc zero_iv [] 0 dl tl with
  | Some a => op_pieces toy_prim enc a (map (fun p => (p, 100)) l) 100
  | None => Err CKR_GENERAL_ERROR
  end.
Definition toy_cts (enc : bool) (d : bytes) (room : nat) : result bytes :=
  match aes_new toy_prim MCts enc zero_iv [] 0 0 0 with
  | Some a => snd (op_single toy_prim enc a d room)
  | None => Err CKR_GENERAL_ERROR
  end.
Example C34_ccm_case : exists c,
  toy_ccm true 40 8 (cut [5; 0; 20; 15] (counted 40)) = Ok c /\ length c = 48 /\
  toy_ccm false 40 8 (cut [1; 40] c) = Ok (counted 40) /\
  toy_ccm false 40 8 (cut [1; 40] (removelast c ++ [9%N])) = Err CKR_DEVICE_ERROR.
Proof. eexists. split; [vm_compute; reflexivity|]. split_and!; vm_compute; reflexivity. Qed.
Example C34_cts_case : exists c, toy_cts true (counted 40) 48 = Ok c /\ toy_cts false c 48 = Ok (counted 40) /\
  toy_cts true (counted 20) 20 = Ok (rev (counted 20)).
Proof. eexists. split; [vm_compute; reflexivity|]. split_and!; vm_compute; reflexivity. Qed.

(* CCM: once the announced length has come, further bytes are collected for a second message and dropped by C_EncryptFinal:
   C_EncryptUpdate and C_EncryptFinal say CKR_OK and the encryption is that of the first 16 bytes only, where C_Encrypt
   refuses the data. *)
Theorem C34_ccm_refuted : exists c,
  toy_ccm true 16 8 [counted 16] = Ok c /\
  toy_ccm true 16 8 [counted 16; counted 5] = Ok c /\
  toy_ccm true 16 8 [counted 16 ++ counted 5] = Err CKR_DATA_LEN_RANGE.
Proof. eexists. split; [vm_compute; reflexivity|]. split_and!; vm_compute; reflexivity. Qed.
(* CTS: C_Encrypt says that 40 bytes of room are needed for 40 bytes of data, and fails with CKR_DEVICE_ERROR when given
   them; with 17 bytes of data and 20 bytes of room it panics. *)
Theorem C34_cts_refuted :
  (forall a, aes_new toy_prim MCts true zero_iv [] 0 0 0 = Some a -> snd (op_len toy_prim true a 40 true) = Ok 40) /\
  toy_cts true (counted 40) 40 = Err CKR_DEVICE_ERROR /\
  toy_cts true (counted 17) 20 = Err RV_PANIC /\ is_ok (toy_cts true (counted 17) 17) = true.
Proof. split; [intros a H; injection H as <-; reflexivity|]. split_and!; vm_compute; reflexivity. Qed.
