(* C45: each message of a message-based operation is encrypted or decrypted on its own, and a message is only
   accepted with the right tag. *)
From Verif Require Import MsgSpec ThmMsg ThmChunks.
From Coq Require Import Arith.
Local Open Scope nat_scope.

Section Aead.
Variable P : prim.

(* In the middle of a message of which [D] has been taken. *)
Record live (m : mop P) (mode : amode) (enc : bool) (tl dl : nat) (s0 : pr_st P) (D out : bytes) : Prop := {
  lv_mode : m_mode P m = mode; lv_enc : m_enc P m = enc; lv_tag : m_taglen P m = tl; lv_len : m_datalen P m = dl;
  lv_used : m_used P m = true;
  lv_ctx : match mode with
           | MGcm => exists t, m_ctx P m = XLive P (Evp P MGcm enc (fst (run_bytes P s0 D)) [] t) /\ out = snd (run_bytes P s0 D)
           | _ => exists t, m_ctx P m = XLive P (Evp P MCcm enc s0 [] t) /\ m_buf P m = D /\ out = []
           end }.

Lemma mode_aead m p aad m1 : init_msg P m p aad = Ok m1 -> m_mode P m = MGcm \/ m_mode P m = MCcm.
Proof using Type. unfold init_msg. destruct p as [q|]; [|intros X; discriminate X]. destruct (m_mode P m); intros X; try discriminate X; auto. Qed.

Lemma begin_live m q aad rnd m' iv : msg_begin P m (Some q) aad rnd = (m', Ok iv) -> (m_mode P m = MCcm -> m_buf P m = []) ->
  exists s, pr_start P (m_mode P m) (m_enc P m) iv aad (tag_len (m_mode P m) q) (data_len (m_mode P m) q) = Some s /\
  (m_mode P m = MGcm \/ m_mode P m = MCcm) /\
  live m' (m_mode P m) (m_enc P m) (tag_len (m_mode P m) q) (data_len (m_mode P m) q) s [] [].
Proof using Type.
  intros E Hb. unfold msg_begin in E. destruct (m_final P m); [discriminate E|]. destruct (m_used P m); [discriminate E|].
  destruct (init_msg P m (Some q) aad) as [m1|] eqn:Ei; [|discriminate E]. pose proof (mode_aead _ _ _ _ Ei) as Hm.
  assert (H1 : m_mode P m1 = m_mode P m /\ m_enc P m1 = m_enc P m /\ m_buf P m1 = m_buf P m /\
    m_taglen P m1 = tag_len (m_mode P m) q /\ m_datalen P m1 = data_len (m_mode P m) q).
  { unfold init_msg in Ei. cbv zeta in Ei.
    assert (Hd : (N.to_nat (q_tagn q) + 7) / 8 = N.to_nat ((q_tagn q + 7) / 8)) by (rewrite N2Nat.inj_div; f_equal; lia).
    destruct (m_mode P m) eqn:E1; try discriminate Ei; (destruct (q_iv q) as [b|]; [|discriminate Ei]);
      repeat match type of Ei with context [if ?x then _ else _] => destruct x; try discriminate Ei end; injection Ei as <-; done. }
  destruct H1 as (H1 & H2 & H3 & H4 & H5). cbv zeta in E. cbn [m_iv m_mode m_enc m_aad m_datalen m_taglen m_ctx m_buf] in E.
  destruct (if v_gen (m_iv P m1) =? CKG_NO_GENERATE then _ else _)%N as [v [[]|e]]; [|discriminate E].
  destruct (pr_start P _ _ _ _ _ _) as [s|] eqn:Es; [|discriminate E].
  apply pair_equal_spec in E as [E1 E2]. injection E2 as E2. subst m' iv. exists s.
  rewrite H1, H2, H4, H5 in Es. split; [done|]. split; [done|]. split; try done.
  rewrite H1, H2, H3. destruct Hm as [Hm|Hm]; rewrite Hm in *; cbn [m_set m_ctx m_buf].
  - exists None. done.
  - exists None. split; [done|]. split; [by apply Hb|done].
Qed.

Lemma check_ok m p m1 t : check_msg P m p = (m1, Ok t) -> m1 = m /\ exists q, p = Some q /\ q_tag q = t.
Proof using Type.
  unfold check_msg, m_fatal. intros E. destruct (m_mode P m); try discriminate E; (destruct p as [q|]; [|discriminate E]);
    (destruct (q_iv q); [|discriminate E]); repeat match type of E with context [if ?x then _ else _] => destruct x; try discriminate E end;
    injection E as <- <-; eauto.
Qed.
Lemma gcm_update enc s0 D t d room x o :
  cx_update P (Evp P MGcm enc (fst (run_bytes P s0 D)) [] t) d room = Some (x, o) ->
  x = Evp P MGcm enc (fst (run_bytes P s0 (D ++ d))) [] t /\ snd (run_bytes P s0 (D ++ d)) = snd (run_bytes P s0 D) ++ o.
Proof using Type.
  unfold cx_update. destruct (room <? _); [done|]. unfold evp_update. cbn [x_mode x_st x_held]. rewrite run_bytes_app.
  destruct (run_bytes P (fst (run_bytes P s0 D)) d) as [s1 o1]. intros X. injection X as <- <-. done.
Qed.

Lemma next_live m mode enc tl dl s0 D out p d room m' o : mode = MGcm \/ mode = MCcm -> live m mode enc tl dl s0 D out ->
  msg_next P m p d room = (m', Ok o) -> live m' mode enc tl dl s0 (D ++ d) (out ++ o).
Proof using Type.
  intros Hm [l1 l2 l3 l4 l5 l6] E. unfold msg_next in E. destruct (m_final P m); [discriminate E|]. rewrite l5 in E. cbn [negb] in E.
  destruct (check_msg P m p) as [m1 [t|]] eqn:Ec; [|discriminate E]. apply check_ok in Ec as [-> _]. rewrite l1 in E.
  destruct Hm as [->| ->].
  - destruct (room <? length d); [discriminate E|]. destruct l6 as (t' & Hc & ->). rewrite Hc in E.
    destruct (Nat.eqb_spec (length d) 0) as [L|L].
    + destruct d; [|discriminate L]. injection E as <- <-. rewrite app_nil_r. split; try done. exists t'. by rewrite app_nil_r.
    + destruct (cx_update P _ _ _) as [[x o']|] eqn:Eu; [|discriminate E]. injection E as <- <-.
      apply gcm_update in Eu as [-> Eu]. split; try done. exists t'. split; [done|]. by rewrite Eu.
  - unfold m_fatal in E. destruct (_ <? _)%N; [discriminate E|]. destruct (_ <? _); [discriminate E|].
    injection E as <- <-. destruct l6 as (t' & Hc & Hb & ->). split; try done. exists t'. rewrite <- Hb. done.
Qed.

Lemma final_evp mode enc s t room x o : mode = MGcm \/ mode = MCcm -> cx_final P (Evp P mode enc s [] t) room = Some (x, o) ->
  x = Evp P mode enc s [] t /\ o = [] /\ (mode = MGcm -> enc = false -> exists u, t = Some u /\ u = firstn (length u) (pr_tag P s)).
Proof using Type.
  intros Hm. unfold cx_final. destruct (room <? _); [done|]. unfold evp_final. cbn [x_mode x_enc x_tag x_st]. destruct Hm as [->| ->].
  - destruct enc; [intros X; injection X as <- <-; done|]. destruct t as [u|]; [|done]. unfold bytes_eqb.
    destruct (bool_decide_reflect (u = firstn (length u) (pr_tag P s))) as [H|H]; [|done]. intros X; injection X as <- <-. eauto.
  - intros X; injection X as <- <-. done.
Qed.

Lemma last_enc m mode tl dl s0 D out p d room m' o n : mode = MGcm \/ mode = MCcm -> live m mode true tl dl s0 D out ->
  enc_msg_final P m p d room = (m', o) -> o_res o = Ok n ->
  m_mode P m' = mode /\ m_used P m' = false /\
  exists s1 o1, o_tag o = Some (firstn tl (pr_tag P s1)) /\ out ++ o_data o = o1 /\
    match mode with MCcm => pr_shot P s0 (D ++ d) = Some (s1, o1) | _ => run_bytes P s0 (D ++ d) = (s1, o1) end.
Proof using Type.
  intros Hm Hl E Hn. pose proof Hl as [l1 l2 l3 l4 l5 l6]. unfold enc_msg_final in E.
  destruct (m_final P m); [injection E as <- <-; discriminate Hn|]. rewrite l5 in E. cbn [negb] in E. cbv zeta in E.
  destruct (_ && negb _) eqn:E1; [injection E as <- <-; discriminate Hn|].
  destruct (_ && (_ <? _)) eqn:E2; [injection E as <- <-; discriminate Hn|].
  destruct (check_msg P m p) as [m1 [tag|]] eqn:Ec; [|injection E as <- <-; discriminate Hn].
  apply check_ok in Ec as [-> _]. rewrite l1 in E. rewrite l1 in E1, E2.
  destruct Hm as [->| ->].
  - destruct (msg_next P m p d room) as [m2 [o2|e]] eqn:En; [|injection E as <- <-; discriminate Hn].
    pose proof (next_live _ _ _ _ _ _ _ _ _ _ _ _ _ (or_introl eq_refl) Hl En) as [k1 k2 k3 k4 k5 k6].
    destruct k6 as (t' & Hc & Ho). rewrite Hc in E.
    destruct (cx_final P _ room) as [[x o3]|] eqn:Ef; [|injection E as <- <-; discriminate Hn].
    apply (final_evp _ _ _ _ _ _ _ (or_introl eq_refl)) in Ef as (-> & -> & _).
    destruct tag as [u|]; [|injection E as <- <-; discriminate Hn]. injection E as <- <-.
    split; [exact k1|]. split; [done|]. cbn [o_tag o_data]. unfold cx_get_tag. cbn [x_st]. rewrite k3, Ho.
    exists (fst (run_bytes P s0 (D ++ d))), (snd (run_bytes P s0 (D ++ d))). split; [done|]. split; [done|]. by destruct (run_bytes P s0 (D ++ d)).
  - destruct l6 as (t' & Hc & Hb & ->). cbn [andb] in E1, E2. rewrite l4, Hb in *. cbn [m_set m_ctx] in E. rewrite Hc in E. cbv zeta in E.
    assert (Ec : (if length d <? dl then (if length d <? dl then D ++ d else D) else d) = D ++ d).
    { destruct (Nat.ltb_spec (length d) dl); [done|]. assert (length D = 0) by lia. by destruct D. }
    rewrite Ec in E. destruct (cx_update P _ (D ++ d) room) as [[x o3]|] eqn:Eu; [|injection E as <- <-; discriminate Hn].
    unfold cx_update in Eu. match type of Eu with (if ?b then _ else _) = _ => destruct b; [discriminate Eu|] end. unfold evp_update in Eu. cbn [x_mode x_st x_enc x_tag x_held] in Eu.
    destruct (pr_shot P s0 (D ++ d)) as [[s1 o1]|]; [|discriminate Eu]. injection Eu as <- <-. cbn [m_set m_ctx] in E.
    unfold x_with in E. cbn [x_mode x_enc x_tag] in E.
    destruct (cx_final P _ room) as [[x o3]|] eqn:Ef; [|injection E as <- <-; discriminate Hn].
    apply (final_evp _ _ _ _ _ _ _ (or_intror eq_refl)) in Ef as (-> & -> & _).
    destruct tag as [u|]; [|injection E as <- <-; discriminate Hn]. injection E as <- <-.
    split; [exact l1|]. split; [done|]. exists s1, o1. cbn [o_tag o_data]. unfold cx_get_tag. cbn [x_st m_set m_taglen]. by rewrite l3.
Qed.

Lemma last_dec m mode tl dl s0 D out p d room m' o n : mode = MGcm \/ mode = MCcm -> live m mode false tl dl s0 D out ->
  dec_msg_final P m p d room = (m', o) -> o_res o = Ok n ->
  m_mode P m' = mode /\ m_used P m' = false /\
  exists q tag s1 o1, p = Some q /\ q_tag q = Some tag /\ out ++ o_data o = o1 /\
    firstn tl tag = firstn (length (firstn tl tag)) (pr_tag P s1) /\
    match mode with MCcm => pr_shot P s0 (D ++ d) = Some (s1, o1) | _ => run_bytes P s0 (D ++ d) = (s1, o1) end.
Proof using Type.
  intros Hm Hl E Hn. pose proof Hl as [l1 l2 l3 l4 l5 l6]. unfold dec_msg_final in E.
  destruct (m_final P m); [injection E as <- <-; discriminate Hn|]. rewrite l5 in E. cbn [negb] in E.
  destruct (check_msg P m p) as [m1 [tag|]] eqn:Ec; [|injection E as <- <-; discriminate Hn].
  apply check_ok in Ec as [-> (q & -> & Hq)]. rewrite l1 in E. cbv zeta in E.
  destruct (_ && negb _) eqn:E1; [injection E as <- <-; discriminate Hn|].
  destruct (_ && (_ <? _)) eqn:E2; [injection E as <- <-; discriminate Hn|].
  destruct tag as [tag|]; [|injection E as <- <-; discriminate Hn]. rewrite l3 in E.
  destruct Hm as [->| ->].
  - destruct l6 as (t' & Hc & Ho). rewrite Hc in E. cbn [m_set m_mode] in E. rewrite l1 in E.
    set (m2 := m_set P m _ _) in E.
    assert (Hl2 : live m2 MGcm false tl dl s0 D out) by (split; try done; exists (Some (firstn tl tag)); done).
    assert (Ht : m_ctx P m2 = XLive P (Evp P MGcm false (fst (run_bytes P s0 D)) [] (Some (firstn tl tag)))) by done.
    destruct (msg_next P m2 (Some q) d room) as [m3 [o3|e]] eqn:En; [|injection E as <- <-; discriminate Hn].
    pose proof (next_live _ _ _ _ _ _ _ _ _ _ _ _ _ (or_introl eq_refl) Hl2 En) as [k1 k2 k3 k4 k5 k6].
    assert (Ht3 : m_ctx P m3 = XLive P (Evp P MGcm false (fst (run_bytes P s0 (D ++ d))) [] (Some (firstn tl tag)))).
    { clear -En Ht l5 l1. unfold msg_next in En. destruct (m_final P m2); [discriminate En|].
      change (m_used P m2) with (m_used P m) in En. rewrite l5 in En. cbn [negb] in En.
      destruct (check_msg P m2 (Some q)) as [m4 [t4|]] eqn:Ec; [|discriminate En]. apply check_ok in Ec as [-> _].
      change (m_mode P m2) with (m_mode P m) in En. rewrite l1 in En. destruct (_ <? _); [discriminate En|]. rewrite Ht in En.
      destruct (Nat.eqb_spec (length d) 0) as [L|L]; [destruct d; [|discriminate L]; injection En as <- <-; rewrite app_nil_r; exact Ht|].
      destruct (cx_update P _ _ _) as [[x o']|] eqn:Eu; [|discriminate En]. injection En as <- <-.
      apply gcm_update in Eu as [-> Eu]. done. }
    rewrite Ht3 in E. destruct (cx_final P _ 0) as [[x o4]|] eqn:Ef; [|injection E as <- <-; discriminate Hn].
    apply (final_evp _ _ _ _ _ _ _ (or_introl eq_refl)) in Ef as (-> & -> & Hu). destruct (Hu eq_refl eq_refl) as (u & X & Hu'). injection X as <-.
    injection E as <- <-. split; [exact k1|]. split; [done|]. exists q, tag, (fst (run_bytes P s0 (D ++ d))), (snd (run_bytes P s0 (D ++ d))).
    destruct k6 as (t6 & _ & Ho6). cbn [o_data]. split; [done|]. split; [done|]. split; [done|]. split; [done|]. by destruct (run_bytes P s0 (D ++ d)).
  - destruct l6 as (t' & Hc & Hb & ->). cbn [andb] in E1, E2. rewrite l4, Hb in *. rewrite Hc in E. cbn [m_set m_mode m_buf m_datalen] in E. rewrite ?l1, ?l4, ?Hb in E.
    assert (Ec : (if length d <? dl then (if length d <? dl then D ++ d else D) else d) = D ++ d).
    { destruct (Nat.ltb_spec (length d) dl); [done|]. assert (length D = 0) by lia. by destruct D. }
    rewrite Ec in E. destruct (cx_update P _ (D ++ d) room) as [[x o3]|] eqn:Eu; [|injection E as <- <-; discriminate Hn].
    injection E as <- <-. cbn [o_data m_idle m_set m_mode m_used]. split; [exact l1|]. split; [done|].
    unfold cx_update in Eu. match type of Eu with (if ?b then _ else _) = _ => destruct b; [discriminate Eu|] end. unfold evp_update, cx_set_tag in Eu. cbn [x_mode x_st x_enc x_tag x_held] in Eu.
    destruct (pr_shot P s0 (D ++ d)) as [[s1 o1]|]; [|discriminate Eu].
    match type of Eu with context [bytes_eqb ?a ?b] => destruct (bytes_eqb a b) eqn:H; [|discriminate Eu] end. apply bool_decide_eq_true in H.
    injection Eu as <- <-. exists q, tag, s1, o1. done.
Qed.

Lemma parts_live mode enc tl dl s0 ds : (mode = MGcm \/ mode = MCcm) -> forall m D out m' tr p d room,
  live m mode enc tl dl s0 D out -> mrun P m (map (fun '(q, x, n) => MNext q x n) ds ++ [MLast p d room]) = (m', tr) -> all_ok tr ->
  exists m1 o n tr1, live m1 mode enc tl dl s0 (D ++ concat (map (fun '(_, x, _) => x) ds)) (out ++ output tr1) /\
    msg_final P m1 p d room = (m', o) /\ o_res o = Ok n /\ tr = tr1 ++ [(MLast p d room, o)].
Proof using Type.
  intros Hm. induction ds as [|[[q x] k] ds IH]; intros m D out m' tr p d room Hl E Ha.
  - cbn [map app mrun mstep] in E. pose proof (lv_used _ _ _ _ _ _ _ _ Hl) as Hu. rewrite Hu in E. cbn [negb] in E.
    destruct (msg_final P m p d room) as [m1 o] eqn:Ef. injection E as <- <-. apply List.Forall_cons_iff in Ha as [[n Hn] _]. cbn [snd] in Hn.
    exists m, o, n, []. cbn [map concat app output]. rewrite !app_nil_r. done.
  - cbn [map app mrun mstep] in E. pose proof (lv_used _ _ _ _ _ _ _ _ Hl) as Hu. rewrite Hu in E. cbn [negb] in E.
    destruct (msg_next P m q x k) as [m1 [o|e]] eqn:En.
    + destruct (mrun P m1 _) as [m2 tr2] eqn:Er. injection E as <- <-. apply List.Forall_cons_iff in Ha as [_ Ha].
      pose proof (next_live _ _ _ _ _ _ _ _ _ _ _ _ _ Hm Hl En) as Hl1.
      destruct (IH m1 _ _ m2 tr2 p d room Hl1 Er Ha) as (m3 & o3 & n & tr3 & H1 & H2 & H3 & ->).
      exists m3, o3, n, ((MNext q x k, Mout None None o (Ok (length o))) :: tr3).
      split; [|done]. unfold output in *. cbn [map concat snd o_data]. rewrite !app_assoc. rewrite <- app_assoc in H1. rewrite !app_assoc in H1. exact H1.
    + destruct (mrun P m1 _) as [m2 tr2]. injection E as <- <-. apply List.Forall_cons_iff in Ha as [[n Hn] _]. discriminate Hn.
Qed.

Lemma output_last b tr o c : output (b :: tr ++ [(c, o)]) = o_data (snd b) ++ output tr ++ o_data o.
Proof using Type. unfold output. cbn [map concat]. rewrite map_app, concat_app. cbn [map concat snd]. by rewrite app_nil_r. Qed.
Lemma aead_is mode enc iv aad tl dl s D s1 o1 : pr_start P mode enc iv aad tl dl = Some s -> mode = MGcm \/ mode = MCcm ->
  match mode with MCcm => pr_shot P s D = Some (s1, o1) | _ => run_bytes P s D = (s1, o1) end ->
  aead P mode enc iv aad tl dl D = Some (o1, pr_tag P s1).
Proof using Type. intros Hs Hm H. unfold aead. rewrite Hs. destruct Hm as [->| ->]; by rewrite H. Qed.

(* A message encrypted in pieces, by an operation in whatever state: if all calls succeed, the pieces of output make up
   the encryption of the whole data under the IV the caller was given, and the tag is the tag of that encryption.  For
   CCM the operation must have no data left from an earlier message. *)
Theorem C45_encrypt_partial m q aad rnd ds q' d room m' tr :
  m_enc P m = true -> (m_mode P m = MCcm -> m_buf P m = []) ->
  mrun P m (in_parts q aad rnd ds q' d room) = (m', tr) -> all_ok tr ->
  exists iv t, iv_of tr = Some iv /\
    aead P (m_mode P m) true iv aad (tag_len (m_mode P m) q) (data_len (m_mode P m) q) (data_of ds d) = Some (output tr, t) /\
    tag_of tr = Some (firstn (tag_len (m_mode P m) q) t).
Proof using Type.
  intros He Hb E Ha. unfold in_parts in E. cbn [mrun mstep] in E.
  destruct (msg_begin P m (Some q) aad rnd) as [m1 [iv|e]] eqn:Eb.
  2:{ destruct (mrun P m1 _) as [m2 tr2]. injection E as <- <-. apply List.Forall_cons_iff in Ha as [[n Hn] _]. discriminate Hn. }
  destruct (begin_live m q aad rnd m1 iv Eb Hb) as (s & Hs & Hm & Hl). rewrite He in *.
  destruct (mrun P m1 _) as [m2 tr2] eqn:Er. injection E as <- <-. apply List.Forall_cons_iff in Ha as [_ Ha].
  destruct (parts_live _ _ _ _ _ ds Hm m1 _ _ m2 tr2 _ d room Hl Er Ha) as (m3 & o3 & n & tr3 & H1 & H2 & H3 & ->).
  pose proof (lv_enc _ _ _ _ _ _ _ _ H1) as He3. unfold msg_final in H2. rewrite He3 in H2.
  destruct (last_enc _ _ _ _ _ _ _ _ _ _ _ _ _ Hm H1 H2 H3) as (G1 & G2 & s1 & o1 & G3 & G4 & G5).
  exists iv, (pr_tag P s1). split; [done|]. rewrite output_last. cbn [snd o_data app] in *. rewrite G4. split.
  - exact (aead_is _ _ _ _ _ _ _ _ _ _ Hs Hm G5).
  - unfold tag_of. cbn [rev]. rewrite rev_app_distr. cbn [rev app snd]. exact G3.
Qed.

(* Decryption likewise; and all calls succeed only if the tag given with the last one is the right one. *)
Theorem C45_decrypt_partial m q aad rnd ds q' d room m' tr tag :
  m_enc P m = false -> (m_mode P m = MCcm -> m_buf P m = []) -> q_tag q' = Some tag -> tag_len (m_mode P m) q <= length tag ->
  mrun P m (in_parts q aad rnd ds q' d room) = (m', tr) -> all_ok tr ->
  exists iv t, iv_of tr = Some iv /\
    aead P (m_mode P m) false iv aad (tag_len (m_mode P m) q) (data_len (m_mode P m) q) (data_of ds d) = Some (output tr, t) /\
    firstn (tag_len (m_mode P m) q) tag = firstn (tag_len (m_mode P m) q) t.
Proof using Type.
  intros He Hb Ht Hlen E Ha. unfold in_parts in E. cbn [mrun mstep] in E.
  destruct (msg_begin P m (Some q) aad rnd) as [m1 [iv|e]] eqn:Eb.
  2:{ destruct (mrun P m1 _) as [m2 tr2]. injection E as <- <-. apply List.Forall_cons_iff in Ha as [[n Hn] _]. discriminate Hn. }
  destruct (begin_live m q aad rnd m1 iv Eb Hb) as (s & Hs & Hm & Hl). rewrite He in *.
  destruct (mrun P m1 _) as [m2 tr2] eqn:Er. injection E as <- <-. apply List.Forall_cons_iff in Ha as [_ Ha].
  destruct (parts_live _ _ _ _ _ ds Hm m1 _ _ m2 tr2 _ d room Hl Er Ha) as (m3 & o3 & n & tr3 & H1 & H2 & H3 & ->).
  pose proof (lv_enc _ _ _ _ _ _ _ _ H1) as He3. unfold msg_final in H2. rewrite He3 in H2.
  destruct (last_dec _ _ _ _ _ _ _ _ _ _ _ _ _ Hm H1 H2 H3) as (G1 & G2 & q1 & tag1 & s1 & o1 & X & G3 & G4 & G5 & G6).
  injection X as <-. rewrite Ht in G3. injection G3 as <-.
  exists iv, (pr_tag P s1). split; [done|]. rewrite output_last. cbn [snd o_data app] in *. rewrite G4. split.
  - exact (aead_is _ _ _ _ _ _ _ _ _ _ Hs Hm G6).
  - rewrite firstn_length_le in G5 by done. exact G5.
Qed.

(* The single call is the message in one piece. *)
Theorem C45_single m q aad rnd d room m' o n :
  m_used P m = false -> mstep P m (MSingle (Some q) aad rnd d room) = (m', o) -> o_res o = Ok n ->
  exists tr, mrun P m (in_parts q aad rnd [] q d room) = (m', tr) /\ all_ok tr /\
    output tr = o_data o /\ iv_of tr = o_iv o /\ tag_of tr = o_tag o.
Proof using Type.
  intros Hu E Hn. cbn [mstep] in E. rewrite Hu in E. destruct (msg_begin P m (Some q) aad rnd) as [m1 [iv|e]] eqn:Eb; [|injection E as <- <-; discriminate Hn].
  destruct (msg_final P m1 (Some q) d room) as [m2 o2] eqn:Ef. injection E as <- <-. cbn [o_res] in Hn.
  unfold in_parts. cbn [map app mrun mstep]. rewrite Eb. cbn [mrun].
  assert (Hu1 : m_used P m1 = true).
  { clear -Eb. unfold msg_begin in Eb. repeat match type of Eb with context [match ?x with _ => _ end] => destruct x; try discriminate Eb end.
    all: injection Eb as <- <-; done. }
  rewrite Hu1. cbn [negb]. rewrite Ef. eexists. split; [reflexivity|]. unfold output, iv_of, tag_of. cbn.
  rewrite app_nil_r. split; [|done]. constructor; [by eexists|]. constructor; [by eexists|constructor].
Qed.

(* What two parties need of the cipher: what one encrypts, the other can decrypt, with the same tag. *)
Definition inverse (mode : amode) : Prop := forall iv aad tl dl D o t,
  aead P mode true iv aad tl dl D = Some (o, t) -> aead P mode false iv aad tl dl o = Some (D, t).

(* A message encrypted in any pieces and decrypted in any pieces, by operations with the same key and with any history,
   comes out as it went in. *)
Theorem C45_round_trip_partial me md q aad rnd ds q' d room m1 tr qd rndd dsd qd' dd roomd m2 trd iv tag tagd :
  m_mode P me = m_mode P md -> inverse (m_mode P me) -> m_enc P me = true -> m_enc P md = false ->
  (m_mode P me = MCcm -> m_buf P me = []) -> (m_mode P md = MCcm -> m_buf P md = []) ->
  mrun P me (in_parts q aad rnd ds q' d room) = (m1, tr) -> all_ok tr -> iv_of tr = Some iv -> tag_of tr = Some tag ->
  q_tagn qd = q_tagn q -> q_len qd = q_len q -> data_of dsd dd = output tr ->
  q_tag qd' = Some tagd -> tag_len (m_mode P me) q <= length tagd ->
  mrun P md (in_parts qd aad rndd dsd qd' dd roomd) = (m2, trd) -> all_ok trd -> iv_of trd = Some iv ->
  output trd = data_of ds d /\ firstn (tag_len (m_mode P me) q) tagd = tag.
Proof using Type.
  intros Hmode Hinv He Hd Hbe Hbd E1 A1 I1 T1 Q1 Q2 Hdata Htag Hlen E2 A2 I2.
  destruct (C45_encrypt_partial me q aad rnd ds q' d room m1 tr He Hbe E1 A1) as (iv1 & t & X & Ha & Ht).
  rewrite I1 in X. injection X as <-. rewrite T1 in Ht. injection Ht as ->.
  assert (Ktl : forall mode, tag_len mode qd = tag_len mode q) by (intros mode; unfold tag_len; by rewrite Q1).
  assert (Kdl : forall mode, data_len mode qd = data_len mode q) by (intros mode; unfold data_len; by rewrite Q2).
  destruct (C45_decrypt_partial md qd aad rndd dsd qd' dd roomd m2 trd tagd Hd Hbd Htag) as (iv2 & t2 & X & Hb & Ht2); [by rewrite <- Hmode, Ktl|done|done|].
  rewrite I2 in X. injection X as <-. rewrite <- Hmode, Ktl, Kdl, Hdata in *.
  apply Hinv in Ha. rewrite Ha in Hb. injection Hb as H1 H2. subst t2. by rewrite H1.
Qed.
End Aead.

(* An operation that has only been used for whole messages, or one with GCM, fulfils the conditions above. *)
Definition whole_only (l : list mcall) : Prop :=
  Forall (fun c => match c with MSingle _ _ _ _ _ | MFinish => True | _ => False end) l.
Lemma run_keeps P m l : m_mode P (fst (mrun P m l)) = m_mode P m /\ m_enc P (fst (mrun P m l)) = m_enc P m.
Proof.
  assert (Hc : forall m p, m_mode P (fst (check_msg P m p)) = m_mode P m).
  { intros m0 p. unfold check_msg, m_fatal. repeat match goal with |- context [match ?x with _ => _ end] => destruct x eqn:?; try done end. }
  assert (Hn : forall m p d room, m_mode P (fst (msg_next P m p d room)) = m_mode P m).
  { intros m0 p d room. unfold msg_next. destruct (m_final P m0); [done|]. destruct (negb (m_used P m0)); [done|].
    rewrite <- (Hc m0 p). destruct (check_msg P m0 p) as [m1 [t|e]]; [|done]. cbn [fst]. unfold m_fatal.
    repeat match goal with |- context [match ?x with _ => _ end] => destruct x eqn:?; try done end. }
  assert (Hf : forall m p d room, m_mode P (fst (msg_final P m p d room)) = m_mode P m).
  { intros m0 p d room. unfold msg_final. destruct (m_enc P m0).
    - unfold enc_msg_final. destruct (m_final P m0); [done|]. destruct (negb (m_used P m0)); [done|]. cbv zeta.
      destruct (_ && negb _); [done|]. destruct (_ && (_ <? _)); [done|].
      rewrite <- (Hc m0 p). destruct (check_msg P m0 p) as [m1 [t|e]]; [|done]. cbn [fst].
      match goal with |- context [let '(m, r) := ?X in _] => assert (HX : m_mode P (fst X) = m_mode P m1); [|destruct X as [m2 r2]] end.
      + destruct (m_mode P m1) eqn:Em; try (rewrite <- Em; apply Hn). unfold m_fatal.
        repeat match goal with |- context [match ?x with _ => _ end] => destruct x eqn:?; try done end.
      + cbn [fst] in HX. rewrite <- HX. repeat match goal with |- context [match ?x with _ => _ end] => destruct x eqn:?; try done end.
    - unfold dec_msg_final. destruct (m_final P m0); [done|]. destruct (negb (m_used P m0)); [done|].
      rewrite <- (Hc m0 p). destruct (check_msg P m0 p) as [m1 [t|e]]; [|done]. cbn [fst]. cbv zeta.
      destruct (_ && negb _); [done|]. destruct (_ && (_ <? _)); [done|].
      destruct t as [t|]; [|done]. destruct (m_ctx P m1) as [| |x]; try done.
      set (m2 := m_set P m1 _ _). change (m_mode P m1) with (m_mode P m2).
      pose proof (Hn m2 p d room) as HX.
      destruct (m_mode P m2) eqn:Em; try (destruct (msg_next P m2 p d room) as [m3 r3]; cbn [fst] in HX; rewrite <- HX; destruct r3; [|done];
        repeat match goal with |- context [match ?x with _ => _ end] => destruct x eqn:?; try done end).
      destruct (cx_update P _ _ _) as [[x1 o]|]; by rewrite <- Em. }
  assert (Hb : forall m p aad rnd, m_mode P (fst (msg_begin P m p aad rnd)) = m_mode P m /\ m_enc P (fst (msg_begin P m p aad rnd)) = m_enc P m).
  { intros m0 p aad rnd. unfold msg_begin. destruct (m_final P m0); [done|]. destruct (m_used P m0); [done|].
    destruct (init_msg P m0 p aad) as [m1|] eqn:Ei; [|done].
    assert (H1 : m_mode P m1 = m_mode P m0 /\ m_enc P m1 = m_enc P m0).
    { unfold init_msg in Ei. destruct p as [q|]; [|discriminate Ei]. cbv zeta in Ei.
      destruct (m_mode P m0) eqn:E1; try discriminate Ei; (destruct (q_iv q) as [b|]; [|discriminate Ei]);
      repeat match type of Ei with context [if ?x then _ else _] => destruct x; try discriminate Ei end; injection Ei as <-; done. }
    cbv zeta. match goal with |- context [let '(_, _) := ?X in _] => destruct X as [v [[]|e]] end; [|exact H1]. destruct (pr_start P _ _ _ _ _ _); exact H1. }
  revert m. induction l as [|c l IH]; intros m; [done|]. cbn [mrun].
  assert (Hs : m_mode P (fst (mstep P m c)) = m_mode P m /\ m_enc P (fst (mstep P m c)) = m_enc P m).
  { destruct c as [p aad rnd|p d room|p d room|p aad rnd d room|]; cbn [mstep].
    - pose proof (Hb m p aad rnd) as H. destruct (msg_begin P m p aad rnd) as [m1 [x|e]]; exact H.
    - destruct (negb _); [done|]. pose proof (next_keeps P m p d room) as [_ H]. pose proof (Hn m p d room) as H'.
      destruct (msg_next P m p d room) as [m1 [x|e]]; done.
    - destruct (negb _); [done|]. split; [apply Hf|apply final_keeps].
    - destruct (m_used P m); [done|]. pose proof (Hb m p aad rnd) as H. destruct (msg_begin P m p aad rnd) as [m1 [x|e]]; [|exact H].
      pose proof (Hf m1 p d room) as H1. pose proof (final_keeps P m1 p d room) as [_ H2]. destruct (msg_final P m1 p d room) as [m2 o].
      cbn [fst] in *. destruct H as [<- <-]. done.
    - unfold msg_finalize. by destruct (m_used P m). }
  destruct (mstep P m c) as [m1 o]. specialize (IH m1). destruct (mrun P m1 l) as [m2 tr]. cbn [fst] in *. destruct Hs as [<- <-]. exact IH.
Qed.

Lemma whole_empty P m l : m_buf P m = [] -> m_mode P m = MCcm -> whole_only l -> m_buf P (fst (mrun P m l)) = [].
Proof.
  intros Hb Hm Hl. revert m Hb Hm. induction Hl as [|c l Hc Hl IH]; intros m Hb Hm; [done|].
  cbn [mrun]. pose proof (run_keeps P m [c]) as [Hk _]. cbn [mrun] in Hk. destruct (mstep P m c) as [m1 o] eqn:E1. cbn [fst] in Hk.
  assert (Hb1 : m_buf P m1 = []).
  2:{ specialize (IH m1 Hb1 ltac:(congruence)). destruct (mrun P m1 l) as [m2 tr]. exact IH. }
  destruct c as [p aad rnd|p d room|p d room|p aad rnd d room|]; try done; cbn [mstep] in E1.
  2:{ unfold msg_finalize in E1. destruct (m_used P m); injection E1 as <- <-; done. }
  destruct (m_used P m); [injection E1 as <- <-; done|].
  assert (Hbe : m_buf P (fst (msg_begin P m p aad rnd)) = [] /\ m_mode P (fst (msg_begin P m p aad rnd)) = MCcm).
  { unfold msg_begin. destruct (m_final P m); [done|]. destruct (m_used P m); [done|].
    destruct (init_msg P m p aad) as [m2|] eqn:Ei; [|done].
    assert (H1 : m_mode P m2 = MCcm /\ m_buf P m2 = []).
    { unfold init_msg in Ei. destruct p as [q|]; [|discriminate Ei]. cbv zeta in Ei.
      rewrite Hm in Ei. destruct (q_iv q) as [b|]; [|discriminate Ei].
      repeat match type of Ei with context [if ?x then _ else _] => destruct x; try discriminate Ei end; injection Ei as <-; done. }
    cbv zeta. match goal with |- context [let '(_, _) := ?X in _] => destruct X as [v [[]|e]] end; [|by destruct H1]. destruct (pr_start P _ _ _ _ _ _); by destruct H1. }
  destruct (msg_begin P m p aad rnd) as [m2 [iv|e]]; cbn [fst] in Hbe; destruct Hbe as [Hb2 Hm2]; [|injection E1 as <- <-; done].
  assert (Hf : m_buf P (fst (msg_final P m2 p d room)) = []).
  { assert (Hc' : forall m, m_mode P (fst (check_msg P m p)) = m_mode P m /\ m_buf P (fst (check_msg P m p)) = m_buf P m /\ m_datalen P (fst (check_msg P m p)) = m_datalen P m).
    { intros m0. unfold check_msg, m_fatal. repeat match goal with |- context [match ?x with _ => _ end] => destruct x eqn:?; try done end. }
    unfold msg_final. destruct (m_enc P m2).
    - unfold enc_msg_final. destruct (m_final P m2); [done|]. destruct (negb (m_used P m2)); [done|]. cbv zeta. rewrite Hm2. cbn [andb].
      destruct (Nat.eqb_spec (length d + length (m_buf P m2)) (m_datalen P m2)) as [L|L]; cbn [negb]; [|done].
      destruct (room <? m_datalen P m2); [done|]. rewrite Hb2 in L. cbn [length] in L. destruct (Hc' m2) as (C1 & C2 & C3).
      destruct (check_msg P m2 p) as [m3 [t|e]]; cbn [fst] in *; [|by rewrite C2]. rewrite C1, Hm2, C3, C2, Hb2.
      destruct (Nat.ltb_spec (length d) (m_datalen P m2)); [lia|]. cbv zeta.
      match goal with |- context [let '(_, _) := ?X in _] => assert (HX : m_buf P (fst X) = []); [|destruct X as [m4 [r4|e4]]; cbn [fst] in HX] end.
      + cbn [m_set m_ctx]. unfold m_fatal. destruct (m_ctx P m3) as [| |x]; try done. destruct (cx_update P x d room) as [[x1 o1]|]; done.
      + destruct (m_ctx P m4) as [| |x]; [done|done|]. destruct (cx_final P x room) as [[x1 [|]]|]; [|done|done]. by destruct t.
      + done.
    - unfold dec_msg_final. destruct (m_final P m2); [done|]. destruct (negb (m_used P m2)); [done|].
      destruct (Hc' m2) as (C1 & C2 & C3). destruct (check_msg P m2 p) as [m3 [t|e]]; cbn [fst] in *; [|by rewrite C2]. cbv zeta.
      rewrite C1, Hm2, C2, C3, Hb2. cbn [andb length]. destruct (Nat.eqb_spec (length d + 0) (m_datalen P m2)) as [L|L]; cbn [negb fst]; [|by cbn; rewrite C2].
      destruct (room <? m_datalen P m2); [by cbn; rewrite C2|]. destruct t as [t|]; [|by cbn; rewrite C2].
      destruct (m_ctx P m3) as [| |x]; [by cbn; rewrite C2|by cbn; rewrite C2|]. cbn [m_set m_mode m_buf m_datalen]. rewrite C1, Hm2, C3.
      destruct (Nat.ltb_spec (length d) (m_datalen P m2)); [lia|].
      destruct (cx_update P _ _ _) as [[x1 o1]|]; done. }
  destruct (msg_final P m2 p d room) as [m3 o3]. injection E1 as <- <-. exact Hf.
Qed.
Theorem C45_history P mode enc l : mode = MGcm \/ whole_only l -> let m := fst (mrun P (msg_init P mode enc) l) in
  m_enc P m = enc /\ (m_mode P m = MCcm -> m_buf P m = []).
Proof.
  intros Hl m. pose proof (run_keeps P (msg_init P mode enc) l) as [K1 K2]. split; [exact K2|]. intros Hm. fold m in K1. rewrite K1 in Hm.
  cbn [msg_init m_mode] in Hm. destruct Hl as [->|Hl]; [discriminate Hm|]. by apply whole_empty.
Qed.
