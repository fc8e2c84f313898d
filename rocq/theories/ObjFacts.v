(* What calls do to the objects that handles name. *)
From Verif Require Import Base Monad Hoare Attr Obj Factory Tables Create Sqlite Storage Token Backend State Api
  Rows ObjOk ObjNew Triple TokInv TokStep TokenFrame TokWp TokAuth Spec WorldFrame WorldWp Sessions SessionInv SessionFacts
  Lifecycle ObjWorld ObjView.

Section facts.
Context (P : params) (B : backend) (E : N -> keyenv) (Hfs : p_fs P = all_factories) (Hutf : forall n, utf8_valid (p_uuid P n) = true).
Notation world := (world B). Notation winv := (winv B). Notation token_of := (token_of B). Notation after := (after P B E).
Notation id_at := (id_at B). Notation attr_at := (attr_at B). Notation owner_at := (owner_at B).

Lemma after_winv w c : winv w -> winv (after w c).
Proof. apply step_winv; done. Qed.
Lemma token_ok w sid t : winv w -> token_of w sid = Some t -> tok_ok t.
Proof.
  intros [Hw _]. unfold Spec.token_of. destruct (w_slots w !! sid) as [sl|] eqn:Hs; cbn; [|done]. intros H. injection H as <-. exact (wo_slots _ _ Hw _ _ Hs).
Qed.
(* A call makes elementary steps on the token of one slot. *)
Lemma token_steps w c sid : winv w -> live_call c = true ->
  match token_of w sid, token_of (after w c) sid with
  | Some t, Some t' => t' = t \/ (sid = acting B w c /\ tsteps P (call_kind (op_stores B) (given B w c) c) t t')
  | None, None => True
  | _, _ => False
  end.
Proof.
  intros Hw Hc. destruct (live_step P B E Hfs Hutf w c Hc Hw) as [H1 _]. specialize (H1 sid). unfold Spec.token_of, Spec.after.
  inversion H1 as [a b [H2 H3] Ha Hb|Ha Hb]; cbn; [|done]. destruct (decide (sid = acting B w c)); auto.
Qed.
Lemma add_slots_keep l : forall a w, wp (add_slots P B l a) w (fun w' _ =>
  forall sid sl, w_slots w !! sid = Some sl -> w_slots w' !! sid = Some sl).
Proof.
  induction l as [|c l IH]; intros a w; cbn [add_slots]; [wp_step; auto|].
  wp_step. unfold slot_new. wp_step. wp_step.
  set (k := disk_of B (sc_disk c) w). destruct (token_new P _ _ _) as [t [[]|e]] eqn:Ht; [|wp_step; auto]. wp_step. wp_step. wp_step.
  destruct (nonnull (w_slots w !! sc_id c)) eqn:Hd; [apply IH|].
  wp_step. wp_step. eapply wp_mono; [apply IH|]. cbv beta. intros w' r H sid sl Hsl. apply H. cbn.
  rewrite lookup_insert_ne; [done|]. intros <-. by rewrite Hsl in Hd.
Qed.
Lemma init_keep w l sid t : winv w -> token_of w sid = Some t -> token_of (after w (Initialize l)) sid = Some t.
Proof.
  intros [_ HI] Ht. unfold Spec.token_of in *. destruct (w_slots w !! sid) as [sl|] eqn:Hs; cbn in Ht; [|done].
  assert (initialized B w = true) as Hi.
  { unfold initialized. destruct (N.eqb_spec (w_next w) 0) as [Hn|]; [|done]. rewrite (si_off _ _ HI Hn) in Hs. by rewrite lookup_empty in Hs. }
  assert (wp (c_initialize P B l) w (fun w' _ => w_slots w' !! sid = Some sl)) as Hwp.
  { unfold c_initialize. wp_step. wp_step. wp_step. rewrite Hi. wp_step. wp_step.
    eapply wp_mono; [apply add_slots_keep|]. cbv beta. intros w' r H. specialize (H _ _ Hs). destruct r; [|done]. wp_go. }
  unfold Spec.after. rewrite run_step. unfold wp in Hwp. cbn [api]. by rewrite Hwp.
Qed.

(* The handle table of a token that is not initialised anew only grows. *)
Lemma step_grows w c sid t : winv w -> keeps_token sid c = true -> token_of w sid = Some t ->
  exists t', token_of (after w c) sid = Some t' /\ grows t t'.
Proof.
  intros Hw Hk Ht. destruct (live_call c) eqn:Hc.
  - pose proof (token_steps w c sid Hw Hc) as H. rewrite Ht in H. destruct (token_of (after w c) sid) as [t'|]; [|done]. exists t'. split; [done|].
    destruct H as [->|[Hs H]]; [reflexivity|]. eapply tsteps_grows; [done|]. destruct c; cbn [call_kind]; try solve [intros []].
    unfold acting in Hs. cbn [slot_of_call keeps_token] in Hs, Hk. lia.
  - destruct c; try discriminate Hc; try discriminate Hk. exists t. split; [by apply init_keep|reflexivity].
Qed.
Lemma run_grows cs : forall w sid t, winv w -> forallb (keeps_token sid) cs = true -> token_of w sid = Some t ->
  exists t', token_of (fst (run P B E w cs)) sid = Some t' /\ grows t t' /\ winv (fst (run P B E w cs)).
Proof.
  induction cs as [|c cs IH]; intros w sid t Hw Hk Ht; [exists t; split_and!; [done|reflexivity|done]|].
  cbn [forallb] in Hk. apply andb_prop in Hk as [Hk1 Hk2]. destruct (step_grows w c sid t Hw Hk1 Ht) as (t1 & H1 & G1).
  destruct (IH (after w c) sid t1 (after_winv w c Hw) Hk2 H1) as (t' & H2 & G2 & W2).
  cbn [run]. unfold Spec.after in *. destruct (step P B E w c) as [w1 o]. cbn [fst] in *. destruct (run P B E w1 cs) as [w2 os]. cbn [fst] in *.
  exists t'. split_and!; [done|by etransitivity|done].
Qed.

(* ---- ownership: session objects belong to open sessions ---- *)
Definition own_ok (w : world) : Prop := forall sid h s, owner_at w sid h = Some s -> w_smap w !! s = Some sid.
Lemma tstep_owner k t t' h o' : tok_ok t -> tstep P k t t' -> t_sobjs t' !! h = Some o' ->
  (exists o, t_sobjs t !! h = Some o /\ o_session o' = o_session o) \/ exists odd, k = KSadd odd (o_session o').
Proof.
  intros Ht Hs. destruct Hs as [t t' H1 H2 H3 Hdd Hfl b Hca Hlo|t|t uid Hu|t h' H1 Hdy|t sh o uid H1 H2 H3 H4|t h' tmpl o f H1 H2|t h' o H1 H2|t sel|t o uid s H1 H2 H3 H4 H5
    |t h' tmpl uid o f tm o0 s H1 H2 H3 H4 H5 H6 H7 H8 H9|t h' o o0 uid s H0 H1 H2 H3 H4 H5|t h' uid s H1 H2 Hns Hdy|t|t]; cbn; intros HH; try (left; by eauto).
  - left. rewrite H2 in HH. eauto.
  - apply lookup_insert_Some in HH as [[<- <-]|[_ HH]]; [right; eexists; reflexivity|left; eauto].
  - apply lookup_insert_Some in HH as [[<- <-]|[_ HH]]; [|left; eauto]. left. exists o. split; [done|].
    apply (set_obj_same f o tmpl). by eapply obj_factory_good.
  - apply lookup_delete_Some in HH as [_ HH]. left; eauto.
  - rewrite foldr_delete_lookup in HH. destruct (decide _); [done|]. left; eauto.
Qed.
Lemma tsteps_owner K t t' h o' : tok_ok t -> tsteps P K t t' -> t_sobjs t' !! h = Some o' ->
  (exists o, t_sobjs t !! h = Some o /\ o_session o' = o_session o) \/ exists odd, K (KSadd odd (o_session o')).
Proof.
  intros Ht Hs. revert Ht. induction Hs as [|t t1 t' (k & Hk1 & H1) _ IH]; intros Ht H; [left; eauto|].
  destruct (IH (tstep_ok P Hfs _ _ _ Ht H1) H) as [(o & H2 & H3)|?]; [|by right].
  destruct (tstep_owner _ _ _ _ _ Ht H1 H2) as [(o1 & H4 & H5)|[odd H4]]; [left; exists o1; split; [done|congruence]|]. right. exists odd. rewrite H3. by subst k.
Qed.
Lemma owner_some t h s : owner t h = Some s <-> exists o, t_sobjs t !! h = Some o /\ o_session o = s /\ s <> CK_INVALID_HANDLE.
Proof.
  unfold owner. destruct (t_sobjs t !! h) as [o|]; [|split; [done|by intros (? & ? & _)]].
  destruct (N.eqb_spec (o_session o) CK_INVALID_HANDLE) as [He|He]; split; try done.
  - intros (o' & H1 & H2 & H3). congruence.
  - intros H. injection H as <-. eauto.
  - intros (o' & H1 & H2 & H3). congruence.
Qed.
(* The table of the sessions changes only when sessions are opened or closed. *)
Lemma smap_same w c : live_call c = true -> match c with OpenSession _ _ _ | CloseSession _ | CloseAllSessions _ => False | _ => True end ->
  w_smap (after w c) = w_smap w.
Proof.
  intros Hc Ho. unfold Spec.after. rewrite run_step. destruct (quiet_call c) eqn:Hq.
  { apply (quiet_call_rel B P E c w Hq). }
  assert (forall (m : M world (N * out)), wp m w (fun w' _ => w_smap w' = w_smap w) -> w_smap (fst (m w)) = w_smap w) as Hwp.
  { intros m H. exact H. }
  destruct c; try discriminate Hq; try discriminate Hc; try done; cbn [api].
  - apply Hwp. unfold c_init_token. wp_all; cbn; done.
  - apply (quiet_init_pin B P h pin w).
  - apply Hwp. unfold c_set_pin. wp_all; cbn; done.
  - apply Hwp. unfold c_login, change_session_states, invalidate_session_states. wp_all; cbn; done.
  - apply Hwp. unfold c_logout, invalidate_session_states. wp_all; cbn; done.
Qed.

(* ---- closing sessions ---- *)
Definition objs_same (t t' : token) : Prop :=
  t_handles t' = t_handles t /\ t_sobjs t' = t_sobjs t /\ d_objs (t_db t') = d_objs (t_db t).
Global Instance objs_same_pre : PreOrder objs_same.
Proof. split; [done|]. intros a b c (A1 & A2 & A3) (B1 & B2 & B3). split_and!; congruence. Qed.
Lemma objs_view h t t' : objs_same t t' -> same_view h t t'.
Proof. intros (H1 & H2 & H3). split; unfold hm; [by rewrite H2|by rewrite H1|]. intros. by apply rows_of_objs. Qed.
Lemma logout_objs t : (exists r, tk_logout t = (t, r)) \/ objs_same (clear_private_session_objects t) (fst (tk_logout t)).
Proof.
  unfold tk_logout. rewrite run_bind. cbn [gets]. destruct (t_logged t =? KRY_UNSPEC); [left; by eexists|].
  destruct ((t_logged t =? CKU_SO) || (t_logged t =? CKU_USER)); [|left; by eexists]. right.
  rewrite run_bind. cbn [modify]. rewrite run_bind. cbn [modify]. rewrite run_bind.
  set (t1 := set_logged KRY_UNSPEC _).
  assert (objs_same t1 (fst (st_unauth_user (t_logged t) t1))) as H by (apply (rel_st_unauth_user objs_same); try apply _; done).
  unfold attempt. destruct (st_unauth_user _ _) as [t2 [[]|e]]; exact H.
Qed.
Lemma drop_none sel t : (forall h o, t_sobjs t !! h = Some o -> sel (h, o) = false) -> objs_same t (drop_objs sel t).
Proof.
  intros H. assert (List.filter sel (map_to_list (t_sobjs t)) = []) as He.
  { destruct (List.filter sel (map_to_list (t_sobjs t))) as [|[h o] l] eqn:Hf; [done|].
    assert (In (h, o) (List.filter sel (map_to_list (t_sobjs t)))) as Hin by (rewrite Hf; by left).
    apply List.filter_In in Hin as [H1 H2]. apply map_to_list_in in H1. rewrite (H _ _ H1) in H2. done. }
  unfold drop_objs. rewrite He. cbn. split_and!; try done. by destruct (t_handles t).
Qed.
(* Nobody owns an object of the token any more: logging out drops nothing. *)
Lemma logout_none t : no_sobjs t -> objs_same t (fst (tk_logout t)).
Proof.
  intros Hn. destruct (logout_objs t) as [[r ->]|H]; [done|]. etransitivity; [|exact H]. apply drop_none.
  intros h o Ho. cbn [snd]. rewrite (Hn _ _ Ho). done.
Qed.
Lemma drop_many_lookup l t h : t_sobjs (foldl (fun t h => drop_session_objects h t) t l) !! h =
    match t_sobjs t !! h with Some o => if existsb (N.eqb (o_session o)) l then None else Some o | None => None end /\
  hm (foldl (fun t h => drop_session_objects h t) t l) !! h =
    match t_sobjs t !! h with Some o => if existsb (N.eqb (o_session o)) l then None else hm t !! h | None => hm t !! h end.
Proof.
  revert t. induction l as [|x l IH]; intros t; cbn [foldl existsb]; [by destruct (t_sobjs t !! h)|].
  destruct (IH (drop_session_objects x t)) as [-> ->]. unfold drop_session_objects. rewrite drop_lookup, drop_hm. cbn [snd].
  destruct (t_sobjs t !! h) as [o|]; [|done]. destruct (o_session o =? x); cbn [orb]; [done|]. done.
Qed.
Lemma drop_many_db l t : t_db (foldl (fun t h => drop_session_objects h t) t l) = t_db t.
Proof. revert t. induction l as [|x l IH]; intros t; cbn [foldl]; [done|]. by rewrite IH. Qed.

Lemma token_insert w sid i sl m n d : token_of (World (<[sid := sl]> (w_slots w)) m n d) i = if decide (i = sid) then Some (sl_token sl) else token_of w i.
Proof. unfold Spec.token_of. cbn. destruct (decide (i = sid)) as [->|]; [by rewrite lookup_insert|by rewrite lookup_insert_ne]. Qed.
Lemma slot_token w sid sl : w_slots w !! sid = Some sl -> token_of w sid = Some (sl_token sl).
Proof. intros H. unfold Spec.token_of. by rewrite H. Qed.
Lemma owner_at_token w sid t h : token_of w sid = Some t -> owner_at w sid h = owner t h.
Proof. intros H. unfold Spec.owner_at. by rewrite H. Qed.
Lemma own_session w sid sl h o : winv w -> own_ok w -> w_slots w !! sid = Some sl -> t_sobjs (sl_token sl) !! h = Some o ->
  o_session o <> CK_INVALID_HANDLE -> exists s, sl_sessions sl !! o_session o = Some s.
Proof.
  intros [_ HI] Ho Hsl Hh Hne. assert (owner_at w sid h = Some (o_session o)) as Hx.
  { rewrite (owner_at_token w sid (sl_token sl)) by (by apply slot_token). apply owner_some. eauto. }
  apply Ho in Hx. destruct (si_smap _ _ HI _ _ Hx) as (sl' & s & H1 & H2). simplify_eq. eauto.
Qed.
Lemma close_view w s sid : winv w -> own_ok w -> w_smap w !! s = Some sid ->
  let w' := after w (CloseSession s) in
  w_smap w' = delete s (w_smap w) /\ (forall i, i <> sid -> token_of w' i = token_of w i) /\
  exists t t', token_of w sid = Some t /\ token_of w' sid = Some t' /\ objs_same (drop_objs (session_sel s) t) t'.
Proof.
  intros Hw Ho Hs. pose proof (wi_inv _ _ Hw) as HI. destruct (si_smap _ _ HI _ _ Hs) as (sl & ses & H1 & H2).
  assert (w_next w <> 0) as Hn. { intros Hz. rewrite (si_off _ _ HI Hz) in H1. by rewrite lookup_empty in H1. }
  pose proof (si_slots _ _ HI _ _ H1) as Hok.
  assert (tk_initialized (sl_token sl) = true) as Hi. { apply Hok. intros He. rewrite He in H2. by rewrite lookup_empty in H2. }
  cbv zeta. unfold Spec.after. rewrite run_step. cbn [api]. rewrite (close_session_eq B s w sid sl) by done. cbn [fst]. cbv zeta.
  split_and!; [done| |].
  - intros i Hne. rewrite token_insert. by destruct (decide _).
  - eexists _, _. split_and!; [by apply slot_token|rewrite token_insert; by destruct (decide _)|]. cbn [sl_token].
    change (drop_objs (session_sel s) (sl_token sl)) with (drop_session_objects s (sl_token sl)).
    case_bool_decide as He; [|reflexivity]. apply logout_none. intros h o Hh.
    unfold drop_session_objects in Hh. rewrite drop_lookup in Hh. destruct (t_sobjs (sl_token sl) !! h) as [o0|] eqn:Ho0; [|done]. cbn [snd] in Hh.
    destruct (N.eqb_spec (o_session o0) s) as [|Hne]; [done|]. injection Hh as <-.
    destruct (N.eq_dec (o_session o0) CK_INVALID_HANDLE) as [|Hinv]; [done|]. exfalso.
    destruct (own_session w sid sl h o0 Hw Ho H1 Ho0 Hinv) as [x Hx].
    assert (delete s (sl_sessions sl) !! o_session o0 = Some x) as Hy by (by rewrite lookup_delete_ne by done).
    rewrite He in Hy. by rewrite lookup_empty in Hy.
Qed.
Lemma close_all_cases w sid : winv w ->
  let w' := after w (CloseAllSessions sid) in
  (exists sl, w_slots w !! sid = Some sl /\ w_next w <> 0 /\ tk_initialized (sl_token sl) = true) \/
  (w_smap w' = w_smap w /\ (forall i, token_of w' i = token_of w i) /\ rv P B E w (CloseAllSessions sid) <> CKR_OK).
Proof.
  intros Hw. pose proof (wi_inv _ _ Hw) as HI. cbv zeta. unfold Spec.after, rv. unfold step. cbn [api].
  destruct (N.eq_dec (w_next w) 0) as [Hz|Hn].
  { right. unfold c_close_all_sessions. by rewrite run_bind, lock_off. }
  assert ((forall sl, w_slots w !! sid = Some sl -> sl_sessions sl = ∅) -> filter (fun p => p.2 <> sid) (w_smap w) = w_smap w) as Hf.
  { intros He. apply map_filter_id. intros h i Hh Hs. cbn in Hs. subst i. destruct (si_smap _ _ HI _ _ Hh) as (x & s & Hx & Hy).
    rewrite (He _ Hx) in Hy. by rewrite lookup_empty in Hy. }
  destruct (w_slots w !! sid) as [sl|] eqn:Hsl.
  - destruct (tk_initialized (sl_token sl)) eqn:Hi; [left; eauto|]. right.
    assert (c_close_all_sessions B sid w = (World (<[sid := Slot (sl_token sl) ∅ (sl_disk sl)]> (w_slots w))
      (filter (fun p => p.2 <> sid) (w_smap w)) (w_next w) (w_disks w), Err CKR_TOKEN_NOT_INITIALIZED)) as ->.
    { unfold c_close_all_sessions. rewrite run_bind, lock_eq by done. rewrite run_bind. unfold drop_all_sessions_slot.
      rewrite run_bind. cbn [modify]. set (w1 := set_smap _ _ _). rewrite run_bind, (get_slot_eq B sid sl w1) by done.
      rewrite run_bind. cbn [put_slot modify]. cbv beta iota. unfold ret at 1. set (w2 := set_slots _ _ _).
      rewrite run_bind. unfold token_ready.
      rewrite run_bind, (get_slot_eq B sid (put_sessions B ∅ sl) w2) by (done || apply lookup_insert).
      cbn [sl_token put_sessions]. rewrite Hi. done. }
    cbn [fst snd]. split_and!; [|intros i; rewrite token_insert; destruct (decide _) as [->|]; [by rewrite (slot_token _ _ _ Hsl)|done]|done].
    apply Hf. intros sl' Hsl'. injection Hsl' as <-. destruct (decide (sl_sessions sl = ∅)) as [|He]; [done|].
    apply (si_slots _ _ HI _ _ Hsl) in He. congruence.
  - right. assert (c_close_all_sessions B sid w = (World (w_slots w)
      (filter (fun p => p.2 <> sid) (w_smap w)) (w_next w) (w_disks w), Err CKR_SLOT_ID_INVALID)) as ->.
    { unfold c_close_all_sessions. rewrite run_bind, lock_eq by done. rewrite run_bind. unfold drop_all_sessions_slot.
      rewrite run_bind. cbn [modify]. set (w1 := set_smap _ _ _). rewrite run_bind. unfold get_slot.
      unfold mbind at 1 2 3, gets, ensure, initialized. cbn [w1 w_next set_smap w_slots].
      destruct (N.eqb_spec (w_next w) 0); [done|]. cbn. rewrite Hsl. done. }
    cbn [fst snd]. split_and!; [|done..]. cbn. apply Hf. intros sl Hx. done.
Qed.
Lemma close_all_view w sid sl : winv w -> own_ok w -> w_slots w !! sid = Some sl -> w_next w <> 0 -> tk_initialized (sl_token sl) = true ->
  let w' := after w (CloseAllSessions sid) in
  w_smap w' = filter (fun p => p.2 <> sid) (w_smap w) /\ (forall i, i <> sid -> token_of w' i = token_of w i) /\
  rv P B E w (CloseAllSessions sid) = CKR_OK /\
  exists t', token_of w' sid = Some t' /\ d_objs (t_db t') = d_objs (t_db (sl_token sl)) /\
    forall h, match t_sobjs (sl_token sl) !! h with
              | Some o => if o_session o =? CK_INVALID_HANDLE then same_view h (sl_token sl) t' else t_sobjs t' !! h = None /\ hm t' !! h = None
              | None => same_view h (sl_token sl) t'
              end.
Proof.
  intros Hw Ho Hsl Hn Hi. cbv zeta. unfold Spec.after, rv, step. cbn [api]. rewrite (close_all_eq B sid w sl) by done. cbn [fst snd].
  split_and!; [done| |done|].
  { intros i Hne. rewrite token_insert. by destruct (decide _). }
  eexists. split; [rewrite token_insert; by destruct (decide _)|]. cbn [sl_token].
  set (l := map fst (map_to_list (sl_sessions sl))). set (t1 := foldl _ _ _).
  assert (forall o h, t_sobjs (sl_token sl) !! h = Some o -> existsb (N.eqb (o_session o)) l = negb (o_session o =? CK_INVALID_HANDLE)) as Hex.
  { intros o h Hh. destruct (N.eqb_spec (o_session o) CK_INVALID_HANDLE) as [He|Hne]; cbn.
    - apply not_true_iff_false. intros Hx. apply existsb_exists in Hx as (x & H1 & H2). apply N.eqb_eq in H2. subst x.
      unfold l in H1. apply in_map_iff in H1 as ([x s] & H3 & H4). cbn in H3. subst x. apply map_to_list_in in H4.
      destruct (so_sessions _ _ _ _ _ (si_slots _ _ (wi_inv _ _ Hw) _ _ Hsl) _ _ H4) as (_ & _ & Hx & _). unfold CK_INVALID_HANDLE in *. lia.
    - apply existsb_exists. exists (o_session o). split; [|by apply N.eqb_refl]. destruct (own_session w sid sl h o Hw Ho Hsl Hh Hne) as [s Hs].
      unfold l. apply in_map_iff. exists (o_session o, s). split; [done|]. by apply map_to_list_in. }
  assert (objs_same t1 (fst (tk_logout t1))) as Hlo.
  { apply logout_none. intros h o Hh. unfold t1 in Hh. destruct (drop_many_lookup l (sl_token sl) h) as [Hx _]. rewrite Hx in Hh.
    destruct (t_sobjs (sl_token sl) !! h) as [o0|] eqn:Ho0; [|done]. rewrite (Hex _ _ Ho0) in Hh.
    destruct (N.eqb_spec (o_session o0) CK_INVALID_HANDLE); cbn in Hh; [|done]. congruence. }
  split. { destruct Hlo as (_ & _ & ->). unfold t1. by rewrite drop_many_db. }
  intros h. destruct (drop_many_lookup l (sl_token sl) h) as [H1 H2]. fold t1 in H1, H2.
  assert (t_sobjs t1 !! h = t_sobjs (sl_token sl) !! h -> hm t1 !! h = hm (sl_token sl) !! h -> same_view h (sl_token sl) (fst (tk_logout t1))) as Hsv.
  { intros A1 A2. etransitivity; [|by apply objs_view]. split; [done|done|]. intros u _. apply rows_of_objs. unfold t1. by rewrite drop_many_db. }
  destruct (t_sobjs (sl_token sl) !! h) as [o|] eqn:Hh; [|by apply Hsv]. rewrite (Hex _ _ Hh) in H1, H2.
  destruct (o_session o =? CK_INVALID_HANDLE); cbn [negb] in *; [by apply Hsv|].
  destruct Hlo as (L1 & L2 & _). unfold hm in *. rewrite L1, L2. done.
Qed.

(* ---- the ownership invariant ---- *)
Lemma acting_session w c h sid : session_of_call c = Some h -> w_smap w !! h = Some sid -> acting B w c = sid.
Proof. intros Hh Hm. unfold acting. rewrite Hh. replace (slot_of_call c) with (@None N) by (by destruct c). by rewrite Hm. Qed.
Lemma owner_same_view h t t' : same_view h t t' -> owner t' h = owner t h.
Proof. apply view_owner. Qed.
Lemma after_own w c : winv w -> own_ok w -> own_ok (after w c).
Proof.
  intros Hw Ho. pose proof (wi_inv _ _ Hw) as HI. intros sid h s Hs.
  assert (forall i, match token_of (after w c) i with Some t' => token_of w i = Some t' \/ no_sobjs t' | None => True end ->
     (forall x, w_smap w !! x = Some i -> w_smap (after w c) !! x = Some i) -> i = sid -> w_smap (after w c) !! s = Some sid) as Hsame.
  { intros i Ht Hm ->. unfold Spec.owner_at in Hs. destruct (token_of (after w c) sid) as [t'|] eqn:Ht'; [|done].
    destruct Ht as [Ht|Ht]; [apply Hm, (Ho sid h); by rewrite (owner_at_token _ _ _ _ Ht)|].
    apply owner_some in Hs as (o & H1 & H2 & H3). rewrite (Ht _ _ H1) in H2. congruence. }
  destruct (live_call c) eqn:Hc.
  - destruct (match c with OpenSession _ _ _ | CloseSession _ | CloseAllSessions _ => true | _ => false end) eqn:Hoc.
    + destruct c; try discriminate Hoc.
      * (* C_OpenSession *)
        clear Hoc. pose proof (open_session_spec B sid0 fl ph w) as Hsp. unfold Spec.after in *. rewrite run_step in *. cbn [api] in *. unfold wp in Hsp.
        destruct (c_open_session B sid0 fl ph w) as [w' [[r o]|e]]; cbn [fst snd] in *; [|subst w'; by apply (Ho sid h)].
        destruct Hsp as (_ & _ & _ & _ & sl & ses & H1 & _ & _ & ->). apply (Hsame sid); [|cbn|done].
        { rewrite token_insert. destruct (decide (sid = sid0)) as [He|]; [left; rewrite He; cbn [sl_token]; by apply slot_token|]. destruct (token_of w sid); auto. }
        intros x Hx. rewrite lookup_insert_ne; [done|]. intros <-.
        assert (is_open B w (w_next w)) as Hop. { destruct (si_smap _ _ HI _ _ Hx) as (sl' & s' & A1 & A2). unfold is_open, session_of. by rewrite Hx, A1, A2. }
        apply (open_below B) in Hop; [lia|done].
      * (* C_CloseSession *)
        clear Hoc. destruct (w_smap w !! h0) as [sid0|] eqn:Hm.
        -- destruct (close_view w h0 sid0 Hw Ho Hm) as (V1 & V2 & t & t' & V3 & V4 & V5 & V6 & V7). rewrite V1.
           destruct (decide (sid = sid0)) as [->|Hne].
           ++ rewrite (owner_at_token _ _ _ _ V4) in Hs. apply owner_some in Hs as (o & S1 & S2 & S3). rewrite V6, drop_lookup in S1.
              destruct (t_sobjs t !! h) as [o1|] eqn:Ho1; [|done]. unfold session_sel in S1. cbn [snd] in S1.
              destruct (N.eqb_spec (o_session o1) h0) as [|Hn]; [done|]. injection S1 as ->. rewrite lookup_delete_ne by congruence.
              apply (Ho sid0 h). rewrite (owner_at_token _ _ _ _ V3). apply owner_some. eauto.
           ++ assert (w_smap w !! s = Some sid) as Hx. { apply (Ho sid h). unfold Spec.owner_at in *. by rewrite <- V2. }
              rewrite lookup_delete_ne; [done|]. congruence.
        -- pose proof (closed_api P B E (CloseSession h0) w h0 Hm eq_refl ltac:(done)) as [Hcl _].
           unfold Spec.after in *. rewrite run_step in *. rewrite Hcl in *. by apply (Ho sid h).
      * (* C_CloseAllSessions *)
        clear Hoc. destruct (close_all_cases w sid0 Hw) as [(sl & C1 & C2 & C3)|(C1 & C2 & _)]; cycle 1.
        { rewrite C1. apply (Ho sid h). unfold Spec.owner_at in *. by rewrite <- C2. }
        destruct (close_all_view w sid0 sl Hw Ho C1 C2 C3) as (V1 & V2 & _ & t' & V4 & _ & V6). rewrite V1.
        destruct (decide (sid = sid0)) as [->|Hne].
        -- exfalso. rewrite (owner_at_token _ _ _ _ V4) in Hs. apply owner_some in Hs as (o & S1 & S2 & S3). specialize (V6 h).
           destruct (t_sobjs (sl_token sl) !! h) as [o1|] eqn:Ho1.
           ++ destruct (N.eqb_spec (o_session o1) CK_INVALID_HANDLE).
              ** destruct V6 as [V6 _ _]. congruence.
              ** destruct V6 as [V6 _]. congruence.
           ++ destruct V6 as [V6 _ _]. congruence.
        -- apply map_filter_lookup_Some_2; [|done]. apply (Ho sid h). unfold Spec.owner_at in *. by rewrite <- V2.
    + rewrite (smap_same w c Hc) by (by destruct c). pose proof (token_steps w c sid Hw Hc) as Hst.
      unfold Spec.owner_at in Hs. destruct (token_of (after w c) sid) as [t'|] eqn:Ht'; [|done].
      destruct (token_of w sid) as [t|] eqn:Ht; [|done]. destruct Hst as [->|[Ha Hst]]; [apply (Ho sid h); by rewrite (owner_at_token _ _ _ _ Ht)|].
      apply owner_some in Hs as (o & S1 & S2 & S3). destruct (tsteps_owner _ _ _ _ _ (token_ok _ _ _ Hw Ht) Hst S1) as [(o1 & A1 & A2)|[odd Hk]].
      * apply (Ho sid h). rewrite (owner_at_token _ _ _ _ Ht). apply owner_some. exists o1. split_and!; [done|congruence|done].
      * assert (session_of_call c = Some s) as Hsc. { rewrite S2 in Hk. destruct c; cbn [call_kind session_of_call] in *; first [contradiction|destruct Hk; congruence]. }
        destruct (w_smap w !! s) as [sid1|] eqn:Hm; [f_equal; by rewrite Ha, (acting_session _ _ _ _ Hsc Hm)|]. exfalso.
        assert (forall hh b e a, c = SetOperationState hh b e a -> e = CK_INVALID_HANDLE) as Hx. { intros hh b e a ->. done. }
        pose proof (closed_api P B E c w s Hm Hsc Hx) as [Hcl _]. unfold Spec.after in *. rewrite run_step in *. rewrite Hcl, Ht in Ht'. injection Ht' as <-.
        assert (w_smap w !! s = Some sid) as Hy; [|congruence]. apply (Ho sid h). rewrite (owner_at_token _ _ _ _ Ht). apply owner_some. eauto.
  - destruct c; try discriminate Hc.
    + pose proof (initialize_spec P B l w) as Hsp. unfold Spec.after in *. rewrite run_step in *. cbn [api] in *. unfold wp in Hsp.
      destruct Hsp as [Hsm Hsl]. apply (Hsame sid); [| |done].
      * unfold Spec.token_of. destruct (w_slots (fst (c_initialize P B l w)) !! sid) as [sl|] eqn:Hx; cbn; [|done].
        destruct (Hsl _ _ Hx) as [[_ H1]|(He & cc & k & Ht & Hy)]; [left; by rewrite H1|right]. rewrite Hy.
        pose proof (no_sobjs_new P (k_db k) (sc_io cc) (k_fresh k)). destruct (sc_mechs cc) as [[? ?]|]; done.
      * intros x Hx. destruct (initialized B w) eqn:Hi; [by destruct Hsm as [_ ->]|]. exfalso.
        destruct (si_smap _ _ HI _ _ Hx) as (sl & s' & A1 & A2). unfold initialized in Hi. rewrite (si_off _ _ HI ltac:(lia)) in A1. by rewrite lookup_empty in A1.
    + exfalso. unfold Spec.after in Hs. rewrite run_step in Hs. cbn [api] in Hs. unfold c_finalize in Hs. rewrite run_bind in Hs.
      destruct (N.eq_dec (w_next w) 0) as [Hz|Hn].
      * rewrite lock_off in Hs by done. cbn [fst] in Hs. unfold Spec.owner_at, Spec.token_of in Hs. rewrite (si_off _ _ HI Hz) in Hs. cbn in Hs. by rewrite lookup_empty in Hs.
      * rewrite lock_eq in Hs by done. cbn in Hs. unfold Spec.owner_at, Spec.token_of in Hs. cbn in Hs. by rewrite lookup_empty in Hs.
    + exfalso. unfold Spec.after in Hs. rewrite run_step in Hs. cbn in Hs. unfold Spec.owner_at, Spec.token_of in Hs. cbn in Hs. by rewrite lookup_empty in Hs.
Qed.
Lemma run_own cs : forall w, winv w -> own_ok w -> own_ok (fst (run P B E w cs)).
Proof.
  induction cs as [|c cs IH]; intros w Hw Ho; [done|]. specialize (IH (after w c) (after_winv w c Hw) (after_own w c Hw Ho)).
  cbn [run]. unfold Spec.after in *. destruct (step P B E w c) as [w1 o]. cbn [fst] in *. destruct (run P B E w1 cs) as [w2 os]. done.
Qed.
Lemma scratch_own w : from_scratch P B E w -> own_ok w.
Proof.
  intros (cs & ->). apply run_own.
  - apply (scratch_winv P B E Hfs Hutf). by exists [].
  - intros sid h s. unfold Spec.owner_at, Spec.token_of. cbn. by rewrite lookup_empty.
Qed.

(* ---- calls leave the objects alone they are not about ---- *)
Lemma tsteps_dedup (K : kind -> Prop) t t' : tsteps P K t t' -> t_dedup t = None -> tsteps P (fun k => K k /\ forall h, k <> KDedup h) t t'.
Proof.
  intros Hs. induction Hs as [|t t1 t' (k & Hk1 & H1) _ IH]; intros Hd; [reflexivity|].
  assert (t_dedup t1 = t_dedup t) as Hx by (destruct H1; done). etransitivity; [|apply IH; congruence].
  eapply tsteps_one; [|exact H1]. split; [done|]. intros h ->. inversion H1; subst; done.
Qed.
Lemma token_same_object w w' sid h t t' : token_of w sid = Some t -> token_of w' sid = Some t' -> same_view h t t' -> same_object B w w' sid h.
Proof.
  intros H1 H2 Hv. unfold same_object, Spec.id_at, Spec.owner_at, Spec.session_object_at, Spec.attr_at. rewrite H1, H2. split_and!.
  - by apply view_id.
  - by apply view_owner.
  - unfold is_session_object. by rewrite (sv_sobj _ _ _ Hv).
  - intros ty. by apply view_attr.
Qed.
Lemma same_object_eq w w' sid h : token_of w' sid = token_of w sid -> same_object B w w' sid h.
Proof. intros H. unfold same_object, Spec.id_at, Spec.owner_at, Spec.session_object_at, Spec.attr_at. by rewrite H. Qed.
Lemma private_at w sid h t o : token_of w sid = Some t -> t_sobjs t !! h = Some o ->
  (owner_at w sid h <> None /\ bool_at B w sid h CKA_PRIVATE <> Some false) <-> private_sel (h, o) = true.
Proof.
  intros Ht Ho. rewrite (owner_at_token _ _ _ _ Ht). unfold bool_at, bool_of, attr_of, owner, private_sel. rewrite Ht, Ho. cbn [snd].
  unfold is_private, bool_attr. unfold get_attr. destruct (o_session o =? CK_INVALID_HANDLE); cbn [negb andb]; [split; [by intros []|done]|].
  destruct (find_attr (o_attrs o) CKA_PRIVATE) as [a|]; [destruct (attr_to_bool a) as [[]|]|]; cbn; split; intros; repeat split; try done; naive_solver.
Qed.
Lemma unaffected w c sid h u : winv w -> own_ok w -> id_at w sid h = Some u -> ~ about B w c sid h -> same_object B w (after w c) sid h.
Proof.
  intros Hw Ho Hid Ha. pose proof (wi_inv _ _ Hw) as HI. unfold Spec.id_at in Hid. destruct (token_of w sid) as [t|] eqn:Ht; [|done].
  pose proof (token_ok _ _ _ Hw Ht) as Htk. pose proof (id_named _ _ _ Htk Hid) as Hh.
  assert (token_of (after w c) sid = Some t -> same_object B w (after w c) sid h) as Hsame.
  { intros H. apply same_object_eq. congruence. }
  destruct (live_call c) eqn:Hc; [|destruct c; try discriminate Hc; try (exfalso; by apply Ha); apply Hsame; by apply init_keep].
  (* a call of a session that is not open *)
  assert (forall s, session_of_call c = Some s -> w_smap w !! s = None -> (forall hh b e a, c <> SetOperationState hh b e a) -> same_object B w (after w c) sid h) as Hclosed.
  { intros s Hs Hm Hx. apply Hsame. pose proof (closed_api P B E c w s Hm Hs ltac:(intros; exfalso; by eapply Hx)) as [Hcl _].
    unfold Spec.after. rewrite run_step. rewrite Hcl. done. }
  assert ((forall k, sid = acting B w c -> call_kind (op_stores B) (given B w c) c k -> (t_dedup t = None -> forall h, k <> KDedup h) -> touches (t_sobjs t !! h) k h = false) -> same_object B w (after w c) sid h) as Hgo.
  { intros Hk. pose proof (token_steps w c sid Hw Hc) as Hst. rewrite Ht in Hst. destruct (token_of (after w c) sid) as [t'|] eqn:Ht'; [|done].
    destruct Hst as [->|[Hac Hst]]; [by apply Hsame|]. apply (token_same_object _ _ _ _ t t' Ht Ht').
    destruct (t_dedup t) eqn:Hd; [eapply (tsteps_view P Hfs _ t t' h u Htk Hst Hh); intros k K1; by apply Hk|].
    eapply (tsteps_view P Hfs _ t t' h u Htk (tsteps_dedup _ _ _ Hst Hd) Hh). intros k [K1 K2]. apply Hk; auto. }
  assert (forall s, session_of_call c = Some s -> w_smap w !! s <> Some sid -> (forall hh b e a, c <> SetOperationState hh b e a) -> same_object B w (after w c) sid h) as Hother.
  { intros s Hs Hm Hx. destruct (w_smap w !! s) as [i|] eqn:Hi; [|by eapply Hclosed]. apply Hgo. intros k Hac. rewrite (acting_session _ _ _ _ Hs Hi) in Hac. congruence. }
  assert (forall n, h_next (t_handles t) <= n -> (n =? h) = false) as Hfresh.
  { intros n Hn. apply (tk_keys _ Htk) in Hh. lia. }
  assert (sid = acting B w c -> (match c with InitToken _ _ _ => False | _ => True end) -> given B w c = h_next (t_handles t)) as Hgiven.
  { intros Hac Hni. unfold given. rewrite <- Hac. unfold Spec.token_of in Ht. destruct (w_slots w !! sid) as [sl|]; cbn in Ht; [|done]. injection Ht as <-. by destruct c. }
  destruct c; try discriminate Hc; cbn [about] in Ha;
    try (apply Hgo; intros k Hac Hk Hnd; destruct k; cbn [call_kind] in Hk; try done; by (contradiction || (exfalso; lia))).
  (* C_SetPIN, C_Login, C_Logout drop private session objects *)
  all: try (match goal with |- same_object _ _ (Spec.after _ _ _ _ ?c) _ _ => match c with SetPIN ?s _ _ => idtac | Login ?s _ _ => idtac | Logout ?s => idtac end end;
    destruct (decide (w_smap w !! h0 = Some sid)) as [Hs|Hs]; [|by apply (Hother h0)];
    apply Hgo; intros k Hac Hk Hnd; destruct k; cbn [call_kind] in Hk; try done; try contradiction; subst sel; cbn [touches];
    destruct (t_sobjs t !! h) as [o|] eqn:Hob; [|done]; apply not_true_iff_false; intros Hp; apply Ha; split; [done|];
    by apply (private_at w sid h t o)).
  (* C_Sign and the like *)
  all: try (apply (Hother h0); [done|exact Ha|done]).
  - (* C_CloseSession *)
    destruct (w_smap w !! h0) as [sid0|] eqn:Hm; [|by apply (Hclosed h0)].
    destruct (decide (sid = sid0)) as [->|Hne]; [|apply (Hother h0); [done|congruence|done]].
    destruct (close_view w h0 sid0 Hw Ho Hm) as (V1 & V2 & t0 & t' & V3 & V4 & V5). rewrite Ht in V3. injection V3 as <-.
    apply (token_same_object _ _ _ _ t t' Ht V4). etransitivity; [|by apply objs_view].
    assert (match t_sobjs t !! h with Some o => session_sel h0 (h, o) = false | None => True end) as Hsel.
    { destruct (t_sobjs t !! h) as [o|] eqn:Hob; [|done]. unfold session_sel. cbn [snd]. destruct (N.eqb_spec (o_session o) h0) as [He|]; [|done]. exfalso.
      apply Ha. rewrite (owner_at_token _ _ _ _ Ht). apply owner_some. exists o. split_and!; [done|done|].
      assert (is_open B w h0) as Hop. { destruct (si_smap _ _ HI _ _ Hm) as (sl' & s' & A1 & A2). unfold is_open, session_of. by rewrite Hm, A1, A2. }
      apply (open_below B) in Hop; [|done]. unfold CK_INVALID_HANDLE. lia. }
    split; [rewrite drop_lookup|rewrite drop_hm|done]; destruct (t_sobjs t !! h) as [o|]; by rewrite ?Hsel.
  - (* C_CloseAllSessions *)
    destruct (close_all_cases w sid0 Hw) as [(sl & C1 & C2 & C3)|(C1 & C2 & _)]; [|apply Hsame; by rewrite C2].
    destruct (close_all_view w sid0 sl Hw Ho C1 C2 C3) as (V1 & V2 & _ & t' & V4 & _ & V6).
    destruct (decide (sid = sid0)) as [->|Hne]; [|apply Hsame; by rewrite V2].
    rewrite (slot_token _ _ _ C1) in Ht. injection Ht as <-. apply (token_same_object _ _ _ _ (sl_token sl) t'); [by apply slot_token|done|].
    specialize (V6 h). destruct (t_sobjs (sl_token sl) !! h) as [o|] eqn:Hob; [|done]. destruct (N.eqb_spec (o_session o) CK_INVALID_HANDLE) as [|Hne]; [done|].
    exfalso. apply Ha. split; [done|]. rewrite (owner_at_token _ _ (sl_token sl)) by (by apply slot_token).
    assert (owner (sl_token sl) h = Some (o_session o)) as -> by (apply owner_some; eauto). done.
  - (* C_CreateObject *)
    destruct (decide (w_smap w !! h0 = Some sid)) as [Hs|Hs]; [|by apply (Hother h0)].
    apply Hgo. intros k Hac Hk Hnd. destruct k; cbn [call_kind] in Hk; try done; try contradiction. exfalso.
    destruct (t_dedup t) eqn:Hd; [|by eapply Hnd]. apply Ha. split; [done|]. exists t. split; [done|congruence].
  - (* C_DestroyObject *)
    destruct (decide (w_smap w !! h0 = Some sid)) as [Hs|Hs]; [|by apply (Hother h0)].
    apply Hgo. intros k Hac Hk Hnd. destruct k; cbn [call_kind] in Hk; try done; try contradiction; cbn [touches]; apply N.eqb_neq; intros ->; apply Ha; done.
  - (* C_SetAttributeValue *)
    destruct (decide (w_smap w !! h0 = Some sid)) as [Hs|Hs]; [|by apply (Hother h0)].
    apply Hgo. intros k Hac Hk Hnd. destruct k; cbn [call_kind] in Hk; try done; try contradiction; cbn [touches]; apply N.eqb_neq; intros ->; apply Ha; split; try done; naive_solver.
  - (* the init calls *)
    apply Hgo. intros k' Hac Hk Hnd. destruct k'; cbn [call_kind] in Hk; try done; contradiction.
  - (* C_GenerateKeyPair *)
    apply Hgo. intros k Hac Hk Hnd. rewrite (Hgiven Hac I) in Hk. destruct k; cbn [call_kind] in Hk; try done; try contradiction; cbn [touches]; by apply Hfresh.
  - (* C_DeriveKey *)
    apply Hgo. intros k Hac Hk Hnd. rewrite (Hgiven Hac I) in Hk. destruct k; cbn [call_kind] in Hk; try done; try contradiction; cbn [touches]; by apply Hfresh.
Qed.

(* ---- the life of an object ---- *)
Lemma not_reset w c sid : keeps_token sid c = true -> sid = acting B w c -> ~ call_kind (op_stores B) (given B w c) c KReset.
Proof.
  intros Hk Hs. destruct c; cbn [call_kind]; try solve [intros []]. unfold acting in Hs. cbn [slot_of_call keeps_token] in Hs, Hk. lia.
Qed.
Lemma step_gone w c sid t h : winv w -> keeps_token sid c = true -> token_of w sid = Some t -> gone h t ->
  exists t', token_of (after w c) sid = Some t' /\ gone h t'.
Proof.
  intros Hw Hk Ht Hg. destruct (live_call c) eqn:Hc.
  - pose proof (token_steps w c sid Hw Hc) as H. rewrite Ht in H. destruct (token_of (after w c) sid) as [t'|]; [|done]. exists t'. split; [done|].
    destruct H as [->|[Hs H]]; [done|]. eapply (tsteps_gone P Hfs); [by eapply token_ok|done|by eapply not_reset|done].
  - destruct c; try discriminate Hc; try discriminate Hk. exists t. split; [by apply init_keep|done].
Qed.
Lemma run_gone cs : forall w sid t h, winv w -> forallb (keeps_token sid) cs = true -> token_of w sid = Some t -> gone h t ->
  id_at (fst (run P B E w cs)) sid h = None.
Proof.
  induction cs as [|c cs IH]; intros w sid t h Hw Hk Ht Hg; [cbn; unfold Spec.id_at; rewrite Ht; by apply gone_id|].
  cbn [forallb] in Hk. apply andb_prop in Hk as [Hk1 Hk2]. destruct (step_gone w c sid t h Hw Hk1 Ht Hg) as (t1 & H1 & G1).
  specialize (IH (after w c) sid t1 h (after_winv w c Hw) Hk2 H1 G1).
  cbn [run]. unfold Spec.after in *. destruct (step P B E w c) as [w1 o]. cbn [fst] in *. destruct (run P B E w1 cs) as [w2 os]. done.
Qed.
(* Which calls can make a session object disappear, besides C_DestroyObject. *)
Definition may_drop (c : call) : bool :=
  match c with CloseSession _ | CloseAllSessions _ | Login _ _ _ | Logout _ | SetPIN _ _ _ => true | _ => false end.
Lemma step_id w c sid h u : winv w -> keeps_token sid c = true -> (forall s, c <> DestroyObject s h) -> id_at w sid h = Some u ->
  (session_object_at B w sid h = true -> may_drop c = false) ->
  id_at (after w c) sid h = Some u /\ session_object_at B (after w c) sid h = session_object_at B w sid h.
Proof.
  intros Hw Hk Hd Hid Hso. unfold Spec.id_at, session_object_at in *. destruct (token_of w sid) as [t|] eqn:Ht; [|done]. pose proof (token_ok _ _ _ Hw Ht) as Htk.
  destruct (live_call c) eqn:Hc; [|destruct c; try discriminate Hc; try discriminate Hk; by rewrite (init_keep _ _ _ _ Hw Ht)].
  pose proof (token_steps w c sid Hw Hc) as H. rewrite Ht in H. destruct (token_of (after w c) sid) as [t'|]; [|done].
  destruct H as [->|[Hs H]]; [done|]. eapply (tsteps_id P Hfs _ _ _ _ _ Htk H Hid). intros k so Hkk Hn.
  assert (forall n, given B w c <= n -> match c with InitToken _ _ _ => False | _ => True end -> (n =? h) = false) as Hfresh.
  { intros n Hle Hc'. pose proof (tk_keys _ Htk _ _ (id_named _ _ _ Htk Hid)) as Hh.
    assert (given B w c = h_next (t_handles t)) as Hg.
    { unfold given. rewrite <- Hs. unfold Spec.token_of in Ht. destruct (w_slots w !! sid) as [sl|]; cbn in Ht; [|done]. injection Ht as <-. by destruct c. }
    lia. }
  assert (forall s x, c = DestroyObject s x -> (x =? h) = false) as Hdest.
  { intros s x ->. apply N.eqb_neq. intros ->. by apply (Hd s). }
  assert (may_drop c = true -> so = None) as Hdr.
  { intros Hm. apply Hn. apply not_true_iff_false. intros Hx. specialize (Hso Hx). congruence. }
  destruct k; cbn [removes]; try done; destruct c; try discriminate Hc; cbn [call_kind] in Hkk; try contradiction; try (subst h0; by eapply Hdest);
    try (by apply Hfresh); try (by rewrite (Hdr eq_refl)).
  by destruct (not_reset w _ sid Hk Hs).
Qed.
End facts.
