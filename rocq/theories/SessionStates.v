(* Session states follow the login: the invariant behind C03. *)
From Verif Require Import Base Monad Hoare Attr Obj Factory Tables Create Sqlite Storage Token Backend State Api
  TokenFrame Spec WorldFrame WorldWp Sessions SessionInv SessionFacts.

Section states.
Context (P : params) (B : backend) (E : N -> keyenv).
Notation world := (world B). Notation session := (session B). Notation slot := (slot B).
Notation INV := (sess_inv B).

Definition ses_st (u : N) (s : session) : Prop := s_state s = expected_state (rw B s) u.
Definition slot_st (sl : slot) : Prop := forall h s, sl_sessions sl !! h = Some s -> ses_st (t_logged (sl_token sl)) s.
Definition states_ok (w : world) : Prop := forall sid sl, w_slots w !! sid = Some sl -> slot_st sl.

Lemma states_with_slot w sid sl : states_ok w -> slot_st sl -> states_ok (with_slot B sid sl w).
Proof.
  intros Hw Hs i x. cbn. destruct (decide (i = sid)) as [->|Hne].
  - rewrite lookup_insert. intros ?. by simplify_eq.
  - rewrite lookup_insert_ne by done. apply Hw.
Qed.
Lemma slot_st_token sl t : slot_st sl -> t_logged t = t_logged (sl_token sl) -> slot_st (put_token B t sl).
Proof. intros Hs Ht h s Hh. cbn in *. rewrite Ht. by apply (Hs h). Qed.
Lemma slot_st_empty t d : slot_st (Slot t ∅ d).
Proof. intros h s Hs. cbn in Hs. by rewrite lookup_empty in Hs. Qed.

(* The state changes. *)
Ltac states := unfold CKS_RO_PUBLIC_SESSION, CKS_RO_USER_FUNCTIONS, CKS_RW_PUBLIC_SESSION, CKS_RW_USER_FUNCTIONS,
      CKS_RW_SO_FUNCTIONS, CK_UNAVAILABLE_INFORMATION, CKU_USER, CKU_SO, KRY_UNSPEC in *.
Lemma invalidate_st s : state_ok B s -> ses_st KRY_UNSPEC (fst (change_session_state B CK_UNAVAILABLE_INFORMATION s)).
Proof.
  intros [_ Hst]. unfold ses_st, change_session_state, expected_state. cbv zeta. cbn [N.eqb].
  destruct (rw B s) eqn:Hrw.
  - destruct Hst as [H|[H|H]]; rewrite H; cbn; unfold rw in *; cbn; rewrite Hrw; done.
  - destruct Hst as [H|H]; rewrite H; cbn; unfold rw in *; cbn; rewrite Hrw; done.
Qed.
Lemma login_st ut s : (ut = CKU_USER \/ ut = CKU_SO) -> (ut = CKU_SO -> rw B s = true) -> ses_st KRY_UNSPEC s ->
  ses_st ut (fst (change_session_state B ut s)) /\ snd (change_session_state B ut s) = CKR_OK.
Proof.
  unfold ses_st, change_session_state, expected_state. cbv zeta. intros Hut Hso Hst. cbn in Hst. rewrite Hst. unfold rw in *.
  destruct Hut as [->| ->]; cbn in *; destruct (has_flag (s_flags s) CKF_RW_SESSION) eqn:Hrw; cbn; rewrite ?Hrw; auto.
  discriminate Hso; done.
Qed.
Lemma slot_st_invalidate next smap sid sl t m : slot_ok B next smap sid sl -> t_logged t = KRY_UNSPEC ->
  (forall h, option_Forall2 (ses_same B) (sl_sessions sl !! h) (m !! h)) ->
  slot_st (Slot t ((fun s => fst (change_session_state B CK_UNAVAILABLE_INFORMATION s)) <$> m) (sl_disk sl)).
Proof.
  intros [H1 _ _ _ _] Ht Hm h s Hs. cbn in *. rewrite Ht. rewrite lookup_fmap in Hs.
  specialize (Hm h). destruct (m !! h) as [s1|]; [|done]. cbn in Hs. simplify_eq.
  inversion Hm as [a b (Q1 & Q2 & Q3) Ha Hb|]; subst. apply invalidate_st. apply Q3, (H1 h). done.
Qed.

Lemma st_login h ut pin w : INV w -> states_ok w -> wp (c_login P B h ut pin) w (fun w' _ => states_ok w').
Proof.
  intros HI HS. unfold c_login, change_session_states, invalidate_session_states. wp_go.
  all: pose proof (session_slot_eq B w h _ _ _ HI H2 H3) as Hs; rewrite Hs in *; simplify_eq.
  all: pose proof (si_slots _ _ HI _ _ H2) as Hok; pose proof (HS _ _ H2) as Hst.
  - eapply wp_mono; [apply tk_login_spec|]; cbv beta; intros t' r [(Hi & _) Hl]. rewrite Heqb in Hl.
    destruct r as [[]|e]; cbv beta iota.
    + assert (states_ok (with_slot B (s_slot s) (put_token B t' sl) w)) as HS1 by (apply states_with_slot; [done|by apply slot_st_token]).
      wp_step. wp_step; [|done]. wp_step. apply states_with_slot; [done|].
      specialize (HS1 _ _ ltac:(eassumption)). intros h' s'. cbn. destruct (decide (h' = h)) as [->|Hne].
      * rewrite lookup_alter. intros Hx. match type of Hx with _ <$> ?m = _ => destruct m eqn:Hy; [|done] end. cbn in Hx. simplify_eq.
        exact (HS1 h _ Hy).
      * rewrite lookup_alter_ne by done. apply HS1.
    + wp_go; [|apply states_with_slot; [done|by apply slot_st_token]].
      eapply wp_mono; [apply tk_logout_none; cbn; rewrite Hl; apply Hok|]. cbv beta. intros t2 r2 (_ & Hlo).
      wp_go. rewrite ?with_slot_twice. apply states_with_slot; [done|].
      eapply (slot_st_invalidate _ _ _ sl); [done|done|]. apply same_refl.
  - eapply wp_mono; [apply tk_login_spec|]; cbv beta; intros t' r [(Hi & _) Hl]. rewrite Heqb in Hl.
    destruct r as [[]|e]; cbv beta iota; [|wp_go; apply states_with_slot; [done|by apply slot_st_token]].
    destruct Hl as (L1 & L2 & L3). wp_go.
    + rewrite ?with_slot_twice. apply states_with_slot; [done|]. cbn [sl_sessions put_token] in Heqp.
      pose proof Heqp as CC; apply change_all_spec in CC as (_ & C2 & _). rewrite (C2 ltac:(by destruct a)). intros h' s' Hs'. cbn in *.
      rewrite lookup_fmap in Hs'. destruct (sl_sessions sl !! h') as [s0|] eqn:Hs0; [|done]. cbn in Hs'. injection Hs' as <-.
      rewrite L3. apply login_st; [tauto| |].
      * intros ->. cbn in H6. apply negb_true_iff in H6. eapply has_ro_false; eauto.
      * rewrite <- L1. by apply (Hst h').
      * exact E.
    + eapply wp_mono; [apply tk_logout_none; cbn; rewrite L3; tauto|]. cbv beta. intros t2 r2 (_ & Hlo).
      wp_go. rewrite ?with_slot_twice. apply states_with_slot; [done|].
      eapply (slot_st_invalidate _ _ _ sl); [done|done|].
      by apply change_all_spec in Heqp as (C1 & _ & _).
Qed.
Lemma st_logout h w : INV w -> states_ok w -> wp (c_logout B h) w (fun w' r => r <> Err CKR_GENERAL_ERROR -> states_ok w').
Proof.
  intros HI HS. unfold c_logout, invalidate_session_states. wp_go.
  all: pose proof (session_slot_eq B w h _ _ _ HI H2 H3) as Hs; rewrite Hs in *; simplify_eq.
  all: pose proof (si_slots _ _ HI _ _ H2) as Hok; pose proof (HS _ _ H2) as Hst.
  eapply wp_mono; [apply tk_logout_spec|]; cbv beta; intros t' r ((Hi & _) & A1 & A2).
  assert (r = Ok tt -> t_logged t' = KRY_UNSPEC) as Hun.
  { intros ->. destruct (so_logged _ _ _ _ _ Hok) as [Hx|Hx]; [destruct (A1 Hx); done|]. apply A2. tauto. }
  destruct r as [[]|e]; cbv beta iota.
  - wp_go. intros _. rewrite ?with_slot_twice. apply states_with_slot; [done|].
    eapply (slot_st_invalidate _ _ _ sl); [done|by apply Hun|]. apply same_refl.
  - intros Hne. destruct (so_logged _ _ _ _ _ Hok) as [Hx|Hx].
    + destruct (A1 Hx) as [-> _]. apply states_with_slot; [done|]. by apply slot_st_token.
    + exfalso. destruct (A2 ltac:(tauto)) as [_ [?|?]]; by simplify_eq.
Qed.
Lemma st_set_pin h old new w : INV w -> states_ok w -> wp (c_set_pin P B h old new) w (fun w' _ => states_ok w').
Proof.
  intros HI HS. unfold c_set_pin. wp_go.
  all: assert (sid0 = sid) as -> by congruence; assert (sl0 = sl) as -> by congruence.
  all: pose proof (si_slots _ _ HI _ _ H2) as Hok; pose proof (HS _ _ H2) as Hst.
  all: set (o := match old with Some p => p | None => [] end) in *; set (n := match new with Some p => p | None => [] end) in *.
  - eapply wp_rel; [apply quiet_set_pin|]. intros t r [Hl _ _ _].
    assert (states_ok (with_slot B sid (put_token B t sl) w)) by (apply states_with_slot; [done|by apply slot_st_token]). wp_go.
  - eapply wp_mono; [apply tk_login_spec|]. cbv beta. intros t r [(Hi & _) Hl].
    destruct r as [[]|e]; cbv beta iota; [|apply states_with_slot; [done|by apply slot_st_token]].
    change (CKU_USER =? CKU_CONTEXT_SPECIFIC) with false in Hl. destruct Hl as (L1 & _ & L3).
    wp_step. wp_step. wp_step. eapply wp_rel; [apply quiet_set_pin|]. intros t1 r1 [Hl1 _ _ _]. cbn in Hl1.
    wp_step. wp_step. wp_step. wp_step. wp_step.
    eapply wp_mono; [apply tk_logout_none; cbn; rewrite Hl1; tauto|]. cbv beta. intros t2 r2 (_ & Hlo).
    assert (states_ok (with_slot B sid (put_token B t2 sl) w)).
    { apply states_with_slot; [done|]. apply slot_st_token; [done|congruence]. }
    wp_go.
Qed.
Lemma st_open_session sid fl p w : INV w -> states_ok w -> 
  wp (c_open_session B sid fl p) w (fun w' r => (logged B w sid <> Some CKU_SO \/ is_ok r = false) -> states_ok w').
Proof.
  intros HI HS. eapply wp_mono; [apply open_session_spec|]. cbv beta. intros w' [[r o]|e]; [|by intros ->].
  intros (-> & -> & Hn & Hn' & sl & s & Hsl & _ & Hnew & ->) [Hso|?]; [|done].
  rewrite (logged_slot B w sid sl Hsl) in Hso.
  intros i x. cbn. destruct (decide (i = sid)) as [->|Hne].
  - rewrite lookup_insert. intros ?. simplify_eq. pose proof (HS _ _ Hsl) as Hst. pose proof (si_slots _ _ HI _ _ Hsl) as Hok.
    intros h s'. cbn. destruct (decide (h = w_next w)) as [->|Hh]; [|rewrite lookup_insert_ne by done; apply Hst].
    rewrite lookup_insert. intros ?. simplify_eq. unfold ses_st.
    destruct (so_logged _ _ _ _ _ Hok) as [Hl|[Hl|Hl]]; rewrite Hl in *; [|done|];
      unfold session_new in Hnew; cbn in Hnew; destruct (has_flag fl CKF_SERIAL_SESSION); simplify_eq; done.
  - rewrite lookup_insert_ne by done. apply HS.
Qed.
Lemma st_close_session h w : INV w -> states_ok w -> wp (c_close_session B h) w (fun w' _ => states_ok w').
Proof.
  intros HI HS. destruct (N.eq_dec (w_next w) 0) as [Hz|Hn].
  { unfold c_close_session, wp. by rewrite run_bind, lock_off. }
  destruct (w_smap w !! h) as [sid|] eqn:Hh.
  - destruct (si_smap _ _ HI _ _ Hh) as (sl & s & Hsl & Hs). pose proof (si_slots _ _ HI _ _ Hsl) as Hok.
    assert (tk_initialized (sl_token sl) = true) as Hi. { apply Hok. by eapply nonempty. }
    unfold wp. rewrite (close_session_eq B h w sid sl) by done. cbn [fst snd]. cbv zeta.
    intros i x. cbn. destruct (decide (i = sid)) as [->|Hne]; [|rewrite lookup_insert_ne by done; apply HS].
    rewrite lookup_insert. intros ?. simplify_eq. case_bool_decide as He.
    + rewrite He. apply slot_st_empty.
    + intros h' s' Hs'. cbn in *. apply lookup_delete_Some in Hs' as [_ Hs']. by apply (HS _ _ Hsl h').
  - unfold c_close_session, wp. rewrite run_bind, lock_eq by done. rewrite run_bind. unfold token_of_session.
    by rewrite run_bind, session_slot_none.
Qed.
Lemma st_close_all sid w : states_ok w -> wp (c_close_all_sessions B sid) w (fun w' _ => states_ok w').
Proof.
  intros HS. unfold c_close_all_sessions, drop_all_sessions_slot. wp_all.
  all: rewrite ?with_slot_twice; try (apply states_with_slot; [exact HS|]; apply slot_st_empty).
Qed.
Lemma st_initialize l w : states_ok w -> wp (c_initialize P B l) w (fun w' _ => states_ok w').
Proof.
  intros HS. eapply wp_mono; [apply initialize_spec|]. cbv beta. intros w' r [_ H] sid sl Hsl.
  destruct (H _ _ Hsl) as [[_ Hx]|[Hx _]]; [by apply (HS sid)|]. intros h s Hs. rewrite Hx in Hs. by rewrite lookup_empty in Hs.
Qed.
Lemma st_init_token sid pin label w : states_ok w -> wp (c_init_token P B sid pin label) w (fun w' _ => states_ok w').
Proof.
  intros HS. unfold c_init_token. wp_all.
  all: apply states_with_slot; [done|]; match goal with H : bool_decide _ = true |- _ => apply bool_decide_eq_true in H; rename H into He end.
  all: intros h s Hs; cbn in Hs; rewrite He in Hs; by rewrite lookup_empty in Hs.
Qed.
Lemma st_quiet w w' : world_rel B tok_quiet (ses_quiet B) w w' -> states_ok w -> states_ok w'.
Proof.
  intros [Hs _ _ _] HS sid sl Hsl h s Hh. destruct (forall2_lookup_r _ _ _ _ _ Hs Hsl) as (sl0 & Hsl0 & [[Hl _ _ _] _ Hr]).
  destruct (forall2_lookup_r _ _ _ _ _ Hr Hh) as (s0 & Hh0 & (E1 & E2 & E3)).
  unfold ses_st, rw. rewrite Hl, E2, E3. by apply (HS _ _ Hsl0 h).
Qed.
Lemma st_step w c : INV w -> states_ok w -> regular P B E w c -> states_ok (fst (step P B E w c)).
Proof.
  intros HI HS Hr. assert (forall (m : M world (N * out)) (Q : world -> result (N * out) -> Prop), wp m w Q -> Q (fst (m w)) (snd (m w))) as Hwp.
  { intros m Q H. exact H. }
  destruct (quiet_call c) eqn:Hq; [rewrite step_fst; by apply (st_quiet w); [apply quiet_call_rel|]|].
  destruct c; try discriminate Hq; rewrite step_fst; cbn [api].
  - apply (Hwp _ _ (st_initialize l w HS)).
  - unfold c_finalize. apply (Hwp _ (fun w' _ => states_ok w')). by wp_go.
  - intros sid sl Hsl. cbn in Hsl. by rewrite lookup_empty in Hsl.
  - by apply (st_quiet w); [apply quiet_disturb|].
  - apply (Hwp _ _ (st_init_token sid pin label w HS)).
  - by apply (st_quiet w); [apply quiet_init_pin|].
  - apply (Hwp _ _ (st_set_pin h old new w HI HS)).
  - apply (Hwp _ _ (st_open_session sid fl ph w HI HS)). cbn in Hr. destruct Hr as [?|Hr]; [by left|]. right.
    assert (wp (c_open_session B sid fl ph) w (fun _ r => match r with Ok (rv, _) => rv = CKR_OK | Err _ => True end)) as Ho.
    { eapply wp_mono; [apply open_session_spec|]. cbv beta. intros ? [[? ?]|?]; tauto. }
    unfold wp in Ho. unfold rv, step in Hr. cbn [api] in Hr. destruct (c_open_session B sid fl ph w) as [w3 [[rv3 o3]|e]]; [|done].
    cbn in Ho, Hr. congruence.
  - apply (Hwp _ _ (st_close_session h w HI HS)).
  - apply (Hwp _ _ (st_close_all sid w HS)).
  - apply (Hwp _ _ (st_login h ut pin w HI HS)).
  - apply (Hwp _ _ (st_logout h w HI HS)). cbn in Hr. unfold rv, step in Hr. cbn [api] in Hr.
    destruct (c_logout B h w) as [w3 [[rv3 o3]|e]]; cbn in *; [done|]. intros ?. by simplify_eq.
Qed.
Lemma st_run cs : forall w, INV w -> states_ok w -> regular_run P B E w cs -> states_ok (fst (run P B E w cs)).
Proof.
  induction cs as [|c cs IH]; intros w HI HS Hr; [done|]. cbn [run regular_run] in *. unfold after in Hr. destruct Hr as [Hc Hr].
  pose proof (st_step w c HI HS Hc) as HS'. assert (INV (fst (step P B E w c))) as HI' by (rewrite step_fst; by apply inv_api).
  destruct (step P B E w c) as [w' o]. cbn [fst] in *. specialize (IH w' HI' HS' Hr). by destruct (run P B E w' cs).
Qed.
Lemma st_all ds cs : regular_run P B E (init_world B ds) cs -> states_ok (fst (run P B E (init_world B ds) cs)).
Proof.
  intros Hr. apply st_run; [apply inv_empty| |done]. intros sid sl Hsl. cbn in Hsl. by rewrite lookup_empty in Hsl.
Qed.
End states.
