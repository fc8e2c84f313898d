(* Every call keeps the invariant of Sessions.v. *)
From Verif Require Import Base Monad Hoare Attr Obj Factory Tables Create Sqlite Storage Token Backend State Api
  TokenFrame Spec WorldFrame WorldWp Sessions.

Section inv.
Context (P : params) (B : backend) (E : N -> keyenv).
Notation world := (world B). Notation session := (session B). Notation slot := (slot B).

(* What a change of login does to a session. *)
Definition ses_same (a b : session) : Prop :=
  s_slot b = s_slot a /\ s_flags b = s_flags a /\ (state_ok B a -> state_ok B b).
Lemma change_same ut s : ses_same s (fst (change_session_state B ut s)).
Proof.
  unfold ses_same, change_session_state. cbv zeta.
  repeat match goal with |- context [fst (if ?b then _ else _)] => destruct b eqn:? end;
    cbn [fst s_slot s_flags set_state]; (split; [done|]); (split; [done|]); try tauto;
    unfold state_ok, rw; cbn [s_flags s_state set_state]; intros [? Hst]; (split; [done|]);
    destruct (has_flag (s_flags s) CKF_RW_SESSION);
    unfold CKS_RO_PUBLIC_SESSION, CKS_RO_USER_FUNCTIONS, CKS_RW_PUBLIC_SESSION, CKS_RW_USER_FUNCTIONS,
      CKS_RW_SO_FUNCTIONS in *; lia.
Qed.
Lemma change_states_spec ut l : forall m m' r,
  change_states B ut l m = (m', r) -> NoDup (map fst l) -> (forall h s, In (h, s) l -> m !! h = Some s) ->
  (forall h, ~ In h (map fst l) -> m' !! h = m !! h) /\
  (forall h s, In (h, s) l -> m' !! h = Some s \/ m' !! h = Some (fst (change_session_state B ut s))) /\
  (r = Ok tt -> forall h s, In (h, s) l -> m' !! h = Some (fst (change_session_state B ut s))
                                       /\ snd (change_session_state B ut s) = CKR_OK).
Proof.
  induction l as [|[h0 s0] l IH]; intros m m' r H Hnd Hin; cbn [change_states] in H.
  { simplify_eq. cbn. split_and!; done. }
  cbn [map fst] in *. inversion Hnd as [|? ? Hni Hnd']; subst. rewrite elem_of_list_In in Hni.
  destruct (change_session_state B ut s0) as [s0' rv] eqn:Hc.
  destruct (N.eqb_spec rv CKR_OK) as [->|Hne].
  - destruct (IH _ _ _ H Hnd') as (H1 & H2 & H3).
    { intros h s Hi. rewrite lookup_insert_ne; [apply Hin; by right|].
      intros ->. apply Hni. apply in_map_iff. by exists (h, s). }
    split_and!.
    + intros h Hh.
      assert (h0 <> h /\ ~ In h (map fst l)) as [? ?] by (split; intros ?; apply Hh; [by left|by right]).
      rewrite H1 by done. by apply lookup_insert_ne.
    + intros h s [Heq|Hi]; [|by apply H2]. simplify_eq. right. rewrite Hc. cbn.
      rewrite H1 by done. apply lookup_insert.
    + intros Hr h s [Heq|Hi]; [|by apply H3]. simplify_eq. rewrite Hc. cbn. rewrite H1 by done.
      by rewrite lookup_insert.
  - simplify_eq. split_and!; [|..|done].
    + intros h Hh. apply lookup_insert_ne. intros ?. apply Hh. by left.
    + intros h s [Heq|Hi].
      * simplify_eq. right. rewrite Hc. apply lookup_insert.
      * left. rewrite lookup_insert_ne; [apply Hin; by right|].
        intros ->. apply Hni. apply in_map_iff. by exists (h, s).
Qed.
Lemma map_to_list_in {A} (m : gmap N A) h s : In (h, s) (map_to_list m) <-> m !! h = Some s.
Proof. by rewrite <- elem_of_list_In, elem_of_map_to_list. Qed.
Lemma change_all_spec ut m m' r :
  change_states B ut (map_to_list m) m = (m', r) ->
  (forall h, option_Forall2 ses_same (m !! h) (m' !! h)) /\
  (r = Ok tt -> m' = (fun s => fst (change_session_state B ut s)) <$> m) /\
  (r = Ok tt -> forall h s, m !! h = Some s -> snd (change_session_state B ut s) = CKR_OK).
Proof.
  intros H. apply change_states_spec in H as (H1 & H2 & H3).
  - split_and!.
    + intros h. destruct (m !! h) as [s|] eqn:Hs.
      * apply map_to_list_in in Hs. destruct (H2 h s Hs) as [->| ->]; constructor; [done|apply change_same].
      * rewrite H1, Hs; [constructor|]. intros Hi. apply in_map_iff in Hi as ([h' s] & <- & Hi).
        apply map_to_list_in in Hi. cbn in Hs. congruence.
    + intros Hr. apply map_eq. intros h. rewrite lookup_fmap. destruct (m !! h) as [s|] eqn:Hs.
      * apply map_to_list_in in Hs. by destruct (H3 Hr h s Hs) as [-> _].
      * cbn. rewrite H1; [done|]. intros Hi. apply in_map_iff in Hi as ([h' s] & <- & Hi).
        apply map_to_list_in in Hi. cbn in Hs. congruence.
    + intros Hr h s Hs. apply map_to_list_in in Hs. by destruct (H3 Hr h s Hs).
  - apply NoDup_fst_map_to_list.
  - intros h s. apply map_to_list_in.
Qed.
Lemma invalidate_same (m : gmap N session) h :
  option_Forall2 ses_same (m !! h) (((fun s => fst (change_session_state B CK_UNAVAILABLE_INFORMATION s)) <$> m) !! h).
Proof. rewrite lookup_fmap. destruct (m !! h); constructor. apply change_same. Qed.

(* Same sessions up to their state, another login. *)
Lemma slot_ok_same next smap sid (a b : slot) :
  slot_ok B next smap sid a -> (forall h, option_Forall2 ses_same (sl_sessions a !! h) (sl_sessions b !! h)) ->
  tk_initialized (sl_token b) = tk_initialized (sl_token a) ->
  (t_logged (sl_token b) = KRY_UNSPEC
   \/ t_logged (sl_token b) = CKU_USER /\ sl_sessions a <> ∅
   \/ t_logged (sl_token b) = CKU_SO /\ sl_sessions a <> ∅ /\ (forall h s, sl_sessions a !! h = Some s -> rw B s = true)) ->
  slot_ok B next smap sid b.
Proof.
  intros [H1 H2 H3 H4 H5] Hs Hi Hl. pose proof (forall2_empty _ _ _ Hs) as He. split.
  - intros h s Hh. destruct (forall2_lookup_r _ _ _ _ _ Hs Hh) as (s0 & Hh0 & (E1 & E2 & E3)).
    destruct (H1 _ _ Hh0) as (A1 & A2 & A3 & A4). unfold session_ok. rewrite E1. auto.
  - tauto.
  - intros Hb. destruct Hl as [?|[[? ?]|[? [? ?]]]]; [done|tauto..].
  - rewrite Hi. tauto.
  - intros Hso h s Hh. destruct Hl as [Hl|[[Hl ?]|[? [? Hrw]]]]; [rewrite Hl in Hso; discriminate..|].
    destruct (forall2_lookup_r _ _ _ _ _ Hs Hh) as (s0 & Hh0 & (E1 & E2 & E3)).
    unfold rw. rewrite E2. by apply (Hrw h).
Qed.
Lemma dom_same (a b : gmap N session) :
  (forall h, option_Forall2 ses_same (a !! h) (b !! h)) -> forall h, is_Some (a !! h) <-> is_Some (b !! h).
Proof. intros H h. specialize (H h). destruct (a !! h), (b !! h); inversion H; split; intros [? ?]; eauto. Qed.
Lemma same_refl (m : gmap N session) h : option_Forall2 ses_same (m !! h) (m !! h).
Proof. destruct (m !! h); by constructor. Qed.

Lemma nonempty (m : gmap N session) h s : m !! h = Some s -> m <> ∅.
Proof. intros H ->. by rewrite lookup_empty in H. Qed.
(* What a token function does not change. *)
Notation INV := (sess_inv B).

Lemma inv_same w sid sl sl' :
  INV w -> w_slots w !! sid = Some sl ->
  (forall h, option_Forall2 ses_same (sl_sessions sl !! h) (sl_sessions sl' !! h)) ->
  tk_initialized (sl_token sl') = tk_initialized (sl_token sl) ->
  (t_logged (sl_token sl') = KRY_UNSPEC
   \/ t_logged (sl_token sl') = CKU_USER /\ sl_sessions sl <> ∅
   \/ t_logged (sl_token sl') = CKU_SO /\ sl_sessions sl <> ∅ /\ (forall h s, sl_sessions sl !! h = Some s -> rw B s = true)) ->
  INV (with_slot B sid sl' w).
Proof.
  intros HI Hsl Hs Hi Hl. eapply inv_with_slot; eauto using dom_same.
  eapply slot_ok_same; eauto. by apply HI.
Qed.

Lemma logged_keep next smap sid sl t' : slot_ok B next smap sid sl -> t_logged t' = t_logged (sl_token sl) ->
  (t_logged t' = KRY_UNSPEC
   \/ t_logged t' = CKU_USER /\ sl_sessions sl <> ∅
   \/ t_logged t' = CKU_SO /\ sl_sessions sl <> ∅ /\ (forall h s, sl_sessions sl !! h = Some s -> rw B s = true)).
Proof.
  intros [H1 H2 H3 H4 H5] Ht. rewrite Ht. destruct (decide (sl_sessions sl = ∅)) as [He|He]; [auto|].
  destruct H2 as [H2|[H2|H2]]; auto.
  right; right. split_and!; eauto.
Qed.
Lemma logout_ok t t' : tok_almost t t' -> (t_logged t = KRY_UNSPEC \/ t_logged t = CKU_SO \/ t_logged t = CKU_USER) ->
  (t_logged t = KRY_UNSPEC -> t' = t /\ True) -> (t_logged t = CKU_SO \/ t_logged t = CKU_USER -> t_logged t' = KRY_UNSPEC /\ True) ->
  t_logged t' = KRY_UNSPEC.
Proof. intros _ [H|[H|H]] H1 H2; [destruct (H1 H) as [-> _]; done|apply H2; auto..]. Qed.
Lemma tk_logout_none t : (t_logged t = KRY_UNSPEC \/ t_logged t = CKU_SO \/ t_logged t = CKU_USER) ->
  wp tk_logout t (fun t' _ => tok_almost t t' /\ t_logged t' = KRY_UNSPEC).
Proof.
  intros Ht. eapply wp_mono; [apply tk_logout_spec|]. cbv beta. intros t' r (Ha & H1 & H2). split; [done|].
  destruct Ht as [Ht|Ht]; [destruct (H1 Ht) as [-> _]; done|apply H2; auto].
Qed.

Lemma has_ro_false sl next smap sid : slot_ok B next smap sid sl -> has_ro B sl = false ->
  forall h s, sl_sessions sl !! h = Some s -> rw B s = true.
Proof.
  intros [H1 _ _ _ _] Hro h s Hs. destruct (H1 h s Hs) as (_ & _ & _ & _ & Hst).
  destruct (rw B s) eqn:Hrw; [done|]. exfalso. unfold has_ro in Hro.
  enough (existsb (fun p => (s_state p.2 =? CKS_RO_PUBLIC_SESSION) || (s_state p.2 =? CKS_RO_USER_FUNCTIONS))
            (map_to_list (sl_sessions sl)) = true) by congruence.
  apply existsb_exists. exists (h, s). split; [by apply map_to_list_in|]. cbn [snd].
  destruct Hst as [-> | ->]; done.
Qed.

(* C_Logout *)
Lemma inv_invalidate w sid (Q : world -> result unit -> Prop) :
  INV w -> (forall w' , INV w' -> Q w' (Ok tt)) -> (forall e, Q w (Err e)) -> wp (invalidate_session_states B sid) w Q.
Proof.
  intros HI HQ HQe. unfold invalidate_session_states. wp_step. wp_step; [|auto]. wp_step. apply HQ.
  eapply (inv_same w sid sl); [done|done|apply invalidate_same|done|].
  eapply logged_keep; [by apply HI|done].
Qed.
Lemma inv_logout h w : INV w -> wp (c_logout B h) w (fun w' _ => INV w').
Proof.
  intros HI. unfold c_logout. wp_go.
  match goal with H : w_slots w !! s_slot s = Some ?x |- wp tk_logout (sl_token ?x) _ => rename H into Hsl; rename x into sl1 end.
  pose proof (si_slots _ _ HI _ _ Hsl) as Hok.
  eapply wp_mono; [apply tk_logout_none, Hok|]. cbv beta. intros t' r [(Hi & _) Hl].
  assert (INV (with_slot B (s_slot s) (put_token B t' sl1) w)) as HI'.
  { eapply (inv_same w _ sl1); [done|done|apply same_refl|done|auto]. }
  destruct r; [|done]. cbv beta iota. wp_step. apply inv_invalidate; [done| |done]. intros w' Hw'. by wp_step.
Qed.

(* C_Login *)
Lemma inv_tok {A} sid (m : M token A) w sl (Q : world -> result A -> Prop) (T : token -> result A -> Prop) :
  INV w -> w_next w <> 0 -> w_slots w !! sid = Some sl ->
  wp m (sl_token sl) T ->
  (forall t r, T t r -> INV (with_slot B sid (put_token B t sl) w) /\ Q (with_slot B sid (put_token B t sl) w) r) ->
  wp (Api.tok B sid m) w Q.
Proof.
  intros HI Hn Hsl HT HQ. unfold Api.tok, State.tok. wp_step. unfold get_slot, wp.
  unfold mbind, gets, ensure, initialized. destruct (N.eqb_spec (w_next w) 0); [done|]. cbn. rewrite Hsl. cbn.
  unfold wp in HT. destruct (m (sl_token sl)) as [t r]. apply HQ. done.
Qed.
Lemma inv_change_states sid ut w : INV w -> wp (change_session_states B sid ut) w (fun w' _ => INV w').
Proof.
  intros HI. unfold change_session_states. wp_go.
  match goal with Hc : change_states B ut _ _ = _ |- _ => apply change_all_spec in Hc as (Hs & _) end.
  eapply (inv_same w sid sl); [done|done|done|done|]. eapply logged_keep; [by apply HI|done].
Qed.
Lemma inv_tok_logout sid w : INV w -> wp (attempt (Api.tok B sid tk_logout)) w (fun w' _ => INV w').
Proof.
  intros HI. wp_go. pose proof (si_slots _ _ HI _ _ H0) as Hok.
  eapply wp_mono; [apply tk_logout_none, Hok|]. cbv beta. intros t' r [(Hi & _) Hl].
  eapply (inv_same w _ sl); [done|done|apply same_refl|done|auto].
Qed.
Lemma inv_upd_session h f w : (forall s, ses_quiet B s (f s)) -> INV w -> wp (upd_session B h f) w (fun w' _ => INV w').
Proof.
  intros Hf HI. unfold wp. apply (inv_quiet B w); [|done]. apply rel_upd_session; first [apply _|done].
Qed.
Lemma session_slot_eq w h sid sl s : INV w -> w_slots w !! sid = Some sl -> sl_sessions sl !! h = Some s -> s_slot s = sid.
Proof. intros HI H1 H2. apply (so_sessions _ _ _ _ _ (si_slots _ _ HI _ _ H1) _ _ H2). Qed.
Lemma inv_login h ut pin w : INV w -> wp (c_login P B h ut pin) w (fun w' _ => INV w').
Proof.
  intros HI. unfold c_login. wp_go.
  all: rewrite (session_slot_eq _ _ _ _ _ HI H2 H3) in *; simplify_eq.
  all: pose proof (si_slots _ _ HI _ _ H2) as Hok.
  all: eapply wp_mono; [apply tk_login_spec|]; cbv beta; intros t' r [(Hi & _) Hl].
  - assert (INV (with_slot B sid (put_token B t' sl) w)) as HI'.
    { eapply (inv_same w _ sl); [done|done|apply same_refl|done|]. eapply logged_keep; [done|].
      destruct r; [|done]. by rewrite Heqb in Hl. }
    destruct r; cbv beta iota; wp_step; [|wp_step].
    + eapply wp_mono; [by apply inv_upd_session|]. cbv beta. intros w' [u|e] HI2; [by wp_step|done].
    + wp_step. eapply wp_mono; [by apply inv_tok_logout|]. cbv beta. intros w' [u|e] HI2; [|done].
      apply inv_invalidate; [done| |done]. intros w2 HI3. by wp_step.
    + by wp_step.
  - destruct r as [[]|e]; cbv beta iota.
    + destruct (ut =? CKU_CONTEXT_SPECIFIC); [done|]. destruct Hl as (Hl1 & Hl2 & Hl3).
      assert (INV (with_slot B sid (put_token B t' sl) w)) as HI'.
      { eapply (inv_same w _ sl); [done|done|apply same_refl|done|]. cbn [sl_token put_token].
        rewrite Hl3. pose proof (nonempty _ _ _ H3). destruct Hl2 as [->| ->]; [|auto].
        right; right. split; [done|]. split; [done|]. cbn in H6. apply negb_true_iff in H6.
        eapply has_ro_false; eauto. }
      wp_step. wp_step. eapply wp_mono; [by apply inv_change_states|]. cbv beta. intros w2 r HI2.
      destruct r; wp_step; [done|].
      eapply wp_mono; [by apply inv_tok_logout|]. cbv beta. intros w3 [u|e] HI3; [|done].
      wp_step. apply inv_invalidate; [done| |done]. intros w4 HI4. by wp_step.
    + wp_step. eapply (inv_same w _ sl); [done|done|apply same_refl|done|]. by eapply logged_keep.
Qed.

(* C_SetPIN *)
Lemma inv_set_pin h old new w : INV w -> wp (c_set_pin P B h old new) w (fun w' _ => INV w').
Proof.
  intros HI. unfold c_set_pin. wp_go.
  all: assert (sid0 = sid) as -> by congruence; assert (sl0 = sl) as -> by congruence.
  all: pose proof (si_slots _ _ HI _ _ H2) as Hok.
  all: set (o := match old with Some p => p | None => [] end) in *; set (n := match new with Some p => p | None => [] end) in *.
  - assert (wp (tk_set_pin P CK_UNAVAILABLE_INFORMATION n o) (sl_token sl) (fun t _ => tok_quiet (sl_token sl) t)) as Hq
      by apply quiet_set_pin.
    eapply wp_mono; [exact Hq|]. cbv beta. intros t r [Hl Hi _ _].
    assert (INV (with_slot B sid (put_token B t sl) w)).
    { eapply (inv_same w _ sl); [done|done|apply same_refl|done|]. by eapply logged_keep. }
    wp_go.
  - eapply wp_mono; [apply tk_login_spec|]. cbv beta. intros t r [(Hi & _) Hl].
    assert (INV (with_slot B sid (put_token B t sl) w)) as HI1.
    { eapply (inv_same w _ sl); [done|done|apply same_refl|done|]. destruct r; [|by eapply logged_keep].
      change (CKU_USER =? CKU_CONTEXT_SPECIFIC) with false in Hl. destruct Hl as (_ & _ & Hl).
      right; left. split; [done|]. by eapply nonempty. }
    destruct r; [|done]. wp_step. wp_step. wp_step.
    assert (wp (tk_set_pin P CK_UNAVAILABLE_INFORMATION n o) t (fun t' _ => tok_quiet t t')) as Hq
      by apply quiet_set_pin.
    eapply wp_mono; [exact Hq|]. cbv beta. intros t1 r [Hl1 Hi1 _ _]. rewrite with_slot_twice.
    assert (INV (with_slot B sid (put_token B t1 sl) w)) as HI2.
    { eapply (inv_same w _ sl); [done|done|apply same_refl| |]; cbn; [congruence|].
      rewrite Hl1. change (CKU_USER =? CKU_CONTEXT_SPECIFIC) with false in Hl. destruct Hl as (_ & _ & ->).
      right; left. split; [done|]. by eapply nonempty. }
    change (put_token B t1 (put_token B t sl)) with (put_token B t1 sl).
    wp_step. wp_step. eapply wp_mono; [by apply inv_tok_logout|]. cbv beta. intros w3 r3 HI3.
    destruct r3; [|done]. wp_step. wp_go.
Qed.

(* C_OpenSession *)
Lemma session_new_ok sid ut fl s : session_new B sid ut fl = Ok s ->
  (ut = CK_UNAVAILABLE_INFORMATION \/ ut = CKU_SO \/ ut = CKU_USER) ->
  s_slot s = sid /\ s_flags s = fl /\ state_ok B s /\ (ut = CKU_SO -> rw B s = true).
Proof.
  unfold session_new, state_ok, rw. intros H Hut.
  destruct (has_flag fl CKF_SERIAL_SESSION) eqn:Hf; [|done].
  destruct Hut as [->|[->| ->]]; cbn in H; destruct (has_flag fl CKF_RW_SESSION) eqn:Hw; cbn in H; simplify_eq;
    cbn; rewrite Hw, Hf; (split; [done|]); (split; [done|]); split; auto; try done.
Qed.
Lemma inv_new_session sid ut fl w :
  INV w -> (forall sl, w_slots w !! sid = Some sl -> tk_initialized (sl_token sl) = true /\
     ((ut = CKU_SO /\ t_logged (sl_token sl) = CKU_SO) \/ (ut = CKU_USER /\ t_logged (sl_token sl) = CKU_USER)
      \/ (ut = CK_UNAVAILABLE_INFORMATION /\ t_logged (sl_token sl) = KRY_UNSPEC))) ->
  wp (new_session B sid ut fl) w (fun w' _ => INV w').
Proof.
  intros HI Hsl. unfold new_session. wp_go. rename a into s.
  destruct (Hsl _ H0) as [Hi Hut]. destruct (session_new_ok _ _ _ _ Heqr) as (S1 & S2 & S3 & S4); [tauto|].
  destruct HI as [H1 H2 H3]. split; cbn.
  - intros i x. destruct (decide (i = sid)) as [->|Hne].
    + rewrite lookup_insert. intros ?. simplify_eq. destruct (H1 _ _ H0) as [A1 A2 A3 A4 A5]. split; cbn.
      * intros h s'. destruct (decide (h = w_next w)) as [->|Hn].
        -- rewrite lookup_insert. intros ?. simplify_eq. unfold session_ok. rewrite lookup_insert.
           split_and!; try done; lia.
        -- rewrite lookup_insert_ne by done. intros Hs. destruct (A1 _ _ Hs) as (B1 & B2 & B3 & B4).
           unfold session_ok. rewrite lookup_insert_ne by done. split_and!; try done; lia.
      * done.
      * intros He. exfalso. eapply nonempty; [apply lookup_insert|exact He].
      * done.
      * intros Hso h s'. destruct (decide (h = w_next w)) as [->|Hn].
        -- rewrite lookup_insert. intros ?. simplify_eq. apply S4.
           destruct Hut as [[? ?]|[[? Hu]|[? Hu]]]; [done|..]; rewrite Hu in Hso; done.
        -- rewrite lookup_insert_ne by done. by apply A5.
    + rewrite lookup_insert_ne by done. intros Hx. destruct (H1 _ _ Hx) as [A1 A2 A3 A4 A5]. split; try done.
      intros h s' Hs. destruct (A1 _ _ Hs) as (B1 & B2 & B3 & B4). unfold session_ok.
      rewrite lookup_insert_ne by lia. split_and!; try done; lia.
  - intros h i. destruct (decide (h = w_next w)) as [->|Hn].
    + rewrite lookup_insert. intros ?. simplify_eq. eexists _, s. rewrite lookup_insert. split; [done|].
      cbn. apply lookup_insert.
    + rewrite lookup_insert_ne by done. intros Hh. destruct (H2 _ _ Hh) as (x & s' & Hx & Hs).
      destruct (decide (i = sid)) as [->|Hne].
      * rewrite lookup_insert. simplify_eq. eexists _, s'. split; [done|]. cbn. by rewrite lookup_insert_ne.
      * rewrite lookup_insert_ne by done. eauto.
  - lia.
Qed.
Lemma inv_open_session sid fl p w : INV w -> wp (c_open_session B sid fl p) w (fun w' _ => INV w').
Proof.
  intros HI. unfold c_open_session. wp_go;
  match goal with H : w_slots w !! sid = Some ?sl |- _ => pose proof (si_slots _ _ HI _ _ H) as [_ A2 _ _ _] end.
  all: eapply wp_mono; [apply inv_new_session; [done|]|cbv beta; intros w' [x|e] HI'; by wp_go].
  all: intros x Hx; simplify_eq; split; [done|].
  all: unfold CKU_SO, CKU_USER, KRY_UNSPEC in *; lia.
Qed.

(* C_CloseSession *)
Lemma inv_drop w sid sl h t' d :
  INV w -> w_slots w !! sid = Some sl -> w_smap w !! h = Some sid ->
  tk_initialized t' = tk_initialized (sl_token sl) ->
  (t_logged t' = KRY_UNSPEC \/ t_logged t' = t_logged (sl_token sl)) ->
  (delete h (sl_sessions sl) = ∅ -> t_logged t' = KRY_UNSPEC) ->
  INV (World (<[sid := Slot t' (delete h (sl_sessions sl)) d]> (w_slots w)) (delete h (w_smap w)) (w_next w) (w_disks w)).
Proof.
  intros [H1 H2 H3] Hsl Hh Hi Hl He.
  assert (forall h' s' i x, w_slots w !! i = Some x -> sl_sessions x !! h' = Some s' -> h' <> h ->
     session_ok B (w_next w) (delete h (w_smap w)) i h' s') as Hk.
  { intros h' s' i x Hx Hs Hne. destruct (H1 _ _ Hx) as [A1 _ _ _ _]. destruct (A1 _ _ Hs) as (B1 & B2 & B3 & B4).
    unfold session_ok. by rewrite lookup_delete_ne. }
  split; cbn.
  - intros i x. destruct (decide (i = sid)) as [->|Hne].
    + rewrite lookup_insert. intros ?. simplify_eq. destruct (H1 _ _ Hsl) as [A1 A2 A3 A4 A5]. split; cbn.
      * intros h' s' Hs. apply lookup_delete_Some in Hs as [Hn Hs]. by eapply Hk.
      * destruct Hl as [->| ->]; auto.
      * done.
      * intros Hne. rewrite Hi. apply A4. intros Hx. apply Hne. rewrite Hx. apply delete_empty.
      * intros Hso h' s' Hs. apply lookup_delete_Some in Hs as [Hn Hs].
        destruct Hl as [Hl|Hl]; rewrite Hl in Hso; [done|]. by eapply A5.
    + rewrite lookup_insert_ne by done. intros Hx. destruct (H1 _ _ Hx) as [A1 A2 A3 A4 A5]. split; try done.
      intros h' s' Hs. eapply Hk; [done|done|]. intros ->. destruct (A1 _ _ Hs) as (B1 & B2 & _). congruence.
  - intros h' i Hm. apply lookup_delete_Some in Hm as [Hn Hm]. destruct (H2 _ _ Hm) as (x & s & Hx & Hs).
    destruct (decide (i = sid)) as [->|Hne].
    + rewrite lookup_insert. simplify_eq. eexists _, s. split; [done|]. cbn. by rewrite lookup_delete_ne.
    + rewrite lookup_insert_ne by done. eauto.
  - intros Hz. specialize (H3 Hz). rewrite H3 in Hsl. by rewrite lookup_empty in Hsl.
Qed.
(* C_CloseSession on an open session. *)
Lemma close_session_eq h w sid sl :
  w_next w <> 0 -> w_smap w !! h = Some sid -> w_slots w !! sid = Some sl -> tk_initialized (sl_token sl) = true ->
  c_close_session B h w =
    (World (<[sid := Slot (let t := drop_session_objects h (sl_token sl) in
                           if bool_decide (delete h (sl_sessions sl) = ∅) then fst (tk_logout t) else t)
                          (delete h (sl_sessions sl)) (sl_disk sl)]> (w_slots w))
       (delete h (w_smap w)) (w_next w) (w_disks w), Ok (CKR_OK, ONone)).
Proof.
  intros Hn Hh Hsl Hi. unfold c_close_session. rewrite run_bind, lock_eq by done.
  rewrite run_bind, (token_of_session_eq B h sid sl) by done.
  rewrite run_bind, (tok_eq B sid sl) by done. cbn [modify fst snd].
  set (w1 := with_slot _ _ _ _). rewrite run_bind. unfold drop_session. rewrite run_bind.
  rewrite (session_slot_some B h sid w1) by done. rewrite run_bind.
  rewrite (get_slot_eq B sid (put_token B (drop_session_objects h (sl_token sl)) sl) w1) by (done || apply with_slot_lookup).
  rewrite run_bind. cbn [put_slot modify]. rewrite run_bind. cbn [modify]. rewrite run_bind.
  rewrite (get_slot_eq B sid (Slot (drop_session_objects h (sl_token sl)) (delete h (sl_sessions sl)) (sl_disk sl)))
    by (done || apply lookup_insert).
  cbn [sl_sessions]. case_bool_decide as He.
  - rewrite run_bind.
    rewrite (token_ready_eq B sid (Slot (drop_session_objects h (sl_token sl)) (delete h (sl_sessions sl)) (sl_disk sl)))
      by (done || apply lookup_insert).
    rewrite run_bind. unfold attempt. change (@State.tok B unit) with (@Api.tok B unit).
    rewrite (tok_eq B sid (Slot (drop_session_objects h (sl_token sl)) (delete h (sl_sessions sl)) (sl_disk sl)))
      by (done || apply lookup_insert).
    unfold with_slot, set_slots, set_smap, put_token, put_sessions. cbn. subst w1. rewrite !insert_insert. done.
  - subst w1. unfold with_slot, set_slots, set_smap, put_token, put_sessions. cbn. rewrite !insert_insert. done.
Qed.

(* Errors of C_CloseSession leave everything as it was. *)
Lemma token_of_session_err h w w' e : token_of_session B h w = (w', Err e) -> w' = w.
Proof.
  intros H. assert (wp (token_of_session B h) w (fun w' _ => w' = w)) as Hw by (apply wp_token_of_session; done).
  unfold wp in Hw. by rewrite H in Hw.
Qed.
Lemma inv_close_session h w : INV w -> wp (c_close_session B h) w (fun w' _ => INV w').
Proof.
  intros HI. destruct (N.eq_dec (w_next w) 0) as [Hz|Hn].
  { unfold c_close_session, wp. by rewrite run_bind, lock_off. }
  destruct (w_smap w !! h) as [sid|] eqn:Hh.
  - destruct (si_smap _ _ HI _ _ Hh) as (sl & s & Hsl & Hs). pose proof (si_slots _ _ HI _ _ Hsl) as Hok.
    assert (tk_initialized (sl_token sl) = true) as Hi. { apply Hok. by eapply nonempty. }
    unfold wp. rewrite (close_session_eq h w sid sl) by done. cbn [fst snd]. cbv zeta.
    set (t := drop_session_objects h (sl_token sl)).
    assert (wp tk_logout t (fun t' _ => tok_almost t t' /\ t_logged t' = KRY_UNSPEC)) as Hlo by (apply tk_logout_none, Hok).
    unfold wp in Hlo. destruct (tk_logout t) as [t' r']. cbn [fst] in *. destruct Hlo as [(Hi' & _) Hl'].
    case_bool_decide as He; apply (inv_drop w sid sl); try done; auto.
  - unfold c_close_session, wp. rewrite run_bind, lock_eq by done. rewrite run_bind. unfold token_of_session.
    by rewrite run_bind, session_slot_none.
Qed.

(* C_CloseAllSessions *)
Lemma inv_drop_all w sid sl t' :
  INV w -> w_slots w !! sid = Some sl -> t_logged t' = KRY_UNSPEC ->
  INV (World (<[sid := Slot t' ∅ (sl_disk sl)]> (w_slots w)) (filter (fun p => p.2 <> sid) (w_smap w)) (w_next w) (w_disks w)).
Proof.
  intros [H1 H2 H3] Hsl Hl. split; cbn.
  - intros i x. destruct (decide (i = sid)) as [->|Hne].
    + rewrite lookup_insert. intros ?. simplify_eq. split; cbn; auto; try done.
    + rewrite lookup_insert_ne by done. intros Hx. destruct (H1 _ _ Hx) as [A1 A2 A3 A4 A5]. split; try done.
      intros h s Hs. destruct (A1 _ _ Hs) as (B1 & B2 & B3 & B4). unfold session_ok. split_and!; try done.
      1: by apply map_filter_lookup_Some. all: lia.
  - intros h i Hm. apply map_filter_lookup_Some in Hm as [Hm Hne]. cbn in Hne. destruct (H2 _ _ Hm) as (x & s & Hx & Hs).
    rewrite lookup_insert_ne by done. eauto.
  - intros Hz. specialize (H3 Hz). rewrite H3 in Hsl. by rewrite lookup_empty in Hsl.
Qed.
Lemma drop_all_logged hs : forall t, t_logged (foldl (fun t h => drop_session_objects h t) t hs) = t_logged t
  /\ tk_initialized (foldl (fun t h => drop_session_objects h t) t hs) = tk_initialized t.
Proof. induction hs as [|h hs IH]; intros t; [done|]. cbn [foldl]. destruct (IH (drop_session_objects h t)) as [-> ->]. done. Qed.
Lemma close_all_eq sid w sl :
  w_next w <> 0 -> w_slots w !! sid = Some sl -> tk_initialized (sl_token sl) = true ->
  c_close_all_sessions B sid w =
    (World (<[sid := Slot (fst (tk_logout (foldl (fun t h => drop_session_objects h t) (sl_token sl)
                                     (map fst (map_to_list (sl_sessions sl)))))) ∅ (sl_disk sl)]> (w_slots w))
       (filter (fun p => p.2 <> sid) (w_smap w)) (w_next w) (w_disks w), Ok (CKR_OK, ONone)).
Proof.
  intros Hn Hsl Hi. unfold c_close_all_sessions. rewrite run_bind, lock_eq by done. rewrite run_bind.
  unfold drop_all_sessions_slot. rewrite run_bind. cbn [modify].
  set (w1 := set_smap _ _ _). rewrite run_bind, (get_slot_eq B sid sl w1) by done. rewrite run_bind. cbn [put_slot modify].
  cbv beta iota. unfold ret at 1. set (w2 := set_slots _ _ _).
  rewrite run_bind, (token_ready_eq B sid (put_sessions B ∅ sl) w2) by (done || apply lookup_insert).
  rewrite run_bind, (tok_eq B sid (put_sessions B ∅ sl)) by (done || apply lookup_insert). cbn [modify fst snd].
  set (t := foldl _ _ _). rewrite run_bind. unfold attempt.
  rewrite (tok_eq B sid (put_token B t (put_sessions B ∅ sl))) by (done || apply with_slot_lookup).
  cbn [sl_token put_token put_sessions]. subst w1 w2.
  unfold with_slot, set_slots, set_smap, put_token, put_sessions. cbn. rewrite !insert_insert. done.
Qed.
Lemma inv_close_all sid w : INV w -> wp (c_close_all_sessions B sid) w (fun w' _ => INV w').
Proof.
  intros HI. destruct (N.eq_dec (w_next w) 0) as [Hz|Hn].
  { unfold c_close_all_sessions, wp. by rewrite run_bind, lock_off. }
  destruct (w_slots w !! sid) as [sl|] eqn:Hsl.
  - pose proof (si_slots _ _ HI _ _ Hsl) as Hok. destruct (tk_initialized (sl_token sl)) eqn:Hi.
    + unfold wp. rewrite (close_all_eq sid w sl) by done. cbn [fst snd]. apply inv_drop_all; try done.
      set (t := foldl _ _ _).
      assert (wp tk_logout t (fun t' _ => tok_almost t t' /\ t_logged t' = KRY_UNSPEC)) as Hlo.
      { apply tk_logout_none. subst t. destruct (drop_all_logged (map fst (map_to_list (sl_sessions sl))) (sl_token sl)) as [-> _].
        apply Hok. }
      unfold wp in Hlo. destruct (tk_logout t) as [t1 r1]. apply Hlo.
    + unfold c_close_all_sessions, wp. rewrite run_bind, lock_eq by done. rewrite run_bind. unfold drop_all_sessions_slot.
      rewrite run_bind. cbn [modify]. set (w1 := set_smap _ _ _). rewrite run_bind, (get_slot_eq B sid sl w1) by done.
      rewrite run_bind. cbn [put_slot modify]. cbv beta iota. unfold ret at 1. set (w2 := set_slots _ _ _).
      rewrite run_bind. unfold token_ready.
      rewrite run_bind, (get_slot_eq B sid (put_sessions B ∅ sl) w2) by (done || apply lookup_insert).
      cbn [sl_token put_sessions]. rewrite Hi. cbn. subst w1 w2. unfold set_slots, set_smap, put_sessions. cbn.
      apply (inv_drop_all w sid sl); [done|done|]. apply Hok. destruct (decide (sl_sessions sl = ∅)) as [|He]; [done|].
      apply Hok in He. congruence.
  - unfold c_close_all_sessions, wp. rewrite run_bind, lock_eq by done. rewrite run_bind. unfold drop_all_sessions_slot.
    rewrite run_bind. cbn [modify]. set (w1 := set_smap _ _ _). rewrite run_bind. unfold get_slot.
    unfold mbind at 1 2 3, gets, ensure, initialized. cbn [w1 w_next set_smap w_slots].
    destruct (N.eqb_spec (w_next w) 0); [done|]. cbn. rewrite Hsl. cbn. subst w1.
    assert (filter (fun p => p.2 <> sid) (w_smap w) = w_smap w) as Hf.
    { apply map_filter_id. intros h i Hh Hs. cbn in Hs. subst i. destruct (si_smap _ _ HI _ _ Hh) as (x & s & Hx & _). congruence. }
    unfold set_smap. rewrite Hf. by destruct w.
Qed.

(* C_InitToken *)
Lemma inv_init_token sid pin label w : INV w -> wp (c_init_token P B sid pin label) w (fun w' _ => INV w').
Proof.
  intros HI. unfold c_init_token. wp_go.
  match goal with H : bool_decide _ = true |- _ => apply bool_decide_eq_true in H; rename H into He end.
  match goal with H : w_slots w !! sid = Some _ |- _ => pose proof (si_slots _ _ HI _ _ H) as Hok; rename H into Hsl end.
  eapply wp_mono; [apply tk_initialize_spec|]. cbv beta. intros t r Hl.
  assert (t_logged t = KRY_UNSPEC) as Hlu. { destruct Hl as [->|]; [by apply Hok|done]. }
  assert (INV (with_slot B sid (put_token B t sl) w)).
  { eapply inv_with_slot; [done|done|done|]. split; cbn; auto.
    - rewrite He. intros h s Hs. by rewrite lookup_empty in Hs.
    - intros Hso. by rewrite Hlu in Hso. }
  wp_go.
Qed.

(* C_Initialize *)
Lemma add_slots_inv l : forall a w, INV w -> w_next w <> 0 -> wp (add_slots P B l a) w (fun w' _ => INV w').
Proof.
  induction l as [|c l IH]; intros a w HI Hn; cbn [add_slots]; [done|].
  wp_step. unfold slot_new. wp_step. wp_step.
  pose proof (token_new_login P (k_db (disk_of B (sc_disk c) w)) (sc_io c) (k_fresh (disk_of B (sc_disk c) w))) as Hl.
  destruct (token_new P _ _ _) as [t r]. cbn [fst] in Hl. destruct r; [|by wp_step]. wp_step. wp_step. wp_step.
  destruct (nonnull (w_slots w !! sc_id c)) eqn:Hd; [by apply IH|].
  wp_step. wp_step. apply IH; [|done].
  destruct (w_slots w !! sc_id c) eqn:Hs; [done|]. destruct HI as [H1 H2 H3]. split; cbn.
  - intros i x. destruct (decide (i = sc_id c)) as [->|Hne].
    + rewrite lookup_insert. intros ?. simplify_eq. split; cbn; try done.
      * left. destruct (sc_mechs c) as [[]|]; done.
      * intros _. destruct (sc_mechs c) as [[]|]; done.
    + rewrite lookup_insert_ne by done. apply H1.
  - intros h i Hh. destruct (H2 _ _ Hh) as (x & s & Hx & Hs'). rewrite lookup_insert_ne; [eauto|]. congruence.
  - done.
Qed.
Lemma inv_empty n d : INV (World ∅ ∅ n d).
Proof. split; cbn; try done. Qed.
Lemma inv_initialize l w : INV w -> wp (c_initialize P B l) w (fun w' _ => INV w').
Proof.
  intros HI. unfold c_initialize. wp_step. wp_step. wp_step.
  destruct (initialized B w) eqn:Hi.
  - wp_step. wp_step. eapply wp_mono; [apply add_slots_inv; [done|]|].
    + unfold initialized in Hi. lia.
    + cbv beta. intros w' [b|e] HI'; [|done]. wp_go.
  - wp_step. wp_step. eapply wp_mono; [apply add_slots_inv; [apply inv_empty|done]|].
    cbv beta. intros w' [b|e] HI'; [|done]. wp_go.
Qed.

Lemma inv_api c w : INV w -> INV (fst (api P B E c w)).
Proof.
  intros HI. destruct (quiet_call c) eqn:Hq; [by apply (inv_quiet B w); [apply quiet_call_rel|]|].
  destruct c; try discriminate Hq; cbn [api].
  - pose proof (inv_initialize l w HI) as H. apply H.
  - unfold c_finalize. assert (wp (Api.lock B;;; modify (stop B);;; Api.ok B ONone) w (fun w' _ => INV w')) as H.
    { wp_go; apply inv_empty. }
    apply H.
  - apply inv_empty.
  - by apply (inv_quiet B w); [apply quiet_disturb|].
  - pose proof (inv_init_token sid pin label w HI) as H. apply H.
  - by apply (inv_quiet B w); [apply quiet_init_pin|].
  - pose proof (inv_set_pin h old new w HI) as H. apply H.
  - pose proof (inv_open_session sid fl ph w HI) as H. apply H.
  - pose proof (inv_close_session h w HI) as H. apply H.
  - pose proof (inv_close_all sid w HI) as H. apply H.
  - pose proof (inv_login h ut pin w HI) as H. apply H.
  - pose proof (inv_logout h w HI) as H. apply H.
Qed.
Lemma step_fst c w : fst (step P B E w c) = fst (api P B E c w).
Proof. unfold step. by destruct (api P B E c w) as [w' [r|e]]. Qed.
Lemma reachable_sess_inv w : reachable P B E w -> INV w.
Proof.
  apply reachable_inv; [intros; apply inv_empty|]. intros w' c HI. rewrite step_fst. by apply inv_api.
Qed.
End inv.
