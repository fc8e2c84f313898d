(* Consequences of the session invariant, used by the theorems of ThmSessions.v. *)
From Verif Require Import Base Monad Hoare Attr Obj Factory Tables Create Sqlite Storage Token Backend State Api
  TokenFrame Spec WorldFrame WorldWp Sessions SessionInv.

Section facts.
Context (B : backend).
Notation world := (world B). Notation session := (session B). Notation slot := (slot B).
Notation INV := (sess_inv B).

Lemma session_of_inv w h s : INV w -> session_of B w h = Some s ->
  exists sl, w_smap w !! h = Some (s_slot s) /\ w_slots w !! s_slot s = Some sl /\ sl_sessions sl !! h = Some s
        /\ slot_ok B (w_next w) (w_smap w) (s_slot s) sl /\ w_next w <> 0 /\ tk_initialized (sl_token sl) = true.
Proof.
  unfold session_of. intros HI H. destruct (w_smap w !! h) as [sid|] eqn:Hm; [|done].
  destruct (w_slots w !! sid) as [sl|] eqn:Hsl; [|done].
  pose proof (si_slots _ _ HI _ _ Hsl) as Hok. destruct (so_sessions _ _ _ _ _ Hok _ _ H) as (H1 & H2 & H3 & H4).
  subst sid. exists sl. split_and!; try done; [lia|]. apply Hok. by eapply nonempty.
Qed.
Lemma session_in_slot w sid sl h s : INV w -> w_slots w !! sid = Some sl -> sl_sessions sl !! h = Some s ->
  session_of B w h = Some s /\ s_slot s = sid.
Proof.
  intros HI Hsl Hs. destruct (so_sessions _ _ _ _ _ (si_slots _ _ HI _ _ Hsl) _ _ Hs) as (H1 & H2 & H3 & H4).
  unfold session_of. by rewrite H2, Hsl.
Qed.
Lemma closed_smap w h : INV w -> ~ is_open B w h -> w_smap w !! h = None.
Proof.
  intros HI Ho. destruct (w_smap w !! h) as [sid|] eqn:Hm; [|done]. exfalso. apply Ho.
  destruct (si_smap _ _ HI _ _ Hm) as (sl & s & Hsl & Hs). unfold is_open, session_of. by rewrite Hm, Hsl, Hs.
Qed.
Lemma open_below w h : INV w -> is_open B w h -> 0 < h < w_next w.
Proof.
  intros HI Ho. destruct (session_of B w h) as [s|] eqn:Hs; [|done].
  destruct (session_of_inv w h s HI Hs) as (sl & H1 & H2 & H3 & H4 & _).
  apply (so_sessions _ _ _ _ _ H4 _ _ H3).
Qed.

(* ---- C02 ---- *)
Definition refusal (e : N) : Prop :=
  e = CKR_SESSION_HANDLE_INVALID \/ e = CKR_CRYPTOKI_NOT_INITIALIZED \/ e = CKR_ARGUMENTS_BAD.
Definition refused {A} (w : world) (x : N -> Prop) (w' : world) (r : result A) : Prop := w' = w /\ exists e, r = Err e /\ x e.
Lemma wp_session_slot_none h w (Q : world -> result N -> Prop) : w_smap w !! h = None ->
  Q w (Err CKR_SESSION_HANDLE_INVALID) -> wp (session_slot B h) w Q.
Proof. intros H HQ. unfold wp. by rewrite session_slot_none. Qed.
Lemma wp_get_session_none h w (Q : world -> result session -> Prop) : w_smap w !! h = None ->
  Q w (Err CKR_SESSION_HANDLE_INVALID) -> wp (get_session B h) w Q.
Proof. intros H HQ. unfold get_session. by apply wp_bind, wp_session_slot_none. Qed.
Lemma wp_token_of_session_none h w (Q : world -> result N -> Prop) : w_smap w !! h = None ->
  Q w (Err CKR_SESSION_HANDLE_INVALID) -> wp (token_of_session B h) w Q.
Proof. intros H HQ. unfold token_of_session. by apply wp_bind, wp_session_slot_none. Qed.
End facts.

Ltac null_contra :=
  exfalso; subst;
  match goal with H : _ = true |- _ => cbn [nonnull andb] in H; rewrite ?andb_false_r in H; cbn [andb] in H; discriminate H end.
Ltac refuse_done := unfold refused, refusal; (split; [reflexivity|]); eexists; (split; [reflexivity|]); solve [auto].
Ltac refuse_step H :=
  lazymatch goal with
  | |- wp (get_session _ _) _ _ => apply (wp_get_session_none _ _ _ _ H); cbv beta iota
  | |- wp (token_of_session _ _) _ _ => apply (wp_token_of_session_none _ _ _ _ H); cbv beta iota
  | |- wp (session_slot _ _) _ _ => apply (wp_session_slot_none _ _ _ _ H); cbv beta iota
  | |- refused _ _ _ _ _ => first [refuse_done | null_contra]
  | |- wp (tmpl_of _ ?t _) _ _ => unfold tmpl_of; destruct t
  | |- _ => wp_step
  end.
Ltac refuse_go H := repeat refuse_step H.

Section facts2.
Context (P : params) (B : backend) (E : N -> keyenv).
Notation world := (world B). Notation session := (session B). Notation slot := (slot B).
Notation INV := (sess_inv B).
Lemma closed_api c w h : w_smap w !! h = None -> session_of_call c = Some h ->
  (forall hh b e a, c = SetOperationState hh b e a -> e = CK_INVALID_HANDLE) ->
  wp (api P B E c) w (refused B w refusal).
Proof.
  intros Hh Hc Hso. destruct c; try discriminate Hc; cbn [session_of_call] in Hc; simplify_eq; cbn [api].
  all: try (unfold c_init_pin, c_set_pin, c_close_session, c_get_session_info, c_get_operation_state,
    c_login, c_logout, c_session_cancel, c_create_object, c_copy_object, c_destroy_object,
    c_get_object_size, c_get_attribute_value, c_set_attribute_value, c_find_objects_init, c_find_objects, c_find_objects_final,
    c_digest_init, c_sign, c_update, c_sign_final, c_verify, c_verify_final, c_verify_signature, c_verify_signature_final,
    c_digest, c_digest_final, c_digest_key, c_crypt, c_crypt_update, c_crypt_final, c_message, c_message_begin, c_message_next,
    c_message_final, c_dual, c_generate_key, c_generate_key_pair, c_wrap_key, c_unwrap_key, c_derive_key, c_encapsulate_key,
    c_decapsulate_key, c_seed_random, c_generate_random, cur_op; refuse_go Hh; fail).
  - unfold c_set_operation_state. rewrite (Hso _ _ _ _ eq_refl), N.eqb_refl. wp_step. wp_step; [|done]. refuse_go Hh.
  - destruct k; try discriminate Hc; simplify_eq; unfold op_init; refuse_go Hh.
Qed.
End facts2.

(* ---- C01 ---- *)
Section fresh.
Context (P : params) (B : backend) (E : N -> keyenv).
Notation world := (world B). Notation session := (session B). Notation slot := (slot B).
Notation INV := (sess_inv B).

(* C_Initialize adds slots without sessions, and keeps those that exist. *)
Definition fresh_slot (w : world) (sl : slot) : Prop :=
  sl_sessions sl = ∅ /\ exists c k, token_new P (k_db k) (sc_io c) (k_fresh k) =
    (fst (token_new P (k_db k) (sc_io c) (k_fresh k)), Ok tt) /\
    sl_token sl = set_dedup (sc_dedup c) (apply_filter P (sc_mechs c) (fst (token_new P (k_db k) (sc_io c) (k_fresh k)))).
Lemma add_slots_spec l : forall a w, wp (add_slots P B l a) w (fun w' _ =>
  w_next w' = w_next w /\ w_smap w' = w_smap w /\ w_disks w' = w_disks w /\
  forall sid sl, w_slots w' !! sid = Some sl -> w_slots w !! sid = Some sl \/ (w_slots w !! sid = None /\ fresh_slot w sl)).
Proof.
  induction l as [|c l IH]; intros a w; cbn [add_slots]; [wp_step; auto|].
  wp_step. unfold slot_new. wp_step. wp_step.
  set (k := disk_of B (sc_disk c) w). destruct (token_new P _ _ _) as [t [[]|e]] eqn:Ht; [|wp_step; auto]. wp_step. wp_step. wp_step.
  destruct (nonnull (w_slots w !! sc_id c)) eqn:Hd; [apply IH|].
  wp_step. wp_step. eapply wp_mono; [apply IH|]. cbv beta. intros w' r (H1 & H2 & H3 & H4). cbn in *.
  split_and!; try done. intros sid sl Hsl. destruct (H4 _ _ Hsl) as [Hx|[Hx Hf]].
  - destruct (decide (sid = sc_id c)) as [->|Hne].
    + rewrite lookup_insert in Hx. simplify_eq. right. destruct (w_slots w !! sc_id c); [done|]. split; [done|].
      split; [done|]. exists c, k. rewrite Ht. done.
    + rewrite lookup_insert_ne in Hx by done. auto.
  - destruct (decide (sid = sc_id c)) as [->|Hne]; [by rewrite lookup_insert in Hx|].
    rewrite lookup_insert_ne in Hx by done. auto.
Qed.
Lemma initialize_spec l w : wp (c_initialize P B l) w (fun w' r =>
  (if initialized B w then w_next w' = w_next w /\ w_smap w' = w_smap w else w_next w' = 1 /\ w_smap w' = ∅) /\
  forall sid sl, w_slots w' !! sid = Some sl -> (initialized B w = true /\ w_slots w !! sid = Some sl) \/ fresh_slot w sl).
Proof.
  unfold c_initialize. wp_step. wp_step. wp_step. destruct (initialized B w) eqn:Hi.
  - wp_step. wp_step. eapply wp_mono; [apply add_slots_spec|]. cbv beta. intros w' r (H1 & H2 & H3 & H4).
    assert ((w_next w' = w_next w /\ w_smap w' = w_smap w) /\
      forall sid sl, w_slots w' !! sid = Some sl -> (true = true /\ w_slots w !! sid = Some sl) \/ fresh_slot w sl).
    { split; [done|]. intros sid sl Hsl. destruct (H4 _ _ Hsl) as [?|[_ ?]]; auto. }
    destruct r; [|done]. wp_go.
  - wp_step. wp_step. eapply wp_mono; [apply add_slots_spec|]. cbv beta. intros w' r (H1 & H2 & H3 & H4).
    assert ((w_next w' = 1 /\ w_smap w' = ∅) /\
      forall sid sl, w_slots w' !! sid = Some sl -> (false = true /\ w_slots w !! sid = Some sl) \/ fresh_slot w sl).
    { split; [done|]. intros sid sl Hsl. destruct (H4 _ _ Hsl) as [Hx|[_ ?]]; [cbn in Hx; by rewrite lookup_empty in Hx|auto]. }
    destruct r; [|done]. wp_go.
Qed.
Definition same_next (w w' : world) : Prop := w_next w' = w_next w.
Lemma next_mono c w : keeps_running c = true -> w_next w <= w_next (fst (api P B E c w)).
Proof.
  intros Hc. destruct (quiet_call c) eqn:Hq.
  { destruct (quiet_call_rel B P E c w Hq) as [_ _ Hn _]. lia. }
  assert (forall (m : M world (N * out)), wp m w (fun w' _ => w_next w <= w_next w') -> w_next w <= w_next (fst (m w))) as Hwp.
  { intros m H. exact H. }
  destruct c; try discriminate Hq; try discriminate Hc; cbn [api].
  - apply Hwp. eapply wp_mono; [apply initialize_spec|]. cbv beta. unfold initialized. intros w' r [H _]. repeat case_match; lia.
  - done.
  - apply Hwp. unfold c_init_token. wp_all; cbn; lia.
  - destruct (quiet_init_pin B P h pin w) as [_ _ Hn _]. lia.
  - apply Hwp. unfold c_set_pin. wp_all; cbn; lia.
  - apply Hwp. unfold c_open_session, new_session. wp_all; cbn; lia.
  - apply Hwp. unfold c_close_session, drop_session. wp_all; cbn; lia.
  - apply Hwp. unfold c_close_all_sessions, drop_all_sessions_slot. wp_all; cbn; lia.
  - apply Hwp. unfold c_login, change_session_states, invalidate_session_states. wp_all; cbn; lia.
  - apply Hwp. unfold c_logout, invalidate_session_states. wp_all; cbn; lia.
Qed.

Lemma open_session_spec sid fl p w : wp (c_open_session B sid fl p) w (fun w' r =>
  match r with
  | Ok (rv, o) => rv = CKR_OK /\ o = OHandle (w_next w) /\ w_next w <> 0 /\ w_next w' = w_next w + 1 /\
      exists sl s, w_slots w !! sid = Some sl /\ sl_sessions sl !! w_next w = sl_sessions sl !! w_next w
        /\ session_new B sid (if t_logged (sl_token sl) =? CKU_SO then CKU_SO
                              else if t_logged (sl_token sl) =? CKU_USER then CKU_USER
                              else CK_UNAVAILABLE_INFORMATION) fl = Ok s
        /\ w' = World (<[sid := Slot (sl_token sl) (<[w_next w := s]> (sl_sessions sl)) (sl_disk sl)]> (w_slots w))
                   (<[w_next w := sid]> (w_smap w)) (w_next w + 1) (w_disks w)
  | Err _ => w' = w
  end).
Proof.
  unfold c_open_session, new_session. wp_go.
  all: split_and!; try done; eexists _, _; split_and!; try done; rewrite ?Heqb, ?Heqb0; done.
Qed.
Lemma opened_fresh cs : forall w, forallb keeps_running cs = true ->
  NoDup (opened cs (snd (run P B E w cs))) /\
  (forall h, In h (opened cs (snd (run P B E w cs))) -> h <> 0 /\ w_next w <= h).
Proof.
  induction cs as [|c cs IH]; intros w Hk; [split; [constructor|done]|].
  cbn [forallb] in Hk. apply andb_true_iff in Hk as [Hc Hk]. cbn [run].
  pose proof (next_mono c w Hc) as Hm. rewrite <- (step_fst P B E c w) in Hm.
  destruct (step P B E w c) as [w' o] eqn:Hst. cbn [fst] in Hm. specialize (IH w' Hk).
  destruct (run P B E w' cs) as [w2 os]. cbn [snd] in *. destruct IH as [IH1 IH2].
  assert (NoDup (opened cs os) /\ (forall h, In h (opened cs os) -> h <> 0 /\ w_next w <= h)) as Hrest.
  { split; [done|]. intros h Hh. destruct (IH2 h Hh). split; [done|lia]. }
  destruct c; try exact Hrest. cbn [opened]. destruct o as [r o]. destruct o; try exact Hrest.
  destruct (N.eqb_spec r CKR_OK) as [->|]; [|exact Hrest].
  assert (wp (c_open_session B sid fl ph) w (fun w' r =>
     match r with Ok (rv, o) => o = OHandle (w_next w) /\ w_next w <> 0 /\ w_next w' = w_next w + 1 | Err _ => True end)) as Ho.
  { eapply wp_mono; [apply open_session_spec|]. cbv beta. intros ? [[? ?]|?]; tauto. }
  unfold step in Hst. cbn [api] in Hst. unfold wp in Ho.
  destruct (c_open_session B sid fl ph w) as [w3 [[rv3 o3]|e]]; simplify_eq; cbn in Ho.
  destruct Ho as (Ho & Hn & Hnx). simplify_eq. split.
  - constructor; [|done]. rewrite elem_of_list_In. intros Hi. destruct (IH2 _ Hi). lia.
  - intros h [<-|Hi]; [split; [done|lia]|]. destruct (IH2 _ Hi). split; [done|lia].
Qed.
End fresh.

(* ---- C05 ---- *)
Section login.
Context (P : params) (B : backend) (E : N -> keyenv).
Notation world := (world B). Notation session := (session B). Notation slot := (slot B).
Notation INV := (sess_inv B).
Lemma open_session_facts w h s : INV w -> session_of B w h = Some s -> exists sl,
  w_next w <> 0 /\ w_smap w !! h = Some (s_slot s) /\ w_slots w !! s_slot s = Some sl /\ sl_sessions sl !! h = Some s
  /\ tk_initialized (sl_token sl) = true.
Proof. intros HI Hs. destruct (session_of_inv B w h s HI Hs) as (sl & H1 & H2 & H3 & H4 & H5 & H6). by exists sl. Qed.
Lemma has_ro_iff w sid sl : INV w -> w_slots w !! sid = Some sl -> has_ro B sl = true <-> ro_open B w sid.
Proof.
  intros HI Hsl. pose proof (si_slots _ _ HI _ _ Hsl) as Hok. split.
  - unfold has_ro. intros H. apply existsb_exists in H as ([h s] & Hin & Hst). apply map_to_list_in in Hin. cbn [snd] in Hst.
    destruct (session_in_slot B w sid sl h s HI Hsl Hin) as [H1 H2]. exists h, s. split_and!; [done..|].
    destruct (so_sessions _ _ _ _ _ Hok _ _ Hin) as (_ & _ & _ & _ & H4). unfold rw in H4.
    destruct (has_flag (s_flags s) CKF_RW_SESSION); [|done].
    unfold CKS_RO_PUBLIC_SESSION, CKS_RO_USER_FUNCTIONS, CKS_RW_PUBLIC_SESSION, CKS_RW_USER_FUNCTIONS,
      CKS_RW_SO_FUNCTIONS in *. lia.
  - intros (h & s & H1 & H2 & H3). subst sid. destruct (session_of_inv B w h s HI H1) as (sl' & A1 & A2 & A3 & A4 & _).
    simplify_eq. destruct (has_ro B sl) eqn:Hr; [done|].
    pose proof (has_ro_false B sl _ _ _ A4 Hr h s A3) as Hrw. unfold rw in Hrw. congruence.
Qed.
Lemma no_ro_with_so w sid : INV w -> logged B w sid = Some CKU_SO -> ~ ro_open B w sid.
Proof.
  intros HI Hl (h & s & H1 & H2 & H3). subst sid. destruct (session_of_inv B w h s HI H1) as (sl & A1 & A2 & A3 & A4 & _).
  unfold logged, token_of in Hl. rewrite A2 in Hl. cbn in Hl. simplify_eq.
  pose proof (so_so _ _ _ _ _ A4 ltac:(done) _ _ A3) as Hrw. unfold rw in Hrw. congruence.
Qed.
Lemma login_refused w h s u ut pin : INV w -> session_of B w h = Some s ->
  logged B w (s_slot s) = Some u -> u = CKU_SO \/ u = CKU_USER -> ut = CKU_SO \/ ut = CKU_USER ->
  exists e, api P B E (Login h ut pin) w = (w, Err e) /\
    (ut = u -> e = CKR_USER_ALREADY_LOGGED_IN) /\
    (ut <> u -> if decide (ut = CKU_SO) then
                  ro_open B w (s_slot s) /\ e = CKR_SESSION_READ_ONLY_EXISTS \/
                  ~ ro_open B w (s_slot s) /\ e = CKR_USER_ANOTHER_ALREADY_LOGGED_IN
                else e = CKR_USER_ANOTHER_ALREADY_LOGGED_IN).
Proof.
  intros HI Hs Hl Hu Hut. destruct (open_session_facts w h s HI Hs) as (sl & Hn & Hm & Hsl & Hss & Hi).
  assert (t_logged (sl_token sl) = u) as Htl. { unfold logged, token_of in Hl. rewrite Hsl in Hl. by cbn in Hl; simplify_eq. }
  cbn [api]. unfold c_login. rewrite run_bind, lock_eq by done.
  rewrite run_bind, (get_session_eq B h (s_slot s) sl s) by done.
  rewrite run_bind, (get_slot_eq B (s_slot s) sl) by done.
  pose proof (has_ro_iff w (s_slot s) sl HI Hsl) as Hro.
  rewrite run_bind. destruct ((ut =? CKU_SO) && has_ro B sl) eqn:Hc.
  { cbn [negb ensure]. apply andb_true_iff in Hc as [H1 H2]. apply N.eqb_eq in H1. subst ut.
    eexists. split; [reflexivity|]. split.
    - intros <-. exfalso. apply (no_ro_with_so w (s_slot s)); [done|congruence|]. tauto.
    - intros _. rewrite decide_True by done. left. tauto. }
  cbn [negb ensure]. unfold ret at 1.
  rewrite run_bind, (token_ready_eq B (s_slot s) sl) by done. rewrite run_bind.
  assert (ut =? CKU_CONTEXT_SPECIFIC = false) as Hctx by (destruct Hut as [->| ->]; done). rewrite Hctx. cbn [skip ret].
  rewrite run_bind. unfold attempt. rewrite (tok_eq B (s_slot s) sl) by done.
  assert (tk_login P ut (match pin with Some p => p | None => [] end) (sl_token sl) =
    (sl_token sl, Err (if ut =? u then CKR_USER_ALREADY_LOGGED_IN else CKR_USER_ANOTHER_ALREADY_LOGGED_IN))) as Htk.
  { unfold tk_login. rewrite run_bind. unfold gets. rewrite Htl.
    assert ((ut =? CKU_SO) || (ut =? CKU_USER) = true) as -> by (destruct Hut as [->| ->]; done).
    rewrite run_bind. destruct (ut =? u); [done|]. cbn [negb ensure]. unfold ret at 1. rewrite run_bind.
    assert (u =? KRY_UNSPEC = false) as -> by (destruct Hu as [->| ->]; done). done. }
  rewrite Htk. cbn [fst snd].
  assert (with_slot B (s_slot s) (put_token B (sl_token sl) sl) w = w) as ->.
  { unfold with_slot, set_slots. rewrite insert_id; [by destruct w|]. by destruct sl. }
  eexists. split; [reflexivity|]. split.
  - intros ->. by rewrite N.eqb_refl.
  - intros Hne. destruct (N.eqb_spec ut u); [done|]. destruct (decide (ut = CKU_SO)) as [->|]; [|done].
    right. split; [|done]. cbn in Hc. intros Hr. apply Hro in Hr. congruence.
Qed.
Lemma logged_with_slot sid sl w i :
  logged B (with_slot B sid sl w) i = if decide (i = sid) then Some (t_logged (sl_token sl)) else logged B w i.
Proof.
  unfold logged, token_of, with_slot. cbn. destruct (decide (i = sid)) as [->|Hne].
  - by rewrite lookup_insert.
  - by rewrite lookup_insert_ne.
Qed.
Lemma logged_slot w sid sl : w_slots w !! sid = Some sl -> logged B w sid = Some (t_logged (sl_token sl)).
Proof. intros H. unfold logged, token_of. by rewrite H. Qed.
Lemma nobody_new_slot w sid sl sl' : w_slots w !! sid = Some sl ->
  t_logged (sl_token sl') = t_logged (sl_token sl) \/ t_logged (sl_token sl') = KRY_UNSPEC ->
  nobody_new B w (with_slot B sid sl' w).
Proof.
  intros Hsl Hl i. rewrite logged_with_slot. destruct (decide (i = sid)) as [->|]; [|auto].
  rewrite (logged_slot w sid sl Hsl). destruct Hl as [->| ->]; auto.
Qed.
Lemma nobody_new_refl w : nobody_new B w w.
Proof. intros sid. auto. Qed.
Lemma login_outcome w h ut pin : INV w -> wp (api P B E (Login h ut pin)) w (fun w' r =>
  match r with
  | Err _ => nobody_new B w w'
  | Ok (rv, _) => rv = CKR_OK /\ exists s, session_of B w h = Some s /\
      if decide (ut = CKU_CONTEXT_SPECIFIC) then nobody_new B w w'
      else (ut = CKU_SO \/ ut = CKU_USER) /\ logged B w (s_slot s) = Some KRY_UNSPEC /\ logged B w' (s_slot s) = Some ut
  end).
Proof.
  intros HI. cbn [api]. unfold c_login, change_session_states, invalidate_session_states.
  wp_go; try apply nobody_new_refl.
  all: pose proof (session_slot_eq B w h _ _ _ HI H2 H3) as Hs; rewrite Hs in *; simplify_eq.
  all: pose proof (si_slots _ _ HI _ _ H2) as Hok.
  all: assert (session_of B w h = Some s) as Hso by (unfold session_of; by rewrite H1, H2).
  - eapply wp_mono; [apply tk_login_spec|]; cbv beta; intros t' r [(Hi & _) Hl]. rewrite Heqb in Hl.
    destruct r as [[]|e]; cbv beta iota.
    + wp_go; [|eapply nobody_new_slot; eauto].
      assert (sid = s_slot s) as -> by (cbn in H9; congruence). rewrite with_slot_lookup in H10. simplify_eq.
      split; [done|]. exists s. split; [done|]. rewrite decide_True by lia. rewrite with_slot_twice.
      eapply nobody_new_slot; eauto.
    + wp_go.
      * eapply wp_mono; [apply tk_logout_spec|]. cbv beta. intros t2 r2 (_ & A1 & A2).
        assert (t_logged t2 = t_logged (sl_token sl) \/ t_logged t2 = KRY_UNSPEC) as Hl2.
        { destruct (so_logged _ _ _ _ _ Hok) as [Hx|Hx]; [left; destruct (A1 ltac:(cbn; congruence)) as [-> _]; exact Hl|].
          right; apply A2; cbn; rewrite Hl; tauto. }
        rewrite with_slot_twice. wp_go; rewrite ?with_slot_twice; eapply nobody_new_slot; eauto.
      * eapply nobody_new_slot; eauto.
  - eapply wp_mono; [apply tk_login_spec|]; cbv beta; intros t' r [(Hi & _) Hl]. rewrite Heqb in Hl.
    destruct r as [[]|e]; cbv beta iota.
    + destruct Hl as (L1 & L2 & L3). wp_go.
      * rewrite ?with_slot_twice. split; [done|]. exists s. split; [done|]. rewrite decide_False by lia. split; [done|].
        rewrite (logged_slot w _ _ H2), logged_with_slot, decide_True by done. cbn. by rewrite L1, L3.
      * rewrite ?with_slot_twice. eapply wp_mono; [apply tk_logout_spec|]. cbv beta. intros t2 r2 (_ & A1 & A2).
        assert (t_logged t2 = KRY_UNSPEC) by (apply A2; cbn; rewrite L3; tauto).
        rewrite ?with_slot_twice. wp_go; rewrite ?with_slot_twice; eapply nobody_new_slot; eauto.
    + wp_go. eapply nobody_new_slot; eauto.
Qed.
End login.

(* ---- observing sessions; closing them ---- *)
Section observe.
Context (P : params) (B : backend) (E : N -> keyenv).
Notation world := (world B). Notation session := (session B). Notation slot := (slot B).
Notation INV := (sess_inv B).
Lemma info_open w h s : INV w -> session_of B w h = Some s ->
  step P B E w (GetSessionInfo h true) = (w, (CKR_OK, OSession (s_slot s) (s_state s) (s_flags s))).
Proof.
  intros HI Hs. destruct (session_of_inv B w h s HI Hs) as (sl & H1 & H2 & H3 & H4 & H5 & H6).
  unfold step, api, c_get_session_info. rewrite run_bind. cbn [ensure]. unfold ret at 1. rewrite run_bind, lock_eq by done.
  by rewrite run_bind, (get_session_eq B h (s_slot s) sl s).
Qed.
Lemma info_closed w h : INV w -> session_of B w h = None -> rv P B E w (GetSessionInfo h true) <> CKR_OK.
Proof.
  intros HI Hs. assert (~ is_open B w h) as Ho by (intros Ho; by apply Ho). apply (closed_smap B w h HI) in Ho.
  pose proof (closed_api P B E (GetSessionInfo h true) w h Ho eq_refl ltac:(done)) as [_ (e & He & Hr)].
  unfold rv, step. destruct (api P B E (GetSessionInfo h true) w) as [w' r]. cbn in He. subst r. cbn.
  destruct Hr as [->|[->| ->]]; done.
Qed.
Lemma info_iff w h : INV w -> is_open B w h <-> rv P B E w (GetSessionInfo h true) = CKR_OK.
Proof.
  intros HI. unfold is_open. destruct (session_of B w h) as [s|] eqn:Hs.
  - unfold rv. rewrite (info_open w h s HI Hs). done.
  - pose proof (info_closed w h HI Hs). done.
Qed.
Lemma no_session_empty w sid sl : INV w -> w_slots w !! sid = Some sl ->
  (forall h s, session_of B w h = Some s -> s_slot s <> sid) -> sl_sessions sl = ∅.
Proof.
  intros HI Hsl Hno. apply map_empty. intros h. destruct (sl_sessions sl !! h) as [s|] eqn:Hs; [|done]. exfalso.
  destruct (session_in_slot B w sid sl h s HI Hsl Hs) as [H1 H2]. by apply (Hno h s).
Qed.
Lemma none_logged w sid : INV w -> (forall h s, session_of B w h = Some s -> s_slot s <> sid) ->
  logged B w sid = None \/ logged B w sid = Some KRY_UNSPEC.
Proof.
  intros HI Hno. unfold logged, token_of. destruct (w_slots w !! sid) as [sl|] eqn:Hsl; [|auto]. right. cbn. f_equal.
  apply (si_slots _ _ HI _ _ Hsl). by eapply no_session_empty.
Qed.
Lemma close_step w h : INV w -> is_open B w h -> 
  rv P B E w (CloseSession h) = CKR_OK /\ session_of B (after P B E w (CloseSession h)) h = None /\
  (forall h', h' <> h -> session_of B (after P B E w (CloseSession h)) h' = session_of B w h').
Proof.
  intros HI Ho. destruct (session_of B w h) as [s|] eqn:Hs; [|done].
  destruct (session_of_inv B w h s HI Hs) as (sl & H1 & H2 & H3 & H4 & H5 & H6).
  unfold rv, after, step. cbn [api]. rewrite (close_session_eq B h w (s_slot s) sl) by done. cbn [fst snd].
  split_and!; [done| |].
  - unfold session_of. cbn. by rewrite lookup_delete.
  - intros h' Hne. unfold session_of. cbn. rewrite lookup_delete_ne by done. destruct (w_smap w !! h') as [sid|]; [|done].
    destruct (decide (sid = s_slot s)) as [->|]; [|by rewrite lookup_insert_ne].
    rewrite lookup_insert, H2. cbn. by rewrite lookup_delete_ne.
Qed.
Lemma close_all_step w sid : INV w -> rv P B E w (CloseAllSessions sid) = CKR_OK -> 
  forall h, session_of B (after P B E w (CloseAllSessions sid)) h = 
    match session_of B w h with Some s => if decide (s_slot s = sid) then None else Some s | None => None end.
Proof.
  intros HI Hrv h. unfold rv, after, step in *. cbn [api] in *.
  destruct (N.eq_dec (w_next w) 0) as [Hz|Hn].
  { unfold c_close_all_sessions in Hrv. by rewrite run_bind, lock_off in Hrv. }
  destruct (w_slots w !! sid) as [sl|] eqn:Hsl.
  - destruct (tk_initialized (sl_token sl)) eqn:Hi.
    + rewrite (close_all_eq B sid w sl) by done. cbn [fst]. destruct (session_of B w h) as [s|] eqn:Hs.
      * destruct (session_of_inv B w h s HI Hs) as (sl' & H1 & H2 & H3 & _). unfold session_of. cbn.
        destruct (decide (s_slot s = sid)) as [<-|Hne].
        { rewrite map_filter_lookup_None_2; [done|]. right. intros x Hx Hne. cbn in Hne. congruence. }
        rewrite (map_filter_lookup_Some_2 _ _ _ (s_slot s)) by done. rewrite lookup_insert_ne by done. by rewrite H2.
      * unfold session_of in *. cbn. destruct (filter _ (w_smap w) !! h) as [i|] eqn:Hf; [|done].
        apply map_filter_lookup_Some in Hf as [Hf Hne]. cbn in Hne. rewrite Hf in Hs. rewrite lookup_insert_ne by done. done.
    + exfalso. unfold c_close_all_sessions in Hrv. rewrite run_bind, lock_eq in Hrv by done. rewrite run_bind in Hrv.
      unfold drop_all_sessions_slot in Hrv. rewrite run_bind in Hrv. cbn [modify] in Hrv. set (w1 := set_smap _ _ _) in Hrv.
      rewrite run_bind, (get_slot_eq B sid sl w1) in Hrv by done. rewrite run_bind in Hrv. cbn [put_slot modify] in Hrv.
      cbv beta iota in Hrv. unfold ret at 1 in Hrv. set (w2 := set_slots _ _ _) in Hrv. rewrite run_bind in Hrv.
      unfold token_ready in Hrv.
      rewrite run_bind, (get_slot_eq B sid (put_sessions B ∅ sl) w2) in Hrv by (done || apply lookup_insert).
      cbn [sl_token put_sessions] in Hrv. rewrite Hi in Hrv. done.
  - exfalso. unfold c_close_all_sessions in Hrv. rewrite run_bind, lock_eq in Hrv by done. rewrite run_bind in Hrv.
    unfold drop_all_sessions_slot in Hrv. rewrite run_bind in Hrv. cbn [modify] in Hrv. set (w1 := set_smap _ _ _) in Hrv.
    rewrite run_bind in Hrv. unfold get_slot in Hrv. unfold mbind at 1 2 3, gets, ensure, initialized in Hrv.
    cbn [w1 w_next set_smap w_slots] in Hrv. destruct (N.eqb_spec (w_next w) 0); [done|]. cbn in Hrv. by rewrite Hsl in Hrv.
Qed.
Lemma open_step w sid fl h : INV w -> snd (step P B E w (OpenSession sid fl true)) = (CKR_OK, OHandle h) ->
  exists s, session_of B (after P B E w (OpenSession sid fl true)) h = Some s /\ s_slot s = sid /\ s_flags s = fl.
Proof.
  intros HI H. unfold after, step in *. cbn [api] in *. pose proof (open_session_spec B sid fl true w) as Ho. unfold wp in Ho.
  destruct (c_open_session B sid fl true w) as [w' [[r o]|e]]; [|done]. cbn [fst snd] in *.
  destruct Ho as (-> & -> & Hn & Hn' & sl & s & Hsl & _ & Hnew & ->). simplify_eq. exists s. split.
  - unfold session_of. cbn. by rewrite !lookup_insert; cbn; rewrite lookup_insert.
  - unfold session_new in Hnew. destruct (has_flag fl CKF_SERIAL_SESSION); [|done]. cbv zeta in Hnew.
    match type of Hnew with rbind ?x _ = _ => destruct x; [|done] end. cbn in Hnew. by simplify_eq.
Qed.
End observe.
