(* The operations of one session play no role in the calls of another. *)
From Verif Require Import Base Monad Hoare Attr Obj Factory Tables Create Sqlite Storage Token Backend State Api Spec WorldWp Sessions SessionInv SessionFacts ObjWorld ObjFacts.

Section apart.
Context (P : params) (B : backend) (E : N -> keyenv).
Notation world := (world B). Notation session := (session B). Notation slot := (slot B).
(* The world with other operations (and another login status for them) in session s. *)
Section swap.
Context (s : N) (ops : gmap opk (operation B)) (st : login_status).
Definition sw_session (se : session) : session := set_login B st (set_ops B ops se).
Definition sw_slot (sl : slot) : slot := put_sessions B (alter sw_session s (sl_sessions sl)) sl.
Definition sw (w : world) : world := set_slots B (sw_slot <$> w_slots w) w.

Definition comm {A} (m : M world A) : Prop := forall w, m (sw w) = (sw (fst (m w)), snd (m w)).
Lemma comm_bind {A C} (m : M world A) (k : A -> M world C) : comm m -> (forall a, comm (k a)) -> comm (mbind m k).
Proof. intros H1 H2 w. unfold mbind. rewrite H1. destruct (m w) as [w' [a|e]]; cbn [fst snd]; [apply H2|done]. Qed.
Lemma comm_ret {A} (a : A) : comm (ret a).
Proof. done. Qed.
Lemma comm_fail {A} e : comm (@fail world A e).
Proof. done. Qed.
Lemma comm_lift {A} (r : result A) : comm (lift r).
Proof. done. Qed.
Lemma comm_ensure b e : comm (ensure b e).
Proof. by destruct b. Qed.
Lemma comm_attempt {A} (m : M world A) : comm m -> comm (attempt m).
Proof. intros H w. unfold attempt. rewrite H. by destruct (m w) as [w' [a|e]]. Qed.
Lemma comm_gets {A} (g : world -> A) : (forall w, g (sw w) = g w) -> comm (gets g).
Proof. intros H w. unfold gets. by rewrite H. Qed.
Lemma comm_modify (f : world -> world) : (forall w, f (sw w) = sw (f w)) -> comm (modify f).
Proof. intros H w. unfold modify. by rewrite H. Qed.
Lemma comm_lock : comm (Api.lock B).
Proof. apply comm_bind; [by apply comm_gets|]. intros. apply comm_ensure. Qed.
Lemma sw_look w sid : w_slots (sw w) !! sid = sw_slot <$> w_slots w !! sid.
Proof. cbn. by rewrite lookup_fmap. Qed.
Lemma comm_slot {A} sid (k : slot -> M world A) : (forall sl w, k (sw_slot sl) (sw w) = (sw (fst (k sl w)), snd (k sl w))) -> comm (mbind (get_slot B sid) k).
Proof.
  intros H w. unfold get_slot. cbv [mbind gets ensure ret fail]. change (initialized B (sw w)) with (initialized B w). destruct (initialized B w); [|done].
  rewrite sw_look. destruct (w_slots w !! sid) as [sl|]; cbn; [apply H|done].
Qed.
Lemma comm_slot_tok {A} sid (k : slot -> M world A) : (forall sl, k (sw_slot sl) = k sl) -> (forall sl, comm (k sl)) -> comm (mbind (get_slot B sid) k).
Proof. intros H1 H2. apply comm_slot. intros sl w. rewrite H1. apply H2. Qed.
Lemma sw_put sid sl w : set_slots B (<[sid := sw_slot sl]> (w_slots (sw w))) (sw w) = sw (set_slots B (<[sid := sl]> (w_slots w)) w).
Proof. unfold sw, set_slots. cbn. by rewrite fmap_insert. Qed.
Lemma comm_session_slot h : comm (session_slot B h).
Proof. apply comm_bind; [by apply comm_gets|]. intros [x|]; done. Qed.
Lemma comm_get_session h : h <> s -> comm (get_session B h).
Proof.
  intros Hne. apply comm_bind; [apply comm_session_slot|]. intros sid. apply comm_slot. intros sl w. cbn [sw_slot put_sessions sl_sessions].
  rewrite lookup_alter_ne by congruence. by destruct (sl_sessions sl !! h).
Qed.
Lemma comm_upd_session h f : h <> s -> comm (upd_session B h f).
Proof.
  intros Hne. apply comm_bind; [apply comm_session_slot|]. intros sid. apply comm_slot. intros sl w. unfold put_slot, modify. cbn [fst snd]. f_equal.
  rewrite <- sw_put. do 2 f_equal. unfold sw_slot, put_sessions. cbn. by rewrite alter_commute by congruence.
Qed.
Lemma comm_tok {A} sid (m : M token A) : comm (Api.tok B sid m).
Proof.
  unfold Api.tok, State.tok. apply comm_slot. intros sl w. cbn [sw_slot put_sessions sl_token]. destruct (m (sl_token sl)) as [t r].
  cbv [mbind put_slot modify lift ret]. cbn [fst snd]. f_equal. rewrite <- sw_put. done.
Qed.
Lemma comm_token_ready sid : comm (token_ready B sid).
Proof. apply comm_slot_tok; [done|]. intros. apply comm_ensure. Qed.
Lemma comm_token_of_session h : comm (token_of_session B h).
Proof. apply comm_bind; [apply comm_session_slot|]. intros. apply comm_bind; [apply comm_token_ready|]. done. Qed.
Lemma comm_mech_flags sid m : comm (mech_flags P B sid m).
Proof. apply comm_slot_tok; [done|]. intros. by destruct (List.filter _ _). Qed.
Lemma comm_ok o : comm (Api.ok B o).
Proof. done. Qed.
Lemma comm_failed rv o : comm (Api.failed B rv o).
Proof. done. Qed.
Lemma comm_deref {A} (p : option A) : comm (deref B p).
Proof. by destruct p. Qed.
Lemma comm_skip : comm (@skip world).
Proof. done. Qed.
Lemma comm_ro_check se t : comm (ro_check B se t).
Proof. unfold ro_check. destruct (is_writable _ _); [apply comm_skip|apply comm_lift]. Qed.
Lemma comm_tmpl_of {A} (t : option (list A)) c : comm (tmpl_of B t c).
Proof. unfold tmpl_of. destruct t; [done|]. by destruct (c =? 0). Qed.
Lemma comm_invalidate sid : comm (invalidate_session_states B sid).
Proof.
  apply comm_slot. intros sl w. unfold put_slot, modify. cbn [fst snd]. f_equal. rewrite <- sw_put. do 2 f_equal. unfold sw_slot, put_sessions. cbn. f_equal.
  apply map_eq. intros h. rewrite lookup_fmap. destruct (decide (h = s)) as [->|Hne].
  - rewrite !lookup_alter, lookup_fmap. destruct (sl_sessions sl !! s) as [se|]; [|done]. cbn. f_equal.
    unfold change_session_state. cbn [sw_session set_login set_ops s_state]. repeat match goal with |- context [if ?b then _ else _] => destruct b end; done.
  - by rewrite !lookup_alter_ne, lookup_fmap by congruence.
Qed.
Lemma comm_drop_session h : h <> s -> comm (drop_session B h).
Proof.
  intros Hne. apply comm_bind; [apply comm_session_slot|]. intros sid. apply comm_slot. intros sl w.
  assert (comm (mbind (get_slot B sid) (fun sl => if bool_decide (sl_sessions sl = ∅) then token_ready B sid;;; let! _ := attempt (State.tok B sid tk_logout) in skip else skip))) as Hc.
  { apply comm_slot. intros sl' w'. assert (bool_decide (sl_sessions (sw_slot sl') = ∅) = bool_decide (sl_sessions sl' = ∅)) as ->.
    { apply bool_decide_ext. cbn. split; intros H; [|by rewrite H; apply alter_empty || (apply map_eq; intros i; rewrite lookup_alter_None || idtac)].
      apply map_eq. intros i. rewrite lookup_empty. apply (f_equal (lookup i)) in H. rewrite lookup_empty in H. apply lookup_alter_None in H. done. }
    destruct (bool_decide _); [|done]. apply (comm_bind (token_ready B sid)); [apply comm_token_ready|]. intros. apply comm_bind; [apply comm_attempt, comm_tok|]. done. }
  set (rest := modify (fun w => set_smap B (delete h (w_smap w)) w);;; mbind (get_slot B sid) (fun sl => if bool_decide (sl_sessions sl = ∅) then token_ready B sid;;; let! _ := attempt (State.tok B sid tk_logout) in skip else skip)).
  assert (comm rest) as Hr by (apply comm_bind; [by apply comm_modify|intros; exact Hc]).
  change ((put_slot B sid (put_sessions B (delete h (sl_sessions (sw_slot sl))) (sw_slot sl));;; rest) (sw w) =
    (sw (fst ((put_slot B sid (put_sessions B (delete h (sl_sessions sl)) sl);;; rest) w)), snd ((put_slot B sid (put_sessions B (delete h (sl_sessions sl)) sl);;; rest) w))).
  assert (put_sessions B (delete h (sl_sessions (sw_slot sl))) (sw_slot sl) = sw_slot (put_sessions B (delete h (sl_sessions sl)) sl)) as ->.
  { unfold sw_slot, put_sessions. cbn. f_equal. apply map_eq. intros i. destruct (decide (i = h)) as [->|Hi].
    - rewrite lookup_delete, lookup_alter_ne, lookup_delete by congruence. done.
    - rewrite lookup_delete_ne by congruence. destruct (decide (i = s)) as [->|Hj]; [rewrite !lookup_alter|rewrite !lookup_alter_ne by congruence]; by rewrite lookup_delete_ne by congruence. }
  unfold put_slot. cbv [mbind]. unfold modify at 1 2 3. rewrite sw_put. apply Hr.
Qed.
(* ---- the calls ---- *)
Lemma comm_run_op h k c x : h <> s -> comm (run_op B h k c x).
Proof. intros Hne. unfold run_op. destruct (be_call B c x) as [x' r]. apply comm_bind; [by apply comm_upd_session|]. intros. apply comm_lift. Qed.
Lemma comm_len_op h k n f x : h <> s -> comm (len_op B h k n f x).
Proof. intros Hne. unfold len_op. destruct (be_len B x n f) as [x' r]. apply comm_bind; [by apply comm_upd_session|]. intros. apply comm_bind; [apply comm_lift|done]. Qed.
Ltac comm_tac :=
  repeat lazymatch goal with
  | |- comm (mbind (get_slot _ _) _) => apply comm_slot_tok; [done|intros]
  | |- comm (mbind _ _) => apply comm_bind; [|intros]
  | |- comm (ret _) => apply comm_ret | |- comm (fail _) => apply comm_fail | |- comm (lift _) => apply comm_lift
  | |- comm (ensure _ _) => apply comm_ensure | |- comm (attempt _) => apply comm_attempt | |- comm (Api.lock _) => apply comm_lock
  | |- comm (Api.ok _ _) => apply comm_ok | |- comm (Api.failed _ _ _) => apply comm_failed | |- comm (deref _ _) => apply comm_deref
  | |- comm skip => apply comm_skip | |- comm (get_session _ _) => by apply comm_get_session
  | |- comm (upd_session _ _ _) => by apply comm_upd_session | |- comm (Api.tok _ _ _) => apply comm_tok | |- comm (State.tok _ _ _) => apply comm_tok
  | |- comm (token_ready _ _) => apply comm_token_ready | |- comm (token_of_session _ _) => apply comm_token_of_session
  | |- comm (session_slot _ _) => apply comm_session_slot | |- comm (mech_flags _ _ _ _) => apply comm_mech_flags
  | |- comm (ro_check _ _ _) => apply comm_ro_check | |- comm (tmpl_of _ _ _) => apply comm_tmpl_of
  | |- comm (invalidate_session_states _ _) => apply comm_invalidate | |- comm (drop_session _ _) => by apply comm_drop_session
  | |- comm (run_op _ _ _ _ _) => by apply comm_run_op | |- comm (len_op _ _ _ _ _ _) => by apply comm_len_op
  | |- comm (cur_op _ _ _) => unfold cur_op | |- comm (op_updates _ _ _ _ _ _) => unfold op_updates | |- comm (upd_op _ _ _ _) => unfold upd_op
  | |- comm (crypt_update _ _ _ _ _ _) => unfold crypt_update | |- comm (state_restore _ _ _ _ _ _) => unfold state_restore | |- comm (restore_op _ _ _ _ _ _ _) => unfold restore_op
  | |- comm (match ?x with _ => _ end) => destruct x
  | |- comm (let _ := _ in _) => cbv zeta
  end.
Definition apart (c : call) : bool := match c with Login _ _ _ => false | _ => true end.
Lemma comm_api c h : session_of_call c = Some h -> h <> s -> apart c = true -> comm (api P B E c).
Proof.
  intros Hc Hne Hl. destruct c; cbn [session_of_call] in Hc; try discriminate Hc; try discriminate Hl; cbn [api].
  all: try (destruct k; try discriminate Hc). all: injection Hc as ->.
  all: unfold c_get_session_info, c_get_operation_state, c_set_operation_state, c_init_pin, c_set_pin, c_close_session, c_logout, c_session_cancel,
    c_create_object, c_copy_object, c_destroy_object, c_get_object_size, c_get_attribute_value, c_set_attribute_value,
    c_find_objects_init, c_find_objects, c_find_objects_final, op_init, c_digest_init, c_sign, c_update, c_sign_final,
    c_verify, c_verify_final, c_verify_signature, c_verify_signature_final, c_digest, c_digest_final, c_digest_key,
    c_crypt, c_crypt_update, c_crypt_final, c_message, c_message_begin, c_message_next, c_message_final, c_dual,
    c_generate_key, c_generate_key_pair, c_wrap_key, c_unwrap_key, c_derive_key, c_encapsulate_key, c_decapsulate_key,
    c_seed_random, c_generate_random.
  all: cbv zeta; comm_tac.
Qed.
End swap.

(* ---- the operations of a session are changed by its own calls only ---- *)
Notation session_of := (session_of B). Notation after := (after P B E).
Definition ops_kept (s : N) (w w' : world) : Prop :=
  forall se se', session_of w s = Some se -> session_of w' s = Some se' -> s_ops se' = s_ops se /\ s_login se' = s_login se.
Definition ses_at (w : world) (sid h : N) : option session := w_slots w !! sid ≫= fun sl => sl_sessions sl !! h.
Lemma session_of_at w h : session_of w h = w_smap w !! h ≫= fun sid => ses_at w sid h.
Proof. unfold Spec.session_of, ses_at. destruct (w_smap w !! h) as [sid|]; cbn; [|done]. by destruct (w_slots w !! sid). Qed.
Lemma sw_of s ops st w : session_of (sw s ops st w) s = sw_session ops st <$> session_of w s.
Proof.
  unfold Spec.session_of. cbn [sw w_smap set_slots]. destruct (w_smap w !! s) as [sid|]; [|done]. rewrite sw_look. destruct (w_slots w !! sid) as [sl|]; [|done]. cbn. by rewrite lookup_alter.
Qed.
Lemma sw_same s w se : sess_inv B w -> session_of w s = Some se -> sw s (s_ops se) (s_login se) w = w.
Proof.
  intros HI Hs. assert (sw_slot s (s_ops se) (s_login se) <$> w_slots w = w_slots w) as Heq; [|unfold sw; rewrite Heq; by destruct w].
  apply map_eq. intros sid. rewrite lookup_fmap.
  destruct (w_slots w !! sid) as [sl|] eqn:Hsl; [|done]. cbn. f_equal. assert (alter (sw_session (s_ops se) (s_login se)) s (sl_sessions sl) = sl_sessions sl) as Hm; [|unfold sw_slot; rewrite Hm; by destruct sl].
  apply map_eq. intros h. destruct (decide (h = s)) as [->|Hne]; [|by rewrite lookup_alter_ne by congruence]. rewrite lookup_alter.
  destruct (sl_sessions sl !! s) as [se1|] eqn:Hm; [|done]. cbn. f_equal. destruct (so_sessions _ _ _ _ _ (si_slots _ _ HI sid _ Hsl) s se1 Hm) as (_ & X & _).
  unfold Spec.session_of in Hs. rewrite X, Hsl, Hm in Hs. injection Hs as ->. by destruct se.
Qed.
Lemma kept_apart w c s h : sess_inv B w -> session_of_call c = Some h -> h <> s -> apart c = true -> ops_kept s w (after w c).
Proof.
  intros HI Hc Hne Ha se se' H1 H2. pose proof (comm_api s (s_ops se) (s_login se) c h Hc Hne Ha w) as Hcm. rewrite (sw_same s w se HI H1) in Hcm.
  unfold Spec.after in *. rewrite run_step in *. rewrite Hcm in H2. cbn [fst] in H2. rewrite sw_of in H2. destruct (session_of (fst (api P B E c w)) s); [|done]. cbn in H2. by injection H2 as <-.
Qed.

Definition same_ops (a b : session) : Prop := s_ops b = s_ops a /\ s_login b = s_login a.
Definition from_ops (s : N) (w w' : world) : Prop := forall se', session_of w' s = Some se' -> exists se, session_of w s = Some se /\ same_ops se se'.
Lemma from_kept s w w' : from_ops s w w' -> ops_kept s w w'.
Proof. intros H se se' H1 H2. destruct (H _ H2) as (x & X1 & X2). rewrite H1 in X1. injection X1 as <-. exact X2. Qed.
Instance from_pre s : PreOrder (from_ops s).
Proof.
  split; [intros w se' H; exists se'; by split|]. intros a b c H1 H2 se' H. destruct (H2 _ H) as (x & X1 & X2 & X3). destruct (H1 _ X1) as (y & Y1 & Y2 & Y3).
  exists y. split; [done|]. split; congruence.
Qed.
Lemma from_slot s w sid sl sl' : w_slots w !! sid = Some sl -> (forall se', sl_sessions sl' !! s = Some se' -> exists se, sl_sessions sl !! s = Some se /\ same_ops se se') ->
  from_ops s w (with_slot B sid sl' w).
Proof.
  intros Hs H se'. unfold Spec.session_of. cbn [with_slot set_slots w_smap w_slots]. destruct (w_smap w !! s) as [i|]; [|done].
  destruct (decide (i = sid)) as [->|Hne]; [rewrite lookup_insert, Hs; apply H|rewrite lookup_insert_ne by congruence]. intros X. exists se'. by split.
Qed.
Lemma from_token s w sid sl t : w_slots w !! sid = Some sl -> from_ops s w (with_slot B sid (put_token B t sl) w).
Proof. intros Hs. eapply from_slot; [done|]. intros se' H. exists se'. by split. Qed.
Lemma change_same ut se : same_ops se (fst (change_session_state B ut se)).
Proof. unfold change_session_state. repeat (match goal with |- context [if ?b then _ else _] => destruct b end; try done). Qed.
Lemma change_states_at ut l : forall m s, (forall k x, In (k, x) l -> m !! k = Some x) -> NoDup (map fst l) ->
  forall se', fst (change_states B ut l m) !! s = Some se' -> exists se, m !! s = Some se /\ same_ops se se'.
Proof.
  induction l as [|[k x] l IH]; intros m s Hl Hn se'; cbn [change_states]; [intros H; exists se'; by split|].
  pose proof (change_same ut x) as Hx. destruct (change_session_state B ut x) as [x' rv]. cbn [fst] in Hx. cbn [map fst] in Hn. apply list.NoDup_cons in Hn as [Hn1 Hn2].
  assert (forall se', <[k := x']> m !! s = Some se' -> exists se, m !! s = Some se /\ same_ops se se') as Hins.
  { intros se1. rewrite lookup_insert_Some. intros [[<- <-]|[_ H]]; [exists x; split; [apply Hl; by left|done]|exists se1; by split]. }
  destruct (rv =? CKR_OK); [|exact (Hins se')]. intros H. destruct (IH (<[k := x']> m) s) with (se' := se') as (y & Y1 & Y2 & Y3); [|done|done|].
  - intros k1 x1 Hin. rewrite lookup_insert_ne; [apply Hl; by right|]. intros ->. apply Hn1, elem_of_list_In, in_map_iff. exists (k1, x1). done.
  - destruct (Hins _ Y1) as (z & Z1 & Z2 & Z3). exists z. split; [done|]. split; congruence.
Qed.
Lemma from_states s sid ut w : wp (change_session_states B sid ut) w (fun w' _ => from_ops s w w').
Proof.
  unfold change_session_states. apply wp_bind, wp_get_slot; [|reflexivity]. intros sl Hi Hs. pose proof (change_states_at ut (map_to_list (sl_sessions sl)) (sl_sessions sl) s) as H.
  destruct (change_states B ut _ _) as [m r]. apply wp_bind, wp_put_slot, wp_lift. cbn [fst] in H. assert (from_ops s w (with_slot B sid (put_sessions B m sl) w)); [|by destruct r].
  eapply from_slot; [done|]. apply H; [intros k x Hin; by apply elem_of_map_to_list, elem_of_list_In|apply NoDup_fst_map_to_list].
Qed.
Lemma from_invalidate s sid w : wp (invalidate_session_states B sid) w (fun w' _ => from_ops s w w').
Proof.
  unfold invalidate_session_states. apply wp_bind, wp_get_slot; [|reflexivity]. intros sl Hi Hs. apply wp_put_slot. eapply from_slot; [done|]. cbn [put_sessions sl_sessions]. intros se'.
  rewrite lookup_fmap. destruct (sl_sessions sl !! s) as [se|]; [|done]. cbn. intros H. injection H as <-. exists se. split; [done|apply change_same].
Qed.
Lemma from_tok {A} s sid (m : M token A) w : wp (Api.tok B sid m) w (fun w' _ => from_ops s w w').
Proof.
  apply wp_tok; [reflexivity|]. intros sl Hi Hs. unfold wp. destruct (m (sl_token sl)) as [t r]. by apply from_token.
Qed.
Lemma from_upd s h f w : h <> s -> wp (upd_session B h f) w (fun w' _ => from_ops s w w').
Proof.
  intros Hne. apply wp_upd_session; [|reflexivity]. intros sid sl Hi Hm Hs. eapply from_slot; [done|]. cbn [put_sessions sl_sessions]. intros se'. rewrite lookup_alter_ne by congruence.
  intros H. exists se'. by split.
Qed.
Lemma from_drop_all s sid w : wp (drop_all_sessions_slot B sid) w (fun w' _ => from_ops s w w').
Proof.
  unfold drop_all_sessions_slot. apply wp_bind, wp_modify.
  assert (from_ops s w (set_smap B (filter (fun p => p.2 <> sid) (w_smap w)) w)) as Hf.
  { intros se'. unfold Spec.session_of. cbn [set_smap w_smap w_slots]. destruct (filter _ _ !! s) as [i|] eqn:Hi; [|done]. apply map_filter_lookup_Some in Hi as [Hi _]. rewrite Hi.
    intros H. exists se'. by split. }
  apply wp_bind, wp_get_slot; [|done]. intros sl Hi Hs. apply wp_bind, wp_put_slot, wp_ret. etransitivity; [exact Hf|]. eapply from_slot; [done|]. cbn. intros se'. by rewrite lookup_empty.
Qed.
Lemma from_wp {A} s w0 (m : M world A) w : from_ops s w0 w -> wp m w (fun w' _ => from_ops s w w') -> wp m w (fun w' _ => from_ops s w0 w').
Proof. intros H1 H2. eapply wp_mono; [exact H2|]. intros w1 r1 H3. by transitivity w. Qed.
Lemma from_wp_bind {A C} s w0 (m : M world A) (k : A -> M world C) w : from_ops s w0 w -> wp m w (fun w' _ => from_ops s w w') ->
  (forall a w', from_ops s w0 w' -> wp (k a) w' (fun w' _ => from_ops s w0 w')) -> wp (mbind m k) w (fun w' _ => from_ops s w0 w').
Proof. intros H0 H1 H2. apply wp_bind. eapply wp_mono; [exact H1|]. intros w1 [a|e] H3; [apply H2|]; by transitivity w. Qed.
Lemma from_attempt {A} s (m : M world A) w : wp m w (fun w' _ => from_ops s w w') -> wp (attempt m) w (fun w' _ => from_ops s w w').
Proof. intros H. apply wp_attempt. eapply wp_mono; [exact H|]. done. Qed.
Ltac from_go :=
  repeat lazymatch goal with
  | |- wp (mbind (Api.tok _ _ _) _) _ _ => apply from_wp_bind; [first [assumption|reflexivity]|apply from_tok|intros]
  | |- wp (mbind (attempt (Api.tok _ _ _)) _) _ _ => apply from_wp_bind; [first [assumption|reflexivity]|apply from_attempt, from_tok|intros]
  | |- wp (mbind (attempt (change_session_states _ _ _)) _) _ _ => apply from_wp_bind; [first [assumption|reflexivity]|apply from_attempt, from_states|intros]
  | |- wp (mbind (upd_session _ _ _) _) _ _ => apply from_wp_bind; [first [assumption|reflexivity]|by apply from_upd|intros]
  | |- wp (mbind (invalidate_session_states _ _) _) _ _ => apply from_wp_bind; [first [assumption|reflexivity]|apply from_invalidate|intros]
  | |- wp (invalidate_session_states _ _) _ _ => apply from_wp; [first [assumption|reflexivity]|apply from_invalidate]
  | |- wp (mbind (drop_all_sessions_slot _ _) _) _ _ => apply from_wp_bind; [first [assumption|reflexivity]|apply from_drop_all|intros]
  | |- from_ops _ _ _ => first [assumption|reflexivity]
  | |- wp (mbind (if _ then _ else _) _) _ _ => apply from_wp_bind; [first [assumption|reflexivity]| |intros]
  | |- wp (mbind (mbind _ _) _) _ _ => apply from_wp_bind; [first [assumption|reflexivity]| |intros]
  | _ => wp_step
  end.
Lemma kept_login w s h ut pin : h <> s -> from_ops s w (after w (Login h ut pin)).
Proof.
  intros Hne. assert (wp (api P B E (Login h ut pin)) w (fun w' _ => from_ops s w w')) as Hw.
  { cbn [api]. unfold c_login. assert (from_ops s w w) as H0 by reflexivity. from_go. }
  unfold wp in Hw. unfold Spec.after. rewrite run_step. by destruct (api P B E _ w).
Qed.
Lemma kept_rest w c s : sess_inv B w -> session_of_call c = None -> ops_kept s w (after w c).
Proof.
  intros HI Hc. assert (from_ops s w w) as H0 by reflexivity.
  assert (wp (api P B E c) w (fun w' _ => from_ops s w w') -> ops_kept s w (after w c)) as Hgo. { intros H. apply from_kept. unfold wp in H. unfold Spec.after. rewrite run_step. by destruct (api P B E c w). }
  assert (wp (api P B E c) w (fun w' _ => ops_kept s w w') -> ops_kept s w (after w c)) as Hgo'. { intros H. unfold wp in H. unfold Spec.after. rewrite run_step. by destruct (api P B E c w). }
  destruct c; cbn [session_of_call] in Hc; try discriminate Hc.
  all: try (apply Hgo; cbn [api]; try (destruct k; try discriminate Hc); unfold c_get_info, c_get_interface_list, c_get_slot_list, c_get_slot_info, c_get_token_info, c_get_mechanism_list, c_get_mechanism_info, mech_flags; from_go; fail).
  - (* C_Initialize *) apply Hgo'. cbn [api]. unfold c_initialize. apply wp_bind, wp_gets. destruct (initialized B w) eqn:Hi.
    + apply wp_bind, wp_ret, wp_bind. assert (forall l b w1, from_ops s w w1 -> wp (add_slots P B l b) w1 (fun w' _ => from_ops s w w')) as Hadd.
      { clear -s. induction l as [|c l IH]; intros b w1 H1; [by apply wp_ret|]. cbn [add_slots]. apply wp_bind. unfold slot_new. apply wp_bind, wp_gets.
        destruct (token_new P _ _ _) as [t [u|e]]; [|by apply wp_fail]. apply wp_ret. apply wp_bind, wp_gets. destruct (w_slots w1 !! sc_id c) as [x|] eqn:Hx; cbn [nonnull]; [by apply IH|].
        apply wp_bind, wp_put_slot. apply IH. transitivity w1; [done|]. intros se'. unfold Spec.session_of. cbn [with_slot set_slots w_smap w_slots]. destruct (w_smap w1 !! s) as [i|]; [|done].
        destruct (decide (i = sc_id c)) as [->|Hne]; [rewrite lookup_insert; cbn; by rewrite lookup_empty|rewrite lookup_insert_ne by congruence]. intros X. exists se'. by split. }
      eapply wp_mono; [by apply Hadd|]. intros w1 [b|e] H1; [|by apply from_kept]. apply wp_bind, wp_ensure; intros; [|by apply from_kept]. apply wp_ok. by apply from_kept.
    + assert (session_of w s = None) as Hn. { unfold Spec.session_of. rewrite (si_off _ _ HI); [by destruct (w_smap w !! s)|]. unfold initialized in Hi. lia. }
      apply wp_any. intros w1 r1 se se' H1. congruence.
  - (* C_Finalize *) apply Hgo. cbn [api]. unfold c_finalize. wp_step. wp_step; [|done]. apply wp_bind, wp_modify, wp_ok. intros se'. unfold Spec.session_of. cbn. by rewrite lookup_empty.
  - apply Hgo. cbn [api]. apply wp_bind, wp_modify, wp_ok. intros se'. unfold Spec.session_of. cbn. by rewrite lookup_empty.
  - apply Hgo. cbn [api]. apply wp_bind, wp_modify, wp_ok. intros se'. unfold Spec.session_of, disturb. cbn [set_slots w_smap w_slots]. destruct (w_smap w !! s) as [i|]; [|done].
    destruct (decide (i = sid)) as [->|Hne]; [rewrite lookup_alter|rewrite lookup_alter_ne by congruence; intros X; exists se'; by split].
    destruct (w_slots w !! sid); [|done]. cbn. intros X; exists se'; by split.
  - (* C_InitToken *) apply Hgo. cbn [api]. unfold c_init_token. from_go.
  - (* C_OpenSession *) apply Hgo'. cbn [api]. unfold c_open_session, new_session.
    assert (ops_kept s w w) as K0 by by apply from_kept. repeat (wp_step; try exact K0).
    all: intros se se' Z1 Z2; destruct (session_of_inv B w s se HI Z1) as (sl0 & A1 & A2 & A3 & A4 & _).
    all: pose proof (so_sessions _ _ _ _ _ (si_slots _ _ HI _ _ A2) _ _ A3) as (_ & _ & A6 & _).
    all: unfold Spec.session_of in *; cbn [set_next set_smap with_slot set_slots w_smap w_slots] in Z2; rewrite lookup_insert_ne in Z2 by lia; rewrite A1 in Z1, Z2; rewrite A2 in Z1; cbn in Z1.
    all: destruct (decide (s_slot se = sid)) as [<-|Hne]; [rewrite lookup_insert in Z2; cbn in Z2; rewrite lookup_insert_ne in Z2 by lia|rewrite lookup_insert_ne, A2 in Z2 by congruence].
    all: try (match goal with X : w_slots _ !! ?i = Some ?y, Y : w_slots _ !! ?i = Some ?z |- _ => tryif constr_eq y z then fail else assert (y = z) as -> by congruence end).
    all: assert (se' = se) as -> by congruence; done.
  - (* C_CloseAllSessions *) apply Hgo. cbn [api]. unfold c_close_all_sessions. from_go.
Qed.
End apart.
