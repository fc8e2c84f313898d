(* Weakest preconditions of the functions of State.v. *)
From Verif Require Import Base Monad Hoare Attr Obj Factory Tables Create Sqlite Storage Token Backend State Api Spec WorldFrame.

Section wp.
Context (P : params) (B : backend) (E : N -> keyenv).
Notation world := (world B). Notation session := (session B). Notation slot := (slot B).

Lemma wp_get_slot sid w (Q : world -> result slot -> Prop) :
  (forall sl, w_next w <> 0 -> w_slots w !! sid = Some sl -> Q w (Ok sl)) ->
  (forall e, (w_next w = 0 /\ e = CKR_CRYPTOKI_NOT_INITIALIZED) \/
             (w_next w <> 0 /\ w_slots w !! sid = None /\ e = CKR_SLOT_ID_INVALID) -> Q w (Err e)) ->
  wp (get_slot B sid) w Q.
Proof.
  intros H1 H2. unfold get_slot. unfold wp, mbind, gets, ensure, ret, fail, initialized in *. cbn.
  destruct (N.eqb_spec (w_next w) 0) as [Hz|Hz]; cbn.
  - apply H2. auto.
  - destruct (w_slots w !! sid) eqn:Hs; cbn; [by apply H1|]. apply H2. auto.
Qed.
Lemma wp_lock w (Q : world -> result unit -> Prop) :
  (w_next w <> 0 -> Q w (Ok tt)) -> (w_next w = 0 -> Q w (Err CKR_CRYPTOKI_NOT_INITIALIZED)) -> wp (Api.lock B) w Q.
Proof.
  intros H1 H2. unfold Api.lock, State.lock. unfold wp, mbind, gets, ensure, ret, fail, initialized in *. cbn.
  destruct (N.eqb_spec (w_next w) 0) as [Hz|Hz]; cbn; auto.
Qed.
Lemma wp_session_slot h w (Q : world -> result N -> Prop) :
  (forall sid, w_smap w !! h = Some sid -> Q w (Ok sid)) ->
  (w_smap w !! h = None -> Q w (Err CKR_SESSION_HANDLE_INVALID)) -> wp (session_slot B h) w Q.
Proof.
  intros H1 H2. unfold session_slot. unfold wp, mbind, gets. destruct (w_smap w !! h); [by apply H1|by apply H2].
Qed.
Lemma wp_get_session h w (Q : world -> result session -> Prop) :
  (forall sid sl s, w_next w <> 0 -> w_smap w !! h = Some sid -> w_slots w !! sid = Some sl -> sl_sessions sl !! h = Some s ->
     Q w (Ok s)) ->
  (forall e, Q w (Err e)) -> wp (get_session B h) w Q.
Proof.
  intros H1 H2. unfold get_session. apply wp_bind, wp_session_slot; [|auto]. intros sid Hs.
  apply wp_bind, wp_get_slot; [|auto]. intros sl Hn Hsl.
  destruct (sl_sessions sl !! h) eqn:Hh; [apply wp_ret; eauto|apply wp_fail; auto].
Qed.
Lemma wp_token_ready sid w (Q : world -> result unit -> Prop) :
  (forall sl, w_next w <> 0 -> w_slots w !! sid = Some sl -> tk_initialized (sl_token sl) = true -> Q w (Ok tt)) ->
  (forall e, Q w (Err e)) -> wp (token_ready B sid) w Q.
Proof.
  intros H1 H2. unfold token_ready. apply wp_bind, wp_get_slot; [|auto]. intros sl Hn Hsl. apply wp_ensure; eauto.
Qed.
Lemma wp_token_of_session h w (Q : world -> result N -> Prop) :
  (forall sid sl, w_next w <> 0 -> w_smap w !! h = Some sid -> w_slots w !! sid = Some sl ->
     tk_initialized (sl_token sl) = true -> Q w (Ok sid)) ->
  (forall e, Q w (Err e)) -> wp (token_of_session B h) w Q.
Proof.
  intros H1 H2. unfold token_of_session. apply wp_bind, wp_session_slot; [|auto]. intros sid Hs.
  apply wp_bind, wp_token_ready; [|auto]. intros sl Hn Hsl Hi. apply wp_ret. eauto.
Qed.
Definition with_slot (sid : N) (sl : slot) (w : world) : world := set_slots B (<[sid := sl]> (w_slots w)) w.
Lemma wp_put_slot sid sl w (Q : world -> result unit -> Prop) : Q (with_slot sid sl w) (Ok tt) -> wp (put_slot B sid sl) w Q.
Proof. done. Qed.
Lemma wp_tok {A} sid (m : M token A) w (Q : world -> result A -> Prop) :
  (forall e, Q w (Err e)) ->
  (forall sl, w_next w <> 0 -> w_slots w !! sid = Some sl ->
     wp m (sl_token sl) (fun t r => Q (with_slot sid (put_token B t sl) w) r)) ->
  wp (Api.tok B sid m) w Q.
Proof.
  intros H1 H2. unfold Api.tok, State.tok. apply wp_bind, wp_get_slot; [|auto]. intros sl Hn Hsl.
  specialize (H2 sl Hn Hsl). unfold wp in H2. destruct (m (sl_token sl)) as [t r]. cbn in H2.
  apply wp_bind, wp_put_slot, wp_lift, H2.
Qed.
Lemma wp_upd_session h f w (Q : world -> result unit -> Prop) :
  (forall sid sl, w_next w <> 0 -> w_smap w !! h = Some sid -> w_slots w !! sid = Some sl ->
     Q (with_slot sid (put_sessions B (alter f h (sl_sessions sl)) sl) w) (Ok tt)) ->
  (forall e, Q w (Err e)) -> wp (upd_session B h f) w Q.
Proof.
  intros H1 H2. unfold upd_session. apply wp_bind, wp_session_slot; [|auto]. intros sid Hs.
  apply wp_bind, wp_get_slot; [|auto]. intros sl Hn Hsl. apply wp_put_slot. auto.
Qed.
(* The slot is known. *)
Lemma wp_get_slot_eq sid sl w (Q : world -> result slot -> Prop) :
  w_slots w !! sid = Some sl -> w_next w <> 0 -> Q w (Ok sl) -> wp (get_slot B sid) w Q.
Proof. intros H1 H2 HQ. apply wp_get_slot; [intros; by simplify_eq|]. intros e [[? ?]|(? & ? & ?)]; congruence. Qed.
Lemma wp_tok_eq {A} sid sl (m : M token A) w (Q : world -> result A -> Prop) :
  w_slots w !! sid = Some sl -> w_next w <> 0 ->
  wp m (sl_token sl) (fun t r => Q (with_slot sid (put_token B t sl) w) r) -> wp (Api.tok B sid m) w Q.
Proof.
  intros H1 H2 HQ. unfold Api.tok, State.tok. eapply wp_bind, wp_get_slot_eq; eauto.
  unfold wp in HQ. destruct (m (sl_token sl)) as [t r]. cbn in HQ. apply wp_bind, wp_put_slot, wp_lift, HQ.
Qed.
Lemma wp_token_ready_eq sid sl w (Q : world -> result unit -> Prop) :
  w_slots w !! sid = Some sl -> w_next w <> 0 ->
  (tk_initialized (sl_token sl) = true -> Q w (Ok tt)) ->
  (tk_initialized (sl_token sl) = false -> Q w (Err CKR_TOKEN_NOT_INITIALIZED)) ->
  wp (token_ready B sid) w Q.
Proof. intros H1 H2 HQ HQ2. unfold token_ready. eapply wp_bind, wp_get_slot_eq; eauto. apply wp_ensure; auto. Qed.
Lemma with_slot_lookup sid a w : w_slots (with_slot sid a w) !! sid = Some a.
Proof. apply lookup_insert. Qed.
Lemma with_slot_twice sid a b w : with_slot sid a (with_slot sid b w) = with_slot sid a w.
Proof. unfold with_slot, set_slots. cbn. by rewrite insert_insert. Qed.
Lemma wp_ok o w (Q : world -> result (N * out) -> Prop) : Q w (Ok (CKR_OK, o)) -> wp (Api.ok B o) w Q.
Proof. done. Qed.
Lemma wp_failed r o w (Q : world -> result (N * out) -> Prop) : Q w (Ok (r, o)) -> wp (Api.failed B r o) w Q.
Proof. done. Qed.
Lemma wp_deref {A} (p : option A) w (Q : world -> result A -> Prop) :
  (forall a, p = Some a -> Q w (Ok a)) -> (p = None -> Q w (Err RV_NULL_DEREF)) -> wp (deref B p) w Q.
Proof. intros H1 H2. destruct p; cbn; [by apply H1|by apply H2]. Qed.

(* Running the functions on a known session. *)
Lemma lock_eq w : w_next w <> 0 -> Api.lock B w = (w, Ok tt).
Proof. intros H. unfold Api.lock, State.lock, mbind, gets, ensure, initialized. destruct (N.eqb_spec (w_next w) 0); done. Qed.
Lemma lock_off w : w_next w = 0 -> Api.lock B w = (w, Err CKR_CRYPTOKI_NOT_INITIALIZED).
Proof. intros H. unfold Api.lock, State.lock, mbind, gets, ensure, initialized. by rewrite H. Qed.
Lemma get_slot_eq sid sl w : w_next w <> 0 -> w_slots w !! sid = Some sl -> get_slot B sid w = (w, Ok sl).
Proof.
  intros H H1. unfold get_slot, mbind, gets, ensure, initialized.
  destruct (N.eqb_spec (w_next w) 0); [done|]. cbn. by rewrite H1.
Qed.
Lemma session_slot_some h sid w : w_smap w !! h = Some sid -> session_slot B h w = (w, Ok sid).
Proof. intros H. unfold session_slot, mbind, gets. by rewrite H. Qed.
Lemma session_slot_none h w : w_smap w !! h = None -> session_slot B h w = (w, Err CKR_SESSION_HANDLE_INVALID).
Proof. intros H. unfold session_slot, mbind, gets. by rewrite H. Qed.
Lemma get_session_eq h sid sl s w : w_next w <> 0 -> w_smap w !! h = Some sid -> w_slots w !! sid = Some sl ->
  sl_sessions sl !! h = Some s -> get_session B h w = (w, Ok s).
Proof.
  intros H1 H2 H3 H4. unfold get_session. rewrite run_bind, (session_slot_some h sid), run_bind by done.
  rewrite (get_slot_eq sid sl) by done. by rewrite H4.
Qed.
Lemma token_ready_eq sid sl w : w_next w <> 0 -> w_slots w !! sid = Some sl -> tk_initialized (sl_token sl) = true ->
  token_ready B sid w = (w, Ok tt).
Proof. intros H1 H2 H3. unfold token_ready. rewrite run_bind, (get_slot_eq sid sl) by done. by rewrite H3. Qed.
Lemma token_of_session_eq h sid sl w : w_next w <> 0 -> w_smap w !! h = Some sid -> w_slots w !! sid = Some sl ->
  tk_initialized (sl_token sl) = true -> token_of_session B h w = (w, Ok sid).
Proof.
  intros H1 H2 H3 H4. unfold token_of_session. rewrite run_bind, (session_slot_some h sid), run_bind by done.
  by rewrite (token_ready_eq sid sl).
Qed.
Lemma tok_eq {A} sid sl (m : M token A) w : w_next w <> 0 -> w_slots w !! sid = Some sl ->
  Api.tok B sid m w = (with_slot sid (put_token B (fst (m (sl_token sl))) sl) w, snd (m (sl_token sl))).
Proof.
  intros H1 H2. unfold Api.tok, State.tok. rewrite run_bind, (get_slot_eq sid sl) by done.
  by destruct (m (sl_token sl)).
Qed.
Lemma upd_session_eq h f sid sl w : w_next w <> 0 -> w_smap w !! h = Some sid -> w_slots w !! sid = Some sl ->
  upd_session B h f w = (with_slot sid (put_sessions B (alter f h (sl_sessions sl)) sl) w, Ok tt).
Proof.
  intros H1 H2 H3. unfold upd_session. rewrite run_bind, (session_slot_some h sid), run_bind by done.
  by rewrite (get_slot_eq sid sl).
Qed.

(* One call, as a triple. *)
Lemma wp_step c w (Q : world -> N * out -> Prop) :
  wp (api P B E c) w (fun w' r => Q w' (match r with Ok r => r | Err e => (e, ONone) end)) ->
  Q (fst (step P B E w c)) (snd (step P B E w c)).
Proof. unfold wp, step. destruct (api P B E c w) as [w' [r|e]]; done. Qed.

(* Induction over histories. *)
Lemma run_inv (I : world -> Prop) w cs :
  I w -> (forall w c, I w -> I (fst (step P B E w c))) -> I (fst (run P B E w cs)).
Proof.
  intros Hw Hs. revert w Hw. induction cs as [|c cs IH]; intros w Hw; cbn [run]; [done|].
  specialize (Hs w c Hw). destruct (step P B E w c) as [w' o]. specialize (IH w' Hs).
  destruct (run P B E w' cs). done.
Qed.
Lemma reachable_inv (I : world -> Prop) :
  (forall ds, I (init_world B ds)) -> (forall w c, I w -> I (fst (step P B E w c))) ->
  forall w, reachable P B E w -> I w.
Proof. intros H1 H2 w (ds & cs & ->). by apply run_inv. Qed.
Lemma run_app w cs1 cs2 :
  run P B E w (cs1 ++ cs2) =
  let '(w1, o1) := run P B E w cs1 in let '(w2, o2) := run P B E w1 cs2 in (w2, o1 ++ o2).
Proof.
  revert w. induction cs1 as [|c cs IH]; intros w; cbn [run app].
  - by destruct (run P B E w cs2).
  - destruct (step P B E w c) as [w1 o]. rewrite IH. destruct (run P B E w1 cs) as [w2 os].
    by destruct (run P B E w2 cs2).
Qed.
Lemma reachable_run w cs : reachable P B E w -> reachable P B E (fst (run P B E w cs)).
Proof.
  intros (ds & cs0 & ->). exists ds, (cs0 ++ cs). rewrite run_app.
  destruct (run P B E (init_world B ds) cs0) as [w1 o1]. cbn [fst]. by destruct (run P B E w1 cs).
Qed.
Lemma reachable_step w c : reachable P B E w -> reachable P B E (fst (step P B E w c)).
Proof.
  intros Hr. apply (reachable_run _ [c]) in Hr. cbn [run] in Hr. by destruct (step P B E w c).
Qed.
Lemma reachable_init ds : reachable P B E (init_world B ds).
Proof. by exists ds, []. Qed.
End wp.

Ltac wp_step :=
  lazymatch goal with
  | |- wp _ (with_slot _ ?i _ (with_slot _ ?i _ _)) _ => rewrite with_slot_twice
  | |- wp (mbind _ _) _ _ => apply wp_bind
  | |- wp (ret _) _ _ => apply wp_ret
  | |- wp (fail _) _ _ => apply wp_fail
  | |- wp (lift _) _ _ => apply wp_lift
  | |- wp (gets _) _ _ => apply wp_gets
  | |- wp skip _ _ => apply wp_skip
  | |- wp (modify _) _ _ => apply wp_modify
  | |- wp (ensure _ _) _ _ => apply wp_ensure; intros ?
  | |- wp (attempt _) _ _ => apply wp_attempt
  | |- wp (let _ := _ in _) _ _ => cbv zeta
  | H : w_slots ?w !! ?i = Some _, H' : w_next ?w <> 0 |- wp (get_slot _ ?i) ?w _ => apply (wp_get_slot_eq _ _ _ _ _ H H')
  | H : w_slots ?w !! ?i = Some _, H' : w_next ?w <> 0 |- wp (Api.tok _ ?i _) ?w _ => apply (wp_tok_eq _ _ _ _ _ _ H H')
  | H : w_slots ?w !! ?i = Some _, H' : w_next ?w <> 0 |- wp (token_ready _ ?i) ?w _ =>
    apply (wp_token_ready_eq _ _ _ _ _ H H'); intros ?
  | H' : w_next ?w <> 0 |- wp (get_slot _ ?i) (with_slot _ ?i _ ?w) _ =>
    apply (wp_get_slot_eq _ _ _ _ _ (with_slot_lookup _ i _ w) H')
  | H' : w_next ?w <> 0 |- wp (Api.tok _ ?i _) (with_slot _ ?i _ ?w) _ =>
    apply (wp_tok_eq _ _ _ _ _ _ (with_slot_lookup _ i _ w) H')
  | H' : w_next ?w <> 0 |- wp (token_ready _ ?i) (with_slot _ ?i _ ?w) _ =>
    apply (wp_token_ready_eq _ _ _ _ _ (with_slot_lookup _ i _ w) H'); intros ?
  | |- wp (get_slot _ _) _ _ => apply wp_get_slot; [intros ? ? ?|intros ? ?]
  | |- wp (Api.lock _) _ _ => apply wp_lock; intros ?
  | |- wp (session_slot _ _) _ _ => apply wp_session_slot; intros
  | |- wp (get_session _ _) _ _ => apply wp_get_session; [intros ? ? ? ? ? ? ?|intros ?]
  | |- wp (token_ready _ _) _ _ => apply wp_token_ready; [intros ? ? ? ?|intros ?]
  | |- wp (token_of_session _ _) _ _ => apply wp_token_of_session; [intros ? ? ? ? ? ?|intros ?]
  | |- wp (put_slot _ _ _) _ _ => apply wp_put_slot
  | |- wp (State.tok ?b ?i ?m) ?w ?q => change (wp (Api.tok b i m) w q)
  | |- wp (Api.tok _ _ _) _ _ => apply wp_tok; [intros ?|intros ? ? ?]
  | |- wp (upd_session _ _ _) _ _ => apply wp_upd_session; [intros ? ? ? ? ?|intros ?]
  | |- wp (Api.ok _ _) _ _ => apply wp_ok
  | |- wp (Api.failed _ _ _) _ _ => apply wp_failed
  | |- wp (deref _ _) _ _ => apply wp_deref; intros
  | |- wp (if ?b then _ else _) _ _ => destruct b eqn:?
  | |- wp (match ?x with _ => _ end) _ _ => destruct x eqn:?
  | |- match ?r with Ok _ => _ | Err _ => _ end => destruct r eqn:?
  end; cbv beta iota.
(* Symbolic execution up to the next branch the goal does not follow from at once. *)
Ltac wp_go := repeat (wp_step; try done).
(* The same, where nothing needs to be known about the token functions. *)
Ltac wp_all := repeat first [wp_step; try done | lazymatch goal with |- @wp token _ _ _ _ => apply wp_any; intros ? ?; cbv beta iota end].
