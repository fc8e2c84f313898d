(* C_SetAttributeValue, C_DestroyObject, C_CopyObject and C_GetAttributeValue in terms of what they do to the token. *)
From Verif Require Import Base Monad Hoare Attr Obj Factory Tables Create Sqlite Storage Token Backend State Api
  Rows ObjOk ObjNew Triple TokInv TokStep TokenFrame TokWp TokAuth Spec WorldFrame WorldWp Sessions SessionInv SessionFacts
  Lifecycle ObjWorld ObjView ObjAttrs NewView ObjFacts Errors.

Section calls.
Context (P : params) (B : backend) (E : N -> keyenv) (Hfs : p_fs P = all_factories) (Hutf : forall n, utf8_valid (p_uuid P n) = true).
Notation world := (world B). Notation winv := (winv B). Notation token_of := (token_of B). Notation after := (after P B E).
Notation rv := (rv P B E). Notation out_of := (out_of P B E).

(* The call has only consumed random numbers and made database calls without effect. *)
Definition idle (w w' : world) : Prop :=
  forall sid, match token_of w sid, token_of w' sid with Some t, Some t' => noise t t' | None, None => True | _, _ => False end.
Lemma idle_refl w : idle w w.
Proof. intros sid. destruct (token_of w sid); [reflexivity|done]. Qed.
Lemma noise_view t t' h : noise t t' -> same_view h t t'.
Proof. intros (i & n & ->). by split. Qed.
Lemma idle_same w w' sid h : idle w w' -> same_object B w w' sid h.
Proof.
  intros H. specialize (H sid). destruct (token_of w sid) as [t|] eqn:H1, (token_of w' sid) as [t'|] eqn:H2; try done.
  - eapply token_same_object; [done|done|]. by apply noise_view.
  - apply same_object_eq. congruence.
Qed.
Lemma idle_slot w sid sl t : w_slots w !! sid = Some sl -> noise (sl_token sl) t -> idle w (with_slot B sid (put_token B t sl) w).
Proof.
  intros Hs Hn i. unfold Spec.token_of, with_slot, set_slots. cbn [w_slots]. destruct (decide (i = sid)) as [->|Hne].
  - rewrite lookup_insert, Hs. done.
  - rewrite lookup_insert_ne by done. destruct (w_slots w !! i); cbn; [reflexivity|done].
Qed.
(* The call has replaced the token of one slot. *)
Definition replaced (w w' : world) (sid : N) (t t' : token) : Prop :=
  token_of w sid = Some t /\ token_of w' sid = Some t' /\ forall i, i <> sid -> token_of w' i = token_of w i.
Lemma slot_replaced w sid sl t : w_slots w !! sid = Some sl -> replaced w (with_slot B sid (put_token B t sl) w) sid (sl_token sl) t.
Proof.
  intros Hs. split_and!.
  - unfold Spec.token_of. by rewrite Hs.
  - unfold Spec.token_of, with_slot, set_slots. cbn [w_slots]. by rewrite lookup_insert.
  - intros i Hi. unfold Spec.token_of, with_slot, set_slots. cbn [w_slots]. by rewrite lookup_insert_ne.
Qed.
Lemma slot_replaced_put w sid sl t t' : w_slots w !! sid = Some sl -> replaced w (with_slot B sid (put_token B t' (put_token B t sl)) w) sid (sl_token sl) t'.
Proof. exact (slot_replaced w sid sl t'). Qed.

(* What the call answers. *)
Definition answer (w : world) (c : call) : result (N * out) := snd (api P B E c w).
Lemma answer_ok w c r o : answer w c = Ok (r, o) -> rv w c = r /\ out_of w c = o.
Proof. unfold answer, Spec.rv, Spec.out_of, step. destruct (api P B E c w) as [w' [[r' o']|e]]; cbn; [by intros [= -> ->]|done]. Qed.
Lemma answer_err w c e : answer w c = Err e -> rv w c = e /\ out_of w c = ONone.
Proof. unfold answer, Spec.rv, Spec.out_of, step. destruct (api P B E c w) as [w' [[r' o']|e']]; cbn; [done|by intros [= ->]]. Qed.
Lemma answer_out w c : out_of w c <> ONone -> exists r, answer w c = Ok (r, out_of w c).
Proof. unfold answer, Spec.out_of, step. destruct (api P B E c w) as [w' [[r' o']|e']]; cbn; [eauto|done]. Qed.
Lemma answer_sane w c : sane (fun e => e <> CKR_OK) P B E -> rv w c = CKR_OK -> exists o, answer w c = Ok (CKR_OK, o).
Proof. intros HS H. destruct (no_ok_err P B E c w HS H) as (w' & o & Ho). exists o. unfold answer. by rewrite Ho. Qed.
Lemma call_wp c w (Q : world -> result (N * out) -> Prop) : wp (api P B E c) w Q -> Q (after w c) (answer w c).
Proof. intros H. unfold Spec.after, answer. rewrite run_step. exact H. Qed.

Lemma wp_peek h t (Q : token -> result object -> Prop) : tok_ok t ->
  (forall t' o, noise t t' -> t_sobjs t !! h = Some o \/ t_sobjs t !! h = None /\ fetched P t h [] o -> logged_in t = true \/ is_token o = false \/ is_private o = false -> Q t' (Ok o)) ->
  (forall t' e, noise t t' -> Q t' (Err e)) -> wp (get_object_by_handle P h) t Q.
Proof.
  intros Ht H1 H2. unfold get_object_by_handle, get_or_fetch. apply wp_bind, wp_bind, wp_gets. destruct (t_sobjs t !! h) as [o|] eqn:Hs.
  - apply wp_ret, wp_bind, wp_gets, wp_bind, wp_ensure; [|intros _; apply H2; reflexivity]. intros Hx. apply wp_ret, H1; [reflexivity|by left|].
    destruct (logged_in t), (is_token o), (is_private o); auto.
  - apply wp_st_fetch; [|intros; apply H2, noise_io]. intros i o Hf. apply wp_bind, wp_gets, wp_bind, wp_ensure; [|intros _; apply H2, noise_io].
    intros Hx. apply wp_ret, H1; [apply noise_io|by right|]. change (logged_in (set_io i t)) with (logged_in t) in Hx. destruct (logged_in t), (is_token o), (is_private o); auto.
Qed.

(* The object a handle names as the module sees it. *)
Definition seen (t : token) (h : N) (o : object) : Prop := t_sobjs t !! h = Some o \/ t_sobjs t !! h = None /\ fetched P t h [] o.
Definition may_see (t : token) (o : object) : Prop := logged_in t = true \/ is_token o = false \/ is_private o = false.

Lemma noise_ok t t' : noise t t' -> tok_ok t -> tok_ok t'.
Proof. intros (i & n & ->) Ht. apply (tok_same t); try done. apply (tk_db _ Ht). Qed.
Lemma set_call w s h tm cnt : winv w -> let c := SetAttributeValue s h tm cnt in
  idle w (after w c) /\ (exists e, answer w c = Err e) \/
  exists sid se t t0 t' l o r, w_smap w !! s = Some sid /\ session_of B w s = Some se /\ noise t t0 /\ replaced w (after w c) sid t t' /\
    l = default [] tm /\ seen t h o /\ may_see t o /\ (is_token o = true -> logged_in t = true /\ is_writable B se = true) /\
    set_object_attrs P h l t0 = (t', r) /\ answer w c = match r with Ok _ => Ok (CKR_OK, ONone) | Err e => Err e end.
Proof.
  intros Hw c. apply (call_wp c w (fun w' ro => idle w w' /\ (exists e, ro = Err e) \/
    exists sid se t t0 t' l o r, w_smap w !! s = Some sid /\ session_of B w s = Some se /\ noise t t0 /\ replaced w w' sid t t' /\
    l = default [] tm /\ seen t h o /\ may_see t o /\ (is_token o = true -> logged_in t = true /\ is_writable B se = true) /\
    set_object_attrs P h l t0 = (t', r) /\ ro = match r with Ok _ => Ok (CKR_OK, ONone) | Err e => Err e end)).
  assert (forall e : N, idle w w /\ (exists e', @Err (N * out) e = Err e')) as Hid by (split; [apply idle_refl|eauto]).
  cbn [api c]. unfold c_set_attribute_value. wp_step. wp_step; [|by left]. wp_step. wp_step; [|by left].
  rename s0 into se, H1 into Hm, H2 into Hsl, H3 into Hse.
  assert (s_slot se = sid) as Hss. { apply (so_sessions _ _ _ _ _ (si_slots _ _ (wi_inv _ _ Hw) _ _ Hsl) _ _ Hse). }
  rewrite Hss. wp_step. wp_step; [|by left].
  pose proof (wo_slots _ _ (wi_ok _ _ Hw) _ _ Hsl) as Ht.
  assert (session_of B w s = Some se) as Hso. { unfold session_of. by rewrite Hm, Hsl. }
  wp_step. wp_step. apply wp_peek; [exact Ht| |].
  2: { intros t' e Hn. left. split; [by apply idle_slot|eauto]. }
  intros t1 o Hn Hse1 Hsee. cbv beta iota. assert (logged_in t1 = logged_in (sl_token sl)) as Hlog by (by destruct Hn as (? & ? & ->)).
  set (w1 := with_slot B sid (put_token B t1 sl) w). assert (idle w w1) as Hidle by (by apply idle_slot).
  apply wp_bind. apply (wp_mono _ _ (fun w' r => w' = w1 /\ (r = Ok tt -> is_token o = true -> logged_in (sl_token sl) = true /\ is_writable B se = true))).
  { unfold w1. destruct (is_token o); [|by wp_step]. wp_step. wp_step. wp_step. wp_step; [|done]. wp_step; [|done]. split; [done|]. intros _ _. split; [|done]. by rewrite <- Hlog. }
  intros w' r [-> Hr]. destruct r as [[]|e]; [|left; split; eauto]. specialize (Hr eq_refl).
  assert (wp (let! t := tmpl_of B tm cnt in tok B sid (set_object_attrs P h t);;; ok B ONone) w1 (fun w' r =>
    w' = w1 /\ (exists e, r = Err e) \/ exists t' r1, set_object_attrs P h (default [] tm) t1 = (t', r1) /\ w' = with_slot B sid (put_token B t' (put_token B t1 sl)) w /\
      r = match r1 with Ok _ => Ok (CKR_OK, ONone) | Err e => Err e end)) as Hx.
  { wp_step. apply (wp_mono _ _ (fun w' r => w' = w1 /\ ((exists e, r = Err e) \/ r = Ok (default [] tm)))).
    { unfold tmpl_of. destruct tm as [l|]; [wp_step; auto|]. wp_step. wp_step; [wp_step; auto|eauto]. }
    intros w' r [-> [[e ->]| ->]]; [by left; eauto|]. wp_step. unfold w1. wp_step. unfold wp. destruct (set_object_attrs _ _ _ _) as [t' [[]|e]] eqn:Hset; cbn [fst snd].
    - right. exists t', (Ok tt). change (sl_token (put_token B t1 sl)) with t1 in Hset. rewrite with_slot_twice. done.
    - right. exists t', (Err e). change (sl_token (put_token B t1 sl)) with t1 in Hset. rewrite with_slot_twice. done. }
  eapply wp_mono; [exact Hx|]. cbv beta. intros w' r0 [[-> [e ->]]|(t' & r1 & X1 & -> & X3)]; [left; eauto|]. right.
  exists sid, se, (sl_token sl), t1, t', (default [] tm), o, r1. rewrite X3. split_and!; try done. by apply slot_replaced_put.
Qed.
Lemma destroy_call w s h : winv w -> let c := DestroyObject s h in
  idle w (after w c) /\ (exists e, answer w c = Err e) \/
  exists sid se t t0 t' o r, w_smap w !! s = Some sid /\ session_of B w s = Some se /\ noise t t0 /\ replaced w (after w c) sid t t' /\
    seen t h o /\ may_see t o /\ (is_token o = true -> is_writable B se = true) /\
    destroy_object P h t0 = (t', r) /\ answer w c = match r with Ok _ => Ok (CKR_OK, ONone) | Err e => Err e end.
Proof.
  intros Hw c. apply (call_wp c w (fun w' ro => idle w w' /\ (exists e, ro = Err e) \/
    exists sid se t t0 t' o r, w_smap w !! s = Some sid /\ session_of B w s = Some se /\ noise t t0 /\ replaced w w' sid t t' /\
    seen t h o /\ may_see t o /\ (is_token o = true -> is_writable B se = true) /\
    destroy_object P h t0 = (t', r) /\ ro = match r with Ok _ => Ok (CKR_OK, ONone) | Err e => Err e end)).
  assert (forall e : N, idle w w /\ (exists e', @Err (N * out) e = Err e')) as Hid by (split; [apply idle_refl|eauto]).
  cbn [api c]. unfold c_destroy_object. wp_step. wp_step; [|by left]. wp_step. wp_step; [|by left].
  rename s0 into se, H1 into Hm, H2 into Hsl, H3 into Hse.
  assert (s_slot se = sid) as Hss. { apply (so_sessions _ _ _ _ _ (si_slots _ _ (wi_inv _ _ Hw) _ _ Hsl) _ _ Hse). }
  rewrite Hss. wp_step. wp_step; [|by left].
  pose proof (wo_slots _ _ (wi_ok _ _ Hw) _ _ Hsl) as Ht.
  assert (session_of B w s = Some se) as Hso. { unfold session_of. by rewrite Hm, Hsl. }
  wp_step. wp_step. apply wp_peek; [exact Ht| |].
  2: { intros t' e Hn. left. split; [by apply idle_slot|eauto]. }
  intros t1 o Hn Hse1 Hsee. cbv beta iota.
  wp_step. wp_step; [|left; split; [by apply idle_slot|eauto]]. wp_step. wp_step. unfold wp. change (sl_token (put_token B t1 sl)) with t1.
  destruct (destroy_object P h t1) as [t' r] eqn:Hd. cbn [fst snd]. rewrite with_slot_twice.
  assert (is_token o = true -> is_writable B se = true) as Hwr by (intros Hx; rewrite Hx in *; by destruct (is_writable B se)).
  destruct r as [[]|e]; right; [exists sid, se, (sl_token sl), t1, t', o, (Ok tt)|exists sid, se, (sl_token sl), t1, t', o, (Err e)]; cbn [fst snd ok ret];
    split_and!; try done; by apply slot_replaced_put.
Qed.
Lemma wp_ro_check se t w (Q : world -> result unit -> Prop) :
  (is_writable B se = true \/ fail_if_token t = Ok tt -> Q w (Ok tt)) -> (forall e, Q w (Err e)) -> wp (ro_check B se t) w Q.
Proof.
  intros H1 H2. unfold ro_check. destruct (is_writable B se); [apply wp_skip; auto|]. apply wp_lift. destruct (fail_if_token t) as [[]|]; auto.
Qed.
Lemma wp_tmpl_of {A} (tm : option (list A)) cnt w (Q : world -> result (list A) -> Prop) :
  Q w (Ok (default [] tm)) -> (forall e, Q w (Err e)) -> wp (tmpl_of B tm cnt) w Q.
Proof. intros H1 H2. unfold tmpl_of. destruct tm as [l|]; [by wp_step|]. wp_step. wp_step; [by wp_step|auto]. Qed.
Lemma copy_call w s h tm cnt p : winv w -> let c := CopyObject s h tm cnt p in
  idle w (after w c) /\ (exists e, answer w c = Err e) \/
  exists sid se t t' l r, w_smap w !! s = Some sid /\ session_of B w s = Some se /\ replaced w (after w c) sid t t' /\
    l = default [] tm /\ (is_writable B se = true \/ fail_if_token l = Ok tt) /\
    copy_object P s h l t = (t', r) /\ answer w c = match r with Ok n => Ok (CKR_OK, OHandle n) | Err e => Err e end.
Proof.
  intros Hw c. apply (call_wp c w (fun w' ro => idle w w' /\ (exists e, ro = Err e) \/
    exists sid se t t' l r, w_smap w !! s = Some sid /\ session_of B w s = Some se /\ replaced w w' sid t t' /\
    l = default [] tm /\ (is_writable B se = true \/ fail_if_token l = Ok tt) /\
    copy_object P s h l t = (t', r) /\ ro = match r with Ok n => Ok (CKR_OK, OHandle n) | Err e => Err e end)).
  assert (forall e : N, idle w w /\ (exists e', @Err (N * out) e = Err e')) as Hid by (split; [apply idle_refl|eauto]).
  cbn [api c]. unfold c_copy_object. wp_step. wp_step; [|by left]. wp_step. wp_step; [|by left]. wp_step. wp_step; [|by left].
  rename s0 into se, H2 into Hm, H3 into Hsl, H4 into Hse.
  assert (s_slot se = sid) as Hss. { apply (so_sessions _ _ _ _ _ (si_slots _ _ (wi_inv _ _ Hw) _ _ Hsl) _ _ Hse). }
  rewrite Hss. assert (session_of B w s = Some se) as Hso. { unfold session_of. by rewrite Hm, Hsl. }
  apply wp_bind, wp_tmpl_of; [|by left]. apply wp_bind, wp_ro_check; [|by left]. intros Hro. cbv zeta. wp_step. wp_step; [|by left].
  wp_step. wp_step. unfold wp. destruct (copy_object P s h (default [] tm) (sl_token sl)) as [t' r] eqn:Hd. cbn [fst snd].
  destruct r as [n|e]; right; [exists sid, se, (sl_token sl), t', (default [] tm), (Ok n)|exists sid, se, (sl_token sl), t', (default [] tm), (Err e)];
    cbn [fst snd Api.ok ret]; (split_and!; try done; by apply slot_replaced).
Qed.
Lemma get_call w s h tm cnt : winv w -> let c := GetAttributeValue s h tm cnt in
  idle w (after w c) /\ (exists e, answer w c = Err e) \/
  exists sid t t' l q r, w_smap w !! s = Some sid /\ replaced w (after w c) sid t t' /\ l = default [] tm /\
    get_object_attrs P h l t = (t', Ok (q, r)) /\ answer w c = Ok (r, OAttrs q).
Proof.
  intros Hw c. apply (call_wp c w (fun w' ro => idle w w' /\ (exists e, ro = Err e) \/
    exists sid t t' l q r, w_smap w !! s = Some sid /\ replaced w w' sid t t' /\ l = default [] tm /\
    get_object_attrs P h l t = (t', Ok (q, r)) /\ ro = Ok (r, OAttrs q))).
  assert (forall e : N, idle w w /\ (exists e', @Err (N * out) e = Err e')) as Hid by (split; [apply idle_refl|eauto]).
  cbn [api c]. unfold c_get_attribute_value. apply wp_bind, wp_tmpl_of; [|by left]. wp_step. wp_step; [|by left]. wp_step. wp_step; [|by left].
  rename H1 into Hm, H2 into Hsl. wp_step. wp_step. unfold wp.
  destruct (get_object_attrs P h (default [] tm) (sl_token sl)) as [t' r] eqn:Hd. cbn [fst snd]. destruct r as [[q r]|e].
  - right. exists sid, (sl_token sl), t', (default [] tm), q, r. cbn [fst snd Api.failed ret]. split_and!; try done. by apply slot_replaced.
  - left. split; [|eauto]. apply idle_slot; [done|]. revert Hd.
    assert (wp (get_object_attrs P h (default [] tm)) (sl_token sl) (fun t' _ => noise (sl_token sl) t')) as Hwp.
    { unfold get_object_attrs, get_or_fetch. apply wp_bind, wp_gets. cbv zeta. apply wp_bind, wp_bind, wp_gets. destruct (t_sobjs _ !! h) as [o|].
      - apply wp_ret, wp_bind, wp_ensure; [|reflexivity]. intros _. apply wp_ret. reflexivity.
      - apply wp_st_fetch; [|intros; apply noise_io]. intros i o _. apply wp_bind, wp_ensure; [|intros; apply noise_io]. intros _. apply wp_ret, noise_io. }
    unfold wp in Hwp. intros Hd. by rewrite Hd in Hwp.
Qed.
Lemma create_call w s tm p : winv w -> let c := CreateObject s tm p in
  idle w (after w c) /\ (exists e, answer w c = Err e) \/
  exists sid se t t0 t' l env r, w_smap w !! s = Some sid /\ session_of B w s = Some se /\ replaced w (after w c) sid t t' /\ noise t t0 /\
    tm = Some l /\ (is_writable B se = true \/ fail_if_token l = Ok tt) /\
    create_object P (E env) s l t0 = (t', r) /\ answer w c = match r with Ok n => Ok (CKR_OK, OHandle n) | Err e => Err e end.
Proof.
  intros Hw c. apply (call_wp c w (fun w' ro => idle w w' /\ (exists e, ro = Err e) \/
    exists sid se t t0 t' l env r, w_smap w !! s = Some sid /\ session_of B w s = Some se /\ replaced w w' sid t t' /\ noise t t0 /\
    tm = Some l /\ (is_writable B se = true \/ fail_if_token l = Ok tt) /\
    create_object P (E env) s l t0 = (t', r) /\ ro = match r with Ok n => Ok (CKR_OK, OHandle n) | Err e => Err e end)).
  assert (forall e : N, idle w w /\ (exists e', @Err (N * out) e = Err e')) as Hid by (split; [apply idle_refl|eauto]).
  cbn [api c]. unfold c_create_object. wp_step. wp_step; [|by left]. destruct tm as [l|]; [|done]. wp_step. wp_step; [|done]. match goal with H : Some l = Some _ |- _ => injection H as <- end.
  wp_step. wp_step; [|by left]. wp_step. wp_step; [|by left].
  match goal with H : w_smap w !! s = Some _ |- _ => rename H into Hm end. match goal with H : w_slots w !! _ = Some _ |- _ => rename H into Hsl end.
  match goal with H : sl_sessions _ !! s = Some _ |- _ => rename H into Hse end.
  assert (s_slot s0 = sid) as Hss. { apply (so_sessions _ _ _ _ _ (si_slots _ _ (wi_inv _ _ Hw) _ _ Hsl) _ _ Hse). }
  rewrite Hss. assert (session_of B w s = Some s0) as Hso. { unfold session_of. by rewrite Hm, Hsl. }
  apply wp_bind, wp_ro_check; [|by left]. intros Hro. cbv zeta. wp_step. wp_step; [|by left]. wp_step. wp_step. apply wp_draw. wp_step. wp_step. unfold wp.
  change (sl_token (put_token B ?a sl)) with a. rewrite with_slot_twice.
  destruct (create_object P _ s _ _) as [t' r] eqn:Hd. cbn [fst snd].
  destruct r as [n|e]; right; exists sid, s0, (sl_token sl), (set_fresh (t_fresh (sl_token sl) + 1) (sl_token sl)), t'; eexists _, _; [exists (Ok n)|exists (Err e)];
    cbn [fst snd Api.ok ret]; (split_and!; try done; first [by apply slot_replaced_put|apply noise_fresh]).
Qed.
End calls.
