(* C60: a destroyed object is gone. *)
From Verif Require Import Base Monad Hoare Attr Obj Factory Tables Create Sqlite Storage Token Backend State Api Toy
  ObjSpec PlainSpec Rows ObjOk ObjNew Triple TokInv TokStep TokenFrame TokWp TokAuth Spec AuthSpec KeptSpec WorldWp Sessions SessionInv SessionFacts ObjWorld ObjView ObjAttrs NewView ObjFacts
  AttrFacts Errors ObjCalls ToyFacts SetFacts PlainFacts ThmObjects ThmAttrs ThmAuth ThmSessions ThmDestroy.

Section gone.
Context (P : params) (B : backend) (E : N -> keyenv).
Context (Hfs : p_fs P = all_factories) (Hutf : forall n, utf8_valid (p_uuid P n) = true).
Notation world := (world B).
Notation from_scratch := (from_scratch P B E). Notation rv := (rv P B E). Notation after := (after P B E).
Notation answer := (answer P B E).
Notation slot_of := (slot_of B). Notation token_of := (token_of B). Notation id_at := (id_at B).
Notation winv := (winv B).

Lemma fetch_still t h l : t_io t = [] -> fst (st_fetch P h l t) = t.
Proof using.
  intros Hio. unfold st_fetch, Monad.mbind, h_get, gets. destruct (h_map (t_handles t) !! h) as [u|]; [|done]. cbv zeta. fold (fetch_types l).
  unfold dbread, io, Monad.mbind. rewrite Hio. destruct (fetch_by_uid _ _ _) as [o1|]; [|done]. unfold lift. destruct (get_object_factory _ o1) as [f|]; [|done].
  destruct (decrypt_attrs _ _ _ _ _ _); done.
Qed.
Lemma get_still t h : t_io t = [] -> fst (get_object_by_handle P h t) = t.
Proof using.
  intros Hio. unfold get_object_by_handle, get_or_fetch, Monad.mbind, gets, ret, ensure. destruct (t_sobjs t !! h) as [o|].
  - cbn. destruct (_ || _); done.
  - pose proof (fetch_still t h [] Hio) as H. destruct (st_fetch P h [] t) as [t1 [o|e]]; cbn in H; subst t1; [|done]. cbn. destruct (_ || _); done.
Qed.
(* What a destruction that succeeds leaves. *)
Lemma destroyed_token t t' h : tok_ok t -> destroy_object P h t = (t', Ok tt) -> t_sobjs t' !! h = None /\ h_map (t_handles t') !! h = None /\
  (t_io t = [] -> forall u, t_sobjs t !! h = None -> h_map (t_handles t) !! h = Some u -> rows_of (t_db t') u = None).
Proof using.
  intros Ht. unfold destroy_object, Monad.mbind, gets, ensure, h_remove, modify. destruct (t_sobjs t !! h) as [o|] eqn:Ho.
  - destruct (is_destroyable o); [|done]. cbn. intros [= <-]. cbn. rewrite !lookup_delete. done.
  - destruct (st_fetch P h [CKA_DESTROYABLE] t) as [t1 [o|e]] eqn:Hf; [|done].
    assert (exists i, t1 = set_io i t /\ d_tables (t_db t) = true) as (i & -> & Htb).
    { assert (wp (st_fetch P h [CKA_DESTROYABLE]) t (fun t1 r => is_ok r = true -> exists i, t1 = set_io i t /\ d_tables (t_db t) = true)) as H.
      - apply wp_st_fetch; [|done]. intros i o' (uid & o1 & f & o2 & F1 & F2 & _) _. exists i. split; [done|]. unfold fetch_by_uid in F2. destruct (d_tables (t_db t)); [done|discriminate F2].
      - unfold wp in H. rewrite Hf in H. by apply H. }
    cbn. destruct (is_destroyable o); [|done]. cbn. unfold attempt, st_remove, Monad.mbind, h_get, gets. cbn [t_handles set_io].
    destruct (h_map (t_handles t) !! h) as [u|] eqn:Hu.
    + unfold dbwrite, io, Monad.mbind. cbn [t_io set_io].
      assert (remove_stmts (t_db t) u = Ok (SBegin :: del_stmts (t_db t) u ++ [SCommit])) as Hrm by (unfold remove_stmts; rewrite Htb; done).
      pose proof (remove_rows (t_db t) u _ u ltac:(apply (tk_db _ Ht)) Hrm) as Hg. rewrite bool_decide_eq_true_2 in Hg by done.
      destruct i as [|[e|] i]; cbn [t_db set_io]; rewrite ?Hrm; intros [= <-]; cbn [t_sobjs t_handles set_handles set_db set_io h_map]; rewrite ?lookup_delete; (split; [done|]; split; [done|]); intros Hio u' _ [= <-].
      * exact Hg.
      * exfalso. pose proof (fetch_still t h [CKA_DESTROYABLE] Hio) as X. rewrite Hf in X. apply (f_equal t_io) in X. cbn in X. congruence.
      * exact Hg.
    + unfold fail. intros [= <-]. cbn. rewrite ?lookup_delete. done.
Qed.

(* C60: after a C_DestroyObject that succeeds the handle names nothing, whatever the storage answered. *)
Theorem C60_handle w s sid h : sane (fun e => e <> CKR_OK) P B E -> from_scratch w -> slot_of w s = Some sid -> rv w (DestroyObject s h) = CKR_OK ->
  id_at (after w (DestroyObject s h)) sid h = None.
Proof using All.
  intros Hsane Hs Hsl Hrv. apply (scratch_winv P B E Hfs Hutf) in Hs. destruct (answer_sane P B E w _ Hsane Hrv) as [x Hx].
  destruct (destroy_call P B E w s h Hs) as [[Hi [e Ha]]|(sid' & se & t & t0 & t' & o & r & C1 & C2 & C3 & C4 & C6 & C7 & C8 & C9 & C10)]; [congruence|].
  assert (sid' = sid) as -> by (unfold Spec.slot_of in Hsl; congruence). pose proof (token_ok B _ _ _ Hs (proj1 C4)) as Ht.
  destruct r as [[]|e]; [|congruence]. destruct (destroyed_token t0 t' h (noise_ok _ _ C3 Ht) C9) as (D1 & D2 & _).
  unfold Spec.id_at. rewrite (proj1 (proj2 C4)). unfold object_id. by rewrite D1, D2.
Qed.

(* C60: if the storage answers, the record is gone as well. What is missing: the storage may fail, see C60_refuted. *)
Theorem C60_record_partial w s sid t h u : sane (fun e => e <> CKR_OK) P B E -> from_scratch w -> slot_of w s = Some sid -> token_of w sid = Some t ->
  t_io t = [] -> session_object_at B w sid h = false -> id_at w sid h = Some u -> rv w (DestroyObject s h) = CKR_OK ->
  stored B (after w (DestroyObject s h)) sid u = None.
Proof using All.
  intros Hsane Hs Hsl Htok Hio Hso Hid Hrv. pose proof Hs as Hs0. apply (scratch_winv P B E Hfs Hutf) in Hs. destruct (answer_sane P B E w _ Hsane Hrv) as [x Hx].
  destruct (slot_parts B w s sid Hs Hsl) as (sl & se & S1 & S2 & S3 & S4 & _). rewrite S3 in Htok. injection Htok as <-. pose proof (wo_slots _ _ (wi_ok _ _ Hs) _ _ S1) as Hok.
  unfold session_object_at, is_session_object in Hso. unfold Spec.id_at, object_id in Hid. rewrite S3 in Hso, Hid. destruct (t_sobjs (sl_token sl) !! h) as [?|] eqn:Ho; [done|].
  destruct (h_map (t_handles (sl_token sl)) !! h) as [uid|] eqn:Hh; [|done]. destruct (rows_of (t_db (sl_token sl)) uid) as [m|]; [|done]. injection Hid as ->.
  pose proof (wi_inv _ _ Hs) as HI. assert (s_slot se = sid) as Hss by apply (so_sessions _ _ _ _ _ (si_slots _ _ HI _ _ S1) _ _ S2).
  assert (initialized B w = true) as Hin.
  { unfold initialized. destruct (N.eqb_spec (w_next w) 0) as [E0|]; [|done]. pose proof (si_off _ _ HI E0) as X. rewrite X, lookup_empty in S1. done. }
  assert (tk_initialized (sl_token sl) = true /\ exists o t', get_object_by_handle P h (sl_token sl) = (sl_token sl, Ok o) /\ negb (is_token o) || is_writable B se = true /\
    destroy_object P h (sl_token sl) = (t', Ok tt)) as (H4 & o & t' & H5 & H6 & H7).
  { unfold ObjCalls.answer in Hx. revert Hx. cbn [api]. unfold c_destroy_object, Api.lock, State.lock, get_session, session_slot, token_ready, get_slot, Api.tok, State.tok, get_slot, ensure, gets, Monad.mbind, put_slot, modify, lift, ret, skip, Api.ok.
    unfold Spec.slot_of in Hsl. rewrite Hin, Hsl. cbn [fst snd]. rewrite Hin, S1. cbn [fst snd]. rewrite S2. cbn [fst snd]. rewrite Hss, Hin, S1.
    destruct (tk_initialized (sl_token sl)); [|done]. cbn [ret]. rewrite Hin, S1. pose proof (get_still (sl_token sl) h Hio) as Hg. destruct (get_object_by_handle P h (sl_token sl)) as [t1 [o|e]]; cbn in Hg; subst t1; [|done].
    cbn [w_slots set_slots]. destruct (negb (is_token o) || is_writable B se) eqn:Hwr; [|done]. 
    change (initialized B (set_slots B (<[sid:=put_token B (sl_token sl) sl]> (w_slots w)) w)) with (initialized B w). rewrite Hin. cbn [w_slots set_slots].
    rewrite lookup_insert. change (sl_token (put_token B (sl_token sl) sl)) with (sl_token sl). destruct (destroy_object P h (sl_token sl)) as [t' [[]|e]] eqn:Hd; [|done].
    intros _. split; [done|]. eauto 10. }
  destruct (destroy_runs P B E w s sid sl se h o t' Hs Hsl S1 S2 H4 H5 H6 H7) as (R1 & R2 & R3). unfold stored. rewrite R3.
  destruct (destroyed_token _ _ _ Hok H7) as (_ & _ & D). by apply D.
Qed.
End gone.

(* The case: a stored object. *)
Definition id60 : bytes := default [] (Spec.id_at toy_be (w59 true) 0 10).
Definition has_record (w : State.world toy_be) (u : bytes) : bool := match stored toy_be w 0 u with Some _ => true | None => false end.
Example C60_case : sane (fun e => e <> CKR_OK) toy toy_be toy_env /\ from_scratch toy toy_be toy_env (w59 true) /\ Spec.slot_of toy_be (w59 true) 2 = Some 0 /\
  option_map t_io (Spec.token_of toy_be (w59 true) 0) = Some [] /\ session_object_at toy_be (w59 true) 0 10 = false /\
  Spec.id_at toy_be (w59 true) 0 10 = Some id60 /\ toy_rv (w59 true) (DestroyObject 2 10) = CKR_OK /\
  has_record (w59 true) id60 = true /\ has_record (fst (toy_run (w59 true) [DestroyObject 2 10])) id60 = false.
Proof. split; [apply toy_sane; exact plain_ok|]. split; [apply toy_user_scratch|]. repeat (split; [vm_compute; reflexivity|]). vm_compute. reflexivity. Qed.

(* C60 is false if the storage fails: the database is locked by another process when the record is to be removed, and
   C_DestroyObject returns CKR_OK although nothing was removed. After the next start the object is found again. *)
Definition w60 : State.world toy_be := fst (toy_run toy_user [data59 true; Disturb 0 [None; None; Some IoBusy]]).
Definition restart60 : list call := [DestroyObject 2 10; Crash; Initialize [SlotConf 0 7 None None []]; OpenSession 0 RW true; Login 1 CKU_USER (Some user_pin);
  FindObjectsInit 1 (Some [tulong CKA_CLASS CKO_DATA]) 1; FindObjects 1 true 10 true].
Theorem C60_refuted : from_scratch toy toy_be toy_env w60 /\ Spec.id_at toy_be w60 0 10 = Some id60 /\ toy_rv w60 (DestroyObject 2 10) = CKR_OK /\
  Spec.id_at toy_be (fst (toy_run w60 [DestroyObject 2 10])) 0 10 = None /\ has_record (fst (toy_run w60 [DestroyObject 2 10])) id60 = true /\
  map fst (snd (toy_run w60 restart60)) = repeat CKR_OK 7 /\
  match snd (last_out (snd (toy_run w60 restart60))) with OHandles [h] => Spec.id_at toy_be (fst (toy_run w60 restart60)) 0 h | _ => None end = Some id60.
Proof. split; [apply toy_user_scratch|]. repeat (split; [vm_compute; reflexivity|]). vm_compute. reflexivity. Qed.
