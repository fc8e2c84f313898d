(* C17, C18, C41, C42: handles, the life of objects, what a call leaves alone. *)
From Verif Require Import Base Monad Hoare Attr Obj Factory Tables Create Sqlite Storage Token Backend State Api Toy
  Rows ObjOk ObjNew Triple TokInv TokStep TokWp TokAuth Spec WorldWp Sessions SessionInv SessionFacts ObjWorld ObjView ObjFacts.

Section objects.
Context (P : params) (B : backend) (E : N -> keyenv).
Context (Hfs : p_fs P = all_factories) (Hutf : forall n, utf8_valid (p_uuid P n) = true).
Notation world := (world B).
Notation from_scratch := (from_scratch P B E). Notation rv := (rv P B E). Notation after := (after P B E). Notation run := (run P B E).
Notation id_at := (id_at B). Notation owner_at := (owner_at B). Notation session_object_at := (session_object_at B).
Notation slot_of := (slot_of B). Notation same_object := (same_object B).

(* C17: an object has one handle. *)
Theorem C17_one_handle w sid h h' u : from_scratch w -> id_at w sid h = Some u -> id_at w sid h' = Some u -> h = h'.
Proof.
  intros Hs. apply (scratch_winv P B E Hfs Hutf) in Hs. unfold Spec.id_at. destruct (token_of B w sid) as [t|] eqn:Ht; [|done].
  pose proof (token_ok B w sid t Hs Ht) as Hok. intros H1 H2. apply (id_named _ _ _ Hok) in H1, H2. by eapply (tk_inj _ Hok).
Qed.
(* Whatever happens while the token is not initialised anew and the process not ended, a handle names the object it
   named before, if it names one. *)
Theorem C17_not_recycled w cs sid h u u' : from_scratch w -> forallb (keeps_token sid) cs = true ->
  id_at w sid h = Some u -> id_at (fst (run w cs)) sid h = Some u' -> u' = u.
Proof.
  intros Hs Hk. apply (scratch_winv P B E Hfs Hutf) in Hs. unfold Spec.id_at. destruct (token_of B w sid) as [t|] eqn:Ht; [|done].
  destruct (run_grows P B E Hfs Hutf cs w sid t Hs Hk Ht) as (t' & Ht' & Hg & Hw'). rewrite Ht'.
  intros H1 H2. pose proof (token_ok B w sid t Hs Ht) as Hok. pose proof (token_ok B _ sid t' Hw' Ht') as Hok'.
  apply (id_named _ _ _ Hok) in H1. apply (id_named _ _ _ Hok') in H2. destruct (gr_map _ _ Hg _ _ H2) as [H3|H3]; [congruence|].
  apply (tk_keys _ Hok) in H1. lia.
Qed.
(* and once its object has gone it names nothing ever after. *)
Theorem C17_gone_for_good w c cs sid h u : from_scratch w -> keeps_token sid c = true -> forallb (keeps_token sid) cs = true ->
  id_at w sid h = Some u -> id_at (after w c) sid h = None -> id_at (fst (run (after w c) cs)) sid h = None.
Proof.
  intros Hs Hk1 Hk2. apply (scratch_winv P B E Hfs Hutf) in Hs. unfold Spec.id_at at 1 2. destruct (token_of B w sid) as [t|] eqn:Ht; [|done].
  destruct (step_grows P B E Hfs Hutf w c sid t Hs Hk1 Ht) as (t' & Ht' & Hg). rewrite Ht'. intros H1 H2.
  pose proof (after_winv P B E Hfs Hutf w c Hs) as Hw'. eapply (run_gone P B E Hfs Hutf); [done|done|done|].
  apply gone_of; [by eapply token_ok| |done]. pose proof (token_ok B w sid t Hs Ht) as Hok.
  pose proof (tk_keys _ Hok _ _ (id_named _ _ _ Hok H1)) as [_ Hn]. pose proof (gr_next _ _ Hg). lia.
Qed.
(* An object keeps its handle, the full statement: as long as the object exists. Proved for every call but a
   C_DestroyObject of the object itself (which forgets the handle even if the database does not remove the object);
   session objects may be destroyed when sessions are closed and the user is logged out. *)
Theorem C17_handle_kept_partial w c sid h u : from_scratch w -> keeps_token sid c = true -> (forall s, c <> DestroyObject s h) ->
  id_at w sid h = Some u -> (session_object_at w sid h = true -> may_drop c = false) ->
  id_at (after w c) sid h = Some u /\ session_object_at (after w c) sid h = session_object_at w sid h.
Proof. intros Hs. apply (scratch_winv P B E Hfs Hutf) in Hs. by apply (step_id P B E Hfs Hutf). Qed.

(* C18: C_CloseSession destroys the objects of the session, and no other object of any slot changes. *)
Theorem C18_close_session w s : from_scratch w -> rv w (CloseSession s) = CKR_OK ->
  forall sid h,
    (owner_at w sid h = Some s -> id_at (after w (CloseSession s)) sid h = None) /\
    (owner_at w sid h <> Some s -> id_at w sid h <> None -> same_object w (after w (CloseSession s)) sid h).
Proof.
  intros Hs Hrv sid h. pose proof (scratch_winv P B E Hfs Hutf w Hs) as Hw. pose proof (scratch_own P B E Hfs Hutf w Hs) as Ho. split.
  - intros Hown. pose proof (Ho _ _ _ Hown) as Hm. destruct (close_view P B E w s sid Hw Ho Hm) as (_ & _ & t & t' & H1 & H2 & H3 & H4 & H5).
    unfold Spec.owner_at in Hown. rewrite H1 in Hown. apply owner_some in Hown as (o & O1 & O2 & O3).
    unfold Spec.id_at. rewrite H2. unfold object_id. rewrite H4, H3. rewrite drop_lookup, O1. unfold session_sel at 1. cbn [snd]. rewrite (proj2 (N.eqb_eq _ _) O2).
    pose proof (drop_hm (session_sel s) t h) as Hx. unfold hm in Hx. rewrite Hx, O1. unfold session_sel. cbn [snd]. by rewrite (proj2 (N.eqb_eq _ _) O2).
  - intros Hown Hid. destruct (id_at w sid h) as [u|] eqn:Hu; [|done]. by apply (unaffected P B E Hfs Hutf w _ sid h u).
Qed.
(* C_CloseAllSessions destroys all objects of the slot that belong to a session, and no other. *)
Theorem C18_close_all_sessions w s : from_scratch w -> rv w (CloseAllSessions s) = CKR_OK ->
  forall sid h,
    (sid = s -> owner_at w sid h <> None -> id_at (after w (CloseAllSessions s)) sid h = None) /\
    (sid <> s \/ owner_at w sid h = None -> id_at w sid h <> None -> same_object w (after w (CloseAllSessions s)) sid h).
Proof.
  intros Hs Hrv sid h. pose proof (scratch_winv P B E Hfs Hutf w Hs) as Hw. pose proof (scratch_own P B E Hfs Hutf w Hs) as Ho. split.
  - intros -> Hown. destruct (owner_at w s h) as [x|] eqn:Hx; [|done]. destruct (close_all_cases P B E w s Hw) as [(sl & C1 & C2 & C3)|(_ & _ & C3)]; [|done].
    destruct (close_all_view P B E Hutf w s sl Hw Ho C1 C2 C3) as (_ & _ & _ & t' & V1 & _ & V2). specialize (V2 h).
    rewrite (owner_at_token B w s (sl_token sl)) in Hx by (by apply slot_token). apply owner_some in Hx as (o & O1 & O2 & O3).
    rewrite O1 in V2. destruct (N.eqb_spec (o_session o) CK_INVALID_HANDLE); [congruence|]. destruct V2 as [V2 V3]. unfold hm in V3.
    unfold Spec.id_at. rewrite V1. unfold object_id. by rewrite V2, V3.
  - intros Hown Hid. destruct (id_at w sid h) as [u|] eqn:Hu; [|done]. apply (unaffected P B E Hfs Hutf w _ sid h u); [done|done|done|].
    cbn [about]. intros [-> Hx]. by destruct Hown.
Qed.
(* The owner of a session object is open, on the slot of the object. *)
Theorem C18_owner_open w sid h s : from_scratch w -> owner_at w sid h = Some s -> slot_of w s = Some sid.
Proof. intros Hs. by apply (scratch_own P B E Hfs Hutf w Hs). Qed.

(* C41: a call leaves every object alone that it is not about. *)
Theorem C41_other_objects_untouched w c sid h : from_scratch w -> id_at w sid h <> None -> ~ about B w c sid h ->
  same_object w (after w c) sid h.
Proof.
  intros Hs Hid Ha. destruct (id_at w sid h) as [u|] eqn:Hu; [|done]. apply (unaffected P B E Hfs Hutf w c sid h u); [|by apply (scratch_own P B E)|done|done].
  by apply (scratch_winv P B E).
Qed.
(* C42: a call on one slot, or on a session of one slot, leaves the tokens of the other slots as they are. *)
Theorem C42_slots_isolated w c sid : from_scratch w -> live_call c = true -> slot_of_call c <> Some sid ->
  (forall s, session_of_call c = Some s -> slot_of w s <> Some sid) -> token_of B (after w c) sid = token_of B w sid.
Proof.
  intros Hs Hc Hsl Hse. pose proof (scratch_winv P B E Hfs Hutf w Hs) as Hw. pose proof (token_steps P B E Hfs Hutf w c sid Hw Hc) as H.
  destruct (token_of B (after w c) sid) as [t'|] eqn:Ht'; destruct (token_of B w sid) as [t|] eqn:Ht; try done.
  destruct H as [->|[Ha _]]; [done|]. unfold acting in Ha. destruct (slot_of_call c) as [i|] eqn:Hi; [congruence|].
  destruct (session_of_call c) as [s|] eqn:Hsc.
  - specialize (Hse _ eq_refl). unfold Spec.slot_of in Hse. destruct (w_smap w !! s) as [i|] eqn:Hm; [cbn in Ha; congruence|].
    destruct (match c with SetOperationState _ _ _ _ => true | _ => false end) eqn:Hop.
    + destruct c; try discriminate Hop. unfold Spec.after in Ht'. rewrite run_step in Ht'. cbn [session_of_call] in Hsc. injection Hsc as ->.
      destruct (N.eqb_spec enc CK_INVALID_HANDLE) as [->|Hne].
      * pose proof (closed_api P B E (SetOperationState s blob CK_INVALID_HANDLE auth) w s Hm eq_refl) as [Hcl _];
          [intros ???? [= _ _ <- _]; done|]. cbn [fst] in Hcl. rewrite Hcl in Ht'. congruence.
      * cbn [api] in Ht'. unfold c_set_operation_state in Ht'. rewrite (proj2 (N.eqb_neq _ _) Hne) in Ht'. cbn in Ht'. congruence.
    + pose proof (closed_api P B E c w s Hm Hsc ltac:(intros; by subst c)) as [Hcl _]. unfold Spec.after in Ht'. rewrite run_step, Hcl in Ht'. congruence.
  - enough (after w c = w) as Hx by (rewrite Hx in Ht'; congruence).
    unfold Spec.after. rewrite run_step.
    destruct c; try discriminate Hc; try discriminate Hi; try discriminate Hsc; cbn [api].
    all: unfold c_get_info, c_get_interface_list, c_get_slot_list, Api.lock, State.lock, Api.deref, nonnull, gets, ensure, mbind, ok, ret, fail.
    all: repeat (match goal with |- context [match ?x with _ => _ end] => lazymatch type of x with bool => destruct x | option _ => destruct x | opk => destruct x end end; cbn beta iota; try done).
Qed.
End objects.

(* ---- concrete cases ---- *)
Notation toy_rv := (rv toy toy_be toy_env). Notation toy_out := (out_of toy toy_be toy_env).
Lemma toy_scratch cs : from_scratch toy toy_be toy_env (fst (toy_run toy_start cs)).
Proof. by exists cs. Qed.
Lemma toy_user_scratch cs : from_scratch toy toy_be toy_env (fst (toy_run toy_user cs)).
Proof.
  exists (setup ++ cs). rewrite run_app. unfold toy_user. destruct (toy_run toy_start setup) as [w1 o1] eqn:H1. unfold toy_start in H1.
  rewrite H1. cbn [fst]. by destruct (toy_run w1 cs).
Qed.

(* A token object (handle 10), a session object of session 2 (handle 11) and one of session 3 (handle 12). *)
Definition objects3 : list call :=
  [CreateObject 2 (Some (aes_tmpl true ++ [tbool CKA_PRIVATE false])) true; CreateObject 2 (Some (aes_tmpl false)) true;
   CreateObject 3 (Some (aes_tmpl false)) true].
Definition w3 := fst (toy_run toy_user objects3).
Example objects3_case : map snd (snd (toy_run toy_user objects3)) = [OHandle 10; OHandle 11; OHandle 12] /\
  map (owner_at toy_be w3 0) [10; 11; 12] = [None; Some 2; Some 3] /\
  map (fun h => match id_at toy_be w3 0 h with Some _ => true | None => false end) [10; 11; 12; 13] = [true; true; true; false].
Proof. vm_compute. done. Qed.
Example C17_case : match id_at toy_be w3 0 10, id_at toy_be w3 0 11 with Some a, Some b => negb (bytes_eqb a b) | _, _ => false end = true.
Proof. vm_compute. done. Qed.
(* destroyed objects: their handles are not used again, new ones are *)
Definition recreate : list call := [DestroyObject 2 12; CreateObject 2 (Some (aes_tmpl false)) true; Logout 2; CloseAllSessions 0].
Example C17_case_gone : forallb (keeps_token 0) recreate = true /\ toy_rv w3 (DestroyObject 2 11) = CKR_OK /\
  id_at toy_be (after toy toy_be toy_env w3 (DestroyObject 2 11)) 0 11 = None /\
  map snd (snd (toy_run (after toy toy_be toy_env w3 (DestroyObject 2 11)) recreate)) = [ONone; OHandle 13; ONone; ONone].
Proof. vm_compute. done. Qed.
(* An object outlives its handle if the database fails to remove it: C_DestroyObject returns CKR_OK nevertheless, and
   the object is found again under another handle. *)
Definition find_aes (s : N) : list call := [FindObjectsInit s (Some [tulong CKA_KEY_TYPE CKK_AES]) 1; FindObjects s true 10 true].
Definition dis : list call :=
  [CreateObject 2 (Some (aes_tmpl true ++ [tbool CKA_PRIVATE false])) true; Disturb 0 [None; None; Some IoBusy]; DestroyObject 2 10].
Theorem C17_handle_kept_refuted : exists w c h h' u, from_scratch toy toy_be toy_env w /\ keeps_token 0 c = true /\
  id_at toy_be w 0 h = Some u /\ toy_rv w c = CKR_OK /\ id_at toy_be (after toy toy_be toy_env w c) 0 h = None /\
  let (w', tr) := toy_run (after toy toy_be toy_env w c) (find_aes 2) in
  tr = [(CKR_OK, ONone); (CKR_OK, OHandles [h'])] /\ h' <> h /\ id_at toy_be w' 0 h' = Some u.
Proof.
  exists (fst (toy_run toy_user (firstn 2 dis))), (DestroyObject 2 10), 10, 11.
  destruct (id_at toy_be (fst (toy_run toy_user (firstn 2 dis))) 0 10) as [u|] eqn:Hu; [|by vm_compute in Hu].
  exists u. split; [apply toy_user_scratch|]. split; [done|]. split; [done|]. split; [by vm_compute|]. split; [by vm_compute|].
  assert (Some u = id_at toy_be (fst (toy_run (after toy toy_be toy_env (fst (toy_run toy_user (firstn 2 dis))) (DestroyObject 2 10)) (find_aes 2))) 0 11) as Hx.
  { rewrite <- Hu. vm_compute. done. }
  rewrite Hx. clear. destruct (toy_run (after toy toy_be toy_env (fst (toy_run toy_user (firstn 2 dis))) (DestroyObject 2 10)) (find_aes 2)) as [w' tr] eqn:Hr.
  cbn [fst]. split; [|split; [done|done]]. apply (f_equal snd) in Hr. cbn [snd] in Hr. rewrite <- Hr. vm_compute. done.
Qed.
(* Two objects can share a handle: C_GenerateKey accepts a CKA_UNIQUE_ID, here that of a token object not looked up yet. *)
Definition uid1 : bytes := default [] (id_at toy_be (fst (toy_run toy_user (firstn 1 dis))) 0 10).
Definition forge : list call :=
  firstn 1 dis ++ [Finalize; Initialize [SlotConf 0 7 None None []]; OpenSession 0 RW true; Login 1 CKU_USER (Some user_pin);
  GenerateKey 1 (Some (CKM_AES_KEY_GEN, None)) (Some [tulong CKA_CLASS CKO_SECRET_KEY; tulong CKA_KEY_TYPE CKK_AES; tulong CKA_VALUE_LEN 16;
    tbool CKA_TOKEN false; ca CKA_UNIQUE_ID uid1]) true].
Theorem C17_shared_refuted : exists w s h, from_scratch toy toy_be toy_env w /\
  map snd (snd (toy_run w (find_aes s))) = [ONone; OHandles [h; h]] /\
  session_object_at toy_be w 0 h = true /\ exists u t, id_at toy_be w 0 h = Some u /\ token_of toy_be w 0 = Some t /\ rows_of (t_db t) u <> None.
Proof.
  exists (fst (toy_run toy_user forge)), 1, 10. split; [apply toy_user_scratch|]. split; [by vm_compute|]. split; [by vm_compute|].
  exists uid1. assert (match token_of toy_be (fst (toy_run toy_user forge)) 0 with Some t => match rows_of (t_db t) uid1 with Some _ => true | None => false end | None => false end = true) as H by by vm_compute.
  destruct (token_of toy_be (fst (toy_run toy_user forge)) 0) as [t|]; [|done]. exists t. split; [by vm_compute|]. split; [done|]. by destruct (rows_of (t_db t) uid1).
Qed.

Example C18_case : toy_rv w3 (CloseSession 2) = CKR_OK /\
  map (fun h => match id_at toy_be (after toy toy_be toy_env w3 (CloseSession 2)) 0 h with Some _ => true | None => false end) [10; 11; 12] = [true; false; true].
Proof. vm_compute. done. Qed.
Example C18_case_all : toy_rv w3 (CloseAllSessions 0) = CKR_OK /\
  map (fun h => match id_at toy_be (after toy toy_be toy_env w3 (CloseAllSessions 0)) 0 h with Some _ => true | None => false end) [10; 11; 12] = [true; false; false].
Proof. vm_compute. done. Qed.
Example C41_case : ~ about toy_be w3 (SetAttributeValue 2 11 (Some [tbool CKA_ENCRYPT false]) 1) 0 10 /\
  toy_rv w3 (SetAttributeValue 2 11 (Some [tbool CKA_ENCRYPT false]) 1) = CKR_OK.
Proof. split; [by intros [_ ?]|by vm_compute]. Qed.
(* two slots *)
Definition two : list call := [Initialize [SlotConf 0 7 None None []; SlotConf 1 8 None None []]; InitToken 0 (Some so_pin) None; InitToken 1 (Some so_pin) None].
Example C42_case : map fst (snd (toy_run toy_start two)) = [CKR_OK; CKR_OK; CKR_OK] /\
  toy_rv (fst (toy_run toy_start two)) (InitToken 1 (Some so_pin) None) = CKR_OK.
Proof. vm_compute. done. Qed.
