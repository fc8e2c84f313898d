(* C59: an object that may be destroyed can be destroyed. *)
From Verif Require Import Base Monad Hoare Attr Obj Factory Tables Create Sqlite Storage Token Backend State Api Toy
  ObjSpec PlainSpec Rows ObjOk ObjNew Triple TokInv TokStep TokenFrame TokWp TokAuth Spec AuthSpec KeptSpec WorldWp Sessions SessionInv SessionFacts ObjWorld ObjView ObjAttrs NewView ObjFacts
  AttrFacts Errors ObjCalls ToyFacts SetFacts PlainFacts ThmObjects ThmAttrs.

Section destroy.
Context (P : params) (B : backend) (E : N -> keyenv).
Context (Hfs : p_fs P = all_factories) (Hutf : forall n, utf8_valid (p_uuid P n) = true).
Notation world := (world B).
Notation from_scratch := (from_scratch P B E). Notation rv := (rv P B E). Notation after := (after P B E).
Notation out_of := (out_of P B E). Notation answer := (answer P B E).
Notation slot_of := (slot_of B). Notation token_of := (token_of B). Notation id_at := (id_at B). Notation bool_at := (bool_at B). Notation session_of := (session_of B).
Notation winv := (winv B).

(* The storage answers, and an object can be made of the record it keeps for the handle. *)
Definition healthy (t : token) : Prop := t_io t = [].
Definition readable (t : token) (h : N) : Prop := exists o, fetched P t h [] o.
(* Somebody is logged in, or the object is not private. *)
Definition admitted (w : world) (sid h : N) : Prop :=
  logged B w sid = Some CKU_SO \/ logged B w sid = Some CKU_USER \/ bool_at w sid h CKA_PRIVATE = Some false.

Lemma fetch_now t h l o : t_io t = [] -> fetched P t h l o -> st_fetch P h l t = (t, Ok o).
Proof using.
  intros Hio (uid & o1 & f & o2 & F1 & F2 & F3 & F4 & ->). unfold st_fetch, Monad.mbind, h_get, gets, dbread, io, Monad.mbind, lift, ret. rewrite F1. cbv zeta. fold (fetch_types l). rewrite Hio. cbn [fst snd].
  rewrite F2. cbn [fst snd]. rewrite F3. cbn [fst snd]. rewrite F4. done.
Qed.
(* If the whole record can be read, so can the part C_DestroyObject looks at. *)
Lemma set_attr_any o o' a : is_ok (set_attr o a) = is_ok (set_attr o' a).
Proof using. unfold set_attr. destruct (a_type a =? CKA_CLASS); [|done]. by destruct (attr_to_ulong a). Qed.
Lemma add_rows_part (p : N * sqlval -> bool) l o o' : is_ok (add_rows o l) = true -> is_ok (add_rows o' (List.filter p l)) = true.
Proof using.
  revert o o'. induction l as [|[ty v] l IH]; intros o o'; [done|]. cbn [add_rows List.filter]. destruct (from_sql ty v) as [a|] eqn:Ha; [|done]. cbn [rbind].
  destruct (set_attr o a) as [o1|] eqn:H1; [|done]. cbn [rbind]. intros H. destruct (p (ty, v)); [|by eapply IH].
  cbn [add_rows]. rewrite Ha. cbn [rbind]. pose proof (set_attr_any o o' a) as Hs. rewrite H1 in Hs. destruct (set_attr o' a) as [o2|]; [|done]. cbn [rbind]. by eapply IH.
Qed.
Lemma decrypt_nothing ver key uid l o : (forall ty, In ty l -> get_attr o ty = None) -> decrypt_attrs P ver key uid l o = Ok o.
Proof using.
  induction l as [|ty l IH]; intros H; [done|]. cbn [decrypt_attrs]. rewrite (H ty) by (by left). apply IH. intros x Hx. apply H. by right.
Qed.
Lemma readable_part t h o : tok_ok t -> t_sobjs t !! h = None -> fetched P t h [] o -> attr_of t h CKA_DESTROYABLE <> None -> exists o', fetched P t h [CKA_DESTROYABLE] o'.
Proof using Hfs.
  intros Ht Hso (uid & o1 & f & o2 & F1 & F2 & F3 & F4 & ->) Hd. unfold attr_of in Hd. rewrite Hso, F1 in Hd. pose proof (obj_factory_good P Hfs _ _ F3) as Hf.
  destruct (fetch_rows _ _ _ _ F2) as (i & m & G1 & G2 & G3). destruct (fetch_get _ _ _ _ F2) as (i' & m' & G1' & G2' & G4 & _).
  assert (rows_of (t_db t) uid = Some m) as Hm by (apply rows_of_some; [apply (tk_db _ Ht)|eauto]).
  assert (rows_of (t_db t) uid = Some m') as Hm' by (apply rows_of_some; [apply (tk_db _ Ht)|eauto]). rewrite Hm in Hm'. injection Hm' as <-.
  rewrite Hm in Hd. set (l := fetch_types [CKA_DESTROYABLE]).
  assert (exists o1', fetch_by_uid (t_db t) uid l = Ok o1') as [o1' F2'].
  { assert (is_ok (rows_to_object (List.filter (fun p => existsb (N.eqb (fst p)) l) (map_to_list m))) = true) as Hr.
    { apply (add_rows_part _ _ (obj_new CK_UNAVAILABLE_INFORMATION)). change (rows_to_object (List.filter (fun _ => true) (map_to_list m)) = Ok o1) in G3. rewrite filter_true in G3. unfold rows_to_object in G3. by rewrite G3. }
    unfold fetch_by_uid in F2 |- *. destruct (d_tables (t_db t)); [|discriminate F2]. cbn [negb]. change (all_u32 l) with (Ok (A:=unit) tt). cbn [rbind].
    rewrite (ids_found _ _ i m ltac:(apply (tk_db _ Ht)) G1 G2). cbn [map snd]. change (match l with [] => map_to_list m | _ :: _ => List.filter (fun p => existsb (N.eqb (fst p)) l) (map_to_list m) end) with (List.filter (fun p => existsb (N.eqb (fst p)) l) (map_to_list m)).
    destruct (rows_to_object (List.filter (fun p => existsb (N.eqb (fst p)) l) (map_to_list m))) as [o'|] eqn:Ho'; [|discriminate Hr]. exists o'.
    destruct (List.filter (fun p => existsb (N.eqb (fst p)) l) (map_to_list m)) as [|p r] eqn:Hl.
    - exfalso. unfold row_attr in Hd. destruct (m !! CKA_DESTROYABLE) as [v|] eqn:Hv; [|done]. assert (In (CKA_DESTROYABLE, v) (List.filter (fun p => existsb (N.eqb (fst p)) l) (map_to_list m))) as Hin.
      { apply in_filter. split; [by apply elem_of_list_In, elem_of_map_to_list|reflexivity]. } by rewrite Hl in Hin.
    - cbn [List.filter]. rewrite rows_to_objects_one, Ho'. done. }
  destruct (fetch_get _ _ _ _ F2') as (i2 & m2 & K1 & K2 & K3 & K4 & _). assert (rows_of (t_db t) uid = Some m2) as Hm2 by (apply rows_of_some; [apply (tk_db _ Ht)|eauto]). rewrite Hm in Hm2. injection Hm2 as <-.
  assert (forall ty, selected l ty = true -> get_attr o1' ty = get_attr o1 ty) as Hsame by (intros ty Hy; by rewrite (K3 ty Hy), (G4 ty)).
  exists (set_handle o1' h), uid, o1', f, o1'. split_and!; try done.
  - revert F3. unfold get_object_factory, get_ulong, get_as. by rewrite !Hsame by reflexivity.
  - apply decrypt_nothing. intros ty Hin. destruct (good_sens f ty Hf Hin) as (Hk & Hc & _). apply K4; [|done].
    destruct (selected l ty) eqn:Hsel; [|done]. exfalso. unfold selected in Hsel. change (existsb (N.eqb ty) l = true) in Hsel. apply existsb_exists in Hsel as (y & Hy & E1). apply N.eqb_eq in E1. subst y.
    repeat (destruct Hy as [Hy|Hy]; [subst ty; vm_compute in Hk; discriminate Hk|]). done.
Qed.
Lemma destroy_runs w s sid sl se h o t' : winv w -> w_smap w !! s = Some sid -> w_slots w !! sid = Some sl -> sl_sessions sl !! s = Some se ->
  tk_initialized (sl_token sl) = true -> get_object_by_handle P h (sl_token sl) = (sl_token sl, Ok o) ->
  negb (is_token o) || is_writable B se = true -> destroy_object P h (sl_token sl) = (t', Ok tt) ->
  rv w (DestroyObject s h) = CKR_OK /\ token_of (after w (DestroyObject s h)) sid = Some t' /\ db_at B (after w (DestroyObject s h)) sid = t_db t'.
Proof using.
  intros Hw H1 H2 H3 H4 H5 H6 H7. pose proof (wi_inv _ _ Hw) as HI.
  assert (s_slot se = sid) as Hss by apply (so_sessions _ _ _ _ _ (si_slots _ _ HI _ _ H2) _ _ H3).
  assert (initialized B w = true) as Hin.
  { unfold initialized. destruct (N.eqb_spec (w_next w) 0) as [E0|]; [|done]. pose proof (si_off _ _ HI E0) as X. rewrite X, lookup_empty in H2. done. }
  assert (exists w', api P B E (DestroyObject s h) w = (w', Ok (CKR_OK, ONone)) /\ w_slots w' !! sid = Some (put_token B t' (put_token B (sl_token sl) sl))) as (w' & A1 & A2).
  { eexists. split.
    - cbn [api]. unfold c_destroy_object, Api.lock, State.lock, get_session, session_slot, token_ready, get_slot, Api.tok, State.tok, get_slot, ensure, gets, Monad.mbind, put_slot, modify, lift, ret, skip, Api.ok.
      rewrite Hin, H1. cbn [fst snd]. rewrite Hin, H2. cbn [fst snd]. rewrite H3. cbn [fst snd]. rewrite Hss, Hin, H2. rewrite H4. rewrite Hin, H2, H5. cbn [w_slots set_slots]. rewrite H6.
      change (initialized B (set_slots B (<[sid:=put_token B (sl_token sl) sl]> (w_slots w)) w)) with (initialized B w). rewrite Hin. cbn [w_slots set_slots].
      rewrite lookup_insert. change (sl_token (put_token B (sl_token sl) sl)) with (sl_token sl). rewrite H7. reflexivity.
    - cbn. by rewrite lookup_insert. }
  unfold Spec.rv, Spec.after, step, Spec.token_of, db_at. rewrite A1. cbn [fst snd]. rewrite A2. done.
Qed.
Lemma slot_parts w s sid : winv w -> slot_of w s = Some sid -> exists sl se, w_slots w !! sid = Some sl /\ sl_sessions sl !! s = Some se /\ token_of w sid = Some (sl_token sl) /\ session_of w s = Some se /\ tk_initialized (sl_token sl) = true.
Proof using.
  intros Hw H. destruct (si_smap _ _ (wi_inv _ _ Hw) _ _ H) as (sl & se & H1 & H2). exists sl, se. split_and!; try done.
  - unfold Spec.token_of. by rewrite H1.
  - unfold Spec.session_of. unfold Spec.slot_of in H. by rewrite H, H1.
  - apply (so_some _ _ _ _ _ (si_slots _ _ (wi_inv _ _ Hw) _ _ H1)). intros Hx. by rewrite Hx, lookup_empty in H2.
Qed.

(* C59: through any open session of the slot a session object that is destroyable is destroyed. *)
Theorem C59_session w s sid h : from_scratch w -> slot_of w s = Some sid ->
  session_object_at B w sid h = true -> bool_at w sid h CKA_DESTROYABLE = Some true ->
  rv w (DestroyObject s h) = CKR_OK /\ id_at (after w (DestroyObject s h)) sid h = None.
Proof using All.
  intros Hw Hs Hso Hd. pose proof (scratch_winv P B E Hfs Hutf w Hw) as HW. destruct (slot_parts w s sid HW Hs) as (sl & se & S1 & S2 & S3 & S4 & Hi).
  pose proof (wo_slots _ _ (wi_ok _ _ HW) _ _ S1) as Hok.
  unfold session_object_at, is_session_object in Hso. unfold Spec.bool_at, bool_of, attr_of in Hd. rewrite S3 in Hso, Hd.
  destruct (t_sobjs (sl_token sl) !! h) as [o|] eqn:Ho; [|done].
  pose proof (so_token _ _ _ (tk_sobj _ Hok _ _ Ho)) as Htk.
  assert (is_destroyable o = true) as Hdo. { unfold is_destroyable, bool_attr. destruct (get_attr o CKA_DESTROYABLE) as [a|]; [|done]. destruct (attr_to_bool a); cbn in Hd; congruence. }
  destruct (destroy_runs w s sid sl se h o (set_handles (Handles (delete h (h_map (t_handles (sl_token sl)))) (h_next (t_handles (sl_token sl)))) (set_sobjs (delete h (t_sobjs (sl_token sl))) (sl_token sl)))) as (R1 & R2 & R3); try done.
  - unfold get_object_by_handle, get_or_fetch, Monad.mbind, gets, ensure, ret. rewrite Ho, Htk. cbn [negb]. rewrite orb_true_r. done.
  - by rewrite Htk.
  - unfold destroy_object, Monad.mbind, gets, ensure, modify, h_remove, modify. rewrite Ho, Hdo. done.
  - split; [done|]. unfold Spec.id_at. rewrite R2. unfold object_id. cbn. rewrite !lookup_delete. done.
Qed.

(* Through a session that may write, a stored object that is destroyable and that the caller may see is destroyed, with
   its record. What is missing: the storage answers and the record can be read, see C59_refuted. *)
Theorem C59_stored_partial w s sid t se h u : from_scratch w -> slot_of w s = Some sid -> token_of w sid = Some t ->
  session_of w s = Some se -> is_writable B se = true -> session_object_at B w sid h = false -> id_at w sid h = Some u ->
  bool_at w sid h CKA_DESTROYABLE = Some true -> admitted w sid h -> healthy t -> readable t h ->
  rv w (DestroyObject s h) = CKR_OK /\ id_at (after w (DestroyObject s h)) sid h = None /\ stored B (after w (DestroyObject s h)) sid u = None.
Proof using All.
  intros Hw Hs Ht Hse Hwr Hso Hid Hd Had Hio (o & F1). unfold healthy in Hio. pose proof (scratch_winv P B E Hfs Hutf w Hw) as HW. destruct (slot_parts w s sid HW Hs) as (sl & se' & S1 & S2 & S3 & S4 & Hi).
  rewrite S3 in Ht. simplify_eq. pose proof (wo_slots _ _ (wi_ok _ _ HW) _ _ S1) as Hok.
  unfold session_object_at, is_session_object in Hso. unfold admitted, logged, Spec.bool_at, bool_of in Had. unfold Spec.bool_at, bool_of in Hd. unfold Spec.id_at, object_id in Hid. rewrite S3 in Hso, Hd, Had, Hid.
  destruct (t_sobjs (sl_token sl) !! h) as [?|] eqn:Ho; [done|].
  destruct (h_map (t_handles (sl_token sl)) !! h) as [uid|] eqn:Hh; [|done]. destruct (rows_of (t_db (sl_token sl)) uid) as [m|] eqn:Hm; [|done]. simplify_eq.
  destruct (readable_part _ _ _ Hok Ho F1) as [o' F2]. { destruct (attr_of _ h CKA_DESTROYABLE); done. }
  pose proof (fetched_attr P Hfs _ _ _ _ CKA_DESTROYABLE KBool Hok F2 Ho eq_refl eq_refl ltac:(done)) as Ad.
  pose proof (fetched_attr P Hfs _ _ _ _ CKA_PRIVATE KBool Hok F1 Ho eq_refl eq_refl ltac:(done)) as Ap.
  assert (is_destroyable o' = true) as Hdo. { unfold is_destroyable, bool_attr. rewrite Ad. destruct (attr_of _ h CKA_DESTROYABLE) as [a|]; [|done]. destruct (attr_to_bool a); cbn in Hd; congruence. }
  assert (logged_in (sl_token sl) || negb (is_token o) || negb (is_private o) = true) as Hsee.
  { unfold logged_in. cbn in Had. destruct Had as [X|[X|X]]; [simplify_eq; rewrite X; done|simplify_eq; rewrite X; done|].
    unfold is_private, bool_attr. rewrite Ap. destruct (attr_of _ h CKA_PRIVATE) as [a|]; [|done]. destruct (attr_to_bool a) as [b|]; [|done]. cbn in X. simplify_eq. apply orb_true_r. }
  assert (d_tables (t_db (sl_token sl)) = true) as Htb. { destruct F1 as (? & ? & ? & ? & _ & F & _). unfold fetch_by_uid in F. destruct (d_tables _); [done|discriminate F]. }
  set (st := SBegin :: del_stmts (t_db (sl_token sl)) u ++ [SCommit]).
  assert (remove_stmts (t_db (sl_token sl)) u = Ok st) as Hrm by (unfold remove_stmts; rewrite Htb; done).
  pose proof (remove_rows (t_db (sl_token sl)) u st u ltac:(apply (tk_db _ Hok)) Hrm) as Hgone. rewrite bool_decide_eq_true_2 in Hgone by done.
  edestruct (destroy_runs w s sid sl se h o) as (R1 & R2 & R3); try done.
  - unfold get_object_by_handle, get_or_fetch, Monad.mbind, gets, ensure, ret. rewrite Ho, (fetch_now _ _ _ _ Hio F1), Hsee. done.
  - rewrite Hwr. apply orb_true_r.
  - unfold destroy_object, Monad.mbind, gets, ensure, modify, h_remove, modify. rewrite Ho, (fetch_now _ _ _ _ Hio F2), Hdo.
    unfold attempt, st_remove, Monad.mbind, h_get, gets, dbwrite, io, Monad.mbind, skip, ret. rewrite Hh, Hio. cbn [fst snd]. rewrite Hrm. reflexivity.
  - split; [done|]. split.
    + unfold Spec.id_at. rewrite R2. unfold object_id. cbn. rewrite Ho, lookup_delete. done.
    + unfold stored. rewrite R3. exact Hgone.
Qed.
(* The classes of objects the module knows. *)
Definition known_classes : list N := [CKO_DATA; CKO_CERTIFICATE; CKO_PUBLIC_KEY; CKO_PRIVATE_KEY; CKO_SECRET_KEY; CKO_OTP_KEY; CKO_TRUST; CKO_NSS_TRUST; CKO_PROFILE; CKO_MECHANISM; CKO_VALIDATION].
Lemma classes_listed : forallb (fun x => existsb (N.eqb (fst (fst x))) known_classes) all_factories = true.
Proof using. vm_compute. reflexivity. Qed.
Lemma factory_class fs k f : get_factory fs k = Ok f -> In k (map fst fs).
Proof using.
  induction fs as [|[k' f'] fs IH]; cbn; [done|]. destruct (bool_decide_reflect (k' = k)) as [->|]; [by left|]. intros H. right. auto.
Qed.
Lemma read_known t h o c : tok_ok t -> t_sobjs t !! h = None -> fetched P t h [] o -> class_of t h = Some c -> In c known_classes.
Proof using Hfs.
  intros Ht Hso (uid & o1 & f & o2 & F1 & F2 & F3 & F4 & ->) Hc. unfold class_of, num_of, attr_of in Hc. rewrite Hso, F1 in Hc.
  destruct (fetch_get _ _ _ _ F2) as (i & m & G1 & G2 & G3 & _). assert (rows_of (t_db t) uid = Some m) as Hm by (apply rows_of_some; [apply (tk_db _ Ht)|eauto]).
  rewrite Hm, <- (G3 CKA_CLASS eq_refl) in Hc. unfold get_object_factory, get_ulong in F3. rewrite Hfs in F3. unfold get_as in F3 at 1. destruct (get_attr o1 CKA_CLASS) as [a|]; [|done].
  destruct (attr_to_ulong a) as [c'|]; [|done]. cbn in Hc. injection Hc as ->. cbn [rbind] in F3.
  match type of F3 with rbind ?x _ = _ => destruct x as [ty|] end; [|done]. cbn [rbind] in F3. apply factory_class in F3.
  apply in_map_iff in F3 as ((k & f') & K1 & K2). cbn in K1. subst k. pose proof (proj1 (forallb_forall _ _) classes_listed _ K2) as K. cbn [fst] in K.
  apply existsb_exists in K as (c' & K3 & K4). apply N.eqb_eq in K4. by subst.
Qed.
(* The other way round: what is stored with a class the module does not know can neither be destroyed nor changed, in any
   state and by any caller. *)
Theorem C59_stuck w s sid t h c : from_scratch w -> slot_of w s = Some sid -> token_of w sid = Some t -> session_object_at B w sid h = false ->
  class_of t h = Some c -> ~ In c known_classes ->
  refused_call P B E w (DestroyObject s h) /\ forall tm cnt, refused_call P B E w (SetAttributeValue s h tm cnt).
Proof using All.
  intros Hs Hsl Htok Hso Hc Hno. apply (scratch_winv P B E Hfs Hutf) in Hs. pose proof (token_ok B _ _ _ Hs Htok) as Ht.
  assert (forall o, ~ seen P t h o) as Hun.
  { intros o [H|[H1 H2]]; [|by apply Hno, (read_known t h o c)]. unfold session_object_at, is_session_object in Hso. rewrite Htok, H in Hso. done. }
  split.
  - destruct (destroy_call P B E w s h Hs) as [[Hi [e Ha]]|(sid' & se & t1 & t0 & t' & o & r & C1 & C2 & C3 & C4 & C6 & C7 & C8 & C9 & C10)]; [by eapply idle_refused|].
    assert (sid' = sid) as -> by (unfold Spec.slot_of in Hsl; congruence). destruct C4 as [C4 _]. rewrite Htok in C4. injection C4 as <-. by apply Hun in C6.
  - intros tm cnt. destruct (set_call P B E w s h tm cnt Hs) as [[Hi [e Ha]]|(sid' & se & t1 & t0 & t' & l & o & r & C1 & C2 & C3 & C4 & C5 & C6 & C7 & C8 & C9 & C10)]; [by eapply idle_refused|].
    assert (sid' = sid) as -> by (unfold Spec.slot_of in Hsl; congruence). destruct C4 as [C4 _]. rewrite Htok in C4. injection C4 as <-. by apply Hun in C6.
Qed.
Lemma fetched_now t h l : is_ok (snd (st_fetch P h l t)) = true -> exists o, fetched P t h l o.
Proof using.
  assert (wp (st_fetch P h l) t (fun _ r => is_ok r = true -> exists o, fetched P t h l o)) as H by (apply wp_st_fetch; [eauto|done]). exact H.
Qed.
End destroy.

(* The cases: a session object and a stored object, which is private. *)
Definition data59 (stored : bool) : call := CreateObject 2 (Some [tulong CKA_CLASS CKO_DATA; tbool CKA_TOKEN stored; tbool CKA_PRIVATE true; ca CKA_VALUE [1; 2; 3]]) true.
Definition w59 (stored : bool) : State.world toy_be := fst (toy_run toy_user [data59 stored]).
Definition bools59 (w : State.world toy_be) : list (option bool) := map (Spec.bool_at toy_be w 0 10) [CKA_TOKEN; CKA_PRIVATE; CKA_DESTROYABLE].
Example C59_session_case : from_scratch toy toy_be toy_env (w59 false) /\ Spec.slot_of toy_be (w59 false) 2 = Some 0 /\ session_object_at toy_be (w59 false) 0 10 = true /\
  Spec.bool_at toy_be (w59 false) 0 10 CKA_DESTROYABLE = Some true /\ toy_rv (w59 false) (DestroyObject 2 10) = CKR_OK.
Proof. split; [apply toy_user_scratch|]. repeat (split; [vm_compute; reflexivity|]). vm_compute. reflexivity. Qed.
Definition state59 (w : State.world toy_be) :=
  option_map (fun t => (t_io t, is_ok (snd (st_fetch toy 10 [] t)))) (Spec.token_of toy_be w 0).
Example C59_stored_case : from_scratch toy toy_be toy_env (w59 true) /\ Spec.slot_of toy_be (w59 true) 2 = Some 0 /\
  option_map (is_writable toy_be) (Spec.session_of toy_be (w59 true) 2) = Some true /\ session_object_at toy_be (w59 true) 0 10 = false /\
  match Spec.id_at toy_be (w59 true) 0 10 with Some _ => true | None => false end = true /\ bools59 (w59 true) = [Some true; Some true; Some true] /\
  admitted toy_be (w59 true) 0 10 /\
  (exists t, Spec.token_of toy_be (w59 true) 0 = Some t /\ healthy t /\ readable toy t 10) /\
  toy_rv (w59 true) (DestroyObject 2 10) = CKR_OK.
Proof.
  split; [apply toy_user_scratch|]. do 5 (split; [vm_compute; reflexivity|]). split; [right; left; vm_compute; reflexivity|]. split; [|vm_compute; reflexivity].
  assert (state59 (w59 true) = Some ([], true)) as H by (vm_compute; reflexivity). unfold state59 in H. destruct (Spec.token_of toy_be (w59 true) 0) as [t|]; [|discriminate H].
  cbn [option_map] in H. injection H as H1 H4. exists t. split; [reflexivity|]. split; [exact H1|].
  exact (fetched_now toy t 10 [] H4).
Qed.

(* C59 is false without that hypothesis. C_SetAttributeValue accepts a class the object cannot have: then no object can be
   made of the record, which is still destroyable, and C_DestroyObject fails for it. So do the calls that would put the
   class back; the search still finds the object. *)
Definition class59 (c : N) : call := SetAttributeValue 2 10 (Some [tulong CKA_CLASS c]) 1.
Definition w59b : State.world toy_be := fst (toy_run toy_user [data59 true; class59 4660]).
Theorem C59_refuted :
  from_scratch toy toy_be toy_env w59b /\ toy_rv (w59 true) (class59 4660) = CKR_OK /\ Spec.slot_of toy_be w59b 2 = Some 0 /\
  option_map (is_writable toy_be) (Spec.session_of toy_be w59b 2) = Some true /\ session_object_at toy_be w59b 0 10 = false /\
  Spec.id_at toy_be w59b 0 10 = Spec.id_at toy_be (w59 true) 0 10 /\ bools59 w59b = [Some true; Some true; Some true] /\
  admitted toy_be w59b 0 10 /\ option_map t_io (Spec.token_of toy_be w59b 0) = Some [] /\
  option_map (fun t => class_of t 10) (Spec.token_of toy_be w59b 0) = Some (Some 4660) /\ existsb (N.eqb 4660) known_classes = false /\
  toy_rv w59b (DestroyObject 2 10) = CKR_ATTRIBUTE_VALUE_INVALID /\
  map fst (snd (toy_run w59b [class59 CKO_DATA; DestroyObject 2 10])) = [CKR_ATTRIBUTE_VALUE_INVALID; CKR_ATTRIBUTE_VALUE_INVALID].
Proof.
  split; [apply toy_user_scratch|]. do 6 (split; [vm_compute; reflexivity|]). split; [right; left; vm_compute; reflexivity|]. repeat (split; [vm_compute; reflexivity|]). vm_compute. reflexivity.
Qed.
