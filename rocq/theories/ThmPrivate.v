(* C09: private token objects are out of reach while nobody is logged in. *)
From Verif Require Import Base Monad Hoare Attr Obj Factory Tables Create Sqlite Storage Token Backend State Api Toy
  Rows ObjSpec ObjOk ObjNew Triple TokInv TokStep TokWp Spec PrivateSpec WorldWp Sessions SessionInv SessionFacts ObjWorld ObjView ObjFacts PlainFacts Errors ObjCalls AuthFacts SearchFacts ToyFacts ThmObjects ThmSearch.

(* ---- tokens ---- *)
Section token.
Context (P : params) (Hfs : p_fs P = all_factories) (Hutf : forall n, utf8_valid (p_uuid P n) = true).
Record closed (t : token) (h : N) : Prop := Closed {
  cl_logged : t_logged t = KRY_UNSPEC; cl_stored : t_sobjs t !! h = None; cl_private : bool_of t h CKA_PRIVATE <> Some false }.
Lemma closed_out t h : closed t h -> logged_in t = false.
Proof. intros H. unfold logged_in. by rewrite (cl_logged _ _ H). Qed.
Lemma closed_noise t t' h : noise t t' -> closed t h -> closed t' h.
Proof. intros (i & n & ->) [H1 H2 H3]. by split. Qed.
Lemma closed_private t h l o : tok_ok t -> closed t h -> fetched P t h l o -> selected (fetch_types l) CKA_PRIVATE = true -> is_private o = true.
Proof.
  intros Ht [_ H2 H3] Hf Hsel. pose proof (fetched_attr P Hfs t h l o CKA_PRIVATE KBool Ht Hf H2 Hsel eq_refl ltac:(done)) as Ha.
  unfold is_private, bool_attr. unfold bool_of in H3. rewrite <- Ha in H3. destruct (get_attr o CKA_PRIVATE) as [a|]; [|done].
  destruct (attr_to_bool a) as [[]|]; done.
Qed.
Lemma closed_token t h l o : tok_ok t -> closed t h -> fetched P t h l o -> selected (fetch_types l) CKA_TOKEN = true -> is_token o = true.
Proof.
  intros Ht [_ H2 _] Hf Hsel. pose proof (fetched_attr P Hfs t h l o CKA_TOKEN KBool Ht Hf H2 Hsel eq_refl ltac:(done)) as Ha.
  destruct Hf as (uid & o1 & f & o2 & F1 & F2 & _). destruct (fetch_get _ _ _ _ F2) as (i & m & G1 & G2 & _).
  pose proof (db_ok_rows _ (tk_db _ Ht) _ _ G1) as (_ & _ & V1 & _).
  unfold attr_of in Ha. rewrite H2, F1 in Ha. assert (rows_of (t_db t) uid = Some m) as Hr by (apply rows_of_some; [apply (tk_db _ Ht)|eauto]).
  rewrite Hr, V1 in Ha. unfold is_token, bool_attr. by rewrite Ha.
Qed.
Lemma wp_closed t h (Q : token -> result object -> Prop) : tok_ok t -> closed t h -> (forall t' e, noise t t' -> Q t' (Err e)) -> wp (get_object_by_handle P h) t Q.
Proof.
  intros Ht Hc H. apply wp_peek; [done| |done]. intros t' o Hn Hs Hm. exfalso. destruct Hs as [Hs|[_ Hs]]; [by rewrite (cl_stored _ _ Hc) in Hs|].
  pose proof (closed_private t h [] o Ht Hc Hs eq_refl). pose proof (closed_token t h [] o Ht Hc Hs eq_refl). rewrite (closed_out _ _ Hc) in Hm. intuition congruence.
Qed.
Lemma wp_closed_all t h l (Q : token -> result (list object) -> Prop) : tok_ok t -> closed t h -> In h l -> (forall t' e, noise t t' -> Q t' (Err e)) -> wp (get_objects P l) t Q.
Proof.
  revert t Q. induction l as [|x l IH]; intros t Q Ht Hc Hin H; [done|]. cbn [get_objects]. apply wp_bind. destruct (decide (x = h)) as [->|Hne].
  - by apply wp_closed with h || apply wp_closed.
  - apply wp_peek; [done| |done]. intros t' o Hn _ _. apply wp_bind, IH; [by eapply noise_ok|by eapply closed_noise|by destruct Hin|].
    intros t2 e Hn2. apply H. by etransitivity.
Qed.
Lemma wp_closed_attrs t h l (Q : token -> result (list qattr * N) -> Prop) : tok_ok t -> closed t h -> (forall t' e, noise t t' -> Q t' (Err e)) -> wp (get_object_attrs P h l) t Q.
Proof.
  intros Ht Hc H. unfold get_object_attrs, get_or_fetch. apply wp_bind, wp_gets. rewrite (closed_out _ _ Hc). cbv zeta. apply wp_bind, wp_bind, wp_gets. rewrite (cl_stored _ _ Hc).
  apply wp_st_fetch; [|intros; apply H, noise_io]. intros i o Hf. apply wp_bind, wp_ensure; [|intros; apply H, noise_io].
  assert (forall ty, In ty [CKA_TOKEN; CKA_PRIVATE] -> selected (fetch_types (map q_type l ++ [CKA_TOKEN; CKA_PRIVATE])) ty = true) as Hsel.
  { intros ty Hty. apply fetch_types_basic. right. apply in_app_iff. by right. }
  rewrite (closed_private _ _ _ _ Ht Hc Hf), (closed_token _ _ _ _ Ht Hc Hf) by (apply Hsel; cbn; auto). done.
Qed.
Lemma wp_closed_copy t sh h l (Q : token -> result N -> Prop) : tok_ok t -> closed t h -> (forall t' e, noise t t' -> Q t' (Err e)) -> wp (copy_object P sh h l) t Q.
Proof.
  intros Ht Hc H. unfold copy_object. apply wp_bind, wp_gets. rewrite (cl_stored _ _ Hc). apply wp_bind, wp_bind, wp_st_fetch; [|intros; apply H, noise_io].
  intros i o Hf. apply wp_bind, wp_gets, wp_bind, wp_ensure; [|intros; apply H, noise_io]. rewrite (closed_private _ _ _ _ Ht Hc Hf) by done.
  change (logged_in (set_io i t)) with (logged_in t). by rewrite (closed_out _ _ Hc).
Qed.

(* Searching. *)
Lemma row_private m ps tmpl : rows_ok m -> ck_params (tmpl ++ [ca CKA_PRIVATE [0]]) = Ok ps -> forallb (fun q => row_match (fst q) (snd q) m) ps = true ->
  exists a, row_attr m CKA_PRIVATE = Some a /\ a_val a = [0].
Proof.
  intros Hm Hps Hall. assert (exists p, In p ps /\ ck_to_sql (ca CKA_PRIVATE [0]) = Ok p) as (p & Hin & Hp).
  { clear Hall. revert ps Hps. induction tmpl as [|c tmpl IH]; intros ps; cbn [app ck_params].
    - destruct (ck_to_sql (ca CKA_PRIVATE [0])) as [p|]; cbn [rbind]; [|done]. intros [= <-]. exists p. split; [by left|done].
    - destruct (ck_to_sql c) as [p|]; cbn [rbind]; [|done]. destruct (ck_params (tmpl ++ _)) as [ps'|]; cbn [rbind]; [|done]. intros [= <-].
      destruct (IH _ eq_refl) as (q & Q1 & Q2). exists q. split; [by right|done]. }
  rewrite forallb_forall in Hall. specialize (Hall _ Hin). cbv beta in Hall.
  destruct (proj1 (entry_match m _ p Hm private_plain Hp) Hall) as (a & A1 & A2). exists a. split; [exact A1|exact A2].
Qed.
Lemma wp_open_search t tmpl (Q : token -> result (list N) -> Prop) : tok_ok t -> logged_in t = false ->
  (forall t' hs, tok_ok t' -> Forall (fun h => t_sobjs t' !! h <> None \/ bool_of t' h CKA_PRIVATE = Some false) hs -> Q t' (Ok hs)) -> (forall t' e, Q t' (Err e)) -> wp (search_objects P tmpl) t Q.
Proof.
  intros Ht Hl H1 H2. unfold search_objects. apply wp_bind, wp_gets, wp_bind, wp_gets. rewrite Hl. cbv zeta. apply wp_bind. unfold st_search.
  apply wp_bind, wp_dbread; [|intros; apply H2]. intros i. destruct (db_search (t_db t) _) as [os|e] eqn:Hd; [|apply H2].
  unfold db_search in Hd. destruct (ck_params _) as [ps|] eqn:Hps; cbn [rbind] in Hd; [|done]. destruct (negb (d_tables (t_db t))); [done|].
  apply wp_search_handles; [by apply (tok_same t); try done; apply (tk_db _ Ht)| |auto]. intros t' st Ht' Hg Hf. apply wp_ret, H1; [done|].
  destruct Hg as (hs & -> & Hg). apply List.Forall_app. split.
  - apply List.Forall_forall. intros h Hin. left. unfold search_session_objects in Hin. apply in_map_iff in Hin as ([h' o] & <- & Hin).
    apply in_filter in Hin as [X1 _]. apply elem_of_list_In, elem_of_map_to_list in X1. cbn. congruence.
  - apply List.Forall_forall. intros h Hin. apply rows_objects in Hd. pose proof (zip_keep P _ _ _ _ _ Hd Hf) as Hz. destruct (forall2_right _ _ _ _ Hz Hin) as ([j m] & Hpk & o & Ho & u & U1 & U2).
    apply in_filter in Hpk as [Hpk _]. apply in_filter in Hpk as [X1 X2]. apply elem_of_list_In, elem_of_map_to_list in X1. cbn [fst snd] in *.
    destruct (t_sobjs t !! h) as [o'|] eqn:Hs; [left; cbn; congruence|]. right. pose proof (db_ok_rows _ (tk_db _ Ht) _ _ X1) as Hm.
    destruct (row_private m ps tmpl Hm Hps X2) as (a & A1 & A2). destruct (proj1 Hm) as [u' Hu']. pose proof (row_uid m o u' Hm Ho Hu') as Hg'. assert (u' = u) as -> by congruence.
    unfold bool_of, attr_of. cbn [t_sobjs set_handles set_io t_handles t_db]. rewrite Hs. cbn in U2. rewrite U2.
    assert (rows_of (t_db t) u = Some m) as -> by (apply rows_of_some; [apply (tk_db _ Ht)|eauto]). rewrite A1.
    assert (a_kind a = KBool) as Hk. { unfold row_attr in A1. destruct (m !! CKA_PRIVATE) as [v|]; [|done]. destruct (from_sql CKA_PRIVATE v) as [a'|] eqn:Hv; [|done]. injection A1 as <-. apply from_sql_kind in Hv. by injection Hv. }
    unfold attr_to_bool. rewrite Hk, A2. done.
Qed.
End token.

(* ---- calls ---- *)
Section calls.
Context (P : params) (B : backend) (E : N -> keyenv).
Context (Hfs : p_fs P = all_factories) (Hutf : forall n, utf8_valid (p_uuid P n) = true).
Notation world := (world B). Notation from_scratch := (from_scratch P B E). Notation after := (after P B E). Notation rv := (rv P B E).
Notation answer := (answer P B E). Notation slot_of := (slot_of B). Notation token_of := (token_of B). Notation run := (run P B E).
Notation winv := (winv B). Notation locked_away := (locked_away B).

Lemma locked_closed w sid h t : token_of w sid = Some t -> locked_away w sid h -> closed t h /\ object_id t h <> None.
Proof.
  intros Ht (H1 & H2 & H3 & H4). unfold logged, id_at, session_object_at, bool_at in *. rewrite Ht in *. cbn in H1. injection H1 as H1. split; [|done].
  split; [done| |done]. unfold is_session_object in H3. by destruct (t_sobjs t !! h).
Qed.
(* The call was refused: objects and sessions are as before. *)
Definition refused (w w' : world) : Prop := idle B w w' /\ forall s, session_of B w' s = session_of B w s.
Lemma refused_refl w : refused w w.
Proof. split; [apply idle_refl|done]. Qed.
Lemma refused_slot w sid sl t : w_slots w !! sid = Some sl -> noise (sl_token sl) t -> refused w (with_slot B sid (put_token B t sl) w).
Proof.
  intros Hs Hn. split; [by apply idle_slot|]. intros s. unfold session_of. cbn [with_slot set_slots w_smap w_slots].
  destruct (w_smap w !! s) as [i|]; [|done]. destruct (decide (i = sid)) as [->|Hne]; [rewrite lookup_insert, Hs; done|by rewrite lookup_insert_ne].
Qed.
Definition no_way (w w' : world) (r : result (N * out)) : Prop := refused w w' /\ exists e, r = Err e.
Lemma refused_call w c s sid h : winv w -> locked_away w sid h -> session_of_call c = Some s -> slot_of w s = Some sid -> In h (takes B c) ->
  no_way w (after w c) (answer w c).
Proof.
  intros Hw Hl Hsc Hsl Hin. destruct (si_smap _ _ (wi_inv _ _ Hw) _ _ Hsl) as (sl & se & A2 & A3).
  assert (token_of w sid = Some (sl_token sl)) as Htk by (unfold Spec.token_of; by rewrite A2). destruct (locked_closed _ _ _ _ Htk Hl) as [Hc _].
  assert (session_of B w s = Some se) as S1 by (unfold session_of; unfold Spec.slot_of in Hsl; by rewrite Hsl, A2).
  assert (s_slot se = sid) as Hss by apply (so_sessions _ _ _ _ _ (si_slots _ _ (wi_inv _ _ Hw) _ _ A2) _ _ A3).
  pose proof (wo_slots _ _ (wi_ok _ _ Hw) _ _ A2) as Ht.
  assert (w_next w <> 0) as A5. { intros Hz. rewrite (si_off _ _ (wi_inv _ _ Hw) Hz), lookup_empty in A2. done. }
  assert (get_session B s w = (w, Ok se)) as Hgs by (by apply get_session_eq with sid sl).
  assert (forall e, no_way w w (Err e)) as N1 by (intros e; split; [apply refused_refl|eauto]).
  assert (forall t' e, noise (sl_token sl) t' -> no_way w (with_slot B sid (put_token B t' sl) w) (Err e)) as N2.
  { intros t' e Hn. split; [by apply refused_slot|eauto]. }
  apply (call_wp P B E c w (no_way w)).
  destruct c; cbn [session_of_call takes] in Hsc, Hin; try discriminate Hsc; try contradiction; try (injection Hsc as ->); cbn [api].
  all: cbv delta [c_set_operation_state c_copy_object c_destroy_object c_get_attribute_value c_set_attribute_value op_init c_digest_key c_wrap_key c_unwrap_key c_derive_key c_encapsulate_key c_decapsulate_key cur_op mech_flags] beta.
  all: try (destruct k; try discriminate Hsc; injection Hsc as ->).
  all: try (destruct m as [[mt param]|]; [|solve [by repeat (wp_step; try apply N1)]]).
  all: repeat lazymatch goal with
    | |- no_way _ _ (Err _) => solve [apply N1|by apply N2]
    | |- wp (get_session _ _) _ _ => apply (wp_eq _ _ _ _ _ Hgs); rewrite ?Hss; cbv beta iota
    | |- wp (tmpl_of _ _ _) _ _ => apply wp_tmpl_of; [|apply N1]
    | |- wp (ro_check _ _ _) _ _ => apply wp_ro_check; [intros _|apply N1]
    | |- wp (token_of_session _ _) _ _ => apply wp_token_of_session; [intros sid' sl' ? Hm' Hs' ?; assert (sid' = sid) as -> by (unfold Spec.slot_of in Hsl; congruence);
         assert (sl' = sl) as -> by congruence|intros; apply N1]
    | |- wp (get_object_by_handle _ _) _ _ => fail
    | |- wp (copy_object _ _ _ _) _ _ => fail
    | |- wp (get_object_attrs _ _ _) _ _ => fail
    | _ => wp_step
    end.
  all: try (match type of Hin with In ?x [?k] => assert (k = x) as -> by (by destruct Hin as [->|[]]); first [by apply (wp_closed P Hfs _ x) | by apply (wp_closed_copy P Hfs) | by apply (wp_closed_attrs P Hfs)] end).
  - (* C_SetOperationState *) contradiction.
  - (* C_WrapKey *) destruct (decide (key = h)) as [->|Hne]; [by apply (wp_closed P Hfs _ h)|]. assert (wkey = h) as -> by (destruct Hin as [->|[->|[]]]; done).
    apply wp_peek; [done| |by auto]. intros t1 o1 Hn _ _. cbv beta iota. wp_step. wp_step. change (sl_token (put_token B t1 sl)) with t1.
    apply (wp_closed P Hfs _ h); [by eapply noise_ok|by eapply closed_noise|]. intros t2 e Hn2. cbv beta iota. rewrite with_slot_twice. apply (N2 t2). by etransitivity.
  - (* C_DeriveKey *) destruct (decide (base = h)) as [->|Hne]; [by apply (wp_closed P Hfs _ h)|].
    apply wp_peek; [done| |by auto]. intros t1 o1 Hn _ _. cbv beta iota.
    repeat lazymatch goal with
    | |- no_way _ _ (Err _) => solve [apply N1|by apply N2]
    | |- wp (get_objects _ _) _ _ => fail
    | _ => wp_step
    end.
    all: change (sl_token (put_token B t1 sl)) with t1; match goal with Hm : Some (_, _) = Some (_, _) |- _ => injection Hm as <- <- end;
    apply (wp_closed_all P Hfs _ h); [by eapply noise_ok|by eapply closed_noise|by destruct Hin|]; intros t2 e Hn2; cbv beta iota; rewrite with_slot_twice; apply (N2 t2); by etransitivity.
Qed.

(* Without a login the steps of a token do not reach its stored objects. *)
Definition aside (k : kind) : Prop :=
  match k with KQuiet LCalm | KHandle | KNew _ _ | KSadd _ _ | KSupd _ _ | KUpd _ _ => True | _ => False end.
Lemma aside_view t t' h u : tok_ok t -> tsteps P aside t t' -> logged_in t = false -> t_sobjs t !! h = None -> hm t !! h = Some u -> same_view h t t'.
Proof.
  intros Ht Hs. revert Ht. induction Hs as [|t t1 t' (k & Hk & H1) _ IH]; intros Ht Hl Hso Hh; [reflexivity|].
  assert (same_view h t t1) as Hv.
  { eapply (tstep_view P Hfs); [done|exact H1|exact Hh|]. destruct H1; cbn [touches aside] in *; try done.
    all: apply N.eqb_neq; intros ->; congruence. }
  assert (logged_in t1 = false) as Hl1.
  { destruct H1; cbn [aside] in Hk; try contradiction; try (exact Hl). destruct b; try contradiction. destruct (H4 eq_refl) as (_ & _ & _ & L & _). unfold logged_in. by rewrite L. }
  etransitivity; [exact Hv|]. destruct Hv as [V1 V2 _]. apply IH; [by eapply (tstep_ok P Hfs)|done|congruence|congruence].
Qed.
Lemma aside_create env s l t : tok_ok t -> logged_in t = false -> tsteps P aside t (fst (create_object P env s l t)).
Proof.
  intros Ht Hl. assert (wp (create_object P env s l) t (fun t' _ => tsteps P aside t t')) as Hw.
  { unfold create_object. destruct (hs_new_uid P Hfs Hutf aside I t Ht) as (H1 & H2 & H3). apply wp_bind. unfold wp at 1. destruct (new_uid P t) as [t1 [uid|e]] eqn:Hn; [|done]. cbn [fst snd] in *.
    assert (logged_in t1 = false) as Hl1. { unfold new_uid, draw, mbind, ret in Hn. cbn in Hn. injection Hn as <- _. done. }
    apply wp_bind, wp_lift. destruct (factories_create env uid (p_fs P) l) as [o|] eqn:Ho; [|done]. rewrite Hfs in Ho. assert (new_ok o) as Hok by (eapply made_new, factories_create_ok; [exact H3|exact Ho]).
    destruct (is_token o).
    - apply wp_bind, wp_bind, wp_gets, wp_bind, wp_ensure; [|done]. rewrite Hl1. done.
    - apply wp_bind, wp_ret. destruct (hs_insert_odd P Hfs aside I I s o (fun _ => I) I Hok t1 H1) as (I1 & I2 & _). unfold wp. destruct (insert_object P s o t1). cbn [fst] in I2. by etransitivity. }
  unfold wp in Hw. by destruct (create_object P env s l t).
Qed.
Lemma logged_out_same w c sid h u : winv w -> ObjFacts.own_ok B w -> locked_away w sid h -> id_at B w sid h = Some u -> keeps_token sid c = true ->
  same_object B w (after w c) sid h.
Proof.
  intros Hw Ho Hl Hu Hk. assert (exists t, token_of w sid = Some t) as [t Ht] by (unfold id_at in Hu; destruct (token_of w sid); [eauto|done]).
  pose proof (token_ok _ _ _ _ Hw Ht) as Hok. destruct (locked_closed _ _ _ _ Ht Hl) as [[Hlog Hst Hpr] _]. pose proof (closed_out _ _ (Closed _ _ Hlog Hst Hpr)) as Hlo.
  assert (hm t !! h = Some u) as Hh. { apply id_named; [done|]. unfold id_at in Hu. by rewrite Ht in Hu. }
  assert (owner_at B w sid h = None) as Hown. { rewrite (owner_at_token _ _ _ _ _ Ht). unfold owner. by rewrite Hst. }
  assert (live_call c = true -> (forall k, call_kind (op_stores B) (given B w c) c k -> aside k) -> same_object B w (after w c) sid h) as Hgo.
  { intros Hc HK. pose proof (token_steps P B E Hfs Hutf w c sid Hw Hc) as Hst'. rewrite Ht in Hst'. destruct (token_of (after w c) sid) as [t'|] eqn:Ht'; [|done].
    destruct Hst' as [->|[Hac Hs']]; [apply same_object_eq; congruence|]. apply (token_same_object _ _ _ _ _ t t' Ht Ht'). eapply aside_view; [done| |done|done|exact Hh].
    eapply tsteps_mono; [|exact Hs']. done. }
  assert (forall s, session_of_call c = Some s -> slot_of w s = Some sid -> In h (takes B c) -> same_object B w (after w c) sid h) as Href.
  { intros s Hs Hsl Hin. destruct (refused_call w c s sid h Hw Hl Hs Hsl Hin) as [[Hi _] _]. by apply idle_same. }
  destruct c; try discriminate Hk; try (eapply (unaffected P B E Hfs Hutf); [done|done|exact Hu|cbn [about]; rewrite ?Hown; solve [intros []|intros (_ & X & _); done|intros (_ & X); done|done]]).
  all: try (apply Hgo; [done|]; intros k Hkk; destruct k; cbn [call_kind] in Hkk; try contradiction; cbn [aside]; try done; by destruct lvl).
  - (* C_InitToken of another slot *) eapply (unaffected P B E Hfs Hutf); [done|done|exact Hu|]. cbn [about keeps_token] in *. lia.
  - (* C_CreateObject *) destruct (create_call P B E w h0 tmpl ph Hw) as [[Hi _]|(i & se & t1 & t0 & t' & l & env & r & R1 & R2 & R3 & R4 & R5 & R6 & R7 & R8)]; [by apply idle_same|].
    destruct R3 as (R31 & R32 & R33). destruct (decide (i = sid)) as [->|Hne]; [|apply same_object_eq; by apply R33].
    assert (t1 = t) as -> by congruence. apply (token_same_object _ _ _ _ _ t t' Ht R32). transitivity t0; [by apply noise_view|].
    pose proof (noise_view t t0 h R4) as Hv. destruct Hv as [V1 V2 V3].
    assert (logged_in t0 = false) as Hlo0 by (destruct R4 as (? & ? & ->); exact Hlo). assert (tok_ok t0) as Hok0 by (by eapply noise_ok).
    pose proof (aside_create (E env) h0 l t0 Hok0 Hlo0) as X. rewrite R7 in X. eapply aside_view; [done|exact X|done|congruence|by rewrite V2].
  - (* C_DestroyObject *) destruct (decide (slot_of w h0 = Some sid /\ o = h)) as [[H1 ->]|Hn]; [apply (Href h0); [done|done|by left]|].
    eapply (unaffected P B E Hfs Hutf); [done|done|exact Hu|]. exact Hn.
Qed.

(* C09.  While nobody is logged in on a slot, a call of one of its sessions that reads, changes, copies, destroys or uses
   as a key a private token object returns no data and no new handle, leaves every object and every session as it was,
   and does not succeed. *)
Theorem C09_refused_partial w c s sid h : from_scratch w -> locked_away w sid h -> session_of_call c = Some s -> slot_of w s = Some sid -> In h (takes B c) ->
  out_of P B E w c = ONone /\ (forall sid' h', same_object B w (after w c) sid' h') /\ (forall s', session_of B (after w c) s' = session_of B w s') /\
  (sane (fun e => e <> CKR_OK) P B E -> rv w c <> CKR_OK).
Proof.
  intros Hs Hl Hsc Hsl Hin. apply (scratch_winv P B E Hfs Hutf) in Hs. destruct (refused_call w c s sid h Hs Hl Hsc Hsl Hin) as [[H1 H2] [e He]]. split_and!.
  - unfold out_of, step. unfold ObjCalls.answer in He. destruct (api P B E c w) as [w' r]. cbn in He. by subst r.
  - intros. by apply idle_same.
  - done.
  - intros HS Hrv. destruct (answer_sane P B E w c HS Hrv) as [o Ho]. congruence.
Qed.
(* No call at all changes or destroys it, but for the reset of the token and the end of the module. *)
Theorem C09_untouched w c sid h : from_scratch w -> locked_away w sid h -> keeps_token sid c = true -> same_object B w (after w c) sid h.
Proof.
  intros Hs Hl Hk. destruct (id_at B w sid h) as [u|] eqn:Hu; [|by destruct Hl as (_ & ? & _)].
  eapply logged_out_same; [by apply (scratch_winv P B E)|by apply (scratch_own P B E)|done|exact Hu|done].
Qed.
(* A search started while nobody is logged in never delivers a private token object, however the application divides its
   C_FindObjects calls. *)
Theorem C09_search w s tm cnt sid : from_scratch w -> sane (fun e => e <> CKR_OK) P B E -> slot_of w s = Some sid -> logged B w sid = Some KRY_UNSPEC ->
  let c := FindObjectsInit s tm cnt in rv w c = CKR_OK ->
  forall maxes h, In h (delivered (snd (run (after w c) (finding s maxes)))) -> ~ locked_away (after w c) sid h.
Proof.
  intros Hw HS Hsl Hlog c Hrv maxes h Hin Hl. apply (scratch_winv P B E Hfs Hutf) in Hw. destruct (answer_sane P B E w c HS Hrv) as [o Ho].
  assert (exists hs, searching B (after w c) s hs /\ Forall (fun h => ~ locked_away (after w c) sid h) hs) as (hs & S1 & S2).
  { set (QQ := fun (w' : world) (r : result (N * out)) => match r with Ok _ => exists hs, searching B w' s hs /\ Forall (fun h => ~ locked_away w' sid h) hs | Err _ => True end).
    cut (QQ (after w c) (answer w c)); [unfold QQ; by rewrite Ho|]. clear Ho Hrv Hin Hl.
    apply (call_wp P B E c w QQ). unfold QQ. cbn [api c]. unfold c_find_objects_init. wp_step. wp_step; [|done]. wp_step. wp_step; [|done].
    match goal with H : w_smap w !! s = Some ?i |- _ => assert (i = sid) as -> by (unfold Spec.slot_of in Hsl; congruence); rename H into Hm end.
    match goal with H : w_slots w !! sid = Some _ |- _ => rename H into Hsl' end. match goal with H : sl_sessions _ !! s = Some ?x |- _ => rename H into Hse; rename x into se end.
    assert (s_slot se = sid) as Hss. { apply (so_sessions _ _ _ _ _ (si_slots _ _ (wi_inv _ _ Hw) _ _ Hsl') _ _ Hse). }
    rewrite Hss. wp_step. wp_step; [|done]. wp_step. apply wp_tmpl_of; [|done]. wp_step. wp_step; [|done]. wp_step. wp_step.
    assert (tok_ok (sl_token sl)) as Ht by apply (wo_slots _ _ (wi_ok _ _ Hw) _ _ Hsl').
    assert (logged_in (sl_token sl) = false) as Hlo. { unfold logged, Spec.token_of in Hlog. rewrite Hsl' in Hlog. cbn in Hlog. unfold logged_in. injection Hlog as ->. done. }
    apply (wp_open_search P); [done|done| |done]. intros t' hs Ht' Hf. cbv beta iota. wp_step. wp_step; [|done]. try wp_step.
    change (w_smap (with_slot B sid (put_token B t' sl) w)) with (w_smap w) in *. assert (sid0 = sid) as -> by congruence. rewrite with_slot_lookup in *.
    match goal with H : Some (put_token _ _ _) = Some _ |- _ => injection H as <- end. exists hs. split.
    - exists (set_operation B KSearch (OpSearch hs) false se). split_and!; [|done|by cbn; rewrite lookup_insert].
      unfold session_of. cbn [w_smap with_slot set_slots]. rewrite Hm, with_slot_lookup. cbn [put_sessions put_token sl_sessions]. by rewrite lookup_alter, Hse.
    - eapply List.Forall_impl; [|exact Hf]. intros h' Hh' (_ & _ & L3 & L4). unfold session_object_at, bool_at, Spec.token_of in L3, L4. rewrite with_slot_lookup in L3, L4.
      cbn in L3, L4. unfold is_session_object in L3. destruct Hh' as [X|X]; [by destruct (t_sobjs t' !! h')|done]. }
  destruct (find_many P B E Hfs Hutf (after w c) s hs maxes (after_winv P B E Hfs Hutf w c Hw) S1) as [_ F]. rewrite F in Hin.
  apply List.Forall_forall with (x := h) in S2; [done|]. rewrite <- (firstn_skipn (N.to_nat (sum maxes)) hs). apply in_or_app. by left.
Qed.
End calls.

(* A private key stored by the user, who then logs out. *)
Definition hidden_key : list call := [CreateObject 2 (Some (aes_tmpl true ++ [tbool CKA_SIGN true])) true; Logout 2].
Definition w9 : world toy_be := fst (toy_run toy_user hidden_key).
Lemma w9_locked : locked_away toy_be w9 0 10.
Proof.
  unfold locked_away. split_and!; [vm_compute; reflexivity| |vm_compute; reflexivity|].
  - assert (id_at toy_be w9 0 10 = Some uid1) as -> by (vm_compute; reflexivity). done.
  - assert (bool_at toy_be w9 0 10 CKA_PRIVATE = Some true) as -> by (vm_compute; reflexivity). done.
Qed.
Example C09_case : from_scratch toy toy_be toy_env w9 /\ locked_away toy_be w9 0 10 /\ slot_of toy_be w9 2 = Some 0 /\ In 10 (takes toy_be (DestroyObject 2 10)) /\
  toy_rv w9 (DestroyObject 2 10) = CKR_GENERAL_ERROR /\ toy_rv w9 (OpInit KSign 2 (Some (CKM_SHA256_HMAC, None)) 10 None) = CKR_GENERAL_ERROR /\
  toy_rv w9 (GetAttributeValue 2 10 (Some [QAttr CKA_KEY_TYPE (Some (repeat 0 8)) 8]) 1) = CKR_OBJECT_HANDLE_INVALID /\
  toy_rv w9 (CreateObject 2 (Some (aes_tmpl true)) true) = CKR_USER_NOT_LOGGED_IN.
Proof. split; [apply toy_user_scratch|]. split; [exact w9_locked|]. split; [vm_compute; reflexivity|]. split; [by left|]. split_and!; vm_compute; reflexivity. Qed.
Example C09_search_case : toy_rv w9 (FindObjectsInit 2 (Some []) 0) = CKR_OK /\ found w9 [] = [1; 3; 7; 5; 9; 2; 4; 8; 6] (* the public builtin objects, and not 10 *).
Proof. split; vm_compute; reflexivity. Qed.
(* C_GetObjectSize answers for a private object that has no secret part. *)
Definition hidden_data : list call :=
  [CreateObject 2 (Some [tulong CKA_CLASS CKO_DATA; tbool CKA_TOKEN true; tbool CKA_PRIVATE true; ca CKA_VALUE [1; 2; 3]]) true; Logout 2].
Theorem C09_size_refuted : exists w h n, from_scratch toy toy_be toy_env w /\ locked_away toy_be w 0 h /\ toy_rv w (GetObjectSize 2 h true) = CKR_OK /\ toy_out w (GetObjectSize 2 h true) = OLen n.
Proof.
   exists (fst (toy_run toy_user hidden_data)), 10, 393. split; [apply toy_user_scratch|]. split; [|split; [vm_compute; reflexivity|vm_compute; reflexivity]]. unfold locked_away. split_and!; [vm_compute; reflexivity| |vm_compute; reflexivity|].
  - assert (id_at toy_be (fst (toy_run toy_user hidden_data)) 0 10 = Some uid1) as -> by (vm_compute; reflexivity). done.
  - assert (bool_at toy_be (fst (toy_run toy_user hidden_data)) 0 10 CKA_PRIVATE = Some true) as -> by (vm_compute; reflexivity). done.
Qed.
(* An operation started before C_Logout still uses the private key after it. *)
Definition late_sign : list call := [CreateObject 2 (Some (aes_tmpl true ++ [tbool CKA_SIGN true])) true; OpInit KSign 2 (Some (CKM_SHA256_HMAC, None)) 10 None; Logout 2].
Theorem C09_operation_refuted : exists w d, from_scratch toy toy_be toy_env w /\ locked_away toy_be w 0 10 /\ toy_rv w (Sign 2 (Some [1]) true (Some 10)) = CKR_OK /\
  toy_out w (Sign 2 (Some [1]) true (Some 10)) = OBuf d 4 /\ d <> [].
Proof.
  exists (fst (toy_run toy_user late_sign)), [129; 92; 37; 218]. split; [apply toy_user_scratch|]. split; [|split; [vm_compute; reflexivity|split; [vm_compute; reflexivity|done]]].
  unfold locked_away. split_and!; [vm_compute; reflexivity| |vm_compute; reflexivity|].
  - assert (id_at toy_be (fst (toy_run toy_user late_sign)) 0 10 = Some uid1) as -> by (vm_compute; reflexivity). done.
  - assert (bool_at toy_be (fst (toy_run toy_user late_sign)) 0 10 CKA_PRIVATE = Some true) as -> by (vm_compute; reflexivity). done.
Qed.
(* A search started before C_Logout still delivers the private key after it. *)
Definition late_search : list call := [CreateObject 2 (Some (aes_tmpl true)) true; FindObjectsInit 2 (Some []) 0; Logout 2].
Theorem C09_search_refuted : exists w, from_scratch toy toy_be toy_env w /\ locked_away toy_be w 0 10 /\ In 10 (delivered (snd (toy_run w (finding 2 [100])))).
Proof.
  exists (fst (toy_run toy_user late_search)). split; [apply toy_user_scratch|]. split.
  - unfold locked_away. split_and!; [vm_compute; reflexivity| |vm_compute; reflexivity|].
    + assert (id_at toy_be (fst (toy_run toy_user late_search)) 0 10 = Some uid1) as -> by (vm_compute; reflexivity). done.
    + assert (bool_at toy_be (fst (toy_run toy_user late_search)) 0 10 CKA_PRIVATE = Some true) as -> by (vm_compute; reflexivity). done.
  - assert (delivered (snd (toy_run (fst (toy_run toy_user late_search)) (finding 2 [100]))) = [1; 3; 7; 5; 9; 2; 4; 8; 6; 10]) as -> by (vm_compute; reflexivity). cbn. tauto.
Qed.
