(* Inserting objects and destroying them again: what is left. *)
From Verif Require Import Base Monad Hoare Attr Obj Factory Tables Create Sqlite Storage Token
  ObjSpec Rows ObjOk ObjNew Triple TokInv TokStep TokenFrame TokWp TokAuth ObjView ObjAttrs NewView AttrFacts ThmAttrs.

(* Database calls that work. *)
Definition calm (l : list (option ioerr)) : Prop := Forall (fun x => x = None) l.
Lemma io_calm t : calm (t_io t) -> exists i, calm i /\ io t = (set_io i t, Ok tt).
Proof.
  unfold io. destruct (t_io t) as [|x r] eqn:Hi; intros H.
  - exists []. split; [constructor|]. rewrite <- Hi. by rewrite set_io_id.
  - apply List.Forall_cons_iff in H as [-> H]. by exists r.
Qed.
Lemma fetch_part d uid attrs m ty v : db_ok d -> d_tables d = true -> rows_of d uid = Some m -> all_u32 attrs = Ok tt ->
  m !! ty = Some v -> selected attrs ty = true -> exists o, fetch_by_uid d uid attrs = Ok o.
Proof.
  intros Hd Ht Hm Hu Hv Hs. apply rows_of_some in Hm as (i & H1 & H2); [|apply Hd].
  destruct (db_ok_rows _ Hd _ _ H1) as (_ & Hok & _). unfold fetch_by_uid. rewrite Ht, Hu. cbn [negb rbind]. cbv zeta.
  rewrite (ids_found d uid i m) by (try done; apply Hd). cbn [map snd].
  assert ((match attrs with [] => map_to_list m | _ => List.filter (fun p => existsb (N.eqb (fst p)) attrs) (map_to_list m) end)
    = List.filter (fun p => selected attrs (fst p)) (map_to_list m)) as He.
  { unfold selected. destruct attrs; [|done]. by rewrite filter_true. }
  rewrite He. set (g := List.filter _ (map_to_list m)).
  assert (In (ty, v) g) as Hin. { apply in_filter. split; [|exact Hs]. by apply elem_of_list_In, elem_of_map_to_list. }
  cbn [List.filter]. destruct g as [|p l] eqn:Hg; [done|]. rewrite rows_to_objects_one. unfold rows_to_object. rewrite <- Hg.
  destruct (add_rows_ok g (obj_new CK_UNAVAILABLE_INFORMATION)) as [o Ho].
  - intros t x Hx. apply in_filter in Hx as [Hx _]. apply Hok. by apply elem_of_map_to_list, elem_of_list_In.
  - rewrite Ho. cbn [rbind]. eauto.
Qed.

Section roll.
Context (P : params) (Hfs : p_fs P = all_factories).

(* ---- the outcomes of database calls and an insertion ---- *)
Lemma enc_io uid l o t i : encrypt_attrs P uid l o (set_io i t) = (set_io i (fst (encrypt_attrs P uid l o t)), snd (encrypt_attrs P uid l o t)).
Proof.
  revert o t. induction l as [|ty l IH]; intros o t; cbn [encrypt_attrs]; [done|]. destruct (get_attr o ty) as [a|]; [|apply IH].
  unfold encrypt_value. cbv [mbind gets]. cbn [t_key set_io]. destruct (t_key t) as [k|]; [|done].
  cbv [draw lift]. cbn [t_ver t_fresh set_io].
  destruct (p_seal P _ _ _ _ _) as [e|]; [|done]. destruct (set_attr o _) as [o1|]; [|done].
  change (set_fresh (t_fresh t + 1) (set_io i t)) with (set_io i (set_fresh (t_fresh t + 1) t)). apply IH.
Qed.
Lemma insert_io sh o t i t1 r1 : insert_object P sh o (set_io [] t) = (t1, r1) ->
  insert_object P sh o (set_io i t) = (set_io i t1, r1) \/ (exists r, i = None :: r /\ insert_object P sh o (set_io i t) = (set_io r t1, r1)) \/
  (exists e r t2, i = Some e :: r /\ insert_object P sh o (set_io i t) = (t2, Err (ioerr_rv e)) /\ t_io t2 = r).
Proof.
  unfold insert_object. destruct (is_token o).
  2: { intros H. left. revert H. rewrite !run_bind. cbv [h_fresh]. cbn [t_handles set_io fst snd]. rewrite !run_bind. cbv [lift].
    destruct (get_string _ _) as [uid|]; [|by intros [= <- <-]]. rewrite !run_bind. cbv [h_insert]. cbv zeta. cbn [t_handles set_handles set_io].
    match goal with |- context [if ?b then _ else _] => destruct b end; [by intros [= <- <-]|]. rewrite !run_bind. cbv [modify ret]. by intros [= <- <-]. }
  rewrite !run_bind. cbv [gets]. change (logged_in (set_io i t)) with (logged_in t). change (logged_in (set_io [] t)) with (logged_in t).
  rewrite !run_bind. cbv [ensure ret fail]. destruct (logged_in t); [|intros [= <- <-]; by left].
  unfold st_store. rewrite !run_bind. cbv [lift]. destruct (get_object_factory _ _) as [f|]; [|intros [= <- <-]; by left].
  rewrite !run_bind. destruct (get_string _ _) as [uid|]; [|intros [= <- <-]; by left].
  rewrite !run_bind, !enc_io. destruct (encrypt_attrs P uid (f_sensitive f) o t) as [t2 [o1|]]; cbn [fst snd]; [|intros [= <- <-]; by left].
  cbv zeta. rewrite !run_bind.
  set (m := if _ =? _ then _ else _).
  assert (forall i, m (set_io i t2) = (set_io i (fst (m t2)), snd (m t2))) as Hm.
  { intros j. unfold m. destruct (_ =? _); [|done]. rewrite !run_bind. cbv [h_fresh]. cbn [t_handles set_io fst snd]. rewrite !run_bind. cbv [h_insert]. cbv zeta. cbn [t_handles set_handles set_io].
    match goal with |- context [if ?b then _ else _] => destruct b end; done. }
  rewrite !Hm. destruct (m t2) as [t3 [h|]]; cbn [fst snd]; [|intros [= <- <-]; by left]. clear m Hm.
  rewrite !run_bind. unfold dbwrite. rewrite !run_bind. unfold io. cbn [t_io set_io]. cbn [t_db set_io].
  destruct i as [|[e|] r].
  - cbn [t_io set_io]. cbn [t_db set_io]. intros H. left. rewrite H. destruct (store_obj_stmts _ _); by injection H as <- <-.
  - intros _. right. right. exists e, r. cbn [t_io set_io]. eexists. split_and!; [done|reflexivity|done].
  - cbn [t_io set_io]. cbn [t_db set_io]. intros H. right. left. exists r. split; [done|]. change (t_db (set_io r (set_io (None :: r) t3))) with (t_db t3).
    destruct (store_obj_stmts _ _); by injection H as <- <-.
Qed.
Lemma insert_calm sh o t : calm (t_io t) -> calm (t_io (fst (insert_object P sh o t))).
Proof.
  intros H. destruct (insert_object P sh o (set_io [] t)) as [t1 r1] eqn:Hi.
  destruct (insert_io _ _ t (t_io t) _ _ Hi) as [X|[(r & X1 & X)|(e & r & t2 & X1 & _)]]; try (rewrite set_io_id in X; rewrite X; cbn [fst t_io set_io]).
  - done.
  - rewrite X1 in H. by apply List.Forall_cons_iff in H as [_ H].
  - rewrite X1 in H. by apply List.Forall_cons_iff in H as [[=] _].
Qed.

(* ---- what an insertion adds ---- *)
Definition added (t t' : token) (h : N) : Prop :=
  (is_Some (t_sobjs t' !! h) /\ (forall h', h' <> h -> t_sobjs t' !! h' = t_sobjs t !! h') /\ t_db t' = t_db t) \/
  (t_sobjs t' = t_sobjs t /\ t_sobjs t !! h = None /\ d_tables (t_db t') = true /\ exists uid id, h_map (t_handles t') !! h = Some uid /\
     (exists m, d_objs (t_db t') !! id = Some m /\ m !! CKA_UNIQUE_ID = Some (SText uid)) /\ forall j, j <> id -> d_objs (t_db t') !! j = d_objs (t_db t) !! j).
Lemma insert_adds sh o t t' r : tok_ok t -> new_ok o -> insert_object P sh o t = (t', r) ->
  match r with Ok h => added t t' h | Err _ => t_sobjs t' = t_sobjs t /\ t_db t' = t_db t end.
Proof.
  intros Ht Hno. pose proof Hno as [Ho [Hh _]]. cut (wp (insert_object P sh o) t (fun t' r => match r with Ok h => added t t' h | Err _ => t_sobjs t' = t_sobjs t /\ t_db t' = t_db t end)).
  { intros H Hi. unfold wp in H. by rewrite Hi in H. }
  unfold insert_object. destruct (is_token o) eqn:Htk.
  - apply wp_bind, wp_gets, wp_bind, wp_ensure; [intros Hlog|done]. unfold st_store. apply wp_bind, wp_lift.
    destruct (get_object_factory _ o) as [f|] eqn:Hof; [|done]. pose proof (obj_factory_good P Hfs _ _ Hof) as Hf.
    apply wp_bind, wp_lift. destruct (get_string o CKA_UNIQUE_ID) as [uid|] eqn:Hu; [|done].
    apply wp_bind, (wp_encrypt_attrs P (f_sensitive f)); [intros; by apply (good_sens f)|done|apply (good_nodup f Hf)| |intros t1 e (i & n & ->); done].
    intros t1 o1 Hn Hp Hsb Hseal. cbv zeta. assert (same_id o o1) as Hid. { eapply same_but_id; [|done]. intros x Hx. by apply (good_sens _ _ Hf). }
    assert (obj_ok o1) as Ho1. { split; [by apply Hp, Ho|]. exists uid. by rewrite (same_uid _ _ Hid). }
    destruct (del_attrs_ok (f_ephemeral f) o1) as [D1 D2]; [intros; by eapply good_eph|done|].
    assert (same_id o (del_attrs (f_ephemeral f) o1)) as Hid2 by (by etransitivity). set (o2 := del_attrs (f_ephemeral f) o1) in *.
    assert (o_handle o2 = CK_INVALID_HANDLE) as Hh2 by (destruct Hid2 as [-> _]; done). rewrite Hh2. cbn [N.eqb]. rewrite N.eqb_refl. cbv iota.
    destruct Hn as (i0 & n0 & ->).
    apply wp_bind. apply (wp_new_handle uid); [|done]. intros Hun. apply wp_bind, wp_dbwrite; [|done]. intros i s Hs. apply wp_ret.
    cbn [t_db set_io set_fresh add_handle set_handles t_handles h_next] in *. right.
    assert (get_string o2 CKA_UNIQUE_ID = Ok uid) as Hu2 by (by rewrite (same_uid _ _ Hid2)).
    destruct (store_effect (t_db t) o2 s uid) as (S1 & S2 & S3 & S4 & S5 & S6 & S7); [apply (tk_db _ Ht)|done|done|apply D1|apply pre_last_uid; apply D1|].
    split_and!; try done.
    + by destruct (tok_free t (h_next (t_handles t)) Ht) as [_ ?].
    + exists uid, (new_id (t_db t) uid). split_and!; [apply lookup_insert|eauto|done].
  - apply wp_bind. change (wp h_fresh t ?Q') with (Q' (bump t) (Ok (h_next (t_handles t)))). cbv beta iota zeta.
    apply wp_bind, wp_lift. destruct (get_string _ CKA_UNIQUE_ID) as [uid|]; [|done].
    apply wp_bind, wp_h_insert; [|done]. intros _ _. apply wp_bind, wp_modify, wp_ret. left. cbn [t_sobjs set_sobjs].
    split_and!; [rewrite lookup_insert; eauto| |done]. intros h' Hne. by rewrite lookup_insert_ne.
Qed.

(* ---- destroying ---- *)
Definition said : list N := [CKA_CLASS; CKA_KEY_TYPE; CKA_CERTIFICATE_TYPE; CKA_DESTROYABLE].
Definition erasable (t : token) (h : N) : Prop :=
  is_Some (hm t !! h) /\ (t_sobjs t !! h = None -> d_tables (t_db t) = true) /\ object_id t h <> None /\
  exists o f, get_object_factory (p_fs P) o = Ok f /\ is_destroyable o = true /\ forall ty, In ty said -> attr_of t h ty = get_attr o ty.
Lemma said_facts ty : In ty said -> forallb (lasting ty) all_factories = true /\ (search_by_id ty = Some KBool \/ search_by_id ty = Some KNum).
Proof. intros H. cbn in H. repeat (destruct H as [<-|H]; [split; [by vm_compute|first [by left|by right]]|]). done. Qed.
Definition adding (k : kind) : Prop := match k with KQuiet _ | KHandle | KSadd _ _ | KNew _ _ => True | _ => False end.
Lemma insert_tsteps sh o t t' r : tok_ok t -> new_ok o -> insert_object P sh o t = (t', r) -> tok_ok t' /\ tsteps P adding t t'.
Proof. intros Ht Ho Hi. destruct (hs_insert_odd P Hfs adding I I sh o (fun _ => I) I Ho t Ht) as (H1 & H2 & _). rewrite Hi in *. done. Qed.
Lemma insert_same sh o t t' r h u : tok_ok t -> new_ok o -> hm t !! h = Some u -> insert_object P sh o t = (t', r) -> same_view h t t'.
Proof.
  intros Ht Ho Hh Hi. destruct (insert_tsteps _ _ _ _ _ Ht Ho Hi) as [_ H2]. eapply (tsteps_view P Hfs); [done|exact H2|exact Hh|]. intros k Hk. by destruct k.
Qed.
Lemma insert_erasable sh o t t' h : tok_ok t -> made o -> is_destroyable o = true -> (exists f, get_object_factory (p_fs P) o = Ok f) ->
  insert_object P sh o t = (t', Ok h) -> erasable t' h.
Proof.
  intros Ht [Hno Hag] Hd [f Hf] Hi. pose proof (insert_adds _ _ _ _ _ Ht Hno Hi) as Ha. cbn in Ha. pose proof (proj1 (insert_tsteps _ _ _ _ _ Ht Hno Hi)) as Ht'. apply (insert_view P Hfs) in Hi as [_ Hp]; [|done|done].
  destruct (pl_id _ _ _ _ _ _ Hp) as (u & U1 & U2). pose proof (pl_session _ _ _ _ _ _ Hp) as Hs. split_and!.
  - eexists. by eapply id_named.
  - intros Hn. destruct Ha as [([? ?] & _)|(_ & _ & ? & _)]; [congruence|done].
  - by rewrite U2.
  - exists o, f. split_and!; try done. intros ty Hty. destruct (said_facts ty Hty) as [S1 S2]. eapply (placed_attr P Hfs); try done. by right.
Qed.
Lemma view_erasable t t' h : same_view h t t' -> (d_tables (t_db t) = true -> d_tables (t_db t') = true) -> erasable t h -> erasable t' h.
Proof.
  intros Hv Hd (E1 & E2 & E3 & o & f & E4 & E5 & E6). split_and!.
  - by destruct Hv as [_ -> _].
  - destruct Hv as [-> _ _]. auto.
  - by rewrite (view_id _ _ _ Hv).
  - exists o, f. split_and!; try done. intros ty Hty. rewrite (view_attr _ _ _ _ Hv). auto.
Qed.
Lemma dbread_calm {A} (f : db -> result A) t : calm (t_io t) -> exists i, calm i /\ dbread f t = (set_io i t, f (t_db t)).
Proof. intros H. destruct (io_calm _ H) as (i & Hi & E). exists i. split; [done|]. unfold dbread. rewrite run_bind, E. done. Qed.
Lemma decrypt_none ver key uid l o : (forall ty, In ty l -> get_attr o ty = None) -> decrypt_attrs P ver key uid l o = Ok o.
Proof. induction l as [|ty l IH]; intros H; cbn [decrypt_attrs]; [done|]. rewrite H by (by left). apply IH. intros; apply H; by right. Qed.
Lemma fetch_calm t h uid : tok_ok t -> calm (t_io t) -> t_sobjs t !! h = None -> hm t !! h = Some uid -> erasable t h ->
  exists i o, calm i /\ st_fetch P h [CKA_DESTROYABLE] t = (set_io i t, Ok o) /\ is_destroyable o = true.
Proof.
  intros Ht Hc Hs Hu (_ & E2 & E3 & o0 & f & E4 & E5 & E6). unfold object_id in E3. unfold attr_of in E6. unfold hm in Hu. rewrite Hs, Hu in *.
  destruct (rows_of (t_db t) uid) as [m|] eqn:Hm; [|done]. unfold st_fetch. rewrite run_bind. unfold h_get. cbv [gets]. rewrite Hu. cbv zeta. rewrite run_bind.
  fold (fetch_types [CKA_DESTROYABLE]).
  destruct (dbread_calm (fun d => fetch_by_uid d uid (fetch_types [CKA_DESTROYABLE])) t Hc) as (i & Hi & ->).
  assert (exists v, m !! CKA_CLASS = Some v) as [v Hv]. { pose proof Hm as Hm2. apply rows_of_some in Hm2 as (j & J1 & _); [|apply (tk_db _ Ht)]. by destruct (db_ok_rows _ (tk_db _ Ht) _ _ J1) as (_ & _ & _ & _ & ?). }
  destruct (fetch_part (t_db t) uid (fetch_types [CKA_DESTROYABLE]) m CKA_CLASS v) as [o Ho]; [apply (tk_db _ Ht)|auto|done|done|done|done|].
  rewrite Ho. destruct (fetch_get _ _ _ _ Ho) as (j & r & F1 & F2 & F3 & F4 & _).
  assert (r = m) as ->. { assert (rows_of (t_db t) uid = Some r) by (apply rows_of_some; [apply (tk_db _ Ht)|eauto]). congruence. }
  assert (forall ty, In ty said -> get_attr o ty = get_attr o0 ty) as Ha. { intros ty Hty. rewrite F3, E6; [done|done|]. cbn in Hty. repeat (destruct Hty as [<-|Hty]; [reflexivity|]). done. }
  assert (get_object_factory (p_fs P) o = Ok f) as Hof. { rewrite (same_factory P o0 o); [done|..]; apply Ha; cbn; tauto. }
  rewrite run_bind. cbv [lift]. rewrite Hof. rewrite run_bind. cbv [gets]. rewrite run_bind. cbv [gets]. rewrite run_bind.
  pose proof (obj_factory_good P Hfs _ _ Hof) as Hf. rewrite decrypt_none.
  - exists i, (set_handle o h). split_and!; try done. change (is_destroyable (set_handle o h)) with (is_destroyable o). unfold is_destroyable, bool_attr in *. by rewrite (Ha CKA_DESTROYABLE) by (cbn; tauto).
  - intros ty Hin. destruct (good_sens f ty Hf Hin) as (S1 & S2 & _). apply F4; [|done]. unfold selected. cbn [fetch_types foldl add_missing existsb app].
    apply not_true_iff_false. intros Hx. cbn in Hx. repeat (apply orb_prop in Hx as [Hx|Hx]; [apply N.eqb_eq in Hx; subst ty; vm_compute in S1; discriminate S1|]). discriminate Hx.
Qed.
Definition destroying (h : N) (k : kind) : Prop := match k with KQuiet LCalm => True | KSdel h' | KHdel h' | KRemove h' _ => h' = h | _ => False end.
Lemma destroy_tsteps h t t' r : tok_ok t -> destroy_object P h t = (t', r) -> tok_ok t' /\ tsteps P (destroying h) t t'.
Proof.
  intros Ht Hi. destruct (hs_destroy_object P Hfs (destroying h) I h eq_refl (fun _ => eq_refl) eq_refl t Ht) as (H1 & H2 & _). rewrite Hi in *. done.
Qed.
Lemma destroy_same h h' u t t' r : tok_ok t -> hm t !! h' = Some u -> h' <> h -> destroy_object P h t = (t', r) -> same_view h' t t'.
Proof.
  intros Ht Hh Hne Hi. destruct (destroy_tsteps _ _ _ _ Ht Hi) as [_ H2]. eapply (tsteps_view P Hfs); [done|exact H2|exact Hh|].
  intros k Hk. destruct k as [[]| | | | | | | | | | | ]; try done; cbn in *; subst; by apply N.eqb_neq.
Qed.
Lemma destroy_clean h t : tok_ok t -> calm (t_io t) -> erasable t h -> exists t', destroy_object P h t = (t', Ok tt) /\ calm (t_io t') /\
  (forall h', t_sobjs t' !! h' = if h' =? h then None else t_sobjs t !! h') /\ (d_tables (t_db t) = true -> d_tables (t_db t') = true) /\
  (forall i r, d_objs (t_db t') !! i = Some r -> d_objs (t_db t) !! i = Some r /\
     (t_sobjs t !! h = None -> forall uid, hm t !! h = Some uid -> r !! CKA_UNIQUE_ID <> Some (SText uid))) /\
  (forall h', h' <> h -> hm t' !! h' = hm t !! h').
Proof.
  intros Ht Hc He. unfold destroy_object. rewrite run_bind. cbv [gets]. rewrite run_bind. destruct (t_sobjs t !! h) as [o|] eqn:Hs.
  - destruct He as (_ & _ & _ & o0 & f & _ & E5 & E6). rewrite run_bind. cbv [ensure].
    assert (is_destroyable o = true) as ->. { specialize (E6 CKA_DESTROYABLE). unfold attr_of in E6. rewrite Hs in E6. unfold is_destroyable, bool_attr in *. by rewrite E6 by (cbn; tauto). }
    cbv [ret modify h_remove]. eexists. split; [reflexivity|]. cbn [t_io t_sobjs t_db set_sobjs set_handles]. split_and!; try done.
    + intros h'. destruct (N.eqb_spec h' h) as [->|Hne]; [apply lookup_delete|by rewrite lookup_delete_ne].
    + intros h' Hne. unfold hm. cbn. by rewrite lookup_delete_ne.
  - pose proof He as ([uid Hu] & E2 & _). destruct (fetch_calm t h uid Ht Hc Hs Hu He) as (i & o & Hi & Hf & Hd).
    rewrite run_bind, Hf, run_bind. cbv [ensure]. rewrite Hd. cbv [ret]. rewrite run_bind. cbv [attempt]. unfold st_remove. rewrite run_bind. unfold h_get. cbv [gets].
    cbn [t_handles set_io]. unfold hm in Hu. rewrite Hu. unfold dbwrite. rewrite run_bind. destruct (io_calm (set_io i t) Hi) as (j & Hj & ->).
    cbn [t_db set_io]. unfold remove_stmts. rewrite (E2 Hs). cbn [negb]. cbv [skip ret h_remove modify]. eexists. split; [reflexivity|]. cbn [t_io t_sobjs t_db set_db set_handles set_io].
    destruct (remove_effect (t_db t) uid (SBegin :: del_stmts (t_db t) uid ++ [SCommit])) as (R1 & R2 & R3 & R4); [apply (tk_db _ Ht)|unfold remove_stmts; by rewrite (E2 Hs)|].
    split_and!; try done.
    + intros h'. destruct (N.eqb_spec h' h) as [->|Hne]; done.
    + intros _. etransitivity; [exact R1|by apply E2].
    + intros k r. rewrite R3. destruct (d_objs (t_db t) !! k) as [r'|]; [|done]. destruct (bool_decide _) eqn:Hb; [done|]. intros Hr. injection Hr as ->. split; [done|].
      intros _ uid' Hu'. unfold hm in Hu'. rewrite Hu in Hu'. injection Hu' as <-. by apply bool_decide_eq_false in Hb.
    + intros h' Hne. unfold hm. cbn. by rewrite lookup_delete_ne.
Qed.

(* ---- the objects inserted so far ---- *)
Record since (t0 : token) (D : list N) (t : token) : Prop := Since {
  si_ok : tok_ok t;
  si_erase : forall h, In h D -> erasable t h;
  si_mem : forall h o, t_sobjs t !! h = Some o -> In h D \/ t_sobjs t0 !! h = Some o;
  si_disk : forall i r, d_objs (t_db t) !! i = Some r -> d_objs (t_db t0) !! i = Some r \/
    exists h uid, In h D /\ t_sobjs t !! h = None /\ hm t !! h = Some uid /\ r !! CKA_UNIQUE_ID = Some (SText uid) }.
(* No object is left that was not there before. *)
Definition no_more (t0 t : token) : Prop :=
  (forall h o, t_sobjs t !! h = Some o -> t_sobjs t0 !! h = Some o) /\ (forall i r, d_objs (t_db t) !! i = Some r -> d_objs (t_db t0) !! i = Some r).
Lemma since_start t : tok_ok t -> since t [] t.
Proof. intros H. split; try done; auto. Qed.
Lemma since_end t0 t : since t0 [] t -> no_more t0 t.
Proof. intros [_ _ H1 H2]. split; [intros h o H; by destruct (H1 h o H)|]. intros i r H. by destruct (H2 i r H) as [|(? & ? & [] & _)]. Qed.
Definition plain_key (o : object) : Prop := made o /\ is_destroyable o = true /\ exists f, get_object_factory (p_fs P) o = Ok f.
Lemma since_insert t0 D t sh o t' r : since t0 D t -> new_ok o -> insert_object P sh o t = (t', r) ->
  match r with Ok h => plain_key o -> since t0 (h :: D) t' | Err _ => since t0 D t' end.
Proof.
  intros [S1 S2 S3 S4] Hno Hi. destruct (insert_tsteps _ _ _ _ _ S1 Hno Hi) as [Ht' _]. pose proof (insert_adds _ _ _ _ _ S1 Hno Hi) as Ha.
  assert (forall h u, hm t !! h = Some u -> same_view h t t') as Hv by (intros h u Hu; by eapply insert_same).
  assert (d_tables (t_db t) = true -> d_tables (t_db t') = true) as Hdt.
  { destruct r as [h|]; [|by destruct Ha as [_ ->]]. destruct Ha as [(_ & _ & ->)|(_ & _ & ? & _)]; done. }
  assert (forall h, In h D -> erasable t' h) as He. { intros h Hh. pose proof (S2 h Hh) as Hx. pose proof Hx as ([u Hu] & _). eapply view_erasable; [by eapply Hv|done|done]. }
  assert (forall r : gmap N sqlval, (exists h uid, In h D /\ t_sobjs t !! h = None /\ hm t !! h = Some uid /\ r !! CKA_UNIQUE_ID = Some (SText uid)) ->
    exists h uid, In h D /\ t_sobjs t' !! h = None /\ hm t' !! h = Some uid /\ r !! CKA_UNIQUE_ID = Some (SText uid)) as Hold.
  { intros x (h & u & X1 & X2 & X3 & X4). exists h, u. destruct (Hv _ _ X3) as [V1 V2 _]. rewrite V1, V2. done. }
  destruct r as [h|e].
  - intros (Hm & Hd & Hf). pose proof (insert_erasable _ _ _ _ _ S1 Hm Hd Hf Hi) as Hh. destruct Ha as [(A1 & A2 & A3)|(A1 & A2 & A3 & uid & id & A4 & (m & A5 & A6) & A7)].
    + split; [done| | |].
      * intros h' [<-|Hin]; auto.
      * intros h' x Hx. destruct (N.eq_dec h' h) as [->|Hne]; [left; by left|]. rewrite A2 in Hx by done. destruct (S3 _ _ Hx); [left; by right|by right].
      * rewrite A3. intros i y Hy. destruct (S4 _ _ Hy) as [|Hy2]; [by left|]. right. destruct (Hold y Hy2) as (h' & u & X1 & X2). exists h', u. split; [by right|done].
    + split; [done| | |].
      * intros h' [<-|Hin]; auto.
      * rewrite A1. intros h' x Hx. destruct (S3 _ _ Hx); [left; by right|by right].
      * intros i y Hy. destruct (N.eq_dec i id) as [->|Hne].
        -- right. exists h, uid. rewrite A1. split_and!; [by left|done|done|congruence].
        -- rewrite A7 in Hy by done. destruct (S4 _ _ Hy) as [|Hy2]; [by left|]. right. destruct (Hold y Hy2) as (h' & u & X1 & X2). exists h', u. split; [by right|done].
  - destruct Ha as [A1 A2]. split; [done|done|by rewrite A1|]. rewrite A2. intros i y Hy. destruct (S4 _ _ Hy) as [|Hy2]; [by left|right; auto].
Qed.
Lemma since_destroy t0 h D t : since t0 (h :: D) t -> ~ In h D -> calm (t_io t) -> exists t', destroy_object P h t = (t', Ok tt) /\ since t0 D t' /\ calm (t_io t').
Proof.
  intros [S1 S2 S3 S4] Hnd Hc. destruct (destroy_clean h t S1 Hc (S2 h (or_introl eq_refl))) as (t' & T1 & T2 & T3 & T4 & T5 & T6). exists t'. split_and!; try done.
  pose proof (S2 h (or_introl eq_refl)) as ([uh Huh] & _).
  split.
  - eapply destroy_tsteps; [|exact T1]. done.
  - intros h' Hin. pose proof (S2 h' (or_intror Hin)) as Hx. pose proof Hx as ([u Hu] & _). eapply view_erasable; [eapply destroy_same; [done|exact Hu| |exact T1]|done|done]. by intros ->.
  - intros h' o. rewrite T3. destruct (N.eqb_spec h' h) as [|Hne]; [done|]. intros Ho. destruct (S3 _ _ Ho) as [[|]|]; [congruence|by left|by right].
  - intros i r Hr. destruct (T5 _ _ Hr) as [Hr1 Hr2]. destruct (S4 _ _ Hr1) as [|(h' & u & X1 & X2 & X3 & X4)]; [by left|]. right. exists h', u.
    destruct (N.eq_dec h' h) as [->|Hne]; [by destruct (Hr2 X2 u X3)|]. rewrite T3, T6 by done. rewrite (proj2 (N.eqb_neq _ _) Hne). destruct X1 as [X1|X1]; [congruence|done].
Qed.
End roll.
