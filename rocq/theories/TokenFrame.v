(* What the token functions leave alone: a relation kept by every elementary update is kept by every function. *)
From Verif Require Import Base Monad Hoare Attr Obj Factory Tables Create Sqlite Storage Token Rows.

Lemma del_meta d u d0 : d_tables (foldl (fun d s => exec_db s d) d0 (del_stmts d u)) = d_tables d0 /\ d_meta (foldl (fun d s => exec_db s d) d0 (del_stmts d u)) = d_meta d0.
Proof. unfold del_stmts. by destruct (_ =? _). Qed.
Lemma del_plain d u : forallb plain_stmt (del_stmts d u) = true.
Proof. unfold del_stmts. by destruct (_ =? _). Qed.
Lemma store_meta d o s : store_obj_stmts d o = Ok s -> d_tables (c_disk (exec s d)) = d_tables d /\ d_meta (c_disk (exec s d)) = d_meta d.
Proof.
  unfold store_obj_stmts. destruct (get_string _ _) as [u|]; cbn [rbind]; [|done]. destruct (negb _); [done|]. destruct (ins_stmts _ _) as [l|] eqn:Hl; cbn [rbind]; [|done].
  intros Hs. injection Hs as <-. pose proof (ins_exec _ _ _ (foldl (fun d s => exec_db s d) d (del_stmts d u)) Hl) as (H1 & H2 & H3 & _).
  rewrite app_assoc, exec_tx by (rewrite forallb_app, del_plain, H1; done). cbn [c_disk]. rewrite foldl_app, H2, H3. apply del_meta.
Qed.
Lemma remove_meta d u s : remove_stmts d u = Ok s -> d_tables (c_disk (exec s d)) = d_tables d /\ d_meta (c_disk (exec s d)) = d_meta d.
Proof. unfold remove_stmts. destruct (negb _); [done|]. intros Hs. injection Hs as <-. rewrite exec_tx by apply del_plain. cbn [c_disk]. apply del_meta. Qed.

Section frame.
Context (P : params) (R : token -> token -> Prop) {HR : PreOrder R}.
(* The elementary updates. *)
Context (R_io : forall i t, (t_io t = [] -> i = []) -> R t (set_io i t)) (R_fresh : forall n t, R t (set_fresh n t))
        (R_db : forall d t, d_tables d = d_tables (t_db t) -> d_meta d = d_meta (t_db t) -> R t (set_db d t)) (R_hs : forall h t, R t (set_handles h t)).

Lemma rel_io : rel R io.
Proof. intros t. unfold io. destruct (t_io t) as [|[e|] r] eqn:E; cbn [fst]; [reflexivity|apply R_io; by rewrite E..]. Qed.
Lemma rel_draw : rel R draw.
Proof. intros t. apply R_fresh. Qed.
Lemma rel_dbread {A} (f : db -> result A) : rel R (dbread f).
Proof. apply rel_bind; [done|apply rel_io|]. intros _ t. cbn [fst]. reflexivity. Qed.
Lemma rel_dbstore1 o : rel R (dbwrite (fun d => store_obj_stmts d o)).
Proof.
  apply rel_bind; [done|apply rel_io|]. intros _ t. destruct (store_obj_stmts _ _) eqn:Hs; cbn [fst]; [|reflexivity].
  destruct (store_meta _ _ _ Hs). by apply R_db.
Qed.
Lemma rel_dbremove u : rel R (dbwrite (fun d => remove_stmts d u)).
Proof.
  apply rel_bind; [done|apply rel_io|]. intros _ t. destruct (remove_stmts _ _) eqn:Hs; cbn [fst]; [|reflexivity].
  destruct (remove_meta _ _ _ Hs). by apply R_db.
Qed.
Lemma rel_h_insert h u : rel R (h_insert h u).
Proof.
  intros t. unfold h_insert.
  destruct (h_map (t_handles t) !! h), (uid_handle (t_handles t) u); cbn [fst]; first [reflexivity|apply R_hs].
Qed.
Lemma rel_h_remove h : rel R (h_remove h).
Proof. apply rel_modify. intros t. apply R_hs. Qed.
Lemma rel_h_fresh : rel R h_fresh.
Proof. intros t. apply R_hs. Qed.
Lemma rel_h_get h : rel R (h_get h).
Proof. apply rel_gets; done. Qed.
Local Hint Resolve rel_io rel_draw rel_dbread rel_dbstore1 rel_dbremove rel_h_insert rel_h_remove rel_h_fresh rel_h_get : frame.

Lemma rel_st_fetch h l : rel R (st_fetch P h l).
Proof. unfold st_fetch. rel_tac. Qed.
Lemma rel_encrypt_value u v : rel R (encrypt_value P u v).
Proof. unfold encrypt_value. rel_tac. Qed.
Local Hint Resolve rel_st_fetch rel_encrypt_value : frame.
Lemma rel_encrypt_attrs u ats o : rel R (encrypt_attrs P u ats o).
Proof. revert o. induction ats as [|a ats IH]; intros o; cbn [encrypt_attrs]; rel_tac. Qed.
Local Hint Resolve rel_encrypt_attrs : frame.
Lemma rel_st_store o : rel R (st_store P o).
Proof. unfold st_store. rel_tac. Qed.
Lemma rel_encrypt_tmpl u ats tm : rel R (encrypt_tmpl P u ats tm).
Proof. revert tm. induction ats as [|a ats IH]; intros o; cbn [encrypt_tmpl]; rel_tac. Qed.
Local Hint Resolve rel_st_store rel_encrypt_tmpl : frame.
Lemma rel_st_update h tm : rel R (st_update P h tm).
Proof. unfold st_update. rel_tac. Qed.
Lemma rel_search_handles tm l : rel R (search_handles P tm l).
Proof. induction l as [|o l IH]; cbn [search_handles]; rel_tac. Qed.
Local Hint Resolve rel_st_update rel_search_handles : frame.
Lemma rel_st_search tm : rel R (st_search P tm).
Proof. unfold st_search. rel_tac. Qed.
Lemma rel_st_remove h : rel R (st_remove h).
Proof. unfold st_remove. rel_tac. Qed.
Lemma rel_get_or_fetch h l : rel R (get_or_fetch P h l).
Proof. unfold get_or_fetch. rel_tac. Qed.
Local Hint Resolve rel_st_search rel_st_remove rel_get_or_fetch : frame.
Lemma rel_get_object_by_handle h : rel R (get_object_by_handle P h).
Proof. unfold get_object_by_handle. rel_tac. Qed.
Lemma rel_get_object_attrs h q : rel R (get_object_attrs P h q).
Proof. unfold get_object_attrs. rel_tac. Qed.
Lemma rel_get_object_size h : rel R (get_object_size P h).
Proof. unfold get_object_size. rel_tac. Qed.
Lemma rel_is_duplicate tm : rel R (is_duplicate P tm).
Proof. unfold is_duplicate. rel_tac. Qed.
Local Hint Resolve rel_is_duplicate : frame.
Lemma rel_is_cert_dup o : rel R (is_cert_dup P o).
Proof. unfold is_cert_dup. rel_tac. Qed.
Lemma rel_is_key_dup o : rel R (is_key_dup P o).
Proof. unfold is_key_dup. rel_tac. Qed.
Local Hint Resolve rel_is_cert_dup rel_is_key_dup : frame.
Lemma rel_check_dedup o : rel R (check_dedup P o).
Proof. unfold check_dedup. rel_tac. Qed.
Lemma rel_new_uid : rel R (new_uid P).
Proof. unfold new_uid. rel_tac. Qed.
Lemma rel_search_objects tm : rel R (search_objects P tm).
Proof. unfold search_objects. rel_tac. Qed.
Local Hint Resolve rel_check_dedup rel_new_uid rel_search_objects rel_get_object_by_handle rel_get_object_attrs
  rel_get_object_size : frame.

(* Functions that change the session objects. *)
Section sobjs.
Context (R_so : forall m t, R t (set_sobjs m t)).
Lemma rel_set_sobjs f : rel R (modify (fun t => set_sobjs (f t) t)).
Proof. apply rel_modify. intros t. apply R_so. Qed.
Lemma rel_drop_objs sel : rel R (modify (drop_objs sel)).
Proof. apply rel_modify. intros t. unfold drop_objs. etransitivity; [apply R_so|apply R_hs]. Qed.
Local Hint Resolve rel_set_sobjs rel_drop_objs : frame.
Lemma rel_insert_object sh o : rel R (insert_object P sh o).
Proof. unfold insert_object. rel_tac. Qed.
Local Hint Resolve rel_insert_object : frame.
Lemma rel_create_object env sh tm : rel R (create_object P env sh tm).
Proof. unfold create_object. rel_tac. Qed.
Lemma rel_copy_object sh h tm : rel R (copy_object P sh h tm).
Proof. unfold copy_object. rel_tac. Qed.
Lemma rel_destroy_object h : rel R (destroy_object P h).
Proof. unfold destroy_object. rel_tac. Qed.
Lemma rel_set_object_attrs h tm : rel R (set_object_attrs P h tm).
Proof. unfold set_object_attrs. rel_tac. Qed.
Lemma rel_builtins l : rel R (builtins P l).
Proof. induction l as [|[m fl] l IH]; cbn [builtins]; rel_tac. Qed.
Local Hint Resolve rel_builtins : frame.
Lemma rel_internal_objects_init : rel R (internal_objects_init P).
Proof. unfold internal_objects_init. rel_tac. Qed.
End sobjs.

(* Authentication without login, PIN changes. *)
Section keys.
Context (R_dba : forall d t, R t (set_db d t)).
Lemma rel_dbwrite f : rel R (dbwrite f).
Proof.
  apply rel_bind; [done|apply rel_io|]. intros _ t. destruct (f (t_db t)); cbn [fst]; [apply R_dba|reflexivity].
Qed.
Local Hint Resolve rel_dbwrite : frame.
Context (R_kv : forall k v t, R t (set_key_ver k v t)) (R_fl : forall ut fl t, (exists i, fl = 0 \/ fl = user_flags ut i 0) -> R t (update_auth_flags ut fl t))
        (R_pin : forall t, R t (set_flags (N.lor (t_flags t) CKF_USER_PIN_INITIALIZED) t)).
Lemma rel_aci_authenticate u i pin b : rel R (aci_authenticate P u i pin b).
Proof.
  unfold aci_authenticate. rel_tac; apply rel_modify; intros t; apply R_kv.
Qed.
Local Hint Resolve rel_aci_authenticate : frame.
Lemma rel_st_auth_user ut pin b : rel R (st_auth_user P ut pin b).
Proof. unfold st_auth_user. rel_tac. Qed.
Lemma rel_key_to_user_data u pin : rel R (key_to_user_data P u pin).
Proof. unfold key_to_user_data. rel_tac. Qed.
Local Hint Resolve rel_st_auth_user rel_key_to_user_data : frame.
Lemma rel_set_user_pin u pin : rel R (set_user_pin P u pin).
Proof. unfold set_user_pin. rel_tac. Qed.
Lemma rel_st_unauth_user u : rel R (st_unauth_user u).
Proof. unfold st_unauth_user. rel_tac. apply rel_modify. intros t. apply R_kv. Qed.
Local Hint Resolve rel_set_user_pin rel_st_unauth_user : frame.
(* The flags auth_user reports. *)
Lemma st_auth_user_flags ut pin b t t' fl r :
  st_auth_user P ut pin b t = (t', Ok (fl, r)) -> exists i, fl = 0 \/ fl = user_flags ut i 0.
Proof.
  unfold st_auth_user. intros H.
  apply bind_ok in H as (u & t1 & _ & H). apply bind_ok in H as (i & t2 & _ & H).
  apply bind_ok in H as ([i' upd] & t3 & _ & H). apply bind_ok in H as (u' & t4 & _ & H).
  exists i'. destruct (ai_cur i' =? 0); cbv [ret] in H; simplify_eq; auto.
Qed.
Lemma rel_tk_auth_user_check ut pin : rel R (tk_auth_user P ut pin true).
Proof.
  unfold tk_auth_user. apply rel_bind; [done|apply rel_ensure; done|intros _].
  intros t. rewrite run_bind. unfold attempt at 1.
  pose proof (rel_st_auth_user ut pin true t) as H1.
    destruct (st_auth_user P ut pin true t) as [t1 [[fl r]|e]] eqn:H2; cbn [fst snd] in *.
  - transitivity t1; [done|]. destruct (st_auth_user_flags _ _ _ _ _ _ _ H2) as [i Hi].
    transitivity (update_auth_flags ut fl t1); [apply R_fl; eauto|].
    rewrite !run_bind. cbn [modify]. destruct r; cbn; reflexivity.
  - transitivity t1; [done|].
    transitivity (update_auth_flags ut 0 t1); [apply R_fl; exists auth_default; auto|].
    rewrite !run_bind. cbn. reflexivity.
Qed.
Local Hint Resolve rel_tk_auth_user_check : frame.
Lemma rel_tk_set_pin ut pin old : rel R (tk_set_pin P ut pin old).
Proof. unfold tk_set_pin. rel_tac. Qed.
End keys.
End frame.
