(* The invariant of a token's objects: database rows, session objects and the handle table. *)
From Verif Require Import Base Monad Hoare Attr Obj Factory Tables Create Sqlite Storage Token Rows ObjOk ObjNew Triple.

(* The rows of an object: it has an identifier, every row is readable and is what is written for the attribute read from
   it, CKA_TOKEN is true, and there is a class. *)
Definition rows_ok (m : gmap N sqlval) : Prop :=
  (exists uid, m !! CKA_UNIQUE_ID = Some (SText uid)) /\
  (forall t v, m !! t = Some v -> is_ok (from_sql t v) = true) /\
  row_attr m CKA_TOKEN = Some (from_bool CKA_TOKEN true) /\
  (forall t v a, m !! t = Some v -> from_sql t v = Ok a -> to_sql a = Ok (Some v)) /\
  is_Some (m !! CKA_CLASS).
Record db_ok (d : db) : Prop := DbOk {
  db_ok_wf : db_wf d;
  db_ok_rows : forall i m, d_objs d !! i = Some m -> rows_ok m }.
Record sobj_ok (hm : gmap N bytes) (h : N) (o : object) : Prop := SobjOk {
  so_obj : obj_ok o;
  so_handle : o_handle o = h;
  so_token : is_token o = false;
  so_uid : exists uid, get_string o CKA_UNIQUE_ID = Ok uid /\ hm !! h = Some uid }.
Record tok_ok (t : token) : Prop := TokOk {
  tk_db : db_ok (t_db t);
  tk_sobj : forall h o, t_sobjs t !! h = Some o -> sobj_ok (h_map (t_handles t)) h o;
  tk_keys : forall h uid, h_map (t_handles t) !! h = Some uid -> 1 <= h < h_next (t_handles t);
  tk_inj : forall h h' uid, h_map (t_handles t) !! h = Some uid -> h_map (t_handles t) !! h' = Some uid -> h = h';
  tk_next : 1 <= h_next (t_handles t) }.

Lemma tok_same t t' : t_handles t' = t_handles t -> t_sobjs t' = t_sobjs t -> db_ok (t_db t') -> tok_ok t -> tok_ok t'.
Proof. intros H1 H2 H3 [A1 A2 A3 A4 A5]. split; rewrite ?H1, ?H2; done. Qed.
Lemma db_objs_ok d d' : d_objs d' = d_objs d -> db_ok d -> db_ok d'.
Proof. intros H [[H1 H2] H3]. split; [split; [unfold uid_unique|]|]; rewrite H; done. Qed.

Lemma uid_handle_some hs uid h : uid_handle hs uid = Some h -> h_map hs !! h = Some uid.
Proof.
  unfold uid_handle. destruct (List.filter _ _) as [|p l] eqn:Hf; [done|]. intros ?. simplify_eq.
  assert (In p (List.filter (fun p => bytes_eqb (snd p) uid) (map_to_list (h_map hs)))) as H by (rewrite Hf; by left).
  apply in_filter in H as [H1 H2]. apply bytes_eqb_eq in H2. destruct p as [h u]. cbn in *. subst. apply elem_of_map_to_list. by apply elem_of_list_In.
Qed.
Lemma uid_handle_none hs uid : uid_handle hs uid = None -> forall h, h_map hs !! h <> Some uid.
Proof.
  unfold uid_handle. destruct (List.filter _ _) as [|p l] eqn:Hf; [|done]. intros _ h H.
  apply elem_of_map_to_list, elem_of_list_In in H. assert (In (h, uid) (List.filter (fun p => bytes_eqb (snd p) uid) (map_to_list (h_map hs)))) as Hin.
  { apply in_filter. split; [done|]. cbn. unfold bytes_eqb. by apply bool_decide_eq_true_2. }
  rewrite Hf in Hin. done.
Qed.

(* ---- the elementary steps keep the invariant ---- *)
Lemma tok_hnew t : tok_ok t -> tok_ok (set_handles (Handles (h_map (t_handles t)) (h_next (t_handles t) + 1)) t).
Proof. intros [A1 A2 A3 A4 A5]. split; cbn; try done; [|lia]. intros h uid H. apply A3 in H. lia. Qed.
Lemma tok_free t h : tok_ok t -> h_next (t_handles t) <= h -> h_map (t_handles t) !! h = None /\ t_sobjs t !! h = None.
Proof.
  intros H Hle. assert (h_map (t_handles t) !! h = None) as Hn.
  { destruct (h_map _ !! h) eqn:E; [|done]. apply (tk_keys _ H) in E. lia. }
  split; [done|]. destruct (t_sobjs t !! h) as [o|] eqn:E; [|done]. apply (tk_sobj _ H) in E as [_ _ _ (u & _ & Hu)]. congruence.
Qed.
Lemma tok_hadd t uid : tok_ok t -> uid_handle (t_handles t) uid = None ->
  tok_ok (set_handles (Handles (<[h_next (t_handles t) := uid]> (h_map (t_handles t))) (h_next (t_handles t) + 1)) t).
Proof.
  intros Ht Hu. destruct (tok_free t (h_next (t_handles t)) Ht) as [F1 F2]; [lia|]. pose proof (uid_handle_none _ _ Hu) as Hn. destruct Ht as [A1 A2 A3 A4 A5]. split; cbn; try done.
  - intros h o H. destruct (A2 h o H) as [B1 B2 B3 (u & B4 & B5)]. split; try done. exists u. split; [done|]. rewrite lookup_insert_ne; [done|congruence].
  - intros h u. destruct (N.eq_dec h (h_next (t_handles t))) as [->|Hne].
    + rewrite lookup_insert. lia.
    + rewrite lookup_insert_ne by done. intros H. apply A3 in H. lia.
  - intros h h' u. destruct (N.eq_dec h (h_next (t_handles t))) as [->|Hne]; destruct (N.eq_dec h' (h_next (t_handles t))) as [->|Hne']; try done;
      rewrite ?lookup_insert, ?lookup_insert_ne by done; intros; simplify_eq; first [by eapply A4 | by exfalso; eapply Hn].
  - lia.
Qed.
Lemma tok_sadd t o sh uid : tok_ok t -> obj_ok o -> is_token o = false -> get_string o CKA_UNIQUE_ID = Ok uid -> uid_handle (t_handles t) uid = None ->
  let h := h_next (t_handles t) in
  tok_ok (set_sobjs (<[h := set_session (set_handle o h) sh]> (t_sobjs t)) (set_handles (Handles (<[h := uid]> (h_map (t_handles t))) (h + 1)) t)).
Proof.
  intros Ht Ho Htk Hg Hu h. pose proof (tok_hadd t uid Ht Hu) as [A1 A2 A3 A4 A5]. split; try done. intros h' o'. cbn. fold h.
  destruct (N.eq_dec h' h) as [->|Hne].
  - rewrite lookup_insert. intros ?. simplify_eq. split; [by apply ok_session, ok_handle|done|done|]. exists uid. split; [done|]. apply lookup_insert.
  - rewrite lookup_insert_ne by done. apply A2.
Qed.
Lemma tok_hdel t h : tok_ok t -> t_sobjs t !! h = None -> tok_ok (set_handles (Handles (delete h (h_map (t_handles t))) (h_next (t_handles t))) t).
Proof.
  intros [A1 A2 A3 A4 A5] Hs. split; cbn; try done.
  - intros h' o H. destruct (A2 h' o H) as [B1 B2 B3 (u & B4 & B5)]. split; try done. exists u. split; [done|]. rewrite lookup_delete_ne; [done|congruence].
  - intros h' u H. apply lookup_delete_Some in H as [_ H]. by eapply A3.
  - intros h1 h2 u H1 H2. apply lookup_delete_Some in H1 as [_ H1]. apply lookup_delete_Some in H2 as [_ H2]. by eapply A4.
Qed.
Lemma tok_sdel t h : tok_ok t -> tok_ok (set_handles (Handles (delete h (h_map (t_handles t))) (h_next (t_handles t))) (set_sobjs (delete h (t_sobjs t)) t)).
Proof.
  intros [A1 A2 A3 A4 A5]. apply (tok_hdel (set_sobjs (delete h (t_sobjs t)) t)); [|apply lookup_delete].
  split; cbn; try done. intros h' o H. apply lookup_delete_Some in H as [_ H]. by apply A2.
Qed.
Lemma tok_supd t h o o' : tok_ok t -> t_sobjs t !! h = Some o -> obj_ok o' -> same_id o o' -> tok_ok (set_sobjs (<[h := o']> (t_sobjs t)) t).
Proof.
  intros [A1 A2 A3 A4 A5] Ho Ho' Hs. split; cbn; try done. intros h' x. destruct (N.eq_dec h' h) as [->|Hne].
  - rewrite lookup_insert. intros ?. simplify_eq. destruct (A2 h o Ho) as [B1 B2 B3 (u & B4 & B5)]. split; try done.
    + destruct Hs as [-> _]. done.
    + by rewrite (same_token _ _ Hs).
    + exists u. by rewrite (same_uid _ _ Hs).
  - rewrite lookup_insert_ne by done. apply A2.
Qed.
Lemma tok_drop t hs : tok_ok t -> tok_ok (set_handles (Handles (foldr delete (h_map (t_handles t)) hs) (h_next (t_handles t))) (set_sobjs (foldr delete (t_sobjs t) hs) t)).
Proof.
  intros Ht. induction hs as [|h hs IH]; cbn [foldr].
  - by destruct t as [? ? ? [? ?] ? ? ? ? ? ? ? ? ?].
  - apply (tok_sdel _ h) in IH. exact IH.
Qed.

(* The last attribute of a type is the first, but for CKA_CLASS. *)
Lemma last_attr_nocls l t : t <> CKA_CLASS -> last_attr l t = last_attr (List.filter (fun a => negb (a_type a =? CKA_CLASS)) l) t.
Proof.
  intros Ht. unfold last_attr. assert (List.filter is_kept (List.filter (fun a => negb (a_type a =? CKA_CLASS)) l) =
    List.filter (fun a => negb (a_type a =? CKA_CLASS)) (List.filter is_kept l)) as ->.
  { induction l as [|x l IH]; cbn; [done|]. destruct (negb _) eqn:E1; destruct (is_kept x) eqn:E2; cbn; rewrite ?E1, ?E2, IH; done. }
  assert (forall l, rev (List.filter (fun a => negb (a_type a =? CKA_CLASS)) l) = List.filter (fun a => negb (a_type a =? CKA_CLASS)) (rev l)) as ->.
  { clear. induction l as [|x l IH]; cbn; [done|]. rewrite filter_app. cbn. destruct (negb _); cbn; rewrite IH; [done|by rewrite app_nil_r]. }
  by rewrite find_filter_ne.
Qed.
Lemma last_attr_pre o t : obj_pre o -> t <> CKA_CLASS ->
  last_attr (o_attrs o) t = match get_attr o t with Some a => if is_kept a then Some a else None | None => None end.
Proof.
  intros [_ _ H] Ht. rewrite last_attr_nocls by done. rewrite last_attr_nodup by exact H. by rewrite find_filter_ne.
Qed.
Lemma wf_kept a k : attr_wf a -> search_by_id (a_type a) = Some k -> k <> KIgnore -> k <> KDeny -> is_kept a = true.
Proof.
  intros [H _] Hk H1 H2. rewrite Hk in H. unfold is_kept. destruct (a_kind a) eqn:E; try done; rewrite norm_kind, E in H by (rewrite E; done); congruence.
Qed.
Lemma pre_last_uid o : obj_pre o -> has_uid o -> last_attr (o_attrs o) CKA_UNIQUE_ID = get_attr o CKA_UNIQUE_ID.
Proof.
  intros H Hu. rewrite last_attr_pre by done. destruct (uid_has _ Hu) as [a Ha]. rewrite Ha. rewrite (wf_kept a KString); try done; [by eapply pre_get_wf|].
  by rewrite (get_type _ _ _ Ha).
Qed.
Lemma token_true o : obj_pre o -> is_token o = true -> get_attr o CKA_TOKEN = Some (from_bool CKA_TOKEN true).
Proof.
  intros H Ht. unfold is_token, bool_attr in Ht. destruct (get_attr o CKA_TOKEN) as [a|] eqn:Hg; [|done].
  destruct (pre_bool o CKA_TOKEN a H Hg) as [b ->]; [done|]. rewrite bool_from in Ht. by rewrite Ht.
Qed.
Lemma to_sql_norm a : attr_wf a -> to_sql (norm a) = to_sql a.
Proof.
  intros [_ Hw]. destruct a as [t k b]. unfold norm in *. cbn [a_kind a_type a_val] in *. destruct k; try done. destruct (search_by_id t) as [[]|]; try done.
  destruct Hw as [Hw|Hm]; [discriminate Hw|]. unfold to_sql. cbn. by rewrite Hm.
Qed.
Lemma last_class o : obj_pre o -> last_attr (o_attrs o) CKA_CLASS <> None.
Proof.
  intros [_ Hc _]. unfold class_ok, get_ulong, get_as in Hc. destruct (get_attr o CKA_CLASS) as [a|] eqn:Hg; [|done].
  assert (is_kept a = true) as Hk by (unfold attr_to_ulong in Hc; unfold is_kept; by destruct (a_kind a)).
  pose proof (get_type _ _ _ Hg) as Ht. apply find_in in Hg as Hin. unfold last_attr. intros Hn%find_none.
  apply Hn. rewrite <- Ht. apply in_map. rewrite <- in_rev. apply in_filter. done.
Qed.
Lemma stored_rows_ok d o s : store_obj_stmts d o = Ok s -> obj_ok o -> is_token o = true -> rows_ok (kept_rows (o_attrs o) ∅).
Proof.
  intros Hs [Hp Hu] Ht. destruct Hu as [uid Hu]. unfold store_obj_stmts in Hs. rewrite Hu in Hs. cbn [rbind] in Hs. destruct (negb _); [done|].
  destruct (ins_stmts _ _) as [l|] eqn:Hi; [|done]. pose proof (ins_ok _ _ _ Hi) as Hok. pose proof (pre_attrs _ Hp) as Hw. split_and!.
  - exists uid. rewrite kept_rows_get by done. fold (last_attr (o_attrs o) CKA_UNIQUE_ID). rewrite pre_last_uid by (try done; by exists uid).
    unfold get_string, get_as in Hu. destruct (get_attr o CKA_UNIQUE_ID) as [a|]; [|done]. unfold to_sql. revert Hu. unfold attr_to_string.
    destruct (a_kind a); try done. destruct (utf8_valid _); [|done]. intros ?. by simplify_eq.
  - intros t v H. by destruct (kept_from_sql _ _ _ Hw Hok H) as (a & _ & ->).
  - rewrite kept_attr by done. rewrite last_attr_pre by done. by rewrite (token_true o Hp Ht).
  - intros t v a H Ha. destruct (kept_from_sql _ _ _ Hw Hok H) as (a' & H1 & H2). rewrite Ha in H2. injection H2 as ->.
    destruct (last_attr_in _ _ _ H1) as (L1 & L2 & L3). rewrite to_sql_norm by (by apply (proj1 (List.Forall_forall _ _) Hw)).
    rewrite kept_rows_get in H by done. fold (last_attr (o_attrs o) t) in H. rewrite H1 in H. by destruct (to_sql a') as [[x|]|]; simplify_eq.
  - pose proof (last_class o Hp) as Hc. rewrite kept_rows_get by done. fold (last_attr (o_attrs o) CKA_CLASS).
    destruct (last_attr (o_attrs o) CKA_CLASS) as [a|] eqn:Hl; [|done]. destruct (last_attr_in _ _ _ Hl) as (L1 & L2 & L3).
    pose proof (Hok a L1) as Ha. destruct (to_sql a) as [[x|]|] eqn:Hx; try done. apply to_sql_none in Hx. congruence.
Qed.
Lemma db_store d o s uid : db_ok d -> obj_ok o -> is_token o = true -> get_string o CKA_UNIQUE_ID = Ok uid -> store_obj_stmts d o = Ok s ->
  db_ok (c_disk (exec s d)) /\ d_meta (c_disk (exec s d)) = d_meta d.
Proof.
  intros [Hw Hr] Ho Ht Hu Hs. pose proof (stored_rows_ok _ _ _ Hs Ho Ht) as Hk. destruct Ho as [Hp _].
  destruct (store_effect d o s uid Hw Hs Hu (pre_attrs _ Hp)) as (S1 & S2 & S3 & S4 & S5 & S6 & S7). { apply pre_last_uid; [done|by exists uid]. }
  split; [|done]. split; [done|]. intros i m. destruct (N.eq_dec i (new_id d uid)) as [->|Hne].
  - rewrite S4. intros ?. by simplify_eq.
  - rewrite S6 by done. apply Hr.
Qed.
Lemma db_remove d uid s : db_ok d -> remove_stmts d uid = Ok s -> db_ok (c_disk (exec s d)) /\ d_meta (c_disk (exec s d)) = d_meta d.
Proof.
  intros [Hw Hr] Hs. destruct (remove_effect d uid s Hw Hs) as (S1 & S2 & S3 & S4). split; [|done]. split; [done|]. intros i m. rewrite S3.
  destruct (d_objs d !! i) as [r|] eqn:E; [|done]. destruct (bool_decide _); [done|]. intros ?. simplify_eq. by eapply Hr.
Qed.

(* ---- reading objects ---- *)
Lemma from_sql_wf t v a : from_sql t v = Ok a -> attr_wf a.
Proof.
  intros H. pose proof (from_sql_type _ _ _ H) as Ht. unfold from_sql in H. destruct (search_by_id t) as [k|] eqn:Hk; [|done].
  apply attr_wf_intro.
  - destruct k; destruct v; try done; try (injection H as <-; done).
    + destruct (val_to_ulong z); cbn [rbind] in H; [|done]. by injection H as <-.
    + destruct (utf8_valid b); [|done]. by injection H as <-.
    + destruct (_ =? 0); [|done]. by injection H as <-.
    + destruct b as [|x b]; [by injection H as <-|]. destruct (string_to_ck_date _); cbn [rbind] in H; [|done]. by injection H as <-.
  - destruct k; destruct v; try done; try (injection H as <-; done).
    + injection H as <-. cbn. destruct (negb _); auto.
    + destruct (val_to_ulong z); cbn [rbind] in H; [|done]. injection H as <-. cbn [from_ulong a_kind a_val]. eauto.
    + destruct (utf8_valid b) eqn:E; [|done]. by injection H as <-.
    + destruct (_ =? 0); [|done]. by injection H as <-.
    + destruct b as [|x b]; [injection H as <-; cbn; by left|]. destruct (string_to_ck_date _) as [y|] eqn:E; cbn [rbind] in H; [|done]. injection H as <-. cbn. right.
      revert E. unfold string_to_ck_date. repeat (match goal with |- context [match ?l with [] => _ | _ => _ end] => destruct l; try done end).
      destruct (_ || _); [done|]. unfold vec_to_date_validate. destruct (negb _) eqn:Hl; [done|]. destruct (forallb _ _) eqn:Hf; [|done].
      intros ?. simplify_eq. by rewrite Hl, Hf.
Qed.
Lemma add_rows_pre l o o' : add_rows o l = Ok o' -> obj_pre o -> obj_pre o'.
Proof.
  revert o. induction l as [|[t v] l IH]; intros o; cbn [add_rows]; [intros ?; by simplify_eq|]. destruct (from_sql t v) as [a|] eqn:Hf; [|done]. cbn [rbind].
  destruct (set_attr o a) as [o1|] eqn:Hs; [|done]. cbn [rbind]. intros H Ho. eapply IH; [done|]. eapply pre_set; [done| |done]. by eapply from_sql_wf.
Qed.
Lemma fetch_pre d uid attrs o : fetch_by_uid d uid attrs = Ok o -> new_pre o.
Proof.
  intros H. destruct (fetch_get _ _ _ _ H) as (i & rows & _ & _ & _ & _ & _ & H1 & H2). split; [|done].
  destruct (fetch_rows _ _ _ _ H) as (i' & rows' & _ & _ & H3). eapply add_rows_pre; [apply H3|]. by apply pre_new.
Qed.
Lemma fetch_ok d uid o : db_ok d -> fetch_by_uid d uid [] = Ok o -> new_ok o /\ get_string o CKA_UNIQUE_ID = Ok uid /\ is_token o = true.
Proof.
  intros Hd H. destruct (fetch_pre _ _ _ _ H) as [Hp Hn]. destruct (fetch_get _ _ _ _ H) as (i & rows & F1 & F2 & F3 & _).
  destruct (db_ok_rows _ Hd _ _ F1) as (_ & R2 & R3 & _). assert (get_attr o CKA_UNIQUE_ID = Some (from_string CKA_UNIQUE_ID uid)) as Hu.
  { rewrite F3 by done. unfold row_attr. rewrite F2. pose proof (R2 _ _ F2) as Hk. revert Hk. unfold from_sql. change (search_by_id CKA_UNIQUE_ID) with (Some KString).
    cbn [is_ok]. destruct (utf8_valid uid); done. }
  pose proof (ok_intro _ _ Hp Hu) as Hok. split_and!; [done| |].
  - by rewrite (pre_has_uid _ _ Hp Hu).
  - unfold is_token, bool_attr. rewrite F3 by done. rewrite R3. done.
Qed.

(* ---- the record of an object ---- *)
Lemma rows_of_some d uid m : uid_unique d -> rows_of d uid = Some m <-> exists i, d_objs d !! i = Some m /\ m !! CKA_UNIQUE_ID = Some (SText uid).
Proof.
  intros Hu. unfold rows_of. destruct (List.find _ _) as [[i r]|] eqn:Hf.
  - apply List.find_some in Hf as [H1 H2]. apply elem_of_list_In, elem_of_map_to_list in H1. apply bool_decide_eq_true in H2. cbn in *.
    split; [intros X; injection X as <-; eauto|]. intros (j & H3 & H4). pose proof (Hu _ _ _ _ _ H1 H3 H2 H4). congruence.
  - split; [done|]. intros (i & H1 & H2). apply elem_of_map_to_list, elem_of_list_In in H1. apply (List.find_none _ _ Hf) in H1.
    cbn in H1. by rewrite bool_decide_eq_false in H1.
Qed.
Lemma rows_of_objs d d' uid : d_objs d' = d_objs d -> rows_of d' uid = rows_of d uid.
Proof. intros H. unfold rows_of. by rewrite H. Qed.
Lemma rows_of_eq d d' uid : uid_unique d -> uid_unique d' ->
  (forall m, m !! CKA_UNIQUE_ID = Some (SText uid) -> (exists i, d_objs d' !! i = Some m) <-> (exists i, d_objs d !! i = Some m)) ->
  rows_of d' uid = rows_of d uid.
Proof.
  intros H1 H2 H. apply option_eq. intros m. rewrite !rows_of_some by done. split; intros (i & A1 & A2).
  - destruct (proj1 (H m A2)) as [j Hj]; [eauto|eauto].
  - destruct (proj2 (H m A2)) as [j Hj]; [eauto|eauto].
Qed.
(* Storing an object touches its own record only. *)
Lemma store_rows d o s uid u : db_wf d -> obj_ok o -> get_string o CKA_UNIQUE_ID = Ok uid -> store_obj_stmts d o = Ok s -> u <> uid ->
  rows_of (c_disk (exec s d)) u = rows_of d u.
Proof.
  intros Hw [Hp Hh] Hu Hs Hne. destruct (store_effect d o s uid Hw Hs Hu (pre_attrs _ Hp)) as (S1 & S2 & S3 & S4 & S5 & S6 & S7).
  { by apply pre_last_uid. }
  apply rows_of_eq; [apply Hw|apply S7|]. intros m Hm. split; intros [i Hi].
  - destruct (N.eq_dec i (new_id d uid)) as [->|Hni]; [|exists i; by rewrite <- S6 by done].
    exfalso. congruence.
  - exists i. destruct (N.eq_dec i (new_id d uid)) as [->|Hni]; [|by rewrite S6 by done].
    destruct (new_id_fresh d uid Hw) as [_ F]. apply F in Hi. congruence.
Qed.
Lemma store_own d o s uid : db_wf d -> obj_ok o -> get_string o CKA_UNIQUE_ID = Ok uid -> store_obj_stmts d o = Ok s ->
  rows_of (c_disk (exec s d)) uid = Some (kept_rows (o_attrs o) ∅).
Proof.
  intros Hw [Hp Hh] Hu Hs. destruct (store_effect d o s uid Hw Hs Hu (pre_attrs _ Hp)) as (S1 & S2 & S3 & S4 & S5 & S6 & S7).
  { by apply pre_last_uid. }
  apply rows_of_some; [apply S7|]. eauto.
Qed.
Lemma remove_rows d uid s u : db_wf d -> remove_stmts d uid = Ok s -> rows_of (c_disk (exec s d)) u = if bool_decide (u = uid) then None else rows_of d u.
Proof.
  intros Hw Hs. destruct (remove_effect d uid s Hw Hs) as (S1 & S2 & S3 & S4). apply option_eq. intros m. rewrite rows_of_some by apply S4.
  setoid_rewrite S3. destruct (bool_decide_reflect (u = uid)) as [->|Hne].
  - split; [|done]. intros (i & H1 & H2). destruct (d_objs d !! i) as [r|]; [|done]. destruct (bool_decide_reflect (r !! CKA_UNIQUE_ID = Some (SText uid))); congruence.
  - rewrite rows_of_some by apply Hw. split; intros (i & H1 & H2); exists i.
    + destruct (d_objs d !! i) as [r|]; [|done]. destruct (bool_decide _); [done|]. split; congruence.
    + rewrite H1. rewrite bool_decide_eq_false_2 by congruence. done.
Qed.
