(* How the elementary steps change the objects that handles name. *)
From Verif Require Import Base Monad Hoare Attr Obj Factory Tables Create Sqlite Storage Token Backend State Api
  Rows ObjOk ObjNew Triple TokInv TokStep TokenFrame TokWp TokAuth Spec WorldFrame WorldWp Sessions SessionInv SessionFacts ObjWorld.

(* ---- handles ---- *)
Definition hm (t : token) : gmap N bytes := h_map (t_handles t).
Lemma id_named t h u : tok_ok t -> object_id t h = Some u -> hm t !! h = Some u.
Proof.
  intros Ht. unfold object_id, hm. destruct (t_sobjs t !! h) as [o|] eqn:Ho.
  - destruct (tk_sobj _ Ht _ _ Ho) as [_ _ _ (uid & -> & ->)]. done.
  - destruct (h_map _ !! h) as [uid|]; [|done]. by destruct (rows_of _ _).
Qed.
Lemma foldr_delete_lookup {A} (m : gmap N A) hs h : foldr delete m hs !! h = if decide (h ∈ hs) then None else m !! h.
Proof.
  induction hs as [|x hs IH]; cbn [foldr]; [by destruct (decide _) as [?%elem_of_nil|]|]. destruct (decide (x = h)) as [->|Hne].
  - rewrite lookup_delete. destruct (decide (h ∈ h :: hs)) as [|Hn]; [done|]. exfalso. apply Hn. left.
  - rewrite lookup_delete_ne, IH by done. destruct (decide (h ∈ hs)), (decide (h ∈ x :: hs)) as [Hin|Hn]; try done.
    + exfalso. apply Hn. by right.
    + apply elem_of_cons in Hin as [->|?]; done.
Qed.
Lemma drop_lookup sel t h : t_sobjs (drop_objs sel t) !! h =
  match t_sobjs t !! h with Some o => if sel (h, o) then None else Some o | None => None end.
Proof.
  unfold drop_objs. cbn. rewrite foldr_delete_lookup. destruct (decide _) as [Hin|Hn].
  - apply elem_of_list_In, in_map_iff in Hin as ([h' o] & <- & Hin). apply in_filter in Hin as [H1 H2]. apply elem_of_list_In, elem_of_map_to_list in H1. cbn. by rewrite H1, H2.
  - destruct (t_sobjs t !! h) as [o|] eqn:Ho; [|done]. destruct (sel (h, o)) eqn:Hs; [|done]. exfalso. apply Hn. apply elem_of_list_In, in_map_iff. exists (h, o).
    split; [done|]. apply in_filter. split; [|done]. by apply elem_of_list_In, elem_of_map_to_list.
Qed.
Lemma drop_hm sel t h : hm (drop_objs sel t) !! h =
  match t_sobjs t !! h with Some o => if sel (h, o) then None else hm t !! h | None => hm t !! h end.
Proof.
  unfold hm, drop_objs. cbn. rewrite foldr_delete_lookup. destruct (decide _) as [Hin|Hn].
  - apply elem_of_list_In, in_map_iff in Hin as ([h' o] & <- & Hin). apply in_filter in Hin as [H1 H2]. apply elem_of_list_In, elem_of_map_to_list in H1. cbn. by rewrite H1, H2.
  - destruct (t_sobjs t !! h) as [o|] eqn:Ho; [|done]. destruct (sel (h, o)) eqn:Hs; [|done]. exfalso. apply Hn. apply elem_of_list_In, in_map_iff. exists (h, o).
    split; [done|]. apply in_filter. split; [|done]. by apply elem_of_list_In, elem_of_map_to_list.
Qed.
(* The handle table only forgets, but for new handles. *)
Record grows (t t' : token) : Prop := Grows {
  gr_next : h_next (t_handles t) <= h_next (t_handles t');
  gr_map : forall h uid, hm t' !! h = Some uid -> hm t !! h = Some uid \/ h_next (t_handles t) <= h }.
Global Instance grows_pre : PreOrder grows.
Proof.
  split; [intros t; split; [lia|auto]|]. intros a b c [A1 A2] [B1 B2]. split; [lia|]. intros h uid H. destruct (B2 _ _ H) as [H1|H1]; [|right; lia]. auto.
Qed.

Section view.
Context (P : params) (Hfs : p_fs P = all_factories).
Lemma tstep_grows k t t' : tstep P k t t' -> k <> KReset -> grows t t'.
Proof.
  intros Hs Hk. destruct Hs as [t t' H1 H2 H3 Hdd Hfl b Hca Hlo|t|t uid Hu|t h H1 Hdy|t sh o uid H1 H2 H3 H4|t h tmpl o f H1 H2|t h o H1 H2|t sel|t o uid s H1 H2 H3 H4 H5
    |t h tmpl uid o f tm o' s H1 H2 H3 H4 H5 H6 H7 H8 H9|t h o o' uid s H0 H1 H2 H3 H4 H5|t h uid s H1 H2 Hns Hdy|t|t]; try done; split; unfold hm; cbn; try lia; auto.
  - rewrite H1. lia.
  - rewrite H1. auto.
  - intros h u. rewrite lookup_insert_Some. intros [[<- _]|[_ ?]]; [right; lia|auto].
  - intros h' u. rewrite lookup_delete_Some. intros [_ ?]; auto.
  - intros h' u. rewrite lookup_insert_Some. intros [[<- _]|[_ ?]]; [right; lia|auto].
  - intros h' u. rewrite lookup_delete_Some. intros [_ ?]; auto.
  - intros h' u. rewrite foldr_delete_lookup. destruct (decide _); [done|auto].
  - intros h' u. rewrite lookup_insert_Some. intros [[<- _]|[_ ?]]; [right; lia|auto].
Qed.
Lemma tsteps_grows K t t' : tsteps P K t t' -> ~ K KReset -> grows t t'.
Proof. intros Hs Hk. induction Hs as [|t t1 t' (k & Hk1 & H1) _ IH]; [reflexivity|]. etransitivity; [|exact IH]. eapply tstep_grows; [done|]. by intros ->. Qed.

(* ---- what a step does to the object a handle names ---- *)
Definition touches (so : option object) (k : kind) (h : N) : bool :=
  match k with
  | KQuiet _ | KHandle | KSadd _ _ | KNew _ _ => false
  | KHdel h' | KSupd h' _ | KSdel h' | KUpd h' _ | KDedup h' | KRemove h' _ => h' =? h
  | KDrop sel => match so with Some o => sel (h, o) | None => false end
  | KReset => true
  end.
Record same_view (h : N) (t t' : token) : Prop := SameView {
  sv_sobj : t_sobjs t' !! h = t_sobjs t !! h;
  sv_name : hm t' !! h = hm t !! h;
  sv_rows : forall u, hm t !! h = Some u -> rows_of (t_db t') u = rows_of (t_db t) u }.
Global Instance same_view_pre h : PreOrder (same_view h).
Proof.
  split; [intros t; by split|]. intros a b c [A1 A2 A3] [B1 B2 B3]. split; [congruence|congruence|]. intros u Hu. rewrite B3 by congruence. auto.
Qed.
Lemma view_id h t t' : same_view h t t' -> object_id t' h = object_id t h.
Proof. intros [H1 H2 H3]. unfold object_id. rewrite H1. unfold hm in *. rewrite H2. destruct (t_sobjs t !! h); [done|]. destruct (h_map (t_handles t) !! h) as [u|] eqn:Hu; [|done]. rewrite (H3 u) by done. done. Qed.
Lemma view_attr h t t' ty : same_view h t t' -> attr_of t' h ty = attr_of t h ty.
Proof. intros [H1 H2 H3]. unfold attr_of. rewrite H1. unfold hm in *. rewrite H2. destruct (t_sobjs t !! h); [done|]. destruct (h_map (t_handles t) !! h) as [u|] eqn:Hu; [|done]. rewrite (H3 u) by done. done. Qed.
Lemma view_owner h t t' : same_view h t t' -> owner t' h = owner t h.
Proof. intros [H1 _ _]. unfold owner. by rewrite H1. Qed.

Lemma next_ne t h u : tok_ok t -> hm t !! h = Some u -> h_next (t_handles t) <> h.
Proof. intros Ht H. apply (tk_keys _ Ht) in H. lia. Qed.
Lemma uid_ne t h u uid : uid_handle (t_handles t) uid = None -> hm t !! h = Some u -> u <> uid.
Proof. intros Hu H ->. by apply (uid_handle_none _ _ Hu h). Qed.
Lemma tstep_view k t t' h u : tok_ok t -> tstep P k t t' -> hm t !! h = Some u -> touches (t_sobjs t !! h) k h = false -> same_view h t t'.
Proof.
  intros Ht Hs Hh Hk. pose proof (next_ne _ _ _ Ht Hh) as Hne.
  destruct Hs as [t t' H1 H2 H3 Hdd Hfl b Hca Hlo|t|t uid Hu|t h' H1 Hdy|t sh o uid H1 H2 H3 H4|t h' tmpl o f H1 H2|t h' o H1 H2|t sel|t o uid s H1 H2 H3 H4 H5
    |t h' tmpl uid o f tm o' s H1 H2 H3 H4 H5 H6 H7 H8 H9|t h' o o' uid s H0 H1 H2 H3 H4 H5|t h' uid s H1 H2 Hns Hdy|t|t]; try discriminate Hk; cbn [touches] in Hk.
  - split; unfold hm; [by rewrite H2|by rewrite H1|]. intros. by apply rows_of_objs.
  - by split.
  - split; [done| |done]. unfold hm. cbn. by rewrite lookup_insert_ne.
  - apply N.eqb_neq in Hk. split; [done| |done]. unfold hm. cbn. by rewrite lookup_delete_ne.
  - split; [cbn; by rewrite lookup_insert_ne| |done]. unfold hm. cbn. by rewrite lookup_insert_ne.
  - apply N.eqb_neq in Hk. split; [cbn; by rewrite lookup_insert_ne|done|done].
  - apply N.eqb_neq in Hk. split; [cbn; by rewrite lookup_delete_ne| |done]. unfold hm. cbn. by rewrite lookup_delete_ne.
  - split; [rewrite drop_lookup|rewrite drop_hm|done]; destruct (t_sobjs t !! h) as [o|]; by rewrite ?Hk.
  - split; [done|unfold hm; cbn; by rewrite lookup_insert_ne|]. intros u' Hu'. cbn [t_db set_db]. eapply store_rows; [apply Ht|done|done|done|]. by eapply uid_ne.
  - apply N.eqb_neq in Hk. split; [done|done|]. intros u' Hu'. cbn [t_db set_db]. destruct (fetch_ok _ _ _ (tk_db _ Ht) H3) as ([F1 _] & F2 & F3).
    pose proof (obj_factory_good P Hfs _ _ H4) as Hf.
    assert (o' = fst (apply_template o tm)) as Ho' by (by rewrite H8).
    assert (obj_ok o' /\ same_id o o') as [A1 A2].
    { rewrite Ho'. split; [by apply apply_ok|]. apply apply_same. eapply sealed_ids; [done|]. by eapply check_set_ids. }
    destruct (del_attrs_ok (f_ephemeral f) o') as [D1 D2]; [intros; by eapply good_eph|done|].
    assert (same_id o (del_attrs (f_ephemeral f) o')) as S1 by (by etransitivity).
    eapply store_rows; [apply Ht|done|by rewrite (same_uid _ _ S1)|done|]. intros ->. apply Hk. by eapply (tk_inj _ Ht).
  - apply N.eqb_neq in Hk. split; [done|done|]. intros u' Hu'. cbn [t_db set_db]. destruct (fetch_ok _ _ _ (tk_db _ Ht) H2) as ([F1 _] & F2 & F3).
    eapply (store_rows _ o'); [apply Ht|done|by rewrite (same_uid _ _ H4)|done|]. intros ->. apply Hk. by eapply (tk_inj _ Ht).
  - apply N.eqb_neq in Hk. split; [done|done|]. intros u' Hu'. cbn [t_db set_db]. rewrite (remove_rows _ uid) by (try done; apply Ht).
    rewrite bool_decide_eq_false_2; [done|]. intros ->. apply Hk. by eapply (tk_inj _ Ht).
Qed.
Lemma tsteps_view K t t' h u : tok_ok t -> tsteps P K t t' -> hm t !! h = Some u -> (forall k, K k -> touches (t_sobjs t !! h) k h = false) -> same_view h t t'.
Proof.
  intros Ht Hs. revert Ht. induction Hs as [|t t1 t' (k & Hk1 & H1) _ IH]; intros Ht Hh HK; [reflexivity|].
  pose proof (tstep_view _ _ _ _ _ Ht H1 Hh (HK _ Hk1)) as Hv. etransitivity; [exact Hv|]. apply IH; [by eapply (tstep_ok P Hfs)|by destruct Hv as [_ -> _]|]. by destruct Hv as [-> _ _].
Qed.

(* The identity of an object stays unless it is removed. *)
Definition removes (so : option object) (k : kind) (h : N) : bool :=
  match k with
  | KHdel h' | KSdel h' | KRemove h' _ => h' =? h
  | KDrop sel => match so with Some o => sel (h, o) | None => false end
  | KReset => true
  | _ => false
  end.
Lemma upd_store t h tmpl uid o f tm o' s : tok_ok t -> fetch_by_uid (t_db t) uid [] = Ok o -> get_object_factory (p_fs P) o = Ok f ->
  check_set_attributes (f_attrs f) tmpl = Ok tt -> sealed (f_sensitive f) tmpl tm ->
  apply_template o tm = (o', Ok tt) -> store_obj_stmts (t_db t) (del_attrs (f_ephemeral f) o') = Ok s -> h_map (t_handles t) !! h = Some uid ->
  obj_ok (del_attrs (f_ephemeral f) o') /\ same_id o (del_attrs (f_ephemeral f) o') /\ get_string (del_attrs (f_ephemeral f) o') CKA_UNIQUE_ID = Ok uid.
Proof.
  intros Ht H3 H4 H6 H7 H8 H9 H1. destruct (fetch_ok _ _ _ (tk_db _ Ht) H3) as ([F1 _] & F2 & F3).
  pose proof (obj_factory_good P Hfs _ _ H4) as Hf.
  assert (o' = fst (apply_template o tm)) as Ho' by (by rewrite H8).
  assert (obj_ok o' /\ same_id o o') as [A1 A2].
  { rewrite Ho'. split; [by apply apply_ok|]. apply apply_same. eapply sealed_ids; [done|]. by eapply check_set_ids. }
  destruct (del_attrs_ok (f_ephemeral f) o') as [D1 D2]; [intros; by eapply good_eph|done|].
  assert (same_id o (del_attrs (f_ephemeral f) o')) as S1 by (by etransitivity).
  split_and!; [done|done|by rewrite (same_uid _ _ S1)].
Qed.
Lemma tstep_id k t t' h u : tok_ok t -> tstep P k t t' -> object_id t h = Some u -> removes (t_sobjs t !! h) k h = false ->
  object_id t' h = Some u /\ is_session_object t' h = is_session_object t h.
Proof.
  intros Ht Hs Hid Hk. pose proof (id_named _ _ _ Ht Hid) as Hh.
  destruct (touches (t_sobjs t !! h) k h) eqn:Htc; cycle 1.
  { pose proof (tstep_view _ _ _ _ _ Ht Hs Hh Htc) as Hv. rewrite (view_id _ _ _ Hv). unfold is_session_object. by rewrite (sv_sobj _ _ _ Hv). }
  destruct Hs as [t t' H1 H2 H3 Hdd Hfl b Hca Hlo|t|t uid Hu|t h' H1 Hdy|t sh o uid H1 H2 H3 H4|t h' tmpl o f H1 H2|t h' o H1 H2|t sel|t o uid s H1 H2 H3 H4 H5
    |t h' tmpl uid o f tm o' s H1 H2 H3 H4 H5 H6 H7 H8 H9|t h' o o' uid s H0 H1 H2 H3 H4 H5|t h' uid s H1 H2 Hns Hdy|t|t]; try discriminate Htc; try discriminate Hk;
    cbn [touches removes] in *; try congruence; apply N.eqb_eq in Htc; subst h'.
  - unfold object_id, is_session_object in *. cbn. rewrite lookup_insert, H1 in *. split; [|done].
    pose proof (set_obj_same f o tmpl (obj_factory_good P Hfs _ _ H2)) as Hsi. by rewrite (same_uid _ _ Hsi).
  - destruct (upd_store _ _ _ _ _ _ _ _ _ Ht H3 H4 H6 H7 H8 H9 H1) as (U1 & U2 & U3). unfold object_id, is_session_object in *. cbn [t_sobjs set_db t_handles t_db].
    rewrite H2 in *. split; [|done]. rewrite H1. rewrite (store_own _ _ _ _ (db_ok_wf _ (tk_db _ Ht)) U1 U3 H9). unfold hm in Hh. congruence.
  - destruct (fetch_ok _ _ _ (tk_db _ Ht) H2) as ([F1 _] & F2 & F3).
    assert (get_string o' CKA_UNIQUE_ID = Ok uid) as U3 by (by rewrite (same_uid _ _ H4)).
    unfold object_id, is_session_object in *. cbn [t_sobjs set_db t_handles t_db]. split; [|done]. destruct (t_sobjs t !! h); [done|].
    rewrite H1. rewrite (store_own _ _ _ _ (db_ok_wf _ (tk_db _ Ht)) H3 U3 H5). unfold hm in Hh. congruence.
Qed.
Lemma tsteps_id K t t' h u : tok_ok t -> tsteps P K t t' -> object_id t h = Some u ->
  (forall k so, K k -> (is_session_object t h = false -> so = None) -> removes so k h = false) -> object_id t' h = Some u /\ is_session_object t' h = is_session_object t h.
Proof.
  intros Ht Hs. revert Ht. induction Hs as [|t t1 t' (k & Hk1 & H1) _ IH]; intros Ht Hid HK; [done|].
  destruct (tstep_id _ _ _ _ _ Ht H1 Hid) as [I1 I2].
  { apply HK; [done|]. unfold is_session_object. by destruct (t_sobjs t !! h). }
  rewrite <- I2. apply IH; [by eapply (tstep_ok P Hfs)|done|]. by rewrite I2.
Qed.
(* A handle whose object has gone names nothing any more. *)
Record gone (h : N) (t : token) : Prop := Gone {
  go_next : h < h_next (t_handles t);
  go_sobj : t_sobjs t !! h = None;
  go_rows : forall u, hm t !! h = Some u -> rows_of (t_db t) u = None }.
Lemma gone_id h t : gone h t -> object_id t h = None.
Proof. intros [H1 H2 H3]. unfold object_id. rewrite H2. unfold hm in H3. destruct (h_map (t_handles t) !! h) as [u|]; [|done]. by rewrite H3. Qed.
Lemma gone_of h t : tok_ok t -> h < h_next (t_handles t) -> object_id t h = None -> gone h t.
Proof.
  intros Ht Hn Hid. unfold object_id in Hid. destruct (t_sobjs t !! h) as [o|] eqn:Ho.
  - destruct (tk_sobj _ Ht _ _ Ho) as [_ _ _ (uid & Hx & _)]. by rewrite Hx in Hid.
  - split; [done|done|]. intros u Hu. unfold hm in Hu. rewrite Hu in Hid. by destruct (rows_of (t_db t) u).
Qed.
Lemma fetch_rows_of d u o : db_ok d -> fetch_by_uid d u [] = Ok o -> rows_of d u <> None.
Proof. intros Hd H. destruct (fetch_get _ _ _ _ H) as (i & m & H1 & H2 & _). intros Hn. assert (rows_of d u = Some m) as Hx; [|congruence]. apply rows_of_some; [apply Hd|eauto]. Qed.
Lemma tstep_gone k t t' h : tok_ok t -> tstep P k t t' -> k <> KReset -> gone h t -> gone h t'.
Proof.
  intros Ht Hs Hk Hg. pose proof Hg as [G1 G2 G3]. pose proof (tstep_grows _ _ _ Hs Hk) as [R1 R2].
  assert (t_sobjs t' !! h = None) as Hso.
  { destruct (t_sobjs t' !! h) as [o|] eqn:Ho; [|done]. exfalso. assert (tok_ok t') as Ht' by (by eapply (tstep_ok P Hfs)).
    destruct Hs; cbn in Ho; try congruence.
    - apply lookup_insert_Some in Ho as [[<- _]|[_ Ho]]; [lia|congruence].
    - apply lookup_insert_Some in Ho as [[<- _]|[_ Ho]]; congruence.
    - apply lookup_delete_Some in Ho as [_ Ho]. congruence.
    - rewrite foldr_delete_lookup in Ho. destruct (decide _); congruence. }
  split; [lia|done|]. intros u Hu. destruct (R2 _ _ Hu) as [Hu0|]; [|lia]. specialize (G3 _ Hu0).
  destruct Hs as [t t' H1 H2 H3 Hdd Hfl b Hca Hlo|t|t uid Hn|t h' H1 Hdy|t sh o uid H1 H2 H3 H4|t h' tmpl o f H1 H2|t h' o H1 H2|t sel|t o uid s H1 H2 H3 H4 H5
    |t h' tmpl uid o f tm o' s H1 H2 H3 H4 H5 H6 H7 H8 H9|t h' o o' uid s H0 H1 H2 H3 H4 H5|t h' uid s H1 H2 Hns Hdy|t|t]; try done; cbn [t_db set_db].
  - rewrite <- G3. by apply rows_of_objs.
  - rewrite <- G3. eapply store_rows; [apply Ht|done|done|done|]. by eapply uid_ne.
  - destruct (upd_store _ _ _ _ _ _ _ _ _ Ht H3 H4 H6 H7 H8 H9 H1) as (U1 & U2 & U3). rewrite <- G3. eapply store_rows; [apply Ht|done|done|done|].
    intros ->. by apply (fetch_rows_of _ _ _ (tk_db _ Ht) H3).
  - rewrite <- G3. destruct (fetch_ok _ _ _ (tk_db _ Ht) H2) as ([F1 _] & F2 & F3). eapply (store_rows _ o'); [apply Ht|done|by rewrite (same_uid _ _ H4)|done|].
    intros ->. by apply (fetch_rows_of _ _ _ (tk_db _ Ht) H2).
  - rewrite (remove_rows _ uid) by (try done; apply Ht). by destruct (bool_decide _).
Qed.
Lemma tsteps_gone (K : kind -> Prop) t t' h : tok_ok t -> tsteps P K t t' -> ~ K KReset -> gone h t -> gone h t'.
Proof.
  intros Ht Hs. revert Ht. induction Hs as [|t t1 t' (k & Hk1 & H1) _ IH]; intros Ht HK Hg; [done|].
  apply IH; [by eapply (tstep_ok P Hfs)|done|]. eapply tstep_gone; [exact Ht|exact H1| |done]. by intros ->.
Qed.
End view.
