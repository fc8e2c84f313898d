(* What a newly inserted object and a copy look like. *)
From Verif Require Import Base Monad Hoare Attr Obj Factory Tables Create Sqlite Storage Token
  ObjSpec Rows ObjOk ObjNew Triple TokInv TokStep TokenFrame TokWp TokAuth ObjView ObjAttrs.

Section view.
Context (P : params) (Hfs : p_fs P = all_factories).

(* The handle names the object: in memory as it is, on disk with the secret attributes sealed. *)
Record placed (t t' : token) (sh h : N) (o : object) : Prop := Placed {
  pl_id : exists uid, get_string o CKA_UNIQUE_ID = Ok uid /\ object_id t' h = Some uid;
  pl_session : is_session_object t' h = negb (is_token o);
  pl_mem : is_token o = false -> t_sobjs t' !! h = Some (set_session (set_handle o h) sh);
  pl_disk : is_token o = true -> logged_in t = true /\ exists f uid, get_object_factory (p_fs P) o = Ok f /\ get_string o CKA_UNIQUE_ID = Ok uid /\
    forall ty, ty <> CKA_CLASS \/ agree o -> ~ In ty (f_ephemeral f) ->
      (~ In ty (f_sensitive f) -> attr_of t' h ty = kept_attr_of o ty) /\
      (In ty (f_sensitive f) -> match get_attr o ty with
        | Some a => exists e, attr_of t' h ty = Some (from_bytes ty e) /\ is_sealed P t uid (a_val a) e
        | None => attr_of t' h ty = None end) }.
Lemma insert_view sh o t t' h : tok_ok t -> new_ok o -> insert_object P sh o t = (t', Ok h) -> h = h_next (t_handles t) /\ placed t t' sh h o.
Proof.
  intros Ht Hno. pose proof Hno as [Ho [Hh _]]. cut (wp (insert_object P sh o) t (fun t' r => match r with Ok h => h = h_next (t_handles t) /\ placed t t' sh h o | Err _ => True end)).
  { intros H Hi. unfold wp in H. by rewrite Hi in H. }
  unfold insert_object. destruct (is_token o) eqn:Htk.
  - apply wp_bind, wp_gets, wp_bind, wp_ensure; [intros Hlog|done]. unfold st_store. apply wp_bind, wp_lift.
    destruct (get_object_factory _ o) as [f|] eqn:Hof; [|done]. pose proof (obj_factory_good P Hfs _ _ Hof) as Hf.
    apply wp_bind, wp_lift. destruct (get_string o CKA_UNIQUE_ID) as [uid|] eqn:Hu; [|done].
    apply wp_bind, (wp_encrypt_attrs P (f_sensitive f)); [intros; by apply (good_sens f)|done|apply (good_nodup f Hf)| |done].
    intros t1 o1 Hn Hp Hsb Hseal. cbv zeta. assert (same_id o o1) as Hid. { eapply same_but_id; [|done]. intros x Hx. by apply (good_sens _ _ Hf). }
    assert (obj_ok o1) as Ho1. { split; [by apply Hp, Ho|]. exists uid. by rewrite (same_uid _ _ Hid). }
    destruct (del_attrs_ok (f_ephemeral f) o1) as [D1 D2]; [intros; by eapply good_eph|done|].
    assert (same_id o (del_attrs (f_ephemeral f) o1)) as Hid2 by (by etransitivity). set (o2 := del_attrs (f_ephemeral f) o1) in *.
    assert (o_handle o2 = CK_INVALID_HANDLE) as Hh2 by (destruct Hid2 as [-> _]; done). rewrite Hh2. cbn [N.eqb]. rewrite N.eqb_refl. cbv iota.
    apply wp_bind. apply (wp_new_handle uid); [|done]. intros Hun. apply wp_bind, wp_dbwrite; [|done]. intros i s Hs. apply wp_ret.
    destruct Hn as (i0 & n0 & ->). split; [done|]. cbn [t_db set_io set_fresh add_handle set_handles t_handles h_next] in *.
    assert (t_sobjs t !! h_next (t_handles t) = None) as Hns.
    { destruct (t_sobjs t !! _) as [ob|] eqn:Hob; [|done]. destruct (tk_sobj _ Ht _ _ Hob) as [_ _ _ [uu Hx]]. destruct Hx as [_ Hx]. apply (tk_keys _ Ht) in Hx. lia. }
    pose proof (store_own _ _ _ uid (db_ok_wf _ (tk_db _ Ht)) D1 ltac:(by rewrite (same_uid _ _ Hid2)) Hs) as Hown.
    split.
    + exists uid. split; [done|]. unfold object_id. cbn [t_sobjs set_db set_io set_handles set_fresh t_handles t_db h_map add_handle]. rewrite Hns, lookup_insert, Hown. done.
    + unfold is_session_object. cbn [t_sobjs set_db set_io set_handles set_fresh add_handle]. by rewrite Hns, Htk.
    + by rewrite Htk.
    + intros _. split; [done|]. exists f, uid. split_and!; [done|done|]. intros ty Hnc He.
      assert (attr_of (set_db (c_disk (exec s (t_db t))) (set_io i (add_handle uid (set_fresh n0 (set_io i0 t))))) (h_next (t_handles t)) ty = kept_attr_of o1 ty) as Ha.
      { unfold attr_of. cbn [t_sobjs set_db set_io set_handles set_fresh t_handles t_db h_map add_handle]. rewrite Hns, lookup_insert, Hown.
        rewrite (stored_attr (t_db t) o2 s ty); [|apply D1| |done]; [|destruct Hnc as [|Hag]; [by left|right; apply agree_del; [|by apply Hp]; intros X; by apply (good_eph _ _ Hf) in X as [X _]]]. unfold kept_attr_of, o2. rewrite get_dels.
        destruct (existsb _ _) eqn:Hx; [|done]. exfalso. apply He. apply existsb_exists in Hx as (x & Hx & Hxe). by apply N.eqb_eq in Hxe as <-. }
      rewrite Ha. destruct Hsb as (_ & _ & _ & Sb1 & Sb2). split; intros Hin.
      * unfold kept_attr_of. by rewrite Sb1.
      * destruct (get_attr o ty) as [a|] eqn:Hat.
        -- destruct (Hseal ty a Hin Hat) as (e & E1 & E2). exists e. split; [|done]. unfold kept_attr_of. rewrite E1.
           assert (search_by_id ty = Some KBytes) as Hk by (by apply (good_sens f)).
           assert (is_kept (from_bytes ty e) = true) as -> by done. f_equal. by apply norm_id.
        -- apply Sb2 in Hat. unfold kept_attr_of. by rewrite Hat.
  - apply wp_bind. change (wp h_fresh t ?Q') with (Q' (bump t) (Ok (h_next (t_handles t)))). cbv beta iota zeta.
    apply wp_bind, wp_lift. change (get_string (set_session (set_handle o (h_next (t_handles t))) sh)) with (get_string o).
    destruct (get_string o CKA_UNIQUE_ID) as [uid|] eqn:Hu; [|done].
    apply wp_bind, wp_h_insert; [|done]. intros _ _. apply wp_bind, wp_modify, wp_ret. split; [done|]. split.
    + exists uid. split; [done|]. unfold object_id. cbn [t_sobjs set_sobjs]. rewrite lookup_insert. change (opt (get_string o CKA_UNIQUE_ID) = Some uid). by rewrite Hu.
    + unfold is_session_object. cbn [t_sobjs set_sobjs]. by rewrite lookup_insert, Htk.
    + intros _. cbn [t_sobjs set_sobjs]. by rewrite lookup_insert.
    + by rewrite Htk.
Qed.

(* ---- copies ---- *)
Lemma copy_check_in tab o tmpl c : copy_check tab o tmpl = Ok tt -> In c tmpl ->
  exists oa, find_oa tab (ca_type c) = Some oa /\ (oa_is oa OA_Unchangeable = true -> oa_is oa OA_ChangeOnCopy = true).
Proof.
  induction tmpl as [|d r IH]; [done|]. cbn [copy_check]. destruct (find_oa tab (ca_type d)) as [oa|] eqn:Hf; [|done].
  match goal with |- rbind ?x _ = _ -> _ => destruct x as [u|] eqn:Hx; [|done] end. cbn [rbind]. intros Hr [->|Hin]; [|by apply IH].
  exists oa. split; [done|]. intros Hu. rewrite Hu in Hx. destruct (oa_is oa OA_ChangeOnCopy); [done|].
  match type of Hx with rbind ?x _ = _ => destruct x; done end.
Qed.
Lemma find_filter_other (p : attr -> bool) l ty : (forall a, a_type a = ty -> p a = true) -> find_attr (List.filter p l) ty = find_attr l ty.
Proof.
  intros Hp. induction l as [|a l IH]; cbn [List.filter find_attr]; [done|]. destruct (N.eqb_spec (a_type a) ty) as [He|He].
  - rewrite (Hp a He). cbn [find_attr]. by rewrite (proj2 (N.eqb_eq _ _) He).
  - destruct (p a); cbn [find_attr]; [|done]. by rewrite (proj2 (N.eqb_neq _ _) He).
Qed.
Lemma blind_attr uid o ty : ty <> CKA_CLASS -> ty <> CKA_UNIQUE_ID -> get_attr (blind_copy uid o) ty = get_attr o ty.
Proof.
  intros H1 H2. unfold blind_copy, generate_unique, get_attr. cbn [o_attrs with_attrs]. 
  assert (forall l1 l2, (forall a, In a l1 -> a_type a <> ty) -> find_attr (l1 ++ l2) ty = find_attr l2 ty) as Hap.
  { induction l1 as [|a l1 IH]; intros l2 Hl; [done|]. cbn [find_attr app]. rewrite (proj2 (N.eqb_neq _ _)) by (apply Hl; by left). apply IH. intros; apply Hl; by right. }
  rewrite Hap.
  - apply find_filter_other. intros a <-. apply negb_true_iff, N.eqb_neq. done.
  - intros a Ha. revert Ha. destruct (has_attr _ _); cbn; intros; repeat match goal with H : _ \/ _ |- _ => destruct H as [<-|H] end; try done; cbn; congruence.
Qed.
Lemma put_other o ty b ty' : ty <> CKA_CLASS -> ty <> ty' -> get_attr (put_attr o (from_bool ty b)) ty' = get_attr o ty'.
Proof. intros Hc H. rewrite get_put by (by apply N.eqb_neq). cbn [a_type from_bool]. by rewrite (proj2 (N.eqb_neq _ _) H). Qed.
Lemma copy_attr uid o tmpl n : factories_copy uid (p_fs P) o tmpl = Ok n ->
  is_copyable o = true /\ exists f, get_object_factory (p_fs P) o = Ok f /\ good_factory f /\
  forall ty, ty <> CKA_CLASS -> ty <> CKA_UNIQUE_ID -> ty <> CKA_NEVER_EXTRACTABLE -> ty <> CKA_ALWAYS_SENSITIVE ->
    get_attr n ty = get_attr o ty \/
    exists c x oa, In c tmpl /\ ca_type c = ty /\ from_ck_attr c = Ok x /\ get_attr n ty = Some x /\
      find_oa (f_attrs f) ty = Some oa /\ (oa_is oa OA_Unchangeable = true -> oa_is oa OA_ChangeOnCopy = true).
Proof.
  unfold factories_copy. destruct (is_copyable o); [|done]. cbn [negb]. destruct (get_object_factory (p_fs P) o) as [f|] eqn:Hof; [|done]. cbn [rbind].
  intros H. split; [done|]. exists f. split; [done|]. split; [by eapply obj_factory_good|].
  assert (default_copy uid f o tmpl = Ok n) as Hd by (destruct (f_kind f); done). clear H. unfold default_copy in Hd.
  destruct (copy_check (f_attrs f) o tmpl) as [[]|] eqn:Hc; [|done]. cbn [rbind] in Hd.
  destruct (apply_template (blind_copy uid o) tmpl) as [m [[]|]] eqn:Hap; [|done]. intros ty N1 N2 N3 N4.
  assert (get_attr n ty = get_attr m ty) as ->.
  { injection Hd as <-. match goal with |- get_attr (match ?x with Ok _ => put_attr ?o1 _ | Err _ => _ end) _ = _ => transitivity (get_attr o1 ty); [destruct x; [|done]; by apply put_other|] end.
    match goal with |- get_attr (match ?x with Ok _ => put_attr ?o1 _ | Err _ => _ end) _ = _ => destruct x; [|done] end. by apply put_other. }
  destruct (apply_entry _ _ _ _ ty Hap) as [->|(c & x & A1 & A2 & A3 & A4)].
  - left. by apply blind_attr.
  - right. destruct (copy_check_in _ _ _ _ Hc A1) as (oa & O1 & O2). exists c, x, oa. subst ty. done.
Qed.
(* The copy of the object a handle names. *)
Lemma wp_copy_object sh h tmpl t (Q : token -> result N -> Prop) : (forall n, utf8_valid (p_uuid P n) = true) -> tok_ok t ->
  (forall t0 t' o uid n h', noise t t0 -> (t_sobjs t !! h = Some o \/ t_sobjs t !! h = None /\ fetched P t h [] o /\ (logged_in t = true \/ is_private o = false)) ->
     factories_copy uid (p_fs P) o tmpl = Ok n -> new_ok n -> utf8_valid uid = true -> h' = h_next (t_handles t) -> placed t0 t' sh h' n -> Q t' (Ok h')) ->
  (forall t' e, Q t' (Err e)) -> wp (copy_object P sh h tmpl) t Q.
Proof.
  intros Hutf Ht H1 H2. unfold copy_object. apply wp_bind, wp_gets, wp_bind.
  assert (forall t0 o, noise t t0 -> (t_sobjs t !! h = Some o \/ t_sobjs t !! h = None /\ fetched P t h [] o /\ (logged_in t = true \/ is_private o = false)) -> obj_pre o ->
    wp (let! uid := new_uid P in let! n := lift (factories_copy uid (p_fs P) o tmpl) in insert_object P sh n) t0 Q) as Hgo.
  { intros t0 o Hn Ho Hp. assert (tok_ok t0) as Ht0. { destruct Hn as (i & n & ->). apply (tok_same t); try done; apply (tk_db _ Ht). }
    assert (t_handles t0 = t_handles t) as Hh. { by destruct Hn as (i & n & ->). }
    unfold new_uid. apply wp_bind, wp_bind, wp_draw, wp_ret, wp_bind, wp_lift. destruct (factories_copy _ _ _ _) as [n|] eqn:Hf; [|done].
    pose proof (factories_copy_ok _ (Hutf _) _ _ _ _ Hp Hf) as Hno. unfold wp. destruct (insert_object P sh n _) as [t' [h'|e]] eqn:Hi; [|by apply H2]. cbn [fst snd].
    assert (noise t (set_fresh (t_fresh t0 + 1) t0)) as Hn1 by (etransitivity; [exact Hn|apply noise_fresh]).
    apply insert_view in Hi as [E1 E2]; [|apply (tok_same t0); try done; apply (tk_db _ Ht0)|done]. eapply H1; try done. rewrite E1. cbn. by rewrite Hh. }
  destruct (t_sobjs t !! h) as [o|] eqn:Hs.
  - apply wp_ret. apply Hgo; [reflexivity|by left|]. apply (tk_sobj _ Ht _ _ Hs).
  - apply wp_bind, wp_st_fetch; [|done]. intros i o Hf. apply wp_bind, wp_gets, wp_bind, wp_ensure; [|done]. intros Hl. apply wp_ret.
    apply Hgo; [apply noise_io|right; split_and!; try done; cbn in Hl; destruct (logged_in _); [by left|right]; by destruct (is_private o)|]. by eapply fetched_pre.
Qed.
End view.
