(* What a successful C_SetAttributeValue leaves behind. *)
From Verif Require Import Base Monad Hoare Attr Obj Factory Tables Create Sqlite Storage Token
  ObjSpec Rows ObjOk ObjNew Triple TokInv TokStep TokenFrame TokWp TokAuth ObjView ObjAttrs NewView.

Lemma find_rev_none l ty : find_ck (rev l) ty = None <-> find_ck l ty = None.
Proof.
  induction l as [|c l IH]; [done|]. cbn [rev find_ck]. rewrite find_ck_app. cbn [find_ck]. destruct (N.eqb_spec (ca_type c) ty) as [He|He].
  - split; [|done]. by destruct (find_ck (rev l) ty).
  - rewrite <- IH. by destruct (find_ck (rev l) ty).
Qed.
Lemma last_sealed ss l tm ty : sealed ss l tm -> ~ In ty ss -> last_ck tm ty = last_ck l ty.
Proof.
  intros Hs Hn. induction Hs as [|x y l l' Hx H IH]; [done|]. rewrite !last_ck_cons, IH. destruct (last_ck l ty); [done|].
  destruct Hx as [->|[H1 H2]]; [done|]. rewrite H1. destruct (N.eqb_spec (ca_type x) ty) as [<-|]; done.
Qed.
Definition single (l : list ckattr) (ty : N) : Prop := Nat.le (length (List.filter (fun c => ca_type c =? ty) l)) 1.
Lemma single_none l ty : List.filter (fun c => ca_type c =? ty) l = [] -> find_ck l ty = None.
Proof. induction l as [|c l IH]; cbn; [done|]. destruct (_ =? _); [done|apply IH]. Qed.
Lemma single_last l ty : single l ty -> last_ck l ty = find_ck l ty.
Proof.
  unfold single. induction l as [|c l IH]; [done|]. cbn [List.filter]. rewrite last_ck_cons. cbn [find_ck]. destruct (N.eqb_spec (ca_type c) ty) as [He|He].
  - cbn [length]. intros Hl. assert (find_ck l ty = None) as Hn by (apply single_none; destruct (List.filter _ l); [done|cbn in Hl; lia]).
    unfold last_ck. by rewrite (proj2 (find_rev_none l ty) Hn).
  - intros Hl. rewrite (IH Hl). by destruct (find_ck l ty).
Qed.
Lemma single_sealed ss l tm ty : sealed ss l tm -> single l ty -> single tm ty.
Proof.
  unfold single. intros Hs. assert (length (List.filter (fun c => ca_type c =? ty) tm) = length (List.filter (fun c => ca_type c =? ty) l)) as ->; [|done].
  induction Hs as [|x y l l' Hx H IH]; [done|]. cbn [List.filter]. assert (ca_type y = ca_type x) as -> by (destruct Hx as [->|[? _]]; done).
  destruct (_ =? _); cbn; by rewrite IH.
Qed.
Lemma find_ck_in l ty c : find_ck l ty = Some c -> In c l /\ ca_type c = ty.
Proof.
  induction l as [|x l IH]; cbn [find_ck]; [done|]. destruct (N.eqb_spec (ca_type x) ty) as [He|]; [intros [= <-]; split; [by left|done]|].
  intros H. destruct (IH H). split; [by right|done].
Qed.
Lemma last_ck_in l ty c : last_ck l ty = Some c -> In c l /\ ca_type c = ty.
Proof. intros H. apply find_ck_in in H as [H1 H2]. split; [by apply in_rev|done]. Qed.

Section set.
Context (P : params) (Hfs : p_fs P = all_factories).

(* The new value of an attribute not stored sealed: that of its last entry in the template, or as before. *)
Definition set_to (l : list ckattr) (ty : N) (old new : option attr) : Prop :=
  match last_ck l ty with Some c => exists a, from_ck_attr c = Ok a /\ new = Some a | None => new = old end.

Lemma set_object_done t h l t' : tok_ok t -> set_object_attrs P h l t = (t', Ok tt) ->
  match t_sobjs t !! h with
  | Some _ => forall ty, set_to l ty (attr_of t h ty) (attr_of t' h ty)
  | None => logged_in t = true /\ exists f uid, good_factory f /\ object_id t h = Some uid /\ forall ty, ~ In ty (f_ephemeral f) ->
      (~ In ty (f_sensitive f) -> search_by_id ty <> Some KIgnore -> set_to l ty (attr_of t h ty) (attr_of t' h ty)) /\
      (In ty (f_sensitive f) -> single l ty ->
         match find_ck l ty with
         | Some c => exists e, attr_of t' h ty = Some (from_bytes ty e) /\ is_sealed P t uid (ck_to_buf c) e
         | None => attr_of t' h ty = attr_of t h ty
         end)
  end.
Proof.
  intros Ht.
  cut (wp (set_object_attrs P h l) t (fun t' r => r = Ok tt -> match t_sobjs t !! h with
  | Some _ => forall ty, set_to l ty (attr_of t h ty) (attr_of t' h ty)
  | None => logged_in t = true /\ exists f uid, good_factory f /\ object_id t h = Some uid /\ forall ty, ~ In ty (f_ephemeral f) ->
      (~ In ty (f_sensitive f) -> search_by_id ty <> Some KIgnore -> set_to l ty (attr_of t h ty) (attr_of t' h ty)) /\
      (In ty (f_sensitive f) -> single l ty ->
         match find_ck l ty with
         | Some c => exists e, attr_of t' h ty = Some (from_bytes ty e) /\ is_sealed P t uid (ck_to_buf c) e
         | None => attr_of t' h ty = attr_of t h ty
         end)
  end)).
  { intros H Hi. unfold wp in H. rewrite Hi in H. by apply H. }
  unfold set_object_attrs. apply wp_bind, wp_gets. destruct (t_sobjs t !! h) as [o|] eqn:Ho.
  - apply wp_bind, wp_lift. destruct (get_object_factory _ o) as [f|e]; [|done]. destruct (set_object_attributes f o l) as [o' r] eqn:Hset.
    apply wp_bind, wp_modify, wp_lift. intros -> ty. unfold set_object_attributes in Hset. destruct (negb _); [done|]. destruct (check_set_attributes _ _); [|done].
    destruct (apply_all _ _ _ ty Hset) as [A1 A2]. unfold attr_of at 2. cbn [t_sobjs set_sobjs]. rewrite lookup_insert, A1. unfold attr_of. rewrite Ho. unfold set_to.
    destruct (last_ck l ty) as [c|] eqn:Hc; [|done]. apply last_ck_in in Hc as [Hc _]. specialize (A2 _ Hc). destruct (from_ck_attr c); [eauto|done].
  - apply wp_bind, wp_gets, wp_bind, wp_ensure; [intros Hlog|done]. apply wp_bind, wp_st_fetch; [|done]. intros i o Hf. apply wp_bind, wp_lift.
    destruct (get_object_factory _ o) as [f|e] eqn:Hof; [|done]. apply wp_bind, wp_ensure; [|done]. intros Hm. apply wp_bind, wp_lift.
    destruct (check_set_attributes (f_attrs f) l) as [[]|] eqn:Hc; [|done]. apply (wp_st_update P Hfs); [|done].
    intros t1 uid o1 f1 tm o' s Hn Hu Hfe Hof1 Hse Hap Hst Hen _. split; [done|].
    destruct (partial_factory P Hfs t h [CKA_CLASS; CKA_KEY_TYPE; CKA_MODIFIABLE] o uid o1 eq_refl eq_refl eq_refl Ht Hf Hu Hfe) as [E1 E2]. rewrite Hof, Hof1 in E1. injection E1 as <-.
    pose proof (obj_factory_good P Hfs _ _ Hof) as Hgf. exists f, uid. split_and!; [done| |].
    { destruct (fetch_ok _ _ _ (tk_db _ Ht) Hfe) as (_ & Hui & _). destruct (looks_fetch _ _ _ _ Ht Ho Hu Hfe) as [_ L2]. specialize (L2 CKA_UNIQUE_ID).
      unfold get_string, get_as in Hui. destruct (get_attr o1 CKA_UNIQUE_ID) as [a|]; [|done]. unfold attr_of in L2. unfold object_id. rewrite Ho in *. cbn [t_handles set_io] in Hu. rewrite Hu in *.
      by destruct (rows_of (t_db t) uid). }
    intros ty Heph.
    cbn [t_db set_io t_handles] in *. destruct (upd_store P Hfs _ _ _ _ _ _ _ _ _ Ht Hfe Hof1 Hc Hse Hap Hst Hu) as ([U1 U1'] & U2 & U3).
    pose proof (looks_fetch _ _ _ _ Ht Ho Hu Hfe) as [L1 L2].
    assert (attr_of (set_db (c_disk (exec s (t_db t))) t1) h ty = kept_attr_of o' ty) as Ha.
    { unfold attr_of. destruct Hn as (i1 & n1 & ->). cbn [t_sobjs set_db t_handles t_db set_io set_fresh].
      rewrite Ho, Hu, (store_own _ _ _ _ (db_ok_wf _ (tk_db _ Ht)) (conj U1 U1') U3 Hst).
      rewrite (stored_attr (t_db t) (del_attrs (f_ephemeral f) o') s ty); [|done| |done].
      - unfold kept_attr_of. rewrite get_dels. destruct (existsb _ _) eqn:Hx; [|done]. exfalso. apply Heph. apply existsb_exists in Hx as (x & Hx & Hxe). by apply N.eqb_eq in Hxe as <-.
      - right. apply once_agree, once_del. assert (o' = fst (apply_template o1 tm)) as -> by (by rewrite Hap). apply once_apply. by eapply once_fetch. }
    destruct (apply_all _ _ _ ty Hap) as [A1 A2].
    assert (last_ck tm ty = None -> attr_of (set_db (c_disk (exec s (t_db t))) t1) h ty = attr_of t h ty) as Hold.
    { intros Hl. rewrite Ha. unfold kept_attr_of. rewrite A1, Hl, L2. destruct (attr_of t h ty) as [a|] eqn:Hat; [|done]. unfold attr_of in Hat. rewrite Ho, Hu in Hat.
      destruct (rows_of _ _) as [m|]; [|done]. destruct (row_kept _ _ _ Hat) as [-> ->]. done. }
    split.
    + intros Hns Hki. pose proof (last_sealed _ _ _ _ Hse Hns) as Hls. unfold set_to. rewrite <- Hls. destruct (last_ck tm ty) as [c|] eqn:Hlc; [|by apply Hold].
      apply last_ck_in in Hlc as [Hlc1 Hlc2]. specialize (A2 _ Hlc1). destruct (from_ck_attr c) as [a|] eqn:Hfa; [|done]. exists a. split; [done|]. rewrite Ha. unfold kept_attr_of.
      rewrite A1. cbn [opt]. destruct (from_ck_kind _ _ Hfa) as [K1 K2]. rewrite norm_id by done.
      assert (is_kept a = true) as ->; [|done]. unfold is_kept. rewrite K2, Hlc2 in K1. revert Hfa. unfold from_ck_attr. rewrite Hlc2, K1. destruct (a_kind a); done.
    + intros Hin Hsi. pose proof (single_last _ _ (single_sealed _ _ _ _ Hse Hsi)) as Hls. destruct (find_ck l ty) as [c|] eqn:Hfc.
      * destruct (Hen ty c Hin Hfc) as (e & E3 & E4). exists e. split; [|done]. rewrite Ha. unfold kept_attr_of. rewrite A1, Hls, E3.
        assert (search_by_id ty = Some KBytes) as Hk by (by apply (good_sens f)). assert (from_ck_attr (ca ty e) = Ok (from_bytes ty e)) as ->.
        { unfold from_ck_attr. cbn [ca_type ca]. rewrite Hk. done. }
        cbn [opt]. assert (is_kept (from_bytes ty e) = true) as -> by done. f_equal. by apply norm_id.
      * apply Hold. rewrite Hls. clear -Hse Hfc. revert Hfc. induction Hse as [|x y l l' Hx H IH]; [done|]. cbn [find_ck].
        assert (ca_type y = ca_type x) as -> by (destruct Hx as [->|[? _]]; done). destruct (_ =? _); [done|apply IH].
Qed.
Lemma set_object_failed t h l t' e : tok_ok t -> t_sobjs t !! h = None -> set_object_attrs P h l t = (t', Err e) -> noise t t'.
Proof.
  intros Ht Ho. cut (wp (set_object_attrs P h l) t (fun t' r => match r with Ok _ => True | Err _ => noise t t' end)).
  { intros H Hi. unfold wp in H. by rewrite Hi in H. }
  unfold set_object_attrs. apply wp_bind, wp_gets. rewrite Ho.
  apply wp_bind, wp_gets, wp_bind, wp_ensure; [intros Hlog|reflexivity]. apply wp_bind, wp_st_fetch; [|intros; apply noise_io]. intros i o Hf. apply wp_bind, wp_lift.
  destruct (get_object_factory _ o) as [f|e'] eqn:Hof; [|apply noise_io]. apply wp_bind, wp_ensure; [|intros; apply noise_io]. intros Hm. apply wp_bind, wp_lift.
  destruct (check_set_attributes (f_attrs f) l) as [[]|] eqn:Hc; [|apply noise_io]. apply (wp_st_update P Hfs); [done|].
  intros t1 e1 Hn. etransitivity; [apply noise_io|done].
Qed.
End set.
