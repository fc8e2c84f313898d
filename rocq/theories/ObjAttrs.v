(* How the steps change the attributes of an object. *)
From Verif Require Import Base Monad Hoare Attr Obj Factory Tables Create Sqlite Storage Token Backend State Api
  Rows ObjOk ObjNew Triple TokInv TokStep TokWp TokAuth Spec WorldFrame WorldWp Sessions SessionInv SessionFacts ObjWorld ObjView.

(* ---- templates ---- *)
Lemma apply_entry tm o o' r ty : apply_template o tm = (o', r) ->
  get_attr o' ty = get_attr o ty \/ exists c a, In c tm /\ ca_type c = ty /\ from_ck_attr c = Ok a /\ get_attr o' ty = Some a.
Proof.
  revert o. induction tm as [|c tm IH]; intros o; cbn [apply_template]; [intros [= -> _]; by left|].
  destruct (from_ck_attr c) as [a|] eqn:Ha; cbn [rbind]; [|intros [= -> _]; by left].
  destruct (set_attr o a) as [o1|] eqn:Hs; [|intros [= -> _]; by left]. intros H. destruct (IH _ H) as [Hg|(c' & a' & H1 & H2 & H3 & H4)].
  - rewrite Hg, (get_set _ _ _ _ Hs). destruct (from_ck_kind _ _ Ha) as [_ Ht]. destruct (N.eqb_spec (a_type a) ty) as [He|]; [|by left].
    right. exists c, a. split; [by left|]. split; [congruence|done].
  - right. exists c', a'. split; [by right|done].
Qed.
Definition last_ck (tm : list ckattr) (ty : N) : option ckattr := find_ck (rev tm) ty.
Lemma find_ck_app l l' t : find_ck (l ++ l') t = match find_ck l t with Some c => Some c | None => find_ck l' t end.
Proof. induction l as [|x l IH]; cbn; [done|]. by destruct (_ =? _). Qed.
Lemma last_ck_cons c tm ty : last_ck (c :: tm) ty = match last_ck tm ty with Some x => Some x | None => if ca_type c =? ty then Some c else None end.
Proof. unfold last_ck. cbn [rev]. rewrite find_ck_app. cbn. by destruct (find_ck (rev tm) ty). Qed.
Lemma apply_all tm o o' ty : apply_template o tm = (o', Ok tt) ->
  get_attr o' ty = match last_ck tm ty with Some c => opt (from_ck_attr c) | None => get_attr o ty end /\
  forall c, In c tm -> is_ok (from_ck_attr c) = true.
Proof.
  revert o. induction tm as [|c tm IH]; intros o; cbn [apply_template]; [intros [= ->]; by split|].
  destruct (from_ck_attr c) as [a|] eqn:Ha; cbn [rbind]; [|done]. destruct (set_attr o a) as [o1|] eqn:Hs; [|done].
  intros H. destruct (IH _ H) as [H1 H2]. split.
  - rewrite H1, last_ck_cons. destruct (last_ck tm ty); [done|]. rewrite (get_set _ _ _ _ Hs). destruct (from_ck_kind _ _ Ha) as [_ ->].
    destruct (ca_type c =? ty); [|done]. by rewrite Ha.
  - intros x [<-|Hx]; [by rewrite Ha|auto].
Qed.

(* What the record of a stored object says. *)
Definition kept_attr_of (o : object) (ty : N) : option attr :=
  match get_attr o ty with Some a => if is_kept a then Some (norm a) else None | None => None end.
Lemma store_sql d o s a : store_obj_stmts d o = Ok s -> In a (o_attrs o) -> is_ok (to_sql a) = true.
Proof.
  unfold store_obj_stmts. destruct (get_string o _) as [uid|]; [|done]. cbn [rbind]. destruct (negb _); [done|].
  destruct (ins_stmts _ _) eqn:Hi; [|done]. intros _. by eapply ins_ok.
Qed.
Lemma class_some o : class_ok o -> exists a, get_attr o CKA_CLASS = Some a.
Proof. unfold class_ok, get_ulong, get_as. destruct (get_attr o CKA_CLASS); [eauto|done]. Qed.
Lemma class_kept o a : obj_pre o -> get_attr o CKA_CLASS = Some a -> is_kept a = true.
Proof. intros Ho Ha. apply (wf_kept a KNum); try done; [by eapply pre_get_wf|]. by rewrite (get_type _ _ _ Ha). Qed.
Lemma last_agree o : obj_pre o -> agree o -> last_attr (o_attrs o) CKA_CLASS = match get_attr o CKA_CLASS with Some a => if is_kept a then Some a else None | None => None end.
Proof.
  intros Hp Ho. destruct (class_some _ (pre_class _ Hp)) as [a Ha]. rewrite Ha, (class_kept _ _ Hp Ha).
  destruct (last_attr (o_attrs o) CKA_CLASS) as [b|] eqn:Hb; [apply last_attr_in in Hb as (B1 & B2 & _); rewrite <- (Ho b B1 B2); congruence|]. exfalso.
  unfold last_attr in Hb. apply find_none in Hb. apply Hb. rewrite map_rev. apply in_rev. rewrite rev_involutive.
  unfold get_attr in Ha. pose proof (find_in _ _ _ Ha) as Hin. apply in_map_iff. exists a. split; [by apply (get_type o)|]. apply in_filter. split; [done|].
  by eapply class_kept.
Qed.
Lemma stored_attr d o s ty : obj_pre o -> ty <> CKA_CLASS \/ agree o -> store_obj_stmts d o = Ok s ->
  row_attr (kept_rows (o_attrs o) ∅) ty = kept_attr_of o ty.
Proof.
  intros Ho Hc Hs. rewrite kept_attr; [|apply Ho|intros a Ha; by eapply store_sql]. unfold kept_attr_of.
  assert (last_attr (o_attrs o) ty = match get_attr o ty with Some a => if is_kept a then Some a else None | None => None end) as ->.
  { destruct (N.eq_dec ty CKA_CLASS) as [->|Hne]; [|by apply last_attr_pre]. destruct Hc as [|Hc]; [done|]. by apply last_agree. }
  destruct (get_attr o ty) as [a|] eqn:Ha.
  - destruct (is_kept a) eqn:Hk; [done|]. destruct (N.eqb_spec ty CKA_CLASS) as [->|]; [|done]. by rewrite (class_kept o a) in Hk.
  - destruct (N.eqb_spec ty CKA_CLASS) as [->|]; [|done]. destruct (class_some o (pre_class _ Ho)) as [a Hx]. congruence.
Qed.
(* The attributes of a record are as they were stored. *)
Lemma row_kept m ty a : row_attr m ty = Some a -> is_kept a = true /\ norm a = a.
Proof.
  unfold row_attr. destruct (m !! ty) as [v|] eqn:Hm.
  - destruct (from_sql ty v) as [x|] eqn:Hx; [|done]. cbn. intros [= ->]. pose proof (from_sql_type _ _ _ Hx) as Ht.
    assert (search_by_id (a_type a) = Some (a_kind a) /\ is_kept a = true) as [H1 H2]; [|split; [done|by apply norm_id]].
    revert Hx. unfold from_sql, is_kept. rewrite Ht. destruct (search_by_id ty) as [[]|]; try done; destruct v; try done; cbn.
    all: repeat match goal with
      | |- rbind ?x _ = _ -> _ => destruct x; cbn [rbind]; [|done]
      | |- match ?x with _ => _ end = _ -> _ => destruct x; try done
      | |- (if ?x then _ else _) = _ -> _ => destruct x; try done
      | |- Ok _ = Ok _ -> _ => intros [= <-]; done end.
  - destruct (N.eqb_spec ty CKA_CLASS) as [->|]; [|done]. by intros [= <-].
Qed.

Section attrs.
Context (P : params) (Hfs : p_fs P = all_factories).

(* An object with the attributes of the one a handle names. *)
Definition looks (t : token) (h : N) (o : object) : Prop := obj_pre o /\ forall ty, get_attr o ty = attr_of t h ty.
Lemma looks_fetch t h u o : tok_ok t -> t_sobjs t !! h = None -> hm t !! h = Some u -> fetch_by_uid (t_db t) u [] = Ok o -> looks t h o.
Proof.
  intros Ht Hs Hh Hf. destruct (fetch_pre _ _ _ _ Hf) as [Hp _]. split; [done|]. intros ty. destruct (fetch_get _ _ _ _ Hf) as (i & m & F1 & F2 & F3 & _).
  unfold attr_of. unfold hm in Hh. rewrite Hs, Hh. assert (rows_of (t_db t) u = Some m) as ->; [|by apply F3]. apply rows_of_some; [apply (tk_db _ Ht)|eauto].
Qed.
Lemma looks_sobj t h o : tok_ok t -> t_sobjs t !! h = Some o -> looks t h o.
Proof. intros Ht Hs. destruct (tk_sobj _ Ht _ _ Hs) as [[Hp _] _ _ _]. split; [done|]. intros ty. unfold attr_of. by rewrite Hs. Qed.

(* The template entry an attribute was set from: the object is modifiable and its factory allows the change. *)
Record set_by (t : token) (h : N) (tmpl : list ckattr) (ty : N) (a : option attr) (f : factory) (c : ckattr) : Prop := SetBy {
  sb_obj : exists o, looks t h o /\ get_object_factory (p_fs P) o = Ok f /\ is_modifiable o = true;
  sb_check : check_set_attributes (f_attrs f) tmpl = Ok tt;
  sb_in : In c tmpl; sb_type : ca_type c = ty;
  sb_val : In ty (f_sensitive f) \/ exists x, from_ck_attr c = Ok x /\ (a = Some x \/ is_kept x = false /\ a = None) }.
Definition set_kind (k : kind) (h : N) (tmpl : list ckattr) : Prop := k = KSupd h tmpl \/ k = KUpd h tmpl.

Lemma supd_attr t h tmpl o f ty : tok_ok t -> t_sobjs t !! h = Some o -> get_object_factory (p_fs P) o = Ok f ->
  let t' := set_sobjs (<[h := fst (set_object_attributes f o tmpl)]> (t_sobjs t)) t in
  attr_of t' h ty = attr_of t h ty \/ exists c, set_by t h tmpl ty (attr_of t' h ty) f c.
Proof.
  intros Ht Ho Hf t'. assert (attr_of t' h ty = get_attr (fst (set_object_attributes f o tmpl)) ty) as Ha.
  { unfold attr_of, t'. cbn. by rewrite lookup_insert. }
  assert (attr_of t h ty = get_attr o ty) as Hb by (unfold attr_of; by rewrite Ho). rewrite Ha, Hb. clear Ha Hb t'.
  unfold set_object_attributes. destruct (is_modifiable o) eqn:Hm; [|by left]. cbn [negb]. destruct (check_set_attributes _ _) as [[]|] eqn:Hc; [|by left].
  destruct (apply_template o tmpl) as [o' r] eqn:Hap. cbn [fst]. destruct (apply_entry _ _ _ _ ty Hap) as [->|(c & a & A1 & A2 & A3 & A4)]; [by left|].
  right. exists c. split; [|done|done|done|].
  - exists o. split; [by apply looks_sobj|done].
  - right. exists a. split; [done|]. by left.
Qed.
Lemma sealed_entry ss tmpl tm c : sealed ss tmpl tm -> In c tm -> exists c0, In c0 tmpl /\ ca_type c0 = ca_type c /\ (c0 = c \/ In (ca_type c) ss).
Proof.
  induction 1 as [|x y l l' Hx H IH]; cbn; [done|]. intros [<-|Hin].
  - exists x. split; [by left|]. destruct Hx as [->|[H1 H2]]; [auto|]. split; [done|]. right. by rewrite H1.
  - destruct (IH Hin) as (c0 & ? & ?). eauto.
Qed.
Lemma upd_attr t h tmpl uid o f tm o' s ty : tok_ok t -> h_map (t_handles t) !! h = Some uid -> t_sobjs t !! h = None ->
  fetch_by_uid (t_db t) uid [] = Ok o -> get_object_factory (p_fs P) o = Ok f -> is_modifiable o = true ->
  check_set_attributes (f_attrs f) tmpl = Ok tt -> sealed (f_sensitive f) tmpl tm ->
  apply_template o tm = (o', Ok tt) -> store_obj_stmts (t_db t) (del_attrs (f_ephemeral f) o') = Ok s ->
  let t' := set_db (c_disk (exec s (t_db t))) t in
  attr_of t' h ty = attr_of t h ty \/ In ty (f_ephemeral f) \/ exists c, set_by t h tmpl ty (attr_of t' h ty) f c.
Proof.
  intros Ht H1 H2 H3 H4 H5 H6 H7 H8 H9 t'. destruct (upd_store P Hfs _ _ _ _ _ _ _ _ _ Ht H3 H4 H6 H7 H8 H9 H1) as ([U1 U1'] & U2 & U3).
  pose proof (looks_fetch _ _ _ _ Ht H2 H1 H3) as [L1 L2].
  assert (attr_of t' h ty = kept_attr_of (del_attrs (f_ephemeral f) o') ty) as Ha.
  { unfold attr_of, t'. cbn [t_sobjs set_db t_handles t_db]. rewrite H2, H1, (store_own _ _ _ _ (db_ok_wf _ (tk_db _ Ht)) (conj U1 U1') U3 H9).
    eapply stored_attr; [done| |done]. right. apply once_agree, once_del. assert (o' = fst (apply_template o tm)) as -> by (by rewrite H8). apply once_apply. by eapply once_fetch. }
  rewrite Ha. unfold kept_attr_of. rewrite get_dels. destruct (existsb (N.eqb ty) (f_ephemeral f)) eqn:He.
  { right. left. apply existsb_exists in He as (x & Hx & Hxe). by apply N.eqb_eq in Hxe as <-. }
  destruct (apply_entry _ _ _ _ ty H8) as [Hg|(c & a & A1 & A2 & A3 & A4)].
  - left. rewrite Hg, L2. destruct (attr_of t h ty) as [a|] eqn:Hat; [|done]. unfold attr_of in Hat. rewrite H2, H1 in Hat.
    destruct (rows_of _ _) as [m|]; [|done]. destruct (row_kept _ _ _ Hat) as [-> ->]. done.
  - right. right. destruct (sealed_entry _ _ _ _ H7 A1) as (c0 & C1 & C2 & C3). exists c0. split; [|done|done|congruence|].
    { exists o. split; [by split|]. done. }
    destruct C3 as [->|C3]; [|left; by rewrite <- A2]. right. exists a. split; [done|]. rewrite A4. destruct (is_kept a) eqn:Hk; [|auto].
    left. rewrite norm_id; [done|]. by apply from_ck_kind in A3 as [? _].
Qed.
(* How a step changes an attribute of an object. *)
Lemma tstep_attr k t t' h u ty : tok_ok t -> tstep P k t t' -> k <> KReset -> object_id t h = Some u ->
  gone h t' \/
  object_id t' h = Some u /\
  (attr_of t' h ty = attr_of t h ty \/ k = KDedup h /\ t_dedup t <> None \/
   exists tmpl f, set_kind k h tmpl /\ good_factory f /\ (In ty (f_ephemeral f) \/ exists c, set_by t h tmpl ty (attr_of t' h ty) f c)).
Proof.
  intros Ht Hs Hk Hid. pose proof (id_named _ _ _ Ht Hid) as Hh. pose proof (tk_keys _ Ht _ _ Hh) as [_ Hn].
  pose proof (tstep_grows _ _ _ _ Hs Hk) as Hg. pose proof (tstep_ok P Hfs _ _ _ Ht Hs) as Ht'.
  destruct (object_id t' h) as [u'|] eqn:Hid'; [|left; apply gone_of; [done| |done]; pose proof (gr_next _ _ Hg); lia]. right.
  assert (u' = u) as ->.
  { pose proof (id_named _ _ _ Ht' Hid') as Hh'. destruct (gr_map _ _ Hg _ _ Hh') as [?|?]; [unfold hm in *; congruence|lia]. }
  split; [done|]. destruct (touches (t_sobjs t !! h) k h) eqn:Htc; [|left; eapply view_attr, (tstep_view P Hfs); done].
  destruct Hs as [t t' H1 H2 H3 Hdd Hfl b Hca Hlo|t|t uid Hu|t h' H1 Hdy|t sh o uid H1 H2 H3 H4|t h' tmpl o f H1 H2|t h' o H1 H2|t sel|t o uid s H1 H2 H3 H4 H5
    |t h' tmpl uid o f tm o' s H1 H2 H3 H4 H5 H6 H7 H8 H9|t h' o o' uid s H0 H1 H2 H3 H4 H5|t h' uid s H1 H2 Hns Hdy|t|t]; try discriminate Htc; try done; cbn [touches] in *.
  - apply N.eqb_eq in Htc as ->. exfalso. unfold object_id in Hid'. cbn in Hid'. by rewrite H1, lookup_delete in Hid'.
  - apply N.eqb_eq in Htc as ->. destruct (supd_attr t h tmpl o f ty Ht H1 H2) as [Hx|Hx]; [by left|]. right. right. exists tmpl, f. split; [by left|].
    split; [by eapply (obj_factory_good P Hfs)|]. by right.
  - apply N.eqb_eq in Htc as ->. exfalso. unfold object_id in Hid'. cbn in Hid'. by rewrite !lookup_delete in Hid'.
  - exfalso. unfold object_id in Hid'. rewrite drop_lookup in Hid'. pose proof (drop_hm sel t h) as Hd. unfold hm in Hd.
    destruct (t_sobjs t !! h) as [o|]; [|done]. rewrite Htc in *. by rewrite Hd in Hid'.
  - apply N.eqb_eq in Htc as ->. destruct (upd_attr t h tmpl uid o f tm o' s ty Ht H1 H2 H3 H4 H5 H6 H7 H8 H9) as [Hx|Hx]; [by left|]. right. right. exists tmpl, f. split; [by right|].
    split; [by eapply (obj_factory_good P Hfs)|done].
  - apply N.eqb_eq in Htc as ->. right. left. done.
  - apply N.eqb_eq in Htc as ->. exfalso. unfold object_id in Hid'. cbn [t_sobjs set_db t_handles t_db] in Hid'. rewrite Hns, H1 in Hid'.
    rewrite (remove_rows _ uid) in Hid' by (try done; apply (tk_db _ Ht)). by rewrite bool_decide_eq_true_2 in Hid'.
Qed.
End attrs.
