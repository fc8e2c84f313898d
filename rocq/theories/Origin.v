(* The attributes that tell how a key came to exist, as the creating functions set them. *)
From Verif Require Import Base Attr Obj Factory Tables Create Rows ObjOk ObjNew Backend Api.

(* The value of a boolean attribute of an object. *)
Definition flag (o : object) (ty : N) : option bool := match get_attr o ty with Some a => match attr_to_bool a with Ok b => Some b | Err _ => None end | None => None end.
Lemma flag_get o ty : flag o ty = match get_bool o ty with Ok b => Some b | Err _ => None end.
Proof. unfold flag, get_bool, get_as. by destruct (get_attr o ty). Qed.

Definition origin_types : list N := [CKA_LOCAL; CKA_ALWAYS_SENSITIVE; CKA_NEVER_EXTRACTABLE; CKA_KEY_GEN_MECHANISM; CKA_TRUSTED].
Definition tell_types : list N := origin_types ++ [CKA_SENSITIVE; CKA_EXTRACTABLE].

(* Objects that agree on these attributes and on the class. *)
Definition alike (o o' : object) : Prop := o_class o' = o_class o /\ forall ty, In ty tell_types -> get_attr o' ty = get_attr o ty.
Lemma alike_refl o : alike o o. Proof. done. Qed.
Lemma alike_trans a b c : alike a b -> alike b c -> alike a c.
Proof. intros [C1 H1] [C2 H2]. split; [congruence|]. intros ty Hty. by rewrite H2, H1. Qed.
Lemma alike_put o a : existsb (N.eqb (a_type a)) (CKA_CLASS :: tell_types) = false -> alike o (put_attr o a).
Proof.
  intros H. cbn [existsb] in H. apply orb_false_iff in H as [H1 H2]. split; [by apply put_frame|]. intros ty Hty. rewrite get_put by done.
  destruct (N.eqb_spec (a_type a) ty) as [He|]; [|done]. exfalso. rewrite <- not_true_iff_false in H2. apply H2, existsb_exists. exists ty. split; [done|]. by apply N.eqb_eq.
Qed.
Lemma not_tell t ty : existsb (N.eqb t) tell_types = false -> In ty tell_types -> t =? ty = false.
Proof.
  intros H Hty. apply not_true_iff_false. intros E. rewrite <- not_true_iff_false in H. apply H, existsb_exists. eauto.
Qed.
Lemma alike_push o a : existsb (N.eqb (a_type a)) tell_types = false -> alike o (push_attr o a).
Proof. intros H. split; [done|]. intros ty Hty. rewrite get_push, (not_tell _ ty) by done. by destruct (get_attr o ty). Qed.
Lemma alike_ensure o t v o' : existsb (N.eqb t) tell_types = false -> ensure_ulong o t v = Ok o' -> alike o o'.
Proof.
  intros Ht. unfold ensure_ulong. destruct (get_attr o t) as [a|]; [destruct (attr_to_ulong a); cbn [rbind]; [|done]; destruct (_ =? _); [|done]; by intros [= <-]|].
  intros [= <-]. by apply alike_push.
Qed.
Lemma alike_material o l : alike o (put_material o l).
Proof.
  unfold put_material. revert o. induction l as [|[t v] l IH]; intros o; cbn [foldl]; [apply alike_refl|]. eapply alike_trans; [|apply IH]. cbn [fst snd].
  destruct (is_material t) eqn:Hm; [|apply alike_refl]. apply alike_put.
  assert (a_type (mat_attr t v) = t) as -> by (unfold mat_attr; by destruct (_ || _)).
  unfold is_material in Hm. apply existsb_exists in Hm as (x & Hx & E). apply N.eqb_eq in E. subst x.
  assert (forallb (fun t => negb (existsb (N.eqb t) (CKA_CLASS :: tell_types))) material = true) as Hn by (vm_compute; reflexivity).
  pose proof (proj1 (forallb_forall _ _) Hn _ Hx) as H. cbv beta in H. by apply negb_true_iff in H.
Qed.
Lemma alike_validate o o' : hotp_validate o = Ok o' -> alike o o'.
Proof.
  intros H. unfold hotp_validate in H. peel H. apply map_err_ok in E. apply alike_ensure in E; [|done].
  peel H. apply map_err_ok in E0. apply alike_ensure in E0; [|done]. peel H. peel H. cbv zeta in H.
  assert (alike o (if a1 then put_attr a0 (from_bytes CKA_ALLOWED_MECHANISMS (le64 CKM_HOTP)) else a0)) as Hn.
  { eapply alike_trans; [done|]. eapply alike_trans; [done|]. destruct a1; [|apply alike_refl]. by apply alike_put. }
  repeat peel H. done.
Qed.

(* What a generated key says: made here, by this mechanism, never extractable if it is not, always sensitive if it is. *)
Definition made_here (mt : N) (o : object) : Prop :=
  get_attr o CKA_LOCAL = Some (from_bool CKA_LOCAL true) /\
  get_attr o CKA_KEY_GEN_MECHANISM = Some (from_ulong CKA_KEY_GEN_MECHANISM mt) /\
  get_attr o CKA_NEVER_EXTRACTABLE = Some (from_bool CKA_NEVER_EXTRACTABLE (negb (default true (flag o CKA_EXTRACTABLE)))) /\
  get_attr o CKA_ALWAYS_SENSITIVE = Some (from_bool CKA_ALWAYS_SENSITIVE (default false (flag o CKA_SENSITIVE))).
Lemma alike_made mt o o' : alike o o' -> made_here mt o -> made_here mt o'.
Proof.
  intros [_ H] (H1 & H2 & H3 & H4). unfold made_here, flag in *.
  rewrite !(H CKA_LOCAL), !(H CKA_KEY_GEN_MECHANISM), !(H CKA_NEVER_EXTRACTABLE), !(H CKA_ALWAYS_SENSITIVE), !(H CKA_EXTRACTABLE), !(H CKA_SENSITIVE)
    by (cbn; tauto). done.
Qed.
Lemma made_default o mt : made_here mt (default_key_attributes o mt).
Proof.
  unfold made_here, default_key_attributes. cbv zeta. rewrite !flag_get. unfold get_bool, get_as.
  rewrite !get_put by done. cbn [a_type from_bool from_ulong].
  rewrite ?(proj2 (N.eqb_neq _ _)) by done. rewrite ?N.eqb_refl. cbn.
  split_and!; try done.
  - destruct (get_attr o CKA_EXTRACTABLE) as [a|]; [|done]. by destruct (attr_to_bool a).
  - destruct (get_attr o CKA_SENSITIVE) as [a|]; [|done]. by destruct (attr_to_bool a).
Qed.
Lemma gen_made P B env uid mt param tmpl o : gen_key P B env uid mt param tmpl = Ok o -> made_here mt o.
Proof.
  unfold gen_key. destruct (lookup_type gen_types mt) as [kt|].
  - intros H. peel H. unfold secret_generate in H. do 4 peel H. injection H as <-. apply made_default.
  - destruct (mt =? CKM_HOTP_KEY_GEN).
    + intros H. peel H. unfold hotp_generate in H. do 3 peel H. cbv zeta in H. destruct (get_bytes _ _) in H; injection H as <-; [apply made_default|].
      eapply alike_made; [|apply made_default]. by apply alike_put.
    + destruct (mt =? CKM_PKCS5_PBKD2); [|done]. intros H. do 3 peel H. injection H as <-. apply made_default.
Qed.

(* A created key says it was not made here. *)
Definition from_outside (c : N) (o : object) : Prop :=
  o_class o = c /\
  ((c =? CKO_PUBLIC_KEY) || secret_class c = true -> get_attr o CKA_LOCAL = Some (from_bool CKA_LOCAL false)) /\
  (secret_class c = true -> get_attr o CKA_ALWAYS_SENSITIVE = Some (from_bool CKA_ALWAYS_SENSITIVE false) /\
     get_attr o CKA_NEVER_EXTRACTABLE = Some (from_bool CKA_NEVER_EXTRACTABLE false)).
Lemma alike_outside c o o' : alike o o' -> from_outside c o -> from_outside c o'.
Proof.
  intros [Hc H] (H0 & H1 & H2). unfold from_outside. rewrite Hc. rewrite !(H CKA_LOCAL), !(H CKA_NEVER_EXTRACTABLE), !(H CKA_ALWAYS_SENSITIVE) by (cbn; tauto). done.
Qed.
Lemma template_class tab un tmpl o o' : create_from_template tab un tmpl o = Ok o' -> o_class o' = o_class o.
Proof.
  revert o. induction tmpl as [|c r IH]; intros o; cbn [create_from_template]; [by intros [= <-]|]. intros H. repeat peel H; apply IH in H; done.
Qed.
Lemma defaults_class req tab o o' : create_defaults req tab o = Ok o' -> o_class o' = o_class o.
Proof.
  revert o. induction tab as [|oa r IH]; intros o; cbn [create_defaults]; [by intros [= <-]|]. intros H. repeat peel H; apply IH in H; done.
Qed.
Lemma internal_class f tmpl un req o : internal_object_create f tmpl un req = Ok o -> o_class o = f_class f.
Proof. unfold internal_object_create. intros H. peel H. apply template_class in E. apply defaults_class in H. by rewrite H, E. Qed.
Lemma unique_class uid o : o_class (generate_unique uid o) = o_class o.
Proof. unfold generate_unique. by destruct (has_attr _ _). Qed.
Lemma key_create_outside uid f tmpl o : key_create uid f tmpl = Ok o -> from_outside (f_class f) o.
Proof.
  unfold key_create, internal_key_create. intros H. destruct (internal_object_create _ _ _ _) as [x|] eqn:E; [|done]. cbn [rbind] in H. cbv zeta in H.
  rewrite unique_class, (internal_class _ _ _ _ _ E) in H.
  assert (o_class (generate_unique uid x) = f_class f) as Hc by (by rewrite unique_class, (internal_class _ _ _ _ _ E)).
  injection H as <-. unfold from_outside. split.
  { destruct (secret_class (f_class f)); [rewrite orb_true_r|rewrite orb_false_r; destruct (_ =? _); [|done]]; by rewrite ?(proj2 (proj2 (put_frame _ _ _))). }
  destruct (secret_class (f_class f)); [rewrite orb_true_r|rewrite orb_false_r].
  - rewrite !get_put by done. cbn. done.
  - split; [|done]. intros ->. rewrite get_put by done. cbn. done.
Qed.
Definition key_class (c : N) : bool := (c =? CKO_PUBLIC_KEY) || secret_class c.
(* The factories of keys create keys, and refuse templates with the attributes of origin. *)
Definition key_table (x : (N * N) * factory) : bool :=
  negb (key_class (fst (fst x))) ||
  (match f_kind (snd x) with FSecret _ | FAes | FHotp | FPublic | FPrivate => true | _ => false end &&
   forallb (fun ty => match find_oa (f_attrs (snd x)) ty with Some oa => oa_is oa OA_NeverSettable | None => true end) origin_types).
Lemma key_tables : forallb key_table all_factories = true.
Proof. vm_compute. done. Qed.
Lemma key_factory k f : get_factory all_factories k = Ok f -> key_class (fst k) = true ->
  match f_kind f with FSecret _ | FAes | FHotp | FPublic | FPrivate => true | _ => false end = true /\
  forall ty oa, In ty origin_types -> find_oa (f_attrs f) ty = Some oa -> oa_is oa OA_NeverSettable = true.
Proof.
  intros H Hk. apply get_factory_in in H. pose proof (proj1 (forallb_forall _ _) key_tables _ H) as Hx. unfold key_table in Hx. cbn [fst snd] in Hx. rewrite Hk in Hx. cbn [negb orb] in Hx.
  apply andb_prop in Hx as [H1 H2]. split; [done|]. intros ty oa Hty Hoa. pose proof (proj1 (forallb_forall _ _) H2 _ Hty) as H3. cbv beta in H3. by rewrite Hoa in H3.
Qed.
Lemma created_outside env uid k f tmpl o : get_factory all_factories k = Ok f -> key_class (fst k) = true -> factory_create env uid f tmpl = Ok o -> from_outside (fst k) o.
Proof.
  intros Hf Hk H. destruct (key_factory _ _ Hf Hk) as [H1 _]. apply get_factory_good in Hf as [_ <-]. unfold factory_create in H. destruct (f_kind f); try discriminate H1.
  - unfold secret_create in H. do 4 peel H; apply key_create_outside in E; (eapply alike_outside; [|exact E]); (eapply alike_ensure; [|exact H]; done).
  - unfold aes_create in H. do 3 peel H. apply key_create_outside in E; (eapply alike_outside; [|exact E]); (eapply alike_ensure; [|exact H]; done).
  - unfold hotp_create in H. do 3 peel H. apply key_create_outside in E; (eapply alike_outside; [|exact E]). apply alike_validate in H. eapply alike_trans; [|exact H]. by apply alike_put.
  - unfold asym_create in H. do 3 peel H. injection H as <-. apply key_create_outside in E; (eapply alike_outside; [|exact E]). apply alike_material.
  - unfold asym_create in H. do 3 peel H. injection H as <-. apply key_create_outside in E; (eapply alike_outside; [|exact E]). apply alike_material.
Qed.
Lemma template_refuses tab un tmpl o o' : create_from_template tab un tmpl o = Ok o' -> forall c, In c tmpl -> exists oa, find_oa tab (ca_type c) = Some oa /\ oa_is oa un = false.
Proof.
  revert o. induction tmpl as [|d r IH]; intros o; cbn [create_from_template]; [done|]. destruct (find_oa tab (ca_type d)) as [oa|] eqn:Hf; [|done].
  destruct (oa_is oa un) eqn:Hu; [done|]. intros H c [->|Hin]; [eauto|]. repeat peel H; eapply IH; eassumption.
Qed.
Lemma created_template env uid k f tmpl o c : get_factory all_factories k = Ok f -> key_class (fst k) = true -> factory_create env uid f tmpl = Ok o ->
  In c tmpl -> ~ In (ca_type c) origin_types.
Proof.
  intros Hf Hk H Hin Hty. destruct (key_factory _ _ Hf Hk) as [H1 H2].
  assert (exists o', key_create uid f tmpl = Ok o') as [o' Ho].
  { unfold factory_create in H. destruct (f_kind f); try discriminate H1; [unfold secret_create in H|unfold aes_create in H|unfold hotp_create in H|unfold asym_create in H|unfold asym_create in H];
    (destruct (key_create uid f tmpl) as [x|]; [eauto|done]). }
  unfold key_create, internal_key_create, internal_object_create in Ho. (destruct (create_from_template _ _ _ _) as [x|] eqn:E; [|done]).
  destruct (template_refuses _ _ _ _ _ E c Hin) as (oa & O1 & O2). rewrite (H2 _ _ Hty O1) in O2. done.
Qed.
Lemma factories_created env uid tmpl o cl : factories_create env uid all_factories tmpl = Ok o -> tmpl_ulong tmpl CKA_CLASS = Ok cl -> key_class cl = true ->
  from_outside cl o /\ forall c, In c tmpl -> ~ In (ca_type c) origin_types.
Proof.
  unfold factories_create. intros H Hcl Hk. rewrite Hcl in H. cbn [rbind] in H. peel H. peel H.
  split; [by eapply (created_outside _ _ (cl, a))|]. intros c. by eapply (created_template _ _ (cl, a)).
Qed.
Lemma pair_made P env u1 u2 mt t1 t2 o1 o2 : gen_pair P env u1 u2 mt t1 t2 = Ok (o1, o2) -> made_here mt o1 /\ made_here mt o2.
Proof.
  unfold gen_pair. destruct (lookup_type _ _) as [kt|]; [|done]. intros H. do 2 peel H. unfold pair_generate in H. do 7 peel H. injection H as <- <-. split; apply made_default.
Qed.
