(* Objects made from templates that do not ask for a token object are not token objects. *)
From Verif Require Import Base Monad Attr Obj Factory Tables Create Rows ObjOk ObjNew Sqlite Storage Token Backend State Api ObjSpec.

Definition loose (o : object) : Prop := get_attr o CKA_TOKEN = None \/ get_attr o CKA_TOKEN = Some (from_bool CKA_TOKEN false).
Lemma loose_token o : loose o -> is_token o = false.
Proof. unfold is_token, bool_attr. intros [-> | ->]; done. Qed.
(* The same value of CKA_TOKEN. *)
Definition same_tok (o o' : object) : Prop := get_attr o' CKA_TOKEN = get_attr o CKA_TOKEN.
Global Instance tok_refl : Reflexive same_tok. Proof. by intros o. Qed.
Lemma tok_loose o o' : same_tok o o' -> loose o -> loose o'.
Proof. unfold same_tok, loose. by intros ->. Qed.
Lemma tok_put o a : existsb (N.eqb (a_type a)) [CKA_CLASS; CKA_TOKEN] = false -> same_tok o (put_attr o a).
Proof.
  cbn [existsb]. intros H. rewrite !orb_false_iff in H. destruct H as (H1 & H2 & _). unfold same_tok. rewrite get_put by done. by rewrite H2.
Qed.
Lemma tok_push o a : a_type a =? CKA_TOKEN = false -> same_tok o (push_attr o a).
Proof. intros H. unfold same_tok. rewrite get_push, H. by destruct (get_attr o CKA_TOKEN). Qed.
Lemma tok_ensure o t v o' : t =? CKA_TOKEN = false -> ensure_ulong o t v = Ok o' -> same_tok o o'.
Proof.
  intros Ht. unfold ensure_ulong. destruct (get_attr o t) as [a|].
  - destruct (attr_to_ulong a) as [x|]; cbn [rbind]; [|done]. destruct (x =? v); [|done]. intros H. injection H as <-. reflexivity.
  - intros H. injection H as <-. by apply tok_push.
Qed.
Lemma tok_trans a b c : same_tok a b -> same_tok b c -> same_tok a c.
Proof. unfold same_tok. congruence. Qed.
Lemma tok_material o l : same_tok o (put_material o l).
Proof.
  unfold put_material. revert o. induction l as [|[t v] l IH]; intros o; cbn [foldl]; [done|]. eapply tok_trans; [|apply IH]. cbn [fst snd].
  destruct (is_material t) eqn:Hm; [|done]. apply tok_put.
  assert (a_type (mat_attr t v) = t) as -> by (unfold mat_attr; by destruct (_ || _)).
  unfold is_material in Hm. apply existsb_exists in Hm as (x & Hx & E). apply N.eqb_eq in E. subst x.
  assert (forallb (fun t => negb (existsb (N.eqb t) [CKA_CLASS; CKA_TOKEN])) material = true) as Hn by (vm_compute; reflexivity).
  pose proof (proj1 (forallb_forall _ _) Hn _ Hx) as H. cbv beta in H. by apply negb_true_iff in H.
Qed.
Lemma tok_validate o o' : hotp_validate o = Ok o' -> same_tok o o'.
Proof.
  intros H. unfold hotp_validate in H. peel H. apply map_err_ok in E. apply tok_ensure in E; [|done].
  peel H. apply map_err_ok in E0. apply tok_ensure in E0; [|done]. peel H. peel H. cbv zeta in H.
  assert (same_tok o (if a1 then put_attr a0 (from_bytes CKA_ALLOWED_MECHANISMS (le64 CKM_HOTP)) else a0)) as Hn.
  { eapply tok_trans; [done|]. eapply tok_trans; [done|]. destruct a1; [|done]. by apply tok_put. }
  repeat peel H. done.
Qed.
Lemma tok_default o m : same_tok o (default_key_attributes o m).
Proof. unfold default_key_attributes. repeat (eapply tok_trans; [|by apply tok_put]). done. Qed.
Lemma tok_unique uid o : same_tok o (generate_unique uid o).
Proof. unfold generate_unique. destruct (has_attr o _); [done|]. by apply tok_push. Qed.

(* A template that does not ask for a token object. *)
Definition asks_not (tmpl : list ckattr) : Prop := fail_if_token tmpl = Ok tt.
Lemma asks_in tmpl c : asks_not tmpl -> In c tmpl -> ca_type c = CKA_TOKEN -> ck_to_bool c = Ok false.
Proof.
  unfold asks_not. induction tmpl as [|x r IH]; cbn [fail_if_token In]; [done|]. intros H [->|Hin] Ht.
  - rewrite Ht, N.eqb_refl in H. destruct (ck_to_bool c) as [[]|]; done.
  - apply IH; [|done|done]. destruct (_ =? _); [|done]. destruct (ck_to_bool x) as [[]|]; done.
Qed.
Lemma asks_app l c : ca_type c <> CKA_TOKEN -> asks_not l -> asks_not (l ++ [c]).
Proof.
  unfold asks_not. intros Hc. apply N.eqb_neq in Hc. induction l as [|x r IH]; cbn [app fail_if_token]; [by rewrite Hc|].
  destruct (ca_type x =? CKA_TOKEN); [|exact IH]. destruct (ck_to_bool x) as [[]|]; cbn [rbind]; first [exact IH|done].
Qed.

Lemma template_loose tab un tmpl o o' : create_from_template tab un tmpl o = Ok o' -> asks_not tmpl -> loose o -> loose o'.
Proof.
  intros H Hl. pose proof (fun c => asks_in tmpl c Hl) as Hi. clear Hl. revert o H Hi. induction tmpl as [|c r IH]; intros o; cbn [create_from_template].
  { intros ?. by simplify_eq. }
  destruct (find_oa tab (ca_type c)) as [oa|]; [|done]. destruct (oa_is oa un); [done|].
  intros H Hi Ho. match type of H with rbind ?y _ = _ => destruct y as [[]|] eqn:Hy; [|done] end. cbn [rbind] in H.
  destruct (oa_is oa OA_Ignored); [by eapply IH; [done|intros; apply Hi; [by right|done]|]|]. destruct (from_ck_attr c) as [a|] eqn:Hf; [|done]. cbn [rbind] in H.
  eapply IH; [done|intros; apply Hi; [by right|done]|]. destruct (from_ck_wf _ _ Hf) as [Hw Ht]. destruct (N.eqb_spec (ca_type c) CKA_TOKEN) as [Hc|Hc].
  - right. rewrite Hc in Hy. rewrite get_push, Ht, Hc, N.eqb_refl. destruct Ho as [Ho|Ho]; rewrite Ho in Hy |- *; [|done].
    f_equal. rewrite <- Hc. apply (from_ck_bool c a false); [by rewrite Hc|done|]. apply Hi; [by left|done].
  - eapply tok_loose; [|exact Ho]. apply tok_push. rewrite Ht. by apply N.eqb_neq.
Qed.
Definition loose_table (x : (N * N) * factory) : bool :=
  forallb (fun oa => if (oa_type oa =? CKA_TOKEN) && has_default oa then bool_decide (oa_attr oa = from_bool CKA_TOKEN false) else true) (f_attrs (snd x)).
Lemma loose_tables : forallb loose_table all_factories = true. Proof. vm_compute. reflexivity. Qed.
Lemma defaults_loose req tab o o' : (forall oa, In oa tab -> oa_type oa = CKA_TOKEN -> has_default oa = true -> oa_attr oa = from_bool CKA_TOKEN false) ->
  create_defaults req tab o = Ok o' -> loose o -> loose o'.
Proof.
  revert o. induction tab as [|oa r IH]; intros o Hd; cbn [create_defaults].
  { intros ?. by simplify_eq. }
  unfold has_attr. destruct (get_attr o (oa_type oa)) eqn:Hg; [apply IH; intros; apply Hd; [by right|done..]|].
  destruct (has_default oa) eqn:Hh.
  - intros H Ho. eapply IH; [intros; apply Hd; [by right|done..]|done|]. destruct (N.eqb_spec (oa_type oa) CKA_TOKEN) as [Ht|Ht].
    + right. rewrite (Hd oa) by (first [by left|done]). rewrite Ht in Hg. rewrite get_push, Hg. done.
    + eapply tok_loose; [|exact Ho]. apply tok_push. by apply N.eqb_neq.
  - destruct (_ || _); [done|]. apply IH. intros. apply Hd; [by right|done..].
Qed.
Lemma good_loose f oa : good_factory f -> In oa (f_attrs f) -> oa_type oa = CKA_TOKEN -> has_default oa = true -> oa_attr oa = from_bool CKA_TOKEN false.
Proof.
  intros [k H] Hin Ht Hd. pose proof (proj1 (forallb_forall _ _) loose_tables _ H) as X. unfold loose_table in X. cbn [snd] in X.
  pose proof (proj1 (forallb_forall _ _) X _ Hin) as Y. cbv beta in Y. rewrite Ht, Hd, N.eqb_refl in Y. by apply bool_decide_eq_true in Y.
Qed.
Lemma internal_loose f tmpl un req o : good_factory f -> asks_not tmpl -> internal_object_create f tmpl un req = Ok o -> loose o.
Proof.
  intros Hf Ht. unfold internal_object_create. destruct (create_from_template _ _ _ _) as [x|] eqn:H1; [|done]. cbn [rbind]. intros H2.
  eapply defaults_loose; [|done|eapply template_loose; [done|done|by left]]. intros. by eapply good_loose.
Qed.
Lemma builtin_loose P m o : p_fs P = all_factories -> builtin_mech P m = Ok o -> is_token o = false.
Proof.
  intros Hfs H. unfold builtin_mech in H. rewrite Hfs in H. destruct (get_factory _ _) as [f|] eqn:Hf; [|done]. cbn [rbind] in H. destruct (internal_object_create _ _ _ _) as [x|] eqn:Hx; [|done]. cbn [rbind] in H.
  injection H as <-. apply get_factory_good in Hf as [Hf _]. apply loose_token. eapply tok_loose; [apply tok_unique|]. eapply internal_loose; [done| |done]. reflexivity.
Qed.
Section make.
Context (P : params) (B : backend) (Hfs : p_fs P = all_factories).
Lemma default_loose uid f tmpl o : good_factory f -> asks_not tmpl -> default_object_create uid f tmpl = Ok o -> loose o.
Proof. intros Hf Ht H. unfold default_object_create in H. peel H. peel H. apply internal_loose in E; [|done|done]. eapply tok_loose; [apply tok_unique|done]. Qed.
Lemma internal_key_loose uid f tmpl un req o : good_factory f -> asks_not tmpl -> internal_key_create uid f tmpl un req = Ok o -> loose o.
Proof. intros Hf Ht H. unfold internal_key_create in H. peel H. peel H. apply internal_loose in E; [|done|done]. eapply tok_loose; [apply tok_unique|done]. Qed.
Lemma key_create_loose uid f tmpl o : good_factory f -> asks_not tmpl -> key_create uid f tmpl = Ok o -> loose o.
Proof.
  intros Hf Ht H. unfold key_create in H. peel H. apply internal_key_loose in E; [|done|done]. cbv zeta in H. peel H. eapply tok_loose; [|exact E].
  assert (same_tok a (if (o_class a =? CKO_PUBLIC_KEY) || secret_class (o_class a) then put_attr a (from_bool CKA_LOCAL false) else a)) as X by (destruct (_ || _); [by apply tok_put|done]).
  destruct (secret_class _); [|done]. eapply tok_trans; [|by apply tok_put]. eapply tok_trans; [exact X|by apply tok_put].
Qed.
Lemma factory_create_loose env uid f tmpl o : good_factory f -> asks_not tmpl -> factory_create env uid f tmpl = Ok o -> loose o.
Proof.
  intros Hf Ht H. unfold factory_create in H. destruct (f_kind f).
  - by eapply default_loose.
  - done.
  - unfold x509_create in H. peel H. apply default_loose in E; [|done|done]. cbv zeta in H. repeat peel H; done.
  - unfold trust_create in H. peel H. apply default_loose in E; [|done|done]. peel H. apply map_err_ok in E0. apply tok_ensure in E0; [|done].
    pose proof (tok_loose _ _ E0 E) as L. peel H. destruct a1.
    + repeat peel H. done.
    + repeat peel H; [done|]. eapply tok_loose; [by apply tok_put|done].
  - unfold nss_trust_create in H. peel H. apply default_loose in E; [|done|done]. peel H. apply map_err_ok in E0. apply tok_ensure in E0; [|done].
    pose proof (tok_loose _ _ E0 E) as L. repeat peel H; done.
  - unfold secret_create in H. peel H. apply key_create_loose in E; [|done|done]. peel H. peel H. peel H. apply tok_ensure in H; [|done]. by eapply tok_loose.
  - unfold aes_create in H. peel H. apply key_create_loose in E; [|done|done]. peel H. peel H. apply tok_ensure in H; [|done]. by eapply tok_loose.
  - unfold hotp_create in H. peel H. apply key_create_loose in E; [|done|done]. peel H. peel H. apply tok_validate in H. eapply tok_loose; [exact H|]. eapply tok_loose; [by apply tok_put|done].
  - unfold asym_create in H. peel H. apply key_create_loose in E; [|done|done]. repeat peel H. eapply tok_loose; [apply tok_material|done].
  - unfold asym_create in H. peel H. apply key_create_loose in E; [|done|done]. repeat peel H. eapply tok_loose; [apply tok_material|done].
Qed.
Lemma factories_create_loose env uid tmpl o : asks_not tmpl -> factories_create env uid (p_fs P) tmpl = Ok o -> loose o.
Proof. rewrite Hfs. unfold factories_create. intros Ht H. peel H. peel H. peel H. apply get_factory_good in E1 as [E1 _]. by eapply factory_create_loose. Qed.
Lemma key_generate_loose uid f tmpl o : good_factory f -> asks_not tmpl -> key_generate uid f tmpl = Ok o -> loose o.
Proof. apply internal_key_loose. Qed.
Lemma factory_good' k f : get_factory (p_fs P) k = Ok f -> good_factory f.
Proof. rewrite Hfs. intros H. exact (proj1 (get_factory_good _ _ H)). Qed.
Lemma key_factory_good' t f : get_obj_factory_from_key_template (p_fs P) t = Ok f -> good_factory f.
Proof. unfold get_obj_factory_from_key_template. intros H. repeat peel H. by eapply factory_good'. Qed.
Lemma secret_random_tok env o o' : default_secret_key_generate env o = Ok o' -> same_tok o o'.
Proof. unfold default_secret_key_generate. intros H. repeat peel H. by apply tok_put. Qed.
Lemma gen_key_loose env uid mt pr tmpl o : asks_not tmpl -> gen_key P B env uid mt pr tmpl = Ok o -> loose o.
Proof.
  intros Ht H. unfold gen_key in H. destruct (lookup_type _ _) as [kt|].
  - peel H. apply factory_good' in E. unfold secret_generate in H. peel H. apply key_generate_loose in E0; [|done|done]. peel H. apply map_err_ok, tok_ensure in E1; [|done].
    peel H. apply map_err_ok, tok_ensure in E2; [|done]. peel H. apply secret_random_tok in E3. peel H. eapply tok_loose; [|exact E0].
    eapply tok_trans; [exact E1|]. eapply tok_trans; [exact E2|]. eapply tok_trans; [exact E3|]. apply tok_default.
  - destruct (_ =? _).
    + peel H. apply factory_good' in E. unfold hotp_generate in H. peel H. apply key_generate_loose in E0; [|done|done]. peel H. apply tok_validate in E1. peel H. apply secret_random_tok in E2.
      cbv zeta in H. pose proof (tok_default a2 mt) as D. assert (loose (default_key_attributes a2 mt)) as L.
      { eapply tok_loose; [|exact E0]. eapply tok_trans; [exact E1|]. eapply tok_trans; [exact E2|]. exact D. }
      destruct (get_bytes _ _); peel H; [done|]. eapply tok_loose; [by apply tok_put|done].
    + destruct (_ =? _); [|done]. peel H. apply key_factory_good' in E. peel H. peel H. apply factory_create_loose in E1; [|done|by apply asks_app].
      peel H. eapply tok_loose; [apply tok_default|done].
Qed.
Lemma gen_pair_loose env u1 u2 mt t1 t2 o1 o2 : asks_not t1 -> asks_not t2 -> gen_pair P env u1 u2 mt t1 t2 = Ok (o1, o2) -> loose o1 /\ loose o2.
Proof.
  intros H1 H2 H. unfold gen_pair in H. destruct (lookup_type _ _) as [kt|]; [|done]. peel H. apply factory_good' in E. peel H. apply factory_good' in E0.
  unfold pair_generate in H. peel H. apply key_generate_loose in E1; [|done|done]. peel H. apply map_err_ok, tok_ensure in E2; [|done]. peel H. apply map_err_ok, tok_ensure in E3; [|done].
  peel H. apply key_generate_loose in E4; [|done|done]. peel H. apply map_err_ok, tok_ensure in E5; [|done]. peel H. apply map_err_ok, tok_ensure in E6; [|done]. peel H. peel H.
  split; [eapply tok_loose; [|exact E1]|eapply tok_loose; [|exact E4]].
  - eapply tok_trans; [exact E2|]. eapply tok_trans; [exact E3|]. eapply tok_trans; [apply tok_material|]. apply tok_default.
  - eapply tok_trans; [exact E5|]. eapply tok_trans; [exact E6|]. eapply tok_trans; [apply tok_material|]. apply tok_default.
Qed.
Lemma set_key_tok f o k o' : set_key f o k = Ok o' -> same_tok o o'.
Proof. intros H. unfold set_key in H. peel H. unfold set_key_len in H. peel H. apply tok_ensure in H; [|done]. eapply tok_trans; [|exact H]. by apply tok_put. Qed.
Lemma import_key_loose uid f d tmpl o : good_factory f -> asks_not tmpl -> import_key B uid f d tmpl = Ok o -> loose o.
Proof.
  intros Hf Ht H. assert (secret_import uid f d tmpl = Ok o -> loose o) as Hs.
  { intros H'. unfold secret_import in H'. peel H'. peel H'. apply internal_key_loose in E0; [|done|done]. apply set_key_tok in H'. by eapply tok_loose. }
  unfold import_key in H. destruct (f_kind f); try done; try (by apply Hs).
  peel H. destruct (_ || _); [|done]. peel H. apply internal_key_loose in E0; [|done|done]. peel H. apply tok_ensure in E1; [|done]. peel H. apply map_err_ok, tok_ensure in E2; [|done].
  peel H. peel H. eapply tok_loose; [|exact E0]. eapply tok_trans; [exact E1|]. eapply tok_trans; [exact E2|]. apply tok_material.
Qed.
Definition template_of (d : derived) : list ckattr := match d with DKey t _ | DConcat t _ _ | DData t _ | DPub t _ | DCreate t _ => t end.
Lemma internal_derive_loose uid f t key o : good_factory f -> asks_not t -> internal_key_derive uid f t key = Ok o -> loose o.
Proof.
  intros Hf Ht H1. unfold internal_key_derive in H1. peel H1. apply internal_key_loose in E; [|done|done]. cbv zeta in H1. peel H1. eapply tok_loose; [|exact E].
  repeat (eapply tok_trans; [|by apply tok_put]). reflexivity.
Qed.
Lemma key_derive_loose uid f t key o : good_factory f -> asks_not t -> key_derive uid f t key = Ok o -> loose o.
Proof.
  intros Hf Ht H. unfold key_derive in H. peel H. apply internal_derive_loose in E; [|done|done]. destruct (f_kind f); try (by injection H as <-). repeat peel H. done.
Qed.
Lemma secret_key_create_eq env uid f t o : secret_key_create uid f t = Ok o -> factory_create env uid f t = Ok o.
Proof. unfold secret_key_create, factory_create. destruct (f_kind f); done. Qed.
Lemma derived_loose uid key d o : asks_not (template_of d) -> derived_object P uid key d = Ok o -> loose o.
Proof.
  destruct d as [t dkm|t other dkm|t dkm|t mat|t mt]; cbn [derived_object template_of]; intros Ht H.
  - peel H. apply key_factory_good' in E. peel H. apply key_derive_loose in E0; [|done|done]. apply set_key_tok in H. by eapply tok_loose.
  - peel H. apply key_factory_good' in E. peel H. apply key_derive_loose in E0; [|done|done]. peel H. apply set_key_tok in H. eapply tok_loose; [exact H|]. eapply tok_loose; [|exact E0].
    unfold concat_attrs in E1. cbv zeta in E1. peel E1. peel E1. peel E1. repeat (eapply tok_trans; [|by apply tok_put]). done.
  - peel H. apply factory_good' in E. peel H. apply default_loose in E0; [|done|done]. peel H. eapply tok_loose; [by apply tok_put|done].
  - peel H. peel H. apply factory_good' in E0. peel H. apply default_loose in E1; [|done|done]. cbv zeta in H. assert (loose (put_material a1 mat)) as L by (eapply tok_loose; [apply tok_material|done]).
    destruct (get_attr key CKA_KEY_GEN_MECHANISM) as [x|] eqn:Hx; peel H; [|done]. eapply tok_loose; [|exact L]. apply tok_put. by rewrite (get_type _ _ _ Hx).
  - peel H. apply key_factory_good' in E. peel H. apply (secret_key_create_eq (KeyEnv (fun _ _ _ => Err 0) (fun _ _ _ => Err 0) (fun _ => Err 0))) in E0.
    apply factory_create_loose in E0; [|done|done]. peel H. eapply tok_loose; [apply tok_default|done].
Qed.
End make.
