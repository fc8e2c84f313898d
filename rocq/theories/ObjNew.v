(* The objects the factories build are well-formed. *)
From Verif Require Import Base Monad Attr Obj Factory Tables Create Sqlite Storage Token Rows ObjOk.

Definition unplaced (o : object) : Prop := o_handle o = CK_INVALID_HANDLE /\ o_session o = CK_INVALID_HANDLE.
Definition new_pre (o : object) : Prop := obj_pre o /\ unplaced o.
Definition new_ok (o : object) : Prop := obj_ok o /\ unplaced o.

(* The class entries of an object agree. *)
Definition agree (o : object) : Prop := forall a, In a (o_attrs o) -> a_type a = CKA_CLASS -> get_attr o CKA_CLASS = Some a.
Definition made_pre (o : object) : Prop := new_pre o /\ agree o.
Definition made (o : object) : Prop := new_ok o /\ agree o.
Lemma made_new o : made o -> new_ok o.
Proof. apply proj1. Qed.

Lemma replace_in l a x : In x (replace_first l a) -> x = a \/ In x l.
Proof.
  induction l as [|y l IH]; cbn; [intros [->|[]]; by left|]. destruct (_ =? _); cbn; [intros [->|H]; [by left|tauto]|].
  intros [->|H]; [tauto|]. destruct (IH H); tauto.
Qed.
Lemma set_attrs o a o' : set_attr o a = Ok o' -> o_attrs o' = replace_first (o_attrs o) a.
Proof. unfold set_attr. destruct (_ =? CKA_CLASS); [destruct (attr_to_ulong a); cbn; [|done]|]; intros; by simplify_eq. Qed.
Lemma agree_set o a o' : set_attr o a = Ok o' -> a_type a <> CKA_CLASS -> agree o -> agree o'.
Proof.
  intros Hs Ha Ho x Hx Hc. rewrite (set_attrs _ _ _ Hs) in Hx. apply replace_in in Hx as [->|Hx]; [done|].
  rewrite (get_set _ _ _ _ Hs), (proj2 (N.eqb_neq _ _) Ha). by apply Ho.
Qed.
Lemma agree_put o a : a_type a <> CKA_CLASS -> agree o -> agree (put_attr o a).
Proof. intros Ha Ho. unfold put_attr. destruct (set_attr o a) eqn:Hs; [by eapply agree_set|done]. Qed.
Lemma agree_push o a : get_attr o (a_type a) = None \/ get_attr o (a_type a) = Some a -> agree o -> agree (push_attr o a).
Proof.
  intros H Ho x Hx Hc. rewrite get_push. cbn [push_attr o_attrs] in Hx. apply in_app_or in Hx as [Hx|[<-|[]]].
  - by rewrite (Ho _ Hx Hc).
  - rewrite Hc in H. rewrite Hc. destruct H as [-> | ->]; [by rewrite N.eqb_refl|done].
Qed.
Lemma agree_obj_new c : agree (obj_new c).
Proof. intros x [<-|[]] _. reflexivity. Qed.
Lemma wf_num a : attr_wf a -> search_by_id (a_type a) = Some KNum -> exists x, a = from_ulong (a_type a) x /\ attr_to_ulong a = Ok (x mod 2 ^ 64).
Proof.
  intros [H1 H2] H. assert (a_kind a = KNum) as Hk.
  { revert H1. unfold norm. rewrite H. destruct (a_kind a) eqn:E; cbn; congruence. }
  destruct a as [t k v]. cbn [a_kind a_type a_val] in *. subst k. destruct H2 as [x ->]. exists x. split; [done|]. apply ulong_from_ulong.
Qed.
Lemma ok_eq {A} (x y : A) : Ok x = Ok y -> x = y.
Proof. congruence. Qed.
Lemma num_same a b x : attr_wf a -> attr_wf b -> a_type a = a_type b -> search_by_id (a_type a) = Some KNum -> attr_to_ulong a = Ok x -> attr_to_ulong b = Ok x -> a = b.
Proof.
  intros Ha Hb Ht Hk E1 E2. destruct (wf_num a Ha Hk) as (y & Hy & E3). rewrite Ht in Hk. destruct (wf_num b Hb Hk) as (z & Hz & E4).
  rewrite Hy, Hz, Ht. rewrite E1 in E3. rewrite E2 in E4. apply ok_eq in E3, E4. unfold from_ulong. f_equal. unfold le64.
  assert (le 8 (unle (le 8 y)) = le 8 (unle (le 8 z))) as U by (rewrite !unle_le_mod; change (256 ^ N.of_nat 8) with (2 ^ 64); by rewrite <- E3, <- E4).
  pose proof (le_unle (le 8 y) (le_bytesok _ _)) as U1. pose proof (le_unle (le 8 z) (le_bytesok _ _)) as U2. rewrite le_length in U1, U2. congruence.
Qed.

Lemma put_place o a : o_handle (put_attr o a) = o_handle o /\ o_session (put_attr o a) = o_session o.
Proof. unfold put_attr. destruct (set_attr o a) eqn:Hs; [by eapply set_attr_frame|done]. Qed.
Lemma new_put_weak o a : new_ok o -> attr_wf a -> new_ok (put_attr o a).
Proof. intros [H [H1 H2]] Ha. split; [by apply ok_put|]. destruct (put_place o a). split; congruence. Qed.
Lemma new_put o a : made o -> attr_wf a -> a_type a <> CKA_CLASS -> made (put_attr o a).
Proof. intros [H Hg] Ha Ht. split; [by apply new_put_weak|by apply agree_put]. Qed.
Lemma new_put_bool o t b : made o -> search_by_id t = Some KBool -> made (put_attr o (from_bool t b)).
Proof. intros H Ht. apply new_put; [done|by apply wf_bool|]. cbn. intros ->. vm_compute in Ht. discriminate Ht. Qed.
Lemma new_put_ulong o t b : made o -> search_by_id t = Some KNum -> t <> CKA_CLASS -> made (put_attr o (from_ulong t b)).
Proof. intros H Ht Hn. apply new_put; [done|by apply wf_ulong|done]. Qed.
Lemma new_put_bytes o t b : made o -> search_by_id t = Some KBytes -> made (put_attr o (from_bytes t b)).
Proof. intros H Ht. apply new_put; [done|by apply wf_bytes|]. cbn. intros ->. vm_compute in Ht. discriminate Ht. Qed.

Lemma class_twice c x a v y : attr_wf x -> a_type x = CKA_CLASS -> ca_type c = CKA_CLASS -> from_ck_attr c = Ok a -> ck_to_ulong c = Ok v -> attr_to_ulong x = Ok y -> v = y -> x = a.
Proof.
  intros Hx Ht Hc Hf Hv Hy ->. destruct (from_ck_wf _ _ Hf) as [Hw Hta]. destruct (wf_num x Hx) as (z & _ & Hz); [by rewrite Ht|]. rewrite Hy in Hz. injection Hz as Hz.
  apply (num_same x a y); try done; [congruence|by rewrite Ht|]. unfold from_ck_attr in Hf. rewrite Hc in Hf. change (search_by_id CKA_CLASS) with (Some KNum) in Hf.
  cbv iota in Hf. rewrite Hv in Hf. cbn [rbind] in Hf. injection Hf as <-. rewrite ulong_from_ulong. f_equal. rewrite Hz. apply N.mod_mod. lia.
Qed.
Lemma template_pre tab un tmpl o o' : create_from_template tab un tmpl o = Ok o' -> made_pre o -> made_pre o'.
Proof.
  revert o. induction tmpl as [|c r IH]; intros o; cbn [create_from_template].
  { intros ?. by simplify_eq. }
  destruct (find_oa tab (ca_type c)) as [oa|]; [|done]. destruct (oa_is oa un); [done|].
  intros H Ho. destruct (get_attr o (ca_type c)) as [x|] eqn:Hg.
  - assert (ca_type c = CKA_CLASS) as Hc.
    { rewrite <- (get_type _ _ _ Hg). destruct (N.eqb_spec (a_type x) CKA_CLASS); [done|]. done. }
    pose proof (get_type _ _ _ Hg) as Hxt. rewrite Hc in Hxt. rewrite Hxt in H. change (negb (CKA_CLASS =? CKA_CLASS)) with false in H. cbv iota in H.
    destruct (ck_to_ulong c) as [v|] eqn:Hv; cbn [rbind] in H; [|done]. destruct (attr_to_ulong x) as [y|] eqn:Hy; cbn [rbind] in H; [|done].
    destruct (N.eqb_spec v y) as [Hvy|]; cbn [rbind] in H; [|done].
    destruct (oa_is oa OA_Ignored); [by eapply IH|]. destruct (from_ck_attr c) as [a|] eqn:Hf; [|done]. cbn [rbind] in H.
    eapply IH; [done|]. destruct (from_ck_wf _ _ Hf) as [Hw Ht]. destruct Ho as [[Ho [? ?]] Hag]. split; [split; [|done]|].
    + apply pre_push; [done|done|]. left. congruence.
    + apply agree_push; [|done]. right. rewrite Ht, Hg. f_equal. eapply class_twice; [eapply pre_get_wf; [exact Ho|exact Hg]|done..].
  - cbn [rbind] in H. destruct (oa_is oa OA_Ignored); [by eapply IH|]. destruct (from_ck_attr c) as [a|] eqn:Hf; [|done]. cbn [rbind] in H.
    eapply IH; [done|]. destruct (from_ck_wf _ _ Hf) as [Hw Ht]. destruct Ho as [[Ho [? ?]] Hag]. split; [split; [|done]|].
    + apply pre_push; [done|done|]. right. congruence.
    + apply agree_push; [|done]. left. by rewrite Ht.
Qed.
Lemma defaults_pre req tab o o' : (forall oa, In oa tab -> has_default oa = true -> attr_wf (oa_attr oa)) ->
  create_defaults req tab o = Ok o' -> made_pre o -> made_pre o'.
Proof.
  revert o. induction tab as [|oa r IH]; intros o Hd; cbn [create_defaults].
  { intros ?. by simplify_eq. }
  unfold has_attr. destruct (get_attr o (oa_type oa)) eqn:Hg; [apply IH; intros; apply Hd; [by right|done]|].
  destruct (has_default oa) eqn:Hh.
  - intros H [[Ho [? ?]] Hag]. eapply IH; [intros; apply Hd; [by right|done]|done|]. split; [split; [|done]|].
    + apply pre_push; [done| |by right]. apply Hd; [by left|done].
    + apply agree_push; [by left|done].
  - destruct (_ || _); [done|]. apply IH. intros. apply Hd; [by right|done].
Qed.
Lemma internal_pre f tmpl un req o : good_factory f -> internal_object_create f tmpl un req = Ok o -> made_pre o.
Proof.
  intros Hf. unfold internal_object_create. destruct (create_from_template _ _ _ _) as [x|] eqn:H1; [|done]. cbn [rbind]. intros H2.
  eapply defaults_pre; [|done|eapply template_pre; [done|]].
  - intros oa Hin Hd. by eapply good_default.
  - split; [split; [|done]|apply agree_obj_new]. apply pre_new. by apply good_class.
Qed.
Lemma unique_ok uid o : utf8_valid uid = true -> made_pre o -> made (generate_unique uid o).
Proof.
  intros Hu [[H [H1 H2]] Hag]. unfold generate_unique, has_attr. destruct (get_attr o CKA_UNIQUE_ID) as [a|] eqn:Hg.
  - split; [split; [by eapply ok_intro|done]|done].
  - split; [split; [|done]|apply agree_push; [by left|done]]. eapply (ok_intro _ (from_string CKA_UNIQUE_ID uid)).
    + apply pre_push; [done|by apply wf_str|by right].
    + rewrite get_push, Hg. done.
Qed.

Section create.
Context (uid : bytes) (Hu : utf8_valid uid = true).
Lemma default_create_ok f tmpl o : good_factory f -> default_object_create uid f tmpl = Ok o -> made o.
Proof.
  intros Hf. unfold default_object_create. destruct (internal_object_create _ _ _ _) eqn:H; [|done]. cbn [rbind]. intros ?. simplify_eq.
  apply unique_ok; [done|]. by eapply internal_pre.
Qed.
Lemma internal_key_ok f tmpl un req o : good_factory f -> internal_key_create uid f tmpl un req = Ok o -> made o.
Proof.
  intros Hf. unfold internal_key_create. destruct (internal_object_create _ _ _ _) eqn:H; [|done]. cbn [rbind]. intros ?. simplify_eq.
  apply unique_ok; [done|]. by eapply internal_pre.
Qed.
Lemma key_create_ok f tmpl o : good_factory f -> key_create uid f tmpl = Ok o -> made o.
Proof.
  intros Hf. unfold key_create. destruct (internal_key_create _ _ _ _ _) as [x|] eqn:H; [|done]. cbn [rbind]. apply internal_key_ok in H; [|done].
  intros E. assert (made (if (o_class x =? CKO_PUBLIC_KEY) || secret_class (o_class x) then put_attr x (from_bool CKA_LOCAL false) else x)) as H1.
  { destruct (_ || _); [by apply new_put_bool|done]. }
  destruct (secret_class (o_class x)); simplify_eq; [|done]. by repeat apply new_put_bool.
Qed.
Lemma key_generate_ok f tmpl o : good_factory f -> key_generate uid f tmpl = Ok o -> made o.
Proof. apply internal_key_ok. Qed.
Lemma key_unwrap_ok f tmpl o : good_factory f -> key_unwrap uid f tmpl = Ok o -> made o.
Proof. apply internal_key_ok. Qed.
Lemma internal_derive_ok f tmpl k o : good_factory f -> internal_key_derive uid f tmpl k = Ok o -> made o.
Proof.
  intros Hf. unfold internal_key_derive. destruct (internal_key_create _ _ _ _ _) as [x|] eqn:H; [|done]. cbn [rbind]. apply internal_key_ok in H; [|done].
  intros ?. simplify_eq. by repeat apply new_put_bool.
Qed.
Lemma key_derive_ok f tmpl k o : good_factory f -> key_derive uid f tmpl k = Ok o -> made o.
Proof.
  intros Hf. unfold key_derive. destruct (internal_key_derive _ _ _ _) as [x|] eqn:H; [|done]. cbn [rbind]. apply internal_derive_ok in H; [|done].
  destruct (f_kind f); try (intros ?; by simplify_eq). destruct (_ && _); [done|]. intros ?. by simplify_eq.
Qed.
Lemma default_attributes_ok o m : made o -> made (default_key_attributes o m).
Proof. intros H. unfold default_key_attributes. apply new_put_bool; [|done]. apply new_put_bool; [|done]. apply new_put_ulong; [|done|done]. by apply new_put_bool. Qed.
Lemma ensure_ulong_ok o t v o' : search_by_id t = Some KNum -> made o -> ensure_ulong o t v = Ok o' -> made o'.
Proof.
  intros Ht [[H [? ?]] Hag]. unfold ensure_ulong. destruct (get_attr o t) eqn:Hg.
  - destruct (attr_to_ulong a); [|done]. cbn [rbind]. destruct (_ =? _); [|done]. intros ?. by simplify_eq.
  - intros ?. simplify_eq. split; [split; [|done]|apply agree_push; [by left|done]]. apply ok_push; [done|by apply wf_ulong|by right].
Qed.
Lemma map_err_ok {A} (r : result A) e a : map_err r e = Ok a -> r = Ok a.
Proof. by destruct r. Qed.
Definition mat_kind (t : N) : akind := if (t =? CKA_PARAMETER_SET) || (t =? CKA_VALUE_BITS) then KNum else KBytes.
Lemma material_kinds t : is_material t = true -> search_by_id t = Some (mat_kind t).
Proof.
  intros H. unfold is_material in H. apply existsb_exists in H as (x & Hx & E). apply N.eqb_eq in E. subst x.
  assert (forallb (fun t => bool_decide (search_by_id t = Some (mat_kind t))) material = true) as Hm by (vm_compute; reflexivity).
  pose proof (proj1 (forallb_forall _ _) Hm _ Hx) as H. cbv beta in H. by apply bool_decide_eq_true_1 in H.
Qed.
Lemma mat_attr_wf t v : is_material t = true -> attr_wf (mat_attr t v).
Proof.
  intros H. apply material_kinds in H. unfold mat_kind in H. unfold mat_attr. destruct (_ || _); [by apply wf_ulong|by apply wf_bytes].
Qed.
Lemma put_material_ok o l : made o -> made (put_material o l).
Proof.
  unfold put_material. revert o. induction l as [|[t v] l IH]; intros o H; cbn [foldl]; [done|]. apply IH. cbn [fst snd].
  destruct (is_material t) eqn:Hm; [|done]. apply new_put; [done|by apply mat_attr_wf|]. intros Ht. assert (t = CKA_CLASS) as -> by (revert Ht; unfold mat_attr; by destruct (_ || _)).
  vm_compute in Hm. discriminate Hm.
Qed.
Ltac peel H := match type of H with
  | rbind ?x _ = Ok _ => let E := fresh "E" in destruct x eqn:E; cbn [rbind] in H; [|discriminate H]
  | (if ?b then _ else _) = Ok _ => let E := fresh "E" in destruct b eqn:E; try discriminate H
  | match ?x with _ => _ end = Ok _ => let E := fresh "E" in destruct x eqn:E; try discriminate H
  | Ok _ = Ok _ => injection H as H; subst
  end.
Lemma hotp_validate_ok o o' : made o -> hotp_validate o = Ok o' -> made o'.
Proof.
  intros Ho H. unfold hotp_validate in H. peel H. apply map_err_ok in E. apply ensure_ulong_ok in E; [|done|done].
  peel H. apply map_err_ok in E0. apply ensure_ulong_ok in E0; [|done|done]. peel H. peel H. cbv zeta in H.
  assert (made (if a1 then put_attr a0 (from_bytes CKA_ALLOWED_MECHANISMS (le64 CKM_HOTP)) else a0)) as Hn.
  { destruct a1; [|done]. apply new_put; [done| |done]. split; [done|]. right. reflexivity. }
  repeat peel H. done.
Qed.
Lemma factory_create_ok env f tmpl o : good_factory f -> factory_create env uid f tmpl = Ok o -> made o.
Proof.
  intros Hf H. unfold factory_create in H. destruct (f_kind f).
  - by eapply default_create_ok.
  - done.
  - unfold x509_create in H. peel H. apply default_create_ok in E; [|done]. cbv zeta in H. repeat peel H; done.
  - unfold trust_create in H. peel H. apply default_create_ok in E; [|done]. peel H. apply map_err_ok in E0. apply ensure_ulong_ok in E0; [|done|done].
    peel H. destruct a1.
    + repeat peel H. done.
    + repeat peel H; [done|]. by apply new_put_ulong.
  - unfold nss_trust_create in H. peel H. apply default_create_ok in E; [|done]. peel H. apply map_err_ok in E0. apply ensure_ulong_ok in E0; [|done|done].
    repeat peel H; done.
  - unfold secret_create in H. peel H. apply key_create_ok in E; [|done]. peel H. peel H. peel H. by eapply ensure_ulong_ok in H.
  - unfold aes_create in H. peel H. apply key_create_ok in E; [|done]. peel H. peel H. by eapply ensure_ulong_ok in H.
  - unfold hotp_create in H. peel H. apply key_create_ok in E; [|done]. peel H. peel H. eapply hotp_validate_ok; [|done]. by apply new_put_ulong.
  - unfold asym_create in H. peel H. apply key_create_ok in E; [|done]. repeat peel H. by apply put_material_ok.
  - unfold asym_create in H. peel H. apply key_create_ok in E; [|done]. repeat peel H. by apply put_material_ok.
Qed.
Lemma factories_create_ok env tmpl o : factories_create env uid all_factories tmpl = Ok o -> made o.
Proof.
  unfold factories_create. intros H. peel H. peel H. peel H. apply get_factory_good in E1 as [E1 _]. by eapply factory_create_ok.
Qed.
Lemma secret_random_ok env o o' : made o -> default_secret_key_generate env o = Ok o' -> made o'.
Proof. intros Ho H. unfold default_secret_key_generate in H. repeat peel H. by apply new_put_bytes. Qed.
Lemma secret_generate_ok env f kt m tmpl o : good_factory f -> secret_generate env uid f kt m tmpl = Ok o -> made o.
Proof.
  intros Hf H. unfold secret_generate in H. peel H. apply key_generate_ok in E; [|done]. peel H. apply map_err_ok in E0. apply ensure_ulong_ok in E0; [|done|done].
  peel H. apply map_err_ok in E1. apply ensure_ulong_ok in E1; [|done|done]. peel H. apply secret_random_ok in E2; [|done]. peel H. by apply default_attributes_ok.
Qed.
Lemma hotp_generate_ok env f m tmpl o : good_factory f -> hotp_generate env uid f m tmpl = Ok o -> made o.
Proof.
  intros Hf H. unfold hotp_generate in H. peel H. apply key_generate_ok in E; [|done]. peel H. apply hotp_validate_ok in E0; [|done].
  peel H. apply secret_random_ok in E1; [|done]. cbv zeta in H. assert (made (default_key_attributes a1 m)) by by apply default_attributes_ok.
  peel H; peel H; [done|]. by apply new_put_bytes.
Qed.
Lemma set_key_ok f o k o' : made o -> set_key f o k = Ok o' -> made o'.
Proof.
  intros Ho H. unfold set_key in H. peel H. unfold set_key_len in H. peel H. eapply ensure_ulong_ok in H; [done|done|]. by apply new_put_bytes.
Qed.
Lemma secret_import_ok f d tmpl o : good_factory f -> secret_import uid f d tmpl = Ok o -> made o.
Proof. intros Hf H. unfold secret_import in H. peel H. peel H. apply key_unwrap_ok in E0; [|done]. by eapply set_key_ok. Qed.

Lemma apply_pre tmpl o : obj_pre o -> obj_pre (fst (apply_template o tmpl)).
Proof.
  revert o. induction tmpl as [|c r IH]; intros o Ho; cbn [apply_template]; [done|].
  destruct (from_ck_attr c) as [a|] eqn:Hf; cbn [rbind]; [|done]. destruct (set_attr o a) eqn:Hs; [|done]. apply IH.
  eapply pre_set; [done| |done]. by destruct (from_ck_wf _ _ Hf).
Qed.
Lemma apply_ok tmpl o : obj_ok o -> obj_ok (fst (apply_template o tmpl)).
Proof.
  revert o. induction tmpl as [|c r IH]; intros o Ho; cbn [apply_template]; [done|].
  destruct (from_ck_attr c) as [a|] eqn:Hf; cbn [rbind]; [|done]. destruct (set_attr o a) eqn:Hs; [|done]. apply IH.
  eapply ok_set; [done| |done]. by destruct (from_ck_wf _ _ Hf).
Qed.
Lemma apply_place tmpl o : o_handle (fst (apply_template o tmpl)) = o_handle o /\ o_session (fst (apply_template o tmpl)) = o_session o.
Proof.
  revert o. induction tmpl as [|c r IH]; intros o; cbn [apply_template]; [done|].
  destruct (from_ck_attr c) as [a|] eqn:Hf; cbn [rbind]; [|done]. destruct (set_attr o a) as [o1|] eqn:Hs; [|done]. destruct (IH o1) as [-> ->].
  by eapply set_attr_frame.
Qed.
Lemma apply_same tmpl o : forallb (fun c => negb (ids (ca_type c))) tmpl = true -> same_id o (fst (apply_template o tmpl)).
Proof.
  revert o. induction tmpl as [|c r IH]; intros o; cbn [apply_template forallb]; [reflexivity|]. intros [H1 H2]%andb_true_iff.
  destruct (from_ck_attr c) as [a|] eqn:Hf; cbn [rbind]; [|reflexivity]. destruct (set_attr o a) eqn:Hs; [|reflexivity].
  etransitivity; [|by apply IH]. eapply same_set; [|done]. destruct (from_ck_wf _ _ Hf) as [_ ->]. by apply negb_true_iff.
Qed.
Lemma pre_class_lt o : obj_pre o -> o_class o < 2 ^ 64.
Proof.
  intros H. pose proof (pre_class _ H) as H2. unfold class_ok, get_ulong, get_as in H2. destruct (get_attr o CKA_CLASS) as [a|] eqn:Hg; [|done].
  destruct (wf_num a) as (x & _ & E); [by eapply pre_get_wf|by rewrite (get_type _ _ _ Hg)|]. rewrite E in H2. injection H2 as <-. by apply N.mod_lt.
Qed.
Lemma blind_copy_ok o : obj_pre o -> new_ok (blind_copy uid o).
Proof.
  intros H. pose proof (pre_class_lt o H) as Hc. destruct H as [H1 H2 H3]. unfold blind_copy.
  assert (generate_unique uid (obj_new (o_class o)) = push_attr (obj_new (o_class o)) (from_string CKA_UNIQUE_ID uid)) as -> by done.
  split; [|done]. eapply (ok_intro _ (from_string CKA_UNIQUE_ID uid)); [|done]. pose proof (class_ok_new _ Hc) as Hn. split.
  - cbn [with_attrs o_attrs push_attr obj_new app]. constructor; [by apply wf_ulong|]. constructor; [by apply wf_str|]. apply List.Forall_forall. intros x Hx.
    apply in_filter in Hx as [Hx _]. by apply (proj1 (List.Forall_forall _ _) H1).
  - exact Hn.
  - cbn [with_attrs o_attrs push_attr obj_new app]. unfold nocls. cbn [List.filter a_type from_ulong from_string].
    change (CKA_CLASS =? CKA_CLASS) with true. change (CKA_UNIQUE_ID =? CKA_CLASS) with false. cbn [negb map a_type from_string]. fold (nocls (List.filter (fun a => negb (a_type a =? CKA_UNIQUE_ID)) (o_attrs o))).
    apply list.NoDup_cons. rewrite elem_of_list_In. split.
    + intros Hin. apply nocls_in in Hin as [Hin _]. apply in_map_iff in Hin as (y & E & Hy). apply in_filter in Hy as [_ Hy]. rewrite E in Hy. done.
    + change (NoDup (nocls (o_attrs (del_attr o CKA_UNIQUE_ID)))). apply pre_types. apply pre_del; [done|by split].
Qed.
Lemma default_copy_ok f o tmpl o' : obj_pre o -> default_copy uid f o tmpl = Ok o' -> new_ok o'.
Proof.
  intros Ho H. unfold default_copy in H. peel H. pose proof (blind_copy_ok o Ho) as [B1 [B2 B3]].
  pose proof (apply_ok tmpl _ B1) as A1. pose proof (apply_place tmpl (blind_copy uid o)) as [A2 A3]. destruct (apply_template _ _) as [x [u|e]]; [|done].
  cbn [fst] in *. cbv zeta in H. assert (new_ok x) as Hx by (split; [done|split; congruence]).
  match type of H with context [match get_bool ?y CKA_SENSITIVE with _ => _ end] => assert (new_ok y) as Hy end.
  { destruct (get_bool x CKA_EXTRACTABLE); [by apply new_put_weak; [|apply wf_bool]|done]. }
  injection H as <-. match goal with |- new_ok (match ?z with _ => _ end) => destruct z end; [by apply new_put_weak; [|apply wf_bool]|done].
Qed.
Lemma factories_copy_ok fs o tmpl o' : obj_pre o -> factories_copy uid fs o tmpl = Ok o' -> new_ok o'.
Proof. intros Ho H. unfold factories_copy in H. peel H. peel H. destruct (f_kind a); try done; by eapply default_copy_ok. Qed.
Lemma agree_apply tmpl o : existsb (fun c => ca_type c =? CKA_CLASS) tmpl = false -> agree o -> agree (fst (apply_template o tmpl)).
Proof.
  revert o. induction tmpl as [|c r IH]; intros o; cbn [apply_template existsb]; [done|]. intros [H1 H2]%orb_false_iff Ho.
  destruct (from_ck_attr c) as [a|] eqn:Hf; cbn [rbind]; [|done]. destruct (set_attr o a) eqn:Hs; [|done]. apply IH; [done|].
  eapply agree_set; [done| |done]. destruct (from_ck_wf _ _ Hf) as [_ ->]. by apply N.eqb_neq.
Qed.
Lemma blind_copy_agree o : obj_pre o -> agree o -> agree (blind_copy uid o).
Proof.
  intros H Hag x Hx Hc. pose proof (pre_class_lt o H) as Hl. unfold blind_copy in *.
  assert (generate_unique uid (obj_new (o_class o)) = push_attr (obj_new (o_class o)) (from_string CKA_UNIQUE_ID uid)) as E by done. rewrite E in Hx |- *. clear E.
  cbn [with_attrs o_attrs push_attr obj_new app] in Hx. change (Some (from_ulong CKA_CLASS (o_class o)) = Some x). f_equal. destruct Hx as [<-|[<-|Hx]]; [done|done|].
  apply in_filter in Hx as [Hx _]. pose proof (Hag _ Hx Hc) as Hg. pose proof (pre_class _ H) as H2. unfold class_ok, get_ulong, get_as in H2. rewrite Hg in H2.
  destruct (attr_to_ulong x) as [y|] eqn:Hy; [|done]. apply ok_eq in H2. subst y. apply (num_same _ _ (o_class o)); [by apply wf_ulong|by apply (pre_get_wf _ _ _ H Hg)|by rewrite Hc|done| |done].
  rewrite ulong_from_ulong. by rewrite N.mod_small.
Qed.
Lemma default_copy_agree f o tmpl o' : obj_pre o -> agree o -> existsb (fun c => ca_type c =? CKA_CLASS) tmpl = false -> default_copy uid f o tmpl = Ok o' -> agree o'.
Proof.
  intros Ho Hag Hn H. unfold default_copy in H. peel H. pose proof (agree_apply tmpl _ Hn (blind_copy_agree o Ho Hag)) as A1. destruct (apply_template _ _) as [x [u|e]]; [|done].
  cbn [fst] in *. cbv zeta in H.
  match type of H with context [match get_bool ?y CKA_SENSITIVE with _ => _ end] => assert (agree y) as Hy end.
  { destruct (get_bool x CKA_EXTRACTABLE); [by apply agree_put|done]. }
  injection H as <-. match goal with |- agree (match ?z with _ => _ end) => destruct z end; [by apply agree_put|done].
Qed.
Lemma factories_copy_agree fs o tmpl o' : obj_pre o -> agree o -> existsb (fun c => ca_type c =? CKA_CLASS) tmpl = false -> factories_copy uid fs o tmpl = Ok o' -> agree o'.
Proof. intros Ho Hag Hn H. unfold factories_copy in H. peel H. peel H. destruct (f_kind a); try done; by eapply default_copy_agree. Qed.
End create.
Ltac peel H := match type of H with
  | rbind ?x _ = Ok _ => let E := fresh "E" in destruct x eqn:E; cbn [rbind] in H; [|discriminate H]
  | (if ?b then _ else _) = Ok _ => let E := fresh "E" in destruct b eqn:E; try discriminate H
  | match ?x with _ => _ end = Ok _ => let E := fresh "E" in destruct x eqn:E; try discriminate H
  | Ok _ = Ok _ => injection H as H; subst
  end.

Lemma pair_generate_ok env u1 u2 f1 f2 kt m t1 t2 p : utf8_valid u1 = true -> utf8_valid u2 = true -> good_factory f1 -> good_factory f2 ->
  pair_generate env u1 u2 f1 f2 kt m t1 t2 = Ok p -> made (fst p) /\ made (snd p).
Proof.
  intros U1 U2 F1 F2 H. unfold pair_generate in H.
  peel H. apply key_generate_ok in E; [|done|done]. peel H. apply map_err_ok in E0. apply ensure_ulong_ok in E0; [|done|done].
  peel H. apply map_err_ok in E1. apply ensure_ulong_ok in E1; [|done|done].
  peel H. apply key_generate_ok in E2; [|done|done]. peel H. apply map_err_ok in E3. apply ensure_ulong_ok in E3; [|done|done].
  peel H. apply map_err_ok in E4. apply ensure_ulong_ok in E4; [|done|done]. peel H. peel H. cbn [fst snd].
  split; apply default_attributes_ok; by apply put_material_ok.
Qed.

(* The identifiers of the builtin objects are hexadecimal text. *)
Lemma ascii_valid b : Forall (fun x => x < 0x80) b -> utf8_valid b = true.
Proof. unfold utf8_valid. induction 1 as [|x l Hx Hl IH]; [done|]. cbn. destruct (N.ltb_spec x 128); [done|lia]. Qed.
Lemma hex_ascii b : Forall (fun x => x < 256) b -> Forall (fun x => x < 0x80) (hex b).
Proof.
  unfold hex. induction 1 as [|x b Hx Hb IH]; cbn [flat_map app]; [done|].
  assert (forall n, n < 16 -> hex_digit n < 0x80) as Hd by (intros n Hn; unfold hex_digit; destruct (n <? 10); lia).
  constructor; [apply Hd; apply N.div_lt_upper_bound; lia|]. constructor; [apply Hd; apply N.mod_lt; lia|done].
Qed.
Lemma be_bytes n x : Forall (fun y => y < 256) (be n x).
Proof.
  unfold be. apply Forall_rev. revert x. induction n as [|n IH]; intros x; cbn [le]; [done|]. constructor; [apply N.mod_lt; lia|apply IH].
Qed.
Lemma stable_valid c i : utf8_valid (stable_uid c i) = true.
Proof.
  apply ascii_valid. unfold stable_uid. pose proof (be_bytes 4 (c mod 2 ^ 32)) as H1. pose proof (be_bytes 4 (i mod 2 ^ 32)) as H2.
  pose proof (be_length 4 (c mod 2 ^ 32)) as L1. pose proof (be_length 4 (i mod 2 ^ 32)) as L2.
  destruct (be 4 (c mod 2 ^ 32)) as [|a0 [|a1 [|a2 [|a3 [|]]]]]; try done. destruct (be 4 (i mod 2 ^ 32)) as [|b0 [|b1 [|b2 [|b3 [|]]]]]; try done.
  repeat match goal with H : Forall _ (_ :: _) |- _ => apply Forall_cons_1 in H as [? ?] end.
  cbn [app uuid_v8]. pose proof (N.mod_lt a0 64) as M. change (105 mod 16) with 9.
  repeat lazymatch goal with
    | |- Forall _ (hex _) => apply hex_ascii
    | |- Forall _ (_ ++ _) => apply Forall_app; split
    | |- Forall _ (_ :: _) => constructor
    | |- Forall _ [] => constructor
    end; lia.
Qed.
Section builtin.
Context (P : params) (Hfs : p_fs P = all_factories).
Lemma builtin_ok m o : builtin_mech P m = Ok o -> made o.
Proof.
  intros H. unfold builtin_mech in H. rewrite Hfs in H. peel H. apply get_factory_good in E as [E _]. peel H. peel H. apply unique_ok; [apply stable_valid|].
  by eapply internal_pre.
Qed.
End builtin.

(* ---- stored objects have every attribute once ---- *)
Definition once (o : object) : Prop := NoDup (map a_type (o_attrs o)).
Lemma types_replace l a : map a_type (replace_first l a) = if existsb (fun x => a_type x =? a_type a) l then map a_type l else map a_type l ++ [a_type a].
Proof. induction l as [|x l IH]; cbn; [done|]. destruct (N.eqb_spec (a_type x) (a_type a)) as [->|]; cbn; [done|]. rewrite IH. by destruct (existsb _ l). Qed.
Lemma once_set o a o' : set_attr o a = Ok o' -> once o -> once o'.
Proof.
  intros Hs Ho. assert (o_attrs o' = replace_first (o_attrs o) a) as Hx.
  { revert Hs. unfold set_attr. destruct (_ =? CKA_CLASS); [destruct (attr_to_ulong a); cbn; [|done]|]; intros; by simplify_eq. }
  unfold once. rewrite Hx, types_replace, existsb_find. destruct (find_attr _ _) eqn:Hf; [done|]. apply nodup_snoc; [done|]. by apply find_none.
Qed.
Lemma once_apply tm o : once o -> once (fst (apply_template o tm)).
Proof.
  revert o. induction tm as [|c tm IH]; intros o Ho; cbn [apply_template]; [done|]. destruct (from_ck_attr c); cbn [rbind]; [|done].
  destruct (set_attr o _) eqn:Hs; [|done]. apply IH. by eapply once_set.
Qed.
Lemma once_del l o : once o -> once (del_attrs l o).
Proof. revert o. unfold del_attrs. induction l as [|t l IH]; intros o Ho; cbn [foldl]; [done|]. apply IH. unfold once, del_attr. cbn. by apply nodup_filter_types. Qed.
Lemma once_fetch d uid l o : fetch_by_uid d uid l = Ok o -> once o.
Proof.
  intros H. destruct (fetch_rows _ _ _ _ H) as (i & m & _ & _ & Hr). unfold rows_to_object in Hr.
  assert (once (obj_new CK_UNAVAILABLE_INFORMATION)) as Hn by (apply NoDup_singleton). revert Hn Hr.
  generalize (obj_new CK_UNAVAILABLE_INFORMATION). induction (List.filter _ _) as [|[t v] r IH]; intros o1 Hn; cbn [add_rows]; [by intros [= <-]|].
  destruct (from_sql t v); cbn [rbind]; [|done]. destruct (set_attr o1 _) eqn:Hs; cbn [rbind]; [|done]. apply IH. by eapply once_set.
Qed.
Lemma get_dels l o ty : get_attr (del_attrs l o) ty = if existsb (N.eqb ty) l then None else get_attr o ty.
Proof.
  revert o. unfold del_attrs. induction l as [|t l IH]; intros o; cbn [foldl existsb]; [done|]. rewrite IH, get_del. destruct (N.eqb_spec ty t); cbn; [|done].
  by destruct (existsb _ _).
Qed.

Lemma once_agree o : once o -> agree o.
Proof.
  unfold once, agree, get_attr. induction (o_attrs o) as [|x l IH]; [done|]. cbn [map find_attr]. intros H a Hin Ha. apply list.NoDup_cons in H as [H1 H2].
  rewrite elem_of_list_In in H1. destruct Hin as [->|Hin]; [by rewrite (proj2 (N.eqb_eq _ _) Ha)|]. destruct (N.eqb_spec (a_type x) CKA_CLASS) as [He|]; [|by apply IH].
  destruct H1. rewrite He, <- Ha. by apply in_map.
Qed.
Lemma agree_del l o : ~ In CKA_CLASS l -> agree o -> agree (del_attrs l o).
Proof.
  intros Hl Ho a Ha Hc. rewrite get_dels. assert (existsb (N.eqb CKA_CLASS) l = false) as ->.
  { apply not_true_iff_false. intros X. apply existsb_exists in X as (x & X1 & X2). apply N.eqb_eq in X2 as <-. done. }
  apply Ho; [|done]. clear Hl Ho Hc. revert o Ha. unfold del_attrs. induction l as [|t l IH]; intros o Ha; cbn [foldl] in Ha; [done|].
  apply IH in Ha. unfold del_attr in Ha. cbn in Ha. by apply in_filter in Ha as [Ha _].
Qed.
Lemma from_ck_bool c x b : search_by_id (ca_type c) = Some KBool -> from_ck_attr c = Ok x -> ck_to_bool c = Ok b -> x = from_bool (ca_type c) b.
Proof. intros Hs. unfold from_ck_attr. rewrite Hs. intros H1 H2. rewrite H2 in H1. cbn in H1. by injection H1. Qed.
