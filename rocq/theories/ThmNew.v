(* C43: the handle a creating call returns names a new object with what its template says. *)
From Verif Require Import Base Monad Hoare Attr Obj Factory Tables Create Sqlite Storage Token Backend State Api Toy
  ObjSpec Rows ObjOk ObjNew Triple TokInv TokStep TokenFrame TokWp TokAuth Spec WorldWp Sessions SessionInv SessionFacts ObjWorld ObjView ObjAttrs NewView ObjFacts
  AttrFacts Errors ObjCalls ToyFacts SetFacts ThmObjects ThmAttrs Origin ThmOrigin AuthSpec ThmAuth Rollback AtomicSpec ThmAtomic NewSpec.

Definition ordinary (ty : N) : bool :=
  tame_type ty && negb (existsb (N.eqb ty) [CKA_CLASS; CKA_VALUE_LEN; CKA_ALLOWED_MECHANISMS; CKA_NAME_HASH_ALGORITHM; CKA_OTP_COUNTER; CKA_VALUE]) &&
  match search_by_id ty with Some KBool | Some KNum | Some KString | Some KBytes | Some KDate => true | _ => false end.
Definition unignored (ty : N) (x : (N * N) * factory) : bool :=
  match find_oa (f_attrs (snd x)) ty with Some oa => negb (oa_is oa OA_Ignored) | None => true end && negb (existsb (N.eqb ty) (f_sensitive (snd x))).
Lemma chosen_tables ty : In ty chosen_types -> ordinary ty = true /\ forallb (unignored ty) all_factories = true /\ forallb (lasting ty) all_factories = true.
Proof. intros H. cbn [chosen_types In] in H. repeat (destruct H as [<-|H]; [split_and!; vm_compute; reflexivity|]). done. Qed.
Lemma template_keeps tab un tmpl o o' ty a : create_from_template tab un tmpl o = Ok o' -> get_attr o ty = Some a -> get_attr o' ty = Some a.
Proof.
  revert o. induction tmpl as [|c r IH]; intros o; cbn [create_from_template]; [by intros [= <-]|].
  destruct (find_oa tab (ca_type c)) as [oa|]; [|done]. destruct (oa_is oa un); [done|].
  match goal with |- rbind ?x _ = _ -> _ => destruct x as [[]|] end; cbn [rbind]; [|done]. destruct (oa_is oa OA_Ignored); [apply IH|].
  destruct (from_ck_attr c) as [b|]; cbn [rbind]; [|done]. intros H Ha. apply (IH _ H). by rewrite get_push, Ha.
Qed.
Lemma template_gives tab un tmpl o o' c : create_from_template tab un tmpl o = Ok o' -> In c tmpl -> ca_type c <> CKA_CLASS ->
  (forall oa, find_oa tab (ca_type c) = Some oa -> oa_is oa OA_Ignored = false) -> exists a, from_ck_attr c = Ok a /\ get_attr o' (ca_type c) = Some a.
Proof.
  intros H Hin Hc Hig. revert o H. induction tmpl as [|d r IH]; [done|]. intros o. cbn [create_from_template].
  destruct (find_oa tab (ca_type d)) as [oa|] eqn:Hoa; [|done]. destruct (oa_is oa un); [done|].
  destruct Hin as [->|Hin].
  2: { match goal with |- rbind ?x _ = _ -> _ => destruct x as [[]|] end; cbn [rbind]; [|done]. destruct (oa_is oa OA_Ignored); [by apply IH|].
       destruct (from_ck_attr d) as [b|]; cbn [rbind]; [|done]. by apply IH. }
  destruct (get_attr o (ca_type c)) as [x|] eqn:Hx.
  { pose proof (get_type _ _ _ Hx) as Ht. rewrite Ht, (proj2 (N.eqb_neq _ _) Hc). done. }
  cbn [rbind]. rewrite (Hig oa Hoa). destruct (from_ck_attr c) as [b|] eqn:Hb; cbn [rbind]; [|done]. intros H. exists b. split; [done|].
  eapply template_keeps; [exact H|]. destruct (from_ck_wf _ _ Hb) as [_ Ht]. by rewrite get_push, Hx, Ht, N.eqb_refl.
Qed.
(* An attribute of an ordinary type survives. *)
Definition kept (ty : N) (o o' : object) : Prop := forall a, get_attr o ty = Some a -> get_attr o' ty = Some a.
Global Instance kept_pre ty : PreOrder (kept ty).
Proof. split; [by intros o a|]. intros x y z H1 H2 a Ha. by apply H2, H1. Qed.
Lemma kept_push ty o a : kept ty o (push_attr o a).
Proof. intros b Hb. by rewrite get_push, Hb. Qed.
Lemma kept_put ty o a : a_type a <> ty -> kept ty o (put_attr o a).
Proof. intros H b Hb. by rewrite put_get. Qed.
Lemma kept_unique ty uid o : kept ty o (generate_unique uid o).
Proof. unfold generate_unique. destruct (has_attr _ _); [done|apply kept_push]. Qed.
Lemma kept_ensure ty o t v o' : ensure_ulong o t v = Ok o' -> kept ty o o'.
Proof.
  unfold ensure_ulong. destruct (get_attr o t) as [a|]; [destruct (attr_to_ulong a); cbn [rbind]; [|done]; destruct (_ =? _); [|done]; intros H; apply ok_inj in H as <-; done|].
  intros H. apply ok_inj in H as <-. apply kept_push.
Qed.
Lemma kept_ensure' ty o t v e o' : map_err (ensure_ulong o t v) e = Ok o' -> kept ty o o'.
Proof. intros H. apply map_err_ok in H. by eapply kept_ensure. Qed.
Lemma ordinary_facts ty : ordinary ty = true ->
  ty <> CKA_CLASS /\ is_material ty = false /\ ty <> CKA_LOCAL /\ ty <> CKA_KEY_GEN_MECHANISM /\ ty <> CKA_NEVER_EXTRACTABLE /\ ty <> CKA_ALWAYS_SENSITIVE /\
  ty <> CKA_VALUE_LEN /\ ty <> CKA_ALLOWED_MECHANISMS /\ ty <> CKA_NAME_HASH_ALGORITHM /\ ty <> CKA_OTP_COUNTER /\ ty <> CKA_VALUE /\
  exists k, search_by_id ty = Some k /\ k <> KIgnore /\ k <> KDeny /\ k <> KUlongArray.
Proof.
  unfold ordinary, tame_type. intros H. apply andb_prop in H as [H H3]. apply andb_prop in H as [H H2]. apply andb_prop in H as [H0 H1]. apply negb_true_iff in H0, H1, H2. cbn [existsb] in H1, H2.
  repeat (apply orb_false_iff in H1 as [?%N.eqb_neq H1]). repeat (apply orb_false_iff in H2 as [?%N.eqb_neq H2]). split_and!; try done.
  destruct (search_by_id ty) as [k|]; [|done]. exists k. destruct k; done.
Qed.
Section ord.
Context (ty : N) (Hty : ordinary ty = true).
Lemma kept_material o l : kept ty o (put_material o l).
Proof. destruct (ordinary_facts _ Hty) as (_ & H & _). intros a Ha. by rewrite material_get. Qed.
Lemma kept_marked o m : kept ty o (default_key_attributes o m).
Proof. destruct (ordinary_facts _ Hty) as (_ & _ & H1 & H2 & H3 & H4 & _). intros a Ha. by rewrite marked_get. Qed.
Lemma kept_validate o o' : hotp_validate o = Ok o' -> kept ty o o'.
Proof.
  destruct (ordinary_facts _ Hty) as (_ & _ & _ & _ & _ & _ & _ & Ham & _).
  intros H. unfold hotp_validate in H. peel H. apply (kept_ensure' ty) in E. peel H. apply (kept_ensure' ty) in E0. peel H. peel H. cbv zeta in H.
  assert (kept ty o (if a1 then put_attr a0 (from_bytes CKA_ALLOWED_MECHANISMS (le64 CKM_HOTP)) else a0)) as Hn.
  { etransitivity; [exact E|]. etransitivity; [exact E0|]. destruct a1; [|done]. apply kept_put. cbn. congruence. }
  repeat peel H. done.
Qed.
(* What the template says is in the object. *)
Definition gives (c : ckattr) (o : object) : Prop := exists a, from_ck_attr c = Ok a /\ get_attr o ty = Some a.
Lemma gives_kept c o o' : gives c o -> kept ty o o' -> gives c o'.
Proof. intros (a & H1 & H2) H. exists a. split; [done|by apply H]. Qed.
Context (Hun : forallb (unignored ty) all_factories = true).
Lemma internal_gives f tmpl un req o c : good_factory f -> internal_object_create f tmpl un req = Ok o -> In c tmpl -> ca_type c = ty -> gives c o.
Proof.
  intros Hf H Hin Hc. unfold internal_object_create in H. destruct (create_from_template _ _ _ _) as [o1|] eqn:H1; cbn [rbind] in H; [|done].
  eapply gives_kept; [|intros a; by eapply defaults_says]. destruct (ordinary_facts _ Hty) as (Hcl & _).
  destruct (template_gives _ _ _ _ _ c H1 Hin) as (a & A1 & A2); [congruence| |exists a; by rewrite <- Hc].
  intros oa Hoa. destruct (good_check _ f Hun Hf) as [k Hk]. unfold unignored in Hk. cbn [snd] in Hk. rewrite <- Hc, Hoa in Hk. apply andb_prop in Hk as [Hk _]. by apply negb_true_iff in Hk.
Qed.
Lemma default_gives uid f tmpl o c : good_factory f -> default_object_create uid f tmpl = Ok o -> In c tmpl -> ca_type c = ty -> gives c o.
Proof.
  unfold default_object_create. intros Hf H Hin Hc. destruct (internal_object_create _ _ _ _) as [x|] eqn:E; [|done]. cbn [rbind] in H. apply ok_inj in H as <-.
  eapply gives_kept; [by eapply internal_gives|apply kept_unique].
Qed.
Lemma ikey_gives uid f tmpl un req o c : good_factory f -> internal_key_create uid f tmpl un req = Ok o -> In c tmpl -> ca_type c = ty -> gives c o.
Proof.
  unfold internal_key_create. intros Hf H Hin Hc. destruct (internal_object_create _ _ _ _) as [x|] eqn:E; [|done]. cbn [rbind] in H. apply ok_inj in H as <-.
  eapply gives_kept; [by eapply internal_gives|apply kept_unique].
Qed.
Lemma key_create_gives uid f tmpl o c : good_factory f -> key_create uid f tmpl = Ok o -> In c tmpl -> ca_type c = ty -> gives c o.
Proof.
  destruct (ordinary_facts _ Hty) as (_ & _ & H1 & H2 & H3 & H4 & _).
  unfold key_create. intros Hf H Hin Hc. destruct (internal_key_create _ _ _ _ _) as [x|] eqn:E; [|done]. cbn [rbind] in H. cbv zeta in H. apply ok_inj in H as <-.
  eapply gives_kept; [by eapply ikey_gives|].
  destruct (secret_class _); [etransitivity; [|etransitivity; [|apply kept_put; cbn; congruence]]; [|apply kept_put; cbn; congruence]|];
    (destruct (_ || _); [apply kept_put; cbn; congruence|done]).
Qed.
Lemma factory_gives env uid f tmpl o c : good_factory f -> factory_create env uid f tmpl = Ok o -> In c tmpl -> ca_type c = ty -> gives c o.
Proof.
  destruct (ordinary_facts _ Hty) as (_ & _ & _ & _ & _ & _ & Hvl & Ham & Hnh & _).
  intros Hf H Hin Hc. unfold factory_create in H. destruct (f_kind f).
  - by eapply default_gives.
  - done.
  - unfold x509_create in H. peel H. eapply default_gives in E; [|done|exact Hin|done]. cbv zeta in H. repeat peel H; done.
  - unfold trust_create in H. peel H. eapply default_gives in E; [|done|exact Hin|done]. peel H. apply (kept_ensure' ty) in E0. pose proof (gives_kept _ _ _ E E0) as Hg.
    repeat peel H; try done. eapply gives_kept; [exact Hg|]. apply kept_put. cbn. congruence.
  - unfold nss_trust_create in H. peel H. eapply default_gives in E; [|done|exact Hin|done]. peel H. apply (kept_ensure' ty) in E0. pose proof (gives_kept _ _ _ E E0) as Hg. repeat peel H; done.
  - unfold secret_create in H. do 4 peel H; (eapply key_create_gives in E; [|done|exact Hin|done]); (eapply gives_kept; [exact E|by eapply kept_ensure]).
  - unfold aes_create in H. do 3 peel H. eapply key_create_gives in E; [|done|exact Hin|done]. eapply gives_kept; [exact E|by eapply kept_ensure].
  - unfold hotp_create in H. do 3 peel H. eapply key_create_gives in E; [|done|exact Hin|done]. eapply gives_kept; [exact E|]. etransitivity; [|by eapply kept_validate]. apply kept_put. cbn. congruence.
  - unfold asym_create in H. do 3 peel H. apply ok_inj in H as <-. eapply key_create_gives in E; [|done|exact Hin|done]. eapply gives_kept; [exact E|apply kept_material].
  - unfold asym_create in H. do 3 peel H. apply ok_inj in H as <-. eapply key_create_gives in E; [|done|exact Hin|done]. eapply gives_kept; [exact E|apply kept_material].
Qed.
Lemma create_gives env uid tmpl o c : factories_create env uid all_factories tmpl = Ok o -> In c tmpl -> ca_type c = ty -> gives c o.
Proof.
  unfold factories_create. intros H. do 2 (match type of H with rbind ?x _ = _ => destruct x end; cbn [rbind] in H; [|done]).
  destruct (get_factory _ _) as [f|] eqn:Hf; cbn [rbind] in H; [|done]. apply get_factory_good in Hf as [Hf _]. by eapply factory_gives.
Qed.
Lemma random_kept env o o' : default_secret_key_generate env o = Ok o' -> kept ty o o'.
Proof.
  destruct (ordinary_facts _ Hty) as (_ & _ & _ & _ & _ & _ & _ & _ & _ & _ & Hv & _). unfold default_secret_key_generate. intros H. do 2 peel H. apply ok_inj in H as <-. apply kept_put. cbn. congruence.
Qed.
End ord.
Lemma gen_gives P B (Hfs : p_fs P = all_factories) env uid mt pr l o ty c : ordinary ty = true -> forallb (unignored ty) all_factories = true ->
  gen_key P B env uid mt pr l = Ok o -> In c l -> ca_type c = ty -> gives ty c o.
Proof.
  intros Ho Hu H Hin Hc. unfold gen_key in H. rewrite Hfs in H. destruct (lookup_type _ _) as [kt|].
  - destruct (get_factory _ _) as [f|] eqn:Hf; cbn [rbind] in H; [|done]. apply get_factory_good in Hf as [Hf _]. unfold secret_generate in H.
    peel H. unfold key_generate in E. eapply (ikey_gives ty Ho Hu) in E; [|done|exact Hin|done]. peel H. apply (kept_ensure' ty) in E0. peel H. apply (kept_ensure' ty) in E1. peel H. apply (random_kept ty Ho) in E2.
    apply ok_inj in H as <-. repeat (eapply gives_kept; [|first [eassumption|by apply kept_marked]]). done.
  - destruct (_ =? _).
    + destruct (get_factory _ _) as [f|] eqn:Hf; cbn [rbind] in H; [|done]. apply get_factory_good in Hf as [Hf _]. unfold hotp_generate in H.
      peel H. unfold key_generate in E. eapply (ikey_gives ty Ho Hu) in E; [|done|exact Hin|done]. peel H. apply (kept_validate ty Ho) in E0. peel H. apply (random_kept ty Ho) in E1. cbv zeta in H.
      assert (gives ty c (default_key_attributes a1 mt)) as Hg. { repeat (eapply gives_kept; [|first [eassumption|by apply kept_marked]]). done. }
      destruct (get_bytes _ _) in H; apply ok_inj in H as <-; [done|]. eapply gives_kept; [exact Hg|]. apply kept_put. cbn. by destruct (ordinary_facts _ Ho) as (_ & _ & _ & _ & _ & _ & _ & _ & _ & ? & _).
    + destruct (_ =? _); [|done]. destruct (get_obj_factory_from_key_template _ _) as [f|] eqn:Hf; cbn [rbind] in H; [|done]. rewrite <- Hfs in Hf. apply (key_factory_good P Hfs) in Hf.
      do 2 peel H. apply ok_inj in H as <-. eapply gives_kept; [|by apply kept_marked]. eapply (factory_gives ty Ho Hu); [exact Hf|exact E0|apply in_or_app; by left|done].
Qed.
Lemma pair_gives P (Hfs : p_fs P = all_factories) env u1 u2 mt l1 l2 o1 o2 ty c : ordinary ty = true -> forallb (unignored ty) all_factories = true ->
  gen_pair P env u1 u2 mt l1 l2 = Ok (o1, o2) -> ca_type c = ty -> (In c l1 -> gives ty c o1) /\ (In c l2 -> gives ty c o2).
Proof.
  intros Ho Hu H Hc. unfold gen_pair in H. rewrite Hfs in H. destruct (lookup_type _ _) as [kt|]; [|done].
  destruct (get_factory _ _) as [f1|] eqn:Hf1; cbn [rbind] in H; [|done]. apply get_factory_good in Hf1 as [Hf1 _].
  destruct (get_factory _ _) as [f2|] eqn:Hf2 in H; cbn [rbind] in H; [|done]. apply get_factory_good in Hf2 as [Hf2 _].
  unfold pair_generate, key_generate in H. do 7 peel H. apply ok_inj in H. apply pair_equal_spec in H as [<- <-].
  apply (kept_ensure' ty) in E0, E1, E3, E4. split; intros Hin.
  - eapply (ikey_gives ty Ho Hu) in E; [|done|exact Hin|done]. repeat (eapply gives_kept; [|first [eassumption|by apply kept_marked|by apply kept_material]]). done.
  - eapply (ikey_gives ty Ho Hu) in E2; [|done|exact Hin|done]. repeat (eapply gives_kept; [|first [eassumption|by apply kept_marked|by apply kept_material]]). done.
Qed.

Section new.
Context (P : params) (B : backend) (E : N -> keyenv) (Hfs : p_fs P = all_factories) (Hutf : forall n, utf8_valid (p_uuid P n) = true).
Notation world := (world B).
Notation from_scratch := (from_scratch P B E). Notation rv := (rv P B E). Notation after := (after P B E).
Notation out_of := (out_of P B E). Notation answer := (answer P B E). Notation slot_of := (slot_of B). Notation token_of := (token_of B). Notation winv := (winv B).
Lemma placed_given t t' sh h o ty c : placed P t t' sh h o -> new_ok o -> In ty chosen_types -> gives ty c o -> exists a, from_ck_attr c = Ok a /\ attr_of t' h ty = Some a.
Proof.
  intros [_ _ Hm Hd] [[Hp _] _] Hty (a & A1 & A2). destruct (chosen_tables _ Hty) as (T1 & T2 & T3). destruct (ordinary_facts _ T1) as (Hcl & _ & _ & _ & _ & _ & _ & _ & _ & _ & _ & k & K1 & K2 & K3 & K4).
  exists a. split; [done|]. destruct (is_token o).
  - destruct (Hd eq_refl) as (_ & f & uid & F1 & F2 & F3). pose proof (obj_factory_good P Hfs _ _ F1) as Hf.
    destruct (F3 ty (or_introl Hcl)) as [F4 _]; [by eapply good_lasting|]. rewrite F4.
    + unfold kept_attr_of. rewrite A2. pose proof (pre_get_wf _ _ _ Hp A2) as Hw. pose proof (get_type _ _ _ A2) as Hat.
      rewrite (wf_kept a k); [|done|congruence|done|done]. f_equal. unfold norm. rewrite Hat, K1. destruct (a_kind a); try done. destruct k; done.
    + intros Hin. destruct (good_check _ f T2 Hf) as [k' Hk]. unfold unignored in Hk. apply andb_prop in Hk as [_ Hk]. apply negb_true_iff in Hk. cbn [snd] in Hk.
      rewrite <- not_true_iff_false in Hk. apply Hk, existsb_exists. exists ty. split; [done|apply N.eqb_refl].
  - unfold attr_of. by rewrite (Hm eq_refl).
Qed.
Lemma placed_id t t' sh h o : placed P t t' sh h o -> object_id t' h <> None.
Proof. intros [(u & _ & H) _ _ _]. congruence. Qed.
Lemma free_id t : tok_ok t -> object_id t (h_next (t_handles t)) = None.
Proof. intros Ht. unfold object_id. destruct (tok_free t (h_next (t_handles t)) Ht) as [-> ->]; [lia|done]. Qed.
Lemma noise_view t t' h : noise t t' -> same_view h t t'.
Proof. intros (i & n & ->). by split. Qed.
(* The world with one token replaced by one in which an object was inserted. *)
Lemma inserted_new w w' sid t t0 t' s o n l : winv w -> replaced B w w' sid t t' -> noise t t0 -> new_ok o -> insert_object P s o t0 = (t', Ok n) ->
  (forall ty c, In ty chosen_types -> In c l -> ca_type c = ty -> gives ty c o) -> new_at B w w' sid n l /\ others_kept B w w' sid.
Proof.
  intros Hw (R1 & R2 & _) Hn Hno Hi Hg. pose proof (token_ok B _ _ _ Hw R1) as Ht. assert (tok_ok t0) as Ht0 by (by eapply noise_ok).
  pose proof (insert_view P Hfs _ _ _ _ _ Ht0 Hno Hi) as [-> Hp]. unfold new_at, others_kept, Spec.id_at, Spec.attr_at. rewrite R1, R2. split; [split_and!|].
  - rewrite <- (view_id _ _ _ (noise_view t t0 (h_next (t_handles t0)) Hn)). by apply free_id.
  - by eapply placed_id.
  - intros x Hx Hc. eapply placed_given; [exact Hp|done|done|]. by apply Hg.
  - intros h u Hid. pose proof (noise_view t t0 h Hn) as Hv. rewrite <- (view_id _ _ _ Hv) in Hid. pose proof (id_named _ _ _ Ht0 Hid) as Hh.
    pose proof (insert_same P Hfs _ _ _ _ _ _ _ Ht0 Hno Hh Hi) as Hv'. rewrite (view_id _ _ _ Hv'). split; [done|]. intros ty. by rewrite (view_attr _ _ _ _ Hv'), (view_attr _ _ _ _ Hv).
Qed.
(* C43 for C_GenerateKey. *)
Theorem C43_generated w s m l p sid n : from_scratch w -> slot_of w s = Some sid -> let c := GenerateKey s m (Some l) p in
  out_of w c = OHandle n -> new_at B w (after w c) sid n l /\ others_kept B w (after w c) sid.
Proof.
  intros Hs Hsl c Ho. apply (scratch_winv P B E Hfs Hutf) in Hs.
  destruct (generate_call P B E Hutf w s _ _ p n Hs Ho) as (sid' & t & t0 & t' & mt' & pr' & l' & env & uid & o & C1 & C2 & C3 & C4 & C5 & C6 & C7 & C8).
  injection C5 as <-. assert (sid' = sid) as -> by (unfold Spec.slot_of in Hsl; congruence).
  eapply inserted_new; [done|exact C2|exact C3|exact (made_new _ (gen_key_ok P B Hfs _ _ _ _ _ _ C6 C7))|exact C8|].
  intros ty x Hty Hin Hx. destruct (chosen_tables _ Hty) as (T1 & T2 & _). by eapply gen_gives.
Qed.
(* C43 for C_GenerateKeyPair. *)
Theorem C43_pair w s m l1 l2 p1 p2 sid n1 n2 : from_scratch w -> slot_of w s = Some sid -> let c := GenerateKeyPair s m (Some l1) (Some l2) p1 p2 in
  out_of w c = OHandles [n1; n2] -> n1 <> n2 /\ new_at B w (after w c) sid n1 l1 /\ new_at B w (after w c) sid n2 l2 /\ others_kept B w (after w c) sid.
Proof.
  intros Hs Hsl c Ho. apply (scratch_winv P B E Hfs Hutf) in Hs.
  destruct (pair_call P B E Hutf w s _ _ _ p1 p2 _ Hs Ho) as (sid' & t & t0 & t1 & t' & mt' & pr' & l1' & l2' & env & u1 & u2 & o1 & o2 & m1 & m2 & C1 & C2 & C3 & C4 & C5 & C6 & C7 & C8 & C9 & C10 & C11 & C12).
  injection C5 as <-. injection C6 as <-. injection C10 as <- <-. assert (sid' = sid) as -> by (unfold Spec.slot_of in Hsl; congruence). destruct C2 as (R1 & R2 & R3).
  destruct (gen_pair_ok P Hfs _ _ _ _ _ _ _ _ C7 C8 C9) as [M1%made_new M2%made_new].
  pose proof (token_ok B _ _ _ Hs R1) as Ht. assert (tok_ok t0) as Ht0 by (by eapply noise_ok). destruct (insert_tsteps P Hfs _ _ _ _ _ Ht0 M1 C11) as [Ht1 _].
  pose proof (insert_view P Hfs _ _ _ _ _ Ht0 M1 C11) as [En1 Hp1]. pose proof (insert_view P Hfs _ _ _ _ _ Ht1 M2 C12) as [En2 Hp2].
  pose proof (placed_id _ _ _ _ _ Hp1) as Hid1. destruct (object_id t1 n1) as [v1|] eqn:Hv1; [|done]. pose proof (id_named _ _ _ Ht1 Hv1) as Hh1.
  assert (n1 <> n2) as Hne. { intros He. pose proof (free_id _ Ht1) as Hf. rewrite <- En2, <- He in Hf. congruence. }
  pose proof (insert_same P Hfs _ _ _ _ _ _ _ Ht1 M2 Hh1 C12) as Hs1.
  assert (forall h u, object_id t h = Some u -> same_view h t t1 /\ same_view h t1 t') as Hold.
  { intros h u Hid. pose proof (noise_view t t0 h C3) as Hv. rewrite <- (view_id _ _ _ Hv) in Hid. pose proof (id_named _ _ _ Ht0 Hid) as Hh.
    pose proof (insert_same P Hfs _ _ _ _ _ _ _ Ht0 M1 Hh C11) as Hv'. split; [by etransitivity|]. eapply (insert_same P Hfs); [exact Ht1|exact M2| |exact C12]. rewrite (sv_name _ _ _ Hv'). exact Hh. }
  split; [done|]. unfold new_at, others_kept, Spec.id_at, Spec.attr_at. subst c. rewrite R1, R2. split_and!.
  - rewrite En1, <- (view_id _ _ _ (noise_view t t0 _ C3)). by apply free_id.
  - rewrite (view_id _ _ _ Hs1). congruence.
  - intros x Hx Hc. rewrite (view_attr _ _ _ _ Hs1). eapply placed_given; [exact Hp1|done|done|]. destruct (chosen_tables _ Hc) as (T1 & T2 & _). by apply (proj1 (pair_gives P Hfs _ _ _ _ _ _ _ _ _ x T1 T2 C9 eq_refl)).
  - destruct (object_id t n2) as [v|] eqn:Hv; [|done]. destruct (Hold _ _ Hv) as [Hx _]. rewrite <- (view_id _ _ _ Hx), En2, (free_id _ Ht1) in Hv. done.
  - by eapply placed_id.
  - intros x Hx Hc. eapply placed_given; [exact Hp2|done|done|]. destruct (chosen_tables _ Hc) as (T1 & T2 & _). by apply (proj2 (pair_gives P Hfs _ _ _ _ _ _ _ _ _ x T1 T2 C9 eq_refl)).
  - intros h u Hid. destruct (Hold _ _ Hid) as [X1 X2]. rewrite (view_id _ _ _ X2), (view_id _ _ _ X1). split; [done|]. intros ty. by rewrite (view_attr _ _ _ _ X2), (view_attr _ _ _ _ X1).
Qed.
Lemma create_insert env sh l t t' n : tok_ok t -> t_dedup t = None -> create_object P env sh l t = (t', Ok n) ->
  (forall o, factories_create env (p_uuid P (t_fresh t)) (p_fs P) l = Ok o -> (o_class o =? CKO_TRUST) || (o_class o =? CKO_NSS_TRUST) = false) ->
  exists o t0, factories_create env (p_uuid P (t_fresh t)) (p_fs P) l = Ok o /\ noise t t0 /\ insert_object P sh o t0 = (t', Ok n).
Proof.
  intros Ht Hd Hi Hcl. revert Hi. cut (wp (create_object P env sh l) t (fun t' r => match r with Ok n => exists o t0, factories_create env (p_uuid P (t_fresh t)) (p_fs P) l = Ok o /\
    noise t t0 /\ insert_object P sh o t0 = (t', Ok n) | Err _ => True end)).
  { intros H Hi. unfold wp in H. by rewrite Hi in H. }
  unfold create_object, new_uid. apply wp_bind, wp_bind, wp_draw, wp_ret, wp_bind, wp_lift. destruct (factories_create _ _ _ _) as [o|] eqn:Ho; [|done].
  assert (forall t0, noise t t0 -> wp (insert_object P sh o) t0 (fun t' r => match r with Ok n => exists o0 t0, Ok o = Ok o0 /\ noise t t0 /\ insert_object P sh o0 t0 = (t', Ok n) | Err _ => True end)) as Hins.
  { intros t0 Hn. unfold wp. destruct (insert_object P sh o t0) as [t1 [h|]] eqn:Hi; [|done]. cbn [fst snd]. by exists o, t0. }
  assert (noise t (set_fresh (t_fresh t + 1) t)) as Hn1 by apply noise_fresh.
  apply wp_bind. destruct (is_token o).
  - apply wp_bind, wp_gets, wp_bind, wp_ensure; [intros _|done]. unfold check_dedup. cbv zeta.
    apply wp_bind, wp_gets. cbn [t_dedup set_fresh]. rewrite Hd, (Hcl o eq_refl). apply wp_ret. by apply Hins.
  - apply wp_ret. by apply Hins.
Qed.
Lemma default_class uid f tmpl o : default_object_create uid f tmpl = Ok o -> o_class o = f_class f.
Proof. intros Hx. unfold default_object_create in Hx. peel Hx. apply ok_inj in Hx as <-. rewrite unique_class. by eapply internal_class. Qed.
Lemma key_create_class uid f tmpl o : key_create uid f tmpl = Ok o -> o_class o = f_class f.
Proof. intros Hx. by apply key_create_outside in Hx as [? _]. Qed.
Lemma create_class env uid tmpl o cl : factories_create env uid all_factories tmpl = Ok o -> tmpl_ulong tmpl CKA_CLASS = Ok cl -> o_class o = cl.
Proof.
  unfold factories_create. intros H Hcl. rewrite Hcl in H. cbn [rbind] in H. match type of H with rbind ?x _ = _ => destruct x as [kt|] end; cbn [rbind] in H; [|done].
  destruct (get_factory _ _) as [f|] eqn:Hf; cbn [rbind] in H; [|done]. apply get_factory_good in Hf as [Hf Hfc]. cbn [fst] in Hfc. rewrite <- Hfc.
  unfold factory_create in H. destruct (f_kind f).
  - by eapply default_class.
  - done.
  - unfold x509_create in H. peel H. apply default_class in E0. cbv zeta in H. repeat peel H; done.
  - unfold trust_create in H. peel H. apply default_class in E0. peel H. apply map_err_ok, alike_ensure in E1 as [E1 _]; [|done]. rewrite E0 in E1. repeat peel H; try done.
  - unfold nss_trust_create in H. peel H. apply default_class in E0. peel H. apply map_err_ok, alike_ensure in E1 as [E1 _]; [|done]. rewrite E0 in E1. repeat peel H; done.
  - unfold secret_create in H. do 4 peel H; apply key_create_class in E0; (apply alike_ensure in H as [H _]; [congruence|done]).
  - unfold aes_create in H. do 3 peel H. apply key_create_class in E0; (apply alike_ensure in H as [H _]; [congruence|done]).
  - unfold hotp_create in H. do 3 peel H. apply key_create_class in E0. apply alike_validate in H as [H _]. rewrite (proj2 (proj2 (put_frame a (from_ulong CKA_VALUE_LEN a0) eq_refl))) in H. congruence.
  - unfold asym_create in H. do 3 peel H. apply ok_inj in H as <-. apply key_create_class in E0. destruct (alike_material a a1) as [-> _]. done.
  - unfold asym_create in H. do 3 peel H. apply ok_inj in H as <-. apply key_create_class in E0. destruct (alike_material a a1) as [-> _]. done.
Qed.
(* C43 for C_CreateObject, of objects that are not looked for before: those of tokens set to deduplicate, and trust objects. *)
Theorem C43_created_partial w s l p sid n : from_scratch w -> slot_of w s = Some sid -> (forall t, token_of w sid = Some t -> t_dedup t = None) ->
  tmpl_ulong l CKA_CLASS <> Ok CKO_TRUST -> tmpl_ulong l CKA_CLASS <> Ok CKO_NSS_TRUST -> let c := CreateObject s (Some l) p in
  out_of w c = OHandle n -> new_at B w (after w c) sid n l /\ others_kept B w (after w c) sid.
Proof.
  intros Hs Hsl Hd Hc1 Hc2 c Ho. apply (scratch_winv P B E Hfs Hutf) in Hs. subst c.
  destruct (create_call P B E w s (Some l) p Hs) as [[_ [e Ha]]|(sid' & se & t & t0 & t' & l' & env & r & C1 & C2 & C3 & C4 & C5 & C6 & C7 & C8)].
  { apply answer_err in Ha as [_ Ha]. congruence. }
  assert (sid' = sid) as -> by (unfold Spec.slot_of in Hsl; congruence). injection C5 as <-. destruct r as [n'|e]; [|apply answer_err in C8 as [_ C8]; congruence].
  apply answer_ok in C8 as [_ C8]. assert (n' = n) as -> by congruence. pose proof C3 as (R1 & R2 & _). pose proof (token_ok B _ _ _ Hs R1) as Ht.
  assert (t_dedup t0 = None) as Hd0. { destruct C4 as (i & m & ->). exact (Hd _ R1). }
  destruct (create_insert _ _ _ _ _ _ (noise_ok _ _ C4 Ht) Hd0 C7) as (o & t1 & O1 & O2 & O3).
  { intros o Hf. rewrite Hfs in Hf. destruct (tmpl_ulong l CKA_CLASS) as [cl|] eqn:Hcl; [|unfold factories_create in Hf; rewrite Hcl in Hf; done].
    rewrite (create_class _ _ _ _ _ Hf Hcl). apply orb_false_iff. split; apply N.eqb_neq; congruence. }
  rewrite Hfs in O1. assert (new_ok o) as Hno. { eapply made_new, factories_create_ok; [apply Hutf|exact O1]. }
  eapply inserted_new; [done|exact C3|etransitivity; [exact C4|exact O2]|exact Hno|exact O3|].
  intros ty x Hty Hin Hx. destruct (chosen_tables _ Hty) as (T1 & T2 & _). by eapply create_gives.
Qed.
End new.

(* A data object on the token, a generated key and a key pair; what the templates choose is there, with the handles that came back. *)
Definition label (x : bytes) : ckattr := ca CKA_LABEL x.
Definition data_tmpl : list ckattr := [tulong CKA_CLASS CKO_DATA; tbool CKA_TOKEN true; label [104; 105]; tbool CKA_MODIFIABLE false; ca CKA_VALUE [1; 2; 3]].
Definition gen_tmpl : list ckattr := [tulong CKA_VALUE_LEN 16; label [107]; tbool CKA_ENCRYPT true; tbool CKA_EXTRACTABLE false; ca CKA_ID [7]].
Definition making : list call :=
  [CreateObject 2 (Some data_tmpl) true; GenerateKey 2 (Some (CKM_AES_KEY_GEN, None)) (Some gen_tmpl) true; ec_pair [label [112]; tbool CKA_VERIFY true] [label [115]; tbool CKA_TOKEN true; tbool CKA_SIGN true]].
Definition made43 (k : nat) : State.world toy_be := at_once in23 (firstn k making).
Definition given_at (w : State.world toy_be) (n : N) (tys : list N) : list (option bytes) := map (fun ty => a_val <$> attr_at toy_be w 0 n ty) tys.
Example C43_case : from_scratch toy toy_be toy_env in23 /\ Spec.slot_of toy_be in23 2 = Some 0 /\ (t_dedup <$> Spec.token_of toy_be in23 0) = Some None /\
  toy_out (made43 0) (CreateObject 2 (Some data_tmpl) true) = OHandle 10 /\ given_at (made43 1) 10 [CKA_LABEL; CKA_MODIFIABLE; CKA_TOKEN] = [Some [104; 105]; Some [0]; Some [1]] /\
  toy_out (made43 1) (GenerateKey 2 (Some (CKM_AES_KEY_GEN, None)) (Some gen_tmpl) true) = OHandle 11 /\ given_at (made43 2) 11 [CKA_LABEL; CKA_ENCRYPT; CKA_EXTRACTABLE; CKA_ID] = [Some [107]; Some [1]; Some [0]; Some [7]] /\
  toy_out (made43 2) (nth 2 making (CloseSession 0)) = OHandles [12; 13] /\ given_at (made43 3) 12 [CKA_LABEL; CKA_VERIFY] = [Some [112]; Some [1]] /\ given_at (made43 3) 13 [CKA_LABEL; CKA_TOKEN; CKA_SIGN] = [Some [115]; Some [1]; Some [1]].
Proof. split; [apply scratch_end|]. split_and!; vm_compute; reflexivity. Qed.
