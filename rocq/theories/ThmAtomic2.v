(* C23 for C_DeriveKey: when it makes several keys and fails, none of them is left. *)
From Verif Require Import Base Monad Hoare Attr Obj Factory Tables Create Sqlite Storage Token Backend State Api Toy
  ObjSpec Rows ObjOk ObjNew Triple TokInv TokStep TokenFrame TokWp TokAuth Spec WorldWp Sessions SessionInv SessionFacts ObjWorld ObjView ObjAttrs NewView ObjFacts
  AttrFacts Errors ObjCalls ToyFacts SetFacts ThmObjects ThmAttrs Origin ThmOrigin AuthSpec ThmAuth Rollback AtomicSpec ThmAtomic ThmDerived.

(* ---- what a derived key says of itself ---- *)
Lemma template_keeps tab un tmpl o o' ty a : create_from_template tab un tmpl o = Ok o' -> get_attr o ty = Some a -> get_attr o' ty = Some a.
Proof.
  revert o. induction tmpl as [|c r IH]; intros o; cbn [create_from_template]; [by intros [= <-]|].
  destruct (find_oa tab (ca_type c)) as [oa|]; [|done]. destruct (oa_is oa un); [done|].
  match goal with |- rbind ?x _ = _ -> _ => destruct x as [[]|] end; cbn [rbind]; [|done].
  destruct (oa_is oa OA_Ignored); [by apply IH|]. destruct (from_ck_attr c) as [b|]; cbn [rbind]; [|done]. intros H Ha. apply (IH _ H). by rewrite get_push, Ha.
Qed.
Lemma template_first tab un tmpl o o' ty c : (forall oa, find_oa tab ty = Some oa -> oa_is oa OA_Ignored = false) ->
  create_from_template tab un tmpl o = Ok o' -> get_attr o ty = None -> find_ck tmpl ty = Some c -> exists a, from_ck_attr c = Ok a /\ get_attr o' ty = Some a.
Proof.
  intros Hi. revert o. induction tmpl as [|x r IH]; intros o; cbn [create_from_template find_ck]; [done|].
  destruct (find_oa tab (ca_type x)) as [oa|] eqn:Hoa; [|done]. destruct (oa_is oa un); [done|].
  match goal with |- rbind ?x _ = _ -> _ => destruct x as [[]|] end; cbn [rbind]; [|done].
  destruct (N.eqb_spec (ca_type x) ty) as [He|He].
  - rewrite He in Hoa. rewrite (Hi _ Hoa). destruct (from_ck_attr x) as [a|] eqn:Ha; cbn [rbind]; [|done]. intros H Hn Hc. injection Hc as <-. exists a. split; [done|].
    destruct (from_ck_wf _ _ Ha) as [_ Ht]. eapply template_keeps; [exact H|]. rewrite get_push, Hn, Ht, He, N.eqb_refl. done.
  - destruct (oa_is oa OA_Ignored); [by apply IH|]. destruct (from_ck_attr x) as [a|] eqn:Ha; cbn [rbind]; [|done]. intros H Hn. apply (IH _ H).
    destruct (from_ck_wf _ _ Ha) as [_ Ht]. rewrite get_push, Hn, Ht. by destruct (N.eqb_spec (ca_type x) ty).
Qed.
Definition key_type_kept (x : (N * N) * factory) : bool :=
  match find_oa (f_attrs (snd x)) CKA_KEY_TYPE with Some oa => negb (oa_is oa OA_Ignored) | None => true end.
Lemma all_kept : forallb key_type_kept all_factories = true. Proof. by vm_compute. Qed.
Lemma all_born : forallb (fun x => negb (fst (fst x) =? CKO_SECRET_KEY) || born x) all_factories = true. Proof. by vm_compute. Qed.
Lemma all_small : forallb (fun x => snd (fst x) <? 2 ^ 64) all_factories = true. Proof. by vm_compute. Qed.
Lemma find_ck_says l ty c : find_ck l ty = Some c -> ca_type c = ty.
Proof. induction l as [|x l IH]; cbn [find_ck]; [done|]. destruct (N.eqb_spec (ca_type x) ty); [by intros [= <-]|done]. Qed.
Lemma new_class c : get_attr (obj_new c) CKA_CLASS = Some (from_ulong CKA_CLASS c). Proof. reflexivity. Qed.
Lemma unique_get uid o ty : ty <> CKA_UNIQUE_ID -> get_attr (generate_unique uid o) ty = get_attr o ty.
Proof.
  intros H. unfold generate_unique. destruct (has_attr o CKA_UNIQUE_ID); [done|]. rewrite get_push. destruct (get_attr o ty); [done|].
  cbn [a_type from_string]. destruct (N.eqb_spec CKA_UNIQUE_ID ty) as [<-|]; [by destruct H|done].
Qed.
(* Every key that the mechanism makes is a secret key that can be destroyed, and it makes as many as were asked for. *)
Definition derives (B : backend) (mt : N) (pr : option bytes) (l : list ckattr) (x : N) : Prop :=
  forall key others r ds, be_derive B mt pr key others l r = Ok ds ->
    Forall (fun d => exists t v, d = DKey t v /\ tmpl_ulong t CKA_CLASS = Ok CKO_SECRET_KEY /\ destroyable t) ds /\
    (mt = CKM_SP800_108_COUNTER_KDF \/ mt = CKM_SP800_108_FEEDBACK_KDF -> N.of_nat (length ds) = 1 + x) /\
    (mt = CKM_SP800_108_DOUBLE_PIPELINE_KDF -> length ds = 1%nat).

Section atomic2.
Context (P : params) (B : backend) (E : N -> keyenv) (Hfs : p_fs P = all_factories) (Hutf : forall n, utf8_valid (p_uuid P n) = true).
Notation world := (world B).
Notation from_scratch := (from_scratch P B E). Notation rv := (rv P B E). Notation after := (after P B E).
Notation out_of := (out_of P B E). Notation answer := (answer P B E). Notation slot_of := (slot_of B). Notation token_of := (token_of B). Notation winv := (winv B).
Notation built := (built P).

Lemma factory_born k f : get_factory all_factories k = Ok f -> fst k = CKO_SECRET_KEY -> born ((0, 0), f) = true.
Proof.
  intros H Hk. pose proof (get_factory_in _ _ _ H) as Hin. pose proof (proj1 (forallb_forall _ _) all_born _ Hin) as Hb. cbn [fst] in Hb. rewrite Hk in Hb. exact Hb.
Qed.
Lemma derived_plain key t v o : obj_ok key -> tmpl_ulong t CKA_CLASS = Ok CKO_SECRET_KEY -> destroyable t -> built key (DKey t v) o -> plain_key P o.
Proof.
  intros Hko Hcl Hd (uid & Hu & Ho). split; [by eapply (derived_object_ok P Hfs)|]. cbn [derived_object] in Ho. peel Ho. rename a into f. rename E0 into Hf. peel Ho. rename a into o1. rename E0 into Hk.
  assert (forall ty, ty <> CKA_VALUE -> ty <> CKA_VALUE_LEN -> get_attr o ty = get_attr o1 ty) as G1.
  { intros ty N1 N2. unfold set_key in Ho. peel Ho. unfold set_key_len in Ho. peel Ho. rewrite (ensure_other _ _ _ _ ty Ho) by congruence. apply put_get. cbn [a_type from_bytes]. congruence. }
  unfold key_derive in Hk. peel Hk. rename a into o2. rename E0 into Hi. assert (o1 = o2) as ->. { destruct (f_kind f); try (by injection Hk as ->). cbv zeta in Hk. destruct (_ && _); [done|]. by injection Hk as ->. }
  clear Hk. unfold internal_key_derive in Hi. peel Hi. rename a into o3. rename E0 into Hc.
  assert (forall ty, ty <> CKA_LOCAL -> ty <> CKA_ALWAYS_SENSITIVE -> ty <> CKA_NEVER_EXTRACTABLE -> get_attr o2 ty = get_attr o3 ty) as G2.
  { intros ty N1 N2 N3. cbv zeta in Hi. injection Hi as <-. rewrite !put_get; [done|..]; cbn [a_type from_bool]; congruence. }
  unfold internal_key_create in Hc. peel Hc. rename a into o4. rename E0 into Hc4. injection Hc as <-.
  unfold internal_object_create in Hc4. peel Hc4. rename a into o5. rename E0 into H5.
  unfold get_obj_factory_from_key_template in Hf. unfold tmpl_ulong in Hcl. destruct (find_ck t CKA_CLASS) as [cc|] eqn:Hfc; [|done]. rewrite Hcl in Hf. cbn [rbind] in Hf.
  destruct (find_ck t CKA_KEY_TYPE) as [ck|] eqn:Hfk; [|done]. peel Hf. rename a into kt. rename E0 into Hkt. rewrite Hfs in Hf.
  pose proof (get_factory_in _ _ _ Hf) as Hin. destruct (get_factory_good _ _ Hf) as [_ Hclass]. cbn [fst] in Hclass.
  pose proof (factory_born _ _ Hf eq_refl) as Hb. split.
  - assert (get_attr o4 CKA_DESTROYABLE = Some (from_bool CKA_DESTROYABLE true)) as Hg.
    { unfold born in Hb. cbn [snd] in Hb. destruct (find_oa _ _) as [oa|] eqn:Hoa; [|done]. apply andb_true_iff in Hb as [Hb1 Hb2]. apply bool_decide_eq_true in Hb2.
      apply template_says with (ty := CKA_DESTROYABLE) in H5 as [H5|(c & a & X1 & X2 & X3 & X4)].
      - rewrite <- Hb2. eapply (defaults_give _ _ _ _ _ oa); [done|exact Hoa|done|exact Hc4|exact H5].
      - apply (defaults_says _ _ _ _ _ _ Hc4). rewrite X4. f_equal. rewrite <- X2. eapply from_ck_bool; [by rewrite X2|exact X3|by apply Hd]. }
    unfold is_destroyable, bool_attr. rewrite G1, G2, unique_get by done. by rewrite Hg.
  - exists f. unfold get_object_factory, get_ulong, get_as. rewrite !G1, !G2, !unique_get by done.
    rewrite (defaults_says _ _ _ _ CKA_CLASS _ Hc4 (template_keeps _ _ _ _ _ _ _ H5 (new_class _))). rewrite ulong_from_ulong, Hclass. change (CKO_SECRET_KEY mod 2 ^ 64) with CKO_SECRET_KEY. cbn [rbind].
    change (if CKO_SECRET_KEY =? CKO_CERTIFICATE then ?a else if (CKO_SECRET_KEY =? CKO_PUBLIC_KEY) || ?c then ?b else ?d) with b.
    assert (forall oa, find_oa (f_attrs f) CKA_KEY_TYPE = Some oa -> oa_is oa OA_Ignored = false) as Hig.
    { intros oa Hoa. pose proof (proj1 (forallb_forall _ _) all_kept _ Hin) as Hx. unfold key_type_kept in Hx. cbn [snd] in Hx. rewrite Hoa in Hx. by apply negb_true_iff in Hx. }
    destruct (template_first _ _ _ _ _ CKA_KEY_TYPE ck Hig H5 eq_refl Hfk) as (a & A1 & A2).
    rewrite (defaults_says _ _ _ _ CKA_KEY_TYPE _ Hc4 A2).
    pose proof (find_ck_says _ _ _ Hfk) as Hty.
    unfold from_ck_attr in A1. rewrite Hty in A1. change (search_by_id CKA_KEY_TYPE) with (Some KNum) in A1. cbv iota in A1. rewrite Hkt in A1. cbn [rbind] in A1. apply ok_inj in A1 as <-.
    pose proof (proj1 (forallb_forall _ _) all_small _ Hin) as Hsm. cbn [fst snd] in Hsm. apply N.ltb_lt in Hsm. rewrite ulong_from_ulong, N.mod_small by done. cbn [rbind]. by rewrite Hfs.
Qed.
(* ---- inserting several, and taking them back ---- *)
Lemma since_same t0 D D' t : (forall h, In h D <-> In h D') -> since P t0 D t -> since P t0 D' t.
Proof.
  intros H [S1 S2 S3 S4]. split; [done|intros h Hh; by apply S2, H| |].
  - intros h o Ho. destruct (S3 _ _ Ho); [left; by apply H|by right].
  - intros i r Hr. destruct (S4 _ _ Hr) as [|(h & u & X1 & X2)]; [by left|]. right. exists h, u. split; [by apply H|done].
Qed.
Lemma destroy_undoes hs : forall t0 t, List.NoDup hs -> since P t0 hs t -> calm (t_io t) -> exists t', destroy_all P hs t = (t', Ok tt) /\ no_more t0 t'.
Proof.
  induction hs as [|h hs IH]; intros t0 t Hn Hs Hc; cbn [destroy_all]; [exists t; split; [done|by eapply since_end]|].
  inversion Hn as [|? ? Hn1 Hn2]; subst. destruct (since_destroy P Hfs _ _ _ _ Hs Hn1 Hc) as (t1 & D1 & D2 & D3). rewrite run_bind. unfold attempt. rewrite D1. cbn [fst snd]. by apply IH.
Qed.
Lemma insert_fresh t0 D s o t t' h : since P t0 D t -> new_ok o -> insert_object P s o t = (t', Ok h) -> ~ In h D.
Proof.
  intros Hs Ho Hi Hin. pose proof (si_ok _ _ _ _ Hs) as Ht. apply (insert_view P Hfs) in Hi as [-> _]; [|done|done].
  destruct (si_erase _ _ _ _ Hs _ Hin) as ([u Hu] & _). destruct (tok_free _ (h_next (t_handles t)) Ht (N.le_refl _)) as [Hf _]. unfold hm in Hu. congruence.
Qed.
Lemma all_undone s os : forall done also t0 t t' e, List.NoDup (done ++ also) -> since P t0 (done ++ also) t -> calm (t_io t) -> Forall (plain_key P) os ->
  insert_all P s os done also t = (t', Err e) -> no_more t0 t'.
Proof.
  induction os as [|o os IH]; intros dn also t0 t t' e Hn Hs Hc Hp; cbn [insert_all]; [done|]. inversion Hp as [|? ? Hp1 Hp2]; subst.
  rewrite run_bind. unfold attempt. destruct (insert_object P s o t) as [t1 r] eqn:Hi. pose proof (insert_calm P s o t Hc) as C1. rewrite Hi in C1. cbn [fst snd] in *.
  pose proof (since_insert P Hfs _ _ _ _ _ _ _ Hs (made_new _ (proj1 Hp1)) Hi) as S1. destruct r as [h|e1].
  - specialize (S1 Hp1). pose proof (insert_fresh _ _ _ _ _ _ _ Hs (made_new _ (proj1 Hp1)) Hi) as Hf. apply IH; [| |done|done].
    + rewrite <- app_assoc. cbn [app]. by apply (List.NoDup_Add (List.Add_app h dn also)).
    + eapply since_same; [|exact S1]. intros x. rewrite <- app_assoc. cbn [app]. rewrite List.in_app_iff. cbn [In]. rewrite List.in_app_iff. tauto.
  - rewrite run_bind. destruct (destroy_undoes _ _ _ Hn S1 C1) as (t2 & D1 & D2). rewrite D1. cbn [fst snd]. intros H. apply pair_equal_spec in H as [<- _]. done.
Qed.

(* ---- the call ---- *)
Definition calmer (t t' : token) : Prop := noise t t' /\ (calm (t_io t) -> calm (t_io t')).
Lemma calmer_trans t t1 t2 : calmer t t1 -> calmer t1 t2 -> calmer t t2.
Proof. intros [A1 A2] [B1 B2]. split; [by etransitivity|auto]. Qed.
Lemma noise_no_more t t' t2 : noise t t' -> no_more t' t2 -> no_more t t2.
Proof. intros (i & n & ->) [H1 H2]. split; [exact H1|exact H2]. Qed.
Lemma noise_nothing t t' : noise t t' -> no_more t t'.
Proof. intros (i & n & ->). split; auto. Qed.
Lemma read_calmer {A} (f : db -> result A) t : calmer t (fst (dbread f t)).
Proof.
  unfold dbread. rewrite run_bind. unfold io. destruct (t_io t) as [|[e|] r] eqn:Hio; cbn [fst snd].
  - split; [reflexivity|done].
  - split; [apply noise_io|]. intros Hx. rewrite Hio in Hx. by apply List.Forall_cons_iff in Hx as [? _].
  - split; [apply noise_io|]. intros Hx. rewrite Hio in Hx. cbn [t_io set_io gets lift fst]. by apply List.Forall_cons_iff in Hx as [_ Hx].
Qed.
Definition reads {A} (m : M token A) : Prop := forall t, calmer t (fst (m t)).
Lemma calmer_refl t : calmer t t.
Proof. split; [reflexivity|done]. Qed.
Lemma reads_bind {A C} (m : M token A) (k : A -> M token C) : reads m -> (forall a, reads (k a)) -> reads (mbind m k).
Proof.
  intros H1 H2 t. rewrite run_bind. specialize (H1 t). destruct (m t) as [t1 [a|e]]; cbn [fst snd] in *; [|done]. eapply calmer_trans; [exact H1|apply H2].
Qed.
Lemma reads_pure {A} (m : M token A) : (forall t, fst (m t) = t) -> reads m.
Proof. intros H t. rewrite H. apply calmer_refl. Qed.
Lemma reads_draw : reads draw.
Proof. intros t. split; [apply noise_fresh|done]. Qed.
Ltac pure_read := apply reads_pure; intros ?; first [reflexivity | cbv [lift ensure ret fail gets]; match goal with |- context [if ?b then _ else _] => by destruct b | |- context [match ?b with _ => _ end] => by destruct b end].
Lemma reads_fetch h l : reads (st_fetch P h l).
Proof.
  unfold st_fetch. apply reads_bind; [by pure_read|]. intros [uid|]; [|by pure_read]. cbv zeta. apply reads_bind; [intros t; apply read_calmer|]. intros o.
  apply reads_bind; [by pure_read|]. intros f. apply reads_bind; [by pure_read|]. intros k. apply reads_bind; [by pure_read|]. intros v. apply reads_bind; [by pure_read|]. intros o'. by pure_read.
Qed.
Lemma reads_object h : reads (get_object_by_handle P h).
Proof.
  unfold get_object_by_handle, get_or_fetch. apply reads_bind.
  - apply reads_bind; [by pure_read|]. intros [o|]; [by pure_read|apply reads_fetch].
  - intros o. apply reads_bind; [by pure_read|]. intros b. apply reads_bind; [by pure_read|]. intros []. by pure_read.
Qed.
Lemma reads_objects hs : reads (get_objects P hs).
Proof.
  induction hs as [|h hs IH]; cbn [get_objects]; [by pure_read|]. apply reads_bind; [apply reads_object|]. intros o. apply reads_bind; [done|]. intros os. by pure_read.
Qed.
Lemma reads_derived key l : reads (derived_objects P key l).
Proof.
  induction l as [|d l IH]; cbn [derived_objects]; [by pure_read|]. apply reads_bind; [unfold new_uid; apply reads_bind; [apply reads_draw|intros ?; by pure_read]|]. intros u.
  apply reads_bind; [by pure_read|]. intros o. apply reads_bind; [done|]. intros os. by pure_read.
Qed.
Lemma wp_reads {A} (m : M token A) t (Q : token -> result A -> Prop) : reads m -> (wp m t (fun t' r => calmer t t' -> Q t' r)) -> wp m t Q.
Proof. intros H. unfold wp. specialize (H t). destruct (m t) as [t' r]. cbn [fst] in H. auto. Qed.
Lemma wp_any_noise {A} (m : M token A) t (Q : token -> result A -> Prop) : reads m -> (forall t' r, m t = (t', r) -> calmer t t' -> Q t' r) -> wp m t Q.
Proof. intros H H1. unfold wp. specialize (H t). destruct (m t) as [t' r] eqn:Hm. by apply H1. Qed.
Lemma replaced_nothing w w' i t t' sid : replaced B w w' i t t' -> no_more t t' -> nothing_new B w w' sid.
Proof.
  intros (R1 & R2 & R3) [N1 N2] x Hx. destruct (N.eq_dec sid i) as [->|Hne]; [rewrite R2 in Hx; injection Hx as <-; by exists t|]. exists x. rewrite R3 in Hx by done. done.
Qed.
Lemma derived_forms key t : forall l os t', derived_objects P key l t = (t', Ok os) -> Forall2 (built key) l os.
Proof.
  intros l. revert t. induction l as [|d l IH]; intros t os t'; cbn [derived_objects]; [intros H; apply pair_equal_spec in H as [_ H]; apply ok_inj in H as <-; constructor|].
  rewrite run_bind. unfold new_uid. rewrite run_bind. unfold draw. cbv [gets modify ret]. cbn [Monad.mbind fst snd]. rewrite run_bind. cbv [lift]. destruct (derived_object P _ key d) as [o|] eqn:Ho; cbn [fst snd]; [|done].
  rewrite run_bind. destruct (derived_objects P key l _) as [t2 [os2|]] eqn:Hd; cbn [fst snd]; [|done]. intros H. apply pair_equal_spec in H as [_ H]. apply ok_inj in H as <-.
  constructor; [|by eapply IH]. eexists. split; [apply Hutf|exact Ho].
Qed.
(* Keys that are not all made leave none of them behind, when the database works. *)
Theorem C23_derive_partial w s mt pr base l p x sid : from_scratch w -> works B w -> derives B mt pr l x ->
  let c := DeriveKey s (Some (mt, pr)) base (Some l) p x in rv w c <> CKR_OK -> nothing_new B w (after w c) sid.
Proof.
  intros Hs Hio Hds c Hr. apply (scratch_winv P B E Hfs Hutf) in Hs. rename Hs into Hw.
  set (Q := fun (w' : world) (ro : result (N * out)) => match ro with Ok (r, _) => r = CKR_OK | Err _ => nothing_new B w w' sid end).
  cut (Q (after w c) (answer w c)).
  { unfold Q. destruct (answer w c) as [[r o]|e] eqn:Ha; [|done]. apply answer_ok in Ha as [Ha _]. intros ->. by destruct Hr. }
  assert (forall e, Q w (Err e)) as HQ. { intros e t Ht. by exists t. }
  apply (call_wp P B E c w Q).
  cbn [api c]. unfold c_derive_key. wp_step. wp_step; [|done].
  do 2 (wp_step; wp_step; [|done]; match goal with H : Some _ = Some ?x |- _ => injection H as <- end).
  wp_step. wp_step; [|done]. wp_step. wp_step; [|done].
  match goal with H : w_smap w !! s = Some _ |- _ => rename H into Hm end. match goal with H : w_slots w !! _ = Some _ |- _ => rename H into Hsl end.
  match goal with H : sl_sessions _ !! s = Some _ |- _ => rename H into Hse end.
  assert (s_slot s0 = sid0) as Hss. { apply (so_sessions _ _ _ _ _ (si_slots _ _ (wi_inv _ _ Hw) _ _ Hsl) _ _ Hse). }
  assert (token_of w sid0 = Some (sl_token sl)) as Htk by (unfold Spec.token_of; by rewrite Hsl). pose proof (token_ok B _ _ _ Hw Htk) as Ht. pose proof (Hio _ _ Htk) as Hc.
  assert (forall t' e, no_more (sl_token sl) t' -> Q (with_slot B sid0 (put_token B t' sl) w) (Err e)) as Hend.
  { intros t' e Hn. unfold Q. eapply replaced_nothing; [by apply slot_replaced|exact Hn]. }
  rewrite Hss. apply wp_bind, wp_ro_check; [|done]. intros Hro. cbv zeta. wp_step. wp_step; [|done].
  wp_step. wp_step. apply wp_reads; [apply reads_object|]. apply wp_peek; [done| |]; [|intros t' e Hn _; by apply Hend, noise_nothing].
  intros t1 key Hn1 Hseen Hmay Hc1. cbv beta iota.
  assert (obj_ok key) as Hko. { destruct Hseen as [H6|[_ H6]]; [apply (tk_sobj _ Ht _ _ H6)|apply (fetched_ok P Hfs _ _ _ Ht H6)]. }
  assert (forall e, Q (with_slot B sid0 (put_token B t1 sl) w) (Err e)) as He1 by (intros e; by apply Hend, noise_nothing).
  apply wp_bind. match goal with |- wp ?mm ?ww ?qq => assert (forall q : world -> result unit -> Prop, q ww (Ok tt) -> (forall e, q ww (Err e)) -> wp mm ww q) as Hg end.
  { intros q Q1 Q2. destruct (_ || _); [by apply wp_skip|]. apply wp_bind, wp_lift. destruct (get_bool key CKA_DERIVE); [|apply Q2]. apply wp_ensure; intros; [apply Q1|apply Q2]. }
  apply Hg; clear Hg; [|done]. cbv zeta. wp_step. wp_step; [|done]. wp_step. unfold mech_flags. wp_step. wp_step. destruct (List.filter _ _) as [|y ?]; wp_step; [done|]. wp_step. wp_step; [|done].
  wp_step. wp_step. change (sl_token (put_token B ?a ?b)) with a. apply wp_any_noise; [apply reads_objects|]. intros t2 others _ Hc2. pose proof (calmer_trans _ _ _ Hc1 Hc2) as Hc12.
  rewrite ?with_slot_twice. flat_put.
  destruct others as [others|e]; [|exact (Hend _ _ (noise_nothing _ _ (proj1 Hc12)))].
  wp_step. wp_step. change (sl_token (put_token B ?a ?b)) with a. apply wp_draw. wp_step. wp_step.
  rewrite ?with_slot_twice. flat_put.
  set (t2' := set_fresh _ t2) in *. assert (calmer (sl_token sl) t2') as Hc2'. { eapply calmer_trans; [exact Hc12|]. split; [apply noise_fresh|done]. }
  destruct (be_derive B mt pr key others l _) as [ds|] eqn:Hde; [|exact (Hend _ _ (noise_nothing _ _ (proj1 Hc2')))]. wp_step. wp_step. wp_step. change (sl_token (put_token B ?a ?b)) with a.
  apply wp_any_noise; [apply reads_derived|]. intros t3 os Hos Hc3. rewrite ?with_slot_twice. flat_put. pose proof (calmer_trans _ _ _ Hc2' Hc3) as [Hn3 Hio3]. specialize (Hio3 Hc).
  destruct os as [os|e]; [|exact (Hend _ _ (noise_nothing _ _ Hn3))]. apply derived_forms in Hos. destruct (Hds _ _ _ _ Hde) as (F1 & F2 & F3).
  assert (Forall (plain_key P) os) as Hpl.
  { clear -Hos F1 Hko Hfs Hutf. induction Hos as [|d o ds os H1 H2 IH]; [constructor|]. inversion F1 as [|? ? (t & v & -> & G1 & G2) G3]; subst. constructor; [by eapply derived_plain|by apply IH]. }
  apply Forall2_length in Hos. pose proof (noise_ok _ _ Hn3 Ht) as Ht3.
  assert (forall t' e, no_more t3 t' -> Q (with_slot B sid0 (put_token B t' sl) w) (Err e)) as Hend3. { intros t' e Hx. apply Hend. by eapply noise_no_more. }
  destruct (_ || _ || _) eqn:Hsp.
  { destruct os as [|o os]; [exact (Hend _ _ (noise_nothing _ _ Hn3))|]. apply List.Forall_cons_iff in Hpl as [Hp1 Hp2].
    wp_step. wp_step. change (sl_token (put_token B ?a ?b)) with a. unfold wp at 1. destruct (insert_object P s o t3) as [t4 r] eqn:Hi. cbn [fst snd]. rewrite ?with_slot_twice. flat_put.
    pose proof (insert_calm P s o t3 Hio3) as C4. rewrite Hi in C4. cbn [fst] in C4. pose proof (since_insert P Hfs _ _ _ _ _ _ _ (since_start P _ Ht3) (made_new _ (proj1 Hp1)) Hi) as S1.
    destruct r as [kh|e]; [|apply Hend3; by eapply since_end]. specialize (S1 Hp1).
    destruct os as [|o2 os]; [wp_step; wp_step; done|].
    assert (mt =? CKM_SP800_108_DOUBLE_PIPELINE_KDF = false) as Hnd. { apply N.eqb_neq. intros Hx. specialize (F3 Hx). cbn [length] in Hos. lia. }
    rewrite Hnd in *. apply wp_bind, wp_bind, wp_ensure; [intros _|intros Hx; discriminate Hx]. rewrite orb_false_r in Hsp. apply orb_true_iff in Hsp.
    assert (x =? N.of_nat (length (o2 :: os)) = true) as Hlen.
    { apply N.eqb_eq. rewrite Hos in F2. cbn [length] in *. enough (N.of_nat (S (S (length os))) = 1 + x) by lia. apply F2. destruct Hsp as [?%N.eqb_eq|?%N.eqb_eq]; auto. }
    rewrite Hlen. apply wp_bind, wp_ensure; [intros _|intros Hx; discriminate Hx]. wp_step. change (sl_token (put_token B ?a ?b)) with a. unfold wp at 1.
    destruct (insert_all P s (o2 :: os) [] [kh] t4) as [t5 r] eqn:Ha. cbn [fst snd]. rewrite ?with_slot_twice. flat_put.
    destruct r as [hs|e]; [wp_step; done|]. apply Hend3. eapply (all_undone s (o2 :: os) [] [kh]); [|exact S1|exact C4|exact Hp2|exact Ha]. cbn [app]. constructor; [intros []|constructor]. }
  destruct ((mt =? CKM_TLS12_KEY_AND_MAC_DERIVE) || (mt =? CKM_TLS12_KEY_SAFE_DERIVE)).
  { apply wp_bind, wp_ensure; intros _; [|exact (Hend _ _ (noise_nothing _ _ Hn3))]. wp_step. wp_step. change (sl_token (put_token B ?a ?b)) with a. unfold wp at 1.
    destruct (insert_all P s os [] [] t3) as [t5 r] eqn:Ha. cbn [fst snd]. rewrite ?with_slot_twice. flat_put.
    destruct r as [hs|e]; [wp_step; done|]. apply Hend3. eapply (all_undone s os [] []); [|apply since_start, Ht3|exact Hio3|exact Hpl|exact Ha]. constructor. }
  destruct os as [|o [|? ?]]; [exact (Hend _ _ (noise_nothing _ _ Hn3))| |exact (Hend _ _ (noise_nothing _ _ Hn3))]. apply List.Forall_cons_iff in Hpl as [Hp1 _].
  wp_step. wp_step. change (sl_token (put_token B ?a ?b)) with a. unfold wp at 1. destruct (insert_object P s o t3) as [t4 r] eqn:Hi. cbn [fst snd]. rewrite ?with_slot_twice. flat_put.
  pose proof (since_insert P Hfs _ _ _ _ _ _ _ (since_start P _ Ht3) (made_new _ (proj1 Hp1)) Hi) as S1.
  destruct r as [kh|e]; [destruct p; wp_step; done|apply Hend3; by eapply since_end].
Qed.
End atomic2.

(* ---- cases ---- *)
Definition open_key : list ckattr :=
  [tulong CKA_CLASS CKO_SECRET_KEY; tulong CKA_KEY_TYPE CKK_GENERIC_SECRET; tbool CKA_TOKEN false; tbool CKA_PRIVATE false].
Definition base23 : list call := home ++ [good; CreateObject 2 (Some (open_key ++ [tbool CKA_DERIVE true; ca CKA_VALUE (repeat 7 16)])) true; Logout 2].
Definition two_keys (b : N) (l : list ckattr) : call := DeriveKey 2 (Some (CKM_SP800_108_COUNTER_KDF, Some [b])) 10 (Some l) true 1.
Definition lasting_key : list ckattr := open_key ++ [tbool CKA_DESTROYABLE false].
(* The user has logged out: the first key is made, the second is to be kept on the token and cannot be stored; both are gone.
   With a second key of the session both are made. *)
Example C23_case_derive : from_scratch toy toy_be toy_env (toy_end base23) /\ works toy_be (toy_end base23) /\
  derives toy_be CKM_SP800_108_COUNTER_KDF (Some [1]) open_key 1 /\
  toy_rv (toy_end base23) (two_keys 1 open_key) = CKR_USER_NOT_LOGGED_IN /\ toy_rv (toy_end base23) (two_keys 0 open_key) = CKR_OK /\
  counts (toy_end base23) = Some (10%nat, 0%nat) /\ counts (at_once (toy_end base23) [two_keys 1 open_key]) = Some (10%nat, 0%nat) /\
  counts (at_once (toy_end base23) [two_keys 0 open_key]) = Some (12%nat, 0%nat).
Proof.
  split; [apply scratch_end|]. split; [apply calm_works; vm_compute; reflexivity|]. split.
  { intros key others r ds H. apply ok_inj in H as <-. split; [|split; [done|done]].
    constructor; [|constructor; [|constructor]]; (eexists _, _; split; [reflexivity|]; split; [reflexivity|]);
      intros c Hc Ht; cbn in Hc; repeat (destruct Hc as [<-|Hc]; [vm_compute in Ht; discriminate Ht|]); done. }
  split_and!; vm_compute; reflexivity.
Qed.
(* C23 is false for a first key that may not be destroyed: it stays although the call failed, and no handle to it is returned. *)
Theorem C23_derive_refuted : let w := toy_end base23 in let c := two_keys 1 lasting_key in
  from_scratch toy toy_be toy_env w /\ works toy_be w /\ toy_rv w c = CKR_USER_NOT_LOGGED_IN /\ toy_out w c = ONone /\
  ~ nothing_new toy_be w (after toy toy_be toy_env w c) 0.
Proof.
  cbv zeta. split; [apply scratch_end|]. split; [apply calm_works; vm_compute; reflexivity|]. split; [vm_compute; reflexivity|]. split; [vm_compute; reflexivity|].
  intros H. apply (nothing_counts _ _ 10 0 11 0) in H; [lia|vm_compute; reflexivity|vm_compute; reflexivity].
Qed.
