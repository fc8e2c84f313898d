(* Keys and their copies stay protected and of the same kind. *)
From Verif Require Import Base Monad Hoare Attr Obj Factory Tables Create Sqlite Storage Token Backend State Api
  ObjSpec PlainSpec Rows ObjOk ObjNew Triple TokInv TokStep TokenFrame TokWp TokAuth Spec WorldWp Sessions SessionInv SessionFacts ObjWorld ObjView ObjAttrs NewView ObjFacts
  AttrFacts Errors ObjCalls SetFacts ThmObjects ThmAttrs.

Definition kinds : list N := [CKA_CLASS; CKA_KEY_TYPE].
Definition untyped (l : list ckattr) : Prop := forall c, In c l -> ~ In (ca_type c) kinds.

Lemma agree_apply tm o o' r : (forall c, In c tm -> ca_type c <> CKA_CLASS) -> apply_template o tm = (o', r) -> agree o -> agree o'.
Proof.
  intros Hc. revert o. induction tm as [|c tm IH]; intros o; cbn [apply_template]; [intros H; by injection H as <- _|].
  destruct (from_ck_attr c) as [a|] eqn:Ha; cbn [rbind]; [|intros H; by injection H as <- _]. destruct (from_ck_kind _ _ Ha) as [_ Hty].
  destruct (set_attr o a) as [o1|] eqn:Hs; [|intros H; by injection H as <- _]. intros H Ho. eapply IH; [intros; apply Hc; by right|exact H|].
  eapply agree_set; [exact Hs| |done]. rewrite Hty. apply Hc. by left.
Qed.
Lemma agree_put_bool o ty b : ty <> CKA_CLASS -> agree o -> agree (put_attr o (from_bool ty b)).
Proof. intros Hc Ho. unfold put_attr. destruct (set_attr o (from_bool ty b)) as [o'|] eqn:Hs; [|done]. by eapply agree_set. Qed.
Lemma class_attr o a : obj_pre o -> get_attr o CKA_CLASS = Some a -> a = from_ulong CKA_CLASS (o_class o).
Proof.
  intros Ho Ha. pose proof (pre_class _ Ho) as Hc. unfold class_ok, get_ulong, get_as in Hc. rewrite Ha in Hc.
  pose proof (pre_get_wf _ _ _ Ho Ha) as [W1 W2]. pose proof (get_type _ _ _ Ha) as Hty. rewrite Hty in W1. destruct a as [ty k v]. cbn [a_type a_kind a_val] in *. subst ty.
  assert (k = KNum) as -> by (unfold norm in W1; cbn [a_kind a_type] in W1; destruct k; try discriminate W1; done).
  destruct W2 as [x ->]. unfold from_ulong. f_equal. unfold attr_to_ulong in Hc. cbn [a_kind a_val] in Hc. unfold blen, le64 in Hc. rewrite le_length in Hc.
  change (Ok (unle (le 8 x)) = Ok (o_class o)) in Hc. assert (o_class o = unle (le 8 x)) as -> by congruence. rewrite unle_le_mod. symmetry. apply le64_mod.
Qed.
Lemma copy_class P uid o tmpl n : (forall c, In c tmpl -> ca_type c <> CKA_CLASS) -> obj_pre o -> agree o -> factories_copy uid (p_fs P) o tmpl = Ok n ->
  agree n /\ get_attr n CKA_CLASS = get_attr o CKA_CLASS.
Proof.
  intros Hc Hp Ho. destruct (class_some _ (pre_class _ Hp)) as [a0 Ha0]. unfold factories_copy. destruct (negb _); [done|]. destruct (get_object_factory _ o) as [f|]; [|done]. cbn [rbind].
  intros H. assert (default_copy uid f o tmpl = Ok n) as Hd by (destruct (f_kind f); done). clear H. unfold default_copy in Hd.
  destruct (copy_check _ _ _) as [[]|]; [|done]. cbn [rbind] in Hd. destruct (apply_template (blind_copy uid o) tmpl) as [m [[]|]] eqn:Hap; [|done].
  assert (get_attr (blind_copy uid o) CKA_CLASS = get_attr o CKA_CLASS) as Hb.
  { rewrite Ha0, (class_attr _ _ Hp Ha0). unfold blind_copy, generate_unique. by destruct (has_attr _ _). }
  assert (agree (blind_copy uid o)) as Hab.
  { intros x Hx Hty. rewrite Hb. unfold blind_copy in Hx. cbn [o_attrs with_attrs] in Hx. apply in_app_or in Hx as [Hx|Hx]; [|apply in_filter in Hx as [Hx _]; by apply Ho].
    revert Hx. unfold generate_unique. rewrite Ha0, (class_attr _ _ Hp Ha0). cbn. intros [<-|[<-|[]]]; done. }
  assert (agree m) as Hm by (by eapply agree_apply).
  assert (get_attr m CKA_CLASS = get_attr o CKA_CLASS) as Hg.
  { rewrite <- Hb. destruct (apply_entry _ _ _ _ CKA_CLASS Hap) as [->|(c & x & A1 & A2 & _)]; [done|]. by destruct (Hc c A1). }
  injection Hd as <-. match goal with |- agree (match ?x with Ok _ => put_attr ?o1 _ | Err _ => _ end) /\ _ => assert (agree o1 /\ get_attr o1 CKA_CLASS = get_attr o CKA_CLASS) as [X1 X2] end.
  - match goal with |- agree (match ?x with Ok _ => _ | Err _ => _ end) /\ _ => destruct x end; [|done]. split; [by apply agree_put_bool|]. by rewrite put_other.
  - match goal with |- agree (match ?x with Ok _ => _ | Err _ => _ end) /\ _ => destruct x end; [|done]. split; [by apply agree_put_bool|]. by rewrite put_other.
Qed.

Section protect.
Context (P : params) (Hfs : p_fs P = all_factories) (Hutf : forall n, utf8_valid (p_uuid P n) = true).

(* The class entries of the object agree if it is in memory. *)
Definition agrees (t : token) (h : N) : Prop := forall o, t_sobjs t !! h = Some o -> agree o.
Definition guarded (t : token) (h : N) : Prop := bool_of t h CKA_SENSITIVE <> Some false \/ bool_of t h CKA_EXTRACTABLE <> Some true.
(* The handle names nothing any more, or an object with these CKA_CLASS and CKA_KEY_TYPE, guarded. *)
Definition safe (cl kt : option attr) (h : N) (t : token) : Prop :=
  gone h t \/ (exists u, object_id t h = Some u) /\ attr_of t h CKA_CLASS = cl /\ attr_of t h CKA_KEY_TYPE = kt /\ guarded t h /\ agrees t h.
Definition calm (k : kind) : Prop := forall h tmpl, set_kind k h tmpl -> untyped tmpl.

Lemma agrees_step k t t' h u : tok_ok t -> tstep P k t t' -> mild k -> calm k -> object_id t h = Some u -> agrees t h -> agrees t' h.
Proof.
  intros Ht Hs [Hk1 Hk2] Hc Hid Ha o Ho. pose proof (id_named _ _ _ Ht Hid) as Hh. pose proof (tk_keys _ Ht _ _ Hh) as [_ Hn].
  destruct Hs as [t t' Q1 Q2 Q3 Q4|t|t uid|t h' H1 H2|t sh o' uid H1 H2 H3 H4|t h' tmpl o' f H1 H2|t h' o' H1 H2|t sel|t o' uid s|t h' tmpl uid o1 f tm o' s|t h' o1 o' uid s|t h' uid s|t|t];
    cbn [t_sobjs set_handles set_sobjs set_db] in Ho; try (by apply Ha); try (by destruct Hk1); try (by destruct (Hk2 h')).
  - rewrite Q2 in Ho. by apply Ha.
  - rewrite lookup_insert_ne in Ho by lia. by apply Ha.
  - destruct (decide (h' = h)) as [->|Hne]; [|rewrite lookup_insert_ne in Ho by done; by apply Ha]. rewrite lookup_insert in Ho. injection Ho as <-.
    unfold set_object_attributes. destruct (negb _); [by apply Ha|]. destruct (check_set_attributes _ _); [|by apply Ha]. cbn [fst].
    destruct (apply_template o' tmpl) as [o2 r] eqn:Hap. eapply agree_apply; [|exact Hap|by apply Ha]. intros c Hin He. apply (Hc h tmpl (or_introl eq_refl) c Hin). rewrite He. by left.
  - apply lookup_delete_Some in Ho as [_ Ho]. by apply Ha.
  - apply Ha. revert Ho. unfold drop_objs. cbn [t_sobjs set_handles set_sobjs]. rewrite foldr_delete_lookup. by destruct (decide _).
Qed.

Lemma kind_tables ty : In ty kinds -> forallb (lasting ty) all_factories = true /\ search_by_id ty = Some KNum.
Proof. intros [<-|[<-|[]]]; by vm_compute. Qed.
Lemma kind_step k t t' h u ty : tok_ok t -> tstep P k t t' -> mild k -> calm k -> In ty kinds -> object_id t h = Some u -> object_id t' h <> None ->
  attr_of t' h ty = attr_of t h ty.
Proof.
  intros Ht Hs [Hk1 Hk2] Hc Hty Hid Hid'. destruct (kind_tables _ Hty) as [T1 _].
  destruct (tstep_attr P Hfs k t t' h u ty Ht Hs Hk1 Hid) as [Hg|[_ [He|[[He _]|(tmpl & f & S1 & Hf & [He|[c Hs']])]]]]; [by apply gone_id in Hg|done|by destruct (Hk2 h)| |].
  - exfalso. by eapply good_lasting.
  - exfalso. destruct Hs' as [_ _ S3 S4 _]. apply (Hc h tmpl S1 c S3). by rewrite S4.
Qed.
Lemma guarded_step k t t' h u : tok_ok t -> tstep P k t t' -> mild k -> object_id t h = Some u -> object_id t' h <> None -> guarded t h -> guarded t' h.
Proof.
  intros Ht Hs Hk Hid Hid' Hg.
  assert (forall ty b, In (ty, b) one_way -> bool_of t h ty <> Some (negb b) -> bool_of t' h ty <> Some (negb b)) as Hw.
  { intros ty b Hty. destruct (one_way_tables _ _ Hty) as (T1 & T2 & T3). unfold bool_of. intros Hn.
    destruct (stays_step P Hfs h u ty (fun a => match a with Some a => opt (attr_to_bool a) | None => None end <> Some (negb b)) T2) with k t t' as [Hx|[_ Hx]]; try done.
    - intros t1 tmpl f c a _ Hf Hset _. rewrite (set_bool_to P t1 h tmpl f c a ty b T1 T3 Hf Hset). by destruct b.
    - right. done.
    - by apply gone_id in Hx. }
  destruct Hg as [Hg|Hg]; [left|right]; [apply (Hw CKA_SENSITIVE true)|apply (Hw CKA_EXTRACTABLE false)]; try done; cbn; tauto.
Qed.
Lemma safe_step cl kt h k t t' : tok_ok t -> tstep P k t t' -> mild k -> calm k -> safe cl kt h t -> safe cl kt h t'.
Proof.
  intros Ht Hs Hk Hc [Hg|((u & Hid) & S1 & S2 & S3 & S4)]; [left; eapply (tstep_gone P Hfs); try done; apply Hk|].
  destruct (object_id t' h) as [u'|] eqn:Hid'.
  - right. split; [eauto|]. assert (object_id t' h <> None) as Hne by (by rewrite Hid').
    rewrite (kind_step k t t' h u CKA_CLASS Ht Hs Hk Hc (or_introl eq_refl) Hid Hne), (kind_step k t t' h u CKA_KEY_TYPE Ht Hs Hk Hc (or_intror (or_introl eq_refl)) Hid Hne).
    split_and!; try done; [by eapply guarded_step|by eapply agrees_step].
  - left. destruct (tstep_attr P Hfs k t t' h u CKA_CLASS Ht Hs (proj1 Hk) Hid) as [Hg|[Hx _]]; [done|congruence].
Qed.
Lemma copy_safe cl kt t s h tmpl t' n : tok_ok t -> untyped tmpl -> safe cl kt h t -> copy_object P s h tmpl t = (t', Ok n) -> safe cl kt n t'.
Proof.
  intros Ht Hu Hsafe Hc.
  assert (wp (copy_object P s h tmpl) t (fun t' r => match r with Ok n => safe cl kt n t' | Err _ => True end)) as Hwp.
  { apply (wp_copy_object P Hfs); [done|done| |done]. intros t0 t1 o uid m h' Hn Hso Hf Hm Huid -> Hpl.
    assert (seen P t h o) as Hseen by (destruct Hso as [|(? & ? & _)]; [by left|by right]).
    destruct Hsafe as [Hg|((u & Hid) & S1 & S2 & S3 & S4)].
    { exfalso. destruct Hg as [G1 G2 G3]. destruct Hso as [X|(X1 & (uu & o1 & f & o2 & X2 & X3 & _) & _)]; [congruence|]. unfold hm in G3. specialize (G3 _ X2).
      destruct (fetch_get _ _ _ _ X3) as (j & m' & M1 & M2 & _).
      assert (rows_of (t_db t) uu = Some m') as Hr by (apply rows_of_some; [apply (tk_db _ Ht)|eauto]). congruence. }
    assert (obj_pre o /\ agree o) as [Hp Ha].
    { destruct Hso as [X|(X1 & X2 & _)]; [|split; [by eapply fetched_pre|by eapply fetched_agree]]. split; [apply (tk_sobj _ Ht _ _ X)|by apply S4]. }
    assert (forall c, In c tmpl -> ca_type c <> CKA_CLASS) as Hcl by (intros c Hin He; apply (Hu c Hin); rewrite He; by left).
    destruct (copy_class P _ _ _ _ Hcl Hp Ha Hf) as [Hma Hmc].
    assert (attr_of t1 (h_next (t_handles t)) CKA_CLASS = cl) as A1.
    { rewrite (placed_attr P Hfs _ _ _ _ _ CKA_CLASS Hpl Hm (or_intror Hma) (proj1 (kind_tables _ (or_introl eq_refl))) (or_intror eq_refl)), Hmc, <- S1.
      by apply (seen_attr P Hfs t h o CKA_CLASS KNum). }
    destruct (copy_attr P Hfs _ _ _ _ Hf) as (_ & f' & F1 & F2 & F3).
    assert (attr_of t1 (h_next (t_handles t)) CKA_KEY_TYPE = kt) as A2.
    { rewrite (placed_attr P Hfs _ _ _ _ _ CKA_KEY_TYPE Hpl Hm (or_intror Hma) (proj1 (kind_tables _ (or_intror (or_introl eq_refl)))) (or_intror eq_refl)), <- S2.
      rewrite <- (seen_attr P Hfs t h o CKA_KEY_TYPE KNum) by done. destruct (F3 CKA_KEY_TYPE) as [X|(c & x & oa & C1 & C2 & _)]; try done.
      destruct (Hu c C1). rewrite C2. by right; left. }
    assert (forall ty b, In (ty, b) one_way -> bool_of t1 (h_next (t_handles t)) ty = bool_of t h ty) as A3.
    { intros ty b Hty. destruct (one_way_tables _ _ Hty) as (_ & T2 & T3).
      assert (forallb (copied ty) all_factories = true /\ ty <> CKA_CLASS /\ ty <> CKA_UNIQUE_ID /\ ty <> CKA_NEVER_EXTRACTABLE /\ ty <> CKA_ALWAYS_SENSITIVE) as (T1 & N1 & N2 & N3 & N4).
      { repeat (destruct Hty as [Hty|Hty]; [injection Hty as <- <-; vm_compute; done|]). done. }
      unfold bool_of. rewrite (placed_attr P Hfs _ _ _ _ _ ty Hpl Hm (or_introl N1) T2 (or_introl T3)), (copy_takes P Hfs f' o _ m uid ty T1 Hf N1 N2 N3 N4 F1).
      by rewrite (seen_attr P Hfs t h o ty KBool). }
    right. split; [|split_and!; try done].
    - destruct (pl_id _ _ _ _ _ _ Hpl) as (uid' & _ & Hx). eauto.
    - unfold guarded. rewrite (A3 CKA_SENSITIVE true), (A3 CKA_EXTRACTABLE false) by (cbn; tauto). done.
    - intros o' Ho'. destruct (is_token m) eqn:Htk.
      + pose proof (pl_session _ _ _ _ _ _ Hpl) as Hx. unfold is_session_object in Hx. by rewrite Ho', Htk in Hx.
      + pose proof (pl_mem _ _ _ _ _ _ Hpl Htk) as Hx. rewrite Hx in Ho'. by injection Ho' as <-. }
  unfold wp in Hwp. by rewrite Hc in Hwp.
Qed.
End protect.
