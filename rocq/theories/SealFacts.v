(* How the steps of a token keep the records of its database sealed. *)
From Verif Require Import Base Monad Hoare Attr Obj Factory Tables Create Sqlite Storage Token Backend State Api
  ObjSpec PlainSpec Rows ObjOk ObjNew Triple TokInv TokStep TokenFrame TokWp TokAuth Spec WorldFrame WorldWp Sessions SessionInv SessionFacts
  Lifecycle ObjWorld ObjView ObjAttrs ObjFacts SetFacts Errors AuthSpec Users AuthFacts AuthInv AuthPins KeyFacts SealSpec.
From Verif Require ThmProtect.

Lemma ulong_norm a : attr_to_ulong (norm a) = attr_to_ulong a.
Proof. unfold attr_to_ulong, norm. destruct (a_kind a) eqn:Hk; rewrite ?Hk; try done. destruct (search_by_id _) as [[]|]; cbn [a_kind]; rewrite ?Hk; done. Qed.
Lemma kept_num o ty x : match kept_attr_of o ty with Some a => opt (attr_to_ulong a) | None => None end = Some x -> get_ulong o ty = Ok x.
Proof.
  unfold kept_attr_of, get_ulong, get_as. destruct (get_attr o ty) as [a|]; [|done]. destruct (is_kept a); [|done]. rewrite ulong_norm. destruct (attr_to_ulong a); [|done]. cbn. congruence.
Qed.
Lemma secret_sensitive k f ty : get_factory all_factories k = Ok f -> k <> (CKO_PRIVATE_KEY, CKK_DH) -> In ty (secret_attrs k) -> In ty (f_sensitive f).
Proof.
  intros Hk Hne Hin. apply get_factory_in in Hk.
  assert (forallb (fun x => bool_decide (fst x = (CKO_PRIVATE_KEY, CKK_DH)) || forallb (fun ty => existsb (N.eqb ty) (f_sensitive (snd x))) (secret_attrs (fst x))) all_factories = true) as Hall by (by vm_compute).
  pose proof (proj1 (forallb_forall _ _) Hall _ Hk) as Hx. cbn [fst snd] in Hx. apply orb_true_iff in Hx as [Hx|Hx]; [by apply bool_decide_eq_true_1 in Hx|].
  pose proof (proj1 (forallb_forall _ _) Hx _ Hin) as Hy. cbn beta in Hy. apply existsb_exists in Hy as (y & Y1 & Y2). apply N.eqb_eq in Y2 as <-. done.
Qed.
Lemma secret_key c kt ty : In ty (secret_attrs (c, kt)) -> secret_class c = true /\ c =? CKO_CERTIFICATE = false /\ search_by_id ty = Some KBytes.
Proof.
  unfold secret_attrs, secret_class. intros H.
  assert (c = CKO_SECRET_KEY \/ c = CKO_OTP_KEY \/ c = CKO_PRIVATE_KEY) as Hc.
  { destruct (N.eqb_spec c CKO_SECRET_KEY); [auto|]. destruct (N.eqb_spec c CKO_OTP_KEY); [auto|]. cbn [orb] in H. destruct (N.eqb_spec c CKO_PRIVATE_KEY); [auto|done]. }
  split; [by destruct Hc as [-> |[-> | ->]]|]. split; [by destruct Hc as [-> |[-> | ->]]|].
  repeat match type of H with In _ (if ?b then _ else _) => destruct b end; cbn [In] in H; repeat (destruct H as [<-|H]; [reflexivity|]); done.
Qed.
Lemma find_entry tm c ty : In c tm -> ca_type c = ty -> exists c', find_ck tm ty = Some c'.
Proof.
  induction tm as [|x l IH]; [done|]. intros [->|H] Hc; cbn [find_ck]; [rewrite Hc, N.eqb_refl; eauto|]. destruct (_ =? _); eauto.
Qed.
Lemma find_types tm tm' ty c : map ca_type tm' = map ca_type tm -> find_ck tm ty = Some c -> exists c', find_ck tm' ty = Some c'.
Proof.
  revert tm'. induction tm as [|x l IH]; intros [|y l'] H; cbn [map] in H; try done. injection H as H1 H2. cbn [find_ck]. rewrite H1. destruct (_ =? _); [eauto|]. by apply IH.
Qed.
Lemma only_entry tm c c' ty : NoDup (map ca_type tm) -> find_ck tm ty = Some c' -> In c tm -> ca_type c = ty -> c = c'.
Proof.
  induction tm as [|x l IH]; [done|]. cbn [map find_ck]. intros [H1 H2]%list.NoDup_cons Hf Hin Hc. rewrite elem_of_list_In in H1. destruct (N.eqb_spec (ca_type x) ty) as [He|He].
  - injection Hf as <-. destruct Hin as [->|Hin]; [done|]. destruct H1. rewrite He, <- Hc. by apply in_map.
  - destruct Hin as [->|Hin]; [done|]. by apply IH.
Qed.

Section seal.
Context (P : params) (Hfs : p_fs P = all_factories) (v : N) (k : bytes).
Notation sealed_db := (sealed_db P v k). Notation sealed_record := (sealed_record P v k).

(* The same of an object that is to be stored. *)
Definition sealed_object (uid : bytes) (o : object) : Prop :=
  forall c kt ty a, get_ulong o CKA_CLASS = Ok c -> get_ulong o CKA_KEY_TYPE = Ok kt -> (c, kt) <> (CKO_PRIVATE_KEY, CKK_DH) -> In ty (secret_attrs (c, kt)) ->
    get_attr o ty = Some a -> exists r x, p_seal P v k uid r x = Ok (a_val a).
Lemma store_sealed d o s uid : db_ok d -> obj_ok o -> agree o -> get_string o CKA_UNIQUE_ID = Ok uid -> store_obj_stmts d o = Ok s ->
  sealed_db d -> sealed_object uid o -> sealed_db (c_disk (exec s d)).
Proof.
  intros Hd [Hp Hh] Ha Hu Hs Hsd Ho i m Hm. destruct (store_effect d o s uid (db_ok_wf _ Hd) Hs Hu (pre_attrs _ Hp)) as (S1 & S2 & S3 & S4 & S5 & S6 & S7).
  { by apply pre_last_uid. }
  destruct (N.eq_dec i (new_id d uid)) as [->|Hne]; [|rewrite S6 in Hm by done; by eapply Hsd]. assert (kept_rows (o_attrs o) ∅ = m) as <- by congruence. clear Hm.
  assert (forall ty, row_attr (kept_rows (o_attrs o) ∅) ty = kept_attr_of o ty) as Hrow by (intros ty; eapply stored_attr; [done|by right|done]).
  intros Hk ty a Hin Hat. rewrite Hrow in Hat. unfold row_secrets in Hin. unfold row_kind, row_num in *. rewrite !Hrow in *.
  destruct (match kept_attr_of o CKA_CLASS with Some a => opt (attr_to_ulong a) | None => None end) as [c|] eqn:Hc; [|done].
  destruct (match kept_attr_of o CKA_KEY_TYPE with Some a => opt (attr_to_ulong a) | None => None end) as [kt|] eqn:Hkt; [|done].
  apply kept_num in Hc, Hkt. unfold kept_attr_of in Hat. destruct (get_attr o ty) as [b|] eqn:Hb; [|done]. destruct (is_kept b); [|done]. injection Hat as <-.
  destruct (Ho c kt ty b Hc Hkt) as (r & x & Hx); try done; [congruence|]. exists uid, r, x. by rewrite norm_val.
Qed.

(* The key in memory is the one. *)
Definition keyed (t : token) : Prop := forall k', t_key t = Some k' -> k' = k /\ t_ver t = v.
Lemma sealed_key t uid x e : keyed t -> is_sealed P t uid x e -> exists r, p_seal P v k uid r x = Ok e.
Proof. intros H (k' & r & K1 & K2). destruct (H _ K1) as [-> E]. rewrite E in K2. eauto. Qed.
Lemma key_factory o f c kt ty : get_object_factory (p_fs P) o = Ok f -> get_ulong o CKA_CLASS = Ok c -> get_ulong o CKA_KEY_TYPE = Ok kt -> In ty (secret_attrs (c, kt)) -> get_factory all_factories (c, kt) = Ok f.
Proof.
  intros Hf Hc Hk Hin. destruct (secret_key _ _ _ Hin) as (S1 & S2 & _). unfold get_object_factory in Hf. rewrite Hc in Hf. cbn [rbind] in Hf.
  rewrite S2, S1, orb_true_r, Hk in Hf. cbn [rbind] in Hf. by rewrite <- Hfs.
Qed.
Lemma concealed_sealed t uid o : keyed t -> concealed P t uid o -> sealed_object uid o.
Proof.
  intros Hk (f & Hf & H) c kt ty a Hc Hkt Hne Hin Ha. pose proof (key_factory _ _ _ _ _ Hf Hc Hkt Hin) as Hg.
  destruct (H ty a (secret_sensitive _ _ _ Hg Hne Hin) Ha) as [x Hx]. apply (sealed_key t) in Hx as [r Hr]; eauto.
Qed.

(* The steps that calls of the permitted sort make. *)
Definition gentle (k : kind) : Prop :=
  match k with
  | KSadd odd _ | KNew odd _ => odd = false
  | KSupd _ tmpl => existsb (fun c => ca_type c =? CKA_CLASS) tmpl = false
  | KUpd _ tmpl => existsb (fun c => (ca_type c =? CKA_CLASS) || (ca_type c =? CKA_KEY_TYPE)) tmpl = false /\ NoDup (map ca_type tmpl)
  | KDedup _ => False
  | _ => True
  end.
Definition writes (k : kind) : Prop := match k with KNew _ _ | KUpd _ _ => True | _ => False end.
Definition kept_secret (t : token) : Prop := all_agree t /\ sealed_db (t_db t).

Lemma other_type tm ty : existsb (fun c => (ca_type c =? CKA_CLASS) || (ca_type c =? CKA_KEY_TYPE)) tm = false -> ty = CKA_CLASS \/ ty = CKA_KEY_TYPE ->
  forall c, In c tm -> ca_type c <> ty.
Proof.
  intros H Hty c Hin He. rewrite <- not_true_iff_false in H. apply H, existsb_exists. exists c. split; [done|]. destruct Hty as [-> | ->]; by rewrite He, N.eqb_refl, ?orb_true_r.
Qed.
Lemma secret_step kd t t' : tok_ok t -> tstep P kd t t' -> gentle kd -> (writes kd -> keyed t) -> kept_secret t -> kept_secret t'.
Proof.
  intros Ht Hs Hg Hky [Ha Hsd]. pose proof (tk_db _ Ht) as Hd.
  destruct Hs as [t t' H1 H2 H3 Hdd Hfl b Hca Hlo|t|t uid Hu|t h H1 Hdy|t sh o uid H1 H2 H3 H4 odd Hcl|t h tmpl o f H1 H2|t h o H1 H2|t sel|t o uid s H1 H2 H3 H4 H5 odd Hcl Hco
    |t h tmpl uid o f tm o' s H1 H2 H3 H4 H5 H6 H7 H8 H9 H10 H11|t h o o' uid s H0 H1 H2 H3 H4 H5|t h uid s H1 H2 Hns Hdy|t|t]; cbn [gentle writes] in *; try (by split).
  - split; [intros h o; rewrite H2; apply Ha|]. intros i m. rewrite H3. apply Hsd.
  - subst odd. destruct Hcl as [|Hcl]; [done|]. split; [|done]. intros h x. cbn [t_sobjs set_sobjs]. destruct (decide (h = h_next (t_handles t))) as [->|Hne].
    + rewrite lookup_insert. intros X. injection X as <-. exact (Hcl Ha).
    + rewrite lookup_insert_ne by done. apply Ha.
  - split; [|done]. intros h' x. cbn [t_sobjs set_sobjs]. destruct (decide (h' = h)) as [->|Hne].
    + rewrite lookup_insert. intros X. injection X as <-. unfold set_object_attributes. destruct (negb _); [by eapply Ha|]. destruct (check_set_attributes _ _); [|by eapply Ha].
      apply agree_apply; [done|]. by eapply Ha.
    + rewrite lookup_insert_ne by done. apply Ha.
  - split; [|done]. intros h' x. cbn [t_sobjs set_sobjs set_handles]. intros X. apply lookup_delete_Some in X as [_ X]. by eapply Ha.
  - split; [|done]. intros h x X. rewrite drop_lookup in X. destruct (t_sobjs t !! h) as [y|] eqn:Hy; [|done]. destruct (sel _); [done|]. injection X as <-. by eapply Ha.
  - subst odd. destruct Hcl as [|Hcl]; [done|]. split; [done|]. cbn [t_db set_db]. eapply (store_sealed _ o s uid); try done; [exact (Hcl Ha)|]. eapply concealed_sealed; [by apply Hky|done].
  - destruct Hg as [Hg Hnd]. split; [done|]. cbn [t_db set_db]. destruct (upd_store P Hfs _ _ _ _ _ _ _ _ _ Ht H3 H4 H6 H7 H8 H9 H1) as ([U1 U1'] & U2 & U3).
    eapply (store_sealed _ (del_attrs (f_ephemeral f) o') s uid); try done.
    { apply once_agree, once_del. assert (o' = fst (apply_template o tm)) as -> by (by rewrite H8). apply once_apply. by eapply once_fetch. }
    destruct (fetch_get _ _ _ _ H3) as (i & m & F1 & F2 & F3 & _). assert (forall ty, get_attr o ty = row_attr m ty) as Hrow by (intros ty; by apply F3).
    pose proof (sealed_types _ _ _ H7) as Hty.
    assert (forall ty, ty = CKA_CLASS \/ ty = CKA_KEY_TYPE -> get_attr o' ty = get_attr o ty) as Hsame.
    { intros ty Hy. destruct (apply_entry _ _ _ _ ty H8) as [?|(c & a & A1 & A2 & _)]; [done|]. exfalso.
      destruct (sealed_entry _ _ _ _ H7 A1) as (c0 & C1 & C2 & _). apply (other_type _ _ Hg Hy c0 C1). congruence. }
    assert (forall ty x, ty = CKA_CLASS \/ ty = CKA_KEY_TYPE -> get_ulong (del_attrs (f_ephemeral f) o') ty = Ok x -> get_ulong o ty = Ok x /\ row_num m ty = Some x) as Hnum.
    { intros ty x Hy. unfold get_ulong, get_as, row_num. rewrite get_dels. destruct (existsb (N.eqb ty) (f_ephemeral f)); [intros [=]|]. rewrite Hsame by done. rewrite <- Hrow. destruct (get_attr o ty) as [a|]; [|intros [=]].
      intros Hx. split; [done|]. by rewrite Hx. }
    intros c kt ty a Hc Hkt Hne Hin Hat. destruct (Hnum CKA_CLASS c ltac:(auto) Hc) as [N1 N2]. destruct (Hnum CKA_KEY_TYPE kt ltac:(auto) Hkt) as [N3 N4].
    rewrite get_dels in Hat. destruct (existsb (N.eqb ty) (f_ephemeral f)); [done|]. pose proof (key_factory _ _ _ _ _ H4 N1 N3 Hin) as Hgf.
    destruct (apply_entry _ _ _ _ ty H8) as [Hsm|(x & y & A1 & A2 & A3 & A4)].
    + rewrite Hsm, Hrow in Hat. destruct (Hsd i m F1) with (ty := ty) (a := a) as (uid' & r & x & X1 & X2).
      * unfold row_kind. rewrite N2, N4. congruence.
      * unfold row_secrets, row_kind. by rewrite N2, N4.
      * done.
      * assert (uid' = uid) as -> by congruence. eauto.
    + assert (y = a) as -> by congruence. destruct (find_entry tm x ty A1 A2) as [z Hz]. destruct (find_types tm tmpl ty z) as [c0 Hc0]; [congruence|done|].
      destruct (H11 ty c0 (secret_sensitive _ _ _ Hgf Hne Hin) Hc0) as (e & E1 & E2). assert (x = ca ty e) as ->. { eapply only_entry; [by rewrite Hty|done|done|done]. }
      apply (sealed_key t) in E2 as [r Hr]; [|by apply Hky]. exists r, (ck_to_buf c0). rewrite Hr. unfold from_ck_attr in A3. cbn [ca_type ca] in A3.
      destruct (secret_key _ _ _ Hin) as (_ & _ & ->) in A3. by injection A3 as <-.
  - split; [done|]. cbn [t_db set_db]. destruct (remove_effect (t_db t) uid s (db_ok_wf _ Hd) H2) as (_ & _ & R & _). intros i m. rewrite R. destruct (d_objs (t_db t) !! i) as [x|] eqn:Hx; [|done].
    destruct (bool_decide _); [done|]. intros X. injection X as <-. by eapply Hsd.
Qed.
Lemma keyed_step kd t t' : tstep P kd t t' -> kd <> KQuiet LAll -> keyed t -> keyed t'.
Proof.
  intros Hs Hk H. destruct Hs as [t t' _ _ _ _ _ b Hca Hlo| | | | | | | | | | | | |]; try exact H.
  destruct b; [destruct (Hca eq_refl) as (_ & K1 & K2 & _)|destruct (Hlo eq_refl) as (_ & K1 & K2 & _)|done]; intros k'.
  - rewrite K1, K2. apply H.
  - rewrite K2. destruct K1 as [K1|K1]; rewrite K1; [apply H|done].
Qed.
End seal.

(* ---- the class of session objects ---- *)
Lemma agree_step P kd t t' : tstep P kd t t' -> gentle kd -> all_agree t -> all_agree t'.
Proof.
  intros Hs Hg Ha.
  destruct Hs as [t t' H1 H2 H3 Hdd Hfl b Hca Hlo|t|t uid Hu|t h H1 Hdy|t sh o uid H1 H2 H3 H4 odd Hcl|t h tmpl o f H1 H2|t h o H1 H2|t sel|t o uid s H1 H2 H3 H4 H5 odd Hcl Hco
    |t h tmpl uid o f tm o' s H1 H2 H3 H4 H5 H6 H7 H8 H9 H10 H11|t h o o' uid s H0 H1 H2 H3 H4 H5|t h uid s H1 H2 Hns Hdy|t|t]; cbn [gentle] in *; try exact Ha.
  - intros h o. rewrite H2. apply Ha.
  - subst odd. destruct Hcl as [|Hcl]; [done|]. intros h x. cbn [t_sobjs set_sobjs]. destruct (decide (h = h_next (t_handles t))) as [->|Hne].
    + rewrite lookup_insert. intros X. injection X as <-. exact (Hcl Ha).
    + rewrite lookup_insert_ne by done. apply Ha.
  - intros h' x. cbn [t_sobjs set_sobjs]. destruct (decide (h' = h)) as [->|Hne].
    + rewrite lookup_insert. intros X. injection X as <-. unfold set_object_attributes. destruct (negb _); [by eapply Ha|]. destruct (check_set_attributes _ _); [|by eapply Ha].
      apply agree_apply; [done|]. by eapply Ha.
    + rewrite lookup_insert_ne by done. apply Ha.
  - intros h' x. cbn [t_sobjs set_sobjs set_handles]. intros X. apply lookup_delete_Some in X as [_ X]. by eapply Ha.
  - intros h x X. rewrite drop_lookup in X. destruct (t_sobjs t !! h) as [y|] eqn:Hy; [|done]. destruct (sel _); [done|]. injection X as <-. by eapply Ha.
  - intros h o. cbn [t_sobjs set_sobjs]. by rewrite lookup_empty.
Qed.
Lemma agree_steps P (K : kind -> Prop) t t' : (forall kd, K kd -> gentle kd) -> tsteps P K t t' -> all_agree t -> all_agree t'.
Proof. intros HK Hs. induction Hs as [|t t1 t' (k & Hk & H1) _ IH]; [done|]. intros Ha. apply IH. eapply agree_step; eauto. Qed.
Lemma opening_gentle kd : opening kd -> gentle kd.
Proof. by destruct kd as [| | |[]| | | | | | | |]. Qed.
Lemma opening_objs P t t' : tsteps P opening t t' -> d_objs (t_db t') = d_objs (t_db t).
Proof.
  induction 1 as [|t t1 t' (k & Hk & H1) _ IH]; [done|]. rewrite IH. destruct H1 as [a b _ _ H3 _ _| | | | | | | | | | | | |]; cbn [opening] in Hk; done.
Qed.

Section world.
Context (P : params) (B : backend) (E : N -> keyenv) (Hfs : p_fs P = all_factories) (Hutf : forall n, utf8_valid (p_uuid P n) = true).
Context (Hop : forall x h l, be_updates B x = Some (h, l) -> Forall (fun c => ca_type c = CKA_OTP_COUNTER) l /\ Nat.le (length l) 1).
Notation world := (world B). Notation winv := (winv B). Notation token_of := (token_of B). Notation after := (after P B E).
Notation own_disks := (own_disks B). Notation db_at := (db_at B).

Lemma call_gentle c n kd : plain_call c = true -> call_kind (op_stores B) n c kd -> (forall h, kd <> KDedup h) -> gentle kd.
Proof.
  unfold plain_call. rewrite !andb_true_iff. intros (((H1 & H2) & H3) & H4) Hk Hd. apply negb_true_iff in H1, H2.
  assert (forall l, existsb (fun c => (ca_type c =? CKA_CLASS) || (ca_type c =? CKA_KEY_TYPE)) l = false -> existsb (fun c => ca_type c =? CKA_CLASS) l = false) as Hcl.
  { intros l Hl. rewrite <- not_true_iff_false in *. intros X. apply Hl. apply existsb_exists in X as (x & X1 & X2). apply existsb_exists. exists x. by rewrite X2. }
  assert (forall h l, op_stores B h l -> existsb (fun c => (ca_type c =? CKA_CLASS) || (ca_type c =? CKA_KEY_TYPE)) l = false /\ NoDup (map ca_type l)) as Hst.
  { intros h l [x Hx]. apply Hop in Hx as [X1 X2]. destruct l as [|c0 [|c1 l]]; [split; [done|constructor]| |cbn in X2; lia].
    apply List.Forall_cons_iff in X1 as [X1 _]. split; [cbn; by rewrite X1|]. apply NoDup_singleton. }
  destruct kd as [lv| |h|odd sh|h tmpl|h|sel|odd uid|h tmpl|h|h uid|]; cbn [gentle]; try done.
  - destruct c; cbn [call_kind] in Hk; try done; try (by destruct Hk). destruct Hk as [_ Hk]. destruct odd; [|done]. specialize (Hk eq_refl). exfalso. cbn [ThmProtect.retypes] in H1. destruct tmpl as [l|]; [|done]. apply Hcl in H1. change (default [] (Some l)) with l in Hk. rewrite Hk in H1. discriminate H1.
  - destruct c; cbn [call_kind] in Hk; try done; try (apply Hcl; by eapply Hst). cbn [ThmProtect.retypes] in H1. destruct Hk as [[_ ->]|[_ ->]]; [|done]. by apply Hcl.
  - destruct c; cbn [call_kind] in Hk; try done. destruct odd; [|done]. specialize (Hk eq_refl). exfalso. cbn [ThmProtect.retypes] in H1. destruct tmpl as [l|]; [|done]. apply Hcl in H1. change (default [] (Some l)) with l in Hk. rewrite Hk in H1. discriminate H1.
  - destruct c; cbn [call_kind] in Hk; try done; try (by eapply Hst). cbn [ThmProtect.retypes repeats] in H1, H2. destruct Hk as [[_ ->]|[_ ->]]; [|split; [done|constructor]].
    split; [done|]. apply negb_false_iff in H2. by apply bool_decide_eq_true_1 in H2.
  - by edestruct Hd.
Qed.

(* Session objects have one class, and no objects are replaced. *)
Definition calm_token (w : world) (sid : N) : Prop := forall t, token_of w sid = Some t -> all_agree t /\ t_dedup t = None.
Lemma steps_dedup (K : kind -> Prop) t t' : tsteps P K t t' -> t_dedup t' = t_dedup t.
Proof. induction 1 as [|t t1 t' (k & Hk & H1) _ IH]; [done|]. rewrite IH. by destruct H1. Qed.
Lemma add_slots_calm l : forall a w, forallb (fun s => match sc_dedup s with None => true | Some _ => false end) l = true -> forallb (fun s => sc_disk s =? sc_id s) l = true ->
  own_disks w -> world_ok B w ->
  wp (add_slots P B l a) w (fun w' _ => forall sid, (calm_token w sid -> calm_token w' sid) /\ d_objs (db_at w' sid) = d_objs (db_at w sid)).
Proof.
  induction l as [|c l IH]; intros a w Hl Hs Ho Hw; cbn [add_slots]; [wp_step; done|].
  cbn [forallb] in Hl, Hs. apply andb_prop in Hl as [Hc Hl], Hs as [Hsc Hs]. apply N.eqb_eq in Hsc. destruct (sc_dedup c) eqn:Hdc; [done|].
  wp_step. unfold slot_new. wp_step. wp_step. set (k := disk_of B (sc_disk c) w).
  pose proof (token_new_steps P (k_db k) (sc_io c) (k_fresh k) Hfs (disk_of_ok B _ _ Hw)) as [Ht1 Ht2].
  destruct (token_new P _ _ _) as [t [[]|e]] eqn:Ht; [|wp_step; done]. cbn [fst] in Ht1, Ht2. wp_step. wp_step. wp_step.
  destruct (w_slots w !! sc_id c) as [sl|] eqn:Hd; cbn [nonnull]; [by apply IH|].
  set (t1 := set_dedup (sc_dedup c) (apply_filter P (sc_mechs c) t)).
  assert (t_sobjs t1 = t_sobjs t /\ t_db t1 = t_db t /\ t_dedup t1 = None /\ tok_ok t1) as (T1 & T2 & T3 & T4).
  { unfold t1, apply_filter. split; [by destruct (sc_mechs c) as [[]|]|]. split; [by destruct (sc_mechs c) as [[]|]|]. split; [done|]. destruct (sc_mechs c) as [[]|]; apply (tok_same t); done || apply Ht1. }
  wp_step. wp_step. eapply wp_mono; [apply IH; [done|done| |]|].
  - intros sid sl. cbn. destruct (decide (sid = sc_id c)) as [->|Hne]; [rewrite lookup_insert; intros X; injection X as <-; done|].
    rewrite lookup_insert_ne by done. apply Ho.
  - by apply put_slot_ok.
  - cbv beta. intros w' _ H sid. specialize (H sid). destruct H as [H1 H2]. rewrite H2. cbn [with_slot w_slots]. split.
    + intros Hca. apply H1. intros t2. unfold Spec.token_of. cbn. destruct (decide (sid = sc_id c)) as [->|Hne].
      * rewrite lookup_insert. cbn. intros X. injection X as <-. fold t1. split; [|done]. intros h o. rewrite T1. revert h o. apply (agree_steps P opening (token_blank (k_db k) (sc_io c) (k_fresh k))); [apply opening_gentle|done|].
        intros h o. cbn. by rewrite lookup_empty.
      * rewrite lookup_insert_ne by done. apply Hca.
    + unfold AuthSpec.db_at. cbn. destruct (decide (sid = sc_id c)) as [->|Hne]; [|by rewrite lookup_insert_ne by done]. rewrite lookup_insert, Hd. cbn [sl_token]. fold t1. rewrite T2, (opening_objs P _ _ Ht2). cbn. subst k.
      rewrite Hsc, (disk_of_own B w (sc_id c)) by done. done.
Qed.
(* Stopping and starting the module. *)
Lemma off_calm w c sid : winv w -> own_disks w -> plain_call c = true -> live_call c = false -> calm_token w sid ->
  calm_token (after w c) sid /\ d_objs (db_at (after w c) sid) = d_objs (db_at w sid).
Proof.
  intros Hw Ho Hp Hc Hca. unfold plain_call in Hp. rewrite !andb_true_iff in Hp. destruct Hp as (((_ & _) & H3) & H4).
  assert (forall w0, calm_token (stop B w0) sid) as Hst by (intros w0 t; unfold Spec.token_of; cbn; by rewrite lookup_empty).
  assert (d_objs (db_at (stop B w) sid) = d_objs (db_at w sid)) as Hdb. { rewrite <- (sync_own B w sid Ho). unfold AuthSpec.db_at at 1. cbn. by rewrite lookup_empty. }
  destruct c; try discriminate Hc.
  - cbn [no_dedup steady] in H3, H4. assert (wp (c_initialize P B l) w (fun w' _ => calm_token w' sid /\ d_objs (db_at w' sid) = d_objs (db_at w sid))) as Hwp.
    { unfold c_initialize. wp_step. wp_step. destruct (initialized B w) eqn:Hi.
      - wp_step. wp_step. wp_step. eapply wp_mono; [apply add_slots_calm; try done; apply Hw|]. cbv beta. intros w' r H1. destruct (H1 sid) as [H5 H6]. specialize (H5 Hca). destruct r; [|done]. by wp_go.
      - wp_step. wp_step. wp_step. eapply wp_mono; [apply add_slots_calm; [done|done| |]|].
        + intros i sl. cbn. by rewrite lookup_empty.
        + split; [intros i sl; cbn; by rewrite lookup_empty|]. apply (wo_disks _ _ (wi_ok _ _ Hw)).
        + cbv beta. intros w' r H1. destruct (H1 sid) as [H5 H6].
          assert (calm_token w' sid) as Hca' by (apply H5; intros t; unfold Spec.token_of; cbn; by rewrite lookup_empty).
          assert (db_at (@World B ∅ ∅ 1 (w_disks w)) sid = db_at w sid) as Hv.
          { unfold AuthSpec.db_at. cbn. rewrite lookup_empty. unfold initialized in Hi. rewrite (si_off _ _ (wi_inv _ _ Hw)) by lia. by rewrite lookup_empty. }
          rewrite Hv in H6. destruct r; [|done]. by wp_go. }
    unfold Spec.after. rewrite run_step. exact Hwp.
  - assert (wp (c_finalize B) w (fun w' _ => calm_token w' sid /\ d_objs (db_at w' sid) = d_objs (db_at w sid))) as Hwp.
    { unfold c_finalize. apply wp_bind, wp_lock; [|done]. intros _. apply wp_bind, wp_modify, wp_ok. by split. }
    unfold Spec.after. rewrite run_step. exact Hwp.
  - unfold Spec.after. rewrite run_step. cbn [api]. by split.
Qed.
Lemma calm_step w c sid : winv w -> own_disks w -> plain_call c = true -> calm_token w sid -> calm_token (after w c) sid.
Proof.
  intros Hw Ho Hp Hca. destruct (live_call c) eqn:Hc; [|by apply off_calm]. pose proof (token_steps P B E Hfs Hutf w c sid Hw Hc) as H. intros t' Ht'. rewrite Ht' in H.
  destruct (token_of w sid) as [t|] eqn:Ht; [|done]. destruct (Hca t Ht) as [H1 H2]. destruct H as [->|[_ H]]; [done|]. split; [|rewrite (steps_dedup _ _ _ H); done].
  eapply agree_steps; [|exact (tsteps_dedup P _ _ _ H H2)|done]. intros kd [K1 K2]. by eapply call_gentle.
Qed.

(* The records stay sealed under the key. *)
Lemma seal_step v k w c sid K : winv w -> own_disks w -> plain_call c = true -> calm_token w sid -> pins_of P v k K (view_at B w sid) ->
  sealed_db P v k (db_at w sid) -> sealed_db P v k (db_at (after w c) sid).
Proof.
  intros Hw Ho Hp Hca HK Hsd. destruct (live_call c) eqn:Hc.
  2: { destruct (off_calm w c sid Hw Ho Hp Hc Hca) as [_ Hx]. intros i m. rewrite Hx. apply Hsd. }
  pose proof (token_steps P B E Hfs Hutf w c sid Hw Hc) as H. destruct (live_step P B E Hfs Hutf w c Hc Hw) as [_ Hd].
  destruct (token_of w sid) as [t|] eqn:Ht, (token_of (after w c) sid) as [t'|] eqn:Ht'; try done.
  2: { unfold Spec.token_of in *. unfold AuthSpec.db_at in *. destruct (w_slots w !! sid); [done|]. destruct (w_slots (after w c) !! sid); [done|]. fold (after w c) in Hd. by rewrite Hd. }
  rewrite (db_token _ _ _ _ Ht') . rewrite (db_token _ _ _ _ Ht) in Hsd. destruct H as [->|[_ H]]; [done|]. destruct (Hca t Ht) as [H1 H2]. pose proof (token_ok B _ _ _ Hw Ht) as Htk.
  pose proof (tsteps_dedup P _ _ _ H H2) as Hst. assert (kept_secret P v k t) as Hks by done.
  cut (kept_secret P v k t'); [by intros [_ ?]|]. destruct (user_call c) eqn:Huc.
  - clear HK H H1 H2 Hsd Ht Ht' Hca Hd. induction Hst as [|t t1 t' (kd & [Hk1 Hk2] & H1) _ IH]; [done|]. apply IH; [by eapply tstep_ok|].
    eapply (secret_step P Hfs v k); [done|done|by eapply call_gentle| |done]. intros Hwr. exfalso. destruct kd; try done; destruct c; done.
  - assert (keyed v k t) as Hky. { rewrite (view_token _ _ _ _ Ht) in HK. intros k' Hk'. destruct (po_key _ _ _ _ _ HK k' Hk') as (-> & V & _). done. }
    clear HK H H1 H2 Hsd Ht Ht' Hca Hd. induction Hst as [|t t1 t' (kd & [Hk1 Hk2] & H1) _ IH]; [done|]. apply IH; [by eapply tstep_ok| |].
    + eapply (secret_step P Hfs v k); [done|done|by eapply call_gentle|done|done].
    + eapply (keyed_step P v k); [done| |done]. intros ->. destruct c; done.
Qed.
End world.
