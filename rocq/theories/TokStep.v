(* The elementary steps of a token's objects, and the steps each function of the token is made of. *)
From Verif Require Import Base Monad Hoare Attr Obj Factory Tables Create Sqlite Storage Token Rows ObjOk ObjNew Triple TokInv.

(* What may change beside objects and handles: nothing; who is logged in, the key, the flags; the users' records too. *)
Inductive lvl := LCalm | LLog | LAll.
Inductive kind :=
| KQuiet (b : lvl)                        (* objects and handles stay *)
| KHandle                                 (* a handle is drawn, perhaps for a stored object *)
| KHdel (h : N)                           (* the handle of a token object is forgotten *)
| KSadd (odd : bool) (sh : N)             (* a session object is added; odd: it may have several classes *)
| KSupd (h : N) (tmpl : list ckattr)      (* the attributes of a session object are set *)
| KSdel (h : N)                           (* a session object is destroyed *)
| KDrop (sel : N * object -> bool)        (* session objects are dropped *)
| KNew (odd : bool) (uid : bytes)         (* a token object is stored *)
| KUpd (h : N) (tmpl : list ckattr)       (* the attributes of a token object are set *)
| KDedup (h : N)                          (* a token object is replaced by its duplicate *)
| KRemove (h : N) (uid : bytes)           (* a token object is removed *)
| KReset.                                 (* everything is removed *)

(* The session objects that are dropped: the private ones of the sessions, those of one session. *)
Definition private_sel (p : N * object) : bool := negb (o_session (snd p) =? CK_INVALID_HANDLE) && is_private (snd p).
Definition session_sel (sh : N) (p : N * object) : bool := o_session (snd p) =? sh.

Section steps.
Context (P : params).
Notation fs := (p_fs P).

(* The template with some of its sensitive entries replaced. *)
Definition sealed (ss : list N) (tmpl tm : list ckattr) : Prop :=
  Forall2 (fun c c' => c' = c \/ ca_type c' = ca_type c /\ In (ca_type c) ss) tmpl tm.

(* All that is left of a token when its objects and handles, the outcomes of database calls and the random draws are
   set aside. *)
Definition calm_fields (t t' : token) : Prop :=
  t_db t' = t_db t /\ t_key t' = t_key t /\ t_ver t' = t_ver t /\ t_logged t' = t_logged t /\ t_flags t' = t_flags t.

(* A logout: the login and the key are dropped, or not. *)
Definition log_fields (t t' : token) : Prop :=
  t_db t' = t_db t /\ (t_key t' = t_key t \/ t_key t' = None) /\ t_ver t' = t_ver t /\ (t_logged t' = t_logged t \/ t_logged t' = KRY_UNSPEC) /\ t_flags t' = t_flags t.

(* The value is sealed under the token's key for this object. *)
Definition is_sealed (t : token) (uid v e : bytes) : Prop := exists k r, t_key t = Some k /\ p_seal P (t_ver t) k uid r v = Ok e.
(* The first entry of every secret type is sealed. *)
Definition enciphered (t : token) (uid : bytes) (ss : list N) (tmpl tm : list ckattr) : Prop :=
  forall ty c, In ty ss -> find_ck tmpl ty = Some c -> exists e, find_ck tm ty = Some (ca ty e) /\ is_sealed t uid (ck_to_buf c) e.
(* The secret values of an object are sealed. *)
Definition concealed (t : token) (uid : bytes) (o : object) : Prop :=
  exists f, get_object_factory fs o = Ok f /\ forall ty a, In ty (f_sensitive f) -> get_attr o ty = Some a -> exists x, is_sealed t uid x (a_val a).
(* The new object has one class if all session objects have. *)
Definition all_agree (t : token) : Prop := forall h o, t_sobjs t !! h = Some o -> agree o.
Definition classed (odd : bool) (t : token) (o : object) : Prop := odd = true \/ (all_agree t -> agree o).

Inductive tstep : kind -> token -> token -> Prop :=
| ts_quiet t t' : t_handles t' = t_handles t -> t_sobjs t' = t_sobjs t -> d_objs (t_db t') = d_objs (t_db t) -> t_dedup t' = t_dedup t -> t_filter t' = t_filter t ->
    forall b, (b = LCalm -> calm_fields t t') -> (b = LLog -> log_fields t t') -> tstep (KQuiet b) t t'
| ts_hnew t : tstep KHandle t (set_handles (Handles (h_map (t_handles t)) (h_next (t_handles t) + 1)) t)
| ts_hadd t uid : uid_handle (t_handles t) uid = None ->
    tstep KHandle t (set_handles (Handles (<[h_next (t_handles t) := uid]> (h_map (t_handles t))) (h_next (t_handles t) + 1)) t)
| ts_hdel t h : t_sobjs t !! h = None -> object_id t h = None \/ bool_of t h CKA_DESTROYABLE = Some true ->
    tstep (KHdel h) t (set_handles (Handles (delete h (h_map (t_handles t))) (h_next (t_handles t))) t)
| ts_sadd t sh o uid : new_ok o -> is_token o = false -> get_string o CKA_UNIQUE_ID = Ok uid -> uid_handle (t_handles t) uid = None ->
    forall odd, classed odd t o -> tstep (KSadd odd sh) t
      (set_sobjs (<[h_next (t_handles t) := set_session (set_handle o (h_next (t_handles t))) sh]> (t_sobjs t))
         (set_handles (Handles (<[h_next (t_handles t) := uid]> (h_map (t_handles t))) (h_next (t_handles t) + 1)) t))
| ts_supd t h tmpl o f : t_sobjs t !! h = Some o -> get_object_factory fs o = Ok f ->
    tstep (KSupd h tmpl) t (set_sobjs (<[h := fst (set_object_attributes f o tmpl)]> (t_sobjs t)) t)
| ts_sdel t h o : t_sobjs t !! h = Some o -> is_destroyable o = true ->
    tstep (KSdel h) t (set_handles (Handles (delete h (h_map (t_handles t))) (h_next (t_handles t))) (set_sobjs (delete h (t_sobjs t)) t))
| ts_drop t sel : tstep (KDrop sel) t (drop_objs sel t)
| ts_new t o uid s : obj_ok o -> is_token o = true -> get_string o CKA_UNIQUE_ID = Ok uid -> uid_handle (t_handles t) uid = None ->
    store_obj_stmts (t_db t) o = Ok s -> forall odd, classed odd t o -> concealed t uid o -> tstep (KNew odd uid) t (set_db (c_disk (exec s (t_db t)))
      (set_handles (Handles (<[h_next (t_handles t) := uid]> (h_map (t_handles t))) (h_next (t_handles t) + 1)) t))
| ts_upd t h tmpl uid o f tm o' s : h_map (t_handles t) !! h = Some uid -> t_sobjs t !! h = None ->
    fetch_by_uid (t_db t) uid [] = Ok o -> get_object_factory fs o = Ok f ->
    is_modifiable o = true -> check_set_attributes (f_attrs f) tmpl = Ok tt -> sealed (f_sensitive f) tmpl tm ->
    apply_template o tm = (o', Ok tt) -> store_obj_stmts (t_db t) (del_attrs (f_ephemeral f) o') = Ok s -> logged_in t = true ->
    enciphered t uid (f_sensitive f) tmpl tm -> tstep (KUpd h tmpl) t (set_db (c_disk (exec s (t_db t))) t)
| ts_dedup t h o o' uid s : t_dedup t <> None -> h_map (t_handles t) !! h = Some uid -> fetch_by_uid (t_db t) uid [] = Ok o -> obj_ok o' -> same_id o o' ->
    store_obj_stmts (t_db t) o' = Ok s -> tstep (KDedup h) t (set_db (c_disk (exec s (t_db t))) t)
| ts_remove t h uid s : h_map (t_handles t) !! h = Some uid -> remove_stmts (t_db t) uid = Ok s ->
    t_sobjs t !! h = None -> bool_of t h CKA_DESTROYABLE = Some true -> tstep (KRemove h uid) t (set_db (c_disk (exec s (t_db t))) t)
| ts_reset_mem t : tstep KReset t (set_sobjs ∅ (set_handles handles_new t))
| ts_reset_db t : tstep KReset t (set_db (c_disk (exec reset_stmts (t_db t))) t).

Definition tsteps (K : kind -> Prop) : token -> token -> Prop := rtc (fun t t' => exists k, K k /\ tstep k t t').
Global Instance tsteps_pre K : PreOrder (tsteps K).
Proof. apply _. Qed.
Lemma tsteps_one (K : kind -> Prop) k t t' : K k -> tstep k t t' -> tsteps K t t'.
Proof. intros H1 H2. apply rtc_once. by exists k. Qed.
Lemma tsteps_mono (K K' : kind -> Prop) t t' : (forall k, K k -> K' k) -> tsteps K t t' -> tsteps K' t t'.
Proof. intros H. apply rtc_subrel. intros a b (k & Hk & Hs). eauto. Qed.

Context (Hfs : fs = all_factories).
Lemma obj_factory_good o f : get_object_factory fs o = Ok f -> good_factory f.
Proof. rewrite Hfs. apply object_factory_good. Qed.

(* ---- helpers ---- *)
Lemma check_set_ids f tmpl : good_factory f -> check_set_attributes (f_attrs f) tmpl = Ok tt -> forallb (fun c => negb (ids (ca_type c))) tmpl = true.
Proof.
  intros Hf. induction tmpl as [|c r IH]; cbn [check_set_attributes forallb]; [done|]. destruct (find_oa _ _) as [oa|] eqn:Hoa; [|done].
  destruct (oa_is oa OA_NeverSettable) eqn:Hn; [done|].
  assert (ids (ca_type c) = false \/ ca_type c = CKA_UNIQUE_ID \/ ca_type c = CKA_TOKEN) as Hc by (unfold ids; lia).
  destruct Hc as [Hc|[Hc|Hc]].
  - rewrite Hc. cbn [negb andb]. match goal with |- rbind ?x _ = _ -> _ => destruct x end; cbn [rbind]; done.
  - rewrite Hc in Hoa. destruct (good_uid _ Hf) as (oa' & G1 & G2 & _). congruence.
  - rewrite Hc in Hoa. pose proof (good_token _ _ Hf Hoa) as (H1 & H2 & H3 & H4). rewrite H1, H2, H3, H4. destruct (ck_to_bool c) as [[]|]; done.
Qed.
Lemma sealed_types ss tmpl tm : sealed ss tmpl tm -> map ca_type tm = map ca_type tmpl.
Proof. induction 1 as [|c c' l l' H HF IH]; cbn; [done|]. f_equal; [|done]. by destruct H as [-> |[? _]]. Qed.
Lemma forallb_types (p : N -> bool) (l : list ckattr) : forallb (fun c => p (ca_type c)) l = forallb p (map ca_type l).
Proof. induction l; cbn; congruence. Qed.
Lemma sealed_ids ss tmpl tm : sealed ss tmpl tm -> forallb (fun c => negb (ids (ca_type c))) tmpl = true -> forallb (fun c => negb (ids (ca_type c))) tm = true.
Proof. intros H. rewrite !(forallb_types (fun t => negb (ids t))). by rewrite (sealed_types _ _ _ H). Qed.

Lemma set_obj_ok f o tmpl : obj_ok o -> obj_ok (fst (set_object_attributes f o tmpl)).
Proof. intros H. unfold set_object_attributes. destruct (negb _); [done|]. destruct (check_set_attributes _ _); [|done]. by apply apply_ok. Qed.
Lemma set_obj_same f o tmpl : good_factory f -> same_id o (fst (set_object_attributes f o tmpl)).
Proof.
  intros H. unfold set_object_attributes. destruct (negb _); [reflexivity|]. destruct (check_set_attributes _ _) as [[]|] eqn:Hc; [|reflexivity].
  apply apply_same. by eapply check_set_ids.
Qed.
Lemma del_attrs_ok l o : (forall t, In t l -> t <> CKA_CLASS /\ ids t = false) -> obj_ok o -> obj_ok (del_attrs l o) /\ same_id o (del_attrs l o).
Proof.
  revert o. unfold del_attrs. induction l as [|t l IH]; intros o Hl Ho; cbn [foldl]; [done|].
  destruct (Hl t) as [H1 H2]; [by left|]. destruct (IH (del_attr o t)) as [I1 I2]; [intros; apply Hl; by right| |].
  { apply ok_del; try done. unfold ids in H2. lia. }
  split; [done|]. etransitivity; [|done]. by apply same_del.
Qed.
Lemma good_eph f t : good_factory f -> In t (f_ephemeral f) -> t <> CKA_CLASS /\ ids t = false.
Proof. intros Hf Ht. pose proof (good_ephemeral _ _ Hf Ht). unfold ids. lia. Qed.

(* ---- every step keeps the invariant ---- *)
Lemma tstep_ok k t t' : tok_ok t -> tstep k t t' -> tok_ok t'.
Proof.
  intros Ht Hs. destruct Hs as [t t' H1 H2 H3 Hdd Hfl b Hca Hlo|t|t uid Hu|t h H1 Hdy|t sh o uid [H1 _] H2 H3 H4|t h tmpl o f H1 H2|t h o H1 H2|t sel|t o uid s H1 H2 H3 H4 H5
    |t h tmpl uid o f tm o' s H1 H2 H3 H4 H5 H6 H7 H8 H9|t h o o' uid s H0 H1 H2 H3 H4 H5|t h uid s H1 H2 Hns Hdy|t|t].
  - apply (tok_same t); [done|done| |done]. eapply db_objs_ok; [done|apply Ht].
  - by apply tok_hnew.
  - by apply tok_hadd.
  - by apply tok_hdel.
  - by apply tok_sadd.
  - pose proof (obj_factory_good _ _ H2) as Hf. eapply tok_supd; [done|done| |by apply set_obj_same]. apply set_obj_ok. by apply (tk_sobj _ Ht _ _ H1).
  - by apply tok_sdel.
  - by apply tok_drop.
  - pose proof (tok_hadd t uid Ht H4) as Ha. eapply (tok_same _ (set_db _ _)); [| | |exact Ha]; [reflexivity|reflexivity|]. cbn. eapply db_store; try done. apply Ht.
  - apply (tok_same t); [done|done| |done]. cbn. pose proof (obj_factory_good _ _ H4) as Hf. destruct (fetch_ok _ _ _ (tk_db _ Ht) H3) as ([F1 _] & F2 & F3).
    assert (o' = fst (apply_template o tm)) as Ho' by (by rewrite H8).
    assert (obj_ok o' /\ same_id o o') as [A1 A2].
    { rewrite Ho'. split; [by apply apply_ok|]. apply apply_same. eapply sealed_ids; [done|]. by eapply check_set_ids. }
    destruct (del_attrs_ok (f_ephemeral f) o') as [D1 D2]; [intros; by eapply good_eph|done|].
    assert (same_id o (del_attrs (f_ephemeral f) o')) as S1 by (by etransitivity).
    eapply db_store; [apply Ht|done|by rewrite (same_token _ _ S1)|by rewrite (same_uid _ _ S1)|done].
  - apply (tok_same t); [done|done| |done]. cbn. destruct (fetch_ok _ _ _ (tk_db _ Ht) H2) as ([F1 _] & F2 & F3).
    eapply (db_store _ o'); [apply Ht|done|by rewrite (same_token _ _ H4)|by rewrite (same_uid _ _ H4)|done].
  - apply (tok_same t); [done|done| |done]. cbn. eapply db_remove; [apply Ht|done].
  - destruct Ht as [A1 A2 A3 A4 A5]. split; cbn; try done; intros; try (by rewrite lookup_empty in *).
  - apply (tok_same t); [done|done| |done]. cbn [t_db set_db]. assert (d_objs (c_disk (exec reset_stmts (t_db t))) = ∅) as E by done. revert E.
    generalize (c_disk (exec reset_stmts (t_db t))). intros d E. split; [split|]; rewrite ?E; [|done|].
    + intros i j ri rj u. rewrite E, lookup_empty. done.
    + intros i m. rewrite lookup_empty. done.
Qed.
Lemma tsteps_ok K t t' : tok_ok t -> tsteps K t t' -> tok_ok t'.
Proof. intros Ht. induction 1 as [|t t1 t' (k & _ & H1) _ IH]; [done|]. apply IH. by eapply tstep_ok. Qed.
End steps.
