(* What the calls of a read-only session do to the stored objects. *)
From Verif Require Import Base Monad Hoare Attr Obj Factory Tables Create Sqlite Storage Token Backend State Api
  Rows ObjOk ObjNew Triple TokInv TokStep TokenFrame TokWp TokAuth Spec WorldFrame WorldWp Sessions SessionInv SessionFacts
  Lifecycle ObjWorld ObjView ObjAttrs NewView ObjFacts AttrFacts Errors AuthSpec ObjCalls Loose.

Section tok.
Context (P : params) (B : backend) (Hfs : p_fs P = all_factories) (Hutf : forall n, utf8_valid (p_uuid P n) = true).

Definition same_rows (t t' : token) : Prop := d_objs (t_db t') = d_objs (t_db t).
Global Instance same_rows_pre : PreOrder same_rows.
Proof. split; [done|]. intros a b c. unfold same_rows. congruence. Qed.
(* The handles given out from n on name session objects. *)
Definition calm_tok (n : N) (t : token) : Prop :=
  tok_ok t /\ n <= h_next (t_handles t) /\ forall h uid, n <= h -> h_map (t_handles t) !! h = Some uid -> t_sobjs t !! h <> None.
Definition quiet_kind (k : kind) : Prop := k = KQuiet LCalm.
Lemma quiet_steps t t' : tsteps P quiet_kind t t' -> t_handles t' = t_handles t /\ t_sobjs t' = t_sobjs t /\ same_rows t t'.
Proof.
  induction 1 as [|a b c (k & Hk & Hs) _ IH]; [done|]. unfold quiet_kind in Hk. subst k. inversion Hs; subst. destruct IH as (I1 & I2 & I3). unfold same_rows in *. split_and!; congruence.
Qed.
Context (n : N).
Notation hq := (hs (calm_tok n) same_rows).
Lemma hq_quiet {A} (m : M token A) (Q : A -> Prop) : hs tok_ok (tsteps P quiet_kind) m Q -> hq m Q.
Proof.
  intros H t (Ht & Hn & Hs). destruct (H t Ht) as (A1 & A2 & A3). destruct (quiet_steps _ _ A2) as (Q1 & Q2 & Q3). split_and!; try done. split_and!; [done|by rewrite Q1|]. by rewrite Q1, Q2.
Qed.
Lemma hq_draw : hq draw (fun _ => True).
Proof. apply hq_quiet. by apply hs_draw. Qed.
Lemma hq_uid : hq (new_uid P) (fun u => utf8_valid u = true).
Proof. apply hq_quiet. by apply hs_new_uid. Qed.
Lemma hq_get h : hq (get_object_by_handle P h) obj_ok.
Proof. apply hq_quiet. by apply hs_get_object_by_handle. Qed.
Lemma hq_gets l : hq (get_objects P l) (fun _ => True).
Proof. apply hq_quiet. by apply hs_get_objects. Qed.
Lemma hq_insert sh o : new_ok o -> is_token o = false -> hq (insert_object P sh o) (fun h => n <= h).
Proof.
  intros Ho Htk t (Ht & Hn & Hs). pose proof (hs_insert_odd P Hfs (fun _ => True) I I sh o (fun _ => I) I Ho t Ht) as (Hok & _ & _).
  revert Hok. unfold insert_object. rewrite Htk. rewrite !run_bind. cbn [h_fresh]. set (t1 := set_handles _ t). cbv zeta. rewrite run_bind.
  change (get_string (set_session (set_handle o (h_next (t_handles t))) sh)) with (get_string o). cbv [lift].
  assert (forall e : N, tok_ok t1 -> calm_tok n t1 /\ same_rows t t1 /\ match @Err N e with Ok h => n <= h | Err _ => True end) as Herr.
  { intros e Hok. split; [|done]. split; [done|]. split; [cbn; lia|exact Hs]. }
  destruct (get_string o CKA_UNIQUE_ID) as [uid|e]; cbn [fst snd]; [|apply (Herr 0)].
  rewrite run_bind. unfold h_insert. cbv zeta. destruct (h_map (t_handles t1) !! h_next (t_handles t)); [apply (Herr 0)|].
  destruct (uid_handle (t_handles t1) uid); [apply (Herr 0)|].
  rewrite run_bind. cbv [modify ret]. cbn [fst snd]. intros Hok. split_and!; [split; [exact Hok|]; split; [cbn; lia|]|done|done].
  cbn. intros h u Hh Hu. destruct (decide (h = h_next (t_handles t))) as [->|Hne]; [by rewrite lookup_insert|]. rewrite lookup_insert_ne in Hu by done; rewrite lookup_insert_ne by done. by eapply Hs.
Qed.
Lemma hq_destroy h : n <= h -> hq (destroy_object P h) (fun _ => True).
Proof.
  intros Hh t (Ht & Hn & Hs). pose proof (hs_destroy_object P Hfs (fun _ => True) I h I (fun _ => I) I t Ht) as (Hok & Hst & _).
  clear Hst. revert Hok. unfold destroy_object. cbv [mbind gets]. destruct (t_sobjs t !! h) as [o|] eqn:Hso.
  - unfold ensure. destruct (is_destroyable o); [|intros Hok; done]. cbv [modify h_remove skip ret]. cbn [fst snd]. intros Hok. split_and!; try done. split; [exact Hok|]. split; [exact Hn|].
    cbn. intros h' u Hh' Hu. destruct (decide (h' = h)) as [->|Hne]; [by rewrite lookup_delete in Hu|]. rewrite lookup_delete_ne in Hu by done; rewrite lookup_delete_ne by done. by eapply Hs.
  - assert (h_map (t_handles t) !! h = None) as Hnone. { destruct (h_map (t_handles t) !! h) as [u|] eqn:Hu; [|done]. by apply Hs in Hu. }
    assert (exists e, st_fetch P h [CKA_DESTROYABLE] t = (t, Err e)) as [e He]. { unfold st_fetch, h_get, mbind, gets. rewrite Hnone. cbn. eauto. }
    cbv [mbind gets]. rewrite He. done.
Qed.
Lemma hq_destroy_all l : Forall (fun h => n <= h) l -> hq (destroy_all P l) (fun _ => True).
Proof.
  induction 1 as [|h l Hh Hl IH]; cbn [destroy_all]; [by apply hs_skip; [apply _|]|].
  eapply (hs_bind _ _ _ _ (fun _ => True)); [|intros r _; exact IH]. eapply (hs_attempt _ _ _ (fun _ => True)); [|done]. by apply hq_destroy.
Qed.
Definition plain_new (o : object) : Prop := new_ok o /\ is_token o = false.
Lemma hq_insert_all sh l d a : Forall (fun h => n <= h) d -> Forall (fun h => n <= h) a -> Forall plain_new l -> hq (insert_all P sh l d a) (fun _ => True).
Proof.
  intros Hd Ha Hl. revert d Hd. induction Hl as [|o l [Ho Ho'] Hl IH]; intros d Hd; cbn [insert_all]; [by apply hs_ret; [apply _|]|].
  eapply (hs_bind _ _ _ _ (fun r => match r with Ok h => n <= h | Err _ => True end)); [eapply (hs_attempt _ _ _ (fun h => n <= h)); [|done]; by apply hq_insert|]. intros [h|e] Hh.
  - apply IH. apply List.Forall_app. split; [done|]. by constructor.
  - eapply (hs_bind _ _ _ _ (fun _ => True)); [|intros _ _; apply hs_fail; apply _]. apply hq_destroy_all. apply List.Forall_app. done.
Qed.
Lemma hq_derived key l : obj_ok key -> Forall (fun d => asks_not (template_of d)) l -> hq (derived_objects P key l) (Forall plain_new).
Proof.
  intros Hk Hl. induction Hl as [|d l Hd Hl IH]; cbn [derived_objects]; [by apply hs_ret; [apply _|]|].
  eapply hs_bind; [apply _|by apply hq_uid|]. intros uid Hu. cbv beta in Hu.
  eapply (hs_bind _ _ _ _ plain_new); [apply hs_lift; [apply _|]|].
  { intros o H. split; [by eapply derived_object_ok|]. apply loose_token. by eapply derived_loose. }
  intros o Ho. eapply hs_bind; [apply _|exact IH|]. intros os Hos. apply hs_ret; [apply _|]. by constructor.
Qed.
Lemma hq_create env sh tmpl : asks_not tmpl -> hq (create_object P env sh tmpl) (fun _ => True).
Proof.
  intros Ht. unfold create_object. eapply hs_bind; [apply _|by apply hq_uid|]. intros uid Hu. cbv beta in Hu.
  eapply (hs_bind _ _ _ _ plain_new); [apply hs_lift; [apply _|]|].
  { intros o H. split; [rewrite Hfs in H; by eapply factories_create_ok|]. apply loose_token. by eapply factories_create_loose. }
  intros o [Ho Htk]. rewrite Htk. eapply (hs_bind _ _ _ _ (fun r => r = None)); [by apply hs_ret; [apply _|]|]. intros r ->. eapply hs_any, hq_insert; done.
Qed.
End tok.

Section ro.
Context (P : params) (B : backend) (E : N -> keyenv) (Hfs : p_fs P = all_factories) (Hutf : forall n, utf8_valid (p_uuid P n) = true).
Notation world := (world B). Notation session := (session B). Notation winv := (winv B). Notation after := (after P B E).
Notation any := (fun _ => True).

(* The objects stored for each slot are the same. *)
Definition same_stored (w w' : world) : Prop := forall sid, d_objs (db_at B w' sid) = d_objs (db_at B w sid).
Global Instance same_stored_pre : PreOrder same_stored.
Proof. split; [done|]. intros a b c H1 H2 sid. by rewrite H2, H1. Qed.

Section call.
Context (sid h n : N).
Definition ro_at (w : world) : Prop := w_next w <> 0 /\ exists sl s, w_slots w !! sid = Some sl /\ w_smap w !! h = Some sid /\ sl_sessions sl !! h = Some s /\
  s_slot s = sid /\ is_writable B s = false /\ calm_tok n (sl_token sl).
Notation hr := (hs ro_at same_stored).
Lemma hr_pure {A} (m : M world A) (Q : A -> Prop) : (forall w, fst (m w) = w) -> (forall w a, ro_at w -> snd (m w) = Ok a -> Q a) -> hr m Q.
Proof. intros H1 H2 w Hw. rewrite H1. split_and!; [done..|]. destruct (snd (m w)) eqn:Hs; [by eapply H2|done]. Qed.
Lemma pure_slot i w : fst (get_slot B i w) = w.
Proof. cut (wp (get_slot B i) w (fun w' _ => w' = w)); [done|]. by apply wp_get_slot. Qed.
Lemma hr_lock : hr (Api.lock B) any.
Proof. apply hr_pure; [|done]. intros w. cut (wp (Api.lock B) w (fun w' _ => w' = w)); [done|]. by apply wp_lock. Qed.
Lemma hr_get_session : hr (get_session B h) (fun s => s_slot s = sid /\ is_writable B s = false).
Proof.
  intros w (Hn & sl & s & H1 & H2 & H3 & H4 & H5 & H6). rewrite (get_session_eq B h sid sl s) by done. cbn [fst snd]. split_and!; try done. split; [done|]. exists sl, s. done.
Qed.
Lemma hr_ready i : hr (token_ready B i) any.
Proof. apply hr_pure; [|done]. intros w. cut (wp (token_ready B i) w (fun w' _ => w' = w)); [done|]. by apply wp_token_ready. Qed.
Lemma hr_flags i m : hr (mech_flags P B i m) any.
Proof.
  apply hr_pure; [|done]. intros w. unfold mech_flags. cut (wp (mech_flags P B i m) w (fun w' _ => w' = w)); [done|]. unfold mech_flags. wp_go.
Qed.
Lemma hr_ok o : hr (Api.ok B o) any. Proof. by apply hr_pure. Qed.
Lemma hr_failed r o : hr (Api.failed B r o) any. Proof. by apply hr_pure. Qed.
Lemma hr_deref {A} (p : option A) : hr (deref B p) (fun a => p = Some a).
Proof. apply hr_pure; [by destruct p|]. intros w a _. destruct p; cbn; congruence. Qed.
Lemma hr_ro_check s t : is_writable B s = false -> hr (ro_check B s t) (fun _ => asks_not t).
Proof.
  intros Hs. apply hr_pure; unfold ro_check; rewrite Hs; [done|]. intros w a _. cbn. unfold asks_not. by destruct (fail_if_token t) as [[]|].
Qed.
Lemma hr_tok {A} (m : M token A) (Q : A -> Prop) : hs (calm_tok n) same_rows m Q -> hr (Api.tok B sid m) Q.
Proof.
  intros Hm w (Hn & sl & s & H1 & H2 & H3 & H4 & H5 & H6). rewrite (tok_eq B sid sl) by done. cbn [fst snd]. destruct (Hm _ H6) as (A1 & A2 & A3). split_and!; [|..].
  - split; [done|]. exists (put_token B (fst (m (sl_token sl))) sl), s. split_and!; try done. unfold with_slot. cbn. by rewrite lookup_insert.
  - intros i. unfold db_at, with_slot. cbn. destruct (decide (i = sid)) as [->|Hne]; [|by rewrite lookup_insert_ne].
    rewrite lookup_insert, H1. exact A2.
  - done.
Qed.

(* The CKA_TOKEN entries of the templates the mechanism uses are those of the template given. *)
Definition asked_only (t : list ckattr) (d : derived) : Prop := forall c, In c (template_of d) -> ca_type c = CKA_TOKEN -> In c t.
Definition derives_as_asked (mt : N) (param : option bytes) (t : list ckattr) : Prop :=
  forall key others r l, be_derive B mt param key others t r = Ok l -> Forall (asked_only t) l.
Lemma asks_all l : (forall c, In c l -> ca_type c = CKA_TOKEN -> ck_to_bool c = Ok false) -> asks_not l.
Proof.
  unfold asks_not. induction l as [|c r IH]; intros H; cbn [fail_if_token]; [done|]. destruct (N.eqb_spec (ca_type c) CKA_TOKEN) as [Hc|Hc].
  - rewrite (H c) by (try done; by left). cbn [rbind]. apply IH. intros; apply H; [by right|done].
  - apply IH. intros; apply H; [by right|done].
Qed.
Lemma asked_derived t l : asks_not t -> Forall (asked_only t) l -> Forall (fun d => asks_not (template_of d)) l.
Proof.
  intros Ht. apply List.Forall_impl. intros d Hd. apply asks_all. intros c Hc Hty. apply (asks_in t c Ht); [|done]. by apply Hd.
Qed.

Ltac bound := repeat (apply List.Forall_cons; [assumption|]); apply List.Forall_nil.
Ltac hr_prim m :=
  lazymatch m with
  | Api.lock _ => apply hr_lock
  | token_ready _ _ => apply hr_ready
  | mech_flags _ _ _ _ => apply hr_flags
  | Api.ok _ _ => apply hr_ok
  | Api.failed _ _ _ => apply hr_failed
  | Api.tok _ _ draw => apply hr_tok, (hq_draw P); assumption
  | Api.tok _ _ (get_objects _ _) => apply hr_tok, hq_gets; assumption
  | Api.tok _ _ (create_object _ _ _ _) => apply hr_tok, hq_create; assumption
  | Api.tok _ _ (insert_all _ _ _ _ _) => apply hr_tok, hq_insert_all; [assumption..|bound|bound|first [assumption|match goal with H : Forall plain_new (_ :: _) |- _ => by inversion H end]]
  | Api.tok _ _ (destroy_object _ _) => apply hr_tok, hq_destroy; assumption
  | lift _ => apply hs_lift; [apply _|done]
  | ret _ => apply hs_ret; [apply _|done]
  | fail _ => apply hs_fail; apply _
  | skip => apply hs_skip; [apply _|done]
  | ensure _ _ => apply hs_ensure; [apply _|done]
  | attempt _ => eapply (hs_attempt _ _ _ any); [|done]
  end.
Ltac new_solve := first [eassumption
  |match goal with H : gen_key _ _ _ _ _ _ _ = Ok _ |- _ => split; [eapply gen_key_ok; [exact Hfs|eassumption|exact H]|eapply loose_token, gen_key_loose; [exact Hfs|eassumption|exact H]] end
  |match goal with H : import_key _ _ _ _ _ = Ok _, F : get_obj_factory_from_key_template _ _ = Ok _ |- _ =>
     split; [eapply import_key_ok; [eassumption|eapply key_factory_good; [exact Hfs|exact F]|exact H]
            |eapply loose_token, import_key_loose; [eapply key_factory_good; [exact Hfs|exact F]|eassumption|exact H]] end
  |match goal with H : gen_pair _ _ _ _ _ _ _ = Ok _ |- _ =>
     split; [eapply gen_pair_ok in H; [|exact Hfs|eassumption|eassumption]; destruct H as [[? _] [? _]]; assumption
            |apply loose_token; eapply gen_pair_loose in H; [|exact Hfs|eassumption|eassumption]; by destruct H] end
  |match goal with H : Forall plain_new (_ :: _) |- _ => by inversion H end].
Ltac hr_insert := match goal with |- hs _ _ (Api.tok _ _ (insert_object _ _ ?o)) _ =>
    let X := fresh in assert (plain_new o) as X by new_solve; eapply hr_tok, hq_insert; [exact Hfs|exact Hutf|apply X|apply X] end.
Ltac hr_step :=
  lazymatch goal with
  | |- hs _ _ (mbind ?m _) _ =>
    lazymatch m with
    | lift ?r => eapply (hs_bind _ _ _ _ (fun a => r = Ok a)); [apply hs_lift; [apply _|done]|cbv beta; intros ? ?]
    | get_session _ _ => eapply hs_bind; [apply _|apply hr_get_session|cbv beta; intros ? [? ?]]
    | ro_check _ _ _ => eapply hs_bind; [apply _|apply hr_ro_check; eassumption|cbv beta; intros ? ?]
    | deref _ _ => eapply hs_bind; [apply _|apply hr_deref|cbv beta; intros ? ?]
    | Api.tok _ _ (new_uid _) => eapply hs_bind; [apply _|apply hr_tok, hq_uid; assumption|cbv beta; intros ? ?]
    | Api.tok _ _ (get_object_by_handle _ _) => eapply hs_bind; [apply _|apply hr_tok, hq_get; assumption|cbv beta; intros ? ?]
    | Api.tok _ _ (derived_objects _ _ _) => eapply (hs_bind _ _ _ _ (Forall plain_new)); [apply hr_tok, hq_derived; [assumption..|eapply asked_derived; [eassumption|eauto]]|intros ? ?]
    | Api.tok _ _ (insert_object _ _ _) => eapply (hs_bind _ _ _ _ (fun h => n <= h)); [hr_insert|cbv beta; intros ? ?]
    | attempt (Api.tok _ _ (insert_object _ _ _)) => eapply (hs_bind _ _ _ _ any); [eapply (hs_attempt _ _ _ any); [eapply hs_any; hr_insert|done]|intros ? _]
    | _ => eapply (hs_bind _ _ _ _ any); [|intros ? _]
    end
  | |- hs _ _ (let _ := _ in _) _ => cbv zeta
  | |- hs _ _ (if ?b then _ else _) _ => destruct b eqn:?
  | |- hs _ _ (match ?x with _ => _ end) _ => destruct x eqn:?
  | |- hs _ _ ?m _ => hr_prim m
  end.
Ltac fix_slot := match goal with H : s_slot ?x = sid |- _ => rewrite H in * end.
Ltac hr_tac := repeat (hr_step; try fix_slot).
Lemma hr_create t p : hr (c_create_object P B E h t p) any.
Proof. unfold c_create_object. hr_tac.
Qed.
Lemma hr_gen m t p : hr (c_generate_key P B E h m t p) any.
Proof. unfold c_generate_key. hr_tac.
Qed.
Lemma hr_pair m t1 t2 p1 p2 : hr (c_generate_key_pair P B E h m t1 t2 p1 p2) any.
Proof.
  unfold c_generate_key_pair. hr_tac.
Qed.
Lemma hr_unwrap m k d t p : hr (c_unwrap_key P B h m k d t p) any.
Proof. unfold c_unwrap_key. hr_tac. Qed.
Lemma hr_encap m k t b l p : hr (c_encapsulate_key P B h m k t b l p) any.
Proof. unfold c_encapsulate_key. hr_tac. Qed.
Lemma hr_decap m k t d p : hr (c_decapsulate_key P B h m k t d p) any.
Proof. unfold c_decapsulate_key. hr_tac. Qed.
Lemma hr_derive m k t p x : (forall mt pr l, m = Some (mt, pr) -> t = Some l -> derives_as_asked mt pr l) -> hr (c_derive_key P B h m k t p x) any.
Proof.
  intros HB. unfold c_derive_key.
  eapply (hs_bind _ _ _ _ any); [apply hs_ensure; [apply _|done]|intros ? _].
  hr_step. destruct a0 as [mt param]. hr_step. pose proof (HB mt param a0 ltac:(assumption) ltac:(assumption)) as Hd. clear HB. unfold derives_as_asked in Hd. hr_tac.
Qed.
End call.

Lemma ro_first w h s : winv w -> session_of B w h = Some s -> has_flag (s_flags s) CKF_RW_SESSION = false ->
  is_writable B s = false /\ exists n, ro_at (s_slot s) h n w.
Proof.
  intros [Hw HI] Hs Hf. destruct (session_of_inv B w h s HI Hs) as (sl & H1 & H2 & H3 & H4 & H5 & H6).
  assert (is_writable B s = false) as Hwr.
  { destruct (so_sessions _ _ _ _ _ H4 _ _ H3) as (_ & _ & _ & _ & Hst). unfold rw in Hst. rewrite Hf in Hst. unfold is_writable. destruct Hst as [-> | ->]; done. }
  split; [done|]. exists (h_next (t_handles (sl_token sl))). split; [done|]. exists sl, s. split_and!; try done.
  pose proof (wo_slots _ _ Hw _ _ H2) as Ht. split_and!; [done|lia|]. intros h' u Hh Hu. pose proof (tk_keys _ Ht _ _ Hu). lia.
Qed.

(* ---- changing, destroying and copying ---- *)
Lemma noise_rows t t' : noise t t' -> same_rows t t'.
Proof. by intros (i & n & ->). Qed.
Lemma seen_session t h o : tok_ok t -> seen P t h o -> is_token o = false -> t_sobjs t !! h = Some o.
Proof. intros Hok [H|[_ H]] Ht; [done|]. destruct (fetched_ok P Hfs t h o Hok H) as (_ & H2 & _). congruence. Qed.
(* A template that names CKA_TOKEN. *)
Definition names_token (tmpl : list ckattr) : Prop := exists c, In c tmpl /\ ca_type c = CKA_TOKEN.
Lemma apply_plain tmpl : forall o o', apply_template o tmpl = (o', Ok tt) -> (forall c, In c tmpl -> ca_type c = CKA_TOKEN -> ck_to_bool c = Ok false) ->
  is_token o = false \/ names_token tmpl -> is_token o' = false.
Proof.
  induction tmpl as [|c r IH]; intros o o'; cbn [apply_template].
  - intros H _ [Hl|(c & [] & _)]. by simplify_eq.
  - intros H Ha Hc. destruct (from_ck_attr c) as [a|] eqn:Hf; [|done]. cbn [rbind] in H. destruct (set_attr o a) as [o1|] eqn:Hs; [|done].
    apply (IH _ _ H); [intros; apply Ha; [by right|done]|].
    destruct (from_ck_wf _ _ Hf) as [Hw Ht]. destruct (N.eqb_spec (ca_type c) CKA_TOKEN) as [Hty|Hty].
    + left. apply loose_token. right. rewrite (get_set _ _ _ _ Hs), Ht, Hty, N.eqb_refl. f_equal. rewrite <- Hty. apply (from_ck_bool c a false); [by rewrite Hty|done|]. apply Ha; [by left|done].
    + destruct Hc as [Hc|(x & [<-|Hx] & Hx2)]; [|done|right; by exists x]. left. unfold is_token, bool_attr in *. rewrite (get_set _ _ _ _ Hs), Ht.
      apply N.eqb_neq in Hty. by rewrite Hty.
Qed.
Lemma copy_plain uid o tmpl o' : factories_copy uid (p_fs P) o tmpl = Ok o' -> asks_not tmpl -> is_token o = false \/ names_token tmpl -> is_token o' = false.
Proof.
  unfold factories_copy. destruct (is_copyable o); [|done]. cbn [negb]. destruct (get_object_factory (p_fs P) o) as [f|] eqn:Hof; [|done]. cbn [rbind].
  intros H Hn Hc. assert (default_copy uid f o tmpl = Ok o') as Hd by (destruct (f_kind f); done). clear H. unfold default_copy in Hd.
  destruct (copy_check (f_attrs f) o tmpl) as [[]|] eqn:Hk; [|done]. cbn [rbind] in Hd.
  destruct (apply_template (blind_copy uid o) tmpl) as [m [[]|]] eqn:Hap; [|done].
  assert (is_token o' = is_token m) as ->.
  { unfold is_token, bool_attr. replace (get_attr o' CKA_TOKEN) with (get_attr m CKA_TOKEN); [done|]. symmetry.
    injection Hd as <-. match goal with |- get_attr (match ?x with Ok _ => put_attr ?o1 _ | Err _ => _ end) _ = _ => transitivity (get_attr o1 CKA_TOKEN); [destruct x; [|done]; by apply put_other|] end.
    match goal with |- get_attr (match ?x with Ok _ => put_attr ?o1 _ | Err _ => _ end) _ = _ => destruct x; [|done] end. by apply put_other. }
  eapply apply_plain; [exact Hap|intros c Hin; by apply (asks_in tmpl c)|]. destruct Hc as [Hc|Hc]; [left|by right].
  unfold is_token, bool_attr in *. by rewrite blind_attr.
Qed.
Lemma copy_rows n sh h l t : calm_tok n t -> asks_not l -> t_sobjs t !! h <> None \/ names_token l -> same_rows t (fst (copy_object P sh h l t)).
Proof.
  intros Ht Ha Hc. pose proof Ht as (Hok & _ & _).
  assert (forall t0 o, calm_tok n t0 -> same_rows t t0 -> obj_pre o -> is_token o = false \/ names_token l ->
    wp (let! uid := new_uid P in let! n := lift (factories_copy uid (p_fs P) o l) in insert_object P sh n) t0 (fun t' _ => same_rows t t')) as Hgo.
  { intros t0 o Ht0 Hs Ho Hp. assert (hs (calm_tok n) same_rows (let! uid := new_uid P in let! n := lift (factories_copy uid (p_fs P) o l) in insert_object P sh n) any) as Hh.
    { eapply hs_bind; [apply _|by apply hq_uid|]. intros uid Hu. eapply (hs_bind _ _ _ _ plain_new); [apply hs_lift; [apply _|]|].
      - intros x Hx. split; [eapply factories_copy_ok; [exact Hu|exact Ho|exact Hx]|by eapply copy_plain].
      - intros x [X1 X2]. eapply hs_any, hq_insert; done. }
    unfold wp. etransitivity; [exact Hs|]. apply Hh. done. }
  cut (wp (copy_object P sh h l) t (fun t' _ => same_rows t t')); [done|]. unfold copy_object. apply wp_bind, wp_gets, wp_bind. destruct (t_sobjs t !! h) as [o|] eqn:Hso.
  - apply wp_ret. apply Hgo; [done|done|..].
    + apply (tk_sobj _ Hok _ _ Hso).
    + left. apply (tk_sobj _ Hok _ _ Hso).
  - apply wp_bind, wp_st_fetch; [|done]. intros i o Ho. apply wp_bind, wp_gets, wp_bind. unfold ensure. destruct (_ || _); [|done]. apply wp_ret, wp_ret. apply Hgo; [|done|by eapply fetched_pre|].
    + destruct Ht as (H1 & H2 & H3). split_and!; [|done|done]. by apply (tok_same t); [..|apply (tk_db _ H1)|].
    + destruct Hc as [Hc|Hc]; [done|by right].
Qed.

Definition row_kind (k : kind) : bool := match k with KNew _ _ | KUpd _ _ | KDedup _ | KRemove _ _ | KReset => true | _ => false end.
Lemma rows_steps (K : kind -> Prop) t t' : (forall k, K k -> row_kind k = false) -> tsteps P K t t' -> same_rows t t'.
Proof.
  intros HK. induction 1 as [|a b c (k & Hk & Hs) _ IH]; [done|]. etransitivity; [|exact IH]. apply HK in Hk. unfold same_rows. destruct Hs; done.
Qed.
Lemma toks_stored w w' : w_disks w' = w_disks w ->
  (forall i, match token_of B w i, token_of B w' i with Some t, Some t' => same_rows t t' | None, None => True | _, _ => False end) -> same_stored w w'.
Proof.
  intros Hd H i. specialize (H i). unfold db_at, Spec.token_of in *. rewrite Hd. by destruct (w_slots w !! i), (w_slots w' !! i).
Qed.
Lemma stored_steps (K : kind -> Prop) sid w w' : (forall k, K k -> row_kind k = false) -> wsteps P B K sid w w' -> same_stored w w'.
Proof.
  intros HK [H1 H2]. apply toks_stored; [done|]. intros i. specialize (H1 i). unfold Spec.token_of. destruct H1 as [a b [_ Ht]|]; cbn; [|done].
  destruct (decide (i = sid)); [by eapply rows_steps|]. by rewrite Ht.
Qed.
Lemma idle_stored w w' : w_disks w' = w_disks w -> idle B w w' -> same_stored w w'.
Proof.
  intros Hd H. apply toks_stored; [done|]. intros i. specialize (H i). destruct (Spec.token_of B w i), (Spec.token_of B w' i); try done. by apply noise_rows.
Qed.
Lemma replaced_stored w w' sid t t' : w_disks w' = w_disks w -> replaced B w w' sid t t' -> same_rows t t' -> same_stored w w'.
Proof.
  intros Hd (H1 & H2 & H3) Hr. apply toks_stored; [done|]. intros i. destruct (decide (i = sid)) as [->|Hne]; [by rewrite H1, H2|]. rewrite H3 by done. by destruct (Spec.token_of B w i).
Qed.
Lemma token_ok w sid t : winv w -> token_of B w sid = Some t -> tok_ok t.
Proof. intros [Hw _]. unfold Spec.token_of. destruct (w_slots w !! sid) as [sl|] eqn:Hs; [|done]. intros [= <-]. exact (wo_slots _ _ Hw _ _ Hs). Qed.

(* The calls of a read-only session shown to change nothing that is stored.  Left out are C_CopyObject of a stored object
   with a template that does not mention CKA_TOKEN, C_DeriveKey with mechanism parameters that hold further templates
   that mention CKA_TOKEN, and the operations that keep a counter in the key. *)
Definition stores_nothing (w : world) (c : call) : Prop :=
  match c with
  | CopyObject h o tm _ _ => (exists s, session_of B w h = Some s /\ session_object_at B w (s_slot s) o = true) \/ names_token (default [] tm)
  | DeriveKey _ (Some (mt, pr)) _ (Some l) _ _ => derives_as_asked mt pr l
  | Sign _ _ _ _ | SignFinal _ _ _ | Verify _ _ _ | VerifyFinal _ _ | VerifySignature _ _ | VerifySignatureFinal _ => forall x, be_updates B x = None
  | _ => True
  end.
Lemma read_only_call w c h s : winv w -> session_of_call c = Some h -> session_of B w h = Some s -> has_flag (s_flags s) CKF_RW_SESSION = false ->
  stores_nothing w c -> same_stored w (after w c).
Proof.
  intros Hw Hc Hs Hf Hm. destruct (ro_first w h s Hw Hs Hf) as (Hwr & n & Hro).
  assert (live_call c = true) as Hl by (by destruct c).
  pose proof (live_step P B E Hfs Hutf w c Hl Hw) as Hst. pose proof (ws_disks _ _ _ _ _ _ Hst) as Hd.
  assert (hs (ro_at (s_slot s) h n) same_stored (api P B E c) any -> same_stored w (after w c)) as Hgo.
  { intros Hh. unfold Spec.after. rewrite run_step. by apply Hh. }
  unfold Spec.after in *.
  destruct c; cbn [session_of_call] in Hc; try discriminate Hc.
  all: try (by eapply stored_steps; [|exact Hst]; intros k Hk; destruct k as [[]| | | | | | | | | | |]; cbn in Hk |- *; try done).
  all: lazymatch goal with |- context [OpInit _ _ _ _ _] => idtac | _ => injection Hc as -> end.
  all: try (solve [eapply stored_steps; [|exact Hst]; intros k Hk; destruct k as [[]| | | | | | | | | | |]; cbn in Hk |- *; try done; destruct Hk as (x & Hx); by rewrite Hm in Hx]).
  - apply Hgo, hr_create.
  - destruct (copy_call P B E w h o tmpl cnt ph Hw) as [[Hi _]|(sid & se & t & t' & l & r & C1 & C2 & C3 & -> & C4 & C5 & _)]; [by apply idle_stored|].
    rewrite Hs in C2. injection C2 as <-. destruct C4 as [C4|C4]; [congruence|]. eapply replaced_stored; [done|exact C3|].
    assert (t' = fst (copy_object P h o (default [] tmpl) t)) as -> by (by rewrite C5).
    assert (sid = s_slot s /\ tok_ok t) as [-> Hok].
    { destruct C3 as (C3 & _). split; [|by eapply token_ok]. destruct Hro as (_ & sl & s' & R1 & R2 & _). congruence. }
    apply (copy_rows (h_next (t_handles t))); [split_and!; [done|lia|]; intros h' u Hh Hu; pose proof (tk_keys _ Hok _ _ Hu); lia|done|].
    destruct Hm as [(s0 & Hs0 & Hso)|Hn]; [left|by right]. rewrite Hs in Hs0. injection Hs0 as <-. revert Hso. unfold session_object_at, is_session_object. destruct C3 as (-> & _).
    by destruct (t_sobjs t !! o).
  - destruct (destroy_call P B E w h o Hw) as [[Hi _]|(sid & se & t & t0 & t' & ob & r & C1 & C2 & C3 & C4 & C5 & C6 & C7 & C8 & _)]; [by apply idle_stored|].
    rewrite Hs in C2. injection C2 as <-. eapply replaced_stored; [done|exact C4|]. etransitivity; [by apply noise_rows|].
    pose proof (proj1 C4) as Ct. pose proof (token_ok _ _ _ Hw Ct) as Hok. assert (is_token ob = false) as Htk by (destruct (is_token ob); [by rewrite C7 in Hwr|done]).
    pose proof (seen_session _ _ _ Hok C5 Htk) as Hso. assert (t_sobjs t0 !! o = Some ob) as Hso0 by (by destruct C3 as (? & ? & ->)).
    revert C8. unfold destroy_object. cbv [mbind gets]. rewrite Hso0. unfold ensure. destruct (is_destroyable ob); cbv [fail ret modify h_remove skip]; intros [= <- <-]; done.
  - destruct (set_call P B E w h o tmpl cnt Hw) as [[Hi _]|(sid & se & t & t0 & t' & l & ob & r & C1 & C2 & C3 & C4 & _ & C5 & C6 & C7 & C8 & _)]; [by apply idle_stored|].
    rewrite Hs in C2. injection C2 as <-. eapply replaced_stored; [done|exact C4|]. etransitivity; [by apply noise_rows|].
    pose proof (proj1 C4) as Ct. pose proof (token_ok _ _ _ Hw Ct) as Hok. assert (is_token ob = false) as Htk by (destruct (is_token ob); [destruct C7; [done|congruence]|done]).
    pose proof (seen_session _ _ _ Hok C5 Htk) as Hso. assert (t_sobjs t0 !! o = Some ob) as Hso0 by (by destruct C3 as (? & ? & ->)).
    revert C8. unfold set_object_attrs. cbv [mbind gets]. rewrite Hso0. cbv [lift modify]. destruct (get_object_factory (p_fs P) ob) as [f|]; [|by intros [= <- <-]]. destruct (set_object_attributes f ob l) as [o' r1]. by intros [= <- <-].
  - destruct k; try discriminate Hc. all: by eapply stored_steps; [|exact Hst]; intros k Hk; destruct k as [[]| | | | | | | | | | |]; cbn in Hk |- *.
  - apply Hgo, hr_gen.
  - apply Hgo, hr_pair.
  - apply Hgo, hr_unwrap.
  - apply Hgo, hr_derive. intros mt pr l -> ->. exact Hm.
  - apply Hgo, hr_encap.
  - apply Hgo, hr_decap.
Qed.
End ro.
