(* The invariant of sessions and logins, kept by every call. *)
From Verif Require Import Base Monad Hoare Attr Obj Factory Tables Create Sqlite Storage Token Backend State Api
  TokenFrame Spec WorldFrame WorldWp.

(* The part of a token that sessions depend on. *)
Record tok_quiet (a b : token) : Prop := TokQuiet {
  tq_logged : t_logged b = t_logged a;
  tq_init : tk_initialized b = tk_initialized a;
  tq_filter : t_filter b = t_filter a;
  tq_dedup : t_dedup b = t_dedup a }.
Global Instance tok_quiet_pre : PreOrder tok_quiet.
Proof.
  split; [done|]. intros a b c [] []. split; congruence.
Qed.
(* The same without the login. *)
Definition tok_almost (a b : token) : Prop :=
  tk_initialized b = tk_initialized a /\ t_filter b = t_filter a /\ t_dedup b = t_dedup a.

Lemma land_pow2 f k : N.land f (2 ^ k) = if N.testbit f k then 2 ^ k else 0.
Proof.
  apply N.bits_inj. intros i. rewrite N.land_spec, N.pow2_bits_eqb. destruct (N.eqb_spec k i) as [->|Hne].
  - destruct (N.testbit f i); [by rewrite N.pow2_bits_true|by rewrite N.bits_0].
  - rewrite andb_false_r. destruct (N.testbit f k); [by rewrite N.pow2_bits_false|by rewrite N.bits_0].
Qed.
Lemma init_bit t : tk_initialized t = N.testbit (t_flags t) 10.
Proof.
  unfold tk_initialized. change CKF_TOKEN_INITIALIZED with (2 ^ 10). rewrite land_pow2.
  destruct (N.testbit (t_flags t) 10); [by rewrite N.eqb_refl|done].
Qed.
Lemma user_flags_bit ut i : N.testbit (user_flags ut i 0) 10 = false.
Proof.
  unfold user_flags. repeat case_match; reflexivity.
Qed.
Lemma update_auth_flags_init ut fl t : N.testbit fl 10 = false ->
  tk_initialized (update_auth_flags ut fl t) = tk_initialized t.
Proof.
  intros H. rewrite !init_bit. unfold update_auth_flags. destruct (ut =? CKU_USER); [|destruct (ut =? CKU_SO)]; [..|done].
  all: cbn [t_flags set_flags set_info]; rewrite N.lor_spec, N.ldiff_spec, H, orb_false_r.
  all: match goal with |- _ && negb ?x = _ => change x with false end; apply andb_true_r.
Qed.

Section generic.
Context (P : params).
Lemma quiet_auth_check ut pin : rel tok_quiet (tk_auth_user P ut pin true).
Proof.
  apply rel_tk_auth_user_check; try apply _; try done.
  intros ut' fl t (i & Hi). split; try done; unfold update_auth_flags; try (repeat case_match; done).
  apply (update_auth_flags_init ut' fl t). destruct Hi as [->| ->]; [done|apply user_flags_bit].
Qed.
Lemma quiet_set_pin ut pin old : rel tok_quiet (tk_set_pin P ut pin old).
Proof.
  apply rel_tk_set_pin; try apply _; try done.
  - intros ut' fl t (i & Hi). split; try done; unfold update_auth_flags; try (repeat case_match; done).
    apply (update_auth_flags_init ut' fl t). destruct Hi as [->| ->]; [done|apply user_flags_bit].
  - intros t. split; try done. rewrite !init_bit. cbn. by rewrite N.lor_spec, orb_false_r.
Qed.

Lemma quiet_auth ut pin b : rel tok_quiet (st_auth_user P ut pin b).
Proof. apply rel_st_auth_user; try apply _; done. Qed.

Lemma quiet_update_auth ut fl t : (exists i, fl = 0 \/ fl = user_flags ut i 0) -> tok_quiet t (update_auth_flags ut fl t).
Proof.
  intros (i & Hi). split; try (unfold update_auth_flags; repeat case_match; done).
  apply update_auth_flags_init. destruct Hi as [->| ->]; [done|apply user_flags_bit].
Qed.

Lemma quiet_almost a b : tok_quiet a b -> tok_almost a b.
Proof. intros []. done. Qed.
Lemma almost_trans a b c : tok_almost a b -> tok_almost b c -> tok_almost a c.
Proof. intros (?&?&?) (?&?&?). split_and!; congruence. Qed.

Lemma tk_auth_user_spec ut pin b t :
  wp (tk_auth_user P ut pin b) t (fun t' r => tok_almost t t' /\
    match r with
    | Ok _ => (ut = CKU_SO \/ ut = CKU_USER) /\ t_logged t' = if b then t_logged t else ut
    | Err _ => t_logged t' = t_logged t
    end).
Proof.
  unfold tk_auth_user. wp_step. wp_step; [|done]. wp_step. wp_step. unfold wp at 1.
  pose proof (quiet_auth ut pin b t) as Hq. destruct (st_auth_user P ut pin b t) as [t1 r] eqn:Hr. cbn [fst snd] in *.
  assert (exists fl res, (match r with Ok (fl, res) => (fl, res) | Err e => (0, Err e) end) = (fl, res)
          /\ exists i, fl = 0 \/ fl = user_flags ut i 0) as (fl & res & -> & Hfl).
  { destruct r as [[fl res]|e]; eexists _, _; split; try done; [by eapply st_auth_user_flags|].
    exists auth_default. auto. }
  apply (quiet_update_auth ut fl t1) in Hfl. pose proof (transitivity Hq Hfl) as Hq2.
  wp_step. wp_step. wp_step. wp_step. destruct res as [[]|e]; cbv beta iota.
  - assert (ut = CKU_SO \/ ut = CKU_USER) by lia. destruct b; wp_step.
    + split; [by apply quiet_almost|]. split; [done|apply Hq2].
    + split; [|done]. destruct Hq2. done.
  - split; [by apply quiet_almost|apply Hq2].
Qed.

Lemma tk_login_spec ut pin t :
  wp (tk_login P ut pin) t (fun t' r => tok_almost t t' /\
    match r with
    | Ok _ => if ut =? CKU_CONTEXT_SPECIFIC then t_logged t' = t_logged t
              else t_logged t = KRY_UNSPEC /\ (ut = CKU_SO \/ ut = CKU_USER) /\ t_logged t' = ut
    | Err _ => t_logged t' = t_logged t
    end).
Proof.
  unfold tk_login. wp_step. wp_step. wp_step.
  - wp_step. wp_step; [|done]. wp_step. wp_step; [|done].
    eapply wp_mono; [apply tk_auth_user_spec|]. cbv beta. intros t' r [Ha Hr]. split; [done|].
    destruct r; [|done]. destruct Hr as [Hu Hl]. assert (ut =? CKU_CONTEXT_SPECIFIC = false) as ->.
    { destruct Hu as [->| ->]; done. }
    split; [lia|]. done.
  - wp_step; [|wp_step; done].
    eapply wp_mono; [apply tk_auth_user_spec|]. cbv beta. intros t' r [Ha Hr]. split; [done|].
    destruct r; [|done]. apply Hr.
Qed.

Lemma quiet_unauth u : rel tok_quiet (st_unauth_user u).
Proof. apply rel_st_unauth_user; try apply _; done. Qed.
Lemma drop_objs_quiet sel t : tok_quiet t (drop_objs sel t).
Proof. done. Qed.
Lemma tk_logout_spec t :
  wp tk_logout t (fun t' r => tok_almost t t' /\
    (t_logged t = KRY_UNSPEC -> t' = t /\ r = Err CKR_USER_NOT_LOGGED_IN) /\
    (t_logged t = CKU_SO \/ t_logged t = CKU_USER -> t_logged t' = KRY_UNSPEC /\ (r = Ok tt \/ r = Err CKR_GENERAL_ERROR))).
Proof.
  unfold tk_logout. wp_step. wp_step. wp_step.
  { wp_step. split; [done|]. split; [done|]. intros H. exfalso. unfold CKU_SO, CKU_USER, KRY_UNSPEC in *. lia. }
  wp_step.
  - wp_step. wp_step. wp_step. wp_step. wp_step. wp_step. unfold wp at 1.
    pose proof (quiet_unauth (t_logged t) (set_logged KRY_UNSPEC (clear_private_session_objects t))) as Hq.
    destruct (st_unauth_user _ _) as [t1 r]. cbn [fst snd] in *. destruct Hq as [Q1 Q2 Q3 Q4].
    assert (tok_almost t t1) by done.
    destruct r; wp_step; (split; [done|]); (split; [intros Hx; exfalso; lia|]); intros _; (split; [done|]); [destruct a|]; auto.
  - wp_step. split; [done|]. split; intros H; exfalso; lia.
Qed.

Lemma quiet_frame_draw : rel tok_quiet draw.
Proof. apply rel_draw. done. Qed.

(* Only the login is kept by C_InitToken. *)
Definition same_login (a b : token) : Prop := t_logged b = t_logged a.
Global Instance same_login_pre : PreOrder same_login.
Proof. split; [done|]. intros a b c H1 H2. unfold same_login in *. congruence. Qed.
Lemma login_st_reinit : rel same_login (st_reinit P).
Proof.
  unfold st_reinit, aci_reset, default_token_info, init_pin_flags.
  pose proof (rel_dbwrite same_login (fun _ _ _ => eq_refl) (fun _ _ => eq_refl)) as H1.
  pose proof (fun A => rel_dbread same_login (fun _ _ _ => eq_refl) (A:=A)) as H2.
  pose proof (rel_draw same_login (fun _ _ => eq_refl)) as H3.
  assert (forall u p, rel same_login (key_to_user_data P u p)) as H4.
  { intros. apply rel_key_to_user_data; try apply _; done. }
  rel_tac; apply rel_modify; done.
Qed.
Lemma login_objects_init : rel same_login (internal_objects_init P).
Proof. apply rel_internal_objects_init; try apply _; done. Qed.
Lemma login_set_pin ut pin old : rel same_login (tk_set_pin P ut pin old).
Proof. eapply rel_mono; [|apply quiet_set_pin]. intros s s' H. apply H. Qed.

Lemma tk_initialize_spec pin label t :
  wp (tk_initialize P pin label) t (fun t' r => t_logged t' = t_logged t \/ t_logged t' = KRY_UNSPEC).
Proof.
  unfold tk_initialize. wp_step. wp_step. wp_step.
  assert (wp (if tk_initialized t then tk_auth_user P CKU_SO pin true else skip) t
    (fun t' _ => t_logged t' = t_logged t)) as H1.
  { wp_step; [|wp_step; done]. pose proof (quiet_auth_check CKU_SO pin t) as H. apply H. }
  eapply wp_mono; [exact H1|]. cbv beta. intros t1 [[]|e] Hl; cbv beta iota; [|auto].
  assert (rel same_login (
    let! i := st_reinit P in
    let! r := attempt (tk_set_pin P CKU_SO pin []) in
    (match r with Ok _ => skip | Err e => if e =? CKR_USER_TYPE_INVALID then skip else fail e end);;;
    let i' := TokenInfo (copy_sized_string label (ti_label i)) (ti_serial i) (ti_flags i) in
    dbwrite (fun _ => Ok (store_info_stmts i'));;;
    modify (fill_token_info i');;;
    st_unauth_user CKU_SO;;;
    internal_objects_init P)) as H.
  { pose proof login_st_reinit. pose proof login_objects_init. pose proof login_set_pin.
    pose proof (rel_dbwrite same_login (fun _ _ _ => eq_refl) (fun _ _ => eq_refl)) as H4.
    assert (forall u, rel same_login (st_unauth_user u)). { intros. eapply rel_mono; [|apply quiet_unauth]. intros s s' H5. apply H5. }
    rel_tac; apply rel_modify; done. }
  wp_step. wp_step. wp_step. wp_step. wp_step. wp_step. right.
  exact (H (set_logged KRY_UNSPEC (set_sobjs ∅ (set_handles handles_new t1)))).
Qed.

Lemma token_new_login d ios fresh : t_logged (fst (token_new P d ios fresh)) = KRY_UNSPEC.
Proof.
  unfold token_new. change KRY_UNSPEC with (t_logged (token_blank d ios fresh)).
  generalize (token_blank d ios fresh).
  match goal with |- forall t, t_logged (fst (?m t)) = _ => change (rel same_login m) end.
  unfold st_open, init_pin_flags.
  pose proof (fun A => rel_dbread same_login (fun _ _ _ => eq_refl) (A:=A)) as H2.
  pose proof (rel_io same_login (fun _ _ _ => eq_refl)) as H3.
  pose proof login_objects_init.
  rel_tac; apply rel_modify; done.
Qed.
End generic.

Section inv.
Context (B : backend).
Notation world := (world B). Notation session := (session B). Notation slot := (slot B).

(* The read/write mode of a session never changes and its state agrees with it. *)
Definition rw (s : session) : bool := has_flag (s_flags s) CKF_RW_SESSION.
Definition state_ok (s : session) : Prop :=
  has_flag (s_flags s) CKF_SERIAL_SESSION = true /\
  if rw s then s_state s = CKS_RW_PUBLIC_SESSION \/ s_state s = CKS_RW_USER_FUNCTIONS \/ s_state s = CKS_RW_SO_FUNCTIONS
  else s_state s = CKS_RO_PUBLIC_SESSION \/ s_state s = CKS_RO_USER_FUNCTIONS.

Definition session_ok (next : N) (smap : gmap N N) (sid h : N) (s : session) : Prop :=
  s_slot s = sid /\ smap !! h = Some sid /\ 0 < h < next /\ state_ok s.
Record slot_ok (next : N) (smap : gmap N N) (sid : N) (sl : slot) : Prop := SlotOk {
  so_sessions : forall h s, sl_sessions sl !! h = Some s -> session_ok next smap sid h s;
  so_logged : t_logged (sl_token sl) = KRY_UNSPEC \/ t_logged (sl_token sl) = CKU_SO \/ t_logged (sl_token sl) = CKU_USER;
  so_none : sl_sessions sl = ∅ -> t_logged (sl_token sl) = KRY_UNSPEC;
  so_some : sl_sessions sl <> ∅ -> tk_initialized (sl_token sl) = true;
  so_so : t_logged (sl_token sl) = CKU_SO -> forall h s, sl_sessions sl !! h = Some s -> rw s = true }.
Record sess_inv (w : world) : Prop := SessInv {
  si_slots : forall sid sl, w_slots w !! sid = Some sl -> slot_ok (w_next w) (w_smap w) sid sl;
  si_smap : forall h sid, w_smap w !! h = Some sid ->
              exists sl s, w_slots w !! sid = Some sl /\ sl_sessions sl !! h = Some s;
  si_off : w_next w = 0 -> w_slots w = ∅ }.

Definition ses_quiet (a b : session) : Prop := s_slot b = s_slot a /\ s_state b = s_state a /\ s_flags b = s_flags a.
Global Instance ses_quiet_pre : PreOrder ses_quiet.
Proof. split; [done|]. intros a b c (?&?&?) (?&?&?). split_and!; congruence. Qed.

Lemma forall2_lookup_r {K A} `{Countable K} (R : A -> A -> Prop) (m1 m2 : gmap K A) i y :
  (forall i, option_Forall2 R (m1 !! i) (m2 !! i)) -> m2 !! i = Some y -> exists x, m1 !! i = Some x /\ R x y.
Proof. intros Hf Hy. specialize (Hf i). rewrite Hy in Hf. inversion Hf. eauto. Qed.
Lemma forall2_lookup_l {K A} `{Countable K} (R : A -> A -> Prop) (m1 m2 : gmap K A) i x :
  (forall i, option_Forall2 R (m1 !! i) (m2 !! i)) -> m1 !! i = Some x -> exists y, m2 !! i = Some y /\ R x y.
Proof. intros Hf Hy. specialize (Hf i). rewrite Hy in Hf. inversion Hf. eauto. Qed.
Lemma forall2_empty {K A} `{Countable K} (R : A -> A -> Prop) (m1 m2 : gmap K A) :
  (forall i, option_Forall2 R (m1 !! i) (m2 !! i)) -> m1 = ∅ <-> m2 = ∅.
Proof.
  intros Hf. split; intros ->; apply map_eq; intros i; specialize (Hf i); rewrite lookup_empty in *; by inversion Hf.
Qed.

(* A slot whose token and sessions changed quietly. *)
Lemma slot_ok_quiet next smap sid a b : slot_rel B tok_quiet ses_quiet a b -> slot_ok next smap sid a -> slot_ok next smap sid b.
Proof.
  intros [[Hl Hi _ _] _ Hs] [H1 H2 H3 H4 H5]. pose proof (forall2_empty _ _ _ Hs) as He. split.
  - intros h s Hh. destruct (forall2_lookup_r _ _ _ _ _ Hs Hh) as (s0 & Hh0 & (E1 & E2 & E3)).
    destruct (H1 _ _ Hh0) as (A1 & A2 & A3 & A4). unfold session_ok, state_ok, rw in *. rewrite E1, E2, E3. done.
  - by rewrite Hl.
  - rewrite Hl. intros ?. apply H3. tauto.
  - rewrite Hi. intros ?. apply H4. tauto.
  - rewrite Hl. intros Hso h s Hh. destruct (forall2_lookup_r _ _ _ _ _ Hs Hh) as (s0 & Hh0 & (E1 & E2 & E3)).
    unfold rw. rewrite E3. by apply (H5 Hso h).
Qed.
Lemma inv_quiet w w' : world_rel B tok_quiet ses_quiet w w' -> sess_inv w -> sess_inv w'.
Proof.
  intros [Hs Hm Hn _] [H1 H2 H3]. split.
  - intros sid sl Hsl. destruct (forall2_lookup_r _ _ _ _ _ Hs Hsl) as (sl0 & Hsl0 & Hr).
    rewrite Hm, Hn. eapply slot_ok_quiet; eauto.
  - intros h sid. rewrite Hm. intros Hh. destruct (H2 _ _ Hh) as (sl & s & Hsl & Hss).
    destruct (forall2_lookup_l _ _ _ _ _ Hs Hsl) as (sl' & Hsl' & Hr).
    destruct (forall2_lookup_l _ _ _ _ _ (sr_sessions _ _ _ _ _ Hr) Hss) as (s' & Hs' & _). eauto.
  - rewrite Hn. intros Hz. apply (forall2_empty _ _ _ Hs). auto.
Qed.
Lemma quiet_call_rel P E c w : quiet_call c = true -> world_rel B tok_quiet ses_quiet w (fst (api P B E c w)).
Proof. intros Hc. apply rel_api; try apply _; done. Qed.
Lemma quiet_disturb sid l w : world_rel B tok_quiet ses_quiet w (disturb B sid l w).
Proof.
  split; [|done..]. intros i. cbn. destruct (decide (i = sid)) as [->|Hne].
  - rewrite lookup_alter. destruct (w_slots w !! sid) as [sl|]; constructor. split; [done|done|].
    intros h. cbn. destruct (sl_sessions sl !! h); by constructor.
  - rewrite lookup_alter_ne by done. destruct (w_slots w !! i) as [sl|]; by constructor.
Qed.
Lemma quiet_init_pin P h pin w : world_rel B tok_quiet ses_quiet w (fst (c_init_pin P B h pin w)).
Proof.
  revert w. change (rel (world_rel B tok_quiet ses_quiet) (c_init_pin P B h pin)).
  unfold c_init_pin.
  pose proof (rel_lock B tok_quiet ses_quiet). pose proof (rel_token_of_session B tok_quiet ses_quiet).
  pose proof (rel_get_slot B tok_quiet ses_quiet). pose proof (rel_ok B tok_quiet ses_quiet).
  pose proof (fun A => rel_tok B tok_quiet ses_quiet (A:=A)).
  assert (forall u n o, rel tok_quiet (tk_set_pin P u n o)) by apply quiet_set_pin.
  rel_tac.
Qed.

(* Changing one slot, sessions and tables as before. *)
Lemma inv_with_slot w sid sl sl' :
  sess_inv w -> w_slots w !! sid = Some sl ->
  (forall h, is_Some (sl_sessions sl !! h) <-> is_Some (sl_sessions sl' !! h)) ->
  slot_ok (w_next w) (w_smap w) sid sl' -> sess_inv (with_slot B sid sl' w).
Proof.
  intros [H1 H2 H3] Hsl Hdom Hok. split; cbn.
  - intros i x. destruct (decide (i = sid)) as [->|Hne].
    + rewrite lookup_insert. intros ?. by simplify_eq.
    + rewrite lookup_insert_ne by done. apply H1.
  - intros h i Hh. destruct (H2 h i Hh) as (x & s & Hx & Hs). destruct (decide (i = sid)) as [->|Hne].
    + rewrite lookup_insert. simplify_eq. destruct (proj1 (Hdom h)) as [s' Hs']; eauto.
    + rewrite lookup_insert_ne by done. eauto.
  - intros Hz. specialize (H3 Hz). rewrite H3 in Hsl. by rewrite lookup_empty in Hsl.
Qed.
End inv.
