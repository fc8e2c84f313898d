(* What C_InitToken leaves of a token. *)
From Verif Require Import Base Monad Hoare Attr Obj Factory Tables Create Sqlite Storage Token Backend State Api
  ObjSpec PlainSpec Errors Rows ObjOk ObjNew TokInv TokStep TokenFrame Spec WorldWp Sessions SessionInv SessionFacts ObjWorld ObjFacts AuthSpec Users AuthFacts AuthInv.

Section init.
Context (P : params) (Hfs : p_fs P = all_factories).
Lemma builtin_class m o : builtin_mech P m = Ok o ->
  exists a, get_attr o CKA_CLASS = Some a /\ attr_to_ulong a = Ok CKO_MECHANISM /\ is_token o = false.
Proof.
  unfold builtin_mech. rewrite Hfs. generalize (stable_uid CKO_MECHANISM m). generalize (le64 m) as b. intros b uid.
  destruct (get_factory all_factories (CKO_MECHANISM, 0)) as [f|] eqn:Hf; [|done]. vm_compute in Hf. injection Hf as <-. cbn [rbind].
  unfold internal_object_create, ca. cbn -[from_ck_attr].
  destruct (from_ck_attr _) as [a|] eqn:Ha; [|done]. cbn.
  assert (a_type a = CKA_MECHANISM_TYPE) as Hty.
  { apply from_ck_kind in Ha as [_ Ha]. exact Ha. }
  destruct a as [ty kd v]. cbn [a_type] in Hty. subst ty. unfold has_attr, push_attr, generate_unique. cbn. intros X. injection X as <-. eexists. split; [reflexivity|]. by split.
Qed.

(* Only the token's own descriptions of mechanisms have handles, and no object is stored. *)
Definition own_object (h : N) (o : object) : Prop := exists m o0, builtin_mech P m = Ok o0 /\ o = set_session (set_handle o0 h) CK_INVALID_HANDLE.
Definition only_own (t : token) : Prop :=
  (forall h o, t_sobjs t !! h = Some o -> own_object h o) /\ (forall h u, h_map (t_handles t) !! h = Some u -> exists o, t_sobjs t !! h = Some o).
Definition erased (t : token) : Prop := only_own t /\ d_objs (t_db t) = ∅.
(* Steps that do not touch objects and handles. *)
Definition same_objs (t t' : token) : Prop := t_handles t' = t_handles t /\ t_sobjs t' = t_sobjs t /\ d_objs (t_db t') = d_objs (t_db t).
Global Instance same_objs_pre : PreOrder same_objs.
Proof. split; [done|]. intros a b c (A1 & A2 & A3) (B1 & B2 & B3). split_and!; congruence. Qed.
Lemma own_same t t' : same_objs t t' -> only_own t -> only_own t'.
Proof. intros (H1 & H2 & _) [O1 O2]. split; rewrite ?H1, H2; done. Qed.
Lemma erased_same t t' : same_objs t t' -> erased t -> erased t'.
Proof. intros H [H1 H2]. split; [by eapply own_same|]. destruct H as (_ & _ & ->). done. Qed.

Lemma so_put_user d u i : d_objs (put_user d u i) = d_objs d.
Proof. done. Qed.
Lemma so_user u i : rel same_objs (dbwrite (fun _ => store_user_stmts u i)).
Proof. intros t. apply (wp_dbwrite' _ t (fun t' _ => same_objs t t')); [|done|done]. intros j l Hj Hl. split_and!; try done. cbn [t_db set_db]. by rewrite (store_user_ok _ _ _ _ Hl). Qed.
Lemma so_info i : rel same_objs (dbwrite (fun _ => Ok (store_info_stmts i))).
Proof. intros t. apply (wp_dbwrite' _ t (fun t' _ => same_objs t t')); [|done|done]. intros j l Hj Hl. injection Hl as <-. by split_and!. Qed.
Lemma so_dbread {A} (f : db -> result A) : rel same_objs (dbread f).
Proof. apply rel_dbread; try apply _. done. Qed.
Lemma so_draw : rel same_objs draw.
Proof. by apply rel_draw. Qed.
Lemma so_key_data u pin : rel same_objs (key_to_user_data P u pin).
Proof. unfold key_to_user_data. pose proof so_draw. rel_tac. Qed.
Lemma so_default : rel same_objs (default_token_info P).
Proof. unfold default_token_info. pose proof so_info. pose proof so_draw. rel_tac. Qed.
Lemma so_flags : rel same_objs init_pin_flags.
Proof. unfold init_pin_flags. pose proof (fun A => @so_dbread A). rel_tac. Qed.
Lemma so_unauth u : rel same_objs (st_unauth_user u).
Proof. unfold st_unauth_user. pose proof (fun A => @so_dbread A). rel_tac. by apply rel_modify. Qed.
Lemma so_aci u i pin b : rel same_objs (aci_authenticate P u i pin b).
Proof. unfold aci_authenticate. rel_tac; by apply rel_modify. Qed.
Lemma so_auth ut pin b : rel same_objs (st_auth_user P ut pin b).
Proof. unfold st_auth_user. pose proof (fun A => @so_dbread A). pose proof so_aci. pose proof so_user. rel_tac. Qed.
Lemma so_tk_auth ut pin b : rel same_objs (tk_auth_user P ut pin b).
Proof.
  unfold tk_auth_user. pose proof so_auth. rel_tac; [|by apply rel_modify..]. apply rel_modify. intros t. unfold update_auth_flags. by destruct (ut =? CKU_USER), (ut =? CKU_SO).
Qed.
Lemma so_set_so pin : rel same_objs (tk_set_pin P CKU_SO pin []).
Proof.
  unfold tk_set_pin, set_user_pin. pose proof so_tk_auth. pose proof so_key_data. pose proof so_user. rel_tac. by apply rel_modify.
Qed.

Lemma erased_insert m o t : builtin_mech P m = Ok o -> only_own t -> wp (insert_object P CK_INVALID_HANDLE o) t (fun t' _ => only_own t' /\ t_db t' = t_db t).
Proof.
  intros Ho [O1 O2]. unfold insert_object. destruct (builtin_class m o Ho) as (_ & _ & _ & ->). cbv iota.
  apply wp_bind. unfold h_fresh, wp at 1. cbn [fst snd]. apply wp_bind, wp_lift. set (h := h_next (t_handles t)).
  assert (only_own (set_handles (Handles (h_map (t_handles t)) (h + 1)) t)) as H1 by done.
  destruct (get_string _ _) as [uid|e]; [|done]. apply wp_bind. unfold h_insert, wp at 1. cbn [fst snd t_handles set_handles h_map h_next].
  destruct (h_map (t_handles t) !! h); [done|]. destruct (uid_handle _ uid); [done|]. cbn [fst snd]. apply wp_bind, wp_modify, wp_ret. split; [|done]. split; cbn [t_sobjs set_sobjs t_handles set_handles h_map].
  - intros h' o' Hl. destruct (decide (h' = h)) as [->|Hne].
    + rewrite lookup_insert in Hl. injection Hl as <-. exists m, o. done.
    + rewrite lookup_insert_ne in Hl by done. by apply O1.
  - intros h' u Hl. destruct (decide (h' = h)) as [->|Hne]; [rewrite lookup_insert; eauto|]. rewrite lookup_insert_ne in Hl by done. rewrite lookup_insert_ne by done. by eapply O2.
Qed.
Lemma erased_builtins l : forall t, only_own t -> wp (builtins P l) t (fun t' _ => only_own t' /\ t_db t' = t_db t).
Proof.
  induction l as [|[m fl] l IH]; intros t H; cbn [builtins]; [by apply wp_skip|]. apply wp_bind, wp_lift. destruct (builtin_mech P m) as [o|] eqn:Ho; [|done].
  apply wp_bind. eapply wp_mono; [by eapply erased_insert|]. cbv beta. intros t1 r [H1 H2]. destruct r; [|done]. eapply wp_mono; [by apply IH|]. cbv beta. intros t2 r2 [H3 H4]. split; [done|congruence].
Qed.

(* C_InitToken on the token: when it succeeds all objects are gone; if the PIN is refused nothing is. *)
Lemma init_erases pin label t : wp (tk_initialize P pin label) t (fun t' r => r = Ok tt -> erased t').
Proof.
  unfold tk_initialize. apply wp_bind, wp_gets, wp_bind, wp_any. intros t1 [[]|]; [|done].
  apply wp_bind, wp_modify, wp_bind, wp_modify, wp_bind, wp_modify. set (t2 := set_logged _ _).
  assert (only_own t2) as H2 by (split; intros h x; cbn; by rewrite lookup_empty). clearbody t2. clear t1.
  unfold st_reinit. apply wp_bind, wp_bind, wp_dbwrite'; [|done|done]. intros j l _ Hl. injection Hl as <-.
  set (t3 := set_db _ _). assert (erased t3) as H3 by (split; [exact H2|done]). clearbody t3. clear t2 H2.
  assert (forall A (m : M token A) t (Q : token -> result A -> Prop), rel same_objs m -> erased t -> (forall t' a, erased t' -> Q t' (Ok a)) -> (forall t' e, Q t' (Err e)) -> wp m t Q) as Hs.
  { intros A m t0 Q Hm He Q1 Q2. apply (wp_rel same_objs); [done|]. intros t' r Hr. destruct r; [|done]. apply Q1. by eapply erased_same. }
  apply wp_bind. eapply Hs; [unfold aci_reset; pose proof so_draw; rel_tac; by apply rel_modify|done| |done]. clear H3 t3. intros t4 [] H4.
  apply wp_bind. eapply Hs; [pose proof so_key_data; pose proof so_user; rel_tac|done| |done]. clear H4 t4. intros t4 [] H4.
  apply wp_bind. eapply Hs; [apply so_default|done| |done]. clear H4 t4. intros t4 i H4.
  apply wp_bind. eapply Hs; [apply so_flags|done| |done]. clear H4 t4. intros t4 fl H4. apply wp_ret.
  apply wp_bind, wp_attempt. apply (wp_rel same_objs); [apply so_set_so|]. intros t5 r5 H5. apply (erased_same _ _ H5) in H4. clear H5 t4. rename t5 into t4.
  apply wp_bind. eapply Hs; [destruct r5; rel_tac|done| |done]. clear H4 t4. intros t4 [] H4. cbv zeta.
  apply wp_bind. eapply Hs; [apply so_info|done| |done]. clear H4 t4. intros t4 [] H4.
  apply wp_bind, wp_modify. set (t5 := fill_token_info _ _). assert (erased t5) as H5 by exact H4. clearbody t5. clear H4 t4.
  apply wp_bind. eapply Hs; [apply so_unauth|done| |done]. clear H5 t5. intros t5 [] H5.
  unfold internal_objects_init. apply wp_bind, wp_gets. eapply wp_mono; [apply erased_builtins, H5|]. cbv beta. intros t6 r6 [H6 H7] _. split; [done|]. rewrite H7. apply H5.
Qed.

Context (B : backend) (E : N -> keyenv) (HS : sane (fun e => plain_code e = true) P B E).
Lemma init_refused pin label t : wp (tk_initialize P pin label) t (fun t' r => same_objs t t' \/ okerr (fun e => plain_code e = true) r).
Proof.
  unfold tk_initialize. apply wp_bind, wp_gets, wp_bind. apply (wp_rel same_objs); [destruct (tk_initialized t); [apply so_tk_auth|rel_tac]|].
  intros t1 r Hr. destruct r as [[]|e]; [|by left].
  match goal with |- wp ?m _ _ => assert (errs (fun e => plain_code e = true) m) as Hm end.
  { do 3 (apply errs_bind; [apply errs_modify|intros _]). apply errs_bind; [by eapply er_reinit|intros i]. apply (er_init_tail P B E HS pin label i). }
  eapply wp_mono; [apply (wp_errs _ _ _ (fun _ _ => True) Hm); done|]. cbv beta. tauto.
Qed.
End init.

Section world.
Context (P : params) (B : backend) (E : N -> keyenv) (Hfs : p_fs P = all_factories) (Hutf : forall n, utf8_valid (p_uuid P n) = true).
Context (HL : pin_laws P) (HS : sane (fun e => plain_code e = true) P B E).
Notation world := (world B). Notation winv := (winv B). Notation token_of := (token_of B). Notation after := (after P B E). Notation rv := (rv P B E).

(* C_InitToken on the world, for any description of what it does to the token. *)
Lemma init_token_run w sid pin label t (Q0 : token -> result unit -> Prop) : winv w -> token_of w sid = Some t ->
  wp (tk_initialize P (default [] pin) (default (repeat 0x20 32%nat) label)) t Q0 ->
  after w (InitToken sid pin label) = w /\ rv w (InitToken sid pin label) = CKR_SESSION_EXISTS \/
  exists t' r, token_of (after w (InitToken sid pin label)) sid = Some t' /\ Q0 t' r /\ rv w (InitToken sid pin label) = match r with Ok _ => CKR_OK | Err e => init_code e end.
Proof.
  intros [Hw HI] Ht HQ. unfold Spec.token_of in Ht. destruct (w_slots w !! sid) as [sl|] eqn:Hsl; [|done]. cbn in Ht. injection Ht as Ht.
  assert (w_next w <> 0) as Hn by (intros Hz; by rewrite (si_off _ _ HI Hz), lookup_empty in Hsl).
  set (Q := fun (w' : world) (r : result (N * out)) => w' = w /\ code r = CKR_SESSION_EXISTS \/
    exists t' r1, holds_tok B sid t' w' /\ Q0 t' r1 /\ code r = match r1 with Ok _ => CKR_OK | Err e => init_code e end).
  assert (wp (c_init_token P B sid pin label) w Q) as Hwp.
  2: { unfold Spec.token_of, Spec.after. rewrite run_step, rv_code. cbn [api]. unfold wp in Hwp.
       destruct Hwp as [[-> H]|(t' & r & (_ & sl' & Hsl' & Ht') & H1 & H2)]; [left; done|right]. exists t', r. rewrite Hsl'. cbn. split_and!; [congruence|done|done]. }
  assert (holds_tok B sid t w) as Hh by (split; eauto).
  unfold c_init_token. eapply wp_bind, wp_eq; [by apply lock_eq|]. eapply wp_bind, wp_get_slot_eq; [done|done|].
  apply wp_bind, wp_ensure; [intros _|intros _; left; done]. cbv zeta. fold (default [] pin). change (match label with Some l => l | None => repeat 32 32 end) with (default (repeat 0x20 32%nat) label).
  apply wp_bind, wp_attempt. eapply wp_htok; [exact Hh|]. eapply wp_mono; [exact HQ|]. cbv beta.
  intros t' r Hin w' Hw' _ _. destruct r as [[]|e]; [apply wp_ok; right; exists t', (Ok tt); by eauto|].
  assert (Q w' (Err (init_code e))) as HQ' by (right; exists t', (Err e); eauto).
  unfold init_code, pin_code in HQ'. destruct (e =? CKR_PIN_LOCKED), (e =? CKR_PIN_INCORRECT), (e =? CKR_PIN_INVALID), (e =? CKR_PIN_EXPIRED); cbn [orb] in *; apply wp_fail; done.
Qed.
End world.
