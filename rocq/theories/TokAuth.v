(* Logins, PINs, initialisation: the elementary steps they consist of. *)
From Verif Require Import Base Monad Hoare Attr Obj Factory Tables Create Sqlite Storage Token Rows ObjOk ObjNew Triple TokInv TokStep TokWp.

Section auth.
Context (P : params) (Hfs : p_fs P = all_factories) (K : kind -> Prop) (Kq : K (KQuiet LCalm)).
Notation R := (tsteps P K).
Notation hs := (hs tok_ok R).
Notation any := (fun _ => True).

Ltac q_step :=
  lazymatch goal with
  | |- hs (mbind _ _) _ => eapply (hs_bind _ _ _ _ any); [ |intros ? _]
  | |- hs (ret _) _ => apply hs_ret; [apply _|done]
  | |- hs (fail _) _ => apply hs_fail; apply _
  | |- hs skip _ => apply hs_skip; [apply _|done]
  | |- hs (ensure _ _) _ => apply hs_ensure; [apply _|done]
  | |- hs (lift _) _ => apply hs_lift; [apply _|done]
  | |- hs (gets _) _ => apply hs_gets; [apply _|done]
  | |- hs (attempt _) _ => eapply (hs_attempt _ _ _ any); [ |done]
  | |- hs (modify _) _ => first [apply hs_log; [assumption|assumption|intros []; unfold log_fields; cbn; solve [auto 12]]|apply hs_quiet; [assumption|assumption|intros []; done]]
  | |- hs draw _ => apply hs_draw; [assumption|assumption]
  | |- hs io _ => apply hs_io; [assumption|assumption]
  | |- hs (dbread _) _ => eapply hs_any, hs_dbread; [assumption|assumption]
  | |- hs (let _ := _ in _) _ => cbv zeta
  | |- hs (if ?b then _ else _) _ => destruct b
  | |- hs (match ?x with _ => _ end) _ => destruct x
  end.
Ltac q_tac := repeat first [solve [auto with triple nocore] | q_step].
Lemma hs_st_unauth_user ut : K (KQuiet LLog) -> hs (st_unauth_user ut) any.
Proof. intros Kl. unfold st_unauth_user. q_tac. Qed.
Lemma hs_tk_logout : K (KQuiet LLog) -> K (KDrop private_sel) -> hs tk_logout any.
Proof.
  intros Kl Kd. pose proof (fun ut => hs_st_unauth_user ut Kl). assert (hs (modify clear_private_session_objects) any) by (by apply (hs_drop P Hfs K private_sel)). unfold tk_logout. q_tac.
Qed.
Context (Ka : K (KQuiet LAll)) (Kl : K (KQuiet LLog)).
Lemma hs_unauth ut : hs (st_unauth_user ut) any. Proof. by apply hs_st_unauth_user. Qed.
Lemma hs_info' i : hs (dbwrite (fun _ => Ok (store_info_stmts i))) any. Proof. by apply hs_info. Qed.
Lemma hs_user' u i : hs (dbwrite (fun _ => store_user_stmts u i)) any. Proof. by apply hs_user. Qed.
Local Hint Resolve hs_info' hs_user' : triple.
Lemma hs_aci_authenticate u i pin b : hs (aci_authenticate P u i pin b) any.
Proof. unfold aci_authenticate. q_tac. Qed.
Local Hint Resolve hs_aci_authenticate : triple.
Lemma hs_st_auth_user ut pin b : hs (st_auth_user P ut pin b) any.
Proof. unfold st_auth_user. q_tac. Qed.
Local Hint Resolve hs_st_auth_user : triple.
Lemma quiet_auth_flags ut fl t : t_handles (update_auth_flags ut fl t) = t_handles t /\ t_sobjs (update_auth_flags ut fl t) = t_sobjs t /\
  d_objs (t_db (update_auth_flags ut fl t)) = d_objs (t_db t) /\ t_dedup (update_auth_flags ut fl t) = t_dedup t /\ t_filter (update_auth_flags ut fl t) = t_filter t.
Proof. unfold update_auth_flags. destruct (_ =? _); [done|]. destruct (_ =? _); done. Qed.
Lemma hs_auth_flags ut fl : hs (modify (update_auth_flags ut fl)) any.
Proof. apply hs_quiet; [assumption|assumption|]. apply quiet_auth_flags. Qed.
Local Hint Resolve hs_auth_flags : triple.
Lemma hs_tk_auth_user ut pin b : hs (tk_auth_user P ut pin b) any.
Proof. unfold tk_auth_user. q_tac. Qed.
Local Hint Resolve hs_tk_auth_user : triple.
Lemma hs_key_to_user_data u pin : hs (key_to_user_data P u pin) any.
Proof. unfold key_to_user_data. q_tac. Qed.
Local Hint Resolve hs_key_to_user_data : triple.
Lemma hs_set_user_pin u pin : hs (set_user_pin P u pin) any.
Proof. unfold set_user_pin. q_tac. Qed.
Local Hint Resolve hs_set_user_pin : triple.
Lemma hs_tk_set_pin ut pin old : hs (tk_set_pin P ut pin old) any.
Proof. unfold tk_set_pin. q_tac. Qed.
Local Hint Resolve hs_tk_set_pin : triple.
Lemma hs_tk_login ut pin : hs (tk_login P ut pin) any.
Proof. unfold tk_login. q_tac. Qed.
Local Hint Resolve hs_unauth : triple.
Lemma hs_init_pin_flags : hs init_pin_flags any.
Proof. unfold init_pin_flags. q_tac. Qed.
Local Hint Resolve hs_init_pin_flags : triple.
Lemma hs_st_open : hs st_open any.
Proof. unfold st_open. q_tac. Qed.
Lemma hs_reset : K KReset -> hs (dbwrite (fun _ => Ok reset_stmts)) any.
Proof.
  intros Kr. apply hs_tok; [done|]. intros t Ht. apply wp_dbwrite; intros; (split; [|done]); [|by apply R_io]. simplify_eq. transitivity (set_io i t); [by apply R_io|].
  eapply tsteps_one; [exact Kr|]. apply (ts_reset_db P (set_io i t)).
Qed.
Lemma hs_st_reinit : K KReset -> hs (st_reinit P) any.
Proof. intros Kr. pose proof (hs_reset Kr). unfold st_reinit, aci_reset, default_token_info. q_tac. Qed.
Lemma hs_tk_initialize pin label : K KReset -> K KHandle -> K (KSadd false CK_INVALID_HANDLE) -> hs (tk_initialize P pin label) any.
Proof.
  intros Kr Kh Ks. pose proof (hs_st_reinit Kr). assert (hs (internal_objects_init P) any) by (by apply hs_internal_objects_init).
  assert (hs (modify (fun t => set_sobjs ∅ (set_handles handles_new t))) any) as Hm.
  { apply hs_tok; [done|]. intros t Ht. apply wp_modify. split; [|done]. eapply tsteps_one; [exact Kr|]. constructor. }
  assert (forall A (k : M token A), hs k any -> hs (modify (set_handles handles_new);;; (modify (set_sobjs ∅);;; k)) any) as Hm2.
  { intros A k Hk t Ht. specialize (Hm t Ht). destruct Hm as (M1 & M2 & _). cbn [modify fst snd] in M1, M2.
    specialize (Hk _ M1). destruct Hk as (K1 & K2 & K3). unfold mbind, modify. cbv beta iota. split_and!; try done. by etransitivity. }
  unfold tk_initialize. q_step; [q_tac|]. q_step; [q_tac|]. apply Hm2. q_tac.
Qed.
End auth.

(* A token opened on a good database. *)
Lemma blank_ok d ios n : db_ok d -> tok_ok (token_blank d ios n).
Proof.
  intros H. split; cbn; try done; intros; try (by rewrite lookup_empty in * ).
Qed.
(* Opening a token adds the builtin objects only. *)
Definition opening (k : kind) : Prop := match k with KQuiet _ | KHandle | KSadd false _ => True | _ => False end.
Lemma token_new_steps P d ios n : p_fs P = all_factories -> db_ok d ->
  tok_ok (fst (token_new P d ios n)) /\ tsteps P opening (token_blank d ios n) (fst (token_new P d ios n)).
Proof.
  intros Hfs Hd. assert (hs tok_ok (tsteps P opening) (
    let! i := attempt (st_open) in
   (match i with
    | Ok i => modify (fill_token_info i)
    | Err e => if e =? CKR_CRYPTOKI_NOT_INITIALIZED then
                 modify (fun t => let t' := fill_token_info info_default t in
                                  set_flags (N.ldiff (t_flags t') CKF_TOKEN_INITIALIZED) t')
               else fail e
    end);;;
   internal_objects_init P) (fun _ => True)) as H.
  { eapply hs_bind; [apply _|eapply (hs_attempt _ _ _ (fun _ => True) (fun _ => True)); [by apply hs_st_open|done]|]. intros i _.
    eapply (hs_bind _ _ _ _ (fun _ => True)).
    - destruct i; [|destruct (_ =? _)]; first [apply hs_fail; apply _|apply hs_quiet; [assumption|done|intros []; done]].
    - intros _ _. by apply hs_internal_objects_init. }
  unfold token_new. destruct (H (token_blank d ios n) (blank_ok d ios n Hd)) as (H1 & H2 & _). by split.
Qed.
Lemma token_new_ok P d ios n : p_fs P = all_factories -> db_ok d -> tok_ok (fst (token_new P d ios n)).
Proof. intros H1 H2. by apply token_new_steps. Qed.
