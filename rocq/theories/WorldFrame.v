(* What the API functions leave alone: the relations of TokenFrame.v lifted to the whole module state. *)
From Verif Require Import Base Monad Hoare Attr Obj Factory Tables Create Sqlite Storage Token Backend State Api TokenFrame.

Section frame.
Context (P : params) (B : backend) (E : N -> keyenv).
Notation world := (world B). Notation session := (session B). Notation slot := (slot B).

Section wrel.
Context (RT : token -> token -> Prop) (RS : session -> session -> Prop) {HT : PreOrder RT} {HS : PreOrder RS}.

Record slot_rel (a b : slot) : Prop := SlotRel {
  sr_token : RT (sl_token a) (sl_token b);
  sr_disk : sl_disk b = sl_disk a;
  sr_sessions : forall h, option_Forall2 RS (sl_sessions a !! h) (sl_sessions b !! h) }.
Record world_rel (a b : world) : Prop := WorldRel {
  wr_slots : forall i, option_Forall2 slot_rel (w_slots a !! i) (w_slots b !! i);
  wr_smap : w_smap b = w_smap a;
  wr_next : w_next b = w_next a;
  wr_disks : w_disks b = w_disks a }.

Global Instance slot_rel_pre : PreOrder slot_rel.
Proof.
  split.
  - intros a. split; [reflexivity|done|]. intros h. destruct (sl_sessions a !! h); constructor; reflexivity.
  - intros a b c [H1 H2 H3] [H4 H5 H6]. split; [by etransitivity|congruence|]. intros h.
    specialize (H3 h). specialize (H6 h).
    destruct (sl_sessions a !! h), (sl_sessions b !! h), (sl_sessions c !! h); inversion H3; inversion H6; subst;
      constructor; by etransitivity.
Qed.
Global Instance world_rel_pre : PreOrder world_rel.
Proof.
  split.
  - intros a. split; [|done..]. intros i. destruct (w_slots a !! i); constructor; reflexivity.
  - intros a b c [H1 H2 H3 H4] [H5 H6 H7 H8]. split; [|congruence..]. intros i.
    specialize (H1 i). specialize (H5 i).
    destruct (w_slots a !! i), (w_slots b !! i), (w_slots c !! i); inversion H1; inversion H5; subst;
      constructor; by etransitivity.
Qed.
Notation R := world_rel.

Lemma put_slot_rel sid sl sl' w : w_slots w !! sid = Some sl -> slot_rel sl sl' -> R w (fst (put_slot B sid sl' w)).
Proof.
  intros H1 H2. split; [|done..]. intros i. cbn. destruct (decide (i = sid)) as [->|Hne].
  - rewrite H1, lookup_insert. by constructor.
  - rewrite lookup_insert_ne by done. destruct (w_slots w !! i); constructor; reflexivity.
Qed.
Lemma rel_get_slot sid : rel R (get_slot B sid).
Proof. unfold get_slot. rel_tac. Qed.
Lemma get_slot_ok sid w w' sl : get_slot B sid w = (w', Ok sl) -> w' = w /\ w_slots w !! sid = Some sl /\ w_next w <> 0.
Proof.
  unfold get_slot. intros H. apply bind_ok in H as (b & w1 & H1 & H).
  cbv [gets] in H1. simplify_eq. apply bind_ok in H as (u & w2 & H1 & H).
  apply ensure_ok in H1 as [Hi ->]. apply bind_ok in H as (o & w3 & H1 & H).
  cbv [gets] in H1. simplify_eq. destruct (w_slots _ !! sid); cbv [ret fail] in H; simplify_eq.
  split; [done|]. split; [done|]. unfold initialized in Hi. destruct (N.eqb_spec (w_next w') 0); done.
Qed.
Lemma get_slot_err sid w w' e : get_slot B sid w = (w', Err e) -> w' = w.
Proof.
  unfold get_slot, mbind, gets, ensure, ret, fail. destruct (initialized B w); [|intros; by simplify_eq].
  destruct (w_slots w !! sid); intros; by simplify_eq.
Qed.
Lemma rel_tok {A} sid (m : M token A) : rel RT m -> rel R (Api.tok B sid m).
Proof.
  intros Hm w. unfold Api.tok, State.tok. rewrite run_bind. destruct (get_slot B sid w) as [w1 [sl|e]] eqn:H1.
  - apply get_slot_ok in H1 as (-> & H1 & _). specialize (Hm (sl_token sl)). destruct (m (sl_token sl)) as [t r].
    rewrite run_bind. unfold put_slot at 1, modify, lift. cbn [fst] in *.
    apply (put_slot_rel sid sl (put_token B t sl) w H1). split; [done|done|].
    intros h. cbn. destruct (sl_sessions sl !! h); constructor; reflexivity.
  - apply get_slot_err in H1 as ->. cbn [fst]. reflexivity.
Qed.
Lemma rel_upd_session h f : (forall s, RS s (f s)) -> rel R (upd_session B h f).
Proof.
  intros Hf w. unfold upd_session, session_slot. rewrite !run_bind. unfold gets at 1.
  destruct (w_smap w !! h) as [sid|]; [|reflexivity]. cbv [ret].
  rewrite run_bind. destruct (get_slot B sid w) as [w1 [sl|e]] eqn:H1.
  - apply get_slot_ok in H1 as (-> & H1 & _).
    apply (put_slot_rel sid sl (put_sessions B (alter f h (sl_sessions sl)) sl) w H1). split; [reflexivity|done|].
    intros h'. cbn. destruct (decide (h' = h)) as [->|Hne].
    + rewrite lookup_alter. destruct (sl_sessions sl !! h); constructor; apply Hf.
    + rewrite lookup_alter_ne by done. destruct (sl_sessions sl !! h'); constructor; reflexivity.
  - apply get_slot_err in H1 as ->. cbn [fst]. reflexivity.
Qed.
Local Hint Resolve rel_get_slot : frame.
Lemma rel_lock : rel R (Api.lock B).
Proof. unfold Api.lock, State.lock. rel_tac. Qed.
Lemma rel_session_slot h : rel R (session_slot B h).
Proof. unfold session_slot. rel_tac. Qed.
Local Hint Resolve rel_lock rel_session_slot : frame.
Lemma rel_get_session h : rel R (get_session B h).
Proof. unfold get_session. rel_tac. Qed.
Lemma rel_token_ready sid : rel R (token_ready B sid).
Proof. unfold token_ready. rel_tac. Qed.
Local Hint Resolve rel_get_session rel_token_ready : frame.
Lemma rel_token_of_session h : rel R (token_of_session B h).
Proof. unfold token_of_session. rel_tac. Qed.
Lemma rel_mech_flags sid m : rel R (mech_flags P B sid m).
Proof. unfold mech_flags. rel_tac. Qed.
Lemma rel_ok o : rel R (Api.ok B o).
Proof. unfold Api.ok. rel_tac. Qed.
Lemma rel_failed rv o : rel R (Api.failed B rv o).
Proof. unfold Api.failed. rel_tac. Qed.
Lemma rel_deref {A} (p : option A) : rel R (deref B p).
Proof. unfold deref. rel_tac. Qed.
Lemma rel_ro_check s t : rel R (ro_check B s t).
Proof. unfold ro_check. rel_tac. Qed.
Lemma rel_tmpl_of {A} (t : option (list A)) c : rel R (tmpl_of B t c).
Proof. unfold tmpl_of. rel_tac. Qed.
Local Hint Resolve rel_token_of_session rel_mech_flags rel_ok rel_failed rel_deref rel_ro_check rel_tmpl_of : frame.

(* The functions reading the token. *)
Context (R_io : forall i t, (t_io t = [] -> i = []) -> RT t (set_io i t)) (R_fresh : forall n t, RT t (set_fresh n t)).
Context (S_ops : forall m s, RS s (set_ops B m s)) (S_login : forall l s, RS s (set_login B l s)).
Context (R_db : forall d t, d_tables d = d_tables (t_db t) -> d_meta d = d_meta (t_db t) -> RT t (set_db d t)) (R_hs : forall h t, RT t (set_handles h t)) (R_so : forall m t, RT t (set_sobjs m t)).

Local Hint Resolve rel_tok : frame.
Local Hint Extern 1 (rel RT _) => first
  [apply rel_draw|apply rel_get_object_by_handle|apply rel_get_object_attrs|apply rel_get_object_size
  |apply rel_new_uid|apply rel_search_objects|apply rel_insert_object|apply rel_create_object
  |apply rel_copy_object|apply rel_destroy_object|apply rel_set_object_attrs]; assumption : frame.

Lemma rel_put_op h k o : rel R (upd_session B h (put_op B k o)).
Proof. apply rel_upd_session. intros s. apply S_ops. Qed.
Lemma rel_cancel_op h k : rel R (upd_session B h (cancel_op B k)).
Proof. apply rel_upd_session. intros s. apply S_ops. Qed.
Lemma rel_set_operation h k o n : rel R (upd_session B h (set_operation B k o n)).
Proof. apply rel_upd_session. intros s. unfold set_operation. etransitivity; [apply S_ops|apply S_login]. Qed.
Local Hint Resolve rel_put_op rel_cancel_op rel_set_operation : frame.

Lemma rel_run_op h k c x : rel R (run_op B h k c x).
Proof. unfold run_op. destruct (be_call B c x). rel_tac. Qed.
Lemma rel_len_op h k n f x : rel R (len_op B h k n f x).
Proof. unfold len_op. destruct (be_len B x n f). rel_tac. Qed.
Lemma rel_cur_op h k : rel R (cur_op B h k).
Proof. unfold cur_op. rel_tac. Qed.
Local Hint Resolve rel_run_op rel_len_op rel_cur_op : frame.
Lemma rel_op_updates h k w n : rel R n -> rel R (op_updates P B h k w n).
Proof. intros Hn. unfold op_updates. rel_tac. Qed.
Local Hint Resolve rel_op_updates : frame.
Lemma rel_upd_op h k d : rel R (upd_op B h k d).
Proof. unfold upd_op. rel_tac. Qed.
Lemma rel_crypt_update k h d b n : rel R (crypt_update B k h d b n).
Proof. unfold crypt_update. rel_tac. Qed.
Local Hint Resolve rel_upd_op rel_crypt_update : frame.
Lemma rel_restore_op h sid k key op : rel R (restore_op P B h sid k key op).
Proof. unfold restore_op. rel_tac. Qed.
Local Hint Resolve rel_restore_op : frame.
Lemma rel_state_restore h sid b key : rel R (state_restore P B h sid b key).
Proof. unfold state_restore. rel_tac. Qed.
Local Hint Resolve rel_state_restore : frame.

Lemma rel_get_objects hs : rel RT (get_objects P hs).
Proof. induction hs as [|h hs IH]; cbn [get_objects]; rel_tac. Qed.
Lemma rel_derived_objects key l : rel RT (derived_objects P key l).
Proof. induction l as [|d l IH]; cbn [derived_objects]; rel_tac. Qed.
Lemma rel_destroy_all hs : rel RT (destroy_all P hs).
Proof. induction hs as [|h hs IH]; cbn [destroy_all]; rel_tac. Qed.
Local Hint Resolve rel_get_objects rel_derived_objects rel_destroy_all : frame.
Lemma rel_insert_all sh os d a : rel RT (insert_all P sh os d a).
Proof. revert d. induction os as [|o os IH]; intros d; cbn [insert_all]; rel_tac. Qed.
Local Hint Resolve rel_insert_all : frame.

(* The calls that manage neither the module, nor sessions, nor logins, nor PINs. *)
Definition quiet_call (c : call) : bool :=
  match c with
  | Initialize _ | Finalize | Crash | Disturb _ _ | InitToken _ _ _ | InitPIN _ _ | SetPIN _ _ _
  | OpenSession _ _ _ | CloseSession _ | CloseAllSessions _ | Login _ _ _ | Logout _ => false
  | _ => true
  end.
Lemma rel_session_cancel h fl : rel R (c_session_cancel B h fl).
Proof.
  unfold c_session_cancel. rel_tac. apply rel_upd_session. intros s.
  assert (H : forall fl f k s, RS s (cancel_if B fl f k s)).
  { intros. unfold cancel_if. destruct (has_flag _ _); [apply S_ops|reflexivity]. }
  repeat (etransitivity; [|apply H]). reflexivity.
Qed.
Lemma rel_api c : quiet_call c = true -> rel R (api P B E c).
Proof.
  intros Hc. destruct c; try discriminate Hc; cbn [api];
    lazymatch goal with
    | |- rel _ (c_session_cancel _ _ _) => apply rel_session_cancel
    | |- rel _ (match ?k with _ => _ end) => destruct k
    | _ => idtac
    end.
  all: unfold c_get_info, c_get_interface_list, c_get_slot_list, c_get_slot_info, c_get_token_info, c_get_mechanism_list,
    c_get_mechanism_info, c_get_session_info, c_get_operation_state, c_set_operation_state,
    c_create_object, c_copy_object, c_destroy_object, c_get_object_size, c_get_attribute_value, c_set_attribute_value,
    c_find_objects_init, c_find_objects, c_find_objects_final, op_init, c_digest_init, c_sign, c_update, c_sign_final,
    c_verify, c_verify_final, c_verify_signature, c_verify_signature_final, c_digest, c_digest_final, c_digest_key,
    c_crypt, c_crypt_update, c_crypt_final, c_message, c_message_begin, c_message_next, c_message_final, c_dual,
    c_generate_key, c_generate_key_pair, c_wrap_key, c_unwrap_key, c_derive_key, c_encapsulate_key, c_decapsulate_key,
    c_seed_random, c_generate_random.
  all: rel_tac.
Qed.
End wrel.
End frame.
