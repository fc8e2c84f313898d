(* C21: keys that ask for a login before each use. *)
From Verif Require Import Base Monad Hoare Attr Obj Factory Tables Create Sqlite Storage Token Backend State Api Toy
  ObjSpec TokInv TokStep TokWp Spec OpsSpec WorldFrame WorldWp Sessions SessionInv SessionFacts ObjWorld ObjFacts ObjCalls AuthFacts OpsApart ToyFacts ThmObjects ThmOps.

Section spec.
Context (P : params) (B : backend) (E : N -> keyenv).
(* The call starts an operation in the session, or is a context-specific login there; and it succeeds. *)
Definition unlocks (w : world B) (c : call) (s : N) : Prop :=
  session_of_call c = Some s /\ rv P B E w c = CKR_OK /\ (starts c <> None \/ exists pin, c = Login s CKU_CONTEXT_SPECIFIC pin).
(* Any calls, in this session and in others, none of which unlocks it; the session stays open. *)
Inductive locked_path (s : N) (w : world B) : world B -> Prop :=
| lp_here : locked_path s w w
| lp_step w' c : locked_path s w w' -> ~ unlocks w' c s -> session_of B (after P B E w' c) s <> None -> locked_path s w (after P B E w' c).
End spec.

Section always.
Context (P : params) (B : backend) (E : N -> keyenv).
Context (Hfs : p_fs P = all_factories) (Hutf : forall n, utf8_valid (p_uuid P n) = true).
Notation world := (world B). Notation after := (after P B E). Notation rv := (rv P B E). Notation out_of := (out_of P B E).
Notation session_of := (session_of B). Notation session := (session B).

#[local] Existing Instance from_pre.
(* ---- calls that leave the login status of a session alone ---- *)
Definition from_log (s : N) (w w' : world) : Prop := forall se', session_of w' s = Some se' -> exists se, session_of w s = Some se /\ s_login se' = s_login se.
Instance log_pre s : PreOrder (from_log s).
Proof.
  split; [intros w se' H; by exists se'|]. intros a b c H1 H2 se' H. destruct (H2 _ H) as (x & X1 & X2). destruct (H1 _ X1) as (y & Y1 & Y2). exists y. split; [done|]. congruence.
Qed.
Lemma ops_log s w w' : from_ops B s w w' -> from_log s w w'.
Proof. intros H se' X. destruct (H _ X) as (se & Y1 & _ & Y2). eauto. Qed.
Definition keep (s : N) {A} (m : M world A) : Prop := forall w, wp m w (fun w' _ => from_log s w w').
Lemma keep_bind s {A C} (m : M world A) (k : A -> M world C) : keep s m -> (forall a, keep s (k a)) -> keep s (mbind m k).
Proof.
  intros H1 H2 w. apply wp_bind. eapply wp_mono; [apply H1|]. intros w1 [a|e] H3; [|done]. eapply wp_mono; [apply H2|]. intros w2 r H4. by transitivity w1.
Qed.
Lemma keep_same s {A} (m : M world A) : (forall w, fst (m w) = w) -> keep s m.
Proof. intros H w. unfold wp. specialize (H w). destruct (m w) as [w' r]. cbn in *. subst. reflexivity. Qed.
Lemma keep_ops s {A} (m : M world A) : (forall w, wp m w (fun w' _ => from_ops B s w w')) -> keep s m.
Proof. intros H w. eapply wp_mono; [apply H|]. intros w' r H1. by apply ops_log. Qed.
Lemma keep_attempt s {A} (m : M world A) : keep s m -> keep s (attempt m).
Proof. intros H w. apply wp_attempt. eapply wp_mono; [apply H|]. done. Qed.
Lemma keep_upd s h f : (forall se, s_login (f se) = s_login se) -> keep s (upd_session B h f).
Proof.
  intros Hf w. apply wp_upd_session; [|reflexivity]. intros sid sl Hi Hm Hs se'. unfold Spec.session_of. cbn [with_slot set_slots w_smap w_slots]. destruct (w_smap w !! s) as [i|]; [|done].
  destruct (decide (i = sid)) as [->|Hne]; [rewrite lookup_insert, Hs|rewrite lookup_insert_ne by congruence; intros X; by exists se'].
  cbn. destruct (decide (h = s)) as [->|Hne]; [rewrite lookup_alter|rewrite lookup_alter_ne by congruence; intros X; by exists se'].
  destruct (sl_sessions sl !! s) as [se|]; [|done]. cbn. intros [= <-]. exists se. split; [done|apply Hf].
Qed.
Lemma keep_get_slot s sid : keep s (get_slot B sid).
Proof. intros w. apply wp_get_slot; reflexivity. Qed.
Lemma keep_get_session s h : keep s (get_session B h).
Proof. intros w. apply wp_get_session; reflexivity. Qed.
Lemma keep_session_slot s h : keep s (session_slot B h).
Proof. intros w. apply wp_session_slot; reflexivity. Qed.
Lemma keep_token_ready s h : keep s (token_ready B h).
Proof. intros w. apply wp_token_ready; reflexivity. Qed.
Lemma keep_token_of_session s h : keep s (token_of_session B h).
Proof. intros w. apply wp_token_of_session; reflexivity. Qed.
Lemma keep_lock s : keep s (Api.lock B).
Proof. intros w. apply wp_lock; reflexivity. Qed.
Lemma keep_mech_flags s sid m : keep s (mech_flags P B sid m).
Proof. unfold mech_flags. apply keep_bind; [apply keep_get_slot|]. intros sl. destruct (List.filter _ _); by apply keep_same. Qed.
Lemma keep_tmpl_of s {A} (t : option (list A)) c : keep s (tmpl_of B t c).
Proof. unfold tmpl_of. destruct t; [by apply keep_same|]. destruct (c =? 0); by apply keep_same. Qed.
Lemma keep_run_op s h k c x : keep s (run_op B h k c x).
Proof. unfold run_op. destruct (be_call B c x) as [x' r]. apply keep_bind; [by apply keep_upd|]. intros. by apply keep_same. Qed.
Lemma keep_len_op s h k n f x : keep s (len_op B h k n f x).
Proof. unfold len_op. destruct (be_len B x n f) as [x' r]. apply keep_bind; [by apply keep_upd|]. intros. apply keep_bind; by intros; apply keep_same. Qed.
Lemma keep_drop_session s h : keep s (drop_session B h).
Proof.
  unfold drop_session. apply keep_bind; [apply keep_session_slot|]. intros sid.
  assert (forall w, wp (mbind (get_slot B sid) (fun sl => if bool_decide (sl_sessions sl = ∅) then token_ready B sid;;; let! _ := attempt (State.tok B sid tk_logout) in skip else skip)) w (fun w' _ => from_log s w w')) as Hend.
  { apply keep_bind; [apply keep_get_slot|]. intros sl. destruct (bool_decide _); [|by apply keep_same]. apply keep_bind; [apply keep_token_ready|]. intros _.
    apply keep_bind; [apply keep_attempt, keep_ops; intros; apply from_tok|]. intros. by apply keep_same. }
  intros w. apply wp_bind, wp_get_slot; [|reflexivity]. intros sl Hi Hs. apply wp_bind, wp_put_slot, wp_bind, wp_modify.
  eapply wp_mono; [apply Hend|]. intros w' r Hl. etransitivity; [|exact Hl]. intros se'. unfold Spec.session_of. cbn [set_smap with_slot set_slots w_smap w_slots].
  destruct (decide (s = h)) as [->|Hne]; [by rewrite lookup_delete|]. rewrite lookup_delete_ne by congruence. destruct (w_smap w !! s) as [i|]; [|done].
  destruct (decide (i = sid)) as [->|Hn]; [rewrite lookup_insert, Hs; cbn; rewrite lookup_delete_ne by congruence|rewrite lookup_insert_ne by congruence]; intros X; by exists se'.
Qed.
Lemma cancel_if_login fl f k (se : session) : s_login (cancel_if B fl f k se) = s_login se.
Proof. unfold cancel_if. by destruct (has_flag fl f). Qed.
Ltac keep_tac :=
  repeat lazymatch goal with
  | |- keep _ (mbind _ _) => apply keep_bind; [|intros]
  | |- keep _ (ret _) => by apply keep_same | |- keep _ (fail _) => by apply keep_same | |- keep _ (lift _) => by apply keep_same
  | |- keep _ (ensure ?b _) => destruct b; by apply keep_same | |- keep _ (attempt _) => apply keep_attempt | |- keep _ (Api.lock _) => apply keep_lock
  | |- keep _ (Api.ok _ _) => by apply keep_same | |- keep _ (Api.failed _ _ _) => by apply keep_same | |- keep _ (deref _ ?p) => destruct p; by apply keep_same
  | |- keep _ (gets _) => by apply keep_same
  | |- keep _ skip => by apply keep_same | |- keep _ (get_session _ _) => apply keep_get_session | |- keep _ (get_slot _ _) => apply keep_get_slot
  | |- keep _ (upd_session _ _ _) => apply keep_upd; intros; rewrite ?cancel_if_login; done | |- keep _ (drop_session _ _) => apply keep_drop_session
  | |- keep _ (Api.tok _ _ _) => apply keep_ops; intros; apply from_tok | |- keep _ (State.tok _ _ _) => apply keep_ops; intros; apply from_tok
  | |- keep _ (token_ready _ _) => apply keep_token_ready | |- keep _ (token_of_session _ _) => apply keep_token_of_session
  | |- keep _ (session_slot _ _) => apply keep_session_slot | |- keep _ (mech_flags _ _ _ _) => apply keep_mech_flags
  | |- keep _ (ro_check _ ?se ?t) => unfold ro_check; destruct (is_writable B se); by apply keep_same | |- keep _ (tmpl_of _ _ _) => apply keep_tmpl_of
  | |- keep _ (invalidate_session_states _ _) => apply keep_ops; intros; apply from_invalidate
  | |- keep _ (change_session_states _ _ _) => apply keep_ops; intros; apply from_states
  | |- keep _ (run_op _ _ _ _ _) => apply keep_run_op | |- keep _ (len_op _ _ _ _ _ _) => apply keep_len_op
  | |- keep _ (cur_op _ _ _) => unfold cur_op | |- keep _ (op_updates _ _ _ _ _ _) => unfold op_updates | |- keep _ (upd_op _ _ _ _) => unfold upd_op
  | |- keep _ (crypt_update _ _ _ _ _ _) => unfold crypt_update | |- keep _ (state_restore _ _ _ _ _ _) => unfold state_restore | |- keep _ (restore_op _ _ _ _ _ _ _) => unfold restore_op
  | |- keep _ (match ?x with _ => _ end) => destruct x
  | |- keep _ (let _ := _ in _) => cbv zeta
  end.
Lemma keep_api c s h : session_of_call c = Some h -> starts c = None -> apart c = true -> keep s (api P B E c).
Proof.
  intros Hc Hst Hl. destruct c; cbn [session_of_call] in Hc; try discriminate Hc; try discriminate Hl; try discriminate Hst; cbn [api].
  all: try (destruct k; try discriminate Hc; destruct m; try discriminate Hst).
  all: unfold c_get_session_info, c_get_operation_state, c_set_operation_state, c_init_pin, c_set_pin, c_close_session, c_logout, c_session_cancel,
    c_create_object, c_copy_object, c_destroy_object, c_get_object_size, c_get_attribute_value, c_set_attribute_value,
    c_find_objects_init, c_find_objects, c_find_objects_final, op_init, c_digest_init, c_sign, c_update, c_sign_final,
    c_verify, c_verify_final, c_verify_signature, c_verify_signature_final, c_digest, c_digest_final, c_digest_key,
    c_crypt, c_crypt_update, c_crypt_final, c_message, c_message_begin, c_message_next, c_message_final, c_dual,
    c_generate_key, c_generate_key_pair, c_wrap_key, c_unwrap_key, c_derive_key, c_encapsulate_key, c_decapsulate_key,
    c_seed_random, c_generate_random.
  all: cbv zeta; keep_tac.
Qed.

(* ---- calls that change it only if they succeed ---- *)
Definition keep_or (s : N) (m : M world (N * out)) : Prop := forall w, wp m w (fun w' r => from_log s w w' \/ exists o, r = Ok (CKR_OK, o)).
Lemma keep_or_bind s {A} (m : M world A) k : keep s m -> (forall a, keep_or s (k a)) -> keep_or s (mbind m k).
Proof.
  intros H1 H2 w. apply wp_bind. eapply wp_mono; [apply H1|]. intros w1 [a|e] H3; [|by left]. eapply wp_mono; [apply H2|]. intros w2 r [H4|H4]; [left|by right]. by transitivity w1.
Qed.
Lemma keep_or_end s h f : keep_or s (upd_session B h f;;; Api.ok B ONone).
Proof. intros w. apply wp_bind, wp_upd_session; [|left; reflexivity]. intros. apply wp_ok. right. eauto. Qed.
Lemma keep_or_keep s m : keep s m -> keep_or s m.
Proof. intros H w. eapply wp_mono; [apply H|]. intros w' r X. by left. Qed.
Ltac or_tac :=
  repeat lazymatch goal with
  | |- keep_or _ (mbind (upd_session _ _ _) _) => apply keep_or_end
  | |- keep_or _ (mbind _ _) => apply keep_or_bind; [keep_tac|intros]
  | |- keep_or _ (let _ := _ in _) => cbv zeta
  | |- keep_or _ (match ?x with _ => _ end) => destruct x
  | |- keep_or _ (fail _) => by apply keep_or_keep, keep_same
  end.
Lemma keep_or_api c s h : session_of_call c = Some h -> starts c <> None \/ apart c = false -> keep_or s (api P B E c).
Proof.
  intros Hc Hst. destruct c; cbn [session_of_call starts apart] in Hc, Hst; try (by destruct Hst); cbn [api].
  - unfold c_login. or_tac. all: apply keep_or_keep; keep_tac.
  - unfold c_find_objects_init. or_tac.
  - assert (keep_or s (op_init P B k h0 m key sig)) as H; [|by destruct k]. unfold op_init. or_tac.
  - unfold c_digest_init. or_tac.
Qed.
Lemma step_log w c s se se' : sess_inv B w -> ~ unlocks P B E w c s -> session_of w s = Some se -> session_of (after w c) s = Some se' -> s_login se' = s_login se.
Proof.
  intros HI Hu H1 H2. destruct (decide (session_of_call c = Some s)) as [Hc|Hc].
  - assert (from_log s w (after w c)) as Hl; [|destruct (Hl _ H2) as (x & X1 & X2); congruence].
    unfold unlocks in Hu. unfold Spec.after, Spec.rv in *. rewrite run_step in *.
    destruct (starts c) as [k|] eqn:Hst; [|destruct (apart c) eqn:Ha].
    + pose proof (keep_or_api c s s Hc ltac:(left; congruence) w) as Hk. unfold wp in Hk. destruct Hk as [Hk|[o Ho]]; [done|].
      exfalso. apply Hu. split_and!; [done| |left; done]. unfold step. destruct (api P B E c w) as [w' r]. cbn in Ho. by subst r.
    + pose proof (keep_api c s s Hc Hst Ha w) as Hk. exact Hk.
    + pose proof (keep_or_api c s s Hc ltac:(by right) w) as Hk. unfold wp in Hk. destruct Hk as [Hk|[o Ho]]; [done|]. destruct c; try discriminate Ha. injection Hc as ->.
      destruct (decide (ut = CKU_CONTEXT_SPECIFIC)) as [->|Hne].
      * exfalso. apply Hu. split_and!; [done| |right; eauto]. unfold step. destruct (api P B E _ w) as [w' r]. cbn in Ho. by subst r.
      * clear Ho. assert (keep s (api P B E (Login s ut pin))) as Hk; [|apply Hk]. cbn [api]. unfold c_login. destruct (N.eqb_spec ut CKU_CONTEXT_SPECIFIC) as [|_]; [done|]. keep_tac.
  - assert (ops_kept B s w (after w c)) as Hk.
    { destruct (session_of_call c) as [h|] eqn:Hh; [|by apply kept_rest]. assert (h <> s) as Hne by congruence.
      destruct (apart c) eqn:Ha; [by apply kept_apart with h|]. destruct c; try discriminate Ha. injection Hh as ->. by apply from_kept, kept_login. }
    by destruct (Hk se se' H1 H2).
Qed.
Lemma path_log s w w' se : sess_inv B w -> reachable P B E w -> session_of w s = Some se -> locked_path P B E s w w' ->
  exists se', session_of w' s = Some se' /\ s_login se' = s_login se /\ reachable P B E w'.
Proof.
  intros HI Hr Hs. induction 1 as [|w' c Hp IH Hu Ho]; [eauto|]. destruct IH as (x & X1 & X2 & X3).
  destruct (session_of (after w' c) s) as [se'|] eqn:Hx; [|done]. exists se'. split_and!; [done| |].
  - rewrite <- X2. eapply step_log; [|exact Hu|exact X1|exact Hx]. by eapply reachable_sess_inv.
  - destruct X3 as (ds & cs & ->). exists ds, (cs ++ [c]). rewrite run_app. unfold Spec.after. destruct (run P B E (init_world B ds) cs) as [w1 l]. cbn [fst]. cbn [run].
    by destruct (step P B E w1 c).
Qed.

(* ---- the init call ---- *)
Lemma seen_bool t h ty def b o : tok_ok t -> seen P t h o -> search_by_id ty = Some KBool -> bool_of t h ty = Some b -> bool_attr ty def o = b.
Proof.
  intros Ht Hs Hk Hb. assert (get_attr o ty = attr_of t h ty) as Ha.
  { destruct Hs as [Hs|[Hs Hf]]; [unfold attr_of; by rewrite Hs|]. by apply (fetched_attr P Hfs t h [] o ty KBool). }
  unfold bool_attr. unfold bool_of in Hb. rewrite <- Ha in Hb. destruct (get_attr o ty) as [a|]; [|done]. destruct (attr_to_bool a); [|done]. by injection Hb as ->.
Qed.
Lemma init_waits w k s m key sig sid : winv B w -> k = KSign \/ k = KDec -> slot_of B w s = Some sid -> bool_at B w sid key CKA_ALWAYS_AUTHENTICATE = Some true ->
  wp (op_init P B k s (Some m) key sig) w (fun w' _ => from_ops B s w w' \/ waiting B w' s = true).
Proof.
  intros Hw Hk Hsl Hb. unfold op_init. assert (from_ops B s w w) as H0 by reflexivity. wp_step. apply wp_lock; [|by left]. intros Hi. apply wp_bind.
  apply wp_get_session; [|by left]. intros i sl se _ Z1 Z2 Z3. destruct m as [mt par]. cbv beta iota. wp_step. apply wp_ensure; intros _; cbv beta iota; [|by left].
  assert (i = sid) as -> by (unfold Spec.slot_of in Hsl; congruence).
  assert (s_slot se = sid) as -> by (destruct Hw as [_ HI]; by destruct (so_sessions _ _ _ _ _ (si_slots _ _ HI _ _ Z2) _ _ Z3)).
  wp_step. wp_step; [|by left]. wp_step. wp_step.
  assert (token_of B w sid = Some (sl_token sl)) as Htk by (unfold Spec.token_of; by rewrite Z2).
  assert (tok_ok (sl_token sl)) as Hok by by eapply token_ok.
  apply wp_peek; [done| |intros; left; by apply from_token]. intros t' o Hn Hs _. cbv beta iota.
  assert (kind_auth k o = true) as ->.
  { assert (always_auth o = true) as Hx; [|by destruct Hk as [-> | ->]]. unfold bool_at in Hb. rewrite Htk in Hb. by apply (seen_bool (sl_token sl) key CKA_ALWAYS_AUTHENTICATE false true o). }
  assert (from_ops B s w (with_slot B sid (put_token B t' sl) w)) as H1 by by apply from_token.
  revert H1. generalize (with_slot B sid (put_token B t' sl) w). clear -k. intros w1 H1.
  wp_step. apply wp_ensure; intros _; cbv beta iota; [|by left]. unfold mech_flags.
  assert (forall (x : be_st B) w2, from_ops B s w w2 -> wp (upd_session B s (set_operation B k (OpCrypt x) true);;; Api.ok B ONone) w2 (fun w' _ => from_ops B s w w' \/ waiting B w' s = true)) as Hend.
  { intros x w2 H2. apply wp_bind, wp_upd_session; [|by left]. intros i sl Hi Hm Hs. apply wp_ok. unfold waiting. destruct (session_of _ s) as [se'|] eqn:Hse; [right|left; intros se'; congruence].
    unfold Spec.session_of in Hse. cbn [with_slot set_slots w_smap w_slots] in Hse. rewrite Hm, lookup_insert in Hse. cbn in Hse. rewrite lookup_alter in Hse.
    destruct (sl_sessions sl !! s) as [se|]; [|done]. cbn in Hse. by injection Hse as <-. }
  repeat lazymatch goal with
  | |- wp (Api.tok _ _ _) _ _ => eapply wp_mono; [apply from_tok|]; intros ? [?|?] ?; cbv beta iota
  | |- wp (mbind (upd_session _ _ _) _) _ _ => apply Hend
  | |- from_ops _ _ _ _ \/ _ => left
  | _ => wp_step
  end.
  all: first [assumption | by transitivity w1].
Qed.

(* ---- while the login is awaited nothing goes on ---- *)
Lemma no_use w c s : reachable P B E w -> waiting B w s = true -> session_of_call c = Some s -> continues c <> [] ->
  after w c = w /\ out_of w c = ONone /\ (missing c = false -> rv w c = CKR_USER_NOT_LOGGED_IN \/ rv w c = CKR_OPERATION_NOT_INITIALIZED).
Proof.
  intros Hr Hwt Hc Hk. pose proof (reachable_sess_inv P B E w Hr) as HI. unfold waiting in Hwt. destruct (session_of w s) as [se|] eqn:Hse; [|done].
  destruct (session_of_inv B w s se HI Hse) as (sl & A1 & A2 & A3 & A4 & A5 & _).
  assert (get_session B s w = (w, Ok se)) as Hgs by (by apply get_session_eq with (s_slot se) sl).
  assert (forall k, get_operation B se k = Err CKR_USER_NOT_LOGGED_IN) as Hop by (intros k; unfold get_operation, check_login_status; by destruct (s_login se)).
  set (fine := fun (w' : world) (r : result (N * out)) => w' = w /\ exists x, r = Err x /\ (missing c = false -> x = CKR_USER_NOT_LOGGED_IN \/ x = CKR_OPERATION_NOT_INITIALIZED)).
  cut (wp (api P B E c) w fine).
  { intros Hw. unfold wp in Hw. destruct (api P B E c w) as [w' r] eqn:Hap. destruct Hw as (H1 & x & H2 & H3). cbn [fst snd] in *. subst w' r.
    destruct (same_step P B E c w x Hap) as (Y1 & Y2 & Y3). rewrite Y2. done. }
  clear Hr HI A2.
  assert (forall k' (Q : world -> result (be_st B) -> Prop), Q w (Err CKR_USER_NOT_LOGGED_IN) -> wp (cur_op B s k') w Q) as Hcur.
  { intros k' Q HQ. unfold cur_op. wp_step. apply (wp_eq _ _ _ _ _ Hgs). cbv beta iota zeta. wp_step. wp_step. by rewrite Hop. }
  subst fine. destruct c; cbn [continues session_of_call] in Hk, Hc; try (by destruct Hk); injection Hc as ->; cbn [api missing].
  all: unfold c_find_objects, c_sign, c_update, upd_op, c_sign_final, c_verify, c_verify_final, c_verify_signature, c_verify_signature_final, c_digest, c_digest_final, c_digest_key,
    c_crypt, c_crypt_update, c_crypt_final, c_message, c_message_begin, c_message_next, c_message_final, c_dual.
  all: try unfold crypt_update.
  all: repeat first
    [ lazymatch goal with
      | |- wp (Api.lock _) _ _ => apply wp_lock; [intros _|done]
      | |- wp (get_session _ _) _ _ => apply (wp_eq _ _ _ _ _ Hgs); cbv beta iota zeta
      | |- wp (lift (get_operation _ _ _)) _ _ => apply wp_lift; rewrite Hop
      | |- wp (cur_op _ _ _) _ _ => apply Hcur; cbv beta iota zeta
      | |- wp (ensure _ _) _ _ => apply wp_ensure; intros ?; cbv beta iota
      | |- wp (deref _ ?d) _ _ => destruct d; cbn [deref nonnull andb orb] in *; [apply wp_ret|apply wp_fail]; cbv beta iota zeta; try discriminate
      end | wp_step ].
  all: split; [done|eexists; split; [done|]].
  all: try (by intros _; auto).
  all: lazymatch goal with H : _ = false |- _ => intros Hb; exfalso; clear - H Hb; repeat lazymatch goal with x : option _ |- _ => destruct x end; repeat lazymatch goal with x : bytes |- _ => destruct x end; cbn in H, Hb; try done; try lia end.
Qed.

(* C21.  A signature or decryption has been started with a key that asks for a login before each use.  Then any calls are
   made, in its session and in others, none of which is a successful context-specific C_Login in the session; nor is
   any of them the successful start of an operation in the session (see the exception below).  A call that would go
   on with an operation of the session then changes nothing and gives no output. *)
Theorem C21_no_output_partial w k s sid m key sig w' c : from_scratch P B E w -> k = KSign \/ k = KDec ->
  slot_of B w s = Some sid -> bool_at B w sid key CKA_ALWAYS_AUTHENTICATE = Some true ->
  active B w s k = false -> active B (after w (OpInit k s (Some m) key sig)) s k = true ->
  locked_path P B E s (after w (OpInit k s (Some m) key sig)) w' ->
  session_of_call c = Some s -> continues c <> [] ->
  after w' c = w' /\ out_of w' c = ONone /\ (missing c = false -> rv w' c = CKR_USER_NOT_LOGGED_IN \/ rv w' c = CKR_OPERATION_NOT_INITIALIZED).
Proof.
  intros Hw Hk Hsl Hb Ha1 Ha2 Hp Hc Hcn. pose proof (scratch_winv P B E Hfs Hutf w Hw) as Hi.
  pose proof (scratch_reach P B E w Hw) as Hr.
  assert (reachable P B E (after w (OpInit k s (Some m) key sig))) as Hr1.
  { destruct Hr as (ds & cs & ->). exists ds, (cs ++ [OpInit k s (Some m) key sig]). rewrite run_app. unfold Spec.after. destruct (run P B E (init_world B ds) cs) as [w1 l]. cbn [fst]. cbn [run].
    by destruct (step P B E w1 (OpInit k s (Some m) key sig)). }
  assert (waiting B (after w (OpInit k s (Some m) key sig)) s = true) as Hwt.
  { pose proof (init_waits w k s m key sig sid Hi Hk Hsl Hb) as Hx. unfold wp in Hx.
    assert (op_init P B k s (Some m) key sig = api P B E (OpInit k s (Some m) key sig)) as Hap by by destruct Hk as [-> | ->]. rewrite Hap in Hx.
    unfold Spec.after in *. rewrite run_step in *. destruct Hx as [Hx|Hx]; [exfalso|done].
    unfold active in Ha1, Ha2. destruct (session_of (fst (api P B E (OpInit k s (Some m) key sig) w)) s) as [se'|] eqn:H2; [|done].
    destruct (Hx _ H2) as (se & X1 & X2 & X3). rewrite X1 in Ha1. unfold op_active in *. rewrite X2 in Ha2. congruence. }
  unfold waiting in Hwt. destruct (session_of (after w (OpInit k s (Some m) key sig)) s) as [se|] eqn:Hse; [|done].
  destruct (path_log s _ w' se (reachable_sess_inv P B E _ Hr1) Hr1 Hse Hp) as (se' & S1 & S2 & S3).
  apply no_use with s; [done| |done|done]. unfold waiting. rewrite S1, S2. done.
Qed.
End always.

(* ---- an example, and the exception ---- *)
Definition w21 : world toy_be := after toy toy_be toy_env (fst (toy_run toy_user (firstn 1 asks))) (OpInit KSign 2 (Some hmac) 11 None).
Example C21_case : bool_at toy_be (fst (toy_run toy_user (firstn 1 asks))) 0 11 CKA_ALWAYS_AUTHENTICATE = Some true /\
  active toy_be (fst (toy_run toy_user (firstn 1 asks))) 2 KSign = false /\ active toy_be w21 2 KSign = true /\
  toy_rv w21 (Sign 2 (Some [1]) true (Some 10)) = CKR_USER_NOT_LOGGED_IN /\
  toy_rv (after toy toy_be toy_env w21 (Login 2 CKU_CONTEXT_SPECIFIC (Some user_pin))) (Sign 2 (Some [1]) true (Some 10)) = CKR_OK.
Proof. split_and!; vm_compute; reflexivity. Qed.
Example C21_case_path : locked_path toy toy_be toy_env 2 w21 (after toy toy_be toy_env w21 (DigestInit 2 None)) /\
  toy_rv (after toy toy_be toy_env w21 (DigestInit 2 None)) (Sign 2 (Some [1]) true (Some 10)) = CKR_USER_NOT_LOGGED_IN.
Proof.
  split; [|vm_compute; reflexivity]. apply lp_step; [constructor| |].
  - intros (_ & _ & [H|[pin H]]); [by apply H|discriminate H].
  - assert (active toy_be (after toy toy_be toy_env w21 (DigestInit 2 None)) 2 KSign = true) as H by (vm_compute; reflexivity). unfold active in H. by destruct (session_of _ _ _).
Qed.
(* Exception: the login status is one for all operations of the session.  The start of a search, a digest, an
   encryption or a verification says that no login is required, for the pending signature too. *)
Theorem C21_other_start_refuted : exists w w' s key c d, from_scratch toy toy_be toy_env w /\ bool_at toy_be w 0 key CKA_ALWAYS_AUTHENTICATE = Some true /\
  toy_rv w (OpInit KSign s (Some hmac) key None) = CKR_OK /\ w' = after toy toy_be toy_env (after toy toy_be toy_env w (OpInit KSign s (Some hmac) key None)) c /\
  (forall ut pin, c <> Login s ut pin) /\
  toy_rv w' (Sign s (Some [1]) true (Some 10)) = CKR_OK /\ toy_out w' (Sign s (Some [1]) true (Some 10)) = OBuf d 4.
Proof.
  exists (fst (toy_run toy_user (firstn 1 asks))), (after toy toy_be toy_env w21 (FindObjectsInit 2 None 0)), 2, 11, (FindObjectsInit 2 None 0).
  eexists. split; [apply toy_user_scratch|]. split; [vm_compute; reflexivity|]. split; [vm_compute; reflexivity|]. split; [reflexivity|]. split; [done|]. split; [vm_compute; reflexivity|].
  vm_compute. reflexivity.
Qed.
