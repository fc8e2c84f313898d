(* C20: operations. *)
From Verif Require Import Base Monad Hoare Attr Obj Factory Tables Create Sqlite Storage Token Backend State Api Toy
  Spec OpsSpec WorldWp Sessions SessionInv SessionFacts ObjWorld ObjFacts ObjCalls AuthFacts OpsApart ToyFacts ThmObjects.

Section ops.
Context (P : params) (B : backend) (E : N -> keyenv).
Context (Hfs : p_fs P = all_factories) (Hutf : forall n, utf8_valid (p_uuid P n) = true).
Notation world := (world B). Notation after := (after P B E). Notation rv := (rv P B E). Notation out_of := (out_of P B E).
Notation session_of := (session_of B). Notation reachable := (reachable P B E).

Lemma same_step c w e : api P B E c w = (w, Err e) -> after w c = w /\ rv w c = e /\ out_of w c = ONone.
Proof. intros H. unfold Spec.after, Spec.rv, Spec.out_of, step. rewrite H. done. Qed.
(* The outcome of a call that stops without doing anything. *)
Definition stops (w w' : world) (r : result (N * out)) (e : option N) : Prop := w' = w /\ exists x, r = Err x /\ match e with Some y => x = y | None => True end.
Lemma stops_call c w e : wp (api P B E c) w (fun w' r => stops w w' r e) -> after w c = w /\ out_of w c = ONone /\ match e with Some y => rv w c = y | None => True end.
Proof.
  intros H. unfold wp in H. destruct (api P B E c w) as [w' r] eqn:Hap. cbn [fst snd] in H. destruct H as (-> & x & -> & Hx).
  destruct (same_step c w x Hap) as (H1 & H2 & H3). split_and!; [done|done|]. destruct e; [by subst|done].
Qed.

(* C20.  While a session has an active operation of a kind, a call that would start another of that kind changes
   nothing; with proper arguments it returns CKR_OPERATION_ACTIVE. *)
Theorem C20_no_second w c s k : reachable w -> active B w s k = true -> starts c = Some k -> session_of_call c = Some s ->
  after w c = w /\ out_of w c = ONone /\ (missing c = false -> rv w c = CKR_OPERATION_ACTIVE).
Proof.
  intros Hr Ha Hst Hc. pose proof (reachable_sess_inv P B E w Hr) as HI. unfold active in Ha. destruct (session_of w s) as [se|] eqn:Hs; [|done].
  destruct (session_of_inv B w s se HI Hs) as (sl & A1 & A2 & A3 & A4 & A5 & _).
  assert (get_session B s w = (w, Ok se)) as Hgs by (by apply get_session_eq with (s_slot se) sl).
  assert (token_ready B (s_slot se) w = (w, Ok tt)) as Hti.
  { apply token_ready_eq with sl; [done|done|]. apply (so_some _ _ _ _ _ (si_slots _ _ HI _ _ A2)). intros X. by rewrite X, lookup_empty in A3. }
  cut (wp (api P B E c) w (fun w' r => stops w w' r (if missing c then None else Some CKR_OPERATION_ACTIVE))).
  { intros Hw. apply stops_call in Hw as (H1 & H2 & H3). split_and!; [done|done|]. intros Hm. by rewrite Hm in H3. }
  destruct c; cbn [starts session_of_call] in Hst, Hc; try discriminate Hst.
  - injection Hc as ->. injection Hst as <-. cbn [api]. unfold c_find_objects_init. wp_step. apply wp_lock; [intros _|done]. wp_step. apply (wp_eq _ _ _ _ _ Hgs). cbv beta iota zeta.
    wp_step. apply (wp_eq _ _ _ _ _ Hti). cbv beta iota zeta. wp_step.
    assert (forall l, wp (ensure (negb (op_active B se KSearch)) CKR_OPERATION_ACTIVE;;; let! hs := Api.tok B (s_slot se) (search_objects P l) in
      upd_session B s (set_operation B KSearch (OpSearch hs) false);;; Api.ok B ONone) w
      (fun w' r => stops w w' r (if missing (FindObjectsInit s tmpl cnt) then None else Some CKR_OPERATION_ACTIVE))) as Hk.
    { intros l. wp_step. apply wp_ensure; intros Hn; rewrite Ha in Hn; [done|]. split; [done|]. exists CKR_OPERATION_ACTIVE. split; [done|]. by destruct (missing _). }
    unfold tmpl_of. destruct tmpl as [l|]; [wp_step; exact (Hk l)|]. wp_step. apply wp_ensure; intros Hn; cbv beta iota; [wp_step; exact (Hk [])|].
    cbn [missing none]. rewrite Hn. cbn. split; [done|]. eauto.
  - destruct m as [m|]; [|done]. assert (k0 = k /\ h = s /\ api P B E (OpInit k0 h (Some m) key sig) = op_init P B k0 h (Some m) key sig) as (-> & -> & Hap)
      by (destruct k0; split_and!; congruence || done).
    rewrite Hap. cbn [missing]. destruct m as [mt par]. unfold op_init. wp_step. apply wp_lock; [intros _|done]. wp_step. apply (wp_eq _ _ _ _ _ Hgs). cbv beta iota zeta.
    wp_step. apply wp_ensure; intros Hn; rewrite Ha in Hn; [done|]. split; [done|]. exists CKR_OPERATION_ACTIVE. done.
  - injection Hc as ->. destruct m as [[mt par]|]; [|done]. injection Hst as <-.
    cbn [api missing]. unfold c_digest_init. wp_step. apply wp_lock; [intros _|done]. wp_step. apply (wp_eq _ _ _ _ _ Hgs). cbv beta iota zeta.
    wp_step. apply wp_ensure; intros Hn; rewrite Ha in Hn; [done|]. split; [done|]. exists CKR_OPERATION_ACTIVE. done.
Qed.

(* The kinds a call goes on with, first the one asked for first. *)
Lemma get_off se k : op_active B se k = false -> exists e, get_operation B se k = Err e /\ (match s_login se with LRequired => true | _ => false end = false -> e = CKR_OPERATION_NOT_INITIALIZED).
Proof.
  intros Ha. unfold get_operation, check_login_status, get_op, rbind. unfold op_active in Ha.
  destruct (s_login se); [|destruct (s_ops se !! k) as [o|]; [destruct (op_final B o)|]| |destruct (s_ops se !! k) as [o|]; [destruct (op_final B o)|]]; cbn in Ha; try done; eexists; split; done.
Qed.
Lemma wp_cur_off w s se k (Q : world -> result (be_st B) -> Prop) : get_session B s w = (w, Ok se) -> op_active B se k = false ->
  (forall e, (match s_login se with LRequired => true | _ => false end = false -> e = CKR_OPERATION_NOT_INITIALIZED) -> Q w (Err e)) -> wp (cur_op B s k) w Q.
Proof.
  intros Hgs Ha HQ. unfold cur_op. wp_step. apply (wp_eq _ _ _ _ _ Hgs). cbv beta iota zeta. wp_step. wp_step.
  destruct (get_off se k Ha) as (e & -> & He). by apply HQ.
Qed.
(* C20.  While a session has no active operation of a kind, a call that would go on with one changes nothing; with proper
   arguments, and unless another operation of the session waits for a login, it returns CKR_OPERATION_NOT_INITIALIZED. *)
Theorem C20_no_operation_partial w c s k : reachable w -> session_of w s <> None -> session_of_call c = Some s -> In k (continues c) -> active B w s k = false ->
  after w c = w /\ out_of w c = ONone /\ (missing c = false -> waiting B w s = false -> rv w c = CKR_OPERATION_NOT_INITIALIZED).
Proof.
  intros Hr Hs Hc Hk Ha. pose proof (reachable_sess_inv P B E w Hr) as HI. unfold active in Ha. destruct (session_of w s) as [se|] eqn:Hse; [|done].
  destruct (session_of_inv B w s se HI Hse) as (sl & A1 & A2 & A3 & A4 & A5 & _).
  assert (get_session B s w = (w, Ok se)) as Hgs by (by apply get_session_eq with (s_slot se) sl).
  assert (waiting B w s = match s_login se with LRequired => true | _ => false end) as Hwt by (unfold waiting; by rewrite Hse).
  cut (wp (api P B E c) w (fun w' r => stops w w' r (if missing c || waiting B w s then None else Some CKR_OPERATION_NOT_INITIALIZED))).
  { intros Hw. apply stops_call in Hw as (H1 & H2 & H3). split_and!; [done|done|]. intros Hm Hm'. by rewrite Hm, Hm' in H3. }
  rewrite Hwt. clear Hwt Hs Hr HI A2.
  assert (forall k' (Q : world -> result (be_st B) -> Prop), k' = k ->
    (forall e, (match s_login se with LRequired => true | _ => false end = false -> e = CKR_OPERATION_NOT_INITIALIZED) -> Q w (Err e)) -> wp (cur_op B s k') w Q) as Hcur.
  { intros k' Q -> HQ. by apply wp_cur_off with se. }
  destruct c; cbn [continues session_of_call] in Hk, Hc; try (by destruct Hk); injection Hc as ->; cbn [api missing].
  all: unfold c_find_objects, c_sign, c_update, upd_op, c_sign_final, c_verify, c_verify_final, c_verify_signature, c_verify_signature_final, c_digest, c_digest_final, c_digest_key,
    c_crypt, c_crypt_update, c_crypt_final, c_message, c_message_begin, c_message_next, c_message_final, c_dual.
  all: try unfold crypt_update.
  all: repeat first
    [ lazymatch goal with
      | |- wp (Api.lock _) _ _ => apply wp_lock; [intros _|done]
      | |- wp (get_session _ _) _ _ => apply (wp_eq _ _ _ _ _ Hgs); cbv beta iota zeta
      | |- wp (lift (get_operation _ _ _)) _ _ => apply wp_lift; destruct (get_off se k Ha) as (? & Hg & ?); destruct Hk as [<-|[]]; rewrite Hg; clear Hg
      | |- wp (cur_op _ _ _) _ _ => apply Hcur; [|intros ? ?; cbv beta iota zeta]
      | |- wp (ensure _ _) _ _ => apply wp_ensure; intros ?; cbv beta iota
      | |- wp (deref _ ?d) _ _ => destruct d; cbn [deref nonnull andb orb] in *; [apply wp_ret|apply wp_fail]; cbv beta iota zeta; try discriminate
      end | wp_step ].
  all: try (lazymatch goal with |- _ = _ => idtac end; destruct Hk as [<-|Hk]; [congruence|]; destruct Hk as [<-|Hk]; [done|destruct Hk]).
  all: try (by destruct Hk).
  all: try (split; [done|eexists; split; [done|]]).
  all: try (by lazymatch goal with |- match (if ?b then _ else _) with _ => _ end => destruct b end).
  all: try (lazymatch goal with H : _ = false -> ?e = _ |- match (if ?b || ?q then _ else _) with _ => _ end => destruct q; [by rewrite orb_true_r|]; destruct b; [done|]; by apply H end).
  all: try (lazymatch goal with H : _ = false |- match (if ?b || ?q then _ else _) with _ => _ end => destruct q; [by rewrite orb_true_r|]; destruct b eqn:Hb; [done|]; exfalso; clear - H Hb; repeat lazymatch goal with x : option _ |- _ => destruct x end; repeat lazymatch goal with x : bytes |- _ => destruct x end; cbn in H, Hb; try done; try lia end).
Qed.

(* C20.  A call made in another session, or in none, leaves the operations of a session that stays open as they are. *)
Theorem C20_own_calls_only w c s : reachable w -> session_of_call c <> Some s -> session_of (after w c) s <> None -> session_of w s <> None ->
  ops_of B (after w c) s = ops_of B w s.
Proof.
  intros Hr Hc Hx Hy. pose proof (reachable_sess_inv P B E w Hr) as HI. unfold ops_of.
  destruct (session_of (after w c) s) as [se'|] eqn:H1; [|done]. destruct (session_of w s) as [se|] eqn:H2; [|done].
  assert (ops_kept B s w (after w c)) as Hk.
  { destruct (session_of_call c) as [h|] eqn:Hh; [|by apply kept_rest]. assert (h <> s) as Hne by congruence.
    destruct (apart c) eqn:Ha; [by apply kept_apart with h|]. destruct c; try discriminate Ha. injection Hh as ->. by apply from_kept, kept_login. }
  destruct (Hk se se' H2 H1) as [A1 A2]. cbn. by rewrite A1, A2.
Qed.
(* C20.  Whatever operations a session has, a call made in another session (C_Login aside) has the same effects and the
   same answer. *)
Theorem C20_others_do_not_matter w c s h x : session_of_call c = Some h -> h <> s -> apart c = true ->
  after (with_ops B s x w) c = with_ops B s x (after w c) /\ rv (with_ops B s x w) c = rv w c /\ out_of (with_ops B s x w) c = out_of w c.
Proof.
  intros Hc Hne Ha. pose proof (comm_api P B E s (fst x) (snd x) c h Hc Hne Ha w) as Hcm.
  assert (forall v, with_ops B s x v = sw B s (fst x) (snd x) v) as Heq by done. rewrite !Heq. unfold Spec.after, Spec.rv, Spec.out_of, step.
  rewrite Hcm. destruct (api P B E c w) as [w' [r|e]]; done.
Qed.
(* C20.  C_SessionCancel in an open session ends the operations its flags name and leaves the others, active or not, as
   they were; the session stays open.  It is refused only for the flags 0x8 and 0x10 (message signatures). *)
Lemma cancel_flag_bit fl f : existsb (N.eqb f) [0x2; 0x4; 0x40; 0x100; 0x200; 0x400; 0x800; 0x2000; 0x8; 0x10] = true -> has_flag fl f = negb (N.land fl f =? 0).
Proof.
  intros H. unfold has_flag. assert (exists n, f = 2 ^ n) as [n ->].
  { apply existsb_exists in H as (x & Hx & Hf). apply N.eqb_eq in Hf as ->.
    cbn [In] in Hx. repeat (destruct Hx as [<-|Hx]); [exists 1|exists 2|exists 6|exists 8|exists 9|exists 10|exists 11|exists 13|exists 3|exists 4|destruct Hx]; reflexivity. }
  clear H. destruct (N.testbit fl n) eqn:Hb.
  - assert (N.land fl (2 ^ n) = 2 ^ n) as ->.
    { apply N.bits_inj. intros m. rewrite N.land_spec, N.pow2_bits_eqb. destruct (N.eqb_spec n m) as [->|]; [by rewrite Hb|by rewrite andb_false_r]. }
    rewrite N.eqb_refl. symmetry. apply negb_true_iff, N.eqb_neq, N.pow_nonzero. lia.
  - assert (N.land fl (2 ^ n) = 0) as ->.
    { apply N.bits_inj. intros m. rewrite N.land_spec, N.pow2_bits_eqb, N.bits_0. destruct (N.eqb_spec n m) as [->|]; [by rewrite Hb|by rewrite andb_false_r]. }
    rewrite N.eqb_refl. cbn [negb]. apply N.eqb_neq. assert (2 ^ n <> 0) by (apply N.pow_nonzero; lia). lia.
Qed.
Lemma cancel_if_ops fl f k se k' : s_ops (cancel_if B fl f k se) !! k' = if has_flag fl f && bool_decide (k = k') then None else s_ops se !! k'.
Proof.
  unfold cancel_if. destruct (has_flag fl f); cbn [andb]; [|done]. unfold cancel_op, set_ops. cbn [s_ops].
  case_bool_decide as Hk; [subst; by rewrite lookup_delete|by rewrite lookup_delete_ne].
Qed.
Lemma cancel_if_rest fl f k se : s_login (cancel_if B fl f k se) = s_login se.
Proof. unfold cancel_if. by destruct (has_flag fl f). Qed.
Theorem C20_cancel w h fl se : reachable w -> session_of w h = Some se -> exists se',
  session_of (after w (SessionCancel h fl)) h = Some se' /\
  (forall k, s_ops se' !! k = if cancels fl k then None else s_ops se !! k) /\ s_login se' = s_login se /\
  rv w (SessionCancel h fl) = if (N.land fl 0x8 =? 0) && (N.land fl 0x10 =? 0) then CKR_OK else CKR_OPERATION_CANCEL_FAILED.
Proof.
  intros Hr Hs. pose proof (reachable_sess_inv P B E w Hr) as HI.
  destruct (session_of_inv B w h se HI Hs) as (sl & A1 & A2 & A3 & A4 & A5 & _).
  assert (get_session B h w = (w, Ok se)) as Hgs by (by apply get_session_eq with (s_slot se) sl).
  cut (wp (api P B E (SessionCancel h fl)) w (fun w' r =>
    (exists se', session_of w' h = Some se' /\ (forall k, s_ops se' !! k = if cancels fl k then None else s_ops se !! k) /\ s_login se' = s_login se) /\
    r = if (N.land fl 0x8 =? 0) && (N.land fl 0x10 =? 0) then Ok (CKR_OK, ONone) else Err CKR_OPERATION_CANCEL_FAILED)).
  { unfold wp, Spec.after, Spec.rv, step. destruct (api P B E (SessionCancel h fl) w) as [w' r]. cbn [fst snd].
    intros ((se' & H1 & H2 & H3) & ->). exists se'. by destruct ((N.land fl 8 =? 0) && (N.land fl 16 =? 0)). }
  cbn [api]. unfold c_session_cancel. wp_step. apply wp_lock; [intros _|done]. cbv beta iota zeta. wp_step.
  apply (wp_eq _ _ _ _ _ Hgs). cbv beta iota zeta. wp_step.
  eapply wp_eq; [by apply (upd_session_eq B h _ (s_slot se) sl)|]. cbv beta iota zeta. wp_step.
  match goal with |- wp (ensure _ _) ?w1 _ => assert (exists se', session_of w1 h = Some se' /\
    (forall k, s_ops se' !! k = if cancels fl k then None else s_ops se !! k) /\ s_login se' = s_login se) as Hw end.
  { unfold Spec.session_of, with_slot, set_slots. cbn [w_smap w_slots]. rewrite A1, lookup_insert. cbn [put_sessions sl_sessions].
    rewrite lookup_alter, A3. cbn [fmap option_fmap option_map]. eexists. split; [reflexivity|]. split; [|by rewrite !cancel_if_rest].
    intros k. rewrite !cancel_if_ops. rewrite !cancel_flag_bit by reflexivity. unfold cancels.
    destruct k; cbn [cancel_flag]; unfold CKF_VERIFY, CKF_SIGN, CKF_DIGEST, CKF_DECRYPT, CKF_ENCRYPT, CKF_FIND_OBJECTS, CKF_MESSAGE_DECRYPT, CKF_MESSAGE_ENCRYPT;
      repeat lazymatch goal with |- context [bool_decide (?a = ?b)] => first [rewrite (bool_decide_eq_true_2 (a = b)) by done|rewrite (bool_decide_eq_false_2 (a = b)) by done] end;
      rewrite ?andb_true_r, ?andb_false_r; cbv iota; done. }
  apply wp_ensure; intros Hf; rewrite !cancel_flag_bit in Hf by reflexivity; cbv beta iota.
  - apply wp_ret. split; [exact Hw|]. unfold CKF_MESSAGE_SIGN, CKF_MESSAGE_VERIFY in Hf.
    destruct (N.land fl 8 =? 0), (N.land fl 16 =? 0); cbn [negb orb andb] in *; first [done|discriminate Hf].
  - split; [exact Hw|]. unfold CKF_MESSAGE_SIGN, CKF_MESSAGE_VERIFY in Hf.
    destruct (N.land fl 8 =? 0), (N.land fl 16 =? 0); cbn [negb orb andb] in *; first [done|discriminate Hf].
Qed.
(* Exception: whatever its flags, C_SessionCancel does not end the verification of a signature given in advance, also when
   it returns CKR_OK. *)
Theorem C20_cancel_refuted w h fl : reachable w -> active B w h KVerifySig = true -> active B (after w (SessionCancel h fl)) h KVerifySig = true.
Proof.
  intros Hr Ha. unfold active in *. destruct (session_of w h) as [se|] eqn:Hs; [|done].
  destruct (C20_cancel w h fl se Hr Hs) as (se' & H1 & H2 & _). rewrite H1. unfold op_active in *. rewrite (H2 KVerifySig). exact Ha.
Qed.
End ops.

(* ---- examples and exceptions ---- *)

(* A key, a signature begun in session 2, a search in session 3. *)
Definition sign_key : list ckattr :=
  [tulong CKA_CLASS CKO_SECRET_KEY; tulong CKA_KEY_TYPE CKK_GENERIC_SECRET; tbool CKA_TOKEN false; tbool CKA_SIGN true; ca CKA_VALUE (repeat 9 16)].
Definition hmac : mech := (CKM_SHA256_HMAC, None).
Definition begun : list call :=
  [CreateObject 2 (Some (sign_key)) true; OpInit KSign 2 (Some hmac) 10 None; SignUpdate 2 (Some [1; 2]); FindObjectsInit 3 None 0].
Definition w20 : world toy_be := fst (toy_run toy_user begun).
Lemma scratch_reach P B E w : from_scratch P B E w -> reachable P B E w.
Proof. intros [cs H]. exists ∅, cs. exact H. Qed.
Lemma w20_reach : reachable toy toy_be toy_env w20.
Proof. unfold w20. apply scratch_reach, toy_user_scratch. Qed.
Example C20_case_begun : map fst (snd (toy_run toy_user begun)) = repeat CKR_OK 4 /\
  active toy_be w20 2 KSign = true /\ active toy_be w20 3 KSearch = true /\ active toy_be w20 3 KSign = false /\ active toy_be w20 2 KSearch = false.
Proof. split_and!; vm_compute; reflexivity. Qed.
Example C20_case_second : toy_rv w20 (OpInit KSign 2 (Some hmac) 10 None) = CKR_OPERATION_ACTIVE /\ toy_rv w20 (FindObjectsInit 3 None 0) = CKR_OPERATION_ACTIVE.
Proof. split_and!; vm_compute; reflexivity. Qed.
Example C20_case_none : toy_rv w20 (SignFinal 3 true (Some 10)) = CKR_OPERATION_NOT_INITIALIZED /\ toy_rv w20 (FindObjects 2 true 5 true) = CKR_OPERATION_NOT_INITIALIZED.
Proof. split_and!; vm_compute; reflexivity. Qed.
Example C20_case_apart : toy_rv w20 (FindObjects 3 true 5 true) = CKR_OK /\ toy_rv (with_ops toy_be 2 (∅, LNotInitialized) w20) (FindObjects 3 true 5 true) = CKR_OK /\
  active toy_be (with_ops toy_be 2 (∅, LNotInitialized) w20) 2 KSign = false /\ toy_rv w20 (SignFinal 2 true (Some 10)) = CKR_OK.
Proof. split_and!; vm_compute; reflexivity. Qed.

(* The signature of session 2 is cancelled by the flags for signatures and messages, not by those for verification. *)
Example C20_case_cancel : cancels 0x802 KSign = true /\ cancels 0x2400 KSign = false /\
  active toy_be (after toy toy_be toy_env w20 (SessionCancel 2 0x802)) 2 KSign = false /\ active toy_be (after toy toy_be toy_env w20 (SessionCancel 2 0x2400)) 2 KSign = true /\
  toy_rv w20 (SessionCancel 2 0x808) = CKR_OPERATION_CANCEL_FAILED.
Proof. split_and!; vm_compute; reflexivity. Qed.

Definition verify_key : list ckattr :=
  [tulong CKA_CLASS CKO_SECRET_KEY; tulong CKA_KEY_TYPE CKK_GENERIC_SECRET; tbool CKA_TOKEN false; tbool CKA_VERIFY true; ca CKA_VALUE (repeat 9 16)].
Definition given : list call := [CreateObject 2 (Some (verify_key)) true; OpInit KVerifySig 2 (Some hmac) 10 (Some (repeat 0 32))].
Example C20_case_given : map fst (snd (toy_run toy_user given)) = repeat CKR_OK 2 /\
  active toy_be (fst (toy_run toy_user given)) 2 KVerifySig = true /\ toy_rv (fst (toy_run toy_user given)) (SessionCancel 2 0x2F46) = CKR_OK /\
  active toy_be (after toy toy_be toy_env (fst (toy_run toy_user given)) (SessionCancel 2 0x2F46)) 2 KVerifySig = true.
Proof. split_and!; vm_compute; reflexivity. Qed.

(* Exception: without a search C_FindObjectsFinal returns CKR_OK. *)
Theorem C20_find_final_refuted : exists w s, from_scratch toy toy_be toy_env w /\ session_of toy_be w s <> None /\ active toy_be w s KSearch = false /\
  toy_rv w (FindObjectsFinal s) = CKR_OK.
Proof.
  exists (fst (toy_run toy_user begun)), 2. split; [apply toy_user_scratch|]. split; [|split; vm_compute; reflexivity].
  assert (active toy_be (fst (toy_run toy_user begun)) 2 KSign = true) as H by (vm_compute; reflexivity). unfold active in H. by destruct (session_of _ _ _).
Qed.
(* Exception: while a signature with a key that asks for a login each time waits for that login, a call that goes on with
   an operation of another kind, which is not active, is answered CKR_USER_NOT_LOGGED_IN. *)
Definition ec_params : ckattr := ca CKA_EC_PARAMS [6; 8; 42; 134; 72; 206; 61; 3; 1; 7].
Definition asks : list call :=
  [GenerateKeyPair 2 (Some (CKM_EC_KEY_PAIR_GEN, None)) (Some [ec_params]) (Some [tbool CKA_SIGN true; tbool CKA_ALWAYS_AUTHENTICATE true]) true true;
   OpInit KSign 2 (Some hmac) 11 None].
Theorem C20_waiting_refuted : exists w s, from_scratch toy toy_be toy_env w /\ active toy_be w s KDigest = false /\ waiting toy_be w s = true /\
  toy_rv w (DigestUpdate s (Some [1])) = CKR_USER_NOT_LOGGED_IN.
Proof. exists (fst (toy_run toy_user asks)), 2. split; [apply toy_user_scratch|]. split_and!; vm_compute; reflexivity. Qed.
