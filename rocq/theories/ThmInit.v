(* C30: initialising a token erases it. *)
From Verif Require Import Base Monad Hoare Attr Obj Factory Tables Create Sqlite Storage Token Backend State Api Toy ObjSpec PlainSpec
  Spec WorldWp Sessions SessionInv SessionFacts ObjWorld ObjFacts Errors ToyFacts ThmObjects AuthSpec Users AuthFacts AuthInv InitFacts ThmAuth.

Section init.
Context (P : params) (B : backend) (E : N -> keyenv) (Hfs : p_fs P = all_factories) (Hutf : forall n, utf8_valid (p_uuid P n) = true).
Context (HL : pin_laws P) (HS : sane (fun e => plain_code e = true) P B E).
Notation world := (world B). Notation token_of := (token_of B). Notation after := (after P B E). Notation rv := (rv P B E).
Notation record_of := (record_of B). Notation from_scratch := (from_scratch P B E).
Definition class_at (w : world) (sid h : N) : option N := match token_of w sid with Some t => class_of t h | None => None end.

Lemma no_token w sid pin label : token_of w sid = None -> rv w (InitToken sid pin label) <> CKR_OK /\ wrong_pin (rv w (InitToken sid pin label)) = false.
Proof.
  intros T1. rewrite rv_code. cbn [api]. assert (wp (c_init_token P B sid pin label) w (fun _ r => code r <> CKR_OK /\ wrong_pin (code r) = false)) as Hwp; [|exact Hwp].
  unfold c_init_token. destruct (N.eq_dec (w_next w) 0) as [Hz|Hz]; [eapply wp_bind, wp_eq; [by apply lock_off|]; done|].
  eapply wp_bind, wp_eq; [by apply lock_eq|]. cbv beta iota. apply wp_bind. unfold get_slot. apply wp_bind, wp_gets, wp_bind, wp_ensure; [intros _|done]. apply wp_bind, wp_gets.
  unfold Spec.token_of in T1. destruct (w_slots w !! sid); [done|]. by apply wp_fail.
Qed.

(* C30: after a successful C_InitToken every object of the slot is one of the module's own descriptions of mechanisms,
   belonging to no session; nothing is stored in its database, so nothing can come back; nobody is logged in; the user has
   no PIN; the record of the SO opens with the given PIN and no failures are counted. *)
Theorem C30_init_token_erases w sid pin label : from_scratch w -> rv w (InitToken sid pin label) = CKR_OK ->
  let w' := after w (InitToken sid pin label) in
  (forall h u, id_at B w' sid h = Some u -> class_at w' sid h = Some CKO_MECHANISM /\ session_object_at B w' sid h = true /\ owner_at B w' sid h = None) /\
  d_objs (db_at B w' sid) = ∅ /\
  logged B w' sid = Some KRY_UNSPEC /\
  record_of w' sid CKU_USER = Err CKR_USER_PIN_NOT_INITIALIZED /\
  exists i b v k, record_of w' sid CKU_SO = Ok i /\ ai_cur i = 0 /\ ai_data i = Some b /\ p_open_key P SO_ID (default [] pin) b = Some (v, k).
Proof.
  intros Hw Hr w'. pose proof (scratch_winv P B E Hfs Hutf w Hw) as Hi. destruct (token_of w sid) as [t|] eqn:T1; [|by apply (no_token w sid pin label) in T1 as [T1 _]].
  destruct (init_token_run P B E w sid pin label t (fun t' r => inited P (default [] pin) t t' r /\ (r = Ok tt -> erased P t')) Hi T1) as [[_ H]|(t' & r & T2 & [Hin Her] & Hr')].
  - split; [apply (wp_tk_initialize P (Hty P HL) B E HS)|by apply init_erases].
  - rewrite Hr in H. discriminate H.
  - assert (r = Ok tt) as ->. { destruct r as [[]|e]; [done|]. rewrite Hr in Hr'. unfold init_code in Hr'. destruct (pin_code e) eqn:Hp; [|discriminate Hr']. rewrite <- Hr' in Hp. discriminate Hp. }
    fold w' in T2. specialize (Her eq_refl). destruct Her as [[O1 O2] O3]. inversion Hin as [|t1 e S1|t1 r0 S1 S2 Hok]; subst. destruct S2 as [W1 W2 W3 W4 (n & N1 & N2 & N3 & N4) W6].
    unfold AuthSpec.record_of. rewrite (db_token _ _ _ _ T2), (logged_token _ _ _ _ T2). split_and!.
    + intros h u. unfold id_at, class_at, session_object_at, owner_at. rewrite T2. unfold object_id, class_of, num_of, attr_of, is_session_object, owner.
      destruct (t_sobjs t' !! h) as [o|] eqn:Ho.
      * intros _. destruct (O1 _ _ Ho) as (m & o0 & Hm & ->). destruct (builtin_class P Hfs m o0 Hm) as (a & H1 & H2 & _).
        assert (get_attr (set_session (set_handle o0 h) CK_INVALID_HANDLE) CKA_CLASS = get_attr o0 CKA_CLASS) as -> by done. rewrite H1. unfold opt. rewrite H2. done.
      * destruct (h_map (t_handles t') !! h) as [u'|] eqn:Hu; [|done]. destruct (O2 _ _ Hu). congruence.
    + done.
    + by rewrite W4.
    + change (user_row CKU_USER) with USER_ID. unfold fetch_user. rewrite W1. cbn [negb]. rewrite !W2 by (unfold user_meta; auto). done.
    + destruct (N4 eq_refl) as (r0 & b & Hs & Hb & i & Hi' & Hc & Hd). exists i, b, (t_ver t1 + 1), (p_master P n). split_and!; try done. by apply (pl_open _ HL) in Hs.
Qed.
(* C30: a wrong SO PIN changes nothing but the counter (and the flags showing it): every object, the login, the record of
   the user, and the SO's PIN stay. *)
Theorem C30_wrong_pin_changes_nothing w sid pin label : from_scratch w -> wrong_pin (rv w (InitToken sid pin label)) = true ->
  let w' := after w (InitToken sid pin label) in
  (forall h ty, id_at B w' sid h = id_at B w sid h /\ attr_at B w' sid h ty = attr_at B w sid h ty) /\
  d_objs (db_at B w' sid) = d_objs (db_at B w sid) /\ logged B w' sid = logged B w sid /\
  record_of w' sid CKU_USER = record_of w sid CKU_USER /\
  exists i i', record_of w sid CKU_SO = Ok i /\ record_of w' sid CKU_SO = Ok i' /\ ai_data i' = ai_data i.
Proof.
  intros Hw Hr w'. pose proof (scratch_winv P B E Hfs Hutf w Hw) as Hi. destruct (token_of w sid) as [t|] eqn:T1; [|apply (no_token w sid pin label) in T1 as [_ T1]; congruence].
  destruct (init_token_run P B E w sid pin label t (fun t' r => inited P (default [] pin) t t' r /\ (same_objs t t' \/ okerr (fun e => plain_code e = true) r)) Hi T1) as [[_ H]|(t' & r & T2 & [Hin Her] & Hr')].
  - split; [apply (wp_tk_initialize P (Hty P HL) B E HS)|by apply (init_refused P B E HS)].
  - by rewrite H in Hr.
  - destruct r as [[]|e]; [by rewrite Hr' in Hr|]. assert (pin_code e = true) as Hp. { rewrite Hr' in Hr. unfold init_code in Hr. by destruct (pin_code e). }
    assert (wrong_pin e = true) as Hwp. { rewrite Hr' in Hr. unfold init_code in Hr. by rewrite Hp in Hr. }
    assert (plain_code e = false) as Hpl by (unfold plain_code; lia). fold w' in T2.
    assert (same_objs t t') as (M1 & M2 & M3). { destruct Her as [Her|Her]; [done|]. cbn in Her. congruence. }
    inversion Hin as [e' Hti Htr|t1 e' S1 S2 S3 S4 S5 S6 S7|t1 r0 S1 S2 Hok]; subst; [|congruence|cbn in Hok; congruence].
    unfold AuthSpec.record_of. rewrite (db_token _ _ _ _ T1), (db_token _ _ _ _ T2), (logged_token _ _ _ _ T1), (logged_token _ _ _ _ T2). split_and!.
    + intros h ty. unfold id_at, attr_at. rewrite T1, T2. unfold object_id, attr_of, rows_of. by rewrite M1, M2, M3.
    + done.
    + f_equal. inversion Htr as [e0 K1 K2 K3|i b' v k A1 A2 A3 A4 A5 A6|i A1 A2 A3|i b' e0 A1 A2 A3 A4 A5 [[_ A6]|A6]|]; subst; try apply K1; try apply A3; try apply A6; done.
    + change (user_row CKU_USER) with USER_ID. eapply tried_other; [exact Htr|done].
    + change (user_row CKU_SO) with SO_ID. apply tried_rec in Htr. rewrite Hwp in Htr. destruct Htr as (i & R1 & i' & R2 & R3 & _). eauto 6.
Qed.
(* C30: with a session open on the slot it is refused and nothing at all changes. *)
Theorem C30_open_session_refused w sid pin label h s : from_scratch w -> session_of B w h = Some s -> s_slot s = sid ->
  rv w (InitToken sid pin label) = CKR_SESSION_EXISTS /\ after w (InitToken sid pin label) = w.
Proof.
  intros Hw Hs <-. pose proof (scratch_winv P B E Hfs Hutf w Hw) as [_ HI]. destruct (session_of_inv B w h s HI Hs) as (sl & H1 & H2 & H3 & _ & Hn & _).
  rewrite rv_code. unfold Spec.after. rewrite run_step. cbn [api]. cut (wp (c_init_token P B (s_slot s) pin label) w (fun w' r => code r = CKR_SESSION_EXISTS /\ w' = w)); [by intros X; apply X|].
  unfold c_init_token. eapply wp_bind, wp_eq; [by apply lock_eq|]. eapply wp_bind, wp_get_slot_eq; [done|done|]. apply wp_bind, wp_ensure; [|done].
  intros X. apply bool_decide_eq_true in X. by rewrite X, lookup_empty in H3.
Qed.
End init.

(* A token with a private key object of the user, then initialised again. *)
Definition used : list call := home ++ [good; CreateObject 2 (Some (aes_tmpl true)) true; CreateObject 2 (Some (aes_tmpl false)) true; CloseSession 2].
Example C30_case : from_scratch toy toy_be toy_env (toy_end used) /\ toy_rv (toy_end used) (InitToken 0 (Some so_pin) None) = CKR_OK /\
  size (d_objs (db_at toy_be (toy_end used) 0)) = 1%nat /\ logged toy_be (toy_end used) 0 = Some KRY_UNSPEC.
Proof. split; [by exists used|]. split_and!; vm_compute; reflexivity. Qed.
Example C30_case_wrong : toy_rv (toy_end used) (InitToken 0 (Some [9]) None) = CKR_PIN_INCORRECT.
Proof. vm_compute. reflexivity. Qed.
Example C30_case_open : toy_rv (toy_end (home ++ [good])) (InitToken 0 (Some so_pin) None) = CKR_SESSION_EXISTS.
Proof. vm_compute. reflexivity. Qed.
