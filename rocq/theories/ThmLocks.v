(* Property C32: threads calling the module do not block each other for ever. *)
From Verif Require Import Base Monad Attr Obj Factory Create Sqlite Storage Token Backend State Api Spec Locks.
Local Open Scope nat_scope.

(* ---- specification ---- *)
(* Thread i wants a lock that thread j holds (in any mode: a reader may also be made to wait behind a waiting writer). *)
Definition waits (ths : list thread) (i j : nat) : Prop :=
  exists t t' l m m' td, ths !! i = Some t /\ t_todo t = Acq l m :: td /\ ths !! j = Some t' /\ In (l, m') (t_held t').
Definition finished (t : thread) : Prop := t_todo t = [] /\ t_rest t = [].
(* Thread i can do its next step, even if readers have to wait whenever some writer wants the lock. *)
Definition can_go (ths : list thread) (i : nat) : Prop :=
  exists t, ths !! i = Some t /\
  match t_todo t with
  | [] => t_held t = [] /\ t_rest t <> []
  | Rel _ :: _ => True
  | Acq l m :: _ => free ths l m /\ (m = R -> forall t' td, In t' ths -> t_todo t' <> Acq l W :: td)
  end.
(* Some thread is not done, and none of them can ever go on, not even with readers going first. *)
Definition deadlock (ths : list thread) : Prop :=
  (exists t, In t ths /\ ~ finished t) /\
  forall i t, ths !! i = Some t -> finished t \/ exists l m td, t_todo t = Acq l m :: td /\ ~ free ths l m.

(* C_Login and C_Logout change every session of the slot while they hold its token. *)
Definition login_like (c : call) : bool := match c with Login _ _ _ | Logout _ => true | _ => false end.
(* The calls that keep their session locked and then lock the token. *)
Definition holds_both (c : call) : bool :=
  match c with
  | SetPIN _ _ _ | GetOperationState _ _ _ | SetOperationState _ _ _ _ | CreateObject _ _ _ | CopyObject _ _ _ _ _
  | DestroyObject _ _ | SetAttributeValue _ _ _ _ | FindObjectsInit _ _ _ | OpInit _ _ _ _ _ | DigestInit _ _
  | Sign _ _ _ _ | SignFinal _ _ _ | Verify _ _ _ | VerifyFinal _ _ | VerifySignature _ _ | VerifySignatureFinal _
  | DigestKey _ _ | EncryptMessageBegin _ _ _ | DecryptMessageBegin _ _ _ | GenerateKey _ _ _ _
  | GenerateKeyPair _ _ _ _ _ _ | WrapKey _ _ _ _ _ _ | UnwrapKey _ _ _ _ _ _ | DeriveKey _ _ _ _ _ _
  | EncapsulateKey _ _ _ _ _ _ _ | DecapsulateKey _ _ _ _ _ _ => true
  | _ => false
  end.
(* In fips builds these lock the session again while they hold the token. *)
Definition locks_again (c : call) : bool :=
  match c with DeriveKey _ _ _ _ _ _ | EncapsulateKey _ _ _ _ _ _ _ | DecapsulateKey _ _ _ _ _ _ => true | _ => false end.
Definition on_slot (p : view * call) : option N := v_slot p.1 <$> session_of_call p.2.

(* Each thread makes its list of calls, each call with what it finds. *)
Definition scripts (fips : bool) (prog : list (list (view * call))) : list (list (list act)) :=
  map (map (fun p => script fips p.1 p.2)) prog.
(* On no slot is a C_Login or C_Logout mixed with calls that hold their session while they take the token. *)
Definition apart (fips : bool) (prog : list (list (view * call))) : Prop :=
  (forall p q, In p (concat prog) -> In q (concat prog) -> login_like p.2 = true -> holds_both q.2 = true ->
               on_slot p <> on_slot q) /\
  (fips = true -> forall p, In p (concat prog) -> locks_again p.2 = false).

(* ---- ordered locking ---- *)
Section order.
Context (rank : lock -> nat).

Fixpoint ordered (held : list (lock * mode)) (acts : list act) : Prop :=
  match acts with
  | [] => held = []
  | Acq l m :: r => Forall (fun p => rank p.1 < rank l) held /\ ordered ((l, m) :: held) r
  | Rel l :: r => ordered (release l held) r
  end.
Definition nested (n : nat) (acts : list act) : Prop :=
  forall held k, Forall (fun p => rank p.1 < n) held -> ordered held k -> ordered held (acts ++ k).

Lemma nested_nil n : nested n [].
Proof. intros held k _ H. done. Qed.
Lemma nested_app n a b : nested n a -> nested n b -> nested n (a ++ b).
Proof. intros Ha Hb held k Hh Hk. rewrite <-app_assoc. apply Ha; [done|]. by apply Hb. Qed.
Lemma nested_join n l : Forall (nested n) l -> nested n (mjoin l).
Proof.
  induction 1 as [|a l Ha Hl IH]; [apply nested_nil|]. change (mjoin (a :: l)) with (a ++ mjoin l). by apply nested_app.
Qed.
Lemma nested_mono n n' a : n' <= n -> nested n a -> nested n' a.
Proof.
  intros Hn Ha held k Hh. apply Ha. eapply List.Forall_impl; [|exact Hh]. cbn. intros. lia.
Qed.
Lemma release_none l held : Forall (fun p => rank p.1 < rank l) held -> release l held = held.
Proof.
  induction 1 as [|p held Hp Hh IH]; [done|]. unfold release in *. cbn [List.filter].
  rewrite bool_decide_eq_false_2; [by rewrite IH|]. intros E. rewrite E in Hp. lia.
Qed.
Lemma nested_lock n l m body : n <= rank l -> nested (S (rank l)) body -> nested n (with_lock l m body).
Proof.
  intros Hn Hb held k Hh Hk. unfold with_lock. cbn [app ordered].
  assert (Hl : Forall (fun p => rank p.1 < rank l) held)
    by (eapply List.Forall_impl; [|exact Hh]; cbn; intros; lia).
  split; [done|]. rewrite <-app_assoc. apply Hb.
  - constructor; [cbn; lia|]. eapply List.Forall_impl; [|exact Hl]. cbn. intros. lia.
  - cbn [app ordered]. assert (E : release l ((l, m) :: held) = held); [|by rewrite E].
    unfold release. cbn [List.filter]. rewrite bool_decide_eq_true_2; [|done]. cbn [negb]. by apply release_none.
Qed.

Definition thread_ok (t : thread) : Prop :=
  ordered (t_held t) (t_todo t) /\ Forall (ordered []) (t_rest t).

Lemma step_ok ths ths' : Forall thread_ok ths -> step ths ths' -> Forall thread_ok ths'.
Proof.
  intros H Hs. inversion Hs as [i s r Hi|i held l m td r Hi Hf|i held l td r Hi|i held td r Hi]; subst;
    (apply Forall_insert; [done|]); rewrite Forall_lookup in H; specialize (H _ _ Hi); destruct H as [H1 H2];
    cbn in H1, H2; split; cbn; try done.
  - by inversion H2.
  - by inversion H2.
  - tauto.
Qed.
Lemma reached_ok prog ths : Forall (Forall (ordered [])) prog -> reached prog ths -> Forall thread_ok ths.
Proof.
  intros Hp Hr. unfold reached in Hr. assert (H0 : Forall thread_ok (start prog)).
  { unfold start. clear Hr. induction Hp as [|x l Hx Hl IH]; cbn; constructor; [|done]. split; done. }
  clear Hp. induction Hr as [|x y z Hxy Hyz IH]; [done|]. apply IH. by eapply step_ok.
Qed.

Lemma waits_up ths i j : Forall thread_ok ths -> waits ths i j ->
  forall k, waits ths j k ->
  forall t t' l m td l' m' td', ths !! i = Some t -> t_todo t = Acq l m :: td ->
    ths !! j = Some t' -> t_todo t' = Acq l' m' :: td' -> rank l < rank l'.
Proof.
  intros Hok (t0 & t1 & l0 & m0 & m1 & td0 & A1 & A2 & A3 & A4) k _ t t' l m td l' m' td' B1 B2 B3 B4.
  rewrite A1 in B1. injection B1 as <-. rewrite A3 in B3. injection B3 as <-. rewrite A2 in B2. injection B2 as <- <- <-.
  rewrite Forall_lookup in Hok. destruct (Hok _ _ A3) as [O _]. rewrite B4 in O. destruct O as [O _].
  eapply List.Forall_forall in O; [|exact A4]. done.
Qed.

Lemma no_cycle ths i : Forall thread_ok ths -> ~ tc (waits ths) i i.
Proof.
  intros Hok. cut (forall a b, tc (waits ths) a b -> forall c, waits ths b c ->
    forall t t' l m td l' m' td', ths !! a = Some t -> t_todo t = Acq l m :: td ->
    ths !! b = Some t' -> t_todo t' = Acq l' m' :: td' -> rank l < rank l').
  - intros G Hc. assert (exists c, waits ths i c) as (c & Hw) by (inversion Hc; eauto).
    assert (Hw' := Hw). destruct Hw' as (t & _ & l & m & _ & td & A1 & A2 & _).
    specialize (G i i Hc c Hw t t l m td l m td A1 A2 A1 A2). lia.
  - induction 1 as [a b Hab|a b d Hab Hbd IH].
    + intros c Hbc. exact (waits_up ths a b Hok Hab c Hbc).
    + intros c Hdc t t' l m td l' m' td' A1 A2 B1 B2.
      assert (exists e, waits ths b e) as (e & Hw) by (inversion Hbd; eauto).
      assert (Hw' := Hw). destruct Hw' as (t1 & _ & l1 & m1 & _ & td1 & C1 & C2 & _).
      assert (rank l < rank l1) by exact (waits_up ths a b Hok Hab e Hw _ _ _ _ _ _ _ _ A1 A2 C1 C2).
      assert (rank l1 < rank l') by exact (IH c Hdc _ _ _ _ _ _ _ _ C1 C2 B1 B2). lia.
Qed.

Lemma free_or_held ths l m : free ths l m \/ exists j t m', ths !! j = Some t /\ In (l, m') (t_held t).
Proof.
  unfold free. induction ths as [|t ths IH].
  - left. intros t m' [].
  - destruct (decide (l ∈ (t_held t).*1)) as [H|H].
    + right. apply elem_of_list_fmap in H as ([l' m'] & E & H). cbn in E. subst l'. apply elem_of_list_In in H.
      exists 0, t, m'. done.
    + destruct IH as [IH|(j & t' & m' & J1 & J2)].
      * left. intros t' m' [<-|Ht] Hin; [|by eapply IH]. exfalso. apply H. apply elem_of_list_fmap.
        exists (l, m'). split; [done|]. by apply elem_of_list_In.
      * right. exists (S j), t', m'. done.
Qed.

Lemma writer_dec (ths : list thread) l :
  (exists i t td, ths !! i = Some t /\ t_todo t = Acq l W :: td) \/ (forall t td, In t ths -> t_todo t <> Acq l W :: td).
Proof.
  induction ths as [|t ths [(i & t' & td & I1 & I2)|IH]].
  - right. intros t td [].
  - left. exists (S i), t', td. done.
  - destruct (t_todo t) as [|[l' [|]|l'] td] eqn:E.
    1,2,4: right; intros t' td' [<-|Ht] E'; [congruence|by eapply IH].
    destruct (decide (l' = l)) as [->|Hne].
    + left. exists 0, t, td. done.
    + right. intros t' td' [<-|Ht] E'; [congruence|by eapply IH].
Qed.

Lemma progress top ths : (forall l, rank l < top) -> Forall thread_ok ths ->
  Forall finished ths \/ exists i, can_go ths i.
Proof.
  intros Htop Hok.
  assert (G : forall n i t l m td, ths !! i = Some t -> t_todo t = Acq l m :: td -> top <= rank l + n ->
              exists j, can_go ths j).
  { induction n as [|n IH]; intros i t l m td Hi Ht Hn; [specialize (Htop l); lia|].
    destruct (free_or_held ths l m) as [Hf|(j & t' & m' & J1 & J2)].
    - destruct m.
      + destruct (writer_dec ths l) as [(k & t' & td' & K1 & K2)|Hno].
        * destruct (free_or_held ths l W) as [Hf'|(j & t1 & m' & J1 & J2)].
          -- exists k, t'. split; [done|]. rewrite K2. split; [done|]. intros [=].
          -- rewrite Forall_lookup in Hok. destruct (Hok _ _ J1) as [O _].
             destruct (t_todo t1) as [|[l1 m1|l1] td1] eqn:E1.
             ++ cbn in O. rewrite O in J2. destruct J2.
             ++ cbn in O. destruct O as [O _]. eapply List.Forall_forall in O; [|exact J2]. cbn in O.
                eapply (IH j); [exact J1|exact E1|lia].
             ++ exists j, t1. split; [done|]. by rewrite E1.
        * exists i, t. split; [done|]. rewrite Ht. done.
      + exists i, t. split; [done|]. rewrite Ht. split; [done|]. intros [=].
    - rewrite Forall_lookup in Hok. destruct (Hok _ _ J1) as [O _].
      destruct (t_todo t') as [|[l1 m1|l1] td1] eqn:E1.
      ++ cbn in O. rewrite O in J2. destruct J2.
      ++ cbn in O. destruct O as [O _]. eapply List.Forall_forall in O; [|exact J2]. cbn in O.
         eapply (IH j); [exact J1|exact E1|lia].
      ++ exists j, t'. split; [done|]. by rewrite E1. }
  assert (D : Forall finished ths \/ exists i t, ths !! i = Some t /\ ~ finished t).
  { clear. induction ths as [|t ths [IH|(i & t' & I1 & I2)]].
    - left. constructor.
    - unfold finished at 2. destruct (t_todo t) eqn:E; [destruct (t_rest t) eqn:E'|].
      + left. constructor; [split; done|done].
      + right. exists 0, t. split; [done|]. intros [_ X]. congruence.
      + right. exists 0, t. split; [done|]. intros [X _]. congruence.
    - right. exists (S i), t'. done. }
  destruct D as [D|(i & t & Hi & Hn)]; [by left|]. right.
  assert (Hok' := Hok). rewrite Forall_lookup in Hok'. destruct (Hok' _ _ Hi) as [O _].
  destruct (t_todo t) as [|[l m|l] td] eqn:E.
  - exists i, t. split; [done|]. rewrite E. cbn in O. split; [done|]. intros X. apply Hn. done.
  - eapply (G top); [exact Hi|exact E|lia].
  - exists i, t. split; [done|]. by rewrite E.
Qed.
End order.

(* ---- the scripts are ordered ---- *)
Section scripts_ok.
Context (P : N -> bool).
Definition rank (l : lock) : nat :=
  match l with
  | LConfig => 0 | LState => 1
  | LToken s => if P s then 2 else 3
  | LSession s _ => if P s then 3 else 2
  | LDb _ => 4
  end.

Lemma db_nested v s n : n <= 4 -> nested rank n (db_calls v s).
Proof.
  intros Hn. unfold db_calls. apply nested_join. apply List.Forall_forall. intros a Ha. apply elem_of_list_In, elem_of_replicate in Ha as [-> _].
  apply nested_lock; [cbn; lia|apply nested_nil].
Qed.
Lemma token_nested v s m n : n <= rank (LToken s) -> nested rank n (with_token v s m).
Proof. intros Hn. apply nested_lock; [done|]. apply db_nested. cbn. destruct (P s); lia. Qed.
Lemma session_nested v h m n : n <= rank (LSession (v_slot v h) h) -> nested rank n (session_lock v h m []).
Proof. intros Hn. apply nested_lock; [done|]. apply nested_nil. Qed.
Lemma each_nested m l s n : n <= rank (LSession s 0) -> nested rank n (each_session m l s).
Proof.
  intros Hn. apply nested_join. apply List.Forall_forall. intros a Ha. apply in_map_iff in Ha as (h & <- & _).
  apply nested_lock; [done|apply nested_nil].
Qed.
Lemma both_nested v h ms mt body : P (v_slot v h) = false -> (body = with_token v (v_slot v h) mt \/ body = []) ->
  nested rank 0 (with_lock LState R (session_lock v h ms body)).
Proof.
  intros E Hb. apply nested_lock; [cbn; lia|]. apply nested_lock; [cbn; rewrite E; cbn; lia|].
  destruct Hb as [->| ->]; [|apply nested_nil]. apply token_nested. cbn. rewrite E. lia.
Qed.
Lemma token_only_nested v s m : nested rank 0 (token_only v s m).
Proof. apply nested_lock; [cbn; lia|]. apply token_nested. cbn. destruct (P s); lia. Qed.
Lemma session_only_nested v h m : nested rank 0 (session_only v h m).
Proof. apply nested_lock; [cbn; lia|]. apply session_nested. cbn. destruct (P _); lia. Qed.

Lemma script_nested fips v c :
  (login_like c = true -> forall s, on_slot (v, c) = Some s -> P s = true) ->
  (holds_both c = true -> forall s, on_slot (v, c) = Some s -> P s = false) ->
  (fips = true -> locks_again c = false) ->
  nested rank 0 (script fips v c).
Proof.
  intros HL HB HF.
  destruct c; cbn [login_like holds_both locks_again] in HL, HB, HF; cbn [script];
    try apply nested_nil; try apply token_only_nested; try apply session_only_nested;
    try (specialize (HB eq_refl _ eq_refl); cbn [fst] in HB);
    try (eapply both_nested; [exact HB|left; reflexivity]);
    try (unfold session_maybe_token; destruct (v_updates v);
         [eapply (both_nested v h W W); [exact HB|left; reflexivity]|eapply (both_nested v h W W); [exact HB|right; reflexivity]]);
    try (unfold key_again; destruct fips; [by specialize (HF eq_refl)|];
         eapply both_nested; [exact HB|left; reflexivity]).
  - apply nested_lock; [cbn; lia|]. apply nested_lock; [cbn; lia|]. apply nested_join. apply List.Forall_forall.
    intros a Ha. apply in_map_iff in Ha as (x & <- & _). apply db_nested. cbn. lia.
  - apply nested_lock; [cbn; lia|]. apply nested_lock; [cbn; lia|]. apply nested_join. apply List.Forall_forall.
    intros a Ha. apply in_map_iff in Ha as (x & <- & _). apply token_nested. cbn. destruct (P x); lia.
  - apply nested_lock; [cbn; lia|apply nested_nil].
  - apply nested_lock; [cbn; lia|apply nested_nil].
  - apply nested_lock; [cbn; lia|]. apply token_nested. cbn. destruct (P _); lia.
  - apply nested_lock; [cbn; lia|]. apply nested_app; [|destruct (v_last v); [|apply nested_nil]];
      apply token_nested; cbn; destruct (P _); lia.
  - apply nested_lock; [cbn; lia|]. apply token_nested. cbn. destruct (P _); lia.
  - specialize (HL eq_refl _ eq_refl). cbn [fst] in HL. unfold login_acts. cbv zeta.
    apply nested_lock; [cbn; lia|]. apply nested_app; [apply session_nested; cbn; rewrite HL; lia|].
    apply nested_app; [destruct (_ =? _)%N; [|apply nested_nil]; apply each_nested; cbn; rewrite HL; lia|].
    apply nested_lock; [cbn; rewrite HL; lia|].
    assert (Hd : nested rank (S (rank (LToken (v_slot v h)))) (db_calls v (v_slot v h)))
      by (apply db_nested; cbn; rewrite HL; lia).
    assert (He : forall m l, nested rank (S (rank (LToken (v_slot v h)))) (each_session m l (v_slot v h)))
      by (intros; apply each_nested; cbn; rewrite HL; lia).
    assert (Hs : nested rank (S (rank (LToken (v_slot v h)))) (session_lock v h W []))
      by (apply session_nested; cbn; rewrite HL; lia).
    destruct (ut =? CKU_CONTEXT_SPECIFIC)%N.
    + apply nested_app; [done|]. apply nested_app; [done|]. destruct (_ =? _)%N; [done|].
      destruct (_ =? _)%N; [|apply nested_nil]. by apply nested_app.
    + apply nested_app; [done|]. destruct (_ =? _)%N; [|apply nested_nil]. destruct (v_fail v); [|done].
      apply nested_app; [done|]. by apply nested_app.
  - specialize (HL eq_refl _ eq_refl). cbn [fst] in HL. unfold logout_acts. cbv zeta.
    apply nested_lock; [cbn; lia|]. apply nested_app; [apply session_nested; cbn; rewrite HL; lia|].
    apply nested_lock; [cbn; rewrite HL; lia|]. apply nested_app; [apply db_nested|apply each_nested]; cbn; rewrite HL; lia.
  - apply nested_app; [|apply token_only_nested]. apply nested_lock; [cbn; lia|apply nested_nil].
  - destruct k; try apply nested_nil; specialize (HB eq_refl _ eq_refl); cbn [fst] in HB;
      (eapply both_nested; [exact HB|left; reflexivity]).
Qed.
End scripts_ok.

(* The slots on which some thread calls C_Login or C_Logout. *)
Definition login_slots (prog : list (list (view * call))) (s : N) : bool :=
  existsb (fun p => login_like p.2 && bool_decide (on_slot p = Some s)) (concat prog).

Lemma apart_ordered fips prog : apart fips prog ->
  Forall (Forall (ordered (rank (login_slots prog)) [])) (scripts fips prog).
Proof.
  intros [A1 A2]. apply List.Forall_forall. intros l Hl. apply in_map_iff in Hl as (t & <- & Ht).
  apply List.Forall_forall. intros s Hs. apply in_map_iff in Hs as (p & <- & Hp).
  assert (Hin : In p (concat prog)) by (apply in_concat; eauto).
  assert (G := script_nested (login_slots prog) fips p.1 p.2).
  rewrite <-(app_nil_r (script fips p.1 p.2)). apply G; [| | |constructor|done]; clear G.
  - intros HL s Hs. apply existsb_exists. exists p. split; [done|]. rewrite HL. cbn [andb].
    apply bool_decide_eq_true_2. by destruct p.
  - intros HB s Hs. apply not_true_iff_false. intros X. apply existsb_exists in X as (q & Q1 & Q2).
    apply andb_true_iff in Q2 as [Q2 Q3]. apply bool_decide_eq_true_1 in Q3.
    apply (A1 q p Q1 Hin Q2 HB). rewrite Q3. by destruct p.
  - intros Hf. by apply A2.
Qed.

(* ---- the property ---- *)

(* Whatever the threads, their calls and the order in which their steps are interleaved: there is no ring of threads in
   which each wants a lock that the next one holds. *)
Theorem C32_no_cycle_partial : forall fips prog ths i,
  apart fips prog -> reached (scripts fips prog) ths -> ~ tc (waits ths) i i.
Proof.
  intros fips prog ths i Ha Hr. eapply no_cycle. eapply reached_ok; [|exact Hr]. by apply apart_ordered.
Qed.
(* And as long as some thread is not done, some thread can do its next step, even if writers always go first. *)
Theorem C32_progress_partial : forall fips prog ths,
  apart fips prog -> reached (scripts fips prog) ths -> Forall finished ths \/ exists i, can_go ths i.
Proof.
  intros fips prog ths Ha Hr. eapply (progress (rank (login_slots prog)) 5).
  - intros l. destruct l; cbn; try lia; destruct (login_slots prog _); lia.
  - eapply reached_ok; [|exact Hr]. by apply apart_ordered.
Qed.

(* ---- the exceptions ---- *)
Definition one_slot : view := View (fun _ => 0%N) (fun _ => [2; 3]%N) [0%N] 1 false false CKR_OK None.
Definition sign_init (h : N) : call := OpInit KSign h None 10 None.

Ltac go_acq i := eapply rtc_l; [eapply (step_acq _ i); [reflexivity|
  let t := fresh in let m := fresh in let H1 := fresh in let H2 := fresh in
  intros t m H1 H2; cbn in H1; repeat destruct H1 as [<-|H1]; cbn in H2;
  repeat (destruct H2 as [H2|H2]); try done; try discriminate H2; inversion H2; reflexivity]|cbn [insert list_insert]].
Ltac go_rel i := eapply rtc_l; [eapply (step_rel _ i); reflexivity|
  cbn [insert list_insert]; unfold release; cbn [List.filter fst];
  repeat first [rewrite bool_decide_eq_true_2 by done|rewrite bool_decide_eq_false_2 by done]; cbn [negb]].
Ltac go_call i := eapply rtc_l; [eapply (step_call _ i); reflexivity|cbn [insert list_insert]].

(* One thread calls C_SignInit, another C_Login on another session of the same slot: each ends up waiting for a lock the
   other holds. *)
Theorem C32_login_refuted : exists ths,
  reached (scripts false [[(one_slot, sign_init 2)]; [(one_slot, Login 3 CKU_USER None)]]) ths /\ deadlock ths.
Proof.
  eexists. split.
  - unfold reached, start, scripts, script, sign_init, session_token, login_acts, session_lock, with_token, db_calls,
      each_session, with_lock.
    cbn. go_call 0. go_acq 0. go_acq 0. go_call 1. go_acq 1. go_acq 1. go_rel 1. go_acq 1. go_acq 1. go_rel 1.
    apply rtc_refl.
  - split.
    + eexists. split; [left; reflexivity|]. intros [X _]. discriminate X.
    + intros [|[|i]] t Ht; cbn in Ht; [| |done].
      all: injection Ht as <-; right; eexists _, _, _; split; [reflexivity|]; intros F.
      * specialize (F _ W (or_intror (or_introl eq_refl)) (or_introl eq_refl)). discriminate F.
      * specialize (F _ W (or_introl eq_refl) (or_introl eq_refl)). discriminate F.
Qed.

(* In a fips build two calls on one session suffice: C_DeriveKey gives its session back, another call takes it, and then
   each wants what the other has. *)
Definition derive (h : N) : call := DeriveKey h None 10 None true 0.
Theorem C32_fips_refuted : exists ths,
  reached (scripts true [[(one_slot, derive 2)]; [(one_slot, sign_init 2)]]) ths /\ deadlock ths.
Proof.
  eexists. split.
  - unfold reached, start, scripts, script, sign_init, derive, key_again, session_token, session_lock, with_token,
      db_calls, each_session, with_lock.
    cbn. go_call 0. go_acq 0. go_acq 0. go_acq 0. go_acq 0. go_rel 0. go_rel 0.
    go_call 1. go_acq 1. go_acq 1. apply rtc_refl.
  - split.
    + eexists. split; [left; reflexivity|]. intros [X _]. discriminate X.
    + intros [|[|i]] t Ht; cbn in Ht; [| |done].
      all: injection Ht as <-; right; eexists _, _, _; split; [reflexivity|]; intros F.
      * specialize (F _ W (or_intror (or_introl eq_refl)) (or_introl eq_refl)). discriminate F.
      * specialize (F _ W (or_introl eq_refl) (or_introl eq_refl)). discriminate F.
Qed.

(* ---- a case: on slot 0 threads sign and create objects, on slot 1 threads log in and out and read attributes; in the
   state reached the second thread waits for the token of slot 0 and the fourth for that of slot 1 ---- *)
Definition two_slots : view :=
  View (fun h => if (h <? 10)%N then 0%N else 1%N) (fun s => if (s =? 0)%N then [2; 3]%N else [12; 13]%N) [0; 1]%N 1 false false
    CKR_OK None.
Definition prog32 : list (list (view * call)) :=
  [ [(two_slots, sign_init 2)]; [(two_slots, CreateObject 3 None true); (two_slots, sign_init 3)];
    [(two_slots, Login 12 CKU_SO None); (two_slots, Logout 13)]; [(two_slots, GetAttributeValue 13 10 None 0)] ].
Example C32_case : apart false prog32 /\
  exists ths, reached (scripts false prog32) ths /\ waits ths 1 0 /\ waits ths 3 2.
Proof.
  split.
  - split; [|intros [=]]. intros p q Hp Hq. cbn in Hp, Hq.
    repeat destruct Hp as [<-|Hp]; try done; repeat destruct Hq as [<-|Hq]; try done; intros _ _ X; vm_compute in X; discriminate X.
  - eexists. split; [|split].
    + unfold reached, start, scripts, prog32, script, sign_init, session_token, token_only, login_acts, logout_acts,
        session_lock, with_token, db_calls, each_session, with_lock, key_mode.
      cbn. go_call 0. go_acq 0. go_acq 0. go_acq 0. go_call 1. go_acq 1. go_acq 1.
      go_call 2. go_acq 2. go_acq 2. go_rel 2. go_acq 2. go_rel 2. go_acq 2. go_rel 2. go_acq 2.
      go_call 3. go_acq 3. go_rel 3. go_acq 3. apply rtc_refl.
    + eexists _, _, _, _, _, _. split; [reflexivity|]. split; [reflexivity|]. split; [reflexivity|]. left. reflexivity.
    + eexists _, _, _, _, _, _. split; [reflexivity|]. split; [reflexivity|]. split; [reflexivity|]. left. reflexivity.
Qed.
