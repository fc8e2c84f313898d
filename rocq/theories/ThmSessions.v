(* C01 to C06, C36, C37: sessions, logins, the life of the module, the list calls. *)
From Verif Require Import Base Monad Hoare Attr Obj Factory Tables Create Sqlite Storage Token Backend State Api Toy
  TokenFrame Spec WorldFrame WorldWp Sessions SessionInv SessionFacts SessionStates Lifecycle Errors ToyFacts.

Section sessions.
Context (P : params) (B : backend) (E : N -> keyenv).
Notation world := (world B).
Notation reachable := (reachable P B E). Notation rv := (rv P B E). Notation out_of := (out_of P B E).
Notation after := (after P B E). Notation run := (run P B E). Notation step := (step P B E).
Notation is_open := (is_open B). Notation session_of := (session_of B). Notation logged := (logged B).

(* What an open session is, seen from outside: C_GetSessionInfo succeeds exactly on the open sessions. *)
Theorem open_is_observable w h : reachable w -> is_open w h <-> rv w (GetSessionInfo h true) = CKR_OK.
Proof. intros Hr. apply info_iff. by eapply reachable_sess_inv. Qed.

(* C01: in any history without C_Finalize (or a crash), from any reachable state, the handles C_OpenSession returns
   are distinct, valid, and none was open at the start; each is open right after the call. *)
Theorem C01_session_handles_fresh w cs : reachable w -> forallb keeps_running cs = true ->
  let hs := opened cs (snd (run w cs)) in
  NoDup hs /\ forall h, In h hs -> h <> CK_INVALID_HANDLE /\ ~ is_open w h.
Proof.
  intros Hr Hk. destruct (opened_fresh P B E cs w Hk) as [H1 H2]. split; [exact H1|].
  intros h Hh. destruct (H2 h Hh) as [Hz Hle]. split; [exact Hz|]. intros Ho.
  apply open_below in Ho; [lia|]. by eapply reachable_sess_inv.
Qed.
Theorem C01_opened_is_open w sid fl h : reachable w -> snd (step w (OpenSession sid fl true)) = (CKR_OK, OHandle h) ->
  exists s, session_of (after w (OpenSession sid fl true)) h = Some s /\ s_slot s = sid /\ s_flags s = fl.
Proof. intros Hr. apply open_step. by eapply reachable_sess_inv. Qed.

(* C02. C_SetOperationState looks at its encryption key argument before the session. *)
Theorem C02_not_open_refused w h c : reachable w -> ~ is_open w h -> session_of_call c = Some h ->
  after w c = w /\
  (In (rv w c) [CKR_SESSION_HANDLE_INVALID; CKR_CRYPTOKI_NOT_INITIALIZED; CKR_ARGUMENTS_BAD] \/
   exists b enc auth, c = SetOperationState h b enc auth /\ enc <> CK_INVALID_HANDLE /\ rv w c = CKR_KEY_NOT_NEEDED).
Proof.
  intros Hr Ho Hc. assert (sess_inv B w) as HI by by eapply reachable_sess_inv.
  pose proof (closed_smap B w h HI Ho) as Hm.
  assert (forall P0 : N -> Prop, wp (api P B E c) w (refused B w P0) -> after w c = w /\ P0 (rv w c)) as Hgen.
  { intros P0. unfold wp, refused. intros [H1 (e & H2 & H3)]. unfold after, Spec.after, Spec.rv, Api.step. destruct (api P B E c w) as [w' r].
    cbn [fst snd] in *. subst w' r. done. }
  assert ((forall hh b e a, c = SetOperationState hh b e a -> e = CK_INVALID_HANDLE) \/
          exists b e a, c = SetOperationState h b e a /\ e <> CK_INVALID_HANDLE) as [Hs|(b & e & a & -> & He)].
  { destruct c; try (left; discriminate). cbn in Hc. simplify_eq. destruct (N.eq_dec enc CK_INVALID_HANDLE) as [->|Hne].
    - left. intros. by simplify_eq.
    - right. eauto. }
  - destruct (Hgen _ (closed_api P B E c w h Hm Hc Hs)) as [H1 H2]. split; [exact H1|]. left. cbn.
    destruct H2 as [->|[->| ->]]; auto.
  - assert (wp (api P B E (SetOperationState h b e a)) w (refused B w (fun r => r = CKR_KEY_NOT_NEEDED \/ r = CKR_ARGUMENTS_BAD))) as Hwp.
    { unfold wp, refused. cbn [api]. unfold c_set_operation_state, mbind, ensure. destruct (N.eqb_spec e CK_INVALID_HANDLE); [done|].
      split; [done|]. exists CKR_KEY_NOT_NEEDED. auto. }
    destruct (Hgen _ Hwp) as [H1 H2]. split; [done|]. destruct H2 as [H2|H2]; [right; eauto 8|left; rewrite H2; cbn; auto].
Qed.
(* The module-wide table and the tables of the slots agree. *)
Theorem C02_tables_agree w h sid : reachable w ->
  w_smap w !! h = Some sid <-> exists sl s, w_slots w !! sid = Some sl /\ sl_sessions sl !! h = Some s.
Proof.
  intros Hr. assert (sess_inv B w) as HI by by eapply reachable_sess_inv. split.
  - intros Hm. destruct (si_smap _ _ HI _ _ Hm) as (sl & s & H1 & H2). eauto.
  - intros (sl & s & H1 & H2). destruct (session_in_slot B w sid sl h s HI H1 H2) as [H3 <-].
    by destruct (session_of_inv B w h s HI H3) as (sl' & H4 & _).
Qed.

(* C03: the full statement would be this one without the hypothesis [regular_run]; it is refuted below. *)
Theorem C03_states_follow_login_partial ds cs h s u : regular_run P B E (init_world B ds) cs ->
  let w := fst (run (init_world B ds) cs) in
  session_of w h = Some s -> logged w (s_slot s) = Some u ->
  step w (GetSessionInfo h true) =
    (w, (CKR_OK, OSession (s_slot s) (expected_state (has_flag (s_flags s) CKF_RW_SESSION) u) (s_flags s))).
Proof.
  intros Hreg w Hs Hl. assert (reachable w) as Hr by (exists ds, cs; reflexivity).
  assert (sess_inv B w) as HI by by eapply reachable_sess_inv.
  pose proof (st_all P B E ds cs Hreg) as Hok. fold w in Hok.
  destruct (session_of_inv B w h s HI Hs) as (sl & H1 & H2 & H3 & _).
  pose proof (Hok _ _ H2 _ _ H3) as Hst. unfold ses_st, rw in Hst.
  unfold Spec.logged, token_of in Hl. rewrite H2 in Hl. cbn in Hl. injection Hl as <-.
  rewrite (info_open P B E w h s HI Hs), Hst. reflexivity.
Qed.

(* C04 *)
Theorem C04_no_ro_session_with_so w sid : reachable w -> logged w sid = Some CKU_SO -> ~ ro_open B w sid.
Proof. intros Hr. apply no_ro_with_so. by eapply reachable_sess_inv. Qed.

(* C05 *)
Theorem C05_second_login_refused w h s u ut pin : reachable w -> session_of w h = Some s ->
  logged w (s_slot s) = Some u -> In u [CKU_SO; CKU_USER] -> In ut [CKU_SO; CKU_USER] ->
  after w (Login h ut pin) = w /\
  (ut = u -> rv w (Login h ut pin) = CKR_USER_ALREADY_LOGGED_IN) /\
  (ut <> u -> rv w (Login h ut pin) = CKR_USER_ANOTHER_ALREADY_LOGGED_IN \/
              ut = CKU_SO /\ ro_open B w (s_slot s) /\ rv w (Login h ut pin) = CKR_SESSION_READ_ONLY_EXISTS).
Proof.
  intros Hr Hs Hl Hu Hut. assert (sess_inv B w) as HI by by eapply reachable_sess_inv.
  destruct (login_refused P B E w h s u ut pin HI Hs Hl) as (e & He & H1 & H2);
    [cbn in Hu; intuition congruence|cbn in Hut; intuition congruence|].
  unfold after, Spec.after, Spec.rv, Api.step. rewrite He. cbn [fst snd]. split_and!; auto.
  intros Hne. specialize (H2 Hne). destruct (decide (ut = CKU_SO)); [|auto]. destruct H2 as [[? ?]|[? ?]]; auto.
Qed.
(* Nobody is logged in by a C_Login that fails; one that succeeds logs in the user it names, who alone is logged in. *)
Theorem C05_login_outcome w h ut pin : sane (fun e => e <> CKR_OK) P B E -> reachable w ->
  (rv w (Login h ut pin) <> CKR_OK -> nobody_new B w (after w (Login h ut pin))) /\
  (rv w (Login h ut pin) = CKR_OK -> ut <> CKU_CONTEXT_SPECIFIC -> exists s, session_of w h = Some s /\
     In ut [CKU_SO; CKU_USER] /\ logged w (s_slot s) = Some KRY_UNSPEC /\ logged (after w (Login h ut pin)) (s_slot s) = Some ut).
Proof.
  intros HS Hr. assert (sess_inv B w) as HI by by eapply reachable_sess_inv.
  pose proof (login_outcome P B E w h ut pin HI) as H. unfold wp in H. split.
  - intros Hrv. unfold Spec.after, Spec.rv, Api.step in *. destruct (api P B E (Login h ut pin) w) as [w' [[r o]|e]]; cbn [fst snd] in *; [|done].
    by destruct H as [-> _].
  - intros Hrv Hne. destruct (no_ok_err P B E _ w HS Hrv) as (w' & o & He). unfold Spec.after, Api.step. rewrite He in *.
    cbn [fst snd] in *. destruct H as [_ (s & Hs & H)]. exists s. destruct (decide _); [done|].
    destruct H as ([->| ->] & H1 & H2); cbn; auto 6.
Qed.

(* C06 *)
Theorem C06_no_session_no_login w sid : reachable w -> (forall h s, session_of w h = Some s -> s_slot s <> sid) ->
  logged w sid = None \/ logged w sid = Some KRY_UNSPEC.
Proof. intros Hr. apply none_logged. by eapply reachable_sess_inv. Qed.
(* Closing the last session of a slot, or all of them, leaves none; the other sessions stay as they were. *)
Theorem C06_close_session w h : reachable w -> is_open w h ->
  rv w (CloseSession h) = CKR_OK /\
  (forall h', session_of (after w (CloseSession h)) h' = if decide (h' = h) then None else session_of w h').
Proof.
  intros Hr Ho. destruct (close_step P B E w h) as (H1 & H2 & H3); [by eapply reachable_sess_inv|done|]. split; [done|].
  intros h'. destruct (decide (h' = h)) as [->|]; auto.
Qed.
Theorem C06_close_all_sessions w sid : reachable w -> rv w (CloseAllSessions sid) = CKR_OK ->
  (forall h s, session_of (after w (CloseAllSessions sid)) h = Some s -> s_slot s <> sid) /\
  (logged (after w (CloseAllSessions sid)) sid = None \/ logged (after w (CloseAllSessions sid)) sid = Some KRY_UNSPEC).
Proof.
  intros Hr Hrv. assert (forall h s, session_of (after w (CloseAllSessions sid)) h = Some s -> s_slot s <> sid) as H.
  { intros h s. rewrite (close_all_step P B E w sid) by (try done; by eapply reachable_sess_inv).
    destruct (session_of w h); [|done]. destruct (decide _); intros; by simplify_eq. }
  split; [done|]. apply C06_no_session_no_login; [by apply reachable_step|done].
Qed.

(* C36 *)
Theorem C36_uninitialised_refused ds cs c : running false cs = false -> works_uninitialised c = false ->
  let w := fst (run (init_world B ds) cs) in after w c = w /\ off_rv c (rv w c).
Proof.
  intros Hc Hw w. assert (w_next w = 0) as Hz.
  { pose proof (initialized_run P B E cs (init_world B ds)) as Hi. fold w in Hi. change (initialized B (init_world B ds)) with false in Hi.
    rewrite Hc in Hi. unfold initialized in Hi. destruct (N.eqb_spec (w_next w) 0); done. }
  pose proof (off_api P B E c w Hz Hw) as H. unfold wp, refused in H. destruct H as [H1 (e & H2 & H3)].
  unfold Spec.after, Spec.rv, Api.step. destruct (api P B E c w) as [w' r]. cbn [fst snd] in *. by subst.
Qed.
(* While it is initialised the calls are not refused in this way. *)
Theorem C36_initialised ds cs : running false cs = true ->
  let w := fst (run (init_world B ds) cs) in rv w (GetSlotList false (Some 0)) = CKR_OK.
Proof.
  intros Hc w. assert (w_next w <> 0) as Hz.
  { pose proof (initialized_run P B E cs (init_world B ds)) as Hi. fold w in Hi. change (initialized B (init_world B ds)) with false in Hi.
    rewrite Hc in Hi. unfold initialized in Hi. destruct (N.eqb_spec (w_next w) 0); done. }
  unfold Spec.rv. by rewrite slot_list_step.
Qed.
Theorem C36_finalize w : reachable w -> rv w Finalize = CKR_OK ->
  (forall h, ~ is_open (after w Finalize) h) /\ (forall sid, logged (after w Finalize) sid = None).
Proof.
  intros Hr. unfold Spec.rv, Spec.after, Api.step. cbn [api]. unfold c_finalize. rewrite run_bind.
  destruct (N.eq_dec (w_next w) 0) as [Hz|Hn]; [by rewrite lock_off|]. rewrite lock_eq by done. cbn. intros _. split.
  - intros h Ho. apply Ho. reflexivity.
  - reflexivity.
Qed.
Theorem C36_initialize_fresh ds cs l : running false cs = false ->
  let w' := fst (run (init_world B ds) (cs ++ [Initialize l])) in
  (forall h, ~ is_open w' h) /\ (forall sid t, token_of B w' sid = Some t -> t_logged t = KRY_UNSPEC /\ no_sobjs t).
Proof.
  intros Hc. rewrite run_app. cbv zeta. set (w := fst (run (init_world B ds) cs)).
  assert (initialized B w = false) as Hi by (unfold w; by rewrite initialized_run).
  pose proof (initialize_fresh P B E l w Hi) as H. unfold wp in H. cbn [Api.run]. pose proof (step_fst P B E (Initialize l) w) as Hs.
  subst w. destruct (Api.run P B E (init_world B ds) cs) as [w1 o1]. cbn [fst] in *.
  destruct (Api.step P B E w1 (Initialize l)) as [w2 o2]. cbn [fst] in *. rewrite <- Hs in H. destruct H as [H1 H2]. split; [done|].
  intros sid t. unfold token_of. destruct (w_slots w2 !! sid) as [sl|] eqn:Hsl; [|done]. cbn. intros ?. simplify_eq. eauto.
Qed.

(* C37 *)
Theorem C37_slot_list ds cs lst n : running false cs = true ->
  let w := fst (run (init_world B ds) cs) in
  exists ids, NoDup ids /\ (forall sid, In sid ids <-> token_of B w sid <> None) /\
  step w (GetSlotList lst (Some n)) = (w, list_result ids lst n).
Proof.
  intros Hc w. assert (w_next w <> 0) as Hz.
  { pose proof (initialized_run P B E cs (init_world B ds)) as Hi. fold w in Hi. change (initialized B (init_world B ds)) with false in Hi.
    rewrite Hc in Hi. unfold initialized in Hi. destruct (N.eqb_spec (w_next w) 0); done. }
  exists (slot_ids B w). destruct (slot_ids_spec B w) as [H1 H2]. split_and!; [done| |by apply slot_list_step].
  intros sid. rewrite H2. unfold token_of. split.
  - intros [sl ->]. done.
  - destruct (w_slots w !! sid); [eauto|done].
Qed.
Theorem C37_mechanism_list w sid t lst n : reachable w -> token_of B w sid = Some t -> tk_initialized t = true ->
  step w (GetMechanismList sid lst (Some n)) = (w, list_result (map fst (mechanisms P t)) lst n).
Proof.
  intros Hr Ht Hi. unfold token_of in Ht. destruct (w_slots w !! sid) as [sl|] eqn:Hsl; [|done]. cbn in Ht. simplify_eq.
  apply mech_list_step; try done. intros Hz. assert (sess_inv B w) as HI by by eapply reachable_sess_inv.
  rewrite (si_off _ _ HI Hz) in Hsl. by rewrite lookup_empty in Hsl.
Qed.
Theorem C37_interface_list w n lst c :
  step w (GetInterfaceList n lst (Some c)) = (w, list_result (map N.of_nat (seq 0 (N.to_nat n))) lst c).
Proof. apply interface_list_step. Qed.
(* A null count is refused. *)
Theorem C37_null_count w sid n lst :
  rv w (GetSlotList lst None) = CKR_ARGUMENTS_BAD /\ rv w (GetMechanismList sid lst None) = CKR_ARGUMENTS_BAD /\
  rv w (GetInterfaceList n lst None) = CKR_ARGUMENTS_BAD.
Proof. done. Qed.
End sessions.

(* ---- the concrete case: a token with the user logged in on sessions 2 (read/write) and 3 (read-only) ---- *)
Notation toy_rv := (rv toy toy_be toy_env). Notation toy_out := (out_of toy toy_be toy_env).
Lemma toy_reach cs : reachable toy toy_be toy_env (fst (toy_run toy_start cs)).
Proof. by exists ∅, cs. Qed.

(* C01: opening, closing, opening again, also after a failure *)
Example C01_case : opened [OpenSession 0 RW true; OpenSession 0 RO true; CloseSession 4; OpenSession 9 RO true; OpenSession 0 RO true]
  (snd (toy_run toy_user [OpenSession 0 RW true; OpenSession 0 RO true; CloseSession 4; OpenSession 9 RO true; OpenSession 0 RO true])) = [4; 5; 6].
Proof. vm_compute. reflexivity. Qed.
(* C02: session 1 was closed, session 77 never was *)
Example C02_case : map (toy_rv toy_user) [GetSessionInfo 1 true; Logout 1; CreateObject 77 (Some (aes_tmpl false)) true] =
  repeat CKR_SESSION_HANDLE_INVALID 3.
Proof. vm_compute. reflexivity. Qed.
Example C02_case_state : toy_rv toy_user (SetOperationState 1 (Some [1]) 5 0) = CKR_KEY_NOT_NEEDED.
Proof. vm_compute. reflexivity. Qed.
(* C03: the states of the sessions while the user is logged in; the history is regular *)
Example C03_case : map (toy_out toy_user) [GetSessionInfo 2 true; GetSessionInfo 3 true] =
  [OSession 0 CKS_RW_USER_FUNCTIONS RW; OSession 0 CKS_RO_USER_FUNCTIONS RO].
Proof. vm_compute. reflexivity. Qed.
Example C03_case_regular : regular_run toy toy_be toy_env toy_start setup.
Proof.
  unfold setup. repeat first [split; [exact I|] | split; [left; vm_compute; discriminate|] | split; [vm_compute; discriminate|]]. exact I.
Qed.
(* C03 is false: a session opened while the SO is logged in reports user functions. *)
Definition so_history : list call :=
  [Initialize [SlotConf 0 7 None None []]; InitToken 0 (Some so_pin) None; OpenSession 0 RW true; Login 1 CKU_SO (Some so_pin);
   OpenSession 0 RW true].
Lemma toy_witness w h i f u o : reachable toy toy_be toy_env w ->
  fmap (fun s => (s_slot s, s_flags s)) (session_of toy_be w h) = Some (i, f) -> logged toy_be w i = Some u ->
  toy_out w (GetSessionInfo h true) = o -> o <> OSession i (expected_state (has_flag f CKF_RW_SESSION) u) f ->
  exists w h s u, reachable toy toy_be toy_env w /\
  session_of toy_be w h = Some s /\ logged toy_be w (s_slot s) = Some u /\
  toy_out w (GetSessionInfo h true) <> OSession (s_slot s) (expected_state (has_flag (s_flags s) CKF_RW_SESSION) u) (s_flags s).
Proof.
  intros Hr Hs Hu Ho Hne. destruct (session_of toy_be w h) as [s|] eqn:Hss; [|done]. cbn in Hs. injection Hs as <- <-.
  exists w, h, s, u. rewrite Ho. done.
Qed.
Theorem C03_states_follow_login_refuted : exists w h s u, reachable toy toy_be toy_env w /\
  session_of toy_be w h = Some s /\ logged toy_be w (s_slot s) = Some u /\
  toy_out w (GetSessionInfo h true) <> OSession (s_slot s) (expected_state (has_flag (s_flags s) CKF_RW_SESSION) u) (s_flags s).
Proof.
  apply (toy_witness (fst (toy_run toy_start so_history)) 2 0 RW CKU_SO (OSession 0 CKS_RW_USER_FUNCTIONS RW)); [apply toy_reach|..];
    vm_compute; first [reflexivity|discriminate].
Qed.
(* and after a C_Logout whose last database access fails the sessions keep reporting user functions *)
Theorem C03_logout_refuted : exists w h s u, reachable toy toy_be toy_env w /\
  session_of toy_be w h = Some s /\ logged toy_be w (s_slot s) = Some u /\
  toy_out w (GetSessionInfo h true) <> OSession (s_slot s) (expected_state (has_flag (s_flags s) CKF_RW_SESSION) u) (s_flags s).
Proof.
  apply (toy_witness (fst (toy_run toy_start (setup ++ [Disturb 0 [Some IoBusy]; Logout 2]))) 2 0 RW KRY_UNSPEC
    (OSession 0 CKS_RW_USER_FUNCTIONS RW)); [apply toy_reach|..]; vm_compute; first [reflexivity|discriminate].
Qed.
(* C04: the SO is logged in, and neither order of the two calls is possible *)
Example C04_case : let w := fst (toy_run toy_start so_history) in
  logged toy_be w 0 = Some CKU_SO /\ toy_rv w (OpenSession 0 RO true) = CKR_SESSION_READ_WRITE_SO_EXISTS.
Proof. vm_compute. done. Qed.
Example C04_case_login : toy_rv (fst (toy_run toy_user [Logout 2])) (Login 2 CKU_SO (Some so_pin)) = CKR_SESSION_READ_ONLY_EXISTS.
Proof. vm_compute. reflexivity. Qed.
(* C05 *)
Example C05_case : map (toy_rv toy_user) [Login 2 CKU_USER (Some [9]); Login 3 CKU_USER (Some user_pin)] =
  repeat CKR_USER_ALREADY_LOGGED_IN 2 /\
  toy_rv (fst (toy_run toy_user [CloseSession 3])) (Login 2 CKU_SO (Some so_pin)) = CKR_USER_ANOTHER_ALREADY_LOGGED_IN.
Proof. vm_compute. done. Qed.
Example C05_case_outcome : let w := fst (toy_run toy_user [Logout 3]) in
  toy_rv w (Login 3 CKU_USER (Some [9])) = CKR_PIN_INCORRECT /\ toy_rv w (Login 3 CKU_USER (Some user_pin)) = CKR_OK /\
  logged toy_be w 0 = Some KRY_UNSPEC.
Proof. vm_compute. done. Qed.
Example C05_sane : sane (fun e => e <> CKR_OK) toy toy_be toy_env.
Proof. apply toy_sane. exact plain_ok. Qed.
(* C06: closing one of two sessions keeps the login, closing both ends it *)
Example C06_case : logged toy_be (fst (toy_run toy_user [CloseSession 2])) 0 = Some CKU_USER /\
  logged toy_be (fst (toy_run toy_user [CloseSession 2; CloseSession 3])) 0 = Some KRY_UNSPEC /\
  logged toy_be (fst (toy_run toy_user [CloseAllSessions 0])) 0 = Some KRY_UNSPEC.
Proof. vm_compute. done. Qed.
(* C36 *)
Example C36_case : running false (setup ++ [Finalize]) = false /\
  map (toy_rv (fst (toy_run toy_start (setup ++ [Finalize])))) [GetSessionInfo 2 true; Finalize; FindObjects 2 true 1 false] =
    [CKR_CRYPTOKI_NOT_INITIALIZED; CKR_CRYPTOKI_NOT_INITIALIZED; CKR_ARGUMENTS_BAD] /\
  snd (toy_run (fst (toy_run toy_start (setup ++ [Finalize])))
    [Initialize [SlotConf 0 7 None None []]; GetSessionInfo 2 true; OpenSession 0 RW true; GetSessionInfo 1 true]) =
    [(CKR_OK, ONone); (CKR_SESSION_HANDLE_INVALID, ONone); (CKR_OK, OHandle 1); (CKR_OK, OSession 0 CKS_RW_PUBLIC_SESSION RW)].
Proof. vm_compute. done. Qed.
(* C37 *)
Example C37_case : let w := fst (toy_run toy_start [Initialize [SlotConf 5 7 None None []; SlotConf 2 8 None None []]]) in
  snd (toy_run w [GetSlotList false (Some 0); GetSlotList true (Some 3); GetSlotList true (Some 1)]) =
    [(CKR_OK, OLen 2); (CKR_OK, OList [2; 5] 2); (CKR_BUFFER_TOO_SMALL, ONone)].
Proof. vm_compute. reflexivity. Qed.
Example C37_case_mechs : snd (toy_run toy_user [GetMechanismList 0 false (Some 0); GetMechanismList 0 true (Some 8)]) =
  [(CKR_OK, OLen 9); (CKR_BUFFER_TOO_SMALL, ONone)].
Proof. vm_compute. reflexivity. Qed.
