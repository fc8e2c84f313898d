(* C07, C08: failed logins lock the user out, and exactly the PIN set last is accepted. *)
From Verif Require Import Base Monad Hoare Attr Obj Factory Tables Create Sqlite Storage Token Backend State Api Toy
  Spec Sessions SessionInv SessionFacts ObjWorld ObjFacts Errors ToyFacts ThmObjects AuthSpec Users AuthFacts AuthInv AuthPins AuthTry.

Section auth.
Context (P : params) (B : backend) (E : N -> keyenv) (Hfs : p_fs P = all_factories) (Hutf : forall n, utf8_valid (p_uuid P n) = true).
Context (HL : pin_laws P) (HS : sane (fun e => plain_code e = true) P B E).
Notation world := (world B). Notation winv := (winv B). Notation token_of := (token_of B). Notation after := (after P B E).
Notation rv := (rv P B E). Notation logged := (logged B). Notation slot_of := (slot_of B). Notation attempt_on := (attempt_on B).
Notation record_of := (record_of B). Notation failures := (failures B). Notation healthy := (healthy B). Notation run := (run P B E).
Notation refused := (refused P B E).
Notation start := (init_world B ∅).
(* A history: any calls, restarts, crashes and database failures, from nothing. *)
Definition end_of (cs : list call) : world := fst (run start cs).
(* Failed attempts since the last that did not fail, and the PIN set last, after a history. *)
Definition failed (cs : list call) (sid u : N) : N := tally_run P B E start cs sid u 0.
Definition pin_of (cs : list call) (sid u : N) : option bytes := pin_run P B E start cs sid u None.

Lemma start_winv : winv start.
Proof. apply (scratch_winv P B E Hfs Hutf). by exists []. Qed.
Lemma start_own : own_disks B start.
Proof. intros sid sl. cbn. by rewrite lookup_empty. Qed.
Lemma end_winv cs : winv (end_of cs).
Proof. apply (scratch_winv P B E Hfs Hutf). by exists cs. Qed.
Lemma end_cnt cs sid u : forallb steady cs = true -> is_user u = true -> cnt (failed cs sid u) (db_at B (end_of cs) sid) (user_row u).
Proof. intros Hst Hu. apply (cnt_run P B E Hfs Hutf HL HS cs start sid u 0 start_winv start_own Hst Hu). apply cnt_zero. Qed.
Lemma end_pins cs sid : forallb steady cs = true -> pin_inv P (fun u => pin_of cs sid u) (view_at B (end_of cs) sid).
Proof.
  intros Hst. apply (pin_run_inv P B E Hfs Hutf HL HS cs start sid (fun _ => None) start_winv start_own Hst). apply (inv_empty P B HL); [done|]. done.
Qed.

(* C07: after ten failures in a row, whatever the PIN and the call, authentication is not successful, and the record of
   the user (with its counter) does not change. Attempts made while the database fails are not counted: the full
   statement, which would count them, is refuted below. *)
Theorem C07_ten_failures_lock_partial cs c sid u : forallb steady cs = true -> 10 <= failed cs sid u ->
  attempt_on (end_of cs) c = Some (sid, u) ->
  rv (end_of cs) c <> CKR_OK /\ record_of (after (end_of cs) c) sid u = record_of (end_of cs) sid u /\
  (healthy (end_of cs) sid = true -> (exists i, record_of (end_of cs) sid u = Ok i) -> rv (end_of cs) c = CKR_PIN_LOCKED \/ refused (end_of cs) sid c = true).
Proof.
  intros Hst Hn Ha. destruct (attempt_at P B E Hutf HL HS _ c sid u (end_winv cs) Ha) as (t & t' & T1 & T2 & Hu & Heff).
  pose proof (end_cnt cs sid u Hst Hu) as Hc. unfold AuthSpec.record_of. rewrite (db_token _ _ _ _ T1) in Hc. rewrite (db_token _ _ _ _ T1), (db_token _ _ _ _ T2).
  assert (forall i, fetch_user (t_db t) (user_row u) = Ok i -> locked i = true) as Hlk by (intros i Hi; by eapply cnt_locked).
  destruct Heff as [Hta Hr1 Hr2 Hr3|b t1 res Htr Hres].
  - split; [done|]. split; [|auto]. by apply (tame_fetch (tview t) (tview t')).
  - inversion Htr as [e K1 K2 K3|i b' v k A1 A2 A3 A4|i A1 A2 A3|i b' e A1 A2 A3 A4 A5 A6|i b' v k d A1 A2 A3 A4]; subst res; try (rewrite (Hlk _ A1) in A2; discriminate A2).
    + destruct Hres as [Hr Hta]. destruct (apart _ K3) as (B1 & B2 & B3 & B4 & B5). split; [rewrite Hr; unfold init_or; destruct c; try done; unfold init_code; by rewrite B4|]. split.
      * pose proof (tame_fetch _ _ (user_row u) Hta) as Hf. cbn [v_db tview] in Hf. unfold user_row in Hf |- *. rewrite <- (kp_db _ _ _ K1). destruct (u =? CKU_SO); apply Hf.
      * intros Hh [i Hi]. exfalso. apply (K2 (healthy_io _ _ _ _ T1 Hh) _ Hi).
    + destruct Hres as [Hr Hta]. assert (rv (end_of cs) c = CKR_PIN_LOCKED) as Hrv by (rewrite Hr; by destruct c). split; [by rewrite Hrv|]. split; [|auto].
      pose proof (tame_fetch _ _ (user_row u) Hta) as Hf. cbn [v_db tview] in Hf. rewrite <- (kp_db _ _ _ A3). apply Hf.
Qed.
(* C07: each failure counts, and the counter the token keeps is at least the count. *)
Theorem C07_failures_are_recorded cs sid u n : forallb steady cs = true -> is_user u = true -> failures (end_of cs) sid u = Some n -> N.min (failed cs sid u) 10 <= n.
Proof.
  intros Hst Hu. unfold AuthSpec.failures, AuthSpec.record_of. destruct (fetch_user _ _) as [i|] eqn:Hi; [|done]. intros X. injection X as <-. by apply (end_cnt cs sid u Hst Hu).
Qed.

(* C08: only the PIN set last is accepted. *)
Theorem C08_no_other_pin cs c sid u p : forallb steady cs = true -> attempt_on (end_of cs) c = Some (sid, u) -> pin_of cs sid u = Some p ->
  rv (end_of cs) c = CKR_OK -> pin_given c = p.
Proof.
  intros Hst Ha Hp Hr. destruct (attempt_at P B E Hutf HL HS _ c sid u (end_winv cs) Ha) as (t & t' & T1 & T2 & Hu & Heff).
  destruct (end_pins cs sid Hst) as (v & k & HK). rewrite (view_token _ _ _ _ T1) in HK.
  destruct Heff as [_ _ Hr2 _|b t1 res Htr Hres]; [done|]. destruct (tried_pin P HL v k _ u _ _ _ _ _ Hu Htr HK p Hp) as (H1 & H2 & H3 & H4).
  destruct res as [[]|e]; [by apply H1|]. destruct Hres as [Hr' _]. apply tried_not_ok in Htr. rewrite Hr in Hr'. exfalso. apply Htr.
  destruct c; try done. cbn in Hr'. unfold init_code in Hr'. by destruct (pin_code e).
Qed.
(* C08: the PIN set last is not called wrong, unless the user is locked out. *)
Theorem C08_right_pin_not_refused cs c sid u p n : forallb steady cs = true -> attempt_on (end_of cs) c = Some (sid, u) -> pin_of cs sid u = Some p ->
  failures (end_of cs) sid u = Some n -> n < 10 -> pin_given c = p -> rv (end_of cs) c <> CKR_PIN_INCORRECT /\ rv (end_of cs) c <> CKR_PIN_LOCKED.
Proof.
  intros Hst Ha Hp Hn Hlt Hg. destruct (attempt_at P B E Hutf HL HS _ c sid u (end_winv cs) Ha) as (t & t' & T1 & T2 & Hu & Heff).
  assert (wrong_pin (rv (end_of cs) c) = false) as Hw; [|unfold wrong_pin in Hw; lia].
  destruct (end_pins cs sid Hst) as (v & k & HK). rewrite (view_token _ _ _ _ T1) in HK.
  destruct Heff as [_ _ Hr2 Hr3|b t1 res Htr Hres]; [done|]. destruct (tried_pin P HL v k _ u _ _ _ _ _ Hu Htr HK p Hp) as (H1 & H2 & H3 & H4).
  destruct res as [[]|e]; [apply Hres|]. destruct Hres as [-> _]. destruct (wrong_pin (init_or c e)) eqn:Hw; [|done]. exfalso.
  assert (wrong_pin e = true) as Hw'. { destruct c; try done. unfold init_or, init_code in Hw. by destruct (pin_code e). }
  unfold wrong_pin in Hw'. apply orb_prop in Hw' as [X|X]; apply N.eqb_eq in X; subst e; [by apply H2|]. destruct (H3 eq_refl) as [Hne|(i & Hi & Hc)]; [done|].
  unfold AuthSpec.failures, AuthSpec.record_of in Hn. rewrite (db_token _ _ _ _ T1), Hi in Hn. injection Hn as <-. lia.
Qed.
(* C08: the PIN set last logs the user in: nobody is logged in, the user is not locked out, and the SO needs that no
   read-only session is open. The sessions of the slot report public states, which C03 gives for regular histories. *)
Theorem C08_right_pin_logs_in cs h sid u p n : forallb steady cs = true -> is_user u = true -> slot_of (end_of cs) h = Some sid ->
  logged (end_of cs) sid = Some KRY_UNSPEC -> pin_of cs sid u = Some p -> failures (end_of cs) sid u = Some n -> n < 10 -> healthy (end_of cs) sid = true ->
  (u = CKU_SO -> ~ ro_open B (end_of cs) sid) ->
  (forall h' s, session_of B (end_of cs) h' = Some s -> s_slot s = sid -> In (s_state s) [CKS_RO_PUBLIC_SESSION; CKS_RW_PUBLIC_SESSION]) ->
  rv (end_of cs) (Login h u (Some p)) = CKR_OK /\ failures (after (end_of cs) (Login h u (Some p))) sid u = Some 0.
Proof.
  intros Hst Hu Hs Hl Hp Hn Hlt Hh Hro Hpub. destruct (login_at P B E Hutf _ h u (Some p) sid (end_winv cs) Hs) as (t & t' & T1 & T2 & Heff).
  rewrite (logged_token _ _ _ _ T1) in Hl. injection Hl as Hl. assert (u <> CKU_CONTEXT_SPECIFIC) as Hcs by (apply user_cases in Hu as [-> | ->]; done).
  destruct (end_pins cs sid Hst) as (v & k & HK). rewrite (view_token _ _ _ _ T1) in HK.
  destruct Heff as [_ _ _ _ Hwhy|u' b t1 res Hue Hu' Htr Hta Hr].
  - exfalso. destruct Hwhy as [[-> H]|[[_ H]|H]]; [by apply Hro|done|congruence].
  - apply N.eqb_neq in Hcs. rewrite Hcs in Hue. subst u'. destruct (tried_pin P HL v k _ u _ _ _ _ _ Hu Htr HK p Hp) as (_ & _ & _ & H4).
    unfold AuthSpec.failures, AuthSpec.record_of in Hn |- *. rewrite (db_token _ _ _ _ T1) in Hn. rewrite (db_token _ _ _ _ T2).
    destruct (fetch_user (t_db t) (user_row u)) as [i|] eqn:Hi; [|done]. injection Hn as <-. specialize (H4 (healthy_io _ _ _ _ T1 Hh) eq_refl i eq_refl Hlt). subst res.
    pose proof (tried_rec _ _ _ _ _ _ _ _ Htr) as (j & _ & _ & i' & R3 & _ & _ & R4). specialize (R4 (healthy_io _ _ _ _ T1 Hh)).
    pose proof (tame_fetch _ _ (user_row u) Hta) as Hf. cbn [v_db tview] in Hf. rewrite Hf, R3, R4. split; [|done]. destruct Hr as [Hr|(_ & _ & h' & s & S1 & S2 & S3)]; [done|].
    exfalso. specialize (Hpub _ _ S1 S2). unfold public in S3. destruct Hpub as [X|[X|[]]]; rewrite <- X in S3; done.
Qed.
(* C08: success sets the counter to zero; a wrong PIN adds one. *)
Theorem C08_success_resets_counter cs c sid u : forallb steady cs = true -> attempt_on (end_of cs) c = Some (sid, u) -> healthy (end_of cs) sid = true ->
  rv (end_of cs) c = CKR_OK -> failures (after (end_of cs) c) sid u = Some 0.
Proof.
  intros Hst Ha Hh Hr. destruct (attempt_at P B E Hutf HL HS _ c sid u (end_winv cs) Ha) as (t & t' & T1 & T2 & Hu & Heff).
  unfold AuthSpec.failures, AuthSpec.record_of. rewrite (db_token _ _ _ _ T2). destruct Heff as [_ _ Hr2 _|b t1 res Htr Hres]; [done|]. destruct res as [[]|e].
  - destruct Hres as [_ Hz]. destruct (Hz Hr (healthy_io _ _ _ _ T1 Hh)) as (i & -> & ->). done.
  - exfalso. destruct Hres as [Hr' _]. apply tried_not_ok in Htr. rewrite Hr in Hr'. apply Htr. destruct c; try done. cbn in Hr'. unfold init_code in Hr'. by destruct (pin_code e).
Qed.
Theorem C08_failure_adds_one cs c sid u : forallb steady cs = true -> attempt_on (end_of cs) c = Some (sid, u) -> healthy (end_of cs) sid = true ->
  rv (end_of cs) c = CKR_PIN_INCORRECT -> exists n, failures (end_of cs) sid u = Some n /\ failures (after (end_of cs) c) sid u = Some (n + 1).
Proof.
  intros Hst Ha Hh Hr. destruct (attempt_at P B E Hutf HL HS _ c sid u (end_winv cs) Ha) as (t & t' & T1 & T2 & Hu & Heff).
  unfold AuthSpec.failures, AuthSpec.record_of. rewrite (db_token _ _ _ _ T1), (db_token _ _ _ _ T2). destruct Heff as [_ _ _ Hr3|b t1 res Htr Hres]; [by rewrite Hr in Hr3|].
  destruct res as [[]|e]; [destruct Hres as [X _]; by rewrite Hr in X|]. destruct Hres as [Hr' Hta]. rewrite Hr in Hr'.
  assert (e = CKR_PIN_INCORRECT) as ->. { destruct c; try done. cbn in Hr'. unfold init_code in Hr'. by destruct (pin_code e). }
  pose proof (tried_rec _ _ _ _ _ _ _ _ Htr) as (i & R1 & i' & R2 & _ & _ & R5 & R6). specialize (R6 eq_refl). specialize (R5 (healthy_io _ _ _ _ T1 Hh) R6).
  pose proof (tame_fetch _ _ (user_row u) Hta) as Hf. cbn [v_db tview] in Hf. rewrite R1, Hf, R2, R5. eauto.
Qed.
End auth.

(* ---- the concrete instance ---- *)
Lemma unblob_blob l : unblob (length l) (blob l) = Some l.
Proof.
  induction l as [|b l IH]; [done|]. cbn [length blob map concat]. fold (blob l). cbn [app unblob]. unfold blen. rewrite Nat2N.id.
  assert (skipn (length b) (b ++ blob l) = blob l) as -> by by apply drop_app. rewrite IH.
  assert (firstn (length b) (b ++ blob l) = b) as -> by by apply take_app. done.
Qed.
Lemma toy_open_sealed u pin' pin v k r b : p_seal_key toy u pin v k r = Ok b -> p_open_key toy u pin' b = if bytes_eqb pin pin' then Some (v, k) else None.
Proof.
  cbn [p_seal_key p_open_key toy]. intros X. injection X as <-. change 5%nat with (length [[u]; pin; [v]; k; be 8 r]). rewrite unblob_blob. unfold bytes_eqb at 1. rewrite bool_decide_true by done. cbn [andb].
  assert (unbe [v] = v) as -> by (unfold unbe; cbn; lia). by destruct (bytes_eqb pin pin').
Qed.
Lemma toy_pin_laws : pin_laws toy.
Proof.
  split.
  - intros u pin v k r b H. rewrite (toy_open_sealed _ _ _ _ _ _ _ H). unfold bytes_eqb. by rewrite bool_decide_true.
  - intros u pin v k r b pin' H Hne. rewrite (toy_open_sealed _ _ _ _ _ _ _ H). unfold bytes_eqb. rewrite bool_decide_false; [done|congruence].
  - intros n. cbn [p_master toy]. unfold be. pose proof (blen_le 32 (n + 1000)) as H. unfold blen in *. by rewrite rev_length, H.
  - intros u pin v k r e H. discriminate H.
Qed.
Lemma toy_plain : sane (fun e => plain_code e = true) toy toy_be toy_env.
Proof. apply toy_sane. done. Qed.

Definition on : call := Initialize [SlotConf 0 0 None None []].
Definition home : list call :=
  [on; InitToken 0 (Some so_pin) None; OpenSession 0 RW true; Login 1 CKU_SO (Some so_pin); InitPIN 1 (Some user_pin); Logout 1; CloseSession 1; OpenSession 0 RW true].
Definition bad : call := Login 2 CKU_USER (Some [9; 9; 9; 9]).
Definition good : call := Login 2 CKU_USER (Some user_pin).
Notation toy_end := (end_of toy toy_be toy_env).

(* C07: four failures by C_Login, three by C_SetPIN, a restart, three more: locked, for the right PIN too; and it stays
   so after a crash. The SO resets it. *)
Definition mixed : list call :=
  home ++ repeat bad 4 ++ repeat (SetPIN 2 (Some [1]) (Some [2; 2; 2; 2])) 3 ++ [Finalize; on; OpenSession 0 RW true] ++ repeat (Login 1 CKU_USER (Some [7])) 3.
Example C07_case : forallb steady mixed = true /\ failed toy toy_be toy_env mixed 0 CKU_USER = 10 /\
  attempt_on toy_be (toy_end mixed) (Login 1 CKU_USER (Some user_pin)) = Some (0, CKU_USER).
Proof. split_and!; vm_compute; reflexivity. Qed.
Example C07_case_locked : toy_rv (toy_end mixed) (Login 1 CKU_USER (Some user_pin)) = CKR_PIN_LOCKED.
Proof. vm_compute. reflexivity. Qed.
Example C07_case_crash : toy_rv (toy_end (mixed ++ [Crash; on; OpenSession 0 RW true])) (Login 1 CKU_USER (Some user_pin)) = CKR_PIN_LOCKED.
Proof. vm_compute. reflexivity. Qed.
Example C07_case_reset : toy_rv (toy_end (mixed ++ [Login 1 CKU_SO (Some so_pin); InitPIN 1 (Some [6; 6; 6; 6]); Logout 1])) (Login 1 CKU_USER (Some [6; 6; 6; 6])) = CKR_OK.
Proof. vm_compute. reflexivity. Qed.
(* C07 in full is false: while the record cannot be written (a read-only or full medium), wrong PINs are not counted; a
   hundred guesses later the right one is accepted. *)
Definition guess : list call := [Disturb 0 [None; Some IoReadOnly]; bad].
Theorem C07_ten_failures_lock_refuted : exists cs c sid u, forallb steady cs = true /\ tally_any_run toy toy_be toy_env (init_world toy_be ∅) cs sid u 0 = 100 /\
  attempt_on toy_be (toy_end cs) c = Some (sid, u) /\ toy_rv (toy_end cs) c = CKR_OK.
Proof. exists (home ++ concat (repeat guess 100)), good, 0, CKU_USER. split_and!; vm_compute; reflexivity. Qed.

(* C08: after the user has changed the PIN, and the SO theirs, across a restart. *)
Definition changed : list call :=
  home ++ [SetPIN 2 (Some user_pin) (Some [4; 4; 4; 4]); bad; Login 2 CKU_SO (Some so_pin); SetPIN 2 (Some so_pin) (Some [8; 8; 8; 8]); Finalize; on; OpenSession 0 RW true].
Example C08_case : forallb steady changed = true /\ pin_of toy toy_be toy_env changed 0 CKU_USER = Some [4; 4; 4; 4] /\ pin_of toy toy_be toy_env changed 0 CKU_SO = Some [8; 8; 8; 8] /\
  failures toy_be (toy_end changed) 0 CKU_USER = Some 1 /\ logged toy_be (toy_end changed) 0 = Some KRY_UNSPEC /\ healthy toy_be (toy_end changed) 0 = true /\
  slot_of toy_be (toy_end changed) 1 = Some 0.
Proof. split_and!; vm_compute; reflexivity. Qed.
Example C08_case_rv : map (toy_rv (toy_end changed)) [Login 1 CKU_USER (Some [4; 4; 4; 4]); Login 1 CKU_USER (Some user_pin); Login 1 CKU_SO (Some [8; 8; 8; 8]); Login 1 CKU_SO (Some so_pin)] =
  [CKR_OK; CKR_PIN_INCORRECT; CKR_OK; CKR_PIN_INCORRECT].
Proof. vm_compute. reflexivity. Qed.
Example C08_case_sessions h s : session_of toy_be (toy_end changed) h = Some s -> In (s_state s) [CKS_RO_PUBLIC_SESSION; CKS_RW_PUBLIC_SESSION].
Proof.
  unfold session_of. assert (forallb (fun p => match w_slots (toy_end changed) !! snd p with Some sl => match sl_sessions sl !! fst p with
    Some s => (s_state s =? CKS_RO_PUBLIC_SESSION) || (s_state s =? CKS_RW_PUBLIC_SESSION) | None => true end | None => true end) (map_to_list (w_smap (toy_end changed))) = true) as H by (vm_compute; reflexivity).
  rewrite forallb_forall in H. destruct (w_smap (toy_end changed) !! h) as [sid|] eqn:Hm; [|done]. specialize (H (h, sid)). cbn [fst snd] in H.
  destruct (w_slots (toy_end changed) !! sid) as [sl|]; [|done]. intros Hs. rewrite Hs in H. assert (In (h, sid) (map_to_list (w_smap (toy_end changed)))) as Hin by (by apply elem_of_list_In, elem_of_map_to_list).
  apply H, orb_prop in Hin as [X|X]; apply N.eqb_eq in X; rewrite X; cbn; auto.
Qed.
