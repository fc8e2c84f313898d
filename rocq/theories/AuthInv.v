(* The count of failed attempts and the PIN of each user, kept by every call. *)
From Verif Require Import Base Monad Hoare Attr Obj Factory Tables Create Sqlite Storage Token Backend State Api
  Rows ObjOk ObjNew Triple TokInv TokStep TokenFrame TokWp TokAuth Spec WorldFrame WorldWp Sessions SessionInv SessionFacts
  Lifecycle ObjWorld ObjView ObjFacts Errors AuthSpec Users AuthFacts.

Lemma apart e : told_apart e = true -> e <> CKR_OK /\ wrong_pin e = false /\ existsb (N.eqb e) refusals = false /\ pin_code e = false /\ e <> CKR_USER_ANOTHER_ALREADY_LOGGED_IN.
Proof.
  unfold told_apart. intros H. apply negb_true_iff in H. cbn [existsb] in H. apply orb_false_iff in H as [H0 H]. apply orb_false_iff in H as [H1 H].
  apply orb_false_iff in H as [H2 H]. apply orb_false_iff in H as [H3 H]. apply orb_false_iff in H as [H4 H]. unfold wrong_pin, pin_code. rewrite H1, H2, H3. split_and!; try done; [lia| |lia].
  unfold refusals in H. cbn [existsb] in H. destruct (e =? CKR_PIN_INVALID); [|done]. by rewrite !orb_true_r in H.
Qed.
Lemma row_ne u v : is_user u = true -> is_user v = true -> u <> v -> user_row u <> user_row v.
Proof. intros Hu Hv. apply user_cases in Hu as [-> | ->], Hv as [-> | ->]; done. Qed.

Section tok.
Context (P : params).
(* ---- the count ---- *)
Definition cnt (n : N) (d : db) (uid : N) : Prop := forall i, fetch_user d uid = Ok i -> N.min n 10 <= ai_cur i.
Lemma cnt_zero d uid : cnt 0 d uid.
Proof. intros i _. lia. Qed.
Lemma cnt_locked n d uid i : cnt n d uid -> 10 <= n -> fetch_user d uid = Ok i -> locked i = true.
Proof. intros H Hn Hi. specialize (H _ Hi). destruct (fetch_user_data _ _ _ Hi) as (_ & Hm & _). unfold locked. rewrite Hm. change MAX_LOGIN_ATTEMPTS with 10. lia. Qed.
Lemma tried_other u uid pin b t t' r v : tried P u uid pin b t t' r -> v <> uid -> fetch_user (t_db t') v = fetch_user (t_db t) v.
Proof.
  intros H Hv. destruct H as [e K|i b' v' k A1 A2 A3 A4 A5 A6 A7|i A1 A2 K|i b' e A1 A2 A3 A4 A5 [[_ K]|K]|i b' v' k d A1 A2 A3 A4 A5 A6].
  - by rewrite (kp_db _ _ _ K).
  - by rewrite A7.
  - by rewrite (kp_db _ _ _ K).
  - by rewrite (kp_db _ _ _ K).
  - rewrite (kp_db _ _ _ K). by apply fetch_put_ne.
  - assert (t_db t' = d) as -> by (destruct b; [destruct A6 as [_ A6]|]; apply A6). destruct A5 as [[_ ->]| ->]; [done|by apply fetch_put_ne].
Qed.
(* The record after an attempt. *)
Lemma tried_rec u uid pin b t t' r : tried P u uid pin b t t' r ->
  match r with
  | Ok _ => exists i, fetch_user (t_db t) uid = Ok i /\ locked i = false /\
      exists i', fetch_user (t_db t') uid = Ok i' /\ ai_data i' = ai_data i /\ locked i' = false /\ (t_io t = [] -> ai_cur i' = 0)
  | Err e =>
      if wrong_pin e then exists i, fetch_user (t_db t) uid = Ok i /\
        exists i', fetch_user (t_db t') uid = Ok i' /\ ai_data i' = ai_data i /\ ai_cur i <= ai_cur i' /\ (t_io t = [] -> locked i = false -> ai_cur i' = ai_cur i + 1) /\
          (e = CKR_PIN_INCORRECT -> locked i = false)
      else told_apart e = true /\ (t_io t = [] -> forall i, fetch_user (t_db t) uid <> Ok i) /\ fetch_user (t_db t') uid = fetch_user (t_db t) uid \/
           b = true /\ fetch_user (t_db t') uid = fetch_user (t_db t) uid /\ e = CKR_ATTRIBUTE_VALUE_INVALID
  end.
Proof.
  intros H. destruct H as [e K1 K2 K3|i b' v' k A1 A2 A3 A4 A5 A6 A7|i A1 A2 K|i b' e A1 A2 A3 A4 A5 A6|i b' v' k d A1 A2 A3 A4 A5 A6].
  - destruct (apart e K3) as (_ & -> & _). left. by rewrite (kp_db _ _ _ K1).
  - right. rewrite A7. done.
  - cbn. exists i. rewrite (kp_db _ _ _ K). split; [done|]. exists i. split_and!; try done; try lia; try (intros _ H; congruence).
  - assert (wrong_pin e = true) as -> by (rewrite A5; destruct (_ <=? _); done). exists i. split; [done|].
    pose proof (fetch_cur _ _ _ A1 A2) as Hc. destruct A6 as [[Hio K]|K]; rewrite (kp_db _ _ _ K).
    + exists i. split_and!; try done; lia.
    + destruct (fetch_put_same (t_db t) uid (AuthInfo (ai_default i) (ai_data i) (ai_max i) (ai_cur i + 1)) i) as [x ->]; [done|done|cbn; congruence|]. eexists. split; [reflexivity|]. cbn. split_and!; try done; lia.
  - exists i. split; [done|]. split; [done|]. assert (t_db t' = d) as -> by (destruct b; [destruct A6 as [_ A6]|]; apply A6).
    destruct A5 as [[Hz ->]| ->]; [exists i; split_and!; try done; by destruct Hz|].
    destruct (fetch_put_same (t_db t) uid (AuthInfo (ai_default i) (ai_data i) (ai_max i) 0) i) as [x ->]; [done|done|cbn; congruence|]. eexists. split; [reflexivity|]. done.
Qed.
(* The same PIN again is not refused. *)
Lemma tried_twice u uid pin b t t1 t2 e : tried P u uid pin b t t1 (Ok tt) -> tried P u uid pin false t1 t2 (Err e) -> told_apart e = true.
Proof.
  intros H1 H2. pose proof (tried_rec _ _ _ _ _ _ _ H1) as (i & R1 & R2 & i' & R3 & R4 & R5 & _).
  inversion H1 as [| | | |j b' v' k d A1 A2 A3 A4 A5 A6]. assert (j = i) as -> by congruence.
  inversion H2 as [e' K1 K2 K3|j' b2 v2 k2 B1 B2 B3 B4 B5 B6 B7|j' B1 B2 K|j' b2 e' B1 B2 B3 B4 B5 B6|]; subst; try done.
  - congruence.
  - congruence.
Qed.
Lemma pin_set_other uid pin t t' r v : pin_set P uid pin t t' r -> v <> uid -> fetch_user (t_db t') v = fetch_user (t_db t) v.
Proof. intros [e K _ _|k r' b _ _ K] Hv; rewrite (kp_db _ _ _ K); [done|by apply fetch_put_ne]. Qed.
End tok.

Section world.
Context (P : params) (B : backend) (E : N -> keyenv) (Hfs : p_fs P = all_factories) (Hutf : forall n, utf8_valid (p_uuid P n) = true).
Context (HL : pin_laws P) (HS : sane (fun e => plain_code e = true) P B E).
Notation world := (world B). Notation winv := (winv B). Notation token_of := (token_of B). Notation after := (after P B E).
Notation rv := (rv P B E). Notation logged := (logged B). Notation slot_of := (slot_of B). Notation attempt_on := (attempt_on B).
Notation view_at := (view_at B). Notation own_disks := (own_disks B). Notation db_at := (db_at B).
Lemma Hty u pin v k r : p_seal_key P u pin v k r <> Err CKR_USER_TYPE_INVALID.
Proof. intros X. by apply (pl_code _ HL) in X as [_ X]. Qed.

Lemma db_token w sid t : token_of w sid = Some t -> db_at w sid = t_db t.
Proof. intros Ht. rewrite <- view_db. by rewrite (view_token _ _ _ _ Ht). Qed.
Lemma logged_token w sid t : token_of w sid = Some t -> logged w sid = Some (t_logged t).
Proof. unfold Spec.logged. by intros ->. Qed.
(* Calls on sessions that are not open, or slots that are not there. *)
Lemma no_session w c h : user_call c = true -> session_of_call c = Some h -> slot_of w h = None -> after w c = w /\ rv w c <> CKR_OK.
Proof.
  intros Hc Hh Hs. unfold Spec.after. rewrite run_step, rv_code.
  assert (forall m : M world (N * out), (exists A (k : A -> M world (N * out)) (m0 : M world A), m = (Api.lock B;;; let! x := m0 in k x) /\ m0 w = (w, Err CKR_SESSION_HANDLE_INVALID)) -> fst (m w) = w /\ code (snd (m w)) <> CKR_OK) as Hm.
  { intros m (A & k & m0 & -> & Hm0). destruct (N.eq_dec (w_next w) 0) as [Hz|Hz].
    - rewrite run_bind, lock_off by done. done.
    - rewrite run_bind, lock_eq by done. rewrite run_bind, Hm0. done. }
  assert (get_session B h w = (w, Err CKR_SESSION_HANDLE_INVALID)) as Hg.
  { unfold get_session. rewrite run_bind, session_slot_none by done. done. }
  assert (token_of_session B h w = (w, Err CKR_SESSION_HANDLE_INVALID)) as Hg2.
  { unfold token_of_session. rewrite run_bind, session_slot_none by done. done. }
  destruct c; try done; cbn in Hh; injection Hh as ->; cbn [api].
  - apply Hm. do 3 eexists. split; [reflexivity|done].
  - apply Hm. do 3 eexists. split; [reflexivity|done].
  - apply Hm. do 3 eexists. split; [reflexivity|done].
Qed.
Lemma user_call_cases w c sid : user_call c = true -> sid = acting B w c ->
  (exists h, session_of_call c = Some h /\ (slot_of w h = Some sid \/ slot_of w h = None)) \/ (exists pin label, c = InitToken sid pin label).
Proof.
  intros Hc ->. destruct c; try done; cbn; [right; eauto|left..]; exists h; (split; [done|]); unfold acting; cbn; destruct (w_smap w !! h) eqn:Hm; unfold Spec.slot_of; rewrite Hm; auto.
Qed.

(* ---- the count ---- *)
Lemma existsb_false e : existsb (N.eqb e) refusals = false -> wrong_pin e = false -> forall w sid c u n,
  (match c with Login _ _ _ => False | _ => True end) -> rv w c = e -> (exists v, attempt_on w c = Some (sid, v)) -> (match c with InitToken _ _ _ => True | _ => attempt_on w c = Some (sid, u) end) -> tally P B E w c sid u n = 0.
Proof.
  intros He1 He2 w sid c u n Hc Hr (v & Ha) Hu. unfold tally. rewrite Ha, Hr, N.eqb_refl. cbn [andb]. rewrite He2. cbn [orb].
  assert (refused P B E w sid c = false) as Hrf by (unfold refused; rewrite Hr; destruct c; done). rewrite Hrf.
  destruct (N.eqb_spec v u) as [->|Hne]; cbn [andb]; [done|]. destruct c; try done; rewrite Ha in Hu; injection Hu as ->; done.
Qed.
Lemma cnt_tried u' pin b t t' r u n : is_user u = true -> is_user u' = true -> tried P u' (user_row u') pin b t t' r -> cnt n (t_db t) (user_row u) ->
  (u <> u' -> cnt n (t_db t') (user_row u)) /\
  (match r with Err _ => cnt n (t_db t') (user_row u) | Ok _ => True end) /\
  (match r with Err e => wrong_pin e = true -> u = u' -> t_io t = [] -> cnt (n + 1) (t_db t') (user_row u) | Ok _ => True end).
Proof.
  intros Hu Hu' Ht Hn. destruct (decide (u = u')) as [->|Hne].
  - pose proof (tried_rec _ _ _ _ _ _ _ _ Ht) as Hr. split; [done|]. destruct r as [[]|e]; [done|]. destruct (wrong_pin e).
    + destruct Hr as (i & R1 & i' & R2 & _ & R4 & R5 & _). specialize (Hn _ R1). split.
      * intros j Hj. assert (j = i') as -> by congruence. lia.
      * intros _ _ Hio j Hj. assert (j = i') as -> by congruence. destruct (locked i) eqn:Hl; [|rewrite R5; auto; lia].
        unfold locked in Hl. destruct (fetch_user_data _ _ _ R1) as (_ & Hm & _). rewrite Hm in Hl. change MAX_LOGIN_ATTEMPTS with 10 in Hl. lia.
    + split; [|done]. intros j Hj. destruct Hr as [(_ & _ & X)|(_ & X & _)]; rewrite X in Hj; by apply Hn.
  - assert (cnt n (t_db t') (user_row u)) as Hk.
    { intros j Hj. rewrite (tried_other _ _ _ _ _ _ _ _ _ Ht) in Hj by (by apply row_ne). by apply Hn. }
    split; [done|]. split; [by destruct r|]. destruct r; [done|]. intros _ X. done.
Qed.
Lemma cnt_tame a b n uid : tame a b -> cnt n (v_db a) uid -> cnt n (v_db b) uid.
Proof. intros Ht Hn i Hi. rewrite (tame_fetch _ _ _ Ht) in Hi. by apply Hn. Qed.
Lemma healthy_io w sid t : token_of w sid = Some t -> healthy B w sid = true -> t_io t = [].
Proof. unfold healthy. intros ->. by destruct (t_io t). Qed.

Lemma cnt_step w c sid u n : winv w -> own_disks w -> steady c = true -> is_user u = true ->
  cnt n (db_at w sid) (user_row u) -> cnt (tally P B E w c sid u n) (db_at (after w c) sid) (user_row u).
Proof.
  intros Hw Ho Hst Hu Hn. destruct (user_call c && (sid =? acting B w c)) eqn:Hc.
  2: { pose proof (calm_call P B E Hfs Hutf w c sid Hw Ho Hst Hc) as Hca. rewrite <- (view_db B (after w c)). rewrite <- view_db in Hn. 
       assert (tally P B E w c sid u n = n) as ->; [|by eapply cnt_tame].
       unfold tally. destruct (attempt_on w c) as [[s v]|] eqn:Ha.
       - assert (s <> sid) as Hne; [|destruct (N.eqb_spec s sid); done]. intros ->. destruct c; try done; cbn [AuthSpec.attempt_on] in Ha; cbn [user_call andb] in Hc.
         + destruct (token_of w sid0); [|done]. destruct (tk_initialized t); [|done]. injection Ha as -> _. unfold acting in Hc. cbn in Hc. lia.
         + destruct (slot_of w h) as [s'|] eqn:Hs; [|done]. injection Ha as -> _. unfold acting in Hc. cbn in Hc. unfold Spec.slot_of in Hs. rewrite Hs in Hc. cbn in Hc. lia.
         + destruct (slot_of w h) as [s'|] eqn:Hs; [|done]. cbv zeta in Ha. match type of Ha with (if ?b then _ else _) = _ => destruct b end; [|done]. injection Ha as -> _. unfold acting in Hc. cbn in Hc. unfold Spec.slot_of in Hs. rewrite Hs in Hc. cbn in Hc. lia.
       - destruct c; try done; cbn [user_call andb] in Hc.
         + unfold acting in Hc. cbn in Hc. destruct (N.eqb_spec sid0 sid); [subst; lia|done].
         + destruct (bool_decide (slot_of w h = Some sid)) eqn:Hs; [|done]. apply bool_decide_eq_true in Hs. unfold acting in Hc. cbn in Hc. unfold Spec.slot_of in Hs. rewrite Hs in Hc. cbn in Hc. lia. }
  apply andb_prop in Hc as [Hc Hac]. apply N.eqb_eq in Hac. destruct (user_call_cases w c sid Hc Hac) as [(h & Hh & [Hs|Hs])|(pin & label & ->)].
  - destruct c; try done; cbn in Hh; injection Hh as ->.
    + (* C_InitPIN *)
      destruct (init_pin_at P B E w h pin sid Hw Hs) as (t & t' & T1 & T2 & Heff). rewrite (db_token _ _ _ T1) in Hn. rewrite (db_token _ _ _ T2).
      assert (forall m, m = n \/ m = 0 -> cnt n (t_db t') (user_row u) -> cnt m (t_db t') (user_row u)) as Hm by (intros m [-> | ->] ?; [done|apply cnt_zero]).
      unfold tally. cbn [AuthSpec.attempt_on]. rewrite bool_decide_true by done. cbn [andb]. destruct Heff as [[Hta Hr]|(Hlo & r & Hp & Hr)].
      * apply Hm; [destruct (_ && _); auto|]. by apply (cnt_tame (tview t) (tview t')).
      * destruct r as [[]|e].
        -- rewrite Hr, N.eqb_refl, andb_true_r. destruct (N.eqb_spec u CKU_USER) as [->|Hne]; [apply cnt_zero|]. intros i Hi.
           rewrite (pin_set_other _ _ _ _ _ _ (user_row u) Hp) in Hi; [by apply Hn|]. by apply (row_ne u CKU_USER).
        -- apply Hm; [destruct (_ && _); auto|]. inversion Hp as [e' K _ _|]; subst. rewrite (kp_db _ _ _ K). done.
    + (* C_SetPIN *)
      destruct (set_pin_at P B E Hutf w h old new sid Hw Hs) as (t & t' & T1 & T2 & Heff). rewrite (db_token _ _ _ T1) in Hn. rewrite (db_token _ _ _ T2).
      set (u' := if is_user (t_logged t) then t_logged t else CKU_USER) in *. assert (is_user u' = true) as Hu' by (unfold u'; by destruct (is_user (t_logged t)) eqn:?).
      assert (attempt_on w (SetPIN h old new) = Some (sid, u')) as Ha. { cbn. rewrite Hs. rewrite (logged_token _ _ _ T1). done. }
      pose proof (fun e H1 H2 u2 H4 => existsb_false e H1 H2 w sid (SetPIN h old new) u2 n I H4 (ex_intro _ _ Ha)) as Hz.
      destruct (decide (u = u')) as [<-|Hne].
      * destruct Heff as [Hta Hr|b t1 Htr Hta|t1 t2 Htr1 Htr2 Hta|tm t1 t2 res Htm Htr Hps Hta Hr].
        -- unfold tally. rewrite Ha, !N.eqb_refl. cbn [andb]. unfold refused. rewrite Hr.
           assert (wrong_pin (rv w (SetPIN h old new)) = false) as ->. { apply existsb_exists in Hr as (x & Hx & Hr). apply N.eqb_eq in Hr. rewrite Hr. unfold refusals in Hx. repeat (destruct Hx as [<-|Hx]; [done|]). done. }
           by apply (cnt_tame (tview t) (tview t')).
        -- destruct (cnt_tried u _ b t t1 _ u n Hu Hu Htr Hn) as (_ & C2 & C3). unfold tally. rewrite Ha, !N.eqb_refl. cbn [andb].
           destruct (wrong_pin _) eqn:Hwp; [destruct (healthy B w sid) eqn:Hh|].
           ++ apply (cnt_tame (tview t1) (tview t')); [done|]. apply C3; try done. by eapply healthy_io.
           ++ by apply (cnt_tame (tview t1) (tview t')).
           ++ destruct (refused _ _ _ _ _ _); [by apply (cnt_tame (tview t1) (tview t'))|apply cnt_zero].
        -- pose proof (tried_twice _ _ _ _ _ _ _ _ _ Htr1 Htr2) as Hap. destruct (apart _ Hap) as (_ & A1 & A2 & _). rewrite (Hz _ A2 A1 u eq_refl Ha). apply cnt_zero.
        -- destruct res as [[]|e].
           ++ rewrite (Hz CKR_OK ltac:(done) ltac:(done) u Hr Ha). apply cnt_zero.
           ++ assert (told_apart e = true) as Hap.
              { inversion Hps as [e' K1 K2 K3|]; subst. destruct K3 as [[x ->]|[->|(v & k & r & K3)]]; [apply ioerr_pin|done|by apply (pl_code _ HL) in K3 as [K3 _]]. }
              destruct (apart _ Hap) as (_ & A1 & A2 & _). rewrite (Hz _ A2 A1 u Hr Ha). apply cnt_zero.
      * assert (tally P B E w (SetPIN h old new) sid u n = n) as ->. { unfold tally. rewrite Ha. destruct (N.eqb_spec u' u); [congruence|]. by rewrite N.eqb_refl. }
        assert (forall b t0 t1 r, tried P u' (user_row u') (default [] old) b t0 t1 r -> cnt n (t_db t0) (user_row u) -> cnt n (t_db t1) (user_row u)) as Hot.
        { intros b t0 t1 r H1 H2. by apply (cnt_tried _ _ _ _ _ _ u n Hu Hu' H1 H2). }
        destruct Heff as [Hta Hr|b t1 Htr Hta|t1 t2 Htr1 Htr2 Hta|tm t1 t2 res Htm Htr Hps Hta Hr].
        -- by apply (cnt_tame (tview t) (tview t')).
        -- apply (cnt_tame (tview t1) (tview t')); [done|]. by eapply Hot.
        -- apply (cnt_tame (tview t2) (tview t')); [done|]. eapply Hot; [done|]. by eapply Hot.
        -- apply (cnt_tame (tview t2) (tview t')); [done|]. cbn [v_db tview]. intros i Hi. rewrite (pin_set_other _ _ _ _ _ _ (user_row u) Hps) in Hi by (by apply row_ne).
           revert i Hi. change (cnt n (t_db t1) (user_row u)). eapply Hot; [done|]. destruct Htm as [->|Htm]; [done|]. by eapply Hot.
    + (* C_Login *)
      destruct (login_at P B E Hutf w h ut pin sid Hw Hs) as (t & t' & T1 & T2 & Heff). rewrite (db_token _ _ _ T1) in Hn. rewrite (db_token _ _ _ T2).
      destruct Heff as [Hta Hr1 Hr2 Hr3 _|u' b t1 res Hue Hu' Htr Hta Hr].
      * assert (refused P B E w sid (Login h ut pin) = true) as Hrf.
        { unfold refused. rewrite (logged_token _ _ _ T1). cbn [default]. destruct (N.eqb_spec (rv w (Login h ut pin)) CKR_OK); [done|]. cbn.
          destruct (N.eqb_spec (rv w (Login h ut pin)) CKR_USER_ANOTHER_ALREADY_LOGGED_IN) as [X|X]; [|done]. apply Hr3 in X. cbn. lia. }
        assert (tally P B E w (Login h ut pin) sid u n = n) as ->; [|by apply (cnt_tame (tview t) (tview t'))].
        unfold tally. rewrite Hrf, Hr2. destruct (attempt_on _ _) as [[s v]|]; [|done]. rewrite andb_false_r. by destruct (_ && _).
      * assert (attempt_on w (Login h ut pin) = Some (sid, u')) as Ha. { unfold AuthSpec.attempt_on. rewrite Hs, (logged_token _ _ _ T1). cbv zeta. change (default KRY_UNSPEC (Some (t_logged t))) with (t_logged t). rewrite <- Hue, Hu'. done. }
        destruct (cnt_tried u' _ b t t1 _ u n Hu Hu' Htr Hn) as (C1 & C2 & C3). unfold tally. rewrite Ha, N.eqb_refl. cbn [andb]. destruct (N.eqb_spec u' u) as [->|Hne].
        -- destruct res as [[]|e].
           ++ assert (wrong_pin (rv w (Login h ut pin)) = false) as -> by (by destruct Hr as [-> |(-> & _)]).
              assert (refused P B E w sid (Login h ut pin) = false) as ->; [|apply cnt_zero]. unfold refused. rewrite (logged_token _ _ _ T1). cbn [default].
              destruct Hr as [-> |(-> & -> & _)]; done.
           ++ rewrite Hr in *. destruct (wrong_pin e) eqn:Hwp; [destruct (healthy B w sid) eqn:Hh|].
              ** apply (cnt_tame (tview t1) (tview t')); [done|]. apply C3; try done. by eapply healthy_io.
              ** by apply (cnt_tame (tview t1) (tview t')).
              ** destruct (refused _ _ _ _ _ _); [by apply (cnt_tame (tview t1) (tview t'))|apply cnt_zero].
        -- apply (cnt_tame (tview t1) (tview t')); [done|]. apply C1. congruence.
  - destruct (no_session w c h Hc Hh Hs) as [-> Hr]. assert (tally P B E w c sid u n = n) as ->; [|done].
    unfold tally. destruct c; try done; cbn in Hh; injection Hh as ->; cbn [AuthSpec.attempt_on]; rewrite Hs; [|done..]. by rewrite bool_decide_false.
  - (* C_InitToken *)
    destruct (token_of w sid) as [t|] eqn:T1.
    2: { pose proof (token_steps P B E Hfs Hutf w (InitToken sid pin label) sid Hw eq_refl) as Hk. rewrite T1 in Hk. destruct (token_of (after w _) sid) as [t'|] eqn:T2; [done|].
         destruct (live_step P B E Hfs Hutf w (InitToken sid pin label) eq_refl Hw) as [_ Hd]. intros i Hi.
         assert (db_at (after w (InitToken sid pin label)) sid = db_at w sid) as Hdb.
         { unfold Spec.token_of in *. unfold AuthSpec.db_at. destruct (w_slots w !! sid); [done|]. destruct (w_slots (after w _) !! sid); [done|]. unfold Spec.after. by rewrite Hd. }
         rewrite Hdb in Hi. apply Hn in Hi. unfold tally. cbn [AuthSpec.attempt_on]. rewrite T1, N.eqb_refl. destruct (_ && _); lia. }
    destruct (init_token_at P B E Hty HS w sid pin label t Hw T1) as (t' & T2 & Heff). rewrite (db_token _ _ _ T1) in Hn. rewrite (db_token _ _ _ T2).
    assert (forall m, m = n \/ m = 0 -> cnt n (t_db t') (user_row u) -> cnt m (t_db t') (user_row u)) as Hm by (intros m [-> | ->] ?; [done|apply cnt_zero]).
    assert (rv w (InitToken sid pin label) = CKR_OK \/ rv w (InitToken sid pin label) = CKR_GENERAL_ERROR -> tally P B E w (InitToken sid pin label) sid u n = 0) as Hz.
    { intros Hr. assert (wrong_pin (rv w (InitToken sid pin label)) = false /\ refused P B E w sid (InitToken sid pin label) = false) as [Z1 Z2] by (unfold refused; by destruct Hr as [-> | ->]).
      unfold tally. cbn [AuthSpec.attempt_on]. rewrite T1. destruct (tk_initialized t); rewrite ?N.eqb_refl, ?Z1, ?Z2; cbn [andb orb negb]; [by destruct (_ =? u)|done]. }
    destruct Heff as [[Hta Hr]|(r & Hin & Hr)].
    + apply Hm; [|by apply (cnt_tame (tview t) (tview t'))]. unfold tally. cbn [AuthSpec.attempt_on]. rewrite T1. assert (refused P B E w sid (InitToken sid pin label) = true /\ wrong_pin (rv w (InitToken sid pin label)) = false) as [-> ->] by (unfold refused; by rewrite Hr).
      destruct (tk_initialized t); rewrite N.eqb_refl; cbn [andb orb negb]; [destruct (CKU_SO =? u)|]; auto.
    + inversion Hin as [e Hi Htr|t1 e S1 S2 S3 S4 S5 S6 Hpl|t1 r0 S1 S2 Hok]; subst.
      * pose proof (tried_rec _ _ _ _ _ _ _ _ Htr) as Hrec. cbv iota in Hrec. destruct (wrong_pin e) eqn:Hwp.
        -- assert (rv w (InitToken sid pin label) = e) as Hre. { rewrite Hr. unfold init_code. assert (pin_code e = true) as ->; [|done]. unfold wrong_pin in Hwp. unfold pin_code. lia. }
           destruct (cnt_tried CKU_SO _ _ t t' _ u n Hu ltac:(done) Htr Hn) as (C1 & C2 & C3). unfold tally. cbn [AuthSpec.attempt_on]. rewrite T1, Hi, N.eqb_refl, Hre, Hwp. cbn [andb orb].
           destruct (N.eqb_spec CKU_SO u) as [<-|Hne]; [|by apply C2]. destruct (healthy B w sid) eqn:Hh; [|by apply C2]. apply C3; try done. by eapply healthy_io.
        -- destruct Hrec as [(Hap & _)|(X & _)]; [|done]. destruct (apart _ Hap) as (_ & _ & _ & A & _). rewrite Hz; [apply cnt_zero|]. right. rewrite Hr. unfold init_code. by rewrite A.
      * rewrite Hz; [apply cnt_zero|]. right. rewrite Hr. unfold init_code. unfold plain_code in Hpl. destruct (pin_code e); [lia|done].
      * rewrite Hz; [apply cnt_zero|]. destruct r as [[]|e]; [by left|right]. rewrite Hr. unfold init_code. cbn in Hok. unfold plain_code in Hok. destruct (pin_code e); [lia|done].
Qed.
Lemma cnt_run cs : forall w sid u n, winv w -> own_disks w -> forallb steady cs = true -> is_user u = true ->
  cnt n (db_at w sid) (user_row u) ->
  let w' := fst (run P B E w cs) in winv w' /\ own_disks w' /\ cnt (tally_run P B E w cs sid u n) (db_at w' sid) (user_row u).
Proof.
  induction cs as [|c cs IH]; intros w sid u n Hw Ho Hst Hu Hn; [done|]. cbn [forallb] in Hst. apply andb_prop in Hst as [Hc Hst].
  specialize (IH (after w c) sid u _ (after_winv P B E Hfs Hutf w c Hw) (after_own P B E Hfs Hutf w c Hw Ho Hc) Hst Hu (cnt_step w c sid u n Hw Ho Hc Hu Hn)).
  cbn [run tally_run]. unfold Spec.after in *. destruct (step P B E w c) as [w1 o]. cbn [fst] in *. destruct (run P B E w1 cs) as [w2 os]. exact IH.
Qed.
End world.
