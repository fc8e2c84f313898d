(* What any attempt to authenticate does: it is refused beforehand, or the PIN is checked against the record. *)
From Verif Require Import Base Monad Hoare Attr Obj Factory Tables Create Sqlite Storage Token Backend State Api
  Rows ObjOk ObjNew Triple TokInv TokStep TokenFrame TokWp TokAuth Spec WorldFrame WorldWp Sessions SessionInv SessionFacts
  Lifecycle ObjWorld ObjView ObjFacts Errors AuthSpec Users AuthFacts AuthInv AuthPins.

Section attempt.
Context (P : params) (B : backend) (E : N -> keyenv) (Hfs : p_fs P = all_factories) (Hutf : forall n, utf8_valid (p_uuid P n) = true).
Context (HL : pin_laws P) (HS : sane (fun e => plain_code e = true) P B E).
Notation world := (world B). Notation winv := (winv B). Notation token_of := (token_of B). Notation after := (after P B E).
Notation rv := (rv P B E). Notation logged := (logged B). Notation slot_of := (slot_of B). Notation attempt_on := (attempt_on B).
Notation view_at := (view_at B). Notation own_disks := (own_disks B). Notation db_at := (db_at B). Notation record_of := (record_of B).
Notation failures := (failures B). Notation healthy := (healthy B). Notation run := (run P B E).
Notation tally_run := (tally_run P B E). Notation pin_run := (pin_run P B E). Notation refused := (refused P B E).

Lemma view_tok_db t : v_db (tview t) = t_db t.
Proof. done. Qed.
Definition init_or (c : call) (e : N) : N := match c with InitToken _ _ _ => init_code e | _ => e end.
Inductive attempt_eff (w : world) (c : call) (sid u : N) (t t' : token) : Prop :=
| ae_refused : tame (tview t) (tview t') -> refused w sid c = true -> rv w c <> CKR_OK -> wrong_pin (rv w c) = false -> attempt_eff w c sid u t t'
| ae_tried b t1 res : tried P u (user_row u) (pin_given c) b t t1 res ->
    match res with
    | Ok _ => wrong_pin (rv w c) = false /\ (rv w c = CKR_OK -> t_io t = [] -> exists i, fetch_user (t_db t') (user_row u) = Ok i /\ ai_cur i = 0)
    | Err e => rv w c = init_or c e /\ tame (tview t1) (tview t')
    end -> attempt_eff w c sid u t t'.
Lemma refusal_facts e : existsb (N.eqb e) refusals = true -> e <> CKR_OK /\ wrong_pin e = false.
Proof. intros H. apply existsb_exists in H as (x & Hx & H). apply N.eqb_eq in H. subst x. unfold refusals in Hx. repeat (destruct Hx as [<-|Hx]; [done|]). done. Qed.
Lemma attempt_at w c sid u : winv w -> attempt_on w c = Some (sid, u) -> exists t t', token_of w sid = Some t /\ token_of (after w c) sid = Some t' /\ is_user u = true /\ attempt_eff w c sid u t t'.
Proof.
  intros Hw Ha. destruct c; try done; cbn [AuthSpec.attempt_on] in Ha.
  - (* C_InitToken *)
    destruct (token_of w sid0) as [t|] eqn:T1; [|done]. destruct (tk_initialized t) eqn:Hti; [|done]. injection Ha as -> <-.
    destruct (init_token_at P B E (Hty P HL) HS w sid pin label t Hw T1) as (t' & T2 & Heff). exists t, t'. split_and!; try done.
    destruct Heff as [[Hta Hr]|(r & Hin & Hr)].
    + apply ae_refused; try done; try (rewrite Hr; done). unfold AuthSpec.refused. by rewrite Hr.
    + inversion Hin as [e Hi Htr|t1 e S1 S2 S3 S4 S5 S6 Hpl|t1 r0 S1 S2 Hok]; subst.
      * eapply (ae_tried _ _ _ _ _ _ false t' (Err e)); [exact Htr|]. split; [exact Hr|reflexivity].
      * destruct S1 as [[_ S1]|[S1 _]]; [|congruence]. eapply (ae_tried _ _ _ _ _ _ false t1 (Ok tt)); [exact S1|].
        assert (rv w (InitToken sid pin label) = CKR_GENERAL_ERROR) as ->; [|done]. rewrite Hr. unfold init_code. unfold plain_code in Hpl. destruct (pin_code e); [lia|done].
      * destruct S1 as [[_ S1]|[S1 _]]; [|congruence]. eapply (ae_tried _ _ _ _ _ _ false t1 (Ok tt)); [exact S1|]. destruct r as [[]|e].
        -- rewrite Hr. split; [done|]. intros _ _. destruct S2 as [_ _ _ _ (n & _ & _ & _ & N4) _]. destruct (N4 eq_refl) as (? & ? & _ & _ & i & Hi & Hc & _). eauto.
        -- cbn in Hok. assert (rv w (InitToken sid pin label) = CKR_GENERAL_ERROR) as ->; [|done]. rewrite Hr. unfold init_code. unfold plain_code in Hok. destruct (pin_code e); [lia|done].
  - (* C_SetPIN *)
    destruct (slot_of w h) as [s|] eqn:Hs; [|done]. injection Ha as <- Hu. destruct (set_pin_at P B E Hutf w h old new s Hw Hs) as (t & t' & T1 & T2 & Heff). exists t, t'.
    rewrite (logged_token _ _ _ _ T1) in Hu. change (default KRY_UNSPEC (Some (t_logged t))) with (t_logged t) in Hu. rewrite Hu in Heff. split; [done|]. split; [done|].
    split; [subst u; by destruct (is_user (t_logged t)) eqn:?|]. destruct Heff as [Hta Hr|b t1 Htr Hta|t1 t2 Htr1 Htr2 Hta|tm t1 t2 res Htm Htr Hps Hta Hr].
    + destruct (refusal_facts _ Hr). by apply ae_refused.
    + by eapply (ae_tried _ _ _ _ _ _ b t1 (Err _)).
    + eapply (ae_tried _ _ _ _ _ _ true t1 (Ok tt)); [exact Htr1|]. pose proof (tried_twice _ _ _ _ _ _ _ _ _ Htr1 Htr2) as Hap. destruct (apart _ Hap) as (A0 & A1 & _). done.
    + assert (exists b t0, tried P u (user_row u) (default [] old) b t t0 (Ok tt)) as (b & t0 & H0) by (destruct Htm as [->|Htm]; eauto).
      eapply (ae_tried _ _ _ _ _ _ b t0 (Ok tt)); [exact H0|]. destruct res as [[]|e].
      * rewrite Hr. split; [done|]. intros _ _. rewrite <- (view_tok_db t'), (tame_fetch _ _ _ Hta). cbn [v_db tview]. inversion Hps as [|k r b0 Hk Hsl Kp]; subst. rewrite (kp_db _ _ _ Kp).
        pose proof (tried_rec _ _ _ _ _ _ _ _ Htr) as (i & _ & _ & i' & R3 & _).
        destruct (fetch_put_same (t_db t1) (user_row (if is_user (t_logged t) then t_logged t else CKU_USER)) (AuthInfo false (Some b0) MAX_LOGIN_ATTEMPTS 0) i') as [x ->]; [done|done|done|]. eauto.
      * rewrite Hr. apply (set_not_ok P HL), apart in Hps as (A0 & A1 & _). done.
  - (* C_Login *)
    destruct (slot_of w h) as [s|] eqn:Hs; [|done]. cbv zeta in Ha. destruct (login_at P B E Hutf w h ut pin s Hw Hs) as (t & t' & T1 & T2 & Heff).
    rewrite (logged_token _ _ _ _ T1) in Ha. change (default KRY_UNSPEC (Some (t_logged t))) with (t_logged t) in Ha.
    match type of Ha with (if ?b then _ else _) = _ => destruct b eqn:Hb end; [|done]. injection Ha as <- Hu. exists t, t'. split; [done|]. split; [done|]. split; [by rewrite <- Hu|].
    destruct Heff as [Hta Hr1 Hr2 Hr3 _|u' b t1 res Hue Hu' Htr Hta Hr].
    + apply ae_refused; try done. unfold AuthSpec.refused. rewrite (logged_token _ _ _ _ T1). cbn [default]. destruct (N.eqb_spec (rv w (Login h ut pin)) CKR_OK); [done|]. cbn.
      destruct (N.eqb_spec (rv w (Login h ut pin)) CKR_USER_ANOTHER_ALREADY_LOGGED_IN) as [X|X]; [|done]. apply Hr3 in X. cbn. lia.
    + rewrite Hu in Hue. subst u'. eapply (ae_tried _ _ _ _ _ _ b t1 res); [exact Htr|]. destruct res as [[]|e]; [|done].
      split; [by destruct Hr as [-> |(-> & _)]|]. intros _ Hio. rewrite <- (view_tok_db t'), (tame_fetch _ _ _ Hta). cbn [v_db tview].
      pose proof (tried_rec _ _ _ _ _ _ _ _ Htr) as (i & _ & _ & i' & R3 & _ & _ & R4). eauto.
Qed.
End attempt.
