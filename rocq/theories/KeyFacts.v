(* The key of a token stays the same from one C_InitToken to the next, whatever PINs are set in between. *)
From Verif Require Import Base Monad Hoare Attr Obj Factory Tables Create Sqlite Storage Token Backend State Api
  ObjSpec PlainSpec Rows ObjOk ObjNew Triple TokInv TokStep TokenFrame TokWp TokAuth Spec WorldFrame WorldWp Sessions SessionInv SessionFacts
  Lifecycle ObjWorld ObjView ObjFacts Errors AuthSpec Users AuthFacts AuthInv AuthPins.

Section world.
Context (P : params) (B : backend) (E : N -> keyenv) (Hfs : p_fs P = all_factories) (Hutf : forall n, utf8_valid (p_uuid P n) = true).
Context (HL : pin_laws P) (HS : sane (fun e => plain_code e = true) P B E).
Notation world := (world B). Notation winv := (winv B). Notation token_of := (token_of B). Notation after := (after P B E).
Notation rv := (rv P B E). Notation logged := (logged B). Notation slot_of := (slot_of B). Notation attempt_on := (attempt_on B).
Notation view_at := (view_at B). Notation own_disks := (own_disks B). Notation db_at := (db_at B).
Notation pin_next := (pin_next P B E). Notation pins_of := (pins_of P).

(* C_InitToken of the slot, unless refused or stopped by a wrong PIN. *)
Definition wipes (w : world) (c : call) (sid : N) : bool :=
  match c with InitToken s _ _ => (s =? sid) && negb (wrong_pin (rv w c) || refused P B E w sid c) | _ => false end.
Fixpoint unwiped (w : world) (cs : list call) (sid : N) : bool :=
  match cs with [] => true | c :: r => negb (wipes w c sid) && unwiped (after w c) r sid end.

Lemma pins_step v k w c sid K : winv w -> own_disks w -> steady c = true -> wipes w c sid = false -> pins_of v k K (view_at w sid) ->
  pins_of v k (fun u => pin_next w c sid u (K u)) (view_at (after w c) sid).
Proof.
  intros Hw Ho Hst Hnw HK. destruct (user_call c && (sid =? acting B w c)) eqn:Hc.
  2: { assert (forall u, pin_next w c sid u (K u) = K u) as Hsame.
       { intros u. pose proof Hc as Hc'. destruct c; try done.
         - cbn in Hc. unfold acting in Hc. cbn in Hc. cbn. by rewrite N.eqb_sym, Hc.
         - cbn in Hc |- *. rewrite bool_decide_false; [done|]. intros X. unfold acting in Hc. cbn in Hc. unfold Spec.slot_of in X. destruct (w_smap w !! h); cbn in *; [|done]. injection X as X. lia.
         - cbn [AuthSpec.pin_next]. rewrite bool_decide_false; [done|]. intros X. cbn in Hc, X. unfold acting in Hc. cbn in Hc. unfold Spec.slot_of in X. destruct (w_smap w !! h); cbn in *; [|done]. injection X as X. lia. }
       eapply pins_weaken; [intros u _; left; apply Hsame|]. eapply pins_tame; [by apply (calm_call P B E Hfs Hutf)|done]. }
  apply andb_prop in Hc as [Hc Hac]. apply N.eqb_eq in Hac. destruct (user_call_cases B w c sid Hc Hac) as [(h & Hh & [Hs|Hs])|(pin & label & ->)].
  - destruct c; try done; cbn in Hh; injection Hh as ->.
    + (* C_InitPIN *)
      destruct (init_pin_at P B E w h pin sid Hw Hs) as (t & t' & T1 & T2 & Heff). rewrite (view_token _ _ _ _ T1) in HK. rewrite (view_token _ _ _ _ T2).
      cbn [AuthSpec.pin_next]. rewrite bool_decide_true by done. cbn [andb]. destruct Heff as [[Hta Hr]|(Hlo & r & Hp & Hr)].
      * apply N.eqb_neq in Hr. rewrite Hr. eapply pins_tame; [done|]. eapply pins_weaken; [|exact HK]. intros u _. rewrite andb_false_r. auto.
      * apply (pin_set_pins P v k K CKU_USER) in Hp as Hk; [|done|done]. destruct r as [[]|e]; rewrite Hr.
        -- eapply pins_weaken; [|exact Hk]. intros u _. left. unfold upd. change (CKR_OK =? CKR_OK) with true. by rewrite andb_true_r.
        -- apply (set_not_ok P HL), apart in Hp as [Hne _]. apply N.eqb_neq in Hne. rewrite Hne. eapply pins_weaken; [|exact Hk]. intros u _. rewrite andb_false_r. auto.
    + (* C_SetPIN *)
      destruct (set_pin_at P B E Hutf w h old new sid Hw Hs) as (t & t' & T1 & T2 & Heff). rewrite (view_token _ _ _ _ T1) in HK. rewrite (view_token _ _ _ _ T2).
      set (u' := if is_user (t_logged t) then t_logged t else CKU_USER) in *. assert (is_user u' = true) as Hu' by (unfold u'; by destruct (is_user (t_logged t)) eqn:?).
      assert (attempt_on w (SetPIN h old new) = Some (sid, u')) as Ha. { cbn. rewrite Hs. rewrite (logged_token _ _ _ _ T1). done. }
      unfold AuthSpec.pin_next. rewrite Ha.
      assert (rv w (SetPIN h old new) <> CKR_OK -> pins_of v k K (tview t') -> pins_of v k (fun u => if bool_decide (Some (sid, u') = Some (sid, u)) && (rv w (SetPIN h old new) =? CKR_OK) then Some (default [] new) else K u) (tview t')) as Hno.
      { intros Hne Hi. apply N.eqb_neq in Hne. rewrite Hne. eapply pins_weaken; [|exact Hi]. intros u _. rewrite andb_false_r. auto. }
      destruct Heff as [Hta Hr|b t1 Htr Hta|t1 t2 Htr1 Htr2 Hta|tm t1 t2 res Htm Htr Hps Hta Hr].
      * apply Hno; [|by eapply pins_tame]. intros X. by rewrite X in Hr.
      * apply Hno; [by eapply tried_not_ok|]. eapply pins_tame; [done|]. by eapply (tried_pins P HL).
      * apply Hno; [by eapply tried_not_ok|]. eapply pins_tame; [done|]. eapply (tried_pins P HL); [done|done|done|]. by eapply (tried_pins P HL).
      * assert (pins_of v k K (tview t1)) as Hk1. { eapply (tried_pins P HL); [done|done|exact Htr|]. destruct Htm as [->|Htm]; [done|]. by eapply (tried_pins P HL). }
        pose proof (pin_set_pins P v k K u' _ _ _ _ Hu' Hps Hk1) as Hk. destruct res as [[]|e].
        -- rewrite Hr. eapply pins_tame; [done|]. eapply pins_weaken; [|exact Hk]. intros u _. left. unfold upd. change (CKR_OK =? CKR_OK) with true. rewrite andb_true_r.
           destruct (N.eqb_spec u u') as [->|Hne]; [by rewrite bool_decide_true|]. rewrite bool_decide_false; [done|congruence].
        -- apply Hno; [|by eapply pins_tame]. rewrite Hr. by apply (set_not_ok P HL), apart in Hps as [Hps _].
    + (* C_Login *)
      destruct (login_at P B E Hutf w h ut pin sid Hw Hs) as (t & t' & T1 & T2 & Heff). rewrite (view_token _ _ _ _ T1) in HK. rewrite (view_token _ _ _ _ T2).
      apply (pins_weaken P v k K); [cbn; auto|]. destruct Heff as [Hta _ _ _ _|u' b t1 res Hue Hu' Htr Hta Hr _]; [by eapply pins_tame|]. eapply pins_tame; [done|]. by eapply (tried_pins P HL).
  - destruct (no_session P B E w c h Hc Hh Hs) as [-> Hr]. apply N.eqb_neq in Hr. eapply pins_weaken; [|exact HK]. intros u _. left.
    destruct c; try done; cbn [AuthSpec.pin_next]; rewrite Hr, andb_false_r; done.
  - (* C_InitToken *)
    cbn [wipes] in Hnw. rewrite N.eqb_refl in Hnw. cbn [andb] in Hnw. apply negb_false_iff in Hnw.
    cbn [AuthSpec.pin_next]. rewrite N.eqb_refl. cbn [negb]. rewrite Hnw.
    assert (rv w (InitToken sid pin label) <> CKR_OK) as Hnok. { intros X. unfold refused in Hnw. rewrite X in Hnw. discriminate Hnw. }
    pose proof Hnok as Hnb. apply N.eqb_neq in Hnb. rewrite Hnb. apply (pins_weaken P v k K); [auto|].
    destruct (token_of w sid) as [t|] eqn:T1.
    2: { pose proof (token_steps P B E Hfs Hutf w (InitToken sid pin label) sid Hw eq_refl) as Hk. rewrite T1 in Hk. destruct (token_of (after w _) sid) as [t'|] eqn:T2; [done|].
         destruct (live_step P B E Hfs Hutf w (InitToken sid pin label) eq_refl Hw) as [_ Hd].
         assert (view_at (after w (InitToken sid pin label)) sid = view_at w sid) as ->; [|done].
         unfold Spec.token_of in *. unfold AuthFacts.view_at. destruct (w_slots w !! sid); [done|]. destruct (w_slots (after w _) !! sid); [done|]. unfold disk_db, Spec.after. by rewrite Hd. }
    destruct (init_token_at P B E (Hty P HL) HS w sid pin label t Hw T1) as (t' & T2 & Heff). rewrite (view_token _ _ _ _ T1) in HK. rewrite (view_token _ _ _ _ T2).
    destruct Heff as [[Hta Hr]|(r & Hin & Hr)]; [by eapply pins_tame|].
    assert (forall t1, started P (default [] pin) t t1 -> pins_of v k K (tview t1)) as Hsta.
    { intros t1 [[_ H1]|[_ ->]]; [|done]. by eapply (tried_pins P HL v k K CKU_SO). }
    inversion Hin as [e Hi Htr|t1 e S1 S2 S3 S4 S5 S6 Hpl|t1 r0 S1 S2 Hok]; subst.
    + by eapply (tried_pins P HL v k K CKU_SO).
    + unfold tview. rewrite S2, S3, S4. by apply Hsta.
    + exfalso. destruct r as [[]|e]; [done|]. cbn in Hok. assert (rv w (InitToken sid pin label) = CKR_GENERAL_ERROR) as Hg. { rewrite Hr. unfold init_code. unfold plain_code in Hok. destruct (pin_code e); [lia|done]. }
      unfold refused in Hnw. rewrite Hg in Hnw. discriminate Hnw.
Qed.
Lemma pins_run v k cs : forall w sid K, winv w -> own_disks w -> forallb steady cs = true -> unwiped w cs sid = true -> pins_of v k K (view_at w sid) ->
  pins_of v k (fun u => pin_run P B E w cs sid u (K u)) (view_at (fst (run P B E w cs)) sid).
Proof.
  induction cs as [|c cs IH]; intros w sid K Hw Ho Hst Hun HK; [done|]. cbn [forallb] in Hst. apply andb_prop in Hst as [Hc Hst]. cbn [unwiped] in Hun. apply andb_prop in Hun as [Hu Hun].
  apply negb_true_iff in Hu.
  specialize (IH (after w c) sid _ (after_winv P B E Hfs Hutf w c Hw) (after_own P B E Hfs Hutf w c Hw Ho Hc) Hst Hun (pins_step v k w c sid K Hw Ho Hc Hu HK)).
  cbn [run pin_run]. unfold Spec.after in *. destruct (step P B E w c) as [w1 o]. cbn [fst] in *. destruct (run P B E w1 cs) as [w2 os]. exact IH.
Qed.
Lemma own_run cs : forall w, winv w -> own_disks w -> forallb steady cs = true -> winv (fst (run P B E w cs)) /\ own_disks (fst (run P B E w cs)).
Proof.
  induction cs as [|c cs IH]; intros w Hw Ho Hst; [done|]. cbn [forallb] in Hst. apply andb_prop in Hst as [Hc Hst].
  specialize (IH (after w c) (after_winv P B E Hfs Hutf w c Hw) (after_own P B E Hfs Hutf w c Hw Ho Hc) Hst).
  cbn [run]. unfold Spec.after in *. destruct (step P B E w c) as [w1 o]. cbn [fst] in *. destruct (run P B E w1 cs) as [w2 os]. exact IH.
Qed.
(* A login that succeeds loads the key. *)
Lemma login_key w h u pin sid : winv w -> slot_of w h = Some sid -> is_user u = true -> rv w (Login h u pin) = CKR_OK ->
  exists t' k, token_of (after w (Login h u pin)) sid = Some t' /\ t_key t' = Some k.
Proof.
  intros Hw Hs Hu Hr. destruct (login_at P B E Hutf w h u pin sid Hw Hs) as (t & t' & T1 & T2 & Heff). exists t'.
  assert (u <> CKU_CONTEXT_SPECIFIC) as Hcs by (apply user_cases in Hu as [-> | ->]; done).
  destruct Heff as [_ Hne _ _ _|u' b t1 res Hue Hu' Htr Hta Hres Hb]; [done|]. destruct (Hb Hr Hcs) as [-> Hv].
  destruct res as [[]|e]; [|exfalso; apply tried_not_ok in Htr; congruence].
  inversion Htr as [| | | |i b v k d A1 A2 A3 A4 A5 A6 X]; subst. destruct A6 as [_ [_ K2 _ _ _ _]]. exists k. split; [done|]. unfold tview in Hv. injection Hv as _ -> _. rewrite K2. done.
Qed.
End world.
