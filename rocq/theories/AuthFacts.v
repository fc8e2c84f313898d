(* What each call does to the records of the users of a slot. *)
From Verif Require Import Base Monad Hoare Attr Obj Factory Tables Create Sqlite Storage Token Backend State Api
  Rows ObjOk ObjNew Triple TokInv TokStep TokenFrame TokWp TokAuth Spec WorldFrame WorldWp Sessions SessionInv SessionFacts
  Lifecycle ObjWorld ObjView ObjFacts Errors AuthSpec Users.

(* ---- tokens and databases, as far as the users' records and the key are concerned ---- *)
Record view := View { v_db : db; v_key : option bytes; v_ver : N }.
Definition tview (t : token) : view := View (t_db t) (t_key t) (t_ver t).
(* The records are kept, the key may be dropped. *)
Record tame (a b : view) : Prop := Tame {
  tm_tables : d_tables (v_db b) = d_tables (v_db a);
  tm_meta : forall k u, user_meta k -> d_meta (v_db b) !! (k, u) = d_meta (v_db a) !! (k, u);
  tm_key : v_key b = v_key a /\ v_ver b = v_ver a \/ v_key b = None }.
Global Instance tame_pre : PreOrder tame.
Proof.
  split; [by split; auto|]. intros a b c [A1 A2 A3] [B1 B2 B3]. split; [congruence|intros k u Hk; rewrite B2; auto|].
  destruct B3 as [[B3 B4]|B3]; [|by right]. destruct A3 as [[A3 A4]|A3]; [left; split|right]; congruence.
Qed.
Lemma tame_fetch a b u : tame a b -> fetch_user (v_db b) u = fetch_user (v_db a) u.
Proof. intros [U1 U2 _]. unfold fetch_user. rewrite U1. rewrite !U2 by (unfold user_meta; auto). done. Qed.
Lemma tame_db t t' : t_db t' = t_db t -> t_key t' = t_key t /\ t_ver t' = t_ver t \/ t_key t' = None -> tame (tview t) (tview t').
Proof. intros H1 H2. split; cbn; [congruence|by intros; rewrite H1|done]. Qed.
Lemma tame_drop t v : tame (tview t) (View (t_db t) None v).
Proof. split; cbn; auto. Qed.
Lemma kept_tame t t' : kept t t' (t_db t) -> tame (tview t) (tview t').
Proof. intros [K1 K2 K3 _ _ _]. apply tame_db; auto. Qed.
Lemma ukept_tame t t' : ukept t t' -> tame (tview t) (tview t').
Proof. intros [K1 K2 K3 K4 _ _]. split; cbn; auto. Qed.
Lemma tstep_tame P k t t' : tstep P k t t' -> k <> KQuiet LAll -> k <> KReset -> tame (tview t) (tview t').
Proof.
  intros Hs Hk1 Hk2. destruct Hs; try done; try (by apply tame_db; auto).
  - destruct b; [| |done].
    + destruct H4 as (A1 & A2 & A3 & _); [done|]. apply tame_db; auto.
    + destruct H5 as (A1 & A2 & A3 & _); [done|]. apply tame_db; [done|]. destruct A2; auto.
  - destruct (store_meta _ _ _ H3) as [S1 S2]. split; cbn [v_db tview t_db set_db set_handles]; [done|by intros; rewrite S2|by left].
  - destruct (store_meta _ _ _ H7) as [S1 S2]. split; cbn [v_db tview t_db set_db set_handles]; [done|by intros; rewrite S2|by left].
  - destruct (store_meta _ _ _ H4) as [S1 S2]. split; cbn [v_db tview t_db set_db set_handles]; [done|by intros; rewrite S2|by left].
  - destruct (remove_meta _ _ _ H0) as [S1 S2]. split; cbn [v_db tview t_db set_db set_handles]; [done|by intros; rewrite S2|by left].
Qed.
Lemma tsteps_tame P (K : kind -> Prop) t t' : ~ K (KQuiet LAll) -> ~ K KReset -> tsteps P K t t' -> tame (tview t) (tview t').
Proof.
  intros H1 H2. induction 1 as [|t t1 t' (k & Hk & Hs) _ IH]; [reflexivity|]. etransitivity; [|exact IH]. eapply tstep_tame; [done| |]; congruence.
Qed.
Lemma logout_tame t : wp tk_logout t (fun t' _ => tame (tview t) (tview t')).
Proof. eapply wp_mono; [apply wp_tk_logout|]. cbv beta. intros t' r (A1 & A2 & A3 & _). apply tame_db; [done|]. destruct A2; auto. Qed.

Lemma pin_uid u uid : get_pin_uid u = Ok uid -> uid = user_row u /\ is_user u = true.
Proof. unfold get_pin_uid, user_row, is_user. destruct (u =? CKU_SO); [by intros [= <-]|]. destruct (u =? CKU_USER); [by intros [= <-]|done]. Qed.
Lemma user_uid u : is_user u = true -> get_pin_uid u = Ok (user_row u).
Proof. unfold get_pin_uid, user_row, is_user. destruct (u =? CKU_SO); [done|]. destruct (u =? CKU_USER); [done|done]. Qed.
Lemma user_cases u : is_user u = true -> u = CKU_SO \/ u = CKU_USER.
Proof. unfold is_user. destruct (N.eqb_spec u CKU_SO), (N.eqb_spec u CKU_USER); auto; done. Qed.

(* ---- the effect of each call on the token ---- *)
Section effects.
Context (P : params).
(* C_Login: refused, or the PIN was checked. *)
(* ro: a read-only session is open; stale: a session is in a state other than a public one. *)
Inductive login_eff (ro stale : Prop) (ut : N) (pin : bytes) (t t' : token) (r : N) : Prop :=
| le_refused : tame (tview t) (tview t') -> r <> CKR_OK -> wrong_pin r = false -> (r = CKR_USER_ANOTHER_ALREADY_LOGGED_IN -> t_logged t <> KRY_UNSPEC) ->
    (ut = CKU_SO /\ ro \/ is_user ut = true /\ t_logged t <> KRY_UNSPEC \/ is_user ut = false) -> login_eff ro stale ut pin t t' r
| le_tried u b t1 res : u = (if ut =? CKU_CONTEXT_SPECIFIC then t_logged t else ut) -> is_user u = true -> tried P u (user_row u) pin b t t1 res ->
    tame (tview t1) (tview t') ->
    match res with Ok _ => r = CKR_OK \/ r = CKR_USER_ANOTHER_ALREADY_LOGGED_IN /\ t_logged t = KRY_UNSPEC /\ stale | Err e => r = e end ->
    (r = CKR_OK -> ut <> CKU_CONTEXT_SPECIFIC -> b = true /\ tview t' = tview t1) ->
    login_eff ro stale ut pin t t' r.
(* C_SetPIN: refused, the old PIN was not accepted, or the new one was set. *)
Inductive set_eff (u : N) (old new : bytes) (t t' : token) (r : N) : Prop :=
| se_refused : tame (tview t) (tview t') -> existsb (N.eqb r) refusals = true -> set_eff u old new t t' r
| se_tried b t1 : tried P u (user_row u) old b t t1 (Err r) -> tame (tview t1) (tview t') -> set_eff u old new t t' r
| se_again t1 t2 : tried P u (user_row u) old true t t1 (Ok tt) -> tried P u (user_row u) old false t1 t2 (Err r) -> tame (tview t2) (tview t') -> set_eff u old new t t' r
| se_set tm t1 t2 res : tm = t \/ tried P u (user_row u) old true t tm (Ok tt) -> tried P u (user_row u) old false tm t1 (Ok tt) ->
    pin_set P (user_row u) new t1 t2 res -> tame (tview t2) (tview t') -> match res with Ok _ => r = CKR_OK | Err e => r = e end ->
    set_eff u old new t t' r.
End effects.
(* The code a call returns. *)
Definition code (r : result (N * out)) : N := match r with Ok (n, _) => n | Err e => e end.

Section world.
Context (P : params) (B : backend) (E : N -> keyenv) (Hfs : p_fs P = all_factories) (Hutf : forall n, utf8_valid (p_uuid P n) = true).
Notation world := (world B). Notation winv := (winv B). Notation token_of := (token_of B). Notation after := (after P B E).
Notation rv := (rv P B E). Notation logged := (logged B). Notation slot_of := (slot_of B).

(* ---- each slot and its database ---- *)
Definition disk_db (w : world) (sid : N) : db := match w_disks w !! sid with Some k => k_db k | None => db_new end.
Definition view_at (w : world) (sid : N) : view :=
  match w_slots w !! sid with Some sl => tview (sl_token sl) | None => View (disk_db w sid) None 0 end.
Lemma view_db w sid : v_db (view_at w sid) = db_at B w sid.
Proof. unfold view_at, db_at, disk_db. by destruct (w_slots w !! sid). Qed.
Lemma view_token w sid t : token_of w sid = Some t -> view_at w sid = tview t.
Proof. unfold Spec.token_of, view_at. destruct (w_slots w !! sid); cbn; [|done]. intros H. by injection H as <-. Qed.
Definition own_disks (w : world) : Prop := forall sid sl, w_slots w !! sid = Some sl -> sl_disk sl = sid.

Lemma token_new_tame d ios fr t r : token_new P d ios fr = (t, r) -> tame (View d None 0) (tview t).
Proof.
  intros H. assert (ukept (token_blank d ios fr) t) as Hu.
  { unfold token_new in H. match type of H with ?m ?s = _ => assert (rel ukept m) as Hr end; [|specialize (Hr (token_blank d ios fr)); rewrite H in Hr; exact Hr].
    pose proof ukept_internal. pose proof (fun A => @ukept_dbread A). pose proof ukept_pin_flags. assert (rel ukept io) by (apply rel_io; try apply _; intros; by apply ukept_io).
    assert (forall i, rel ukept (modify (fill_token_info i))) by (intros i; apply rel_modify; intros; by split).
    assert (rel ukept (modify (fun t => let t' := fill_token_info info_default t in set_flags (N.ldiff (t_flags t') CKF_TOKEN_INITIALIZED) t'))) by (apply rel_modify; intros; by split).
    unfold st_open. rel_tac. }
  apply ukept_tame in Hu. destruct Hu as [U1 U2 U3]. by split; cbn in *; auto.
Qed.

Lemma disk_of_own w sid : own_disks w -> w_slots w !! sid = None -> k_db (disk_of B sid w) = disk_db w sid.
Proof.
  intros Ho Hn. unfold disk_of, disk_db. destruct (List.filter _ _) as [|[i sl] l] eqn:Hf; [by destruct (w_disks w !! sid)|].
  exfalso. assert (In (i, sl) (List.filter (fun p => sl_disk (snd p) =? sid) (map_to_list (w_slots w)))) as Hin by (rewrite Hf; by left).
  apply List.filter_In in Hin as [Hin Hd]. apply map_to_list_in in Hin. cbn in Hd. apply N.eqb_eq in Hd. rewrite (Ho _ _ Hin) in Hd. congruence.
Qed.
Lemma add_slots_tame l : forall a w, forallb (fun s => sc_disk s =? sc_id s) l = true -> own_disks w ->
  wp (add_slots P B l a) w (fun w' _ => own_disks w' /\ forall sid, tame (view_at w sid) (view_at w' sid)).
Proof.
  induction l as [|c l IH]; intros a w Hl Ho; cbn [add_slots]; [wp_step; split; [done|reflexivity]|].
  cbn [forallb] in Hl. apply andb_prop in Hl as [Hc Hl]. apply N.eqb_eq in Hc.
  wp_step. unfold slot_new. wp_step. wp_step. set (k := disk_of B (sc_disk c) w).
  destruct (token_new P _ _ _) as [t [[]|e]] eqn:Ht; [|wp_step; split; [done|reflexivity]]. wp_step. wp_step. wp_step.
  destruct (w_slots w !! sc_id c) as [sl|] eqn:Hd; cbn [nonnull]; [by apply IH|].
  wp_step. wp_step. eapply wp_mono; [apply IH; [done|]|].
  - intros sid sl. cbn. destruct (decide (sid = sc_id c)) as [->|Hne]; [rewrite lookup_insert; intros X; injection X as <-; done|].
    rewrite lookup_insert_ne by done. apply Ho.
  - cbv beta. intros w' _ [H1 H2]. split; [done|]. intros sid. etransitivity; [|apply H2]. unfold view_at at 2. cbn.
    destruct (decide (sid = sc_id c)) as [->|Hne]; [|rewrite lookup_insert_ne by done; reflexivity]. rewrite lookup_insert.
    unfold view_at. rewrite Hd. apply token_new_tame in Ht. cbn. subst k. rewrite Hc, (disk_of_own w (sc_id c)) in Ht by done.
    etransitivity; [exact Ht|]. unfold apply_filter. destruct (sc_mechs c) as [[]|]; by apply tame_db; auto.
Qed.
Lemma sync_own w sid : own_disks w -> match sync B w !! sid with Some k => k_db k | None => db_new end = db_at B w sid.
Proof.
  intros Ho. unfold sync, db_at.
  assert (forall i sl, w_slots w !! i = Some sl <-> In (i, sl) (map_to_list (w_slots w))) as Hin.
  { intros i sl. by rewrite <- elem_of_list_In, elem_of_map_to_list. }
  assert (forall l, (forall p, In p l -> w_slots w !! fst p = Some (snd p)) ->
    match foldr (fun p m => <[sl_disk (snd p) := Disk (t_db (sl_token (snd p))) (t_fresh (sl_token (snd p)))]> m) (w_disks w) l !! sid with Some k => k_db k | None => db_new end =
    if existsb (fun p => fst p =? sid) l then match w_slots w !! sid with Some sl => t_db (sl_token sl) | None => db_new end else disk_db w sid) as Hg.
  { induction l as [|[i sl] l IH]; intros Hp; [done|]. cbn [foldr existsb fst snd]. pose proof (Hp (i, sl) ltac:(by left)) as Hi. cbn in Hi. rewrite (Ho _ _ Hi).
    destruct (N.eqb_spec i sid) as [->|Hne]; cbn [orb]; [rewrite lookup_insert, Hi; done|]. rewrite lookup_insert_ne by done. apply IH. intros p Hq. apply Hp. by right. }
  rewrite Hg by (intros [i sl] Hp; by apply Hin). destruct (existsb _ _) eqn:He.
  - apply existsb_exists in He as ([i sl] & H1 & H2). apply Hin in H1. cbn in H2. apply N.eqb_eq in H2. subst i. by rewrite H1.
  - destruct (w_slots w !! sid) as [sl|] eqn:Hs; [|done]. exfalso. apply Hin in Hs. rewrite <- not_true_iff_false in He. apply He, existsb_exists.
    exists (sid, sl). split; [done|]. cbn. apply N.eqb_refl.
Qed.
Lemma stop_tame w sid : own_disks w -> tame (view_at w sid) (view_at (stop B w) sid).
Proof.
  intros Ho. unfold view_at at 2. cbn. rewrite lookup_empty. unfold disk_db. cbn. rewrite (sync_own w sid Ho).
  split; cbn; [by rewrite view_db|by rewrite view_db|by right].
Qed.

Lemma after_own w c : winv w -> own_disks w -> steady c = true -> own_disks (after w c).
Proof.
  intros Hw Ho Hst. destruct (live_call c) eqn:Hc.
  - destruct (live_step P B E Hfs Hutf w c Hc Hw) as [H1 _]. intros sid sl Hsl. specialize (H1 sid). fold (after w c) in H1. rewrite Hsl in H1. inversion H1 as [a b [H2 _] Ha Hb|]; subst.
    rewrite H2. symmetry in Ha. by apply Ho.
  - destruct c; try done.
    + assert (wp (c_initialize P B l) w (fun w' _ => own_disks w')) as Hwp.
      { unfold c_initialize. wp_step. wp_step. destruct (initialized B w) eqn:Hi.
        - wp_step. wp_step. wp_step. eapply wp_mono; [by apply add_slots_tame|]. cbv beta. intros w' r [H1 _]. destruct r; [|done]. by wp_go.
        - wp_step. wp_step. wp_step. eapply wp_mono; [apply add_slots_tame; [done|]|].
          + intros sid sl. cbn. by rewrite lookup_empty.
          + cbv beta. intros w' r [H1 _]. destruct r; [|done]. by wp_go. }
      unfold Spec.after. rewrite run_step. exact Hwp.
    + assert (wp (c_finalize B) w (fun w' _ => own_disks w')) as Hwp.
      { unfold c_finalize. apply wp_bind, wp_lock; [|done]. intros _. apply wp_bind, wp_modify. intros sid sl. cbn. by rewrite lookup_empty. }
      unfold Spec.after. rewrite run_step. exact Hwp.
Qed.

(* ---- calls that are not concerned with the users of the slot ---- *)
Definition user_call (c : call) : bool := match c with InitToken _ _ _ | InitPIN _ _ | SetPIN _ _ _ | Login _ _ _ => true | _ => false end.
Lemma calm_call w c sid : winv w -> own_disks w -> steady c = true -> user_call c && (sid =? acting B w c) = false ->
  tame (view_at w sid) (view_at (after w c) sid).
Proof.
  intros Hw Ho Hst Hu. destruct (live_call c) eqn:Hc.
  - pose proof (token_steps P B E Hfs Hutf w c sid Hw Hc) as H. destruct (live_step P B E Hfs Hutf w c Hc Hw) as [_ Hd].
    destruct (token_of w sid) as [t|] eqn:Ht, (token_of (after w c) sid) as [t'|] eqn:Ht'; try done.
    + rewrite (view_token _ _ _ Ht), (view_token _ _ _ Ht'). destruct H as [->|[Hs H]]; [reflexivity|]. eapply tsteps_tame; [| |exact H].
      * subst sid. rewrite N.eqb_refl, andb_true_r in Hu. destruct c; try done; cbn; tauto.
      * subst sid. rewrite N.eqb_refl, andb_true_r in Hu. destruct c; try done; cbn; tauto.
    + unfold Spec.token_of in *. unfold view_at. destruct (w_slots w !! sid); [done|]. destruct (w_slots (after w c) !! sid); [done|].
      unfold disk_db. fold (after w c) in Hd. rewrite Hd. reflexivity.
  - destruct c; try done.
    + assert (wp (c_initialize P B l) w (fun w' _ => tame (view_at w sid) (view_at w' sid))) as Hwp.
      { unfold c_initialize. wp_step. wp_step. destruct (initialized B w) eqn:Hi.
        - wp_step. wp_step. wp_step. eapply wp_mono; [by apply add_slots_tame|]. cbv beta. intros w' r [_ H1]. destruct r; [|done]. by wp_go.
        - wp_step. wp_step. wp_step. eapply wp_mono; [apply add_slots_tame; [done|]|].
          + intros i sl. cbn. by rewrite lookup_empty.
          + cbv beta. intros w' r [_ H1]. specialize (H1 sid).
            assert (view_at (@World B ∅ ∅ 1 (w_disks w)) sid = view_at w sid) as Hv.
            { unfold view_at. cbn. rewrite lookup_empty. unfold initialized in Hi. rewrite (si_off _ _ (wi_inv _ _ Hw)) by lia. by rewrite lookup_empty. }
            rewrite Hv in H1. destruct r; [|done]. by wp_go. }
      unfold Spec.after. rewrite run_step. exact Hwp.
    + assert (wp (c_finalize B) w (fun w' _ => tame (view_at w sid) (view_at w' sid))) as Hwp.
      { unfold c_finalize. apply wp_bind, wp_lock; [|reflexivity]. intros _. apply wp_bind, wp_modify, wp_ok. by apply stop_tame. }
      unfold Spec.after. rewrite run_step. exact Hwp.
    + unfold Spec.after. rewrite run_step. by apply stop_tame.
Qed.

Lemma wp_eq {S A} (m : M S A) s s' r (Q : S -> result A -> Prop) : m s = (s', r) -> Q s' r -> wp m s Q.
Proof. unfold wp. by intros ->. Qed.
Lemma rv_code w c : rv w c = code (snd (api P B E c w)).
Proof. unfold Spec.rv, step. destruct (api P B E c w) as [w' [[n o]|e]]; done. Qed.
(* Functions that leave the token of the slot alone. *)
Definition holds_tok (sid : N) (t : token) (w : world) : Prop := w_next w <> 0 /\ exists sl, w_slots w !! sid = Some sl /\ sl_token sl = t.
Lemma holds_put sid sl t w : w_next w <> 0 -> holds_tok sid t (with_slot B sid (put_token B t sl) w).
Proof. intros Hn. split; [done|]. eexists. split; [apply with_slot_lookup|done]. Qed.
Definition ssn (w : world) (sid : N) : option (gmap N (session B)) := sl_sessions <$> w_slots w !! sid.
Lemma wp_htok {A} sid t (m : M token A) w (Q : world -> result A -> Prop) : holds_tok sid t w ->
  wp m t (fun t' r => forall w', holds_tok sid t' w' -> w_smap w' = w_smap w -> ssn w' sid = ssn w sid -> Q w' r) -> wp (Api.tok B sid m) w Q.
Proof.
  intros (Hn & sl & H1 & <-) Hm. eapply wp_tok_eq; [exact H1|done|]. eapply wp_mono; [exact Hm|]. cbv beta. intros t' r H. apply H; [by apply holds_put|done|]. unfold ssn. by rewrite with_slot_lookup, H1.
Qed.
Lemma invalidate_tok sid t w : holds_tok sid t w -> wp (invalidate_session_states B sid) w (fun w' r => holds_tok sid t w' /\ r = Ok tt).
Proof.
  intros (Hn & sl & H1 & <-). unfold invalidate_session_states. eapply wp_bind, wp_get_slot_eq; [done|done|]. apply wp_put_slot. split; [|done]. split; [done|].
  eexists. split; [apply with_slot_lookup|done].
Qed.
Lemma upd_tok h f sid t w : holds_tok sid t w -> w_smap w !! h = Some sid -> wp (upd_session B h f) w (fun w' r => holds_tok sid t w' /\ r = Ok tt).
Proof.
  intros (Hn & sl & H1 & <-) Hm. eapply wp_eq; [by apply (upd_session_eq B h f sid sl)|]. split; [|done]. split; [done|].
  eexists. split; [apply with_slot_lookup|done].
Qed.
Definition public (s : session B) : bool := (s_state s =? CKS_RO_PUBLIC_SESSION) || (s_state s =? CKS_RW_PUBLIC_SESSION).
Definition stale (w : world) (sid : N) : Prop := exists h s, session_of B w h = Some s /\ s_slot s = sid /\ public s = false.
Lemma change_code ut s : state_ok B s -> ut = CKU_SO \/ ut = CKU_USER -> (ut = CKU_SO -> rw B s = true) ->
  snd (change_session_state B ut s) = CKR_OK \/ snd (change_session_state B ut s) = CKR_USER_ANOTHER_ALREADY_LOGGED_IN /\ public s = false.
Proof.
  intros [_ Hst] Hut Hro. unfold change_session_state, public. cbv zeta. destruct (rw B s) eqn:Hrw.
  - destruct Hst as [->|[->| ->]]; destruct Hut as [->| ->]; cbn; auto.
  - destruct Hut as [->| ->]; [discriminate Hro; done|]. destruct Hst as [-> | ->]; cbn; auto.
Qed.
Lemma change_states_code ut l : forall m, (ut = CKU_SO \/ ut = CKU_USER) -> (forall h s, In (h, s) l -> state_ok B s /\ (ut = CKU_SO -> rw B s = true)) ->
  match snd (change_states B ut l m) with Ok _ => True | Err e => e = CKR_USER_ANOTHER_ALREADY_LOGGED_IN /\ exists h s, In (h, s) l /\ public s = false end.
Proof.
  induction l as [|[h s] l IH]; intros m Hut Hl; cbn [change_states]; [done|]. destruct (Hl h s ltac:(by left)) as [Hs Hr].
  destruct (change_session_state B ut s) as [s' r] eqn:Hc. destruct (change_code ut s Hs Hut Hr) as [Hr2|[Hr2 Hpb]]; rewrite Hc in Hr2; cbn in Hr2; subst r.
  - rewrite N.eqb_refl. specialize (IH (<[h:=s']> m) Hut (fun h' s2 Hin => Hl h' s2 (or_intror Hin))). destruct (snd _); [done|]. destruct IH as (I1 & h2 & s2 & I2 & I3).
    split; [done|]. exists h2, s2. split; [by right|done].
  - split; [done|]. exists h, s. split; [by left|done].
Qed.
Lemma change_tok sid ut t w : holds_tok sid t w -> (ut = CKU_SO \/ ut = CKU_USER) ->
  (forall sl h s, w_slots w !! sid = Some sl -> sl_sessions sl !! h = Some s -> state_ok B s /\ (ut = CKU_SO -> rw B s = true)) ->
  wp (change_session_states B sid ut) w (fun w' r => holds_tok sid t w' /\ match r with Ok _ => True | Err e => e = CKR_USER_ANOTHER_ALREADY_LOGGED_IN /\ exists sl h s, w_slots w !! sid = Some sl /\ sl_sessions sl !! h = Some s /\ public s = false end).
Proof.
  intros (Hn & sl & H1 & <-) Hut Hl. unfold change_session_states. eapply wp_bind, wp_get_slot_eq; [done|done|].
  pose proof (change_states_code ut (map_to_list (sl_sessions sl)) (sl_sessions sl) Hut) as Hc. destruct (change_states B ut _ _) as [m r]. cbn [snd] in Hc.
  apply wp_bind, wp_put_slot, wp_lift. split.
  2: { specialize (Hc (fun h s Hin => Hl sl h s H1 (proj1 (map_to_list_in _ _ _) Hin))). destruct r; [done|]. destruct Hc as (I1 & h2 & s2 & I2 & I3). split; [done|]. apply map_to_list_in in I2. eauto 6. }
  split; [done|]. eexists. split; [apply with_slot_lookup|done].
Qed.

Lemma session_live w h sid : winv w -> slot_of w h = Some sid -> exists sl s, w_next w <> 0 /\ w_slots w !! sid = Some sl /\ sl_sessions sl !! h = Some s
  /\ s_slot s = sid /\ tk_initialized (sl_token sl) = true /\ slot_ok B (w_next w) (w_smap w) sid sl.
Proof.
  intros [_ HI] Hs. destruct (si_smap _ _ HI _ _ Hs) as (sl & s & H1 & H2). pose proof (si_slots _ _ HI _ _ H1) as Hok. exists sl, s. split_and!; try done.
  - intros Hz. rewrite (si_off _ _ HI Hz), lookup_empty in H1. done.
  - apply (so_sessions _ _ _ _ _ Hok _ _ H2).
  - apply (so_some _ _ _ _ _ Hok). intros Hx. by rewrite Hx, lookup_empty in H2.
Qed.

(* ---- C_Login ---- *)
Lemma login_at w h ut pin sid : winv w -> slot_of w h = Some sid -> exists t t', token_of w sid = Some t /\ token_of (after w (Login h ut pin)) sid = Some t' /\
  login_eff P (ro_open B w sid) (stale w sid) ut (default [] pin) t t' (rv w (Login h ut pin)).
Proof.
  intros Hw Hs. destruct (session_live w h sid Hw Hs) as (sl & s & Hn & Hsl & Hss & Hsid & Hi & Hok).
  assert (wp (c_login P B h ut pin) w (fun w' r => exists t', holds_tok sid t' w' /\ login_eff P (ro_open B w sid) (stale w sid) ut (default [] pin) (sl_token sl) t' (code r))) as Hwp.
  2: { exists (sl_token sl). unfold Spec.token_of, Spec.after. rewrite run_step, rv_code. cbn [api]. unfold wp in Hwp.
       destruct Hwp as (t' & (_ & sl' & Hsl' & Ht') & He). exists t'. rewrite Hsl, Hsl'. cbn. split_and!; [done|congruence|done]. }
  assert (holds_tok sid (sl_token sl) w) as Hh by (split; eauto).
  assert (forall e, e <> CKR_OK -> wrong_pin e = false -> e <> CKR_USER_ANOTHER_ALREADY_LOGGED_IN -> (ut = CKU_SO /\ ro_open B w sid \/ is_user ut = false) -> exists t', holds_tok sid t' w /\ login_eff P (ro_open B w sid) (stale w sid) ut (default [] pin) (sl_token sl) t' e) as Href.
  { intros e H1 H2 H3 H4. exists (sl_token sl). split; [done|]. apply le_refused; try done. tauto. }
  unfold c_login. eapply wp_bind, wp_eq; [by apply lock_eq|]. eapply wp_bind, wp_eq; [by eapply (get_session_eq B h sid sl s)|]. cbv beta iota zeta. rewrite Hsid.
  eapply wp_bind, wp_get_slot_eq; [done|done|]. apply wp_bind, wp_ensure; [|intros Hro; apply Href; try done; left; apply negb_false_iff, andb_prop in Hro as [R1 R2]; split; [lia|by apply (has_ro_iff B E w sid sl (wi_inv _ _ Hw) Hsl)]]. intros Hro.
  eapply wp_bind, wp_eq; [by eapply token_ready_eq|]. fold (default [] pin).
  set (t := sl_token sl) in *. set (Q := fun (w' : world) (r : result (N * out)) => exists t', holds_tok sid t' w' /\ login_eff P (ro_open B w sid) (stale w sid) ut (default [] pin) t t' (code r)).
  destruct (N.eqb_spec ut CKU_CONTEXT_SPECIFIC) as [Hct|Hct].
  - apply wp_bind. assert (wp (match check_login_status B s with Ok _ => fail CKR_OPERATION_NOT_INITIALIZED | Err e => ensure (e =? CKR_USER_NOT_LOGGED_IN) CKR_OPERATION_NOT_INITIALIZED end) w
      (fun w' r => w' = w /\ (r = Ok tt \/ r = Err CKR_OPERATION_NOT_INITIALIZED))) as Hck.
    { destruct (check_login_status B s); [apply wp_fail; auto|]. apply wp_ensure; auto. }
    eapply wp_mono; [exact Hck|]. cbv beta. intros w1 r1 [-> [-> | ->]]; [|apply Href; try done; right; by rewrite Hct].
    apply wp_bind, wp_attempt. eapply wp_htok; [exact Hh|]. apply wp_tk_login.
    + intros t' r uid [X|X]; rewrite X in Hct; discriminate Hct.
    + intros t' r uid _ Huid Htr w' Hw' Hm _. apply pin_uid in Huid as [-> Hu].
      destruct r as [[]|e].
      * apply wp_bind. eapply wp_mono; [apply (upd_tok h _ sid t'); [done|rewrite Hm; exact Hs]|]. cbv beta. intros w2 r2 [H2 ->]. apply wp_ok.
        exists t'. split; [done|]. eapply le_tried; [|exact Hu|exact Htr|reflexivity|by left|done]. by rewrite Hct, N.eqb_refl.
      * assert (forall t2 w2, holds_tok sid t2 w2 -> tame (tview t') (tview t2) -> Q w2 (Err e)) as HQ.
        { intros t2 w2 A1 A2. exists t2. split; [done|]. eapply le_tried; [|exact Hu|exact Htr|exact A2|done|done]. by rewrite Hct, N.eqb_refl. }
        apply wp_bind. destruct (e =? CKR_PIN_LOCKED).
        -- apply wp_bind, wp_attempt. eapply wp_htok; [exact Hw'|]. eapply wp_mono; [apply logout_tame|]. cbv beta. intros t2 r2 Htm w2 Hw2 _ _.
           eapply wp_mono; [by apply (invalidate_tok sid t2)|]. cbv beta. intros w3 r3 [H3 ->]. apply wp_fail. by eapply HQ.
        -- apply wp_skip, wp_fail. by eapply HQ.
    + intros e H1 H2 H3 H4 w' Hw' _ _. apply wp_bind. destruct (N.eqb_spec e CKR_PIN_LOCKED); [done|]. apply wp_skip, wp_fail. exists t. split; [done|].
      apply le_refused; [reflexivity|done| | |right; right; by rewrite Hct].
      * unfold wrong_pin. cbn [code]. destruct (N.eqb_spec e CKR_PIN_INCORRECT), (N.eqb_spec e CKR_PIN_LOCKED); done.
      * cbn [code]. intros ->. destruct H4 as [[H4 _]|[[H4|H4] _]]; [done|rewrite H4 in Hct; discriminate Hct|rewrite H4 in Hct; discriminate Hct].
  - apply wp_bind, wp_skip. apply wp_bind, wp_attempt. eapply (wp_htok sid t); [exact Hh|].
    assert (forall sl0 h0 s0, w_slots w !! sid = Some sl0 -> sl_sessions sl0 !! h0 = Some s0 -> state_ok B s0 /\ (ut = CKU_SO -> rw B s0 = true)) as Hst.
    { intros sl0 h0 s0 A1 A2. simplify_eq. split; [apply (so_sessions _ _ _ _ _ Hok _ _ A2)|]. intros ->. cbn in Hro. apply negb_true_iff in Hro. eapply has_ro_false; eauto. }
    apply wp_tk_login.
    + intros t' r uid Hut Hlo Huid Htr w' Hw' Hm Hse. apply pin_uid in Huid as [-> Hu].
      assert (forall t2 w2 n, holds_tok sid t2 w2 -> tame (tview t') (tview t2) ->
        match r with Ok _ => n = CKR_OK \/ n = CKR_USER_ANOTHER_ALREADY_LOGGED_IN /\ t_logged t = KRY_UNSPEC /\ stale w sid | Err e => n = e end -> (n = CKR_OK -> t2 = t') -> forall r2, code r2 = n -> Q w2 r2) as HQ.
      { intros t2 w2 n A1 A2 A3 A4 r2 <-. exists t2. split; [done|]. eapply le_tried; [|exact Hu|exact Htr|exact A2|done|intros X _; by rewrite (A4 X)]. by destruct (N.eqb_spec ut CKU_CONTEXT_SPECIFIC). }
      destruct r as [[]|e]; [|apply wp_fail; eapply (HQ t'); [done|reflexivity|reflexivity|done|done]].
      apply wp_bind, wp_attempt. eapply wp_mono; [apply (change_tok sid ut t'); [done|done|]|].
      { intros sl0 h0 s0 A1 A2. unfold ssn in Hse. rewrite A1, Hsl in Hse. cbn in Hse. injection Hse as Hse. rewrite Hse in A2. by eapply Hst. }
      cbv beta. intros w2 r2 [H2 Hr2]. destruct r2 as [[]|e]; [apply wp_ok; eapply (HQ t'); [done|reflexivity|by left|done|done]|]. destruct Hr2 as (-> & sl0 & h0 & s0 & A1 & A2 & A3).
      assert (stale w sid) as Hsta. { unfold ssn in Hse. rewrite A1, Hsl in Hse. cbn in Hse. injection Hse as Hse. rewrite Hse in A2. exists h0, s0. destruct (session_in_slot B w sid sl h0 s0 (wi_inv _ _ Hw) Hsl A2). done. }
      apply wp_bind, wp_attempt. eapply wp_htok; [exact H2|]. eapply wp_mono; [apply logout_tame|]. cbv beta. intros t2 r2 Htm w3 Hw3 _ _.
      eapply wp_bind, wp_mono; [by apply (invalidate_tok sid t2)|]. cbv beta. intros w4 r4 [H4 ->]. apply wp_fail. eapply (HQ t2); [done|done|by right|intros X; vm_compute in X; discriminate X|done].
    + intros t' r uid X. congruence.
    + intros e H1 H2 H3 H4 w' Hw' _ _. apply wp_fail. exists t. split; [done|].
      apply le_refused; [reflexivity|done| | |unfold is_user; destruct H4 as [[_ H4]|[H4 H5]]; [right; right; done|right; left; split; [by destruct H4 as [-> | ->]|done]]].
      * unfold wrong_pin. cbn [code]. destruct (N.eqb_spec e CKR_PIN_INCORRECT), (N.eqb_spec e CKR_PIN_LOCKED); done.
      * cbn [code]. intros ->. destruct H4 as [[H4 _]|[_ H4]]; [done|done].
Qed.

(* ---- C_SetPIN ---- *)
Lemma tried_logged u uid pin t t' : tried P u uid pin true t t' (Ok tt) -> t_logged t' = u.
Proof. intros H. inversion H as [| | | |i b v k d A1 A2 A3 A4 A5 [_ [_ _ _ K _ _]]]. by rewrite K. Qed.
Lemma set_pin_at w h old new sid : winv w -> slot_of w h = Some sid -> exists t t', token_of w sid = Some t /\ token_of (after w (SetPIN h old new)) sid = Some t' /\
  set_eff P (if is_user (t_logged t) then t_logged t else CKU_USER) (default [] old) (default [] new) t t' (rv w (SetPIN h old new)).
Proof.
  intros Hw Hs. destruct (session_live w h sid Hw Hs) as (sl & s & Hn & Hsl & Hss & Hsid & Hi & Hok).
  set (t := sl_token sl). set (u := if is_user (t_logged t) then t_logged t else CKU_USER).
  set (Q := fun (w' : world) (r : result (N * out)) => exists t', holds_tok sid t' w' /\ set_eff P u (default [] old) (default [] new) t t' (code r)).
  assert (wp (c_set_pin P B h old new) w Q) as Hwp.
  2: { exists t. unfold Spec.token_of, Spec.after. rewrite run_step, rv_code. cbn [api]. unfold wp in Hwp.
       destruct Hwp as (t' & (_ & sl' & Hsl' & Ht') & He). exists t'. rewrite Hsl, Hsl'. cbn. split_and!; [done|congruence|done]. }
  assert (holds_tok sid t w) as Hh by (split; eauto).
  assert (forall e, existsb (N.eqb e) refusals = true -> Q w (Err e)) as Href.
  { intros e H1. exists t. split; [done|]. by apply se_refused. }
  unfold c_set_pin. eapply wp_bind, wp_eq; [by apply lock_eq|]. eapply wp_bind, wp_eq; [by eapply (get_session_eq B h sid sl s)|]. cbv beta iota zeta.
  apply wp_bind, wp_ensure; [intros _|intros _; by apply Href]. apply wp_bind, wp_ensure; [intros Hne|intros _; by apply Href].
  eapply wp_bind, wp_eq; [by eapply (token_of_session_eq B h sid sl)|]. eapply wp_bind, wp_get_slot_eq; [done|done|]. cbv zeta. change (match old with Some p => p | None => [] end) with (default [] old) in *. change (match new with Some p => p | None => [] end) with (default [] new) in *. fold t.
  assert (default [] old <> []) as Ho by (intros X; rewrite X in Hne; done).
  assert (logged_in t = is_user (t_logged t)) as Hli by (unfold logged_in, is_user; lia).
  assert (forall t1 w1 (D : token -> Prop), holds_tok sid t1 w1 -> t_logged t1 = u -> is_user u = true -> (t1 = t \/ tried P u (user_row u) (default [] old) true t t1 (Ok tt)) ->
    wp (attempt (Api.tok B sid (tk_set_pin P CK_UNAVAILABLE_INFORMATION (default [] new) (default [] old)))) w1
      (fun w2 r2 => exists r t2, r2 = Ok r /\ holds_tok sid t2 w2 /\ forall t3, tame (tview t2) (tview t3) -> set_eff P u (default [] old) (default [] new) t t3 (match r with Ok _ => CKR_OK | Err e => e end))) as Hset.
  { intros t1 w1 _ A1 A2 A3 A4. apply wp_attempt. eapply wp_htok; [exact A1|].
    eapply (wp_tk_set_pin P CK_UNAVAILABLE_INFORMATION u (user_row u)); [by unfold user_of; cbn|by apply user_uid|..].
    - intros t2 r [X|(t1' & B1 & B2)] _ w2 Hw2 _ _; [done|]. exists r, t2. split; [done|]. split; [done|]. intros t3 Ht3.
      eapply se_set; [|exact B1|exact B2|exact Ht3|by destruct r as [[]|]]. done.
    - intros t2 e _ B1 w2 Hw2 _ _. exists (Err e), t2. split; [done|]. split; [done|]. intros t3 Ht3. destruct A4 as [->|A4]; [by eapply se_tried|by eapply se_again]. }
  rewrite Hli. destruct (is_user (t_logged t)) eqn:Hu.
  - apply wp_bind, wp_skip. apply wp_bind. eapply wp_mono; [apply (Hset t w (fun _ => True)); auto|]. cbv beta. intros w2 r2 (r & t2 & -> & H2 & H3).
    apply wp_bind, wp_skip. apply wp_bind, wp_lift. destruct r as [[]|e]; [apply wp_ok|]; exists t2; split; try done; cbn [code]; by apply H3.
  - assert (t_logged t = KRY_UNSPEC) as Hlo.
    { destruct (so_logged _ _ _ _ _ Hok) as [X|[X|X]]; [done|..]; fold t in X; rewrite X in Hu; done. }
    assert (u = CKU_USER) as Hue by (unfold u; done).
    apply wp_bind. eapply wp_htok; [exact Hh|]. apply wp_tk_login.
    + intros t' r uid _ _ Huid Htr w' Hw' _ _. apply pin_uid in Huid as [-> _]. rewrite <- Hue in Htr. destruct r as [[]|e].
      * apply wp_bind. eapply wp_mono; [apply (Hset t' w' (fun _ => True)); [done| |by rewrite Hue|by right]|].
        { by apply tried_logged in Htr. }
        cbv beta. intros w2 r2 (r & t2 & -> & H2 & H3). apply wp_bind, wp_bind, wp_attempt. eapply wp_htok; [exact H2|]. eapply wp_mono; [apply logout_tame|]. cbv beta.
        intros t3 r3 Htm w3 Hw3 _ _. apply wp_skip. apply wp_bind, wp_lift. destruct r as [[]|e]; [apply wp_ok|]; exists t3; split; try done; cbn [code]; by apply H3.
      * exists t'. split; [done|]. cbn [code]. eapply se_tried; [exact Htr|reflexivity].
    + intros t' r uid X. discriminate X.
    + intros e _ _ _ [[_ X]|[_ X]] w' Hw' _ _; [discriminate X|done].
Qed.

(* ---- C_InitPIN ---- *)
Lemma init_pin_at w h pin sid : winv w -> slot_of w h = Some sid -> exists t t', token_of w sid = Some t /\ token_of (after w (InitPIN h pin)) sid = Some t' /\
  (tame (tview t) (tview t') /\ rv w (InitPIN h pin) <> CKR_OK \/
   t_logged t = CKU_SO /\ exists r, pin_set P USER_ID (default [] pin) t t' r /\ rv w (InitPIN h pin) = match r with Ok _ => CKR_OK | Err e => e end).
Proof.
  intros Hw Hs. destruct (session_live w h sid Hw Hs) as (sl & s & Hn & Hsl & Hss & Hsid & Hi & Hok).
  set (t := sl_token sl).
  set (Q := fun (w' : world) (r : result (N * out)) => exists t', holds_tok sid t' w' /\ (tame (tview t) (tview t') /\ code r <> CKR_OK \/ t_logged t = CKU_SO /\ 
    exists r1, pin_set P USER_ID (default [] pin) t t' r1 /\ code r = match r1 with Ok _ => CKR_OK | Err e => e end)).
  assert (wp (c_init_pin P B h pin) w Q) as Hwp.
  2: { exists t. unfold Spec.token_of, Spec.after. rewrite run_step, rv_code. cbn [api]. unfold wp in Hwp.
       destruct Hwp as (t' & (_ & sl' & Hsl' & Ht') & He). exists t'. rewrite Hsl, Hsl'. cbn. split_and!; [done|congruence|done]. }
  assert (holds_tok sid t w) as Hh by (split; eauto).
  unfold c_init_pin. eapply wp_bind, wp_eq; [by apply lock_eq|]. eapply wp_bind, wp_eq; [by eapply (token_of_session_eq B h sid sl)|]. eapply wp_bind, wp_get_slot_eq; [done|done|].
  apply wp_bind, wp_ensure; [intros Hlo|intros _; exists t; split; [done|]; left; split; [reflexivity|done]]. apply N.eqb_eq in Hlo. fold (default [] pin).
  apply wp_bind. eapply wp_htok; [exact Hh|]. eapply (wp_tk_set_pin P CKU_USER CKU_USER USER_ID); [done|done|..].
  - intros t' r _ H w' Hw' _ _. destruct r as [[]|e]; [apply wp_ok|]; exists t'; (split; [done|right]); split; try done; eexists; (split; [by apply H|done]).
  - done.
Qed.

(* ---- C_InitToken ---- *)
Context (Hty : forall u pin v k r, p_seal_key P u pin v k r <> Err CKR_USER_TYPE_INVALID) (HS : sane (fun e => plain_code e = true) P B E).
Definition init_code (e : N) : N := if pin_code e then e else CKR_GENERAL_ERROR.
Lemma init_token_at w sid pin label t : winv w -> token_of w sid = Some t -> exists t', token_of (after w (InitToken sid pin label)) sid = Some t' /\
  (tame (tview t) (tview t') /\ rv w (InitToken sid pin label) = CKR_SESSION_EXISTS \/
   exists r, inited P (default [] pin) t t' r /\ rv w (InitToken sid pin label) = match r with Ok _ => CKR_OK | Err e => init_code e end).
Proof.
  intros [Hw HI] Ht. unfold Spec.token_of in Ht. destruct (w_slots w !! sid) as [sl|] eqn:Hsl; [|done]. cbn in Ht. injection Ht as Ht.
  assert (w_next w <> 0) as Hn by (intros Hz; by rewrite (si_off _ _ HI Hz), lookup_empty in Hsl).
  set (Q := fun (w' : world) (r : result (N * out)) => exists t', holds_tok sid t' w' /\ (tame (tview t) (tview t') /\ code r = CKR_SESSION_EXISTS \/
    exists r1, inited P (default [] pin) t t' r1 /\ code r = match r1 with Ok _ => CKR_OK | Err e => init_code e end)).
  assert (wp (c_init_token P B sid pin label) w Q) as Hwp.
  2: { unfold Spec.token_of, Spec.after. rewrite run_step, rv_code. cbn [api]. unfold wp in Hwp.
       destruct Hwp as (t' & (_ & sl' & Hsl' & Ht') & He). exists t'. rewrite Hsl'. cbn. split_and!; [congruence|done]. }
  assert (holds_tok sid t w) as Hh by (split; eauto).
  unfold c_init_token. eapply wp_bind, wp_eq; [by apply lock_eq|]. eapply wp_bind, wp_get_slot_eq; [done|done|]. 
  apply wp_bind, wp_ensure; [intros _|intros _; exists t; split; [done|]; left; split; [reflexivity|done]]. cbv zeta. fold (default [] pin).
  apply wp_bind, wp_attempt. eapply wp_htok; [exact Hh|]. eapply wp_mono; [by apply (wp_tk_initialize P Hty B E HS)|]. cbv beta.
  intros t' r Hin w' Hw' _ _. destruct r as [[]|e]; [apply wp_ok; exists t'; split; [done|right]; by eauto|].
  assert (Q w' (Err (init_code e))) as HQ by (exists t'; split; [done|right]; eauto).
  unfold init_code, pin_code in HQ. destruct (e =? CKR_PIN_LOCKED), (e =? CKR_PIN_INCORRECT), (e =? CKR_PIN_INVALID), (e =? CKR_PIN_EXPIRED); cbn [orb] in *; apply wp_fail; done.
Qed.
End world.
