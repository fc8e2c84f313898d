(* C56: a stored object stays as it is until a call asks for it to be changed or removed. *)
From Verif Require Import Base Monad Hoare Attr Obj Factory Tables Create Sqlite Storage Token Backend State Api Toy
  ObjSpec PlainSpec Rows ObjOk ObjNew Triple TokInv TokStep TokenFrame TokWp TokAuth Spec WorldFrame WorldWp Sessions SessionInv SessionFacts ObjWorld ObjView ObjFacts Errors ToyFacts ThmObjects
  AuthSpec Users AuthFacts AuthInv ThmAuth ThmInit KeyFacts ThmKeys SealSpec SealFacts KeptSpec.

Section kept.
Context (P : params) (B : backend) (E : N -> keyenv) (Hfs : p_fs P = all_factories) (Hutf : forall n, utf8_valid (p_uuid P n) = true).
Notation world := (world B). Notation winv := (winv B). Notation token_of := (token_of B). Notation after := (after P B E).
Notation run := (run P B E). Notation end_of := (end_of P B E). Notation db_at := (db_at B). Notation own_disks := (own_disks B).

(* ---- starting and stopping the module ---- *)
Lemma add_slots_objs l : forall a w, forallb (fun s => sc_disk s =? sc_id s) l = true -> own_disks w -> world_ok B w ->
  wp (add_slots P B l a) w (fun w' _ => forall sid, d_objs (db_at w' sid) = d_objs (db_at w sid)).
Proof using All.
  induction l as [|c l IH]; intros a w Hs Ho Hw; cbn [add_slots]; [wp_step; done|].
  cbn [forallb] in Hs. apply andb_prop in Hs as [Hsc Hs]. apply N.eqb_eq in Hsc.
  wp_step. unfold slot_new. wp_step. wp_step. set (k := disk_of B (sc_disk c) w).
  pose proof (token_new_steps P (k_db k) (sc_io c) (k_fresh k) Hfs (disk_of_ok B _ _ Hw)) as [Ht1 Ht2].
  destruct (token_new P _ _ _) as [t [[]|e]] eqn:Ht; [|wp_step; done]. cbn [fst] in Ht1, Ht2. wp_step. wp_step. wp_step.
  destruct (w_slots w !! sc_id c) as [sl|] eqn:Hd; cbn [nonnull]; [by apply IH|].
  set (t1 := set_dedup (sc_dedup c) (apply_filter P (sc_mechs c) t)).
  assert (t_db t1 = t_db t /\ tok_ok t1) as (T2 & T4).
  { unfold t1, apply_filter. split; [by destruct (sc_mechs c) as [[]|]|]. destruct (sc_mechs c) as [[]|]; apply (tok_same t); done || apply Ht1. }
  wp_step. wp_step. eapply wp_mono; [apply IH; [done| |]|].
  - intros sid sl. cbn. destruct (decide (sid = sc_id c)) as [->|Hne]; [rewrite lookup_insert; intros X; injection X as <-; done|].
    rewrite lookup_insert_ne by done. apply Ho.
  - by apply put_slot_ok.
  - cbv beta. intros w' _ H sid. rewrite H. unfold AuthSpec.db_at. cbn. destruct (decide (sid = sc_id c)) as [->|Hne]; [|by rewrite lookup_insert_ne by done].
    rewrite lookup_insert, Hd. cbn [sl_token]. fold t1. rewrite T2, (opening_objs P _ _ Ht2). cbn. subst k.
    rewrite Hsc, (disk_of_own B w (sc_id c)) by done. done.
Qed.
Lemma off_objs w c sid : winv w -> own_disks w -> steady c = true -> live_call c = false -> d_objs (db_at (after w c) sid) = d_objs (db_at w sid).
Proof using All.
  intros Hw Ho Hst Hc.
  assert (d_objs (db_at (stop B w) sid) = d_objs (db_at w sid)) as Hdb. { rewrite <- (sync_own B w sid Ho). unfold AuthSpec.db_at at 1. cbn. by rewrite lookup_empty. }
  destruct c; try discriminate Hc.
  - cbn [steady] in Hst. assert (wp (c_initialize P B l) w (fun w' _ => d_objs (db_at w' sid) = d_objs (db_at w sid))) as Hwp.
    { unfold c_initialize. wp_step. wp_step. destruct (initialized B w) eqn:Hi.
      - wp_step. wp_step. wp_step. eapply wp_mono; [apply add_slots_objs; try done; apply Hw|]. cbv beta. intros w' r H1. specialize (H1 sid). destruct r; [|done]. by wp_go.
      - wp_step. wp_step. wp_step. eapply wp_mono; [apply add_slots_objs; [done| |]|].
        + intros i sl. cbn. by rewrite lookup_empty.
        + split; [intros i sl; cbn; by rewrite lookup_empty|]. apply (wo_disks _ _ (wi_ok _ _ Hw)).
        + cbv beta. intros w' r H1. specialize (H1 sid).
          assert (db_at (@World B ∅ ∅ 1 (w_disks w)) sid = db_at w sid) as Hv.
          { unfold AuthSpec.db_at. cbn. rewrite lookup_empty. unfold initialized in Hi. rewrite (si_off _ _ (wi_inv _ _ Hw)) by lia. by rewrite lookup_empty. }
          rewrite Hv in H1. destruct r; [|done]. by wp_go. }
    unfold Spec.after. rewrite run_step. exact Hwp.
  - assert (wp (c_finalize B) w (fun w' _ => d_objs (db_at w' sid) = d_objs (db_at w sid))) as Hwp.
    { unfold c_finalize. apply wp_bind, wp_lock; [|done]. intros _. by apply wp_bind, wp_modify, wp_ok. }
    unfold Spec.after. rewrite run_step. exact Hwp.
  - unfold Spec.after. rewrite run_step. cbn [api]. done.
Qed.

(* ---- the elementary steps ---- *)
Section steps.
Context (u : bytes) (m : gmap N sqlval).
Definition alone (t : token) (h : N) : Prop := hm t !! h = Some u /\ t_sobjs t !! h = None.
Definition harmless (k : kind) (t : token) : Prop :=
  match k with
  | KUpd h _ => alone t h -> unmodifiable m
  | KRemove h _ => alone t h -> undestroyable m
  | KNew _ _ => exists h, hm t !! h = Some u
  | KDedup _ | KReset => False
  | _ => True
  end.
Lemma keep_step k t t' : tok_ok t -> tstep P k t t' -> harmless k t -> rows_of (t_db t) u = Some m -> rows_of (t_db t') u = Some m.
Proof using All.
  intros Ht Hs Hk Hm.
  destruct Hs as [t t' H1 H2 H3 Hdd Hfl b Hca Hlo|t|t uid Hu|t h' H1 Hdy|t sh o uid H1 H2 H3 H4|t h' tmpl o f H1 H2|t h' o H1 H2|t sel|t o uid s H1 H2 H3 H4 H5
    |t h' tmpl uid o f tm o' s H1 H2 H3 H4 H5 H6 H7 H8 H9|t h' o o' uid s H0 H1 H2 H3 H4 H5|t h' uid s H1 H2 Hns Hdy|t|t]; cbn [harmless] in Hk; try done.
  - by rewrite (rows_of_objs _ _ _ H3).
  - destruct Hk as [h Hh]. cbn [t_db set_db]. rewrite (store_rows _ o s uid); [done|apply Ht|done|done|done|]. intros ->. by apply (uid_handle_none _ _ H4 h).
  - cbn [t_db set_db]. destruct (upd_store P Hfs t h' tmpl uid o f tm o' s) as (U1 & U2 & U3); try done.
    destruct (decide (u = uid)) as [<-|Hne]; [|by rewrite (store_rows _ (del_attrs (f_ephemeral f) o') s uid); [done|apply Ht|done|done|done|done]].
    exfalso. specialize (Hk (conj H1 H2)). destruct (fetch_get _ _ _ _ H3) as (i & rows & F1 & F2 & F3 & _).
    assert (rows_of (t_db t) u = Some rows) as Hr by (apply rows_of_some; [apply Ht|eauto]). rewrite Hm in Hr. injection Hr as <-.
    unfold is_modifiable, bool_attr in H5. rewrite F3 in H5 by done. unfold unmodifiable, row_bool in Hk. destruct (row_attr m CKA_MODIFIABLE) as [a|]; [|done].
    destruct (attr_to_bool a); cbn in Hk; congruence.
  - cbn [t_db set_db]. rewrite (remove_rows _ uid) by (try done; apply Ht). destruct (bool_decide_reflect (u = uid)) as [<-|Hne]; [|done].
    exfalso. specialize (Hk (conj H1 Hns)). unfold bool_of, attr_of in Hdy. rewrite Hns, H1, Hm in Hdy. unfold undestroyable, row_bool in Hk.
    destruct (row_attr m CKA_DESTROYABLE) as [a|]; [|done]. congruence.
Qed.
(* A condition J on the token that the steps of the kinds K preserve makes all of them harmless. *)
Lemma keep_steps (K : kind -> Prop) (J : token -> Prop) t t' : tsteps P K t t' -> tok_ok t -> J t ->
  (forall k a b, K k -> tok_ok a -> J a -> tstep P k a b -> J b /\ harmless k a) -> rows_of (t_db t) u = Some m -> rows_of (t_db t') u = Some m.
Proof using All.
  intros Hs. induction Hs as [|t t1 t' (k & Hk1 & H1) _ IH]; intros Ht HJ HK Hm; [done|]. destruct (HK k t t1) as [J1 J2]; try done.
  apply IH; [by eapply (tstep_ok P Hfs)|done|done|]. by eapply keep_step.
Qed.
(* Calls that make objects: the handle of the object stays. *)
Lemma keep_named n k a b : (match k with KQuiet LCalm | KHandle | KNew _ _ | KSadd _ _ => True | KSdel h | KHdel h | KRemove h _ => n <= h | _ => False end) ->
  tok_ok a -> (exists h0, h0 < n /\ hm a !! h0 = Some u) -> tstep P k a b -> (exists h0, h0 < n /\ hm b !! h0 = Some u) /\ harmless k a.
Proof using All.
  intros Hk Ha (h0 & J1 & J2) Hs. assert (h0 < h_next (t_handles a)) as Hlt by (apply (tk_keys _ Ha) in J2; lia).
  split.
  - exists h0. split; [done|]. unfold hm in *. destruct Hs; cbn [t_handles set_handles set_db set_sobjs h_map]; try done.
    1: by rewrite H. all: first [rewrite lookup_insert_ne by lia|rewrite lookup_delete_ne by lia]; done.
  - destruct k; cbn [harmless]; try done; [by exists h0|]. intros [Hh _]. pose proof (tk_inj _ Ha _ _ _ Hh J2). lia.
Qed.
(* Calls that name an object. *)
Lemma keep_other o (C1 : Prop) k a b : (match k with KQuiet LCalm => True | KSupd h _ | KSdel h | KHdel h => h = o
    | KUpd h _ => h = o /\ (C1 -> unmodifiable m) | KRemove h _ => h = o /\ (C1 -> undestroyable m) | _ => False end) ->
  (alone a o -> C1) -> tstep P k a b -> (alone b o -> C1) /\ harmless k a.
Proof using All.
  intros Hk HJ Hs. split.
  - unfold alone, hm in *. destruct Hs; cbn [t_handles set_handles set_db set_sobjs h_map t_sobjs]; try done.
    + by rewrite H, H0.
    + subst h. rewrite lookup_delete. by intros [].
    + subst h. rewrite lookup_insert. by intros [].
    + subst h. rewrite lookup_delete. by intros [].
  - destruct k; cbn [harmless]; try done; destruct Hk as [-> Hk]; auto.
Qed.
End steps.

(* ---- one call ---- *)
Lemma kept_step w c sid u m : winv w -> own_disks w -> steady c = true -> spares B w c sid u m -> stored B w sid u = Some m -> stored B (after w c) sid u = Some m.
Proof using All.
  intros Hw Ho Hst Hsp Hm. unfold stored in *. destruct (live_call c) eqn:Hc; cycle 1.
  { rewrite (rows_of_objs (db_at w sid)); [done|]. by apply off_objs. }
  pose proof (token_steps P B E Hfs Hutf w c sid Hw Hc) as H. destruct (live_step P B E Hfs Hutf w c Hc Hw) as [_ Hd].
  destruct (token_of w sid) as [t|] eqn:Ht, (token_of (after w c) sid) as [t'|] eqn:Ht'; try done.
  2: { unfold Spec.token_of in *. unfold AuthSpec.db_at in *. destruct (w_slots w !! sid); [done|]. destruct (w_slots (after w c) !! sid); [done|]. fold (after w c) in Hd. by rewrite Hd. }
  rewrite (db_token _ _ _ _ Ht'). rewrite (db_token _ _ _ _ Ht) in Hm. destruct H as [->|[Hac H]]; [done|].
  pose proof (token_ok B _ _ _ Hw Ht) as Htk.
  assert ((exists s, session_of_call c = Some s /\ w_smap w !! s = None /\ (forall hh b e a, c <> SetOperationState hh b e a)) -> rows_of (t_db t') u = Some m) as Hclosed.
  { intros (s & Hs & Hn & Hx). pose proof (closed_api P B E c w s Hn Hs ltac:(intros; exfalso; by eapply Hx)) as [Hcl _].
    assert (token_of (after w c) sid = token_of w sid) as Hy by (unfold Spec.after; rewrite run_step; by rewrite Hcl). rewrite Ht, Ht' in Hy. by injection Hy as ->. }
  assert (forall s, session_of_call c = Some s -> (forall hh b e a, c <> SetOperationState hh b e a) -> rows_of (t_db t') u = Some m \/ on_slot B w s sid) as Hon.
  { intros s Hs Hx. destruct (w_smap w !! s) as [i|] eqn:Hi; [|left; apply Hclosed; eauto]. right. unfold on_slot, Spec.slot_of. rewrite (acting_session B _ _ _ _ Hs Hi) in Hac. congruence. }
  assert (has_handle B w sid u -> exists h0, h0 < h_next (t_handles t) /\ hm t !! h0 = Some u) as Hhh.
  { intros [h Hh]. unfold Spec.id_at in Hh. rewrite Ht in Hh. apply (id_named _ _ _ Htk) in Hh. exists h. split; [|done]. apply (tk_keys _ Htk) in Hh. lia. }
  assert ((match c with InitToken _ _ _ => False | _ => True end) -> given B w c = h_next (t_handles t)) as Hgiven.
  { intros Hni. unfold given. rewrite <- Hac. unfold Spec.token_of in Ht. destruct (w_slots w !! sid) as [sl|]; cbn in Ht; [|done]. injection Ht as <-. by destruct c. }
  assert (forall o, alone u t o -> id_at B w sid o = Some u) as Hal.
  { intros o [A1 A2]. unfold Spec.id_at. rewrite Ht. unfold object_id. unfold hm in A1. rewrite A2, A1, Hm. done. }
  destruct c; try discriminate Hc; cbn [spares] in Hsp;
    try (apply (keep_steps u m _ (fun _ => True) _ _ H Htk I); [|done]; intros kd a b Hk _ _ _; split; [done|]; destruct kd; cbn [call_kind harmless] in *; done).
  all: (edestruct Hon as [?|Hs]; [reflexivity|done|done|]); specialize (Hsp Hs).
  (* calls that make objects *)
  all: try (destruct (Hhh Hsp) as (h0 & N1 & N2); rewrite (Hgiven I) in H;
    apply (keep_steps u m _ (fun a => exists h0, h0 < h_next (t_handles t) /\ hm a !! h0 = Some u) _ _ H Htk (ex_intro _ h0 (conj N1 N2))); [|done];
    intros k a b Hk Ha HJ Hsab; apply (keep_named u m (h_next (t_handles t)) k a b); [|done|done|done];
    destruct k as [[]| | | | | | | | | | |]; cbn [call_kind] in Hk; done).
  (* C_Sign and the like *)
  all: try (apply (keep_steps u m _ (fun _ => True) _ _ H Htk I); [|done]; intros kd a b Hk _ _ _; split; [done|]; destruct kd; cbn [call_kind harmless] in *; done).
  - (* C_CreateObject *)
    destruct Hsp as [Hsp Hnd]. specialize (Hnd _ Ht). destruct (Hhh Hsp) as (h0 & N1 & N2). rewrite (Hgiven I) in H.
    pose proof (tsteps_dedup P _ _ _ H Hnd) as H'.
    apply (keep_steps u m _ (fun a => exists h0, h0 < h_next (t_handles t) /\ hm a !! h0 = Some u) _ _ H' Htk (ex_intro _ h0 (conj N1 N2))); [|done].
    intros k a b [Hk Hnk] Ha HJ Hsab. apply (keep_named u m (h_next (t_handles t)) k a b); [|done|done|done].
    destruct k as [[]| | | | | | | | | | |]; cbn [call_kind] in Hk; try done. by eapply Hnk.
  - (* C_DestroyObject *)
    apply (keep_steps u m _ (fun a => alone u a o -> undestroyable m) _ _ H Htk (fun X => Hsp (Hal o X))); [|done].
    intros k a b Hk Ha HJ Hsab. apply (keep_other u m o (undestroyable m) k a b); [|done|done].
    destruct k as [[]| | | | | | | | | | |]; cbn [call_kind] in Hk; naive_solver.
  - (* C_SetAttributeValue *)
    apply (keep_steps u m _ (fun a => alone u a o -> unmodifiable m) _ _ H Htk (fun X => Hsp (Hal o X))); [|done].
    intros k a b Hk Ha HJ Hsab. apply (keep_other u m o (unmodifiable m) k a b); [|done|done].
    destruct k as [[]| | | | | | | | | | |]; cbn [call_kind] in Hk; naive_solver.
Qed.
Lemma kept_run cs : forall w sid u m, winv w -> own_disks w -> forallb steady cs = true -> all_spare P B E w cs sid u m -> stored B w sid u = Some m ->
  stored B (fst (run w cs)) sid u = Some m.
Proof using All.
  induction cs as [|c cs IH]; intros w sid u m Hw Ho Hst Hsp Hm; [done|]. cbn [forallb] in Hst. apply andb_prop in Hst as [Hc Hst]. cbn [all_spare] in Hsp. destruct Hsp as [H1 H2].
  specialize (IH (after w c) sid u m (after_winv P B E Hfs Hutf w c Hw) (AuthFacts.after_own P B E Hfs Hutf w c Hw Ho Hc) Hst H2 (kept_step w c sid u m Hw Ho Hc H1 Hm)).
  cbn [Api.run]. unfold Spec.after in *. destruct (step P B E w c) as [w1 o]. cbn [fst] in *. destruct (run w1 cs) as [w2 os]. exact IH.
Qed.

(* C56: a record stored for a slot is there, with all attributes as they were, after any calls by anyone, restarts and
   crashes included, none of which asks for it to be changed or removed, or when the object is not to be. *)
Theorem C56_stays_partial cs cs' sid u m : forallb steady (cs ++ cs') = true -> stored B (end_of cs) sid u = Some m ->
  all_spare P B E (end_of cs) cs' sid u m -> stored B (end_of (cs ++ cs')) sid u = Some m.
Proof using All.
  rewrite forallb_app. intros [H1 H2]%andb_prop Hm Hsp. destruct (own_of P B E Hfs Hutf cs H1) as [Hw Ho].
  unfold ThmAuth.end_of. rewrite (run_app P B E). by apply kept_run.
Qed.
(* C56, what a user relies on for an object that must stay: with CKA_DESTROYABLE and CKA_MODIFIABLE false, no call by
   anyone changes or removes it as long as objects are made only while some handle names it. *)
Definition makes_objects (c : call) : option N :=
  match c with
  | CreateObject s _ _ | CopyObject s _ _ _ _ | GenerateKey s _ _ _ | GenerateKeyPair s _ _ _ _ _ | UnwrapKey s _ _ _ _ _ | DeriveKey s _ _ _ _ _
  | EncapsulateKey s _ _ _ _ _ _ | DecapsulateKey s _ _ _ _ _ => Some s
  | _ => None
  end.
Fixpoint made_in_sight (w : world) (cs : list call) (sid : N) (u : bytes) : Prop :=
  match cs with
  | [] => True
  | c :: cs =>
      match makes_objects c with
      | Some s => on_slot B w s sid -> has_handle B w sid u /\ forall t, token_of w sid = Some t -> t_dedup t = None
      | None => forall pin label, c <> InitToken sid pin label
      end /\ made_in_sight (after w c) cs sid u
  end.
Theorem C56_locked_partial cs cs' sid u m : forallb steady (cs ++ cs') = true -> stored B (end_of cs) sid u = Some m ->
  undestroyable m -> unmodifiable m -> made_in_sight (end_of cs) cs' sid u -> stored B (end_of (cs ++ cs')) sid u = Some m.
Proof using All.
  intros Hst Hm Hd Hu Hs. apply C56_stays_partial; [done|done|]. clear Hst Hm. revert Hs. generalize (end_of cs). induction cs' as [|c cs' IH]; intros w; [done|].
  cbn [made_in_sight all_spare]. intros [H1 H2]. split; [|auto]. destruct c; cbn [makes_objects spares] in *; try done; first [intros X; by destruct (H1 X)|intros ->; by eapply H1].
Qed.
End kept.

(* A data object that is neither to be modified nor destroyed is stored; then come attempts to destroy and change it, a
   crash, a search that finds it, and new objects. *)
Definition fixed_tmpl : list ckattr := [tulong CKA_CLASS CKO_DATA; tbool CKA_TOKEN true; tbool CKA_MODIFIABLE false; tbool CKA_DESTROYABLE false; ca CKA_VALUE [1; 2; 3]].
Definition fixed : list call := home ++ [good; CreateObject 2 (Some fixed_tmpl) true].
Definition fixed_id : bytes := default [] (id_at toy_be (toy_end fixed) 0 10).
Definition fixed_rec : gmap N sqlval := default ∅ (stored toy_be (toy_end fixed) 0 fixed_id).
Definition value_of_rec (r : option (gmap N sqlval)) : option bytes := match r with Some m => a_val <$> row_attr m CKA_VALUE | None => None end.
Definition again : list call := [Crash; on; OpenSession 0 RW true; Login 1 CKU_USER (Some user_pin)].
Definition new_key (l : list ckattr) : call := GenerateKey 1 (Some (CKM_AES_KEY_GEN, None))
  (Some ([tulong CKA_CLASS CKO_SECRET_KEY; tulong CKA_KEY_TYPE CKK_AES; tulong CKA_VALUE_LEN 16; tbool CKA_TOKEN true] ++ l)) true.
Definition meddling : list call := [DestroyObject 2 10; SetAttributeValue 2 10 (Some [ca CKA_VALUE [9]]) 1] ++ again ++ [FindObjectsInit 1 (Some []) 0; new_key []].
Example C56_case : forallb steady (fixed ++ meddling) = true /\ stored toy_be (toy_end fixed) 0 fixed_id = Some fixed_rec /\
  undestroyable fixed_rec /\ unmodifiable fixed_rec /\ made_in_sight toy toy_be toy_env (toy_end fixed) meddling 0 fixed_id /\
  value_of_rec (stored toy_be (toy_end (fixed ++ meddling)) 0 fixed_id) = Some [1; 2; 3].
Proof.
  split; [vm_compute; reflexivity|]. split; [|split; [vm_compute; reflexivity|split; [vm_compute; reflexivity|split; [|vm_compute; reflexivity]]]].
  - unfold fixed_rec. assert (match stored toy_be (toy_end fixed) 0 fixed_id with Some _ => true | None => false end = true) as H by (vm_compute; reflexivity).
    destruct (stored _ _ _ _); [reflexivity|discriminate H].
  - unfold meddling, again, new_key. cbn [app made_in_sight makes_objects]. do 7 (split; [discriminate|]). split; [|exact I].
    intros _. match goal with |- has_handle _ ?w _ _ /\ _ => assert (id_at toy_be w 0 10 = Some fixed_id /\ t_dedup <$> Spec.token_of toy_be w 0 = Some None) as [H1 H2] by (split; vm_compute; reflexivity) end.
    split; [exists 10; exact H1|]. clear H1. intros t Ht. rewrite Ht in H2. cbn in H2. injection H2. trivial.
Qed.
(* C56 is false for a key that is generated before a handle names the object: the template may give its identifier, and the
   object, which is neither to be modified nor destroyed, is replaced by the key. *)
Theorem C56_refuted : let c := new_key [ca CKA_UNIQUE_ID fixed_id] in
  undestroyable fixed_rec /\ unmodifiable fixed_rec /\
  value_of_rec (stored toy_be (toy_end (fixed ++ again)) 0 fixed_id) = Some [1; 2; 3] /\ toy_rv (toy_end (fixed ++ again)) c = CKR_OK /\
  match stored toy_be (toy_end (fixed ++ again ++ [c])) 0 fixed_id with Some m => row_num m CKA_CLASS | None => None end = Some CKO_SECRET_KEY.
Proof. cbv zeta. repeat (split; [vm_compute; reflexivity|]). vm_compute. reflexivity. Qed.
