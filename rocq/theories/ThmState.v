(* C38: saved operation states. *)
From Verif Require Import Base Monad Hoare Attr Obj Factory Tables Create Sqlite Storage Token Backend State Api Toy
  ObjSpec TokInv TokStep TokWp TokAuth Spec StateSpec WorldFrame WorldWp Sessions SessionInv SessionFacts ObjWorld ObjFacts Errors ObjCalls AuthFacts ToyFacts ThmObjects ThmOps ThmMech.

Section states.
Context (P : params) (B : backend) (E : N -> keyenv).
Context (Hfs : p_fs P = all_factories) (Hutf : forall n, utf8_valid (p_uuid P n) = true).
Notation world := (world B). Notation after := (after P B E). Notation rv := (rv P B E). Notation out_of := (out_of P B E).
Notation session_of := (session_of B). Notation token_of := (token_of B).

(* ---- restoring ---- *)
Definition mechs_at (w : world) (i : N) : option (list (N * N)) := option_map (fun sl => mechanisms P (sl_token sl)) (w_slots w !! i).
Record stage (w0 : world) (h : N) (se : session B) (w : world) : Prop := Stage {
  sg_on : w_next w <> 0; sg_map : w_smap w = w_smap w0; sg_ses : session_of w h = Some se;
  sg_oth : forall h', h' <> h -> session_of w h' = session_of w0 h'; sg_mech : forall i, mechs_at w i = mechs_at w0 i }.
Definition key_for (k : opk) (key : option object) : result (option object) :=
  if bool_decide (k = KDigest) then match key with Some _ => Err CKR_KEY_NOT_NEEDED | None => Ok None end
  else match key with Some o => Ok (Some o) | None => Err CKR_KEY_NEEDED end.
Definition listed_in_slot (ms : list (N * N)) (m : N) : bool := existsb (fun p => fst p =? m) ms.
Definition restored (ms : list (N * N)) (k : opk) (key : option object) (op : option (N * bytes)) (se : session B) : result (session B) :=
  match op with
  | None => Ok se
  | Some (m, d) => let? o := key_for k key in if listed_in_slot ms m then let? x := be_restore B k m o d in Ok (put_op B k (OpCrypt x) se) else Err CKR_MECHANISM_INVALID
  end.
Lemma filter_listed (ms : list (N * N)) m : match List.filter (fun p => fst p =? m) ms with [] => listed_in_slot ms m = false | _ :: _ => listed_in_slot ms m = true end.
Proof.
  induction ms as [|p ms IH]; cbn; [done|]. destruct (fst p =? m); cbn; [done|]. exact IH.
Qed.
Lemma wp_restore w0 w h sid ms k key op se : w_smap w0 !! h = Some sid -> mechs_at w0 sid = Some ms -> stage w0 h se w ->
  wp (restore_op P B h sid k key op) w (fun w' r => match restored ms k key op se with Ok se' => r = Ok tt /\ stage w0 h se' w' | Err e => r = Err e /\ stage w0 h se w' end).
Proof.
  intros Hm Hms Hw. unfold restore_op, restored. destruct op as [[m d]|]; [|by wp_step]. unfold key_for. wp_step.
  assert (forall o, wp (let! _ := mech_flags P B sid m in let! x := lift (be_restore B k m o d) in upd_session B h (put_op B k (OpCrypt x))) w
    (fun w' r => match (if listed_in_slot ms m then let? x := be_restore B k m o d in Ok (put_op B k (OpCrypt x) se) else Err CKR_MECHANISM_INVALID) with
                 Ok se' => r = Ok tt /\ stage w0 h se' w' | Err e => r = Err e /\ stage w0 h se w' end)) as Hgo.
  { intros o. wp_step. unfold mech_flags. destruct (w_slots w !! sid) as [sl|] eqn:Hsl.
    2:{ exfalso. pose proof (sg_mech _ _ _ _ Hw sid) as X. unfold mechs_at in X, Hms. rewrite Hsl in X. rewrite Hms in X. done. }
    assert (mechanisms P (sl_token sl) = ms) as Hmm. { pose proof (sg_mech _ _ _ _ Hw sid) as X. rewrite Hms in X. unfold mechs_at in X. rewrite Hsl in X. by injection X. }
    pose proof (sg_on _ _ _ _ Hw) as Hon. wp_step. wp_step. rewrite Hmm. pose proof (filter_listed ms m) as Hl. destruct (List.filter _ ms) as [|p l]; rewrite Hl; wp_step; [done|].
    wp_step. wp_step. destruct (be_restore B k m o d) as [x|e]; cbn [rbind]; [|done].
    pose proof (sg_ses _ _ _ _ Hw) as Hse. unfold Spec.session_of in Hse. rewrite (sg_map _ _ _ _ Hw), Hm in Hse. rewrite Hsl in Hse.
    apply wp_eq with (with_slot B sid (put_sessions B (alter (put_op B k (OpCrypt x)) h (sl_sessions sl)) sl) w) (Ok tt).
    { apply upd_session_eq; [done|by rewrite (sg_map _ _ _ _ Hw)|done]. }
    split; [done|]. split.
    - exact Hon.
    - apply (sg_map _ _ _ _ Hw).
    - unfold Spec.session_of. cbn [with_slot set_slots w_smap w_slots]. rewrite (sg_map _ _ _ _ Hw), Hm, lookup_insert. cbn [put_sessions sl_sessions]. by rewrite lookup_alter, Hse.
    - intros h' Hh'. rewrite <- (sg_oth _ _ _ _ Hw h' Hh'). unfold Spec.session_of. cbn [with_slot set_slots w_smap w_slots]. destruct (w_smap w !! h') as [i|]; [|done].
      destruct (decide (i = sid)) as [->|Hne]; [|by rewrite lookup_insert_ne]. rewrite lookup_insert, Hsl. cbn [put_sessions sl_sessions]. by rewrite lookup_alter_ne.
    - intros i. rewrite <- (sg_mech _ _ _ _ Hw i). unfold mechs_at. cbn [with_slot set_slots w_slots]. destruct (decide (i = sid)) as [->|Hne]; [|by rewrite lookup_insert_ne].
      by rewrite lookup_insert, Hsl. }
  destruct (bool_decide (k = KDigest)), key; cbn [rbind]; wp_step; try done; apply Hgo.
Qed.
Definition restore_all (ms : list (N * N)) (key : option object) (st : opstate) (se : session B) : session B * result unit :=
  if existsb (fun k => nonnull (find_op st k)) [KMsgEnc; KMsgDec; KEnc; KDec] then (se, Err CKR_GENERAL_ERROR) else
  match restored ms KDigest key (find_op st KDigest) se with
  | Err e => (se, Err e)
  | Ok s1 =>
    match restored ms KSign key (find_op st KSign) s1 with
    | Err e => (s1, Err e)
    | Ok s2 =>
      match restored ms KVerify key (find_op st KVerify) s2 with
      | Err e => (s2, Err e)
      | Ok s3 => (s3, if nonnull (find_op st KVerifySig) then Err CKR_SAVED_STATE_INVALID else Ok tt)
      end
    end
  end.
Lemma wp_restore_all w0 w h sid ms key b se : w_smap w0 !! h = Some sid -> mechs_at w0 sid = Some ms -> stage w0 h se w ->
  wp (state_restore P B h sid b key) w (fun w' r => match be_unseal B b with
    | None => r = Err CKR_SAVED_STATE_INVALID /\ stage w0 h se w'
    | Some st => r = snd (restore_all ms key st se) /\ stage w0 h (fst (restore_all ms key st se)) w' end).
Proof.
  intros Hm Hms Hw. unfold state_restore, restore_all. destruct (be_unseal B b) as [st|]; [|by wp_step]. wp_step. destruct (existsb _ _); cbn [negb]; wp_step; try done.
  wp_step. eapply wp_mono; [by apply (wp_restore w0 w h sid ms KDigest key (find_op st KDigest) se)|]. intros w1 r1 H1. cbv beta in H1.
  destruct (restored ms KDigest key (find_op st KDigest) se) as [s1|e]; destruct H1 as [-> H1]; [|done].
  wp_step. eapply wp_mono; [by apply (wp_restore w0 w1 h sid ms KSign key (find_op st KSign) s1)|]. intros w2 r2 H2. cbv beta in H2.
  destruct (restored ms KSign key (find_op st KSign) s1) as [s2|e]; destruct H2 as [-> H2]; [|done].
  wp_step. eapply wp_mono; [by apply (wp_restore w0 w2 h sid ms KVerify key (find_op st KVerify) s2)|]. intros w3 r3 H3. cbv beta in H3.
  destruct (restored ms KVerify key (find_op st KVerify) s2) as [s3|e]; destruct H3 as [-> H3]; [|done].
  destruct (nonnull (find_op st KVerifySig)); cbn [negb]; wp_step; done.
Qed.
(* The key that the call names. *)
Definition key_named (w : world) (sid key : N) : result (option object) :=
  if key =? CK_INVALID_HANDLE then Ok None else
  match token_of w sid with Some t => match snd (get_object_by_handle P key t) with Ok o => Ok (Some o) | Err e => Err e end | None => Err CKR_GENERAL_ERROR end.
Lemma set_state_run w h b key se : winv B w -> session_of w h = Some se -> let c := SetOperationState h (Some b) CK_INVALID_HANDLE key in
  exists ms sl, w_slots w !! s_slot se = Some sl /\ ms = mechanisms P (sl_token sl) /\
  match key_named w (s_slot se) key with
  | Err e => answer P B E w c = Err e /\ stage w h se (after w c)
  | Ok ko => match be_unseal B b with
             | None => answer P B E w c = Err CKR_SAVED_STATE_INVALID /\ stage w h se (after w c)
             | Some st => let r := restore_all ms ko st se in
               answer P B E w c = match snd r with Ok _ => Ok (CKR_OK, ONone) | Err e => Err e end /\ stage w h (fst r) (after w c)
             end
  end.
Proof.
  intros Hw Hse c. destruct (session_of_inv B w h se (wi_inv _ _ Hw) Hse) as (sl & H1 & H2 & H3 & _ & Hn & Hi). exists (mechanisms P (sl_token sl)), sl. split; [done|]. split; [done|].
  apply (call_wp P B E c w (fun w' r => match key_named w (s_slot se) key with
  | Err e => r = Err e /\ stage w h se w'
  | Ok ko => match be_unseal B b with
             | None => r = Err CKR_SAVED_STATE_INVALID /\ stage w h se w'
             | Some st => let q := restore_all (mechanisms P (sl_token sl)) ko st se in r = match snd q with Ok _ => Ok (CKR_OK, ONone) | Err e => Err e end /\ stage w h (fst q) w'
             end
  end)).
  assert (stage w h se w) as Hst by (by split). assert (mechs_at w (s_slot se) = Some (mechanisms P (sl_token sl))) as Hms by (unfold mechs_at; by rewrite H2).
  subst c. cbn [api]. unfold c_set_operation_state. apply wp_bind, wp_ensure; [intros _|done]. eapply wp_bind, wp_eq; [by apply lock_eq|]. eapply wp_bind, wp_eq; [by eapply get_session_eq|]. cbv beta iota.
  wp_step. apply wp_deref; [intros d Hd; injection Hd as <-|done]. eapply wp_bind, wp_eq; [by eapply token_of_session_eq|]. cbv beta iota. wp_step. unfold key_named.
  assert (forall w' ko, stage w h se w' -> wp (let! _ := state_restore P B h (s_slot se) b ko in Api.ok B ONone) w' (fun w' r => match be_unseal B b with
             | None => r = Err CKR_SAVED_STATE_INVALID /\ stage w h se w'
             | Some st => let q := restore_all (mechanisms P (sl_token sl)) ko st se in r = match snd q with Ok _ => Ok (CKR_OK, ONone) | Err e => Err e end /\ stage w h (fst q) w'
             end)) as Hgo.
  { intros w' ko Hs'. wp_step. eapply wp_mono; [by apply (wp_restore_all w w' h (s_slot se) _ ko b se H1 Hms Hs')|]. intros w2 r Hr. cbv beta in Hr.
    destruct (be_unseal B b) as [st|]; [|by destruct Hr as [-> Hr]]. destruct Hr as [-> Hr]. cbv zeta. destruct (snd (restore_all _ ko st se)) as [[]|e]; [by wp_step|done]. }
  destruct (key =? CK_INVALID_HANDLE); [wp_step; by apply Hgo|]. wp_step. wp_step. unfold Spec.token_of. rewrite H2. cbn [option_map].
  assert (wp (get_object_by_handle P key) (sl_token sl) (fun t' _ => noise (sl_token sl) t')) as Hp.
  { apply wp_peek; [|intros; assumption|intros; assumption]. eapply token_ok; [done|]. unfold Spec.token_of. by rewrite H2. }
  destruct (get_object_by_handle P key (sl_token sl)) as [t' r] eqn:Hg. unfold wp in Hp. rewrite Hg in Hp. cbn [fst snd] in *. eapply wp_eq; [exact Hg|].
  assert (stage w h se (with_slot B (s_slot se) (put_token B t' sl) w)) as Hs'.
  { split; try done.
    - unfold Spec.session_of. cbn [with_slot set_slots w_smap w_slots]. by rewrite H1, lookup_insert.
    - intros h' _. unfold Spec.session_of. cbn [with_slot set_slots w_smap w_slots]. destruct (w_smap w !! h') as [i|]; [|done]. destruct (decide (i = s_slot se)) as [->|Hne]; [|by rewrite lookup_insert_ne].
      by rewrite lookup_insert, H2.
    - intros i. unfold mechs_at. cbn [with_slot set_slots w_slots]. destruct (decide (i = s_slot se)) as [->|Hne]; [|by rewrite lookup_insert_ne]. rewrite lookup_insert, H2. cbn. by rewrite (noise_mechs P _ _ Hp). }
  change (sl_token <$> Some sl) with (Some (sl_token sl)). cbv beta iota. rewrite Hg. cbn [snd]. destruct r as [o|e]; cbv beta iota; [|done]. wp_step. apply (Hgo _ (Some o) Hs').
Qed.

(* ---- saving ---- *)
Lemma gather_ok {A} (f : opk -> result A) l : forall rv acc res, gather f l rv acc = Ok res -> res = rev acc ++ flat_map (fun k => match f k with Ok a => [(k, a)] | Err _ => [] end) l.
Proof.
  induction l as [|k l IH]; intros rv0 acc res; cbn [gather flat_map]; [destruct (rv0 =? CKR_OK); [intros [= <-]; by rewrite app_nil_r|done]|].
  destruct (f k) as [a|e].
  - intros H. apply IH in H. rewrite H. cbn [rev]. by rewrite <- app_assoc.
  - destruct (e =? CKR_STATE_UNSAVEABLE); [apply IH|]. destruct (e =? CKR_OPERATION_NOT_INITIALIZED); [apply IH|done].
Qed.
Lemma save_is s k : match op_save B s k with Ok a => to_save B s k = Some a | Err _ => to_save B s k = None end.
Proof.
  unfold op_save, to_save. destruct (s_ops s !! k) as [[|x]|]; try done. destruct (be_final B x); [done|]. destruct (be_size B x); cbn [rbind]; [|done]. destruct (be_save B x); cbn [rbind]; [|done].
  by destruct (be_mech B x).
Qed.
Lemma find_saved s k : In k saveable -> find_op (flat_map (fun k => match op_save B s k with Ok a => [(k, a)] | Err _ => [] end) saveable) k = to_save B s k.
Proof.
  intros Hk. unfold find_op. assert (forall l, List.filter (fun p : opk * (N * bytes) => bool_decide (fst p = k)) (flat_map (fun k => match op_save B s k with Ok a => [(k, a)] | Err _ => [] end) l) =
    flat_map (fun k' => if bool_decide (k' = k) then match to_save B s k with Some a => [(k, a)] | None => [] end else []) l) as ->.
  { induction l as [|k' l IH]; [done|]. cbn [flat_map]. rewrite List.filter_app, IH. f_equal. pose proof (save_is s k') as Hs. destruct (op_save B s k') as [a|e]; cbn.
    - case_bool_decide as He; [|done]. subst k'. by rewrite Hs.
    - case_bool_decide as He; [|done]. subst k'. by rewrite Hs. }
  destruct (to_save B s k) as [a|].
  - destruct k; try done. by destruct Hk as [|[|[|[|[|[|[|[|[]]]]]]]]].
  - assert (flat_map (fun k' => if bool_decide (k' = k) then [] else []) saveable = ([] : list (opk * (N * bytes)))) as ->; [|done].
    clear Hk. induction saveable as [|x l IH]; [done|]. cbn [flat_map]. rewrite IH. by destruct (bool_decide _).
Qed.
Ltac nope := repeat lazymatch goal with |- forall _, _ => intros ? end; let v := fresh in let X := fresh in intros v X; discriminate X.
Lemma saved_blob w h n b l : seal_laws B -> out_of w (GetOperationState h true n) = OBuf b l ->
  exists s st, session_of w h = Some s /\ be_unseal B b = Some st /\ forall k, In k saveable -> find_op st k = to_save B s k.
Proof.
  intros HL H. pose (Q := fun (_ : world) (r : result (N * out)) => forall v, r = Ok (v, OBuf b l) -> exists s st, session_of w h = Some s /\ be_unseal B b = Some st /\ forall k, In k saveable -> find_op st k = to_save B s k).
  assert (wp (api P B E (GetOperationState h true n)) w Q) as Hq.
  { cbn [api]. unfold c_get_operation_state. wp_step. apply wp_lock; [intros Hon|nope]. wp_step. apply wp_get_session; [|nope]. intros sid sl s _ Hm Hs Hse. cbv beta iota.
    cbn [negb]. wp_step. wp_step; [|nope]. wp_step. apply wp_deref; [intros x Hx|nope]. wp_step. wp_step; [|nope]. wp_step. wp_step.
    destruct (gather (op_save B s) saveable _ _) as [st|e] eqn:Hg; [|nope]. apply gather_ok in Hg. cbn [rev app] in Hg. wp_step. wp_step.
    apply wp_any. intros t' [r|e]; [|nope]. cbv beta iota. wp_step. wp_step. destruct (be_seal B r st) as [d|e] eqn:Hd; [|nope]. wp_step. wp_step; [|nope].
    wp_step. intros v Hv. injection Hv as <- <- _. exists s, st. split; [unfold Spec.session_of; by rewrite Hm, Hs|]. split; [by eapply (sl_open _ HL)|]. intros k Hk. rewrite Hg. by apply find_saved. }
  apply (call_wp P B E _ w) in Hq. assert (out_of w (GetOperationState h true n) <> ONone) as Hn by (rewrite H; discriminate). apply answer_out in Hn as [v Hn]. rewrite H in Hn. by eapply Hq.
Qed.

(* ---- C38 ---- *)
Lemma put_ops k x (s : session B) k' : s_ops (put_op B k x s) !! k' = if bool_decide (k' = k) then Some x else s_ops s !! k'.
Proof. unfold put_op, set_ops. cbn [s_ops]. case_bool_decide as H; [subst; by rewrite lookup_insert|by rewrite lookup_insert_ne]. Qed.
Lemma restored_ok ms k key op se se' : restored ms k key op se = Ok se' ->
  match op with None => se' = se | Some (m, d) => exists o x, key_fits k key o /\ In m (map fst ms) /\ be_restore B k m o d = Ok x /\ se' = put_op B k (OpCrypt x) se end.
Proof.
  unfold restored. destruct op as [[m d]|]; [|by intros [= <-]]. unfold key_for. intros H.
  assert (exists o, key_fits k key o /\ (if listed_in_slot ms m then let? x := be_restore B k m o d in Ok (put_op B k (OpCrypt x) se) else Err CKR_MECHANISM_INVALID) = Ok se') as (o & Ho & H').
  { destruct k, key; cbn in H; try discriminate H; eexists; (split; [|exact H]); cbn; eauto. }
  clear H. destruct (listed_in_slot ms m) eqn:Hl; [|done]. destruct (be_restore B k m o d) as [x|] eqn:Hx; [|done]. injection H' as <-. exists o, x. split_and!; try done.
  unfold listed_in_slot in Hl. apply existsb_exists in Hl as ([m' f] & Hin & Hm). apply N.eqb_eq in Hm. cbn in Hm. subst m'. apply in_map_iff. by exists (m, f).
Qed.
Lemma all_ok ms key st se : snd (restore_all ms key st se) = Ok tt -> forall k, k <> KSearch ->
  match find_op st k with
  | None => s_ops (fst (restore_all ms key st se)) !! k = s_ops se !! k
  | Some (m, d) => exists o x, key_fits k key o /\ be_restore B k m o d = Ok x /\ s_ops (fst (restore_all ms key st se)) !! k = Some (OpCrypt x)
  end.
Proof.
  unfold restore_all. destruct (existsb _ _) eqn:Hex; [done|]. cbn [existsb] in Hex. rewrite !orb_false_iff in Hex. destruct Hex as (E1 & E2 & E3 & E4 & _).
  destruct (restored ms KDigest key (find_op st KDigest) se) as [s1|] eqn:R1; [|done]. destruct (restored ms KSign key (find_op st KSign) s1) as [s2|] eqn:R2; [|done].
  destruct (restored ms KVerify key (find_op st KVerify) s2) as [s3|] eqn:R3; [|done]. cbn [fst snd]. destruct (nonnull (find_op st KVerifySig)) eqn:E5; [done|]. intros _ k Hk.
  apply restored_ok in R1, R2, R3.
  assert (forall k', k' <> KDigest -> k' <> KSign -> k' <> KVerify -> s_ops s3 !! k' = s_ops se !! k') as Hoth.
  { intros k' N1 N2 N3. transitivity (s_ops s2 !! k'); [|transitivity (s_ops s1 !! k')].
    - destruct (find_op st KVerify) as [[m d]|]; [destruct R3 as (o & x & _ & _ & _ & ->)|by subst]. rewrite put_ops. by case_bool_decide.
    - destruct (find_op st KSign) as [[m d]|]; [destruct R2 as (o & x & _ & _ & _ & ->)|by subst]. rewrite put_ops. by case_bool_decide.
    - destruct (find_op st KDigest) as [[m d]|]; [destruct R1 as (o & x & _ & _ & _ & ->)|by subst]. rewrite put_ops. by case_bool_decide. }
  destruct k; try done.
  1-4,8: match goal with |- context [find_op ?st ?k] => destruct (find_op st k); [discriminate|match goal with X : forall k, _ -> _ -> _ -> _ |- _ => by apply X end] end.
  - assert (s_ops s3 !! KDigest = s_ops s1 !! KDigest) as Hx.
    { transitivity (s_ops s2 !! KDigest).
      - destruct (find_op st KVerify) as [[m d]|]; [destruct R3 as (o & x & _ & _ & _ & ->)|by subst]. by rewrite put_ops.
      - destruct (find_op st KSign) as [[m d]|]; [destruct R2 as (o & x & _ & _ & _ & ->)|by subst]. by rewrite put_ops. }
    rewrite Hx. destruct (find_op st KDigest) as [[m d]|]; [|by subst]. destruct R1 as (o & x & K1 & _ & K2 & ->). exists o, x. by rewrite put_ops.
  - assert (s_ops s3 !! KSign = s_ops s2 !! KSign) as Hx.
    { destruct (find_op st KVerify) as [[m d]|]; [destruct R3 as (o & x & _ & _ & _ & ->)|by subst]. by rewrite put_ops. }
    assert (s_ops s1 !! KSign = s_ops se !! KSign) as Hy.
    { destruct (find_op st KDigest) as [[m d]|]; [destruct R1 as (o & x & _ & _ & _ & ->)|by subst]. by rewrite put_ops. }
    rewrite Hx. destruct (find_op st KSign) as [[m d]|]; [|by subst]. destruct R2 as (o & x & K1 & _ & K2 & ->). exists o, x. by rewrite put_ops.
  - assert (s_ops s2 !! KVerify = s_ops se !! KVerify) as Hy.
    { transitivity (s_ops s1 !! KVerify).
      - destruct (find_op st KSign) as [[m d]|]; [destruct R2 as (o & x & _ & _ & _ & ->)|by subst]. by rewrite put_ops.
      - destruct (find_op st KDigest) as [[m d]|]; [destruct R1 as (o & x & _ & _ & _ & ->)|by subst]. by rewrite put_ops. }
    destruct (find_op st KVerify) as [[m d]|]; [|by subst]. destruct R3 as (o & x & K1 & _ & K2 & ->). exists o, x. by rewrite put_ops.
Qed.

Notation restoring h b key := (SetOperationState h (Some b) CK_INVALID_HANDLE key).
(* A blob given out by C_GetOperationState is accepted only as what it was: every operation that was saved is the one that its mechanism makes of
   what it saved, no other operation and no other session is touched. *)
Theorem C38_faithful w h n b l s w2 h2 key s2 : sane (fun e => e <> CKR_OK) P B E -> seal_laws B -> from_scratch P B E w2 ->
  session_of w h = Some s -> out_of w (GetOperationState h true n) = OBuf b l -> session_of w2 h2 = Some s2 -> rv w2 (restoring h2 b key) = CKR_OK ->
  let w' := after w2 (restoring h2 b key) in exists ko s', key_named w2 (s_slot s2) key = Ok ko /\ session_of w' h2 = Some s' /\
  (forall k, k <> KSearch -> match to_save B s k with
    | Some (m, d) => exists o x, key_fits k ko o /\ be_restore B k m o d = Ok x /\ s_ops s' !! k = Some (OpCrypt x)
    | None => s_ops s' !! k = s_ops s2 !! k end) /\
  forall h', h' <> h2 -> session_of w' h' = session_of w2 h'.
Proof.
  intros HS HL Hw2 Hs Hb Hs2 Hrv w'. pose proof (scratch_winv P B E Hfs Hutf w2 Hw2) as Hi. destruct (saved_blob w h n b l HL Hb) as (s0 & st & Hs0 & Hst & Hfind). assert (s0 = s) as -> by congruence.
  apply (answer_sane P B E) in Hrv as [o Hrv]; [|done]. destruct (set_state_run w2 h2 b key s2 Hi Hs2) as (ms & sl & _ & _ & H). destruct (key_named w2 (s_slot s2) key) as [ko|e]; [|by destruct H as [H _]; rewrite H in Hrv].
  rewrite Hst in H. cbv zeta in H. destruct H as [H1 H2]. exists ko, (fst (restore_all ms ko st s2)). split; [done|]. split; [by apply (sg_ses _ _ _ _ H2)|]. split; [|apply (sg_oth _ _ _ _ H2)].
  assert (snd (restore_all ms ko st s2) = Ok tt) as Hok by (rewrite H1 in Hrv; by destruct (snd (restore_all ms ko st s2)) as [[]|]). intros k Hk.
  pose proof (all_ok ms ko st s2 Hok k Hk) as Ha. rewrite Hfind in Ha; [done|]. unfold saveable. destruct k; cbn; tauto.
Qed.
(* And it is accepted: if the mechanisms restore what they save, with the key that the call names, C_SetOperationState makes the session's operations
   the ones that were saved. *)
Theorem C38_round_trip w h n b l s w2 h2 key s2 ko ms : seal_laws B -> from_scratch P B E w2 ->
  session_of w h = Some s -> out_of w (GetOperationState h true n) = OBuf b l -> session_of w2 h2 = Some s2 ->
  key_named w2 (s_slot s2) key = Ok ko -> mechs_at w2 (s_slot s2) = Some ms ->
  (forall k m d, to_save B s k = Some (m, d) -> In k [KDigest; KSign; KVerify] /\ In m (map fst ms) /\ exists o x, key_fits k ko o /\ s_ops s !! k = Some (OpCrypt x) /\ be_restore B k m o d = Ok x) ->
  let w' := after w2 (restoring h2 b key) in rv w2 (restoring h2 b key) = CKR_OK /\ exists s', session_of w' h2 = Some s' /\
  (forall k, k <> KSearch -> s_ops s' !! k = match to_save B s k with Some _ => s_ops s !! k | None => s_ops s2 !! k end) /\
  forall h', h' <> h2 -> session_of w' h' = session_of w2 h'.
Proof.
  intros HL Hw2 Hs Hb Hs2 Hko Hms Hall w'. pose proof (scratch_winv P B E Hfs Hutf w2 Hw2) as Hi. destruct (saved_blob w h n b l HL Hb) as (s0 & st & Hs0 & Hst & Hfind). assert (s0 = s) as -> by congruence.
  destruct (set_state_run w2 h2 b key s2 Hi Hs2) as (ms' & sl & Hsl & -> & H). rewrite Hko, Hst in H. cbv zeta in H. destruct H as [H1 H2].
  assert (mechanisms P (sl_token sl) = ms) as Hmm by (unfold mechs_at in Hms; rewrite Hsl in Hms; by injection Hms). rewrite Hmm in *.
  assert (forall k, k <> KSearch -> find_op st k = to_save B s k) as Hf by (intros k Hk; apply Hfind; unfold saveable; destruct k; cbn; tauto).
  assert (forall k se, In k [KDigest; KSign; KVerify] -> exists se', restored ms k ko (find_op st k) se = Ok se') as Hr.
  { intros k se Hk. rewrite Hf by (intros ->; cbn in Hk; intuition discriminate). unfold restored. destruct (to_save B s k) as [[m d]|] eqn:Hsv; [|eauto].
    destruct (Hall k m d Hsv) as (_ & Hm & o & x & Ho & _ & Hx). assert (key_for k ko = Ok o) as ->.
    { destruct Hk as [<-|[<-|[<-|[]]]]; cbn in Ho; [by destruct Ho as [-> ->]|by destruct Ho as (y & -> & ->)|by destruct Ho as (y & -> & ->)]. }
    cbn [rbind]. assert (listed_in_slot ms m = true) as ->. { unfold listed_in_slot. apply existsb_exists. apply in_map_iff in Hm as (p & Hp & Hin). exists p. split; [done|]. by apply N.eqb_eq. }
    rewrite Hx. cbn [rbind]. eauto. }
  assert (snd (restore_all ms ko st s2) = Ok tt) as Hok.
  { unfold restore_all. assert (forall k, k <> KSearch -> ~ In k [KDigest; KSign; KVerify] -> nonnull (find_op st k) = false) as Hno.
    { intros k Hk Hnin. rewrite Hf by done. destruct (to_save B s k) as [[m d]|] eqn:Hsv; [|done]. by destruct (Hall k m d Hsv). }
    cbn [existsb]. rewrite !Hno by (try discriminate; cbn; intuition discriminate). cbn [orb].
    destruct (Hr KDigest s2) as [s1 ->]; [by left|]. destruct (Hr KSign s1) as [s3 ->]; [by right; left|]. by destruct (Hr KVerify s3) as [s4 ->]; [by right; right; left|]. }
  rewrite Hok in H1. apply answer_ok in H1 as [H1 _]. split; [done|]. exists (fst (restore_all ms ko st s2)). split; [by apply (sg_ses _ _ _ _ H2)|]. split; [|apply (sg_oth _ _ _ _ H2)].
  intros k Hk. pose proof (all_ok ms ko st s2 Hok k Hk) as Ha. rewrite Hf in Ha by done. destruct (to_save B s k) as [[m d]|] eqn:Hsv; [|done].
  destruct Ha as (o & x & A1 & A2 & ->). destruct (Hall k m d Hsv) as (_ & _ & o' & x' & A3 & -> & A5). assert (o' = o) as ->; [|congruence].
  destruct k; cbn in A1, A3; destruct A1 as [? A1], A3 as [? A3]; try (by destruct A1, A3; congruence); congruence.
Qed.
(* Any other byte string is refused, and the operations of all sessions stay as they are. *)
Theorem C38_other_blob w h b key s : seal_laws B -> sane (fun e => e <> CKR_OK) P B E -> from_scratch P B E w -> session_of w h = Some s -> (forall r st, be_seal B r st <> Ok b) ->
  rv w (restoring h b key) <> CKR_OK /\ forall h', session_of (after w (restoring h b key)) h' = session_of w h'.
Proof.
  intros HL HS Hw Hs Hno. pose proof (scratch_winv P B E Hfs Hutf w Hw) as Hi. destruct (set_state_run w h b key s Hi Hs) as (ms & sl & _ & _ & H).
  assert (be_unseal B b = None) as Hn. { destruct (be_unseal B b) as [st|] eqn:Hu; [|done]. apply (sl_auth _ HL) in Hu as [r Hr]. by apply Hno in Hr. } rewrite Hn in H.
  assert ((exists e, answer P B E w (restoring h b key) = Err e) /\ stage w h s (after w (restoring h b key))) as [[e He] Hst] by (destruct (key_named _ _ _); destruct H; eauto).
  split; [intros Hr; apply (answer_sane P B E) in Hr as [o Hr]; [congruence|done]|]. intros h'. destruct (N.eq_dec h' h) as [->|Hne]; [by rewrite (sg_ses _ _ _ _ Hst)|by apply (sg_oth _ _ _ _ Hst)].
Qed.
(* A blob of the module itself that is refused: the operations stay as they are if the blob has one operation only. *)
Theorem C38_refused_partial w h b key s st : from_scratch P B E w -> session_of w h = Some s -> be_unseal B b = Some st -> rv w (restoring h b key) <> CKR_OK ->
  find_op st KVerifySig = None -> (forall k k', In k [KDigest; KSign; KVerify] -> In k' [KDigest; KSign; KVerify] -> find_op st k <> None -> find_op st k' <> None -> k = k') ->
  forall h', session_of (after w (restoring h b key)) h' = session_of w h'.
Proof.
  intros Hw Hs Hu Hr Hv Hone h'. pose proof (scratch_winv P B E Hfs Hutf w Hw) as Hi. destruct (set_state_run w h b key s Hi Hs) as (ms & sl & _ & _ & H). rewrite Hu in H.
  assert (stage w h s (after w (restoring h b key))) as Hst.
  { destruct (key_named _ _ _) as [ko|e]; [|by destruct H]. cbv zeta in H. destruct H as [H1 H2]. assert (snd (restore_all ms ko st s) <> Ok tt) as Hne.
    { intros X. rewrite X in H1. apply answer_ok in H1 as [H1 _]. congruence. }
    assert (fst (restore_all ms ko st s) = s) as <-; [|done]. clear H1 H2. revert Hne. unfold restore_all. destruct (existsb _ _); [done|]. rewrite Hv. cbn [nonnull].
    assert (forall k, find_op st k = None -> forall se, restored ms k ko (find_op st k) se = Ok se) as Hnone by (intros k -> se; done).
    destruct (restored ms KDigest ko (find_op st KDigest) s) as [s1|e] eqn:R1; [|done]. cbn [fst snd].
    assert (find_op st KDigest <> None -> find_op st KSign = None /\ find_op st KVerify = None) as Hd.
    { intros X. split; [destruct (find_op st KSign) eqn:Y|destruct (find_op st KVerify) eqn:Y]; try done; exfalso; [assert (KDigest = KSign) as Z|assert (KDigest = KVerify) as Z]; try discriminate Z; apply Hone; cbn; try tauto; congruence. }
    destruct (find_op st KDigest) as [p|] eqn:Hp.
    - destruct Hd as [D1 D2]; [done|]. rewrite D1, D2. cbn. done.
    - injection R1 as <-. destruct (restored ms KSign ko (find_op st KSign) s) as [s2|e] eqn:R2; [|done]. destruct (find_op st KSign) as [q|] eqn:Hq.
      + assert (find_op st KVerify = None) as ->; [|cbn; done]. destruct (find_op st KVerify) eqn:Y; [|done]. exfalso. assert (KSign = KVerify) as Z; [|discriminate Z]. apply Hone; cbn; try tauto; congruence.
      + injection R2 as <-. destruct (restored ms KVerify ko (find_op st KVerify) s) as [s3|e]; [cbn; done|done]. }
  destruct (N.eq_dec h' h) as [->|Hne]; [by rewrite (sg_ses _ _ _ _ Hst)|by apply (sg_oth _ _ _ _ Hst)].
Qed.
End states.

(* ---- cases ---- *)
Lemma parse_seal l : forall f, (length l <= f)%nat -> toy_parse f (toy_seal l) = Some l.
Proof.
  induction l as [|[k [m d]] l IH]; intros f Hf; [by destruct f|]. destruct f as [|f]; [cbn in Hf; lia|]. unfold toy_seal. cbn [map concat fst snd]. fold (toy_seal l).
  rewrite <- !app_comm_cons. cbn [toy_parse]. rewrite Nat2N.id. assert (opk_of (opk_num k) = Some k) as -> by (by destruct k). unfold blen. rewrite Nat2N.id.
  rewrite skipn_app, skipn_all, Nat.sub_diag, firstn_app, firstn_all, Nat.sub_diag. cbn [skipn firstn app]. rewrite app_nil_r, IH; [done|]. cbn in Hf. lia.
Qed.
Lemma seal_length l : (length l <= length (toy_seal l))%nat.
Proof. induction l as [|[k [m d]] l IH]; [done|]. unfold toy_seal. cbn [map concat fst snd]. fold (toy_seal l). rewrite app_length. cbn [length]. lia. Qed.
Lemma toy_seal_laws : seal_laws toy_be.
Proof.
  split.
  - intros r l b H. injection H as <-. cbn [be_unseal toy_be]. rewrite parse_seal by apply seal_length. unfold bytes_eqb. by rewrite bool_decide_eq_true_2.
  - intros b l. cbn [be_unseal toy_be be_seal]. destruct (toy_parse _ b) as [l'|]; [|done]. destruct (bytes_eqb (toy_seal l') b) eqn:He; [|done]. intros [= ->]. exists 0. unfold bytes_eqb in He. apply bool_decide_eq_true in He. by rewrite He.
Qed.

Definition started38 : list call := [CreateObject 2 (Some sign_key) true; OpInit KSign 2 (Some hmac) 10 None; SignUpdate 2 (Some [1; 2])].
Definition w38 : world toy_be := fst (toy_run toy_user started38).
Lemma w38_scratch : from_scratch toy toy_be toy_env w38.
Proof. unfold w38. apply toy_user_scratch. Qed.
Definition state_of (w : world toy_be) : bytes := match toy_out w (GetOperationState 2 true (Some 100)) with OBuf b _ => b | _ => [] end.
Definition blob38 : bytes := Eval vm_compute in state_of w38.
Definition ops_of (w : world toy_be) (h : N) (k : opk) : option toy_st :=
  match session_of toy_be w h with Some s => match s_ops s !! k with Some (OpCrypt x) => Some x | _ => None end | None => None end.
(* A signature under way, saved and taken up in another session. *)
Definition moved (key : N) : call := SetOperationState 3 (Some blob38) CK_INVALID_HANDLE key.
Example C38_case : toy_out w38 (GetOperationState 2 true (Some 100)) = OBuf blob38 (blen blob38) /\ toy_rv w38 (moved 10) = CKR_OK /\
  ops_of w38 3 KSign = None /\ ops_of (after toy toy_be toy_env w38 (moved 10)) 3 KSign = ops_of w38 2 KSign /\ nonnull (ops_of w38 2 KSign) = true /\ toy_rv w38 (moved 0) = CKR_KEY_NEEDED.
Proof. split_and!; vm_compute; reflexivity. Qed.
Example C38_other_case : (forall r st, be_seal toy_be r st <> Ok (99 :: blob38)) /\ toy_rv w38 (SetOperationState 3 (Some (99 :: blob38)) CK_INVALID_HANDLE 10) = CKR_SAVED_STATE_INVALID.
Proof.
  split; [|vm_compute; reflexivity]. intros r st H. apply (sl_open _ toy_seal_laws) in H. vm_compute in H. discriminate H.
Qed.
(* A session that signs and digests: the state is given out, but can be restored neither with the key nor without, and the refusal leaves the digest behind. *)
Definition w38b : world toy_be := fst (toy_run toy_user (started38 ++ [DigestInit 2 (Some (CKM_SHA256, None)); DigestUpdate 2 (Some [3])])).
Definition blob38b : bytes := Eval vm_compute in state_of w38b.
Theorem C38_refused_refuted : from_scratch toy toy_be toy_env w38b /\ toy_out w38b (GetOperationState 2 true (Some 100)) = OBuf blob38b (blen blob38b) /\
  toy_rv w38b (SetOperationState 3 (Some blob38b) CK_INVALID_HANDLE 10) = CKR_KEY_NOT_NEEDED /\
  let c := SetOperationState 3 (Some blob38b) CK_INVALID_HANDLE CK_INVALID_HANDLE in
  toy_rv w38b c = CKR_KEY_NEEDED /\ ops_of w38b 3 KDigest = None /\ nonnull (ops_of (after toy toy_be toy_env w38b c) 3 KDigest) = true.
Proof. split; [unfold w38b; apply toy_user_scratch|]. cbv zeta. split_and!; vm_compute; reflexivity. Qed.
(* A session that digests and encrypts: the state is given out without the encryption. *)
Definition w38c : world toy_be := fst (toy_run toy_user [CreateObject 2 (Some (aes_tmpl true)) true; OpInit KEnc 2 (Some (CKM_AES_CBC, Some [])) 10 None; DigestInit 2 (Some (CKM_SHA256, None))]).
Definition blob38c : bytes := Eval vm_compute in state_of w38c.
Theorem C38_dropped_refuted : from_scratch toy toy_be toy_env w38c /\ toy_out w38c (GetOperationState 2 true (Some 100)) = OBuf blob38c (blen blob38c) /\
  nonnull (ops_of w38c 2 KEnc) = true /\ let c := SetOperationState 3 (Some blob38c) CK_INVALID_HANDLE CK_INVALID_HANDLE in
  toy_rv w38c c = CKR_OK /\ ops_of (after toy toy_be toy_env w38c c) 3 KEnc = None.
Proof. split; [unfold w38c; apply toy_user_scratch|]. cbv zeta. split_and!; vm_compute; reflexivity. Qed.
(* In a session that has begun no operation of its own the restored one cannot be used: the session's login status is still "not initialized". *)
Theorem C38_usable_refuted : from_scratch toy toy_be toy_env w38 /\ toy_rv w38 (moved 10) = CKR_OK /\ let w := after toy toy_be toy_env w38 (moved 10) in
  ops_of w 3 KSign = ops_of w 2 KSign /\ toy_rv w (SignFinal 3 true (Some 10)) = CKR_OPERATION_NOT_INITIALIZED /\ toy_rv w (SignFinal 2 true (Some 10)) = CKR_OK.
Proof. split; [apply w38_scratch|]. cbv zeta. split_and!; vm_compute; reflexivity. Qed.
