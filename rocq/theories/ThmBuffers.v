(* C33: asking for a length, or a buffer that is too small, leaves the operation as it was. *)
From Verif Require Import Base Monad Hoare Attr Obj Factory Tables Create Sqlite Storage Token Backend State Api Spec WorldWp Sessions SessionInv SessionFacts ObjWorld.
From Verif Require Import ThmOps ThmObjects Toy.
From Verif Require Export BufSpec.

Section buf.
Context (P : params) (B : backend).
Notation world := (world B). Notation session := (session B).

Lemma get_session_pure h (w : world) : fst (get_session B h w) = w.
Proof.
  unfold get_session, session_slot, get_slot. cbv [mbind gets ensure initialized]. destruct (w_smap w !! h); [|done].
  cbn [ret]. destruct (negb (w_next w =? 0)); [|done]. cbn. destruct (w_slots w !! _); [|done]. cbn. by destruct (sl_sessions _ !! h).
Qed.
(* The session is open. *)
Record open (h : N) (w : world) (sid : N) (sl : slot B) (s : session) : Prop := {
  op_next : w_next w <> 0; op_map : w_smap w !! h = Some sid; op_slot : w_slots w !! sid = Some sl;
  op_ses : sl_sessions sl !! h = Some s }.
Lemma get_session_open h w w' s : get_session B h w = (w', Ok s) -> w' = w /\ exists sid sl, open h w sid sl s.
Proof.
  intros H. split; [by rewrite <- (get_session_pure h w), H|].
  unfold get_session, session_slot, get_slot in H. cbv [mbind gets ensure initialized] in H. destruct (w_smap w !! h) as [sid|] eqn:E1; [|done].
  cbn [ret] in H. destruct (negb (w_next w =? 0)) eqn:E2; [|done]. cbn in H. destruct (w_slots w !! sid) as [sl|] eqn:E3; [|done].
  cbn in H. destruct (sl_sessions sl !! h) eqn:E4; [|done]. exists sid, sl. injection H as _ ->. constructor; try done. lia.
Qed.
(* The operation of the session replaced. *)
Definition put (h : N) (k : opk) (x : be_st B) (w : world) : world := fst (upd_session B h (put_op B k (OpCrypt x)) w).
Lemma open_session h w sid sl s : open h w sid sl s -> get_session B h w = (w, Ok s).
Proof. intros [H1 H2 H3 H4]. by apply (get_session_eq B h sid sl s w). Qed.
Lemma put_eq h k x w sid sl s : open h w sid sl s ->
  upd_session B h (put_op B k (OpCrypt x)) w = (put h k x w, Ok tt) /\
  put h k x w = with_slot B sid (put_sessions B (alter (put_op B k (OpCrypt x)) h (sl_sessions sl)) sl) w.
Proof. intros [H1 H2 H3 H4]. unfold put. by rewrite (upd_session_eq B h _ sid sl w). Qed.
Lemma put_open h k x w sid sl s : open h w sid sl s ->
  open h (put h k x w) sid (put_sessions B (alter (put_op B k (OpCrypt x)) h (sl_sessions sl)) sl) (put_op B k (OpCrypt x) s).
Proof.
  intros Ho. destruct (put_eq h k x w sid sl s Ho) as [_ ->]. destruct Ho as [H1 H2 H3 H4]. constructor; try done.
  - apply lookup_insert.
  - cbn [put_sessions sl_sessions]. by rewrite lookup_alter, H4.
Qed.
Lemma put_put h k x y w sid sl s : open h w sid sl s -> put h k y (put h k x w) = put h k y w.
Proof.
  intros Ho. destruct (put_eq h k y _ _ _ _ (put_open h k x w sid sl s Ho)) as [_ ->].
  destruct (put_eq h k x w sid sl s Ho) as [_ ->]. destruct (put_eq h k y w sid sl s Ho) as [_ ->].
  rewrite with_slot_twice. cbn [put_sessions sl_sessions sl_token sl_disk]. f_equal. unfold put_sessions. cbn. f_equal.
  rewrite <- alter_compose. apply alter_ext. intros s' Hs'. cbn. unfold put_op, set_ops. cbn. by rewrite insert_insert.
Qed.

Lemma cur_op_cases h k w :
  (exists x s sid sl, cur_op B h k w = (w, Ok x) /\ open h w sid sl s /\ s_ops s !! k = Some (OpCrypt x) /\ be_final B x = false /\ check_login_status B s = Ok tt) \/
  (exists e, cur_op B h k w = (w, Err e) /\ e <> CKR_OK /\ e <> CKR_BUFFER_TOO_SMALL).
Proof.
  unfold cur_op. rewrite run_bind. destruct (get_session B h w) as [w' [s|e]] eqn:Hs.
  - apply get_session_open in Hs as [-> (sid & sl & Ho)]. rewrite run_bind. unfold get_operation, get_op, lift.
    destruct (check_login_status B s) as [[]|e] eqn:El; cbn [rbind].
    + destruct (s_ops s !! k) as [o|] eqn:Eo; [|right; eexists; split; [reflexivity|]; split; discriminate].
      destruct (op_final B o) eqn:Ef; [right; eexists; split; [reflexivity|]; split; discriminate|].
      destruct o as [l|x]; [right; eexists; split; [reflexivity|]; split; discriminate|].
      left. exists x, s, sid, sl. done.
    + right. exists e. split; [done|]. unfold check_login_status in El. destruct (s_login s); simplify_eq; split; discriminate.
  - right. exists e. pose proof (get_session_pure h w) as X. rewrite Hs in X. cbn in X. subst w'. split; [done|].
    revert Hs. unfold get_session, session_slot, get_slot. cbv [mbind gets ensure initialized]. destruct (w_smap w !! h) as [sid|]; [|intros [= <-]; split; discriminate].
    cbn [ret]. destruct (negb (w_next w =? 0)); [|intros [= <-]; split; discriminate]. cbn. destruct (w_slots w !! _); [|intros [= <-]; split; discriminate].
    cbn. destruct (sl_sessions _ !! h); [done|]. intros [= <-]. split; discriminate.
Qed.
Lemma cur_op_put h k x' w s sid sl : open h w sid sl s -> check_login_status B s = Ok tt -> be_final B x' = false ->
  cur_op B h k (put h k x' w) = (put h k x' w, Ok x').
Proof.
  intros Ho Hl Hf. unfold cur_op. rewrite run_bind, (open_session _ _ _ _ _ (put_open h k x' w sid sl s Ho)), run_bind.
  unfold get_operation, get_op, lift. change (check_login_status B (put_op B k (OpCrypt x') s)) with (check_login_status B s). rewrite Hl.
  cbn [rbind]. unfold put_op, set_ops. cbn [s_ops]. rewrite lookup_insert. cbn [op_final]. by rewrite Hf.
Qed.
Lemma run_op_eq h k c x w s sid sl : open h w sid sl s ->
  run_op B h k c x w = (put h k (fst (be_call B c x)) w, snd (be_call B c x)).
Proof.
  intros Ho. unfold run_op. destruct (be_call B c x) as [x' r]. rewrite run_bind.
  destruct (put_eq h k x' w sid sl s Ho) as [-> _]. done.
Qed.
Lemma run_op_put h k c x x' w s sid sl : open h w sid sl s -> be_call B c x' = be_call B c x ->
  run_op B h k c x' (put h k x' w) = run_op B h k c x w.
Proof.
  intros Ho Hc. rewrite (run_op_eq h k c x w s sid sl Ho), (run_op_eq _ _ _ _ _ _ _ _ (put_open h k x' w sid sl s Ho)), Hc.
  f_equal. by apply (put_put h k x' _ w sid sl s).
Qed.
Lemma put_same h k x w s sid sl : open h w sid sl s -> s_ops s !! k = Some (OpCrypt x) -> put h k x w = w.
Proof.
  intros Ho Hx. destruct (put_eq h k x w sid sl s Ho) as [_ ->]. destruct Ho as [H1 H2 H3 H4].
  assert (X : alter (put_op B k (OpCrypt x)) h (sl_sessions sl) = sl_sessions sl).
  { apply map_eq. intros i. destruct (decide (i = h)) as [->|Hn]; [|by rewrite lookup_alter_ne].
    rewrite lookup_alter, H4. cbn. f_equal. unfold put_op, set_ops. destruct s. cbn in *. by rewrite insert_id. }
  rewrite X. unfold with_slot, set_slots, put_sessions. destruct sl, w. cbn in *. f_equal. by rewrite insert_id.
Qed.
Lemma lock_put h k x w s sid sl : open h w sid sl s -> Api.lock B (put h k x w) = (put h k x w, Ok tt).
Proof. intros Ho. apply lock_eq. apply (op_next _ _ _ _ _ (put_open h k x w sid sl s Ho)). Qed.
Lemma active_put h k x w s sid sl : open h w sid sl s -> be_final B x = false -> active B (put h k x w) h k = true.
Proof.
  intros Ho Hf. pose proof (put_open h k x w sid sl s Ho) as [H1 H2 H3 H4]. unfold active, session_of. rewrite H2. rewrite H3, H4.
  unfold op_active. cbn [put_op set_ops s_ops]. rewrite lookup_insert. cbn [op_final]. by rewrite Hf.
Qed.

(* The outcomes the property is about, for a call with or without a buffer. *)
Definition code (r : result (N * out)) : N := match r with Ok (rv, _) => rv | Err e => e end.
Definition ends (buf : bool) (r : result (N * out)) : Prop :=
  buf = false /\ code r = CKR_OK \/ code r = CKR_BUFFER_TOO_SMALL.
Definition retries (h : N) (k : opk) (f : bool -> option N -> M world (N * out)) : Prop :=
  forall w buf len n, ends buf (snd (f buf len w)) ->
  active B (fst (f buf len w)) h k = true /\ f true (Some n) (fst (f buf len w)) = f true (Some n) w.

Hypothesis HB : retry_law B.

Lemma active_here h k x w s sid sl : open h w sid sl s -> s_ops s !! k = Some (OpCrypt x) -> be_final B x = false -> active B w h k = true.
Proof.
  intros Ho Hx Hf. rewrite <- (put_same h k x w s sid sl Ho Hx). by apply (active_put h k x w s sid sl).
Qed.
Lemma lock_cases w : Api.lock B w = (w, Ok tt) \/ Api.lock B w = (w, Err CKR_CRYPTOKI_NOT_INITIALIZED).
Proof. destruct (decide (w_next w = 0)) as [X|X]; [right; by apply lock_off|left; by apply lock_eq]. Qed.
Ltac bad := let X := fresh in intros X; exfalso; destruct X as [[? X]|X]; cbv [code snd] in X; (done || (vm_compute in X; discriminate X)).

(* A method called with the room given, in general: what follows the look up of the operation. *)
Lemma retries_run h k x w s sid sl (y : N -> opcall) (g : bytes -> M world (N * out)) n n' :
  open h w sid sl s -> s_ops s !! k = Some (OpCrypt x) -> be_final B x = false -> check_login_status B s = Ok tt ->
  (forall a b, resize (y a) b = y b) ->
  (forall d w, code (snd (g d w)) <> CKR_BUFFER_TOO_SMALL) ->
  code (snd ((let! r := run_op B h k (y n) x in g r) w)) = CKR_BUFFER_TOO_SMALL ->
  exists x', fst ((let! r := run_op B h k (y n) x in g r) w) = put h k x' w /\ be_final B x' = false /\
    be_busy B x' = be_busy B x /\ be_out_len B x' = be_out_len B x /\
    run_op B h k (y n') x' (put h k x' w) = run_op B h k (y n') x w.
Proof.
  intros Ho Hx Hf Hl Hy Hg Hc. rewrite run_bind, (run_op_eq h k (y n) x w s sid sl Ho) in Hc |- *.
  destruct (be_call B (y n) x) as [x' [d|e]] eqn:Ec; cbn [fst snd] in Hc |- *.
  - by apply Hg in Hc.
  - cbn [code] in Hc. subst e. destruct (rl_call B HB _ _ _ Hf Ec) as (R1 & R2 & R3 & R4).
    exists x'. split_and!; try done. apply (run_op_put h k (y n') x x' w s sid sl Ho). rewrite <- (Hy n n'). apply R4.
Qed.
Lemma len_eq h k n fin x w s sid sl buf : open h w sid sl s -> s_ops s !! k = Some (OpCrypt x) ->
  ends buf (snd (len_op B h k n fin x w)) -> fst (len_op B h k n fin x w) = w.
Proof.
  intros Ho Hx. unfold len_op. destruct (be_len B x n fin) as [x' r] eqn:El. rewrite run_bind.
  destruct (put_eq h k x' w sid sl s Ho) as [-> _]. rewrite run_bind. unfold lift. intros He.
  assert (X : x' = x).
  { apply (rl_len B HB _ _ _ _ _ El). destruct r as [l|e]; [by left|]. destruct He as [[_ X]|X]; cbv [code snd] in X; subst e; [by left|by right]. }
  subst x'. rewrite (put_same h k x w s sid sl Ho Hx). by destruct r.
Qed.

Lemma ends_err buf e : e <> CKR_OK -> e <> CKR_BUFFER_TOO_SMALL -> ends buf (Err e) -> False.
Proof. intros H1 H2 [[_ X]|X]; cbn [code] in X; congruence. Qed.
(* The common form of the calls: a check before the operation is looked up, then the body. *)
Lemma body_retries h k (pre : M world unit) (F : bool -> N -> be_st B -> M world (N * out)) :
  (forall w, pre w = (w, Ok tt) \/ exists e, pre w = (w, Err e) /\ e <> CKR_OK /\ e <> CKR_BUFFER_TOO_SMALL) ->
  (forall w x s sid sl, open h w sid sl s -> pre (put h k x w) = (put h k x w, snd (pre w))) ->
  (forall w s sid sl x buf l n, open h w sid sl s -> s_ops s !! k = Some (OpCrypt x) -> be_final B x = false -> check_login_status B s = Ok tt ->
     ends buf (snd (F buf l x w)) ->
     fst (F buf l x w) = w \/
     exists x', fst (F buf l x w) = put h k x' w /\ be_final B x' = false /\ F true n x' (put h k x' w) = F true n x w) ->
  forall w buf l n,
  let f buf l := (Api.lock B;;; pre;;; let! x := cur_op B h k in F buf l x) in
  ends buf (snd (f buf l w)) -> active B (fst (f buf l w)) h k = true /\ f true n (fst (f buf l w)) = f true n w.
Proof.
  intros Hp1 Hp2 HF w buf l n f. subst f. cbv beta. rewrite !run_bind.
  destruct (lock_cases w) as [Hlk|Hlk]; rewrite Hlk; [|intros X; exfalso; by apply ends_err in X].
  cbv beta iota. rewrite !run_bind. destruct (Hp1 w) as [Hp|(e & Hp & He1 & He2)]; rewrite Hp; [|intros X; exfalso; by apply ends_err in X].
  cbv beta iota. rewrite !run_bind. destruct (cur_op_cases h k w) as [(x & s & sid & sl & Hc & Ho & Hx & Hf & Hl)|(e & Hc & He1 & He2)];
    rewrite Hc; [|intros X; exfalso; by apply ends_err in X].
  cbv beta iota. intros He. destruct (HF w s sid sl x buf l n Ho Hx Hf Hl He) as [X|(x' & X & Hf' & XF)]; rewrite X.
  - split; [by apply (active_here h k x w s sid sl)|]. rewrite Hlk. cbv beta iota. rewrite run_bind, Hp. cbv beta iota. rewrite run_bind, Hc. done.
  - split; [by apply (active_put h k x' w s sid sl)|]. rewrite (lock_put h k x' w s sid sl Ho). cbv beta iota.
    rewrite run_bind, (Hp2 w x' s sid sl Ho), Hp. cbn [snd]. cbv beta iota. rewrite run_bind, (cur_op_put h k x' w s sid sl Ho Hl Hf'). done.
Qed.
Lemma no_pre : forall h k,
  (forall w : world, skip w = (w, Ok tt) \/ exists e, skip w = (w, Err e) /\ e <> CKR_OK /\ e <> CKR_BUFFER_TOO_SMALL) /\
  (forall w x s sid sl, open h w sid sl s -> skip (put h k x w) = (put h k x w, snd (@skip world w))).
Proof. intros h k. split; [by left|done]. Qed.

(* A body that asks the operation for a length or calls a method with the room. *)
Lemma crypt_body h k w s sid sl x buf l n m fin (y : N -> opcall) :
  open h w sid sl s -> s_ops s !! k = Some (OpCrypt x) -> be_final B x = false -> check_login_status B s = Ok tt ->
  (forall a b, resize (y a) b = y b) ->
  let F buf l x := if negb buf then len_op B h k m fin x else let! r := run_op B h k (y l) x in Api.ok B (OBuf r (blen r)) in
  ends buf (snd (F buf l x w)) ->
  fst (F buf l x w) = w \/
  exists x', fst (F buf l x w) = put h k x' w /\ be_final B x' = false /\ be_busy B x' = be_busy B x /\ F true n x' (put h k x' w) = F true n x w.
Proof.
  intros Ho Hx Hf Hl Hy F. subst F. cbv beta. destruct buf; cbn [negb].
  - intros He. right. destruct He as [[X _]|He]; [done|].
    destruct (retries_run h k x w s sid sl y (fun r => Api.ok B (OBuf r (blen r))) l n Ho Hx Hf Hl Hy) as (x' & R1 & R2 & R3 & R4 & R5); [done|done|].
    exists x'. split_and!; try done. rewrite !run_bind, R5. done.
  - intros He. left. by apply (len_eq h k m fin x w s sid sl false).
Qed.
Ltac nope := intros X; exfalso; destruct X as [[? X]|X]; vm_compute in X; discriminate X.

Lemma retries_crypt k h d : retries h k (c_crypt B k h d).
Proof.
  intros w buf len n. destruct d as [d|]; [|nope]. destruct len as [l|]; [|nope]. destruct (no_pre h k) as [N1 N2].
  refine (body_retries h k skip (fun buf l x => if negb buf then len_op B h k (blen d) true x else let! r := run_op B h k (CSingle d l) x in Api.ok B (OBuf r (blen r))) N1 N2 _ w buf l n).
  intros w1 s sid sl x b l1 n1 Ho Hx Hf Hl He.
  destruct (crypt_body h k w1 s sid sl x b l1 n1 (blen d) true (CSingle d) Ho Hx Hf Hl) as [X|(x' & X1 & X2 & X3 & X4)]; [done|done|by left|right; eauto].
Qed.
Lemma pre_session h k (p : session -> bool) :
  (forall x s, p (put_op B k (OpCrypt x) s) = p s) ->
  let pre := (let! s := get_session B h in ensure (p s) CKR_OPERATION_NOT_INITIALIZED) in
  (forall w : world, pre w = (w, Ok tt) \/ exists e, pre w = (w, Err e) /\ e <> CKR_OK /\ e <> CKR_BUFFER_TOO_SMALL) /\
  (forall w x s sid sl, open h w sid sl s -> pre (put h k x w) = (put h k x w, snd (pre w))).
Proof.
  intros Hp pre. subst pre. split.
  - intros w. rewrite run_bind. destruct (get_session B h w) as [w' [s|e]] eqn:Hs.
    + apply get_session_open in Hs as [-> _]. unfold ensure. destruct (p s); [by left|right]. eexists. split; [reflexivity|]. split; discriminate.
    + right. exists e. destruct (cur_op_cases h KEnc w) as [(x & s & sid & sl & Hc & Ho & _)|(e' & Hc & He1 & He2)].
      * rewrite (open_session _ _ _ _ _ Ho) in Hs. done.
      * unfold cur_op in Hc. rewrite run_bind, Hs in Hc. simplify_eq. done.
  - intros w x s sid sl Ho. rewrite !run_bind, (open_session _ _ _ _ _ (put_open h k x w sid sl s Ho)), (open_session _ _ _ _ _ Ho).
    rewrite Hp. unfold ensure. by destruct (p s).
Qed.
Lemma retries_crypt_update k h d : retries h k (c_crypt_update B k h d).
Proof.
  intros w buf len n. destruct d as [d|]; [|nope]. destruct len as [l|]; [|nope].
  destruct (pre_session h k (fun _ => true)) as [N1 N2]; [done|].
  assert (Eq : forall b l1 w1, c_crypt_update B k h (Some d) b (Some l1) w1 =
    (Api.lock B;;; (let! s := get_session B h in ensure true CKR_OPERATION_NOT_INITIALIZED);;;
     let! x := cur_op B h k in (if negb b then len_op B h k (blen d) false x else let! r := run_op B h k (CUpdate d l1) x in Api.ok B (OBuf r (blen r)))) w1).
  { intros b l1 w1. change (c_crypt_update B k h (Some d) b (Some l1) w1) with ((Api.lock B;;; let! _ := get_session B h in crypt_update B k h d b l1) w1).
    unfold crypt_update. rewrite !run_bind. destruct (Api.lock B w1) as [w2 [[]|]]; [|done]. cbv beta iota. rewrite !run_bind.
    destruct (get_session B h w2) as [w3 [s|]]; done. }
  rewrite !Eq.
  refine (body_retries h k _ (fun buf l x => if negb buf then len_op B h k (blen d) false x else let! r := run_op B h k (CUpdate d l) x in Api.ok B (OBuf r (blen r))) N1 N2 _ w buf l n).
  intros w1 s sid sl x b l1 n1 Ho Hx Hf Hl He.
  destruct (crypt_body h k w1 s sid sl x b l1 n1 (blen d) false (CUpdate d) Ho Hx Hf Hl) as [X|(x' & X1 & X2 & X3 & X4)]; [done|done|by left|right; eauto].
Qed.
Lemma retries_crypt_final k h : retries h k (c_crypt_final B k h).
Proof.
  intros w buf len n. destruct len as [l|].
  - destruct (no_pre h k) as [N1 N2].
    assert (Eq : forall b l1 w1, c_crypt_final B k h b (Some l1) w1 =
      (Api.lock B;;; skip;;; let! x := cur_op B h k in (if negb b then len_op B h k 0 true x else let! r := run_op B h k (CFinal l1) x in Api.ok B (OBuf r (blen r)))) w1).
    { intros [|] l1 w1; done. }
    rewrite !Eq.
    refine (body_retries h k skip (fun buf l x => if negb buf then len_op B h k 0 true x else let! r := run_op B h k (CFinal l) x in Api.ok B (OBuf r (blen r))) N1 N2 _ w buf l n).
    intros w1 s sid sl x b l1 n1 Ho Hx Hf Hl He.
    destruct (crypt_body h k w1 s sid sl x b l1 n1 0 true CFinal Ho Hx Hf Hl) as [X|(x' & X1 & X2 & X3 & X4)]; [done|done|by left|right; eauto].
  - destruct buf; [|nope].
    change (c_crypt_final B k h true None w) with ((Api.lock B;;; let! x := cur_op B h k in @fail world (N * out) RV_NULL_DEREF) w).
    rewrite !run_bind. destruct (lock_cases w) as [Hlk|Hlk]; rewrite Hlk; [|intros X; exfalso; by apply ends_err in X]. cbv beta iota. rewrite !run_bind.
    destruct (cur_op_cases h k w) as [(x & s & sid & sl & Hc & _)|(e & Hc & He1 & He2)]; rewrite Hc; [nope|intros X; exfalso; by apply ends_err in X].
Qed.
Lemma retries_message k h p a d : retries h k (c_message B k h p a d).
Proof.
  intros w buf len n. destruct p as [p|]; [|nope]. destruct d as [d|]; [|nope]. destruct len as [l|]; [|nope].
  set (R := fun (buf : bool) (l : N) => (Api.lock B;;; let! x := cur_op B h k in ensure (negb (be_busy B x)) CKR_OPERATION_ACTIVE;;;
    if negb buf then len_op B h k (blen d) false x else
    let! r := run_op B h k (CMSingle p (match a with Some a => a | None => [] end) d l) x in Api.ok B (OBuf r (blen r)))).
  assert (Eq : forall b l1 w1, c_message B k h (Some p) a (Some d) b (Some l1) w1 =
    (ensure (negb (blen p =? 0) && negb (blen d =? 0)) CKR_ARGUMENTS_BAD;;; R b l1) w1) by done.
  rewrite !Eq. destruct (negb (blen p =? 0) && negb (blen d =? 0)) eqn:Hz; [|nope].
  change (ends buf (snd (R buf l w)) -> active B (fst (R buf l w)) h k = true /\ R true n (fst (R buf l w)) = R true n w). clear Eq. unfold R.
  destruct (no_pre h k) as [N1 N2].
  refine (body_retries h k skip (fun buf l x =>
    ensure (negb (be_busy B x)) CKR_OPERATION_ACTIVE;;;
    if negb buf then len_op B h k (blen d) false x else
    let! r := run_op B h k (CMSingle p (match a with Some a => a | None => [] end) d l) x in Api.ok B (OBuf r (blen r))) N1 N2 _ w buf l n).
  intros w1 s sid sl x b l1 n1 Ho Hx Hf Hl. rewrite !run_bind. destruct (negb (be_busy B x)) eqn:Hb; [|nope]. cbn [ensure]. unfold ret at 1 2. intros He.
  destruct (crypt_body h k w1 s sid sl x b l1 n1 (blen d) false (CMSingle p (match a with Some a => a | None => [] end) d) Ho Hx Hf Hl) as [X|(x' & X1 & X2 & X3 & X4)]; [done|done|by left|].
  right. exists x'. split; [done|]. split; [done|]. rewrite !run_bind, X3, Hb. exact X4.
Qed.
Lemma retries_message_next k h p d fl : retries h k (fun b l => c_message_next B k h p d b l fl).
Proof.
  intros w buf len n. destruct p as [p|]; [|nope]. destruct d as [d|]; [|nope]. destruct len as [l|]; [|nope].
  set (fin := fl =? CKF_END_OF_MESSAGE).
  set (R := fun (buf : bool) (l : N) => (Api.lock B;;; let! x := cur_op B h k in ensure (be_busy B x) CKR_OPERATION_NOT_INITIALIZED;;;
    if negb buf then len_op B h k (blen d) fin x else
    let! r := run_op B h k (if fin then CMFinal p d l else CMNext p d l) x in Api.ok B (OBuf r (blen r)))).
  assert (Eq : forall b l1 w1, c_message_next B k h (Some p) (Some d) b (Some l1) fl w1 =
    (ensure (negb (blen p =? 0) && negb (blen d =? 0)) CKR_ARGUMENTS_BAD;;; ensure (fin || (fl =? 0)) CKR_ARGUMENTS_BAD;;; R b l1) w1) by done.
  rewrite !Eq. destruct (negb (blen p =? 0) && negb (blen d =? 0)) eqn:Hz; [|nope]. destruct (fin || (fl =? 0)); [|nope].
  change (ends buf (snd (R buf l w)) -> active B (fst (R buf l w)) h k = true /\ R true n (fst (R buf l w)) = R true n w). clear Eq. unfold R.
  destruct (no_pre h k) as [N1 N2].
  refine (body_retries h k skip (fun buf l x =>
    ensure (be_busy B x) CKR_OPERATION_NOT_INITIALIZED;;;
    if negb buf then len_op B h k (blen d) fin x else
    let! r := run_op B h k (if fin then CMFinal p d l else CMNext p d l) x in Api.ok B (OBuf r (blen r))) N1 N2 _ w buf l n).
  intros w1 s sid sl x b l1 n1 Ho Hx Hf Hl. rewrite !run_bind. destruct (be_busy B x) eqn:Hb; [|nope]. cbn [ensure]. unfold ret at 1 2. intros He.
  destruct (crypt_body h k w1 s sid sl x b l1 n1 (blen d) fin (fun l => if fin then CMFinal p d l else CMNext p d l) Ho Hx Hf Hl) as [X|(x' & X1 & X2 & X3 & X4)]; [by destruct fin|done|by left|].
  right. exists x'. split; [done|]. split; [done|]. rewrite !run_bind, X3, Hb. exact X4.
Qed.

(* Signatures and digests: the length is compared here. *)
Lemma out_body h k w s sid sl x buf l (small : N -> M world (N * out)) (y : N -> opcall) (g : bytes -> N -> M world (N * out)) :
  open h w sid sl s -> s_ops s !! k = Some (OpCrypt x) -> be_final B x = false ->
  (forall i, (exists d, y i = CSingle d i) \/ y i = CFinal i) -> (forall i w, fst (small i w) = w) ->
  (forall d i w, code (snd (g d i w)) <> CKR_BUFFER_TOO_SMALL) ->
  let F buf l x := (let! i := lift (be_out_len B x) in if negb buf then Api.ok B (OLen i) else
                    if l <? i then small i else let! r := run_op B h k (y i) x in g r i) in
  ends buf (snd (F buf l x w)) -> fst (F buf l x w) = w.
Proof.
  intros Ho Hx Hf Hy Hs Hg F. subst F. cbv beta. rewrite !run_bind. unfold lift. destruct (be_out_len B x) as [i|e] eqn:Hi; [|done].
  destruct buf; cbn [negb]; [|done]. destruct (l <? i); [intros; apply Hs|]. intros [[X _]|He]; [done|].
  rewrite run_bind, (run_op_eq h k (y i) x w s sid sl Ho) in He |- *.
  destruct (be_call B (y i) x) as [x' [d|e]] eqn:Ec; cbn [fst snd] in He |- *; [by apply Hg in He|].
  cbn [code] in He. subst e. rewrite (rl_out B HB _ _ _ _ Hi (Hy i) Ec). by apply (put_same h k x w s sid sl).
Qed.
Lemma code_token_ready sid w e : snd (token_ready B sid w) = Err e -> e <> CKR_BUFFER_TOO_SMALL.
Proof.
  unfold token_ready, get_slot. cbv [mbind gets ensure initialized]. destruct (negb (w_next w =? 0)); [|intros [= <-]; discriminate].
  cbn [ret]. destruct (w_slots w !! sid) as [sl|]; [|intros [= <-]; discriminate]. cbn [ret].
  destruct (tk_initialized (sl_token sl)); [done|]. intros [= <-]. discriminate.
Qed.
Lemma code_updates h k o d i w : code (snd (op_updates P B h k o (Api.ok B (OBuf d i)) w)) <> CKR_BUFFER_TOO_SMALL.
Proof.
  unfold op_updates. rewrite run_bind. destruct (get_session B h w) as [w1 [s|e]] eqn:Hs.
  2:{ cbn [snd code]. destruct (cur_op_cases h KEnc w) as [(x & s & sid & sl & Hc & Ho & _)|(e' & Hc & He1 & He2)].
      - rewrite (open_session _ _ _ _ _ Ho) in Hs. done.
      - unfold cur_op in Hc. rewrite run_bind, Hs in Hc. by simplify_eq. }
  destruct (s_ops s !! k) as [[l|x]|]; [discriminate| |discriminate].
  destruct (be_updates B x) as [[oh at_]|]; [|discriminate]. cbv zeta. rewrite run_bind.
  pose proof (code_token_ready (s_slot s) w1) as Ht. destruct (token_ready B (s_slot s) w1) as [w2 [[]|e]]; [|by apply Ht].
  cbv beta iota. rewrite run_bind. unfold attempt. destruct (Api.tok B (s_slot s) (set_object_attrs P oh at_) w2) as [w3 [[]|e]]; discriminate.
Qed.
Lemma retries_out h k (small : N -> M world (N * out)) (y : N -> opcall) (g : bytes -> N -> M world (N * out)) :
  (forall i, (exists d, y i = CSingle d i) \/ y i = CFinal i) -> (forall i w, fst (small i w) = w) ->
  (forall d i w, code (snd (g d i w)) <> CKR_BUFFER_TOO_SMALL) ->
  forall w buf l n,
  let f buf l := (Api.lock B;;; let! x := cur_op B h k in let! i := lift (be_out_len B x) in if negb buf then Api.ok B (OLen i) else
                    if l <? i then small i else let! r := run_op B h k (y i) x in g r i) in
  ends buf (snd (f buf l w)) -> active B (fst (f buf l w)) h k = true /\ f true n (fst (f buf l w)) = f true n w.
Proof.
  intros Hy Hs Hg w buf l n. destruct (no_pre h k) as [N1 N2].
  refine (body_retries h k skip (fun buf l x => (let! i := lift (be_out_len B x) in if negb buf then Api.ok B (OLen i) else
                    if l <? i then small i else let! r := run_op B h k (y i) x in g r i)) N1 N2 _ w buf l n).
  intros w1 s sid sl x b l1 n1 Ho Hx Hf Hl He. left. by apply (out_body h k w1 s sid sl x b l1 small y g).
Qed.
Lemma small_ensure (i l : N) (m : M world (N * out)) w :
  (ensure (i <=? l) CKR_BUFFER_TOO_SMALL;;; m) w = (if l <? i then @fail world (N * out) CKR_BUFFER_TOO_SMALL else m) w.
Proof. unfold ensure. rewrite run_bind. destruct (N.leb_spec i l), (N.ltb_spec l i); try done; lia. Qed.
Lemma retries_sign_like h (y : N -> opcall) :
  (forall i, (exists d, y i = CSingle d i) \/ y i = CFinal i) ->
  forall w buf l n,
  let f buf l := (Api.lock B;;; let! x := cur_op B h KSign in let! i := lift (be_out_len B x) in if negb buf then Api.ok B (OLen i) else
                    ensure (i <=? l) CKR_BUFFER_TOO_SMALL;;; let! r := run_op B h KSign (y i) x in
                    op_updates P B h KSign (OBufOnly r) (Api.ok B (OBuf r i))) in
  ends buf (snd (f buf l w)) -> active B (fst (f buf l w)) h KSign = true /\ f true n (fst (f buf l w)) = f true n w.
Proof.
  intros Hy w buf l n.
  pose proof (retries_out h KSign (fun _ => fail CKR_BUFFER_TOO_SMALL) y (fun r i => op_updates P B h KSign (OBufOnly r) (Api.ok B (OBuf r i))) Hy) as R.
  specialize (R ltac:(done) ltac:(intros; apply code_updates) w buf l n). cbv zeta beta in R |- *.
  assert (Eq : forall b l1 w1,
    (Api.lock B;;; let! x := cur_op B h KSign in let! i := lift (be_out_len B x) in if negb b then Api.ok B (OLen i) else
        ensure (i <=? l1) CKR_BUFFER_TOO_SMALL;;; let! r := run_op B h KSign (y i) x in
        op_updates P B h KSign (OBufOnly r) (Api.ok B (OBuf r i))) w1 =
    (Api.lock B;;; let! x := cur_op B h KSign in let! i := lift (be_out_len B x) in if negb b then Api.ok B (OLen i) else
        if l1 <? i then fail CKR_BUFFER_TOO_SMALL else let! r := run_op B h KSign (y i) x in
        op_updates P B h KSign (OBufOnly r) (Api.ok B (OBuf r i))) w1).
  { intros b l1 w1. rewrite !run_bind. destruct (Api.lock B w1) as [w2 [[]|]]; [|done]. cbv beta iota. rewrite !run_bind.
    destruct (cur_op B h KSign w2) as [w3 [x|]]; [|done]. rewrite !run_bind. unfold lift. destruct (be_out_len B x) as [i|]; [|done].
    destruct (negb b); [done|]. apply small_ensure. }
  rewrite !Eq. apply R.
Qed.
Lemma retries_sign h d : retries h KSign (c_sign P B h d).
Proof.
  intros w buf len n. destruct d as [d|]; [|nope]. destruct len as [l|]; [|nope].
  refine (retries_sign_like h (CSingle d) _ w buf l n). intros i. left. by exists d.
Qed.
Lemma retries_sign_final h : retries h KSign (c_sign_final P B h).
Proof.
  intros w buf len n. destruct len as [l|]; [|nope].
  refine (retries_sign_like h CFinal _ w buf l n). intros i. by right.
Qed.
Lemma retries_digest h d : retries h KDigest (c_digest B h d).
Proof.
  intros w buf len n. destruct d as [d|]; [|nope]. destruct len as [l|]; [|nope].
  refine (retries_out h KDigest (fun i => failed B CKR_BUFFER_TOO_SMALL (OLen i)) (CSingle d) (fun r i => Api.ok B (OBuf r i)) _ _ _ w buf l n); [|done|done].
  intros i. left. by exists d.
Qed.
Lemma retries_digest_final h : retries h KDigest (c_digest_final B h).
Proof.
  intros w buf len n. destruct len as [l|]; [|nope].
  refine (retries_out h KDigest (fun i => failed B CKR_BUFFER_TOO_SMALL (OLen i)) CFinal (fun r i => Api.ok B (OBuf r i)) _ _ _ w buf l n); [|done|done].
  intros i. by right.
Qed.
Lemma code_upd_op h k d w : rv_of (snd (upd_op B h k d w)) <> CKR_BUFFER_TOO_SMALL.
Proof.
  unfold upd_op. rewrite run_bind. destruct (cur_op_cases h k w) as [(x & s & sid & sl & Hc & Ho & _)|(e & Hc & He1 & He2)]; rewrite Hc; [|done].
  rewrite run_bind, (run_op_eq h k _ x w s sid sl Ho). destruct (be_call B (CVUpdate d) x) as [x' [o|e]] eqn:Ec; cbn [fst snd]; [discriminate|].
  by apply (rl_update B HB) in Ec.
Qed.
Lemma retries_dual k2 k1 dec h d : k1 <> k2 -> retries h k1 (c_dual B k2 k1 dec h d).
Proof.
  intros Hk w buf len n. destruct d as [d|]; [|nope]. destruct len as [l|]; [|nope].
  destruct (pre_session h k1 (fun s => op_active B s k2)) as [N1 N2].
  { intros x s. unfold op_active, put_op, set_ops. cbn [s_ops]. by rewrite lookup_insert_ne. }
  set (G := fun (b : bytes) (i : N) => (let! q := attempt (upd_op B h k2 (if dec then b else d)) in
     match q with Ok _ => Api.ok B (OBuf b i) | Err e => failed B e (OBuf b i) end) : M world (N * out)).
  set (F := fun (buf : bool) (l : N) x => if negb buf then len_op B h k1 (blen d) false x else let! r := run_op B h k1 (CUpdate d l) x in G r (blen r)).
  assert (Eq : forall b l1 w1, c_dual B k2 k1 dec h (Some d) b (Some l1) w1 =
    (Api.lock B;;; (let! s := get_session B h in ensure (op_active B s k2) CKR_OPERATION_NOT_INITIALIZED);;; let! x := cur_op B h k1 in F b l1 x) w1).
  { intros b l1 w1. unfold c_dual. cbn [nonnull andb].
    change ((Api.lock B;;; let! s := get_session B h in ensure (op_active B s k2) CKR_OPERATION_NOT_INITIALIZED;;;
       let! r := crypt_update B k1 h d b l1 in if negb b then ret r else
       match snd r with OBuf b l => let! q := attempt (upd_op B h k2 (if dec then b else d)) in
                match q with Ok _ => Api.ok B (OBuf b l) | Err e => failed B e (OBuf b l) end | _ => fail CKR_GENERAL_ERROR end) w1 =
     (Api.lock B;;; (let! s := get_session B h in ensure (op_active B s k2) CKR_OPERATION_NOT_INITIALIZED);;; let! x := cur_op B h k1 in F b l1 x) w1).
    rewrite !run_bind. destruct (Api.lock B w1) as [w2 [[]|]]; [|done]. cbv beta iota. rewrite !run_bind.
    destruct (get_session B h w2) as [w3 [s|]]; [|done]. cbv beta iota. rewrite !run_bind. unfold ensure. destruct (op_active B s k2); [|done].
    cbn [ret]. rewrite !run_bind. unfold crypt_update. rewrite !run_bind. destruct (cur_op B h k1 w3) as [w4 [x|]]; [|done].
    unfold F. destruct b; cbn [negb].
    - rewrite !run_bind. destruct (run_op B h k1 (CUpdate d l1) x w4) as [w5 [r|]]; done.
    - by destruct (len_op B h k1 (blen d) false x w4) as [w5 [r|]]. }
  rewrite !Eq. refine (body_retries h k1 _ F N1 N2 _ w buf l n).
  intros w1 s sid sl x b l1 n1 Ho Hx Hf Hl He. unfold F in *. destruct b; cbn [negb] in *.
  - right. destruct He as [[X _]|He]; [done|].
    destruct (retries_run h k1 x w1 s sid sl (CUpdate d) (fun r => G r (blen r)) l1 n1 Ho Hx Hf Hl) as (x' & R1 & R2 & R3 & R4 & R5); [done| |done|].
    { intros o w2. unfold G. rewrite run_bind. unfold attempt. pose proof (code_upd_op h k2 (if dec then o else d) w2) as X.
      destruct (upd_op B h k2 (if dec then o else d) w2) as [w3 [[]|e]]; [discriminate|exact X]. }
    exists x'. split; [done|]. split; [done|]. rewrite !run_bind, R5. done.
  - left. by apply (len_eq h k1 (blen d) false x w1 s sid sl false).
Qed.
End buf.

(* C33.  For every mechanism that keeps the law of BufSpec.v: after a call that asked for a length (null buffer,
   CKR_OK) or returned CKR_BUFFER_TOO_SMALL the operation is active, and the same call with any buffer has exactly the
   outcome (return value, output and new state) it would have had instead of the first one.  (Partial: of the
   mechanisms, the law is proved for AES below, with exceptions; the others are not modelled.) *)
Theorem C33_retry_partial P B E : retry_law B ->
  forall w c n h k c', with_room c n = Some (h, k, c') ->
  asks_length c = true /\ rv P B E w c = CKR_OK \/ rv P B E w c = CKR_BUFFER_TOO_SMALL ->
  active B (after P B E w c) h k = true /\ step P B E (after P B E w c) c' = step P B E w c'.
Proof.
  intros HB w c n h k c' Hc He.
  assert (X : exists f, retries B h k f /\ (exists b l, api P B E c = f b l /\ asks_length c = negb b) /\ api P B E c' = f true (Some n)).
  { destruct c; try discriminate Hc; injection Hc as <- <- <-.
    all: match goal with
      | |- context [api _ _ _ (Sign ?h ?d _ _)] => exists (c_sign P B h d); split; [by apply retries_sign|]
      | |- context [api _ _ _ (SignFinal ?h _ _)] => exists (c_sign_final P B h); split; [by apply retries_sign_final|]
      | |- context [api _ _ _ (Digest ?h ?d _ _)] => exists (c_digest B h d); split; [by apply retries_digest|]
      | |- context [api _ _ _ (DigestFinal ?h _ _)] => exists (c_digest_final B h); split; [by apply retries_digest_final|]
      | |- context [api _ _ _ (Encrypt ?h ?d _ _)] => exists (c_crypt B KEnc h d); split; [by apply retries_crypt|]
      | |- context [api _ _ _ (Decrypt ?h ?d _ _)] => exists (c_crypt B KDec h d); split; [by apply retries_crypt|]
      | |- context [api _ _ _ (EncryptUpdate ?h ?d _ _)] => exists (c_crypt_update B KEnc h d); split; [by apply retries_crypt_update|]
      | |- context [api _ _ _ (DecryptUpdate ?h ?d _ _)] => exists (c_crypt_update B KDec h d); split; [by apply retries_crypt_update|]
      | |- context [api _ _ _ (EncryptFinal ?h _ _)] => exists (c_crypt_final B KEnc h); split; [by apply retries_crypt_final|]
      | |- context [api _ _ _ (DecryptFinal ?h _ _)] => exists (c_crypt_final B KDec h); split; [by apply retries_crypt_final|]
      | |- context [api _ _ _ (EncryptMessage ?h ?p ?a ?d _ _)] => exists (c_message B KMsgEnc h p a d); split; [by apply retries_message|]
      | |- context [api _ _ _ (DecryptMessage ?h ?p ?a ?d _ _)] => exists (c_message B KMsgDec h p a d); split; [by apply retries_message|]
      | |- context [api _ _ _ (EncryptMessageNext ?h ?p ?d _ _ ?f)] => exists (fun b l => c_message_next B KMsgEnc h p d b l f); split; [by apply retries_message_next|]
      | |- context [api _ _ _ (DecryptMessageNext ?h ?p ?d _ _ ?f)] => exists (fun b l => c_message_next B KMsgDec h p d b l f); split; [by apply retries_message_next|]
      | |- context [api _ _ _ (DigestEncryptUpdate ?h ?d _ _)] => exists (c_dual B KDigest KEnc false h d); split; [by apply retries_dual|]
      | |- context [api _ _ _ (DecryptDigestUpdate ?h ?d _ _)] => exists (c_dual B KDigest KDec true h d); split; [by apply retries_dual|]
      | |- context [api _ _ _ (SignEncryptUpdate ?h ?d _ _)] => exists (c_dual B KSign KEnc false h d); split; [by apply retries_dual|]
      | |- context [api _ _ _ (DecryptVerifyUpdate ?h ?d _ _)] => exists (c_dual B KVerify KDec true h d); split; [by apply retries_dual|]
      end; (split; [do 2 eexists; split; reflexivity|reflexivity]). }
  destruct X as (f & Hf & (b & l & Ea & Hb) & Ea').
  destruct (Hf w b l n) as [H1 H2].
  - rewrite Hb in He. unfold rv, step in He. rewrite Ea in He. destruct (f b l w) as [w' [[rv o]|e]]; cbn [fst snd] in *.
    + destruct He as [[Hn He]|He]; [left|right; done]. split; [by destruct b|done].
    + destruct He as [[Hn He]|He]; [left|right; done]. split; [by destruct b|done].
  - assert (Ew : after P B E w c = fst (f b l w)).
    { unfold after, step. rewrite Ea. by destruct (f b l w) as [w' [?|?]]. }
    rewrite Ew. split; [done|]. unfold step. by rewrite Ea', H2.
Qed.

Notation toy_after := (after toy toy_be toy_env).
(* The toy mechanisms follow the law. *)
Lemma toy_retry : retry_law toy_be.
Proof.
  constructor.
  - intros x n fin x' r H _. cbn in H. congruence.
  - intros c x x' Hf H. cbn [be_call toy_be be_final be_busy be_out_len] in *.
    assert (x' = x) as ->.
    { destruct c; cbn [toy_call] in H; try congruence.
      - destruct (ty_kind x); repeat case_match; try congruence.
      - case_match; congruence.
      - destruct (ty_kind x); congruence.
      - case_match; try congruence; injection H as _ H; done.
      - case_match; try congruence; injection H as _ H; done. }
    done.
  - intros c x x' i Hi Hc H. cbn [be_call toy_be be_out_len] in *. injection Hi as <-.
    destruct Hc as [[d ->]| ->]; cbn [toy_call] in H; destruct (ty_kind x); try case_match; congruence.
  - intros d x x' e H. cbn in H. congruence.
Qed.
(* A signature begun by 2 bytes in session 2: asked for its length, then given 3 bytes, then 4. *)
Definition small : call := SignFinal 2 true (Some 3).
Example C33_case :
  toy_rv w20 (SignFinal 2 false (Some 0)) = CKR_OK /\ toy_out w20 (SignFinal 2 false (Some 0)) = OLen 4 /\
  toy_rv w20 small = CKR_BUFFER_TOO_SMALL /\ active toy_be (toy_after w20 small) 2 KSign = true /\
  toy_rv (toy_after w20 small) (SignFinal 2 true (Some 4)) = CKR_OK /\
  toy_out (toy_after w20 small) (SignFinal 2 true (Some 4)) = toy_out w20 (SignFinal 2 true (Some 4)) /\
  toy_out w20 (SignFinal 2 true (Some 4)) <> ONone.
Proof. split_and!; try (vm_compute; reflexivity). vm_compute. intros [=]. Qed.

(* The repeated call has to find out the length by itself: C_SignFinal, unlike C_DigestFinal, does not tell it with
   CKR_BUFFER_TOO_SMALL. *)
Theorem C33_length_refuted :
  exists w, from_scratch toy toy_be toy_env w /\
  toy_rv w (SignFinal 2 true (Some 3)) = CKR_BUFFER_TOO_SMALL /\ toy_out w (SignFinal 2 true (Some 3)) = ONone /\
  toy_rv w (DigestFinal 3 true (Some 3)) = CKR_BUFFER_TOO_SMALL /\ toy_out w (DigestFinal 3 true (Some 3)) = OLen 4.
Proof.
  exists (fst (toy_run toy_user (begun ++ [DigestInit 3 (Some (CKM_SHA256, None)); DigestUpdate 3 (Some [1])]))).
  split; [apply toy_user_scratch|]. split_and!; vm_compute; reflexivity.
Qed.
