(* C29: changing PINs never loses stored secrets, and a value moved to the record of another object is not read. *)
From Verif Require Import Base Monad Hoare Attr Obj Factory Tables Create Sqlite Storage Token Backend State Api Toy
  ObjSpec PlainSpec Rows ObjOk ObjNew Triple TokInv TokStep TokWp TokAuth PlainFacts Spec WorldWp Sessions SessionInv SessionFacts ObjWorld ObjView ObjFacts Errors ToyFacts ThmObjects
  AuthSpec Users AuthFacts AuthInv AuthPins AuthTry ThmAuth KeyFacts.

(* What is assumed of the sealing of values under the key of the token: it can be undone, for the object it was made for only. *)
Record value_laws (P : params) : Prop := ValueLaws {
  vl_open : forall v k uid r x e, p_seal P v k uid r x = Ok e -> p_open P v k uid e = Ok x;
  vl_bound : forall v k uid r x e v' k' uid', p_seal P v k uid r x = Ok e -> uid' <> uid -> exists c, p_open P v' k' uid' e = Err c }.

Section keys.
Context (P : params) (B : backend) (E : N -> keyenv) (Hfs : p_fs P = all_factories) (Hutf : forall n, utf8_valid (p_uuid P n) = true).
Context (HL : pin_laws P) (HS : sane (fun e => plain_code e = true) P B E).
Notation world := (world B). Notation winv := (winv B). Notation token_of := (token_of B). Notation after := (after P B E).
Notation rv := (rv P B E). Notation logged := (logged B). Notation slot_of := (slot_of B). Notation run := (run P B E).
Notation end_of := (end_of P B E). Notation pin_of := (pin_of P B E).

Lemma run_app cs cs' : forall w, fst (run w (cs ++ cs')) = fst (run (fst (run w cs)) cs').
Proof.
  induction cs as [|c cs IH]; intros w; [done|]. cbn [app Api.run]. destruct (step P B E w c) as [w1 o]. specialize (IH w1).
  destruct (run w1 (cs ++ cs')) as [w2 os] eqn:H2. destruct (run w1 cs) as [w3 os3] eqn:H3. cbn [fst] in *. by rewrite IH.
Qed.
Lemma own_of cs : forallb steady cs = true -> winv (end_of cs) /\ own_disks B (end_of cs).
Proof. apply (own_run P B E Hfs Hutf); [apply (start_winv P B E Hfs Hutf)|apply start_own]. Qed.

(* C29: any calls by anyone, restarts and crashes included, with no re-initialisation of the token: whenever a key is in
   memory again, it is the same. *)
Theorem C29_same_key cs cs' sid t t' k k' : forallb steady (cs ++ cs') = true -> unwiped P B E (end_of cs) cs' sid = true ->
  token_of (end_of cs) sid = Some t -> t_key t = Some k -> token_of (end_of (cs ++ cs')) sid = Some t' -> t_key t' = Some k' ->
  k' = k /\ t_ver t' = t_ver t.
Proof.
  intros Hst Hun T1 Hk T2 Hk'. rewrite forallb_app in Hst. apply andb_prop in Hst as [Hs1 Hs2]. destruct (own_of cs Hs1) as [Hw Ho].
  destruct (end_pins P B E Hfs Hutf HL HS cs sid Hs1) as (v & k0 & HK).
  pose proof (pins_run P B E Hfs Hutf HL HS v k0 cs' _ sid _ Hw Ho Hs2 Hun HK) as HK'.
  unfold ThmAuth.end_of in T2. rewrite run_app in T2. fold (end_of cs) in T2.
  rewrite (view_token _ _ _ _ T1) in HK. rewrite (view_token _ _ _ _ T2) in HK'.
  destruct (po_key _ _ _ _ _ HK k Hk) as (-> & V1 & _). destruct (po_key _ _ _ _ _ HK' k' Hk') as (-> & V2 & _). cbn [tview v_ver] in V1, V2. split; congruence.
Qed.
(* So the plain value of every attribute of every record that was not written to is the same, whatever handles name it. *)
Theorem C29_secrets_kept cs cs' sid t t' h h' uid : forallb steady (cs ++ cs') = true -> unwiped P B E (end_of cs) cs' sid = true ->
  token_of (end_of cs) sid = Some t -> t_key t <> None -> token_of (end_of (cs ++ cs')) sid = Some t' -> t_key t' <> None ->
  is_session_object t h = false -> is_session_object t' h' = false -> object_id t h = Some uid -> object_id t' h' = Some uid ->
  (forall ty, attr_of t' h' ty = attr_of t h ty) -> forall ty, value_of P t' h' ty = value_of P t h ty.
Proof.
  intros Hst Hun T1 Hk T2 Hk' Hs Hs' Hi Hi' Ha ty. destruct (t_key t) as [k|] eqn:K1; [|done]. destruct (t_key t') as [k'|] eqn:K2; [|done].
  destruct (C29_same_key _ _ _ _ _ _ _ Hst Hun T1 K1 T2 K2) as [-> Hv].
  assert (factory_of P t' h' = factory_of P t h) as Hf. { unfold factory_of, kind_of, class_of, num_of. by rewrite !Ha. }
  unfold value_of. rewrite Ha, Hs, Hs', Hf, Hi, Hi', K1, K2, Hv. done.
Qed.

(* The calls of a history leave an object alone. *)
Fixpoint let_be (w : world) (cs : list call) (sid h : N) : Prop :=
  match cs with [] => True | c :: r => ~ about B w c sid h /\ let_be (after w c) r sid h end.
Lemma let_be_same cs : forall w sid h u, winv w -> own_ok B w -> id_at B w sid h = Some u -> let_be w cs sid h -> same_object B w (fst (run w cs)) sid h.
Proof.
  induction cs as [|c cs IH]; intros w sid h u Hw Ho Hi Hl; [by split_and!|]. destruct Hl as [Hc Hl].
  pose proof (unaffected P B E Hfs Hutf w c sid h u Hw Ho Hi Hc) as (S1 & S2 & S3 & S4).
  assert (same_object B (after w c) (fst (run (after w c) cs)) sid h) as (R1 & R2 & R3 & R4).
  { apply (IH _ _ _ u); [by apply (after_winv P B E Hfs Hutf)|by apply (ObjFacts.after_own P B E Hfs Hutf)|congruence|done]. }
  assert (fst (run w (c :: cs)) = fst (run (after w c) cs)) as ->. { cbn [Api.run]. unfold Spec.after. destruct (step P B E w c) as [w1 o]. cbn [fst]. by destruct (run w1 cs). }
  split_and!; [congruence|congruence|congruence|]. intros ty. rewrite R4. apply S4.
Qed.
(* C29: after any PIN changes (and other calls) that leave an object alone, either user, logging in with the PIN set last
   for them, reads every value of it as it was. The last four conditions are those under which C08 says that the login
   succeeds. *)
Theorem C29_login_reads cs cs' sid t h s u p n : forallb steady (cs ++ cs') = true -> unwiped P B E (end_of cs) cs' sid = true ->
  token_of (end_of cs) sid = Some t -> t_key t <> None -> object_id t h <> None -> is_session_object t h = false -> let_be (end_of cs) cs' sid h ->
  let w := end_of (cs ++ cs') in is_user u = true -> slot_of w s = Some sid -> pin_of (cs ++ cs') sid u = Some p ->
  logged w sid = Some KRY_UNSPEC -> failures B w sid u = Some n -> n < 10 -> healthy B w sid = true ->
  (u = CKU_SO -> ~ ro_open B w sid) ->
  (forall h' s, session_of B w h' = Some s -> s_slot s = sid -> In (s_state s) [CKS_RO_PUBLIC_SESSION; CKS_RW_PUBLIC_SESSION]) ->
  rv w (Login s u (Some p)) = CKR_OK /\ exists t', token_of (after w (Login s u (Some p))) sid = Some t' /\
    object_id t' h = object_id t h /\ forall ty, value_of P t' h ty = value_of P t h ty.
Proof.
  intros Hst Hun T1 Hk Hid Hso Hlb w Hu Hs Hp Hl Hn Hlt Hh Hro Hpub.
  destruct (C08_right_pin_logs_in P B E Hfs Hutf HL HS (cs ++ cs') s sid u p n Hst Hu Hs Hl Hp Hn Hlt Hh Hro Hpub) as [Hr _]. fold w in Hr. split; [done|].
  destruct (own_of (cs ++ cs') Hst) as [Hw _]. fold w in Hw.
  destruct (login_key P B E Hutf w s u (Some p) sid Hw Hs Hu Hr) as (t' & k' & T2 & K2). exists t'. split; [done|].
  set (L := Login s u (Some p)) in *. assert (end_of (cs ++ cs' ++ [L]) = after w L) as Hend.
  { unfold ThmAuth.end_of. rewrite app_assoc, (run_app (cs ++ cs')). fold (end_of (cs ++ cs')). fold w. cbn [Api.run]. unfold Spec.after. by destruct (step P B E w L). }
  assert (from_scratch P B E (end_of cs)) as Hsc by (by exists cs).
  destruct (object_id t h) as [uid|] eqn:Hi; [|done]. assert (id_at B (end_of cs) sid h = Some uid) as Hia by (unfold id_at; by rewrite T1).
  assert (owner_at B (end_of cs) sid h = None) as Hown. { unfold owner_at. rewrite T1. unfold owner. unfold is_session_object in Hso. by destruct (t_sobjs t !! h). }
  assert (fst (run (end_of cs) cs') = w) as Hrw. { unfold w, ThmAuth.end_of. by rewrite run_app. }
  pose proof (let_be_same cs' _ sid h uid (scratch_winv P B E Hfs Hutf _ Hsc) (scratch_own P B E Hfs Hutf _ Hsc) Hia Hlb) as (S1 & S2 & S3 & S4). rewrite Hrw in S1, S2, S3, S4.
  assert (from_scratch P B E w) as Hscw by (by exists (cs ++ cs')).
  assert (same_object B w (after w L) sid h) as (R1 & R2 & R3 & R4).
  { apply (unaffected P B E Hfs Hutf w L sid h uid); [done|by apply (scratch_own P B E Hfs Hutf)|congruence|]. cbn [about L]. intros (_ & X & _). congruence. }
  unfold id_at, session_object_at, attr_at in *. rewrite T1 in *. rewrite T2 in *. rewrite R1, S1, Hi. split; [done|]. intros ty.
  apply (C29_secrets_kept cs (cs' ++ [L]) sid t t' h h uid); try done.
  - rewrite app_assoc, forallb_app, Hst. done.
  - clear -Hun. revert Hun. generalize (end_of cs). induction cs' as [|c r IH]; intros w0; [done|]. cbn [app unwiped]. intros [H1 H2]%andb_prop. rewrite H1. cbn [andb]. by apply IH.
  - by rewrite Hend.
  - congruence.
  - congruence.
  - congruence.
  - intros ty'. rewrite R4, S4. done.
Qed.

(* C29: reading an attribute of a record in which the value of the attribute was sealed for another object fails,
   whatever key sealed it and whatever key the token has: in the storage, so for every call that uses the value, and in
   C_GetAttributeValue in particular. *)
Theorem C29_moved (HV : value_laws P) t h uid uid' f ty a v k r x : uid_unique (t_db t) -> is_session_object t h = false ->
  object_id t h = Some uid' -> factory_of P t h = Some f -> In ty (f_sensitive f) -> attr_of t h ty = Some a ->
  p_seal P v k uid r x = Ok (a_val a) -> uid' <> uid ->
  (forall l, l = [] \/ In ty l -> exists e, snd (st_fetch P h l t) = Err e) /\
  (forall l, In ty (map q_type l) -> exists e, snd (get_object_attrs P h l t) = Err e).
Proof.
  intros Hun Hso Hid Hf Hty Ha Hse Hne. unfold is_session_object in Hso. destruct (t_sobjs t !! h) as [|] eqn:Hs; [done|]. clear Hso.
  assert (forall l, l = [] \/ In ty l -> wp (st_fetch P h l) t (fun _ r => exists e, r = Err e)) as Hfetch.
  { intros l Hl. apply wp_st_fetch; [|intros; eauto]. intros i o (u & o1 & f1 & o2 & F1 & F2 & F3 & F4 & _). exfalso.
    destruct (fetch_get _ _ _ _ F2) as (j & m & M1 & M2 & M3 & _). assert (rows_of (t_db t) u = Some m) as Hm by (apply rows_of_some; eauto).
    unfold object_id in Hid. rewrite Hs, F1, Hm in Hid. injection Hid as ->.
    assert (forall y, selected (fetch_types l) y = true -> get_attr o1 y = attr_of t h y) as Hsel. { intros y Hy. unfold attr_of. rewrite Hs, F1, Hm. by apply M3. }
    assert (forall y, In y [CKA_CLASS; CKA_KEY_TYPE; CKA_CERTIFICATE_TYPE; CKA_SENSITIVE; CKA_EXTRACTABLE] -> get_attr o1 y = attr_of t h y) as Hb.
    { intros y Hy. apply Hsel. apply fetch_types_basic. by left. }
    destruct (fetch_pre _ _ _ _ F2) as [Hp _]. destruct (shows_of P t h o1 Hp Hb) as (_ & S2 & _). rewrite Hf, F3 in S2. injection S2 as <-.
    pose proof (obj_factory_good P Hfs _ _ F3) as Hg.
    assert (get_attr o1 ty = Some a) as Hga. { rewrite Hsel; [done|]. destruct Hl as [->|Hl]; [done|]. apply fetch_types_basic. by right. }
    pose proof (decrypt_value P _ _ _ _ _ _ ty (fun t Hin => proj1 (proj2 (good_sens f t Hg Hin))) (proj1 (good_nodup f Hg)) F4 Hty) as Hv. rewrite Hga in Hv.
    destruct Hv as (k' & y & _ & Hop & _). destruct (vl_bound _ HV _ _ _ _ _ _ (t_ver t) k' uid' Hse Hne) as [c Hc]. congruence. }
  split; [intros l Hl; exact (Hfetch l Hl)|]. intros l Hl.
  assert (wp (get_object_attrs P h l) t (fun _ r => exists e, r = Err e)) as Hwp; [|exact Hwp].
  unfold get_object_attrs, get_or_fetch. apply wp_bind, wp_gets. cbv zeta. apply wp_bind, wp_bind, wp_gets. rewrite Hs.
  eapply wp_mono; [apply Hfetch; right; apply in_app_iff; by left|]. cbv beta. intros t1 r1 [e ->]. eauto.
Qed.
End keys.

(* ---- cases ---- *)
Lemma toy_value_laws : value_laws toy.
Proof.
  split.
  - intros v k uid r x e. intros H. injection H as <-. cbn [p_open toy]. change 5%nat with (length [[v]; k; uid; be 8 r; x]). rewrite unblob_blob. unfold bytes_eqb. by rewrite !bool_decide_true.
  - intros v k uid r x e v' k' uid' H Hne. injection H as <-. cbn [p_open toy]. change 5%nat with (length [[v]; k; uid; be 8 r; x]). rewrite unblob_blob.
    assert (bytes_eqb uid uid' = false) as ->; [|rewrite andb_false_r; eauto]. unfold bytes_eqb. apply bool_decide_false. congruence.
Qed.
(* A key is stored by the user; then the user changes the PIN, the SO changes theirs, sets the PIN of the user, and both
   change theirs again, with a wrong attempt in between. *)
Definition p1 : bytes := [1; 1; 1; 1]. Definition p2 : bytes := [2; 2; 2; 2]. Definition p3 : bytes := [3; 3; 3; 3]. Definition p4 : bytes := [4; 4; 4; 4].
Definition stored29 : list call := home ++ [good; CreateObject 2 (Some (aes_tmpl true)) true].
Definition pins29 : list call :=
  [SetPIN 2 (Some user_pin) (Some p1); Logout 2; SetPIN 2 (Some p1) (Some p2); Login 2 CKU_SO (Some so_pin); SetPIN 2 (Some so_pin) (Some p3); InitPIN 2 (Some p4);
   Logout 2; Login 2 CKU_USER (Some p2)].
Definition secret29 : option bytes := Some (repeat 9 16).
Definition peek29 (w : State.world toy_be) : option bytes := match Spec.token_of toy_be w 0 with Some t => value_of toy t 10 CKA_VALUE | None => None end.
Example C29_case : forallb steady (stored29 ++ pins29) = true /\ unwiped toy toy_be toy_env (toy_end stored29) pins29 0 = true /\
  toy_rv (toy_end (stored29 ++ pins29)) (Login 2 CKU_USER (Some p2)) = CKR_PIN_INCORRECT /\
  map (pin_of toy toy_be toy_env (stored29 ++ pins29) 0) [CKU_SO; CKU_USER] = [Some p3; Some p4] /\ peek29 (toy_end stored29) = secret29 /\
  peek29 (toy_end (stored29 ++ pins29)) = None /\
  map (fun up => peek29 (after toy toy_be toy_env (toy_end (stored29 ++ pins29)) (Login 2 (fst up) (Some (snd up))))) [(CKU_SO, p3); (CKU_USER, p4)] = [secret29; secret29].
Proof. split_and!; vm_compute; reflexivity. Qed.
(* The hypotheses of the theorems hold of this history. *)
Example C29_case_let_be : let_be toy toy_be toy_env (toy_end stored29) pins29 0 10.
Proof.
  assert (forall w, owner_at toy_be w 0 10 = None -> forall P : Prop, ~ (P /\ owner_at toy_be w 0 10 <> None /\ bool_at toy_be w 0 10 CKA_PRIVATE <> Some false)) as H by (intros w -> Q (_ & X & _); done).
  unfold pins29. cbn [let_be about]. repeat (split; [first [intros []; fail|apply H; vm_compute; reflexivity|intros X; exact X]|]). exact I.
Qed.
(* Someone who can write to the database replaces the value of one key by that of another. *)
Definition tampered (i ty : N) (v : sqlval) (t : token) : token :=
  set_db (Db (d_tables (t_db t)) (alter (<[ty := v]>) i (d_objs (t_db t))) (d_meta (t_db t))) t.
Lemma tampered_unique i ty v t : ty <> CKA_UNIQUE_ID -> uid_unique (t_db t) -> uid_unique (t_db (tampered i ty v t)).
Proof.
  intros Hne Hu. assert (forall j m, alter (<[ty := v]>) i (d_objs (t_db t)) !! j = Some m -> exists m0, d_objs (t_db t) !! j = Some m0 /\ m !! CKA_UNIQUE_ID = m0 !! CKA_UNIQUE_ID) as Hj.
  { intros j m. destruct (decide (i = j)) as [<-|Hij]; [rewrite lookup_alter|rewrite lookup_alter_ne by done; eauto].
    destruct (d_objs (t_db t) !! i) as [m0|]; cbn; [|done]. intros X. injection X as <-. exists m0. split; [done|]. by rewrite lookup_insert_ne. }
  intros a b m1 m2 u H1 H2 H3 H4. destruct (Hj _ _ H1) as (n1 & N1 & N2). destruct (Hj _ _ H2) as (n2 & N3 & N4). apply (Hu a b n1 n2 u); congruence.
Qed.
Definition two29 : list call := stored29 ++ [CreateObject 2 (Some [tulong CKA_CLASS CKO_SECRET_KEY; tulong CKA_KEY_TYPE CKK_AES; tbool CKA_TOKEN true; tbool CKA_SENSITIVE false; tbool CKA_EXTRACTABLE true; ca CKA_VALUE (repeat 7 16)]) true].
Definition stolen29 (t : token) : token :=
  match attr_of t 10 CKA_VALUE with Some a => tampered 2 CKA_VALUE (SBlob (a_val a)) t | None => t end.
Definition at29 {A} (f : token -> A) (d : A) : A := match Spec.token_of toy_be (toy_end two29) 0 with Some t => f t | None => d end.
Definition ask29 : list qattr := [QAttr CKA_VALUE None 0].
Definition code29 (r : result (list qattr * N)) : N := match r with Ok (_, c) => c | Err e => e end.
Example C29_case_moved :
  at29 (fun t => (code29 (snd (get_object_attrs toy 11 ask29 t)), value_of toy t 11 CKA_VALUE)) (1, None) = (CKR_OK, Some (repeat 7 16)) /\
  at29 (fun t => (code29 (snd (get_object_attrs toy 11 ask29 (stolen29 t))), value_of toy (stolen29 t) 11 CKA_VALUE)) (0, None) = (CKR_GENERAL_ERROR, None) /\
  at29 (fun t => (is_session_object (stolen29 t) 11, bool_decide (object_id (stolen29 t) 11 = object_id t 10), match factory_of toy (stolen29 t) 11 with Some f => existsb (N.eqb CKA_VALUE) (f_sensitive f) | None => false end,
    bool_decide (a_val <$> attr_of (stolen29 t) 11 CKA_VALUE = a_val <$> attr_of t 10 CKA_VALUE))) (true, true, false, false) = (false, false, true, true).
Proof. split_and!; vm_compute; reflexivity. Qed.
