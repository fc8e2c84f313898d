(* C19: object search. *)
From Verif Require Import Base Monad Hoare Attr Obj Factory Tables Create Sqlite Storage Token Backend State Api Toy
  ObjSpec Spec PlainSpec SearchSpec TokInv WorldWp Sessions SessionInv SessionFacts ObjWorld Errors ObjFacts ObjCalls ToyFacts ThmObjects SearchFacts.

(* The handles in the trace of C_FindObjects calls. *)
Definition delivered (tr : list (N * out)) : list N := concat (map (fun p => match snd p with OHandles l => l | _ => [] end) tr).
Definition sum (l : list N) : N := foldr N.add 0 l.

Section c19.
Context (P : params) (B : backend) (E : N -> keyenv).
Context (Hfs : p_fs P = all_factories) (Hutf : forall n, utf8_valid (p_uuid P n) = true).
Notation world := (world B). Notation from_scratch := (from_scratch P B E). Notation after := (after P B E). Notation rv := (rv P B E).
Notation answer := (answer P B E). Notation slot_of := (slot_of B). Notation token_of := (token_of B). Notation run := (run P B E).

(* The session has a search with the handles hs still to be delivered. *)
Definition searching (w : world) (s : N) (hs : list N) : Prop :=
  exists se, session_of B w s = Some se /\ check_login_status B se = Ok tt /\ s_ops se !! KSearch = Some (OpSearch hs).
Lemma find_init w s tm cnt sid t o : winv B w -> slot_of w s = Some sid -> token_of w sid = Some t -> Forall plain_entry (default [] tm) -> ids_apart t -> one_class t ->
  let c := FindObjectsInit s tm cnt in answer w c = Ok (CKR_OK, o) ->
  exists hs t', searching (after w c) s hs /\ token_of (after w c) sid = Some t' /\ finds P t' (default [] tm) hs.
Proof.
  intros Hw Hsl Htk Hp Hap H1 c Ha.
  cut (match answer w c with Ok _ => exists hs t', searching (after w c) s hs /\ token_of (after w c) sid = Some t' /\ finds P t' (default [] tm) hs | Err _ => True end).
  { by rewrite Ha. }
  apply (call_wp P B E c w (fun w' r => match r with Ok _ => exists hs t', searching w' s hs /\ token_of w' sid = Some t' /\ finds P t' (default [] tm) hs | Err _ => True end)).
  cbn [api c]. unfold c_find_objects_init. wp_step. wp_step; [|done]. wp_step. wp_step; [|done].
  rename s0 into se, H2 into Hm, H3 into Hsl', H4 into Hse. assert (sid0 = sid) as -> by (unfold Spec.slot_of in Hsl; congruence).
  assert (s_slot se = sid) as Hss. { apply (so_sessions _ _ _ _ _ (si_slots _ _ (wi_inv _ _ Hw) _ _ Hsl') _ _ Hse). }
  rewrite Hss. wp_step. wp_step; [|done]. wp_step. apply wp_tmpl_of; [|done]. wp_step. wp_step; [|done]. wp_step. wp_step.
  assert (sl_token sl = t) as -> by (unfold Spec.token_of in Htk; rewrite Hsl' in Htk; by injection Htk).
  assert (tok_ok t) as Ht. { unfold Spec.token_of in Htk. rewrite Hsl' in Htk. injection Htk as <-. apply (wo_slots _ _ (wi_ok _ _ Hw) _ _ Hsl'). }
  apply (wp_search_objects P Hfs); try done. intros t' hs Ht' _ Hf. cbv beta iota. wp_step. wp_step; [|done]. try wp_step.
  change (w_smap (with_slot B sid (put_token B t' sl) w)) with (w_smap w) in *. assert (sid0 = sid) as -> by congruence. rewrite with_slot_lookup in *.
  match goal with H : Some (put_token _ _ _) = Some _ |- _ => injection H as <- end. exists hs, t'. split_and!; [|unfold Spec.token_of; by rewrite with_slot_lookup|done].
  exists (set_operation B KSearch (OpSearch hs) false se). split_and!; [|done|by cbn; rewrite lookup_insert].
  unfold session_of. cbn [w_smap with_slot set_slots]. rewrite Hm, with_slot_lookup. cbn [put_sessions put_token sl_sessions]. by rewrite lookup_alter, Hse.
Qed.
Lemma find_next w s hs m : sess_inv B w -> searching w s hs -> let n := N.to_nat (N.min m (N.of_nat (length hs))) in
  step P B E w (FindObjects s true m true) = (after w (FindObjects s true m true), (CKR_OK, OHandles (firstn n hs))) /\ searching (after w (FindObjects s true m true)) s (skipn n hs).
Proof.
  intros HI (se & S1 & S2 & S3) n. destruct (session_of_inv B w s se HI S1) as (sl & A1 & A2 & A3 & _ & A5 & _).
  assert (exists w', api P B E (FindObjects s true m true) w = (w', Ok (CKR_OK, OHandles (firstn n hs))) /\ searching w' s (skipn n hs)) as (w' & Hw & Hs).
  { cbn [api]. unfold c_find_objects. cbn [andb]. rewrite run_bind. cbn [ensure ret]. rewrite run_bind, (lock_eq B w A5), run_bind, (get_session_eq B s (s_slot se) sl se w A5 A1 A2 A3), run_bind.
    unfold lift. unfold get_operation. rewrite S2. cbn [rbind]. unfold get_op. rewrite S3. cbn [op_final ret]. rewrite run_bind, (upd_session_eq B s _ (s_slot se) sl w A5 A1 A2).
    eexists. split; [reflexivity|].
    exists (put_op B KSearch (OpSearch (skipn n hs)) se). split_and!; [|done|by cbn; rewrite lookup_insert].
    unfold session_of. cbn [w_smap with_slot set_slots]. rewrite A1, with_slot_lookup. cbn [put_sessions sl_sessions]. by rewrite lookup_alter, A3. }
  unfold Spec.after, step. rewrite Hw. done.
Qed.
Definition finding (s : N) (maxes : list N) : list call := map (fun m => FindObjects s true m true) maxes.
Lemma find_many w s hs maxes : winv B w -> searching w s hs -> let tr := snd (run w (finding s maxes)) in
  Forall (fun p => fst p = CKR_OK) tr /\ delivered tr = firstn (N.to_nat (sum maxes)) hs.
Proof.
  revert w hs. induction maxes as [|m maxes IH]; intros w hs Hw Hs.
  { cbn. split; [constructor|done]. }
  destruct (find_next w s hs m (wi_inv _ _ Hw) Hs) as [H1 H2]. cbv zeta in *.
  specialize (IH _ _ (after_winv P B E Hfs Hutf w _ Hw) H2). destruct IH as [I1 I2].
  unfold finding in *. cbn [map Api.run]. rewrite H1. destruct (run (after w _) _) as [w' tr] eqn:Hr. cbn [snd] in *.
  split; [by constructor|]. unfold delivered in *. cbn [map concat snd]. rewrite I2. cbn [sum foldr]. fold (sum maxes).
  set (n := N.to_nat (N.min m (N.of_nat (length hs)))). destruct (N.le_gt_cases m (N.of_nat (length hs))).
  - assert (N.to_nat (m + sum maxes) = (n + N.to_nat (sum maxes))%nat) as -> by lia. rewrite <- (firstn_skipn n hs) at 3.
    rewrite firstn_app, firstn_firstn, firstn_length. f_equal; [f_equal; lia|f_equal; lia].
  - assert (n = length hs) as -> by lia. rewrite skipn_all, firstn_all, firstn_nil, app_nil_r, firstn_all2 by lia. done.
Qed.

(* C19.  A search started with C_FindObjectsInit finds a list of handles: each once, exactly the visible objects that match
   the template.  However the application divides its C_FindObjects calls, they all succeed and together deliver the first
   handles of that list, as many as were asked for.
   Missing: templates with booleans other than 0 and 1 or empty dates, session objects with the identifier of a stored
   object, and session objects whose CKA_CLASS was changed; the theorems below show what happens then. *)
Theorem C19_search_partial w s tm cnt sid t : from_scratch w -> sane (fun e => e <> CKR_OK) P B E -> slot_of w s = Some sid -> token_of w sid = Some t ->
  Forall plain_entry (default [] tm) -> ids_apart t -> one_class t ->
  let c := FindObjectsInit s tm cnt in rv w c = CKR_OK ->
  exists hs t', token_of (after w c) sid = Some t' /\ finds P t' (default [] tm) hs /\
    forall maxes, let tr := snd (run (after w c) (finding s maxes)) in
      Forall (fun p => fst p = CKR_OK) tr /\ delivered tr = firstn (N.to_nat (sum maxes)) hs.
Proof.
  intros Hw HS Hsl Htk Hp Hap H1 c Hrv. apply (scratch_winv P B E Hfs Hutf) in Hw. destruct (answer_sane P B E w c HS Hrv) as [o Ho].
  destruct (find_init w s tm cnt sid t o Hw Hsl Htk Hp Hap H1 Ho) as (hs & t' & S1 & S2 & S3).
  exists hs, t'. split_and!; [done|done|]. intros maxes. apply find_many; [by apply after_winv|done].
Qed.
(* In particular, asking for one handle at a time or for all at once delivers the same. *)
Corollary C19_split w s tm cnt sid t l1 l2 : from_scratch w -> sane (fun e => e <> CKR_OK) P B E -> slot_of w s = Some sid -> token_of w sid = Some t ->
  Forall plain_entry (default [] tm) -> ids_apart t -> one_class t ->
  let c := FindObjectsInit s tm cnt in rv w c = CKR_OK -> sum l1 = sum l2 ->
  delivered (snd (run (after w c) (finding s l1))) = delivered (snd (run (after w c) (finding s l2))).
Proof.
  intros Hw HS Hsl Htk Hp Hap H1 c Hrv Hs. destruct (C19_search_partial w s tm cnt sid t Hw HS Hsl Htk Hp Hap H1 Hrv) as (hs & t' & _ & _ & H).
  pose proof (proj2 (H l1)) as A1. pose proof (proj2 (H l2)) as A2. fold c in A1, A2. rewrite A1, A2. by rewrite Hs.
Qed.
End c19.

(* ---- cases ---- *)
Definition apartb (t : token) : bool :=
  forallb (fun p => match object_id t (fst p) with Some u => match rows_of (t_db t) u with Some _ => false | None => true end | None => true end) (map_to_list (t_sobjs t)).
Lemma apartb_ok t : apartb t = true -> ids_apart t.
Proof.
  intros H h u H1 H2. unfold apartb in H. rewrite forallb_forall in H. unfold is_session_object in H1. destruct (t_sobjs t !! h) as [o|] eqn:Ho; [|done].
  specialize (H (h, o)). cbn [fst] in H. rewrite H2 in H. destruct (rows_of (t_db t) u); [|done]. discriminate H. apply elem_of_list_In. by apply elem_of_map_to_list.
Qed.
Definition one_classb (t : token) : bool :=
  forallb (fun p => forallb (fun a => negb (a_type a =? CKA_CLASS) || bool_decide (get_attr (snd p) CKA_CLASS = Some a)) (o_attrs (snd p))) (map_to_list (t_sobjs t)).
Lemma one_classb_ok t : one_classb t = true -> one_class t.
Proof.
  intros H h o a Ho Ha Hc. unfold one_classb in H. rewrite forallb_forall in H. specialize (H (h, o)). cbn [snd] in H.
  assert (In (h, o) (map_to_list (t_sobjs t))) as Hin. { apply elem_of_list_In. by apply elem_of_map_to_list. }
  apply H in Hin. rewrite forallb_forall in Hin. apply Hin in Ha. rewrite Hc in Ha. cbn in Ha. by apply bool_decide_eq_true in Ha.
Qed.
Definition plain_entryb (c : ckattr) : bool := match from_ck_attr c with Ok x => bytes_eqb (a_val x) (ck_to_buf c) | Err _ => true end.
Lemma plain_entryb_ok c : plain_entryb c = true -> plain_entry c.
Proof. unfold plain_entryb. intros H x Hx. rewrite Hx in H. by apply bool_decide_eq_true in H. Qed.
Definition tok0 (w : world toy_be) (f : token -> bool) : bool := match token_of toy_be w 0 with Some t => f t | None => false end.

(* Three keys, one stored and two of sessions: session 3 finds all of them, two and then the rest. *)
Example C19_case : exists t, token_of toy_be w3 0 = Some t /\ ids_apart t /\ one_class t /\ slot_of toy_be w3 3 = Some 0 /\
  Forall plain_entry [tulong CKA_KEY_TYPE CKK_AES] /\ toy_rv w3 (FindObjectsInit 3 (Some [tulong CKA_KEY_TYPE CKK_AES]) 1) = CKR_OK /\
  from_scratch toy toy_be toy_env w3 /\
  delivered (snd (toy_run (after toy toy_be toy_env w3 (FindObjectsInit 3 (Some [tulong CKA_KEY_TYPE CKK_AES]) 1)) (finding 3 [2; 2]))) = [11; 12; 10].
Proof.
  assert (tok0 w3 (fun t => apartb t && one_classb t) = true) as H by (vm_compute; reflexivity). unfold tok0 in H.
  destruct (token_of toy_be w3 0) as [t|]; [|done]. apply andb_true_iff in H as [H1 H2]. exists t. split; [done|]. split; [by apply apartb_ok|]. split; [by apply one_classb_ok|].
  split; [vm_compute; reflexivity|]. split; [repeat constructor; apply plain_entryb_ok; vm_compute; reflexivity|]. split; [vm_compute; reflexivity|].
  split; [apply toy_user_scratch|]. vm_compute. reflexivity.
Qed.

(* What a search with a template delivers at once. *)
Definition found (w : world toy_be) (tm : list ckattr) : list N :=
  delivered (snd (toy_run (after toy toy_be toy_env w (FindObjectsInit 2 (Some tm) (N.of_nat (length tm)))) (finding 2 [100]))).
Definition ask (w : world toy_be) (h ty : N) : out := toy_out w (GetAttributeValue 2 h (Some [QAttr ty (Some (repeat 0 16)) 16]) 1).

(* A stored and a session key with the same attributes: CKA_ENCRYPT = 255 finds the stored one only. *)
Definition pair_keys : list call :=
  map (fun b => CreateObject 2 (Some (aes_tmpl b ++ [tbool CKA_PRIVATE false; tbool CKA_ENCRYPT true])) true) [true; false].
Theorem C19_boolean_refuted : exists w a b, from_scratch toy toy_be toy_env w /\ ask w a CKA_ENCRYPT = ask w b CKA_ENCRYPT /\
  (forall h, In h [a; b] -> In h (found w [tbool CKA_ENCRYPT true])) /\
  In a (found w [ca CKA_ENCRYPT [255]]) /\ ~ In b (found w [ca CKA_ENCRYPT [255]]).
Proof.
  exists (fst (toy_run toy_user pair_keys)), 10, 11. split; [apply toy_user_scratch|]. split; [vm_compute; reflexivity|].
  assert (found (fst (toy_run toy_user pair_keys)) [tbool CKA_ENCRYPT true] = [11; 10]) as -> by (vm_compute; reflexivity).
  assert (found (fst (toy_run toy_user pair_keys)) [ca CKA_ENCRYPT [255]] = [10]) as -> by (vm_compute; reflexivity).
  split_and!; cbn; [intuition|by left|]. intros [H|[]]. discriminate H.
Qed.
(* A stored key whose value can be read is not found by that value: the value is stored encrypted and compared so. *)
Definition open_keys : list call :=
  map (fun b => CreateObject 2 (Some (aes_tmpl b ++ [tbool CKA_PRIVATE false; tbool CKA_SENSITIVE false; tbool CKA_EXTRACTABLE true])) true) [true; false].
Theorem C19_value_refuted : exists w a b, from_scratch toy toy_be toy_env w /\ ask w a CKA_VALUE = OAttrs [QAttr CKA_VALUE (Some (repeat 9 16)) 16] /\
  ask w b CKA_VALUE = ask w a CKA_VALUE /\ In b (found w [ca CKA_VALUE (repeat 9 16)]) /\ ~ In a (found w [ca CKA_VALUE (repeat 9 16)]).
Proof.
  exists (fst (toy_run toy_user open_keys)), 10, 11. split; [apply toy_user_scratch|]. split; [vm_compute; reflexivity|]. split; [vm_compute; reflexivity|].
  assert (found (fst (toy_run toy_user open_keys)) [ca CKA_VALUE (repeat 9 16)] = [11]) as -> by (vm_compute; reflexivity).
  split; cbn; [by left|]. intros [H|[]]. discriminate H.
Qed.
(* A stored key with the identifier "5", which C_GenerateKey accepts, is not found at all. *)
Definition five : list call :=
  [GenerateKey 2 (Some (CKM_AES_KEY_GEN, None)) (Some [tulong CKA_CLASS CKO_SECRET_KEY; tulong CKA_KEY_TYPE CKK_AES; tulong CKA_VALUE_LEN 16;
    tbool CKA_TOKEN true; ca CKA_UNIQUE_ID [0x35]]) true].
Theorem C19_hidden_refuted : exists w h, from_scratch toy toy_be toy_env w /\ bool_at toy_be w 0 h CKA_TOKEN = Some true /\
  toy_rv w (GetAttributeValue 2 h (Some [QAttr CKA_KEY_TYPE (Some (repeat 0 8)) 8]) 1) = CKR_OK /\
  toy_out w (GetAttributeValue 2 h (Some [QAttr CKA_KEY_TYPE (Some (repeat 0 8)) 8]) 1) = OAttrs [QAttr CKA_KEY_TYPE (Some (le64 CKK_AES)) 8] /\
  found w [tulong CKA_KEY_TYPE CKK_AES] = [].
Proof.
  exists (fst (toy_run toy_user five)), 10. split; [apply toy_user_scratch|]. split_and!; vm_compute; reflexivity.
Qed.
(* A session key whose class was changed to CKO_DATA is found under both classes. *)
Definition retype : list call :=
  [CreateObject 2 (Some (aes_tmpl false)) true; SetAttributeValue 2 10 (Some [tulong CKA_CLASS CKO_DATA]) 1].
Theorem C19_class_refuted : exists w h, from_scratch toy toy_be toy_env w /\ In h (found w [tulong CKA_CLASS CKO_DATA]) /\ In h (found w [tulong CKA_CLASS CKO_SECRET_KEY]).
Proof.
  exists (fst (toy_run toy_user retype)), 10. split; [apply toy_user_scratch|].
  assert (found (fst (toy_run toy_user retype)) [tulong CKA_CLASS CKO_DATA] = [10]) as -> by (vm_compute; reflexivity).
  assert (found (fst (toy_run toy_user retype)) [tulong CKA_CLASS CKO_SECRET_KEY] = [10]) as -> by (vm_compute; reflexivity).
  split; by left.
Qed.
