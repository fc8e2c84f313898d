(* C24: what a derived key says of its origin. *)
From Verif Require Import Base Monad Hoare Attr Obj Factory Tables Create Sqlite Storage Token Backend State Api Toy
  ObjSpec Rows ObjOk ObjNew Triple TokInv TokStep TokenFrame TokWp TokAuth Spec WorldWp Sessions SessionInv SessionFacts ObjWorld ObjView ObjAttrs NewView ObjFacts
  AttrFacts Errors ObjCalls ToyFacts SetFacts ThmObjects ThmAttrs Origin ThmOrigin.

(* What a key derived from [key] says: not made here; always sensitive, never extractable if the key it comes from is, and it is. *)
Definition made_from (key o : object) : Prop :=
  get_attr o CKA_LOCAL = Some (from_bool CKA_LOCAL false) /\
  get_attr o CKA_ALWAYS_SENSITIVE = Some (from_bool CKA_ALWAYS_SENSITIVE (default false (flag key CKA_ALWAYS_SENSITIVE) && default true (flag o CKA_SENSITIVE))) /\
  get_attr o CKA_NEVER_EXTRACTABLE = Some (from_bool CKA_NEVER_EXTRACTABLE (default false (flag key CKA_NEVER_EXTRACTABLE) && negb (default false (flag o CKA_EXTRACTABLE)))).
Lemma alike_from key o o' : alike o o' -> made_from key o -> made_from key o'.
Proof.
  intros [_ H] (H1 & H2 & H3). unfold made_from, flag in *.
  rewrite !(H CKA_LOCAL), !(H CKA_NEVER_EXTRACTABLE), !(H CKA_ALWAYS_SENSITIVE), !(H CKA_EXTRACTABLE), !(H CKA_SENSITIVE) by (cbn; tauto). done.
Qed.
Lemma internal_key_class uid f t un req o : internal_key_create uid f t un req = Ok o -> o_class o = f_class f.
Proof. unfold internal_key_create. intros H. peel H. injection H as <-. by rewrite unique_class, (internal_class _ _ _ _ _ E). Qed.
Lemma derive_from uid f t key o : f_class f = CKO_SECRET_KEY -> key_derive uid f t key = Ok o -> made_from key o.
Proof.
  intros Hc H. unfold key_derive in H. peel H. assert (o = a) as ->. { destruct (f_kind f); try (by injection H as ->). cbv zeta in H. destruct (_ && _); [done|]. by injection H as ->. }
  clear H. unfold internal_key_derive in E. peel E. apply internal_key_class in E0. rewrite Hc in E0. cbv zeta in E. injection E as <-.
  assert (forall x t b, t <> CKA_CLASS -> o_class (put_attr x (from_bool t b)) = o_class x) as Hp by (intros x t0 b Hb; apply put_frame; by apply N.eqb_neq).
  unfold made_from. rewrite !flag_get. unfold get_bool, get_as. rewrite !get_put by done. cbn [a_type from_bool]. rewrite ?(proj2 (N.eqb_neq _ _)) by done. rewrite ?N.eqb_refl.
  split; [done|]. unfold is_sensitive, is_extractable. rewrite !Hp by done. rewrite E0. change (secret_class CKO_SECRET_KEY) with true. cbv iota. unfold bool_attr. rewrite !get_put by done.
  cbn [a_type from_bool]. rewrite ?(proj2 (N.eqb_neq _ _)) by done. split; do 2 f_equal.
  - destruct (get_attr key CKA_ALWAYS_SENSITIVE) as [x|]; [|done]. destruct (attr_to_bool x) as [[]|]; [|done|done]. destruct (get_attr a0 CKA_SENSITIVE) as [y|]; [|done]. by destruct (attr_to_bool y).
  - destruct (get_attr key CKA_NEVER_EXTRACTABLE) as [x|]; [|done]. destruct (attr_to_bool x) as [[]|]; [|done|done]. destruct (get_attr a0 CKA_EXTRACTABLE) as [y|]; [|done]. by destruct (attr_to_bool y).
Qed.
Lemma set_key_alike f o k o' : set_key f o k = Ok o' -> alike o o'.
Proof.
  intros H. unfold set_key in H. peel H. unfold set_key_len in H. peel H. apply alike_ensure in H; [|done]. eapply alike_trans; [|exact H]. by apply alike_put.
Qed.

Section derived.
Context (P : params) (B : backend) (E : N -> keyenv).
Context (Hfs : p_fs P = all_factories) (Hutf : forall n, utf8_valid (p_uuid P n) = true).
Notation world := (world B).
Notation from_scratch := (from_scratch P B E). Notation rv := (rv P B E). Notation after := (after P B E). Notation run := (run P B E).
Notation out_of := (out_of P B E). Notation answer := (answer P B E).
Notation id_at := (id_at B). Notation attr_at := (attr_at B). Notation bool_at := (bool_at B). Notation slot_of := (slot_of B). Notation token_of := (token_of B).
Notation winv := (winv B).

Lemma wp_get_all t l (Q : token -> result (list object) -> Prop) : tok_ok t -> (forall t' r, noise t t' -> Q t' r) -> wp (get_objects P l) t Q.
Proof.
  revert t Q. induction l as [|x l IH]; intros t Q Ht H; cbn [get_objects]; [apply wp_ret, H; reflexivity|].
  apply wp_bind, wp_peek; [done| |intros; by apply H]. intros t' o Hn _ _. apply wp_bind, IH; [by eapply noise_ok|]. intros t2 r Hn2.
  destruct r; [apply wp_ret|]; apply H; by etransitivity.
Qed.
Definition built (key : object) (d : derived) (o : object) : Prop := exists uid, utf8_valid uid = true /\ derived_object P uid key d = Ok o.
Lemma wp_build key l : forall t (Q : token -> result (list object) -> Prop),
  (forall t' os, noise t t' -> Forall2 (built key) l os -> Q t' (Ok os)) -> (forall t' e, Q t' (Err e)) -> wp (derived_objects P key l) t Q.
Proof.
  induction l as [|d l IH]; intros t Q H1 H2; cbn [derived_objects]; [apply wp_ret, H1; [reflexivity|constructor]|].
  unfold new_uid. apply wp_bind, wp_bind, wp_draw, wp_ret, wp_bind, wp_lift. destruct (derived_object P _ key d) as [o|] eqn:Ho; [|apply H2].
  apply wp_bind, IH; [|intros; apply H2]. intros t' os Hn Hos. apply wp_ret, H1; [etransitivity; [apply noise_fresh|exact Hn]|].
  constructor; [|done]. eexists. split; [apply Hutf|exact Ho].
Qed.
Lemma derive_call w s m base tm p x n : winv w -> let c := DeriveKey s m base tm p x in out_of w c = OHandle n ->
  exists sid t t0 t' mt pr l others r key d o, w_smap w !! s = Some sid /\ replaced B w (after w c) sid t t' /\ noise t t0 /\ m = Some (mt, pr) /\ tm = Some l /\
    seen P t base key /\ be_derive B mt pr key others l r = Ok [d] /\ built key d o /\ insert_object P s o t0 = (t', Ok n).
Proof.
  intros Hw c Ho.
  set (Q := fun (w' : world) (ro : result (N * out)) => match ro with Ok (_, OHandle n) =>
    exists sid t t0 t' mt pr l others r key d o, w_smap w !! s = Some sid /\ replaced B w w' sid t t' /\ noise t t0 /\ m = Some (mt, pr) /\ tm = Some l /\
    seen P t base key /\ be_derive B mt pr key others l r = Ok [d] /\ built key d o /\ insert_object P s o t0 = (t', Ok n) | _ => True end).
  cut (Q (after w c) (answer w c)).
  { unfold Q. destruct (answer w c) as [[r o]|e] eqn:Ha; [apply answer_ok in Ha as [_ Ha]|apply answer_err in Ha as [_ Ha]]; rewrite Ho in Ha; [by subst o|done]. }
  assert (forall w' e, Q w' (Err e)) as HQ by done.
  apply (call_wp P B E c w Q).
  cbn [api c]. unfold c_derive_key. wp_step. wp_step; [|done]. destruct m as [[mt pr]|]; [|done]. destruct tm as [l|]; [|done].
  do 2 (wp_step; wp_step; [|done]; match goal with H : Some _ = Some ?x |- _ => injection H as <- end).
  wp_step. wp_step; [|done]. wp_step. wp_step; [|done].
  match goal with H : w_smap w !! s = Some _ |- _ => rename H into Hm end. match goal with H : w_slots w !! _ = Some _ |- _ => rename H into Hsl end.
  match goal with H : sl_sessions _ !! s = Some _ |- _ => rename H into Hse end.
  assert (s_slot s0 = sid) as Hss. { apply (so_sessions _ _ _ _ _ (si_slots _ _ (wi_inv _ _ Hw) _ _ Hsl) _ _ Hse). }
  assert (token_of w sid = Some (sl_token sl)) as Htk by (unfold Spec.token_of; by rewrite Hsl). pose proof (token_ok B _ _ _ Hw Htk) as Ht.
  rewrite Hss. apply wp_bind, wp_ro_check; [|done]. intros Hro. cbv zeta. wp_step. wp_step; [|done].
  wp_step. wp_step. apply wp_peek; [done| |done]. intros t1 key Hn1 Hseen Hmay. cbv beta iota.
  apply wp_bind. match goal with |- wp ?mm ?ww ?qq => assert (forall q : world -> result unit -> Prop, q ww (Ok tt) -> (forall w' e, q w' (Err e)) -> wp mm ww q) as Hg end.
  { intros q Q1 Q2. destruct (_ || _); [by apply wp_skip|]. apply wp_bind, wp_lift. destruct (get_bool key CKA_DERIVE); [|apply Q2]. apply wp_ensure; intros; [apply Q1|apply Q2]. }
  apply Hg; clear Hg; [|done]. cbv zeta. wp_step. wp_step; [|done]. wp_step. unfold mech_flags. wp_step. wp_step. destruct (List.filter _ _) as [|y ?]; wp_step; [done|]. wp_step. wp_step; [|done].
  wp_step. wp_step. change (sl_token (put_token B ?a ?b)) with a. apply wp_get_all; [by eapply noise_ok|]. intros t2 others Hn2. destruct others as [others|]; [|done].
  wp_step. wp_step. wp_step. change (sl_token (put_token B ?a ?b)) with a. apply wp_draw. wp_step. wp_step.
  destruct (be_derive B mt pr key others l _) as [ds|] eqn:Hds; [|done]. wp_step. wp_step. wp_step. change (sl_token (put_token B ?a ?b)) with a.
  apply wp_build; [|done]. intros t3 os Hn3 Hos.
  assert (noise (sl_token sl) t3) as Hn. { etransitivity; [exact Hn1|]. etransitivity; [exact Hn2|]. etransitivity; [apply noise_fresh|exact Hn3]. }
  destruct (_ || _ || _).
  { destruct os as [|o os]; [done|]. wp_step. wp_step. apply wp_any. intros ? [?|?]; [|done]. wp_step.
    apply wp_any. intros ? [?|?]; [|done]. wp_step. done. }
  destruct ((mt =? CKM_TLS12_KEY_AND_MAC_DERIVE) || (mt =? CKM_TLS12_KEY_SAFE_DERIVE)).
  { apply wp_bind, wp_ensure; intros _; [|done]. apply wp_bind, wp_any. intros ? [?|?]; [|done]. wp_step. done. }
  destruct os as [|o [|? ?]]; [done| |done]. inversion Hos as [|d ? ? ? Hb Hr]; subst. inversion Hr; subst.
  wp_step. wp_step. wp_step. change (sl_token (put_token B ?a ?b)) with a. unfold wp at 1. destruct (insert_object P s o t3) as [t' [h|e]] eqn:Hi; cbn [fst snd]; [|done].
  cbv beta iota. destruct p; wp_step; [|done]. unfold Q.
  exists (s_slot s0), (sl_token sl), t3, t', mt, pr, l, others. do 4 eexists. split_and!; try done.
  rewrite ?with_slot_twice. repeat match goal with |- context [put_token B ?a (put_token B ?b ?x)] => change (put_token B a (put_token B b x)) with (put_token B a x) end. by apply slot_replaced.
Qed.

(* Mechanisms that make secret keys by common_derive_key_object, as all do but key agreement, concatenation and the two that
   make data objects and public keys. *)
Definition makes_keys (mt : N) (pr : option bytes) (l : list ckattr) : Prop :=
  forall key others r ds, be_derive B mt pr key others l r = Ok ds ->
    Forall (fun d => exists t v, d = DKey t v /\ tmpl_ulong t CKA_CLASS = Ok CKO_SECRET_KEY) ds.
Theorem C24_derived w s mt pr base l p x sid n : from_scratch w -> slot_of w s = Some sid -> makes_keys mt pr l ->
  let c := DeriveKey s (Some (mt, pr)) base (Some l) p x in
  out_of w c = OHandle n ->
  bool_at (after w c) sid n CKA_LOCAL = Some false /\
  bool_at (after w c) sid n CKA_ALWAYS_SENSITIVE =
    Some (default false (bool_at w sid base CKA_ALWAYS_SENSITIVE) && default true (bool_at (after w c) sid n CKA_SENSITIVE)) /\
  bool_at (after w c) sid n CKA_NEVER_EXTRACTABLE =
    Some (default false (bool_at w sid base CKA_NEVER_EXTRACTABLE) && negb (default false (bool_at (after w c) sid n CKA_EXTRACTABLE))).
Proof.
  intros Hs Hsl Hmk c Ho. unfold c in *. clear c. apply (scratch_winv P B E Hfs Hutf) in Hs.
  destruct (derive_call w s _ base _ p x n Hs Ho) as (sid' & t & t0 & t' & mt' & pr' & l' & others & r & key & d & o & C1 & C2 & C3 & C4 & C5 & C6 & C7 & (uid & C8 & C9) & C10).
  injection C4 as <- <-. injection C5 as <-. assert (sid' = sid) as -> by (unfold Spec.slot_of in Hsl; congruence). destruct C2 as (R1 & R2 & _).
  pose proof (token_ok B _ _ _ Hs R1) as Ht.
  apply Hmk in C7. inversion C7 as [|? ? (td & v & -> & Hcl) _]; subst.
  assert (obj_ok key) as Hko. { destruct C6 as [C6|[_ C6]]; [apply (tk_sobj _ Ht _ _ C6)|apply (fetched_ok P Hfs _ _ _ Ht C6)]. }
  pose proof (made_new _ (derived_object_ok P Hfs _ _ _ _ C8 Hko C9)) as Hno.
  assert (made_from key o) as (M1 & M2 & M3).
  { cbn [derived_object] in C9. peel C9. peel C9. apply set_key_alike in C9. eapply alike_from; [exact C9|]. eapply derive_from; [|exact E1].
    unfold get_obj_factory_from_key_template in E0. unfold tmpl_ulong in Hcl. destruct (find_ck td CKA_CLASS) as [cc|]; [|done]. rewrite Hcl in E0. cbn [rbind] in E0.
    peel E0. rewrite Hfs in E0. by apply get_factory_good in E0 as [_ ->]. }
  apply (insert_view P Hfs) in C10 as [_ Hpl]; [|by eapply noise_ok|done].
  assert (forall ty, In ty [CKA_ALWAYS_SENSITIVE; CKA_NEVER_EXTRACTABLE] -> get_attr key ty = attr_of t base ty) as Hk.
  { intros ty Hty. eapply (seen_attr P Hfs t base key ty KBool); [done|done| |done]. cbn in Hty. destruct Hty as [<-|[<-|[]]]; reflexivity. }
  rewrite !(bool_attr_at B). unfold Spec.attr_at. rewrite R1, R2. rewrite !(placed_origin P Hfs _ _ _ _ _ _ Hpl Hno) by (cbn; tauto). rewrite <- !Hk by (cbn; tauto).
  rewrite M1, M2, M3. unfold flag. split; [done|]. split; cbn; f_equal.
  - destruct (get_attr key CKA_ALWAYS_SENSITIVE) as [a|]; [|done]. cbn. destruct (get_attr o CKA_SENSITIVE) as [b|]; cbn; destruct (attr_to_bool a) as [[]|]; try destruct (attr_to_bool b) as [[]|]; done.
  - destruct (get_attr key CKA_NEVER_EXTRACTABLE) as [a|]; [|done]. cbn. destruct (get_attr o CKA_EXTRACTABLE) as [b|]; cbn; destruct (attr_to_bool a) as [[]|]; try destruct (attr_to_bool b) as [[]|]; done.
Qed.
End derived.

(* ---- cases ---- *)
Definition derive_tmpl : list ckattr :=
  [tulong CKA_CLASS CKO_SECRET_KEY; tulong CKA_KEY_TYPE CKK_GENERIC_SECRET; tbool CKA_SENSITIVE true; tbool CKA_EXTRACTABLE false].
Definition base_keys : list call :=
  [GenerateKey 2 (Some (CKM_AES_KEY_GEN, None)) (Some (gen_tmpl false ++ [tbool CKA_DERIVE true])) true;
   CreateObject 2 (Some (aes_tmpl false ++ [tbool CKA_SENSITIVE false; tbool CKA_EXTRACTABLE true; tbool CKA_DERIVE true])) true].
Lemma toy_makes l : tmpl_ulong l CKA_CLASS = Ok CKO_SECRET_KEY -> makes_keys toy_be CKM_XOR_BASE_AND_DATA None l.
Proof. intros Hl key others r ds H. cbn [be_derive toy_be] in H. injection H as <-. constructor; [|constructor]. by eexists _, _. Qed.
(* One key from a generated key that has always been well kept, and one from a key that came from outside. *)
Example C24_case_derived : let d := fun b => DeriveKey 2 (Some (CKM_XOR_BASE_AND_DATA, None)) b (Some derive_tmpl) true 0 in
  map snd (snd (toy_run toy_user (base_keys ++ [d 10; d 11]))) = [OHandle 10; OHandle 11; OHandle 12; OHandle 13] /\
  let w := fst (toy_run toy_user (base_keys ++ [d 10; d 11])) in
  map (fun h => map (bool_at toy_be w 0 h) [CKA_LOCAL; CKA_ALWAYS_SENSITIVE; CKA_NEVER_EXTRACTABLE]) [10; 11; 12; 13] =
    [[Some true; Some true; Some true]; [Some false; Some false; Some false]; [Some false; Some true; Some true]; [Some false; Some false; Some false]].
Proof. cbv zeta. split_and!; vm_compute; reflexivity. Qed.
(* Key agreement makes its key by the function of C_CreateObject and gives it the attributes of a generated key: derived from
   a base key that came from outside and may be read by anyone, it says it was made here, and has always been well kept.  (The base key of the toy is a secret key.) *)
Theorem C24_derive_refuted : exists w base c n, from_scratch toy toy_be toy_env w /\
  c = DeriveKey 2 (Some (CKM_ECDH1_DERIVE, None)) base (Some derive_tmpl) true 0 /\
  map (bool_at toy_be w 0 base) [CKA_LOCAL; CKA_ALWAYS_SENSITIVE; CKA_NEVER_EXTRACTABLE] = [Some false; Some false; Some false] /\
  toy_out w c = OHandle n /\
  map (bool_at toy_be (toy_after w c) 0 n) [CKA_LOCAL; CKA_ALWAYS_SENSITIVE; CKA_NEVER_EXTRACTABLE] = [Some true; Some true; Some true].
Proof.
  eexists (fst (toy_run toy_user base_keys)), 11, _, 12. split; [apply toy_user_scratch|]. split; [reflexivity|]. split_and!; vm_compute; reflexivity.
Qed.
