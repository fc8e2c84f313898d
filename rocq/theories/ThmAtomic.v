(* C23: when a call that makes several objects fails, none of them is left. *)
From Verif Require Import Base Monad Hoare Attr Obj Factory Tables Create Sqlite Storage Token Backend State Api Toy
  ObjSpec Rows ObjOk ObjNew Triple TokInv TokStep TokenFrame TokWp TokAuth Spec WorldWp Sessions SessionInv SessionFacts ObjWorld ObjView ObjAttrs NewView ObjFacts
  AttrFacts Errors ObjCalls ToyFacts SetFacts ThmObjects ThmAttrs Origin AuthSpec ThmAuth Rollback AtomicSpec.

Lemma ok_inj {A} (a b : A) : Ok a = Ok b -> a = b.
Proof. by intros [= ->]. Qed.
(* ---- what a generated key says of itself ---- *)
Lemma template_says tab un tmpl o o' ty : create_from_template tab un tmpl o = Ok o' ->
  get_attr o' ty = get_attr o ty \/ exists c a, In c tmpl /\ ca_type c = ty /\ from_ck_attr c = Ok a /\ get_attr o' ty = Some a.
Proof.
  revert o. induction tmpl as [|c r IH]; intros o; cbn [create_from_template]; [intros [= <-]; by left|].
  destruct (find_oa tab (ca_type c)) as [oa|]; [|done]. destruct (oa_is oa un); [done|].
  match goal with |- rbind ?x _ = _ -> _ => destruct x as [[]|] end; cbn [rbind]; [|done].
  destruct (oa_is oa OA_Ignored).
  { intros H. destruct (IH _ H) as [->|(c' & a' & X1 & X2)]; [by left|right; exists c', a'; split; [by right|done]]. }
  destruct (from_ck_attr c) as [a|] eqn:Hc; cbn [rbind]; [|done]. intros H.
  destruct (IH _ H) as [->|(c' & a' & X1 & X2)]; [|right; exists c', a'; split; [by right|done]].
  rewrite get_push. destruct (get_attr o ty) as [x|] eqn:Hx; [by left|].
  destruct (from_ck_wf _ _ Hc) as [_ Ht]. destruct (N.eqb_spec (a_type a) ty) as [He|]; [|by left].
  right. exists c, a. split_and!; [by left|congruence|done|done].
Qed.
Lemma has_get o ty : has_attr o ty = match get_attr o ty with Some _ => true | None => false end.
Proof. reflexivity. Qed.
Lemma defaults_says req tab o o' ty a : create_defaults req tab o = Ok o' -> get_attr o ty = Some a -> get_attr o' ty = Some a.
Proof.
  revert o. induction tab as [|oa r IH]; intros o; cbn [create_defaults]; [by intros [= <-]|].
  destruct (has_attr _ _); [by apply IH|]. destruct (has_default _).
  - intros H Ha. apply (IH _ H). by rewrite get_push, Ha.
  - destruct (_ || _); [done|]. by apply IH.
Qed.
Lemma defaults_give req tab o o' ty oa : (forall x, In x tab -> a_type (oa_attr x) = oa_type x) -> find_oa tab ty = Some oa -> has_default oa = true ->
  create_defaults req tab o = Ok o' -> get_attr o ty = None -> get_attr o' ty = Some (oa_attr oa).
Proof.
  revert o. induction tab as [|x r IH]; intros o Ht Hf Hd; [done|]. cbn [create_defaults find_oa] in *. pose proof (Ht x (or_introl eq_refl)) as Hx.
  assert (forall y, In y r -> a_type (oa_attr y) = oa_type y) as Hr by (intros; apply Ht; by right).
  destruct (N.eqb_spec (oa_type x) ty) as [He|He].
  - injection Hf as ->. rewrite has_get, He. intros H Hn. rewrite Hn, Hd in H. eapply defaults_says; [exact H|]. rewrite get_push, Hn, Hx, He, N.eqb_refl. done.
  - intros H Hn. destruct (has_attr o (oa_type x)); [by eapply IH|]. destruct (has_default x).
    + eapply IH; [done|done|done|exact H|]. rewrite get_push, Hn, Hx. by destruct (N.eqb_spec (oa_type x) ty).
    + destruct (_ || _); [done|]. by eapply IH.
Qed.
Definition born (x : (N * N) * factory) : bool :=
  match find_oa (f_attrs (snd x)) CKA_DESTROYABLE with
  | Some oa => has_default oa && bool_decide (oa_attr oa = from_bool CKA_DESTROYABLE true) | None => false end.
Definition tame_type (ty : N) : bool :=
  negb (is_material ty) && negb (existsb (N.eqb ty) [CKA_LOCAL; CKA_KEY_GEN_MECHANISM; CKA_NEVER_EXTRACTABLE; CKA_ALWAYS_SENSITIVE; CKA_UNIQUE_ID]).
Lemma put_get o a ty : a_type a <> ty -> get_attr (put_attr o a) ty = get_attr o ty.
Proof. intros H. unfold put_attr. destruct (set_attr o a) as [o'|] eqn:Hs; [|done]. rewrite (get_set _ _ _ _ Hs). by destruct (N.eqb_spec (a_type a) ty). Qed.
Lemma material_get o l ty : is_material ty = false -> get_attr (put_material o l) ty = get_attr o ty.
Proof.
  intros Hm. unfold put_material. revert o. induction l as [|[t v] l IH]; intros o; cbn [foldl]; [done|]. rewrite IH. cbn [fst snd].
  destruct (is_material t) eqn:Ht; [|done]. apply put_get. intros He. assert (t = ty) by (revert He; unfold mat_attr; by destruct (_ || _)). congruence.
Qed.
Lemma marked_get o m ty : ty <> CKA_LOCAL -> ty <> CKA_KEY_GEN_MECHANISM -> ty <> CKA_NEVER_EXTRACTABLE -> ty <> CKA_ALWAYS_SENSITIVE ->
  get_attr (default_key_attributes o m) ty = get_attr o ty.
Proof. intros. unfold default_key_attributes. cbv zeta. rewrite !put_get; [done|..]; cbn [a_type from_bool from_ulong]; congruence. Qed.
Lemma ensure_get o ty v o' : ensure_ulong o ty v = Ok o' -> v < 2 ^ 64 -> get_ulong o' ty = Ok v.
Proof.
  unfold ensure_ulong, get_ulong, get_as. destruct (get_attr o ty) as [a|] eqn:Ha.
  - destruct (attr_to_ulong a) as [x|] eqn:Hx; cbn [rbind]; [|done]. destruct (N.eqb_spec x v) as [->|]; [|done]. intros H _. apply ok_inj in H as <-. by rewrite Ha.
  - intros H Hv. apply ok_inj in H as <-. rewrite get_push, Ha. cbn [a_type from_ulong]. rewrite N.eqb_refl. cbv beta iota. rewrite ulong_from_ulong, N.mod_small by done. done.
Qed.
Lemma ensure_other o t v o' ty : ensure_ulong o t v = Ok o' -> t <> ty -> get_attr o' ty = get_attr o ty.
Proof.
  unfold ensure_ulong. intros H Hne. destruct (get_attr o t) as [a|].
  - destruct (attr_to_ulong a) as [x|]; cbn [rbind] in H; [|done]. destruct (x =? v); [|done]. apply ok_inj in H as <-. done.
  - apply ok_inj in H as <-. rewrite get_push. destruct (get_attr o ty); [done|]. cbn [a_type from_ulong]. by destruct (N.eqb_spec t ty).
Qed.
Ltac flat_put := repeat match goal with |- context [put_token ?B ?a (put_token ?B ?b ?x)] => change (put_token B a (put_token B b x)) with (put_token B a x) end.
Section atomic.
Context (P : params) (B : backend) (E : N -> keyenv) (Hfs : p_fs P = all_factories) (Hutf : forall n, utf8_valid (p_uuid P n) = true).
Lemma generated_destroyable f uid l o : born ((0, 0), f) = true -> destroyable l -> key_generate uid f l = Ok o -> is_destroyable o = true.
Proof.
  intros Hb Hd. unfold key_generate, internal_key_create, internal_object_create.
  destruct (create_from_template _ _ _ _) as [o1|] eqn:H1; cbn [rbind]; [|done]. destruct (create_defaults _ _ _) as [o2|] eqn:H2; cbn [rbind]; [|done].
  intros H. apply ok_inj in H as <-. unfold born in Hb. cbn [snd] in Hb. destruct (find_oa _ _) as [oa|] eqn:Hf; [|done]. apply andb_true_iff in Hb as [Hb1 Hb2].
  apply bool_decide_eq_true in Hb2.
  assert (get_attr o2 CKA_DESTROYABLE = Some (from_bool CKA_DESTROYABLE true)) as Hg.
  { apply template_says with (ty := CKA_DESTROYABLE) in H1 as [H1|(c & a & X1 & X2 & X3 & X4)].
    - rewrite <- Hb2. by eapply (defaults_give _ _ _ _ _ oa).
    - apply (defaults_says _ _ _ _ _ _ H2). rewrite X4. f_equal. rewrite <- X2. eapply from_ck_bool; [by rewrite X2|exact X3|by apply Hd]. }
  unfold is_destroyable, bool_attr, generate_unique. destruct (has_attr o2 CKA_UNIQUE_ID); rewrite ?get_push, Hg; done.
Qed.
Lemma pair_plain env u1 u2 mt l1 l2 o1 o2 : utf8_valid u1 = true -> utf8_valid u2 = true -> destroyable l1 ->
  gen_pair P env u1 u2 mt l1 l2 = Ok (o1, o2) -> plain_key P o1 /\ made o2.
Proof.
  intros Hu1 Hu2 Hd Hg. destruct (gen_pair_ok P Hfs _ _ _ _ _ _ _ _ Hu1 Hu2 Hg) as [M1 M2]. split; [|done]. split; [done|].
  revert Hg. unfold gen_pair. destruct (lookup_type _ _) as [kt|] eqn:Hkt; [|done].
  destruct (get_factory _ (CKO_PUBLIC_KEY, _)) as [f1|] eqn:Hf1; cbn [rbind]; [|done].
  destruct (get_factory _ (CKO_PRIVATE_KEY, _)) as [f2|] eqn:Hf2; cbn [rbind]; [|done].
  assert (kt < 2 ^ 64 /\ born ((0, 0), f1) = true) as [Hk Hb].
  { rewrite Hfs in Hf1. clear -Hkt Hf1. assert (In kt (map snd pair_types)) as Hin.
    { unfold lookup_type in Hkt. destruct (List.filter _ _) as [|x r] eqn:Hx; [done|]. injection Hkt as <-. apply in_map.
      apply (List.filter_In (fun p => fst p =? mt) x pair_types). rewrite Hx. by left. }
    clear Hkt. cbn [pair_types map snd In] in Hin. repeat (destruct Hin as [<-|Hin]; [split; [by vm_compute|]; vm_compute in Hf1; apply ok_inj in Hf1 as <-; by vm_compute|]). done. }
  unfold pair_generate. destruct (key_generate u1 f1 l1) as [p|] eqn:Hp; cbn [rbind]; [|done].
  destruct (map_err (ensure_ulong p _ _) _) as [p1|] eqn:Hp1; cbn [rbind]; [|done]. apply map_err_ok in Hp1.
  destruct (map_err (ensure_ulong p1 _ _) _) as [p2|] eqn:Hp2; cbn [rbind]; [|done]. apply map_err_ok in Hp2.
  destruct (key_generate u2 f2 l2) as [s|]; cbn [rbind]; [|done].
  destruct (map_err (ensure_ulong s _ _) _) as [s1|]; cbn [rbind]; [|done].
  destruct (map_err (ensure_ulong s1 _ _) _) as [s2|]; cbn [rbind]; [|done].
  destruct (k_pair _ _ _ _) as [m|]; cbn [rbind]; [|done]. intros H. apply ok_inj in H. apply pair_equal_spec in H as [<- _].
  pose proof (generated_destroyable _ _ _ _ Hb Hd Hp) as Hgd.
  assert (forall ty, tame_type ty = true -> get_attr (default_key_attributes (put_material p2 (fst m)) mt) ty = get_attr p2 ty) as Hq.
  { intros ty Ht. unfold tame_type in Ht. apply andb_true_iff in Ht as [T1 T2]. apply negb_true_iff in T1, T2. cbn [existsb] in T2.
    repeat (apply orb_false_iff in T2 as [?%N.eqb_neq T2]). rewrite marked_get by done. by apply material_get. }
  split.
  - unfold is_destroyable, bool_attr in *. rewrite Hq by done. by rewrite (ensure_other _ _ _ _ _ Hp2), (ensure_other _ _ _ _ _ Hp1) by done.
  - exists f1. unfold get_object_factory, get_ulong, get_as. rewrite !Hq by done.
    pose proof (ensure_get _ _ _ _ Hp2 Hk) as X2. pose proof (ensure_get _ _ _ _ Hp1 eq_refl) as X1.
    unfold get_ulong, get_as in X1, X2. rewrite <- (ensure_other _ _ _ _ CKA_CLASS Hp2) in X1 by done.
    destruct (get_attr p2 CKA_CLASS); [|done]. rewrite X1. cbn [rbind]. destruct (get_attr p2 CKA_KEY_TYPE); [|done].
    change (if CKO_PUBLIC_KEY =? CKO_CERTIFICATE then ?a else if (CKO_PUBLIC_KEY =? CKO_PUBLIC_KEY) || ?c then ?b else ?d) with b. rewrite X2. exact Hf1.
Qed.

(* What C_GenerateKeyPair does once it has the two keys. *)
Definition pair_tail (s : N) (o1 o2 : object) : M token (list N) :=
  let! h1 := insert_object P s o1 in
  let! r2 := attempt (insert_object P s o2) in
  match r2 with Ok h2 => ret [h1; h2] | Err e => let! _ := attempt (destroy_object P h1) in fail e end.
Notation world := (world B).
Notation from_scratch := (from_scratch P B E). Notation rv := (rv P B E). Notation after := (after P B E).
Notation out_of := (out_of P B E). Notation answer := (answer P B E). Notation slot_of := (slot_of B). Notation token_of := (token_of B). Notation winv := (winv B).
Definition quiet (w w' : world) : Prop := forall sid t', token_of w' sid = Some t' -> exists t, token_of w sid = Some t /\ t_sobjs t' = t_sobjs t /\ t_db t' = t_db t.
Lemma quiet_refl w : quiet w w.
Proof. intros sid t' H. by exists t'. Qed.
Lemma quiet_replaced w w' sid t t' : replaced B w w' sid t t' -> t_sobjs t' = t_sobjs t -> t_db t' = t_db t -> quiet w w'.
Proof.
  intros (R1 & R2 & R3) H1 H2 i x Hx. destruct (N.eq_dec i sid) as [->|Hne]; [exists t; rewrite R2 in Hx; by injection Hx as <-|]. rewrite R3 in Hx by done. by exists x.
Qed.
Lemma quiet_nothing w w' sid : quiet w w' -> nothing_new B w w' sid.
Proof. intros H t' Ht. destruct (H _ _ Ht) as (t & H1 & H2 & H3). exists t. rewrite H2, H3. done. Qed.
Lemma pair_answer w s m tp tv p1 p2 : winv w -> let c := GenerateKeyPair s m tp tv p1 p2 in
  (exists e, answer w c = Err e /\ quiet w (after w c)) \/
  exists sid t t' mt pr l1 l2 o1 o2 r, w_smap w !! s = Some sid /\ m = Some (mt, pr) /\ tp = Some l1 /\ tv = Some l2 /\
    gen_pair P (E (t_fresh t)) (p_uuid P (t_fresh t + 1)) (p_uuid P (t_fresh t + 1 + 1)) mt l1 l2 = Ok (o1, o2) /\
    pair_tail s o1 o2 (set_fresh (t_fresh t + 1 + 1 + 1) t) = (t', r) /\ replaced B w (after w c) sid t t' /\
    answer w c = match r with Ok ns => Ok (CKR_OK, OHandles ns) | Err e => Err e end.
Proof.
  intros Hw c.
  set (Q := fun (w' : world) (ro : result (N * out)) => (exists e, ro = Err e /\ quiet w w') \/
    exists sid t t' mt pr l1 l2 o1 o2 r, w_smap w !! s = Some sid /\ m = Some (mt, pr) /\ tp = Some l1 /\ tv = Some l2 /\
    gen_pair P (E (t_fresh t)) (p_uuid P (t_fresh t + 1)) (p_uuid P (t_fresh t + 1 + 1)) mt l1 l2 = Ok (o1, o2) /\
    pair_tail s o1 o2 (set_fresh (t_fresh t + 1 + 1 + 1) t) = (t', r) /\ replaced B w w' sid t t' /\
    ro = match r with Ok ns => Ok (CKR_OK, OHandles ns) | Err e => Err e end).
  change (Q (after w c) (answer w c)).
  assert (forall e, Q w (Err e)) as HQ by (intros e; left; exists e; split; [done|apply quiet_refl]).
  apply (call_wp P B E c w Q).
  cbn [api c]. unfold c_generate_key_pair. wp_step. wp_step; [|done]. destruct m as [[mt pr]|]; [|done]. destruct tp as [l1|]; [|done]. destruct tv as [l2|]; [|done].
  do 3 (wp_step; wp_step; [|done]; match goal with H : Some _ = Some ?x |- _ => injection H as <- end).
  wp_step. wp_step; [|done]. wp_step. wp_step; [|done].
  match goal with H : w_smap w !! s = Some _ |- _ => rename H into Hm end. match goal with H : w_slots w !! _ = Some _ |- _ => rename H into Hsl end.
  match goal with H : sl_sessions _ !! s = Some _ |- _ => rename H into Hse end.
  assert (s_slot s0 = sid) as Hss. { apply (so_sessions _ _ _ _ _ (si_slots _ _ (wi_inv _ _ Hw) _ _ Hsl) _ _ Hse). }
  rewrite Hss. apply wp_bind, wp_ro_check; [|done]. intros Hro1. apply wp_bind, wp_ro_check; [|done]. intros Hro2. cbv zeta. wp_step. wp_step; [|done].
  wp_step. unfold mech_flags. wp_step. wp_step. destruct (List.filter _ _) as [|x ?]; wp_step; [done|]. wp_step. wp_step; [|done].
  wp_step. wp_step. apply wp_draw. unfold new_uid. wp_step. wp_step. apply wp_bind, wp_draw, wp_ret. wp_step. wp_step. wp_step. apply wp_bind, wp_draw, wp_ret. wp_step. wp_step.
  change (sl_token (put_token B ?a ?b)) with a. cbn [t_fresh set_fresh].
  destruct (gen_pair P _ _ _ mt l1 l2) as [[o1 o2]|e0] eqn:Hg.
  2: { left. exists e0. split; [done|]. rewrite ?with_slot_twice. flat_put. eapply quiet_replaced; [apply slot_replaced; exact Hsl|done|done]. }
  change (sl_token (put_token B ?a ?b)) with a in Hg. cbn [t_fresh set_fresh] in Hg.
  assert (forall t' r ro, pair_tail s o1 o2 (set_fresh (t_fresh (sl_token sl) + 1 + 1 + 1) (sl_token sl)) = (t', r) ->
    ro = match r with Ok ns => Ok (CKR_OK, OHandles ns) | Err e => Err e end -> Q (with_slot B sid (put_token B t' sl) w) ro) as Hend.
  { intros t' r ro Hx ->. right. exists sid, (sl_token sl), t', mt, pr, l1, l2, o1, o2, r. split_and!; try done; by apply slot_replaced. }
  unfold pair_tail in Hend. unfold mbind, attempt, ret, fail in Hend.
  wp_step. wp_step. wp_step. unfold wp at 1.
  change (sl_token (put_token B ?a ?b)) with a. change (set_fresh ?a (set_fresh ?b ?t)) with (set_fresh a t). 
  destruct (insert_object P s o1 _) as [t1 r1] eqn:Hd. cbn [fst snd]. destruct r1 as [n1|e].
  2: { cbv beta iota. rewrite ?with_slot_twice. flat_put. eapply Hend; [rewrite ?Hd, ?Hd2, ?Hd3; reflexivity|reflexivity]. }
  wp_step. wp_step. wp_step. wp_step. unfold wp at 1. change (sl_token (put_token B ?a ?b)) with a. destruct (insert_object P s o2 t1) as [t' r2] eqn:Hd2. cbn [fst snd].
  destruct r2 as [n2|e].
  - cbv beta iota. wp_step. rewrite ?with_slot_twice. flat_put. eapply Hend; [rewrite ?Hd, ?Hd2, ?Hd3; reflexivity|reflexivity].
  - cbv beta iota. wp_step. wp_step. wp_step. wp_step. unfold wp at 1. change (sl_token (put_token B ?a ?b)) with a.
    destruct (destroy_object P n1 t') as [t2 r3] eqn:Hd3. cbn [fst snd]. wp_step. rewrite ?with_slot_twice. flat_put. eapply Hend; [rewrite ?Hd, ?Hd2, ?Hd3; reflexivity|reflexivity].
Qed.
Lemma tail_undone s o1 o2 t t' e : tok_ok t -> calm (t_io t) -> plain_key P o1 -> made o2 -> pair_tail s o1 o2 t = (t', Err e) -> no_more t t'.
Proof.
  intros Ht Hc H1 H2. unfold pair_tail. rewrite run_bind. destruct (insert_object P s o1 t) as [t1 r1] eqn:Hi1. pose proof (insert_calm P s o1 t Hc) as C1. rewrite Hi1 in C1. cbn [fst] in C1.
  pose proof (since_insert P Hfs _ _ _ _ _ _ _ (since_start P _ Ht) (made_new _ (proj1 H1)) Hi1) as S1. cbn [fst snd] in *. destruct r1 as [h1|e1].
  2: { intros H. injection H as <- _. by eapply since_end. }
  specialize (S1 H1). rewrite run_bind. unfold attempt at 1. destruct (insert_object P s o2 t1) as [t2 r2] eqn:Hi2. pose proof (insert_calm P s o2 t1 C1) as C2. rewrite Hi2 in C2. cbn [fst snd] in *.
  pose proof (since_insert P Hfs _ _ _ _ _ _ _ S1 (made_new _ H2) Hi2) as S2. destruct r2 as [h2|e2]; [done|].
  rewrite run_bind. unfold attempt. destruct (since_destroy P Hfs _ _ _ _ S2 (fun x => x) C2) as (t3 & D1 & D2 & _). rewrite D1. cbn [fst snd fail].
  intros H. injection H as <- _. by eapply since_end.
Qed.
Lemma fresh_ok n t : tok_ok t -> tok_ok (set_fresh n t).
Proof. intros Ht. apply (tok_same t); try done. apply (tk_db _ Ht). Qed.
Lemma io_ok i t : tok_ok t -> tok_ok (set_io i t).
Proof. intros Ht. apply (tok_same t); try done. apply (tk_db _ Ht). Qed.
(* A key pair that is not made leaves neither key behind, when the database works. *)
Theorem C23_pair_partial w s m l1 tv p1 p2 sid : from_scratch w -> works B w -> destroyable l1 ->
  let c := GenerateKeyPair s m (Some l1) tv p1 p2 in rv w c <> CKR_OK -> nothing_new B w (after w c) sid.
Proof.
  intros Hs Hio Hd c Hr. apply (scratch_winv P B E Hfs Hutf) in Hs.
  destruct (pair_answer w s m (Some l1) tv p1 p2 Hs) as [(e & _ & Hq)|(i & t & t' & mt & pr & k1 & l2 & o1 & o2 & r & A1 & -> & A3 & -> & A5 & A6 & A7 & A8)]; [by apply quiet_nothing|].
  injection A3 as <-. destruct r as [ns|e]; [apply answer_ok in A8 as [A8 _]; by destruct Hr|]. destruct A7 as (R1 & R2 & R3).
  destruct (pair_plain _ _ _ _ _ _ _ _ (Hutf _) (Hutf _) Hd A5) as [X1 X2].
  apply tail_undone in A6 as [N1 N2]; [|apply fresh_ok; exact (token_ok B _ _ _ Hs R1)|exact (Hio _ _ R1)|done|done].
  subst c. intros x Hx. destruct (N.eq_dec sid i) as [->|Hne].
  - rewrite R2 in Hx. injection Hx as <-. by exists t.
  - exists x. rewrite R3 in Hx by done. done.
Qed.

Lemma set_io_io i j t : set_io i (set_io j t) = set_io i t.
Proof. done. Qed.
Lemma one_calm l : one_failure l -> forall e r, l = Some e :: r -> calm r.
Proof.
  intros H e r ->. unfold one_failure in H. cbn [List.filter length] in H. unfold calm. assert (Nat.le (length (List.filter (fun x : option ioerr => match x with Some _ => true | None => false end) r)) 0) as Hr by lia.
  clear H. induction r as [|x r IH]; [constructor|]. destruct x as [y|]; cbn [List.filter length] in Hr; [lia|]. constructor; [done|by apply IH].
Qed.
Lemma one_tail l r : one_failure l -> l = None :: r -> one_failure r.
Proof. intros H ->. exact H. Qed.
(* The insertion of an object that would work without the failure. *)
Lemma insert_one s o t l t1 h : t_io t = l -> one_failure l -> insert_object P s o (set_io [] t) = (t1, Ok h) ->
  (exists t2, insert_object P s o t = (t2, Ok h) /\ set_io [] t2 = set_io [] t1 /\ one_failure (t_io t2)) \/
  (exists t2 e, insert_object P s o t = (t2, Err e) /\ calm (t_io t2)).
Proof.
  intros Hl Ho Hi. destruct (insert_io P _ _ _ l _ _ Hi) as [X|[(r & X1 & X)|(e & r & t2 & X1 & X & X3)]]; rewrite <- Hl in X; rewrite set_io_id in X; rewrite X.
  - left. eexists. split; [done|]. split; [done|]. cbn [t_io set_io]. by rewrite Hl.
  - left. eexists. split; [done|]. split; [done|]. cbn [t_io set_io]. by eapply one_tail.
  - right. eexists _, _. split; [done|]. rewrite X3. by eapply one_calm.
Qed.
Lemma insert_works s o t t1 h : calm (t_io t) -> insert_object P s o t = (t1, Ok h) -> insert_object P s o (set_io [] t) = (set_io [] t1, Ok h) /\ calm (t_io t1).
Proof.
  intros Hc Hi. pose proof (insert_calm P s o t Hc) as C1. rewrite Hi in C1. split; [|done].
  destruct (insert_object P s o (set_io [] t)) as [t2 r2] eqn:H2. pose proof H2 as H3.
  pose proof (insert_calm P s o (set_io [] t) (List.Forall_nil _)) as C2. rewrite H2 in C2.
  destruct (insert_io P _ _ t [] _ _ H2) as [X|[(r & ? & _)|(? & ? & ? & ? & _)]]; [|done|done].
  assert (t2 = set_io [] t2) as Ht2 by congruence.
  destruct (insert_io P _ _ t (t_io t) _ _ H2) as [Y|[(r & X1 & Y)|(e & r & t3 & X1 & _)]].
  - rewrite set_io_id in Y. rewrite Hi in Y. injection Y as -> <-. by rewrite set_io_io, <- Ht2.
  - rewrite set_io_id in Y. rewrite Hi in Y. injection Y as -> <-. by rewrite set_io_io, <- Ht2.
  - rewrite X1 in Hc. by apply List.Forall_cons_iff in Hc as [? _].
Qed.
Lemma tail_one s o1 o2 t l ta ns t' e : tok_ok t -> calm (t_io t) -> one_failure l -> plain_key P o1 -> made o2 ->
  pair_tail s o1 o2 t = (ta, Ok ns) -> pair_tail s o1 o2 (set_io l t) = (t', Err e) -> no_more t t'.
Proof.
  intros Ht Hc Hl H1 H2. unfold pair_tail. rewrite !run_bind. destruct (insert_object P s o1 t) as [a1 r1] eqn:Ha1. cbn [fst snd]. destruct r1 as [h1|]; [|done].
  rewrite run_bind. unfold attempt at 1. destruct (insert_object P s o2 a1) as [a2 r2] eqn:Ha2. cbn [fst snd]. destruct r2 as [h2|e2].
  2: { rewrite run_bind. unfold attempt. destruct (destroy_object P h1 a2). done. }
  intros _. destruct (insert_works _ _ _ _ _ Hc Ha1) as [W1 C1]. destruct (insert_works _ _ _ _ _ C1 Ha2) as [W2 _].
  pose proof (since_start P _ (io_ok l _ Ht)) as S0.
  destruct (insert_one s o1 (set_io l t) l _ _ eq_refl Hl W1) as [(b1 & B1 & B2 & B3)|(b1 & x & B1 & B2)]; rewrite B1; cbn [fst snd].
  2: { intros H. injection H as <- _. pose proof (since_insert P Hfs _ _ _ _ _ _ _ S0 (made_new _ (proj1 H1)) B1) as S1. cbn in S1. apply since_end in S1. exact S1. }
  pose proof (since_insert P Hfs _ _ _ _ _ _ _ S0 (made_new _ (proj1 H1)) B1 H1) as S1.
  rewrite run_bind. unfold attempt at 1. rewrite set_io_io in B2.
  rewrite <- B2 in W2. destruct (insert_one s o2 b1 _ _ _ eq_refl B3 W2) as [(b2 & B4 & _ & _)|(b2 & x & B4 & B5)]; rewrite B4; cbn [fst snd]; [done|].
  pose proof (since_insert P Hfs _ _ _ _ _ _ _ S1 (made_new _ H2) B4) as S2. cbv beta iota in S2.
  rewrite run_bind. unfold attempt. destruct (since_destroy P Hfs _ _ _ _ S2 (fun x => x) B5) as (t3 & D1 & D2 & _). rewrite D1. cbn [fst snd fail].
  intros H. injection H as <- _. apply since_end in D2. exact D2.
Qed.
Lemma disturbed w i l : forall t, token_of w i = Some t -> token_of (after w (Disturb i l)) i = Some (set_io l t).
Proof.
  intros t. unfold Spec.token_of, Spec.after, step. cbn [api]. cbv [modify mbind ok ret fst]. unfold disturb. cbn [w_slots set_slots]. rewrite lookup_alter.
  destruct (w_slots w !! i) as [sl|]; [|done]. intros H. injection H as <-. done.
Qed.
Lemma disturbed_other w i l j : j <> i -> token_of (after w (Disturb i l)) j = token_of w j.
Proof.
  intros Hj. unfold Spec.token_of, Spec.after, step. cbn [api]. cbv [modify mbind ok ret fst]. unfold disturb. cbn [w_slots set_slots]. by rewrite lookup_alter_ne.
Qed.
(* Nor when one database call fails in a call that would have succeeded. *)
Theorem C23_pair_failure_partial w s m l1 tv p1 p2 i l sid : from_scratch w -> works B w -> destroyable l1 -> one_failure l ->
  let c := GenerateKeyPair s m (Some l1) tv p1 p2 in let w1 := after w (Disturb i l) in
  out_of w c <> ONone -> rv w1 c <> CKR_OK -> nothing_new B w (after w1 c) sid.
Proof.
  intros Hs Hio Hd Hl c w1 Hok Hr. apply (scratch_winv P B E Hfs Hutf) in Hs.
  pose proof (after_winv P B E Hfs Hutf w (Disturb i l) Hs) as Hs1. change (winv w1) in Hs1.
  assert (forall j t, token_of w1 j = Some t -> exists t0, token_of w j = Some t0 /\ t_sobjs t = t_sobjs t0 /\ t_db t = t_db t0 /\ t_fresh t = t_fresh t0 /\ (t = t0 \/ j = i /\ t = set_io l t0)) as Hw1.
  { intros j t Hj. destruct (N.eq_dec j i) as [->|Hne].
    - destruct (token_of w i) as [t0|] eqn:Ht0.
      + exists t0. unfold w1 in Hj. rewrite (disturbed w i l t0 Ht0) in Hj. injection Hj as <-. split_and!; try done. by right.
      + exfalso. revert Hj Ht0. unfold w1, Spec.token_of, Spec.after, step. cbn [api]. cbv [modify mbind ok ret fst]. unfold disturb. cbn [w_slots set_slots]. rewrite lookup_alter.
        destruct (w_slots w !! i); done.
    - unfold w1 in Hj. rewrite disturbed_other in Hj by done. exists t. split_and!; try done. by left. }
  assert (forall w', nothing_new B w1 w' sid -> nothing_new B w w' sid) as Hvia.
  { intros w' H t' Ht'. destruct (H _ Ht') as (t & T1 & T2 & T3). destruct (Hw1 _ _ T1) as (t0 & U1 & U2 & U3 & _). exists t0. rewrite <- U2, <- U3. done. }
  destruct (pair_answer w1 s m (Some l1) tv p1 p2 Hs1) as [(e & _ & Hq)|(j & t & t' & mt & pr & k1 & l2 & o1 & o2 & r & A1 & -> & A3 & -> & A5 & A6 & A7 & A8)]; [by apply Hvia, quiet_nothing|].
  injection A3 as <-. destruct r as [ns|e]; [apply answer_ok in A8 as [A8 _]; by destruct Hr|]. destruct A7 as (R1 & R2 & R3).
  destruct (pair_answer w s (Some (mt, pr)) (Some l1) (Some l2) p1 p2 Hs) as [(e' & Hq & _)|(j' & t0 & ta & mt' & pr' & k1 & k2 & o1' & o2' & r & D1 & D2 & D3 & D4 & D5 & D6 & D7 & D8)].
  { apply answer_err in Hq as [_ Hq]. by destruct Hok. }
  destruct r as [ns|e']; [|apply answer_err in D8 as [_ D8]; by destruct Hok].
  injection D2 as <- <-. injection D3 as <-. injection D4 as <-. change (w_smap w1) with (w_smap w) in A1. assert (j' = j) as -> by congruence.
  destruct D7 as (E1 & _). destruct (Hw1 _ _ R1) as (t1 & U1 & U2 & U3 & U4 & U5). assert (t1 = t0) as -> by congruence.
  rewrite U4 in A5. rewrite A5 in D5. apply ok_inj in D5. apply pair_equal_spec in D5 as [<- <-].
  destruct (pair_plain _ _ _ _ _ _ _ _ (Hutf _) (Hutf _) Hd A5) as [X1 X2]. rewrite U4 in A6. pose proof (token_ok B _ _ _ Hs U1) as Hok0.
  assert (no_more t0 t') as [N1 N2].
  { destruct U5 as [->|[_ ->]].
    - rewrite A6 in D6. injection D6 as _ D6. done.
    - eapply (tail_one s o1 o2 (set_fresh (t_fresh t0 + 1 + 1 + 1) t0) l) in A6; [exact A6|by apply fresh_ok|exact (Hio _ _ U1)|done|done|done|exact D6]. }
  subst c. intros x Hx. destruct (N.eq_dec sid j) as [->|Hne].
  - rewrite R2 in Hx. injection Hx as <-. by exists t0.
  - rewrite R3 in Hx by done. destruct (Hw1 _ _ Hx) as (t1 & V1 & V2 & V3 & _). exists t1. rewrite V2, V3. done.
Qed.
End atomic.

(* ---- examples and counterexamples ---- *)
(* How many session objects and how many records slot 0 has. *)
Definition counts (w : State.world toy_be) : option (nat * nat) := (fun t => (size (t_sobjs t), size (d_objs (t_db t)))) <$> token_of toy_be w 0.
Lemma size_kept {A} (m m' : gmap N A) : (forall i x, m' !! i = Some x -> m !! i = Some x) -> Nat.le (size m') (size m).
Proof.
  intros H. rewrite <- (size_dom (D := gset N) m), <- (size_dom (D := gset N) m'). apply subseteq_size, subseteq_dom, map_subseteq_spec. done.
Qed.
Lemma nothing_counts w w' a b a' b' : counts w = Some (a, b) -> counts w' = Some (a', b') -> nothing_new toy_be w w' 0 -> Nat.le a' a /\ Nat.le b' b.
Proof.
  unfold counts. intros H1 H2 Hn. destruct (token_of toy_be w' 0) as [t'|] eqn:Ht'; [|done]. destruct (Hn t' Ht') as (t & Ht & N1 & N2). rewrite Ht in H1.
  cbn in H1, H2. injection H1 as <- <-. injection H2 as <- <-. split; by apply size_kept.
Qed.
Definition p256 : ckattr := ca CKA_EC_PARAMS [6; 8; 42; 134; 72; 206; 61; 3; 1; 7].
Definition ec_pair (l1 l2 : list ckattr) : call := GenerateKeyPair 2 (Some (CKM_EC_KEY_PAIR_GEN, None)) (Some (p256 :: l1)) (Some l2) true true.
Definition token_too : list ckattr := [tbool CKA_TOKEN true].
(* The user has logged out: the public key can be stored, the private key cannot. *)
Definition out23 : State.world toy_be := toy_end (home ++ [good; Logout 2]).
Definition in23 : State.world toy_be := toy_end (home ++ [good]).
Definition public : list ckattr := [tbool CKA_TOKEN false; tbool CKA_PRIVATE false].
Definition lasting_public : list ckattr := tbool CKA_DESTROYABLE false :: public.
Definition at_once (w : State.world toy_be) (cs : list call) : State.world toy_be := fst (toy_run w cs).
Lemma scratch_end cs : from_scratch toy toy_be toy_env (toy_end cs).
Proof. by exists cs. Qed.
Lemma scratch_on cs cs' : from_scratch toy toy_be toy_env (at_once (toy_end cs) cs').
Proof.
  exists (cs ++ cs'). rewrite run_app. unfold at_once, end_of. destruct (run toy toy_be toy_env (init_world toy_be ∅) cs) as [w1 o1]. cbn [fst].
  by destruct (run toy toy_be toy_env w1 cs').
Qed.
Definition calm_at (w : State.world toy_be) : bool := forallb (fun x => match token_of toy_be w (fst x) with Some t => forallb (fun y => match y with None => true | _ => false end) (t_io t) | None => true end) (map_to_list (w_slots w)).
Lemma calm_works w : calm_at w = true -> works toy_be w.
Proof.
  intros H sid t Ht. unfold calm_at in H. rewrite forallb_forall in H. pose proof Ht as Ht'. unfold token_of in Ht'. destruct (w_slots w !! sid) as [sl|] eqn:Hs; [|done].
  specialize (H (sid, sl)). cbn [fst] in H. rewrite Ht in H. rewrite forallb_forall in H. apply List.Forall_forall. intros x Hx.
  specialize (H ltac:(apply elem_of_list_In, elem_of_map_to_list; exact Hs) x Hx). by destruct x.
Qed.
(* The private key cannot be stored, and the public key, made before it, is gone again. *)
Example C23_case : from_scratch toy toy_be toy_env out23 /\ works toy_be out23 /\ destroyable (p256 :: public) /\
  toy_rv out23 (ec_pair public token_too) = CKR_USER_NOT_LOGGED_IN /\ toy_rv out23 (ec_pair public []) = CKR_OK /\
  counts out23 = Some (9%nat, 0%nat) /\ counts (at_once out23 [ec_pair public token_too]) = Some (9%nat, 0%nat) /\ counts (at_once out23 [ec_pair public []]) = Some (11%nat, 0%nat).
Proof.
  split; [apply scratch_end|]. split; [apply calm_works; vm_compute; reflexivity|]. split.
  { intros c Hc Ht. cbn in Hc. destruct Hc as [<-|[<-|[<-|[]]]]; vm_compute in Ht; discriminate Ht. }
  split_and!; vm_compute; reflexivity.
Qed.
(* The database refuses the private key, and works again when the public key is to be removed. *)
Definition breaks (l : list (option ioerr)) : call := Disturb 0 l.
Example C23_failure_case : from_scratch toy toy_be toy_env in23 /\ works toy_be in23 /\ one_failure [None; Some IoDevice] /\
  snd (last_out (snd (toy_run in23 [ec_pair token_too token_too]))) = OHandles [10; 11] /\ counts (at_once in23 [ec_pair token_too token_too]) = Some (9%nat, 2%nat) /\
  toy_rv (at_once in23 [breaks [None; Some IoDevice]]) (ec_pair token_too token_too) = CKR_DEVICE_ERROR /\
  counts (at_once in23 [breaks [None; Some IoDevice]; ec_pair token_too token_too]) = Some (9%nat, 0%nat).
Proof. split; [apply scratch_end|]. split; [apply calm_works; vm_compute; reflexivity|]. split; [unfold one_failure; cbn; lia|]. split_and!; vm_compute; reflexivity. Qed.
(* C23 is false for a public key that may not be destroyed: it stays although the call failed, and no handle to it is returned. *)
Theorem C23_lasting_refuted : let c := ec_pair lasting_public token_too in
  from_scratch toy toy_be toy_env out23 /\ works toy_be out23 /\ toy_rv out23 c = CKR_USER_NOT_LOGGED_IN /\ toy_out out23 c = ONone /\
  ~ nothing_new toy_be out23 (after toy toy_be toy_env out23 c) 0.
Proof.
  cbv zeta. split; [apply scratch_end|]. split; [apply calm_works; vm_compute; reflexivity|]. split; [vm_compute; reflexivity|]. split; [vm_compute; reflexivity|].
  intros H. apply (nothing_counts _ _ 9 0 10 0) in H; [lia|vm_compute; reflexivity|vm_compute; reflexivity].
Qed.
(* C23 is false if the database fails when the public key is to be removed too. *)
Theorem C23_twice_refuted : let c := ec_pair token_too token_too in let w := at_once in23 [breaks [None; Some IoDevice; Some IoDevice]] in
  from_scratch toy toy_be toy_env w /\ toy_rv w c = CKR_DEVICE_ERROR /\ toy_out w c = ONone /\ ~ nothing_new toy_be w (after toy toy_be toy_env w c) 0.
Proof.
  cbv zeta. split; [apply scratch_on|].
  split; [vm_compute; reflexivity|]. split; [vm_compute; reflexivity|].
  intros H. apply (nothing_counts _ _ 9 0 9 1) in H; [lia|vm_compute; reflexivity|vm_compute; reflexivity].
Qed.
