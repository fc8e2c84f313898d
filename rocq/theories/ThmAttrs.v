(* C13, C15, C16: which changes of attributes are possible. *)
From Verif Require Import Base Monad Hoare Attr Obj Factory Tables Create Sqlite Storage Token Backend State Api Toy
  Rows ObjOk ObjNew Triple TokInv TokStep TokWp TokAuth Spec WorldWp Sessions SessionInv SessionFacts ObjWorld ObjView ObjAttrs NewView ObjFacts
  AttrFacts Errors ObjCalls ToyFacts SetFacts ThmObjects.

(* The attributes that may change only one way, and the value they stay at. *)
Definition one_way : list (N * bool) := [(CKA_SENSITIVE, true); (CKA_WRAP_WITH_TRUSTED, true); (CKA_EXTRACTABLE, false); (CKA_COPYABLE, false)].

Lemma one_way_tables ty b : In (ty, b) one_way ->
  forallb (only_to ty b) all_factories = true /\ forallb (lasting ty) all_factories = true /\ search_by_id ty = Some KBool.
Proof. intros H. repeat (destruct H as [H|H]; [injection H as <- <-; vm_compute; done|]). done. Qed.

(* Types a copy takes over from its origin whatever the template. *)
Definition copied (ty : N) (x : (N * N) * factory) : bool :=
  forallb (fun oa => negb (oa_type oa =? ty) || (oa_is oa OA_Unchangeable && negb (oa_is oa OA_ChangeOnCopy))) (f_attrs (snd x)).

Section attrs.
Context (P : params) (B : backend) (E : N -> keyenv).
Context (Hfs : p_fs P = all_factories) (Hutf : forall n, utf8_valid (p_uuid P n) = true).
Notation world := (world B).
Notation from_scratch := (from_scratch P B E). Notation rv := (rv P B E). Notation after := (after P B E). Notation run := (run P B E).
Notation out_of := (out_of P B E).
Notation id_at := (id_at B). Notation owner_at := (owner_at B). Notation session_object_at := (session_object_at B).
Notation attr_at := (attr_at B). Notation bool_at := (bool_at B).
Notation slot_of := (slot_of B). Notation same_object := (same_object B).

Lemma bool_attr_at w sid h ty : bool_at w sid h ty = match attr_at w sid h ty with Some a => opt (attr_to_bool a) | None => None end.
Proof. unfold Spec.bool_at, Spec.attr_at, bool_of. by destruct (token_of B w sid). Qed.

(* C13: whatever calls are made, as long as the handle names an object. *)
Theorem C13_one_way w cs sid h u ty b : from_scratch w -> forallb (keeps_token sid) cs = true -> no_replace B w sid cs ->
  In (ty, b) one_way -> id_at w sid h = Some u -> bool_at w sid h ty = Some b ->
  id_at (fst (run w cs)) sid h <> None -> bool_at (fst (run w cs)) sid h ty = Some b.
Proof.
  intros Hs Hk Hd Hty Hid Hb Hid'. apply (scratch_winv P B E Hfs Hutf) in Hs. destruct (one_way_tables _ _ Hty) as (T1 & T2 & T3).
  rewrite bool_attr_at in *. apply (run_stays P B E Hfs Hutf cs w sid h u ty (fun a => match a with Some a => opt (attr_to_bool a) | None => None end = Some b) T2); try done.
  intros t tmpl f c a _ Hf Hset _. rewrite (set_bool_to P t h tmpl f c a ty b T1 T3 Hf Hset). by destruct b.
Qed.
(* A copy has the values of its origin. *)
Lemma copy_takes f o tmpl n uid ty : forallb (copied ty) all_factories = true ->
  factories_copy uid (p_fs P) o tmpl = Ok n -> ty <> CKA_CLASS -> ty <> CKA_UNIQUE_ID -> ty <> CKA_NEVER_EXTRACTABLE -> ty <> CKA_ALWAYS_SENSITIVE ->
  get_object_factory (p_fs P) o = Ok f -> get_attr n ty = get_attr o ty.
Proof.
  intros Ht Hc N1 N2 N3 N4 Hof. destruct (copy_attr P Hfs _ _ _ _ Hc) as (_ & f' & F1 & F2 & F3). rewrite Hof in F1. injection F1 as <-.
  destruct (F3 ty N1 N2 N3 N4) as [H|(c & x & oa & _ & _ & _ & _ & C5 & C6)]; [done|]. exfalso.
  destruct (good_check _ f Ht F2) as [k Hk]. apply find_oa_in in C5 as [C5 C7]. pose proof (proj1 (forallb_forall _ _) Hk _ C5) as Hx. cbv beta in Hx.
  rewrite C7, N.eqb_refl in Hx. cbn [negb orb] in Hx. apply andb_prop in Hx as [X1 X2]. rewrite (C6 X1) in X2. done.
Qed.
Lemma seen_attr t h o ty k : tok_ok t -> seen P t h o -> search_by_id ty = Some k -> k <> KBytes -> get_attr o ty = attr_of t h ty.
Proof.
  intros Ht [H|[H1 H2]] Hk Hb; [unfold attr_of; by rewrite H|]. by eapply (fetched_attr P Hfs t h [] o ty k).
Qed.
Lemma placed_attr t t' sh h o ty : placed P t t' sh h o -> new_ok o -> ty <> CKA_CLASS \/ agree o -> forallb (lasting ty) all_factories = true ->
  search_by_id ty = Some KBool \/ search_by_id ty = Some KNum -> attr_of t' h ty = get_attr o ty.
Proof.
  intros [_ _ Hm Hd] [[Hp _] _] Hc Hl Hk. destruct (is_token o).
  - destruct (Hd eq_refl) as (_ & f & uid & F1 & F2 & F3). pose proof (obj_factory_good P Hfs _ _ F1) as Hf.
    destruct (F3 ty Hc) as [F4 _]; [by eapply good_lasting|]. rewrite F4.
    + unfold kept_attr_of. destruct (get_attr o ty) as [a|] eqn:Ha; [|done]. pose proof (pre_get_wf _ _ _ Hp Ha) as Hw.
      pose proof (get_type _ _ _ Ha) as Hty. assert (is_kept a = true) as -> by (destruct Hk; [apply (wf_kept a KBool)|apply (wf_kept a KNum)]; congruence).
      f_equal. unfold norm. rewrite Hty. destruct (a_kind a); try done. destruct Hk as [-> | ->]; done.
    + intros Hin. apply (good_sensitive _ _ Hf) in Hin. destruct Hk; congruence.
  - unfold attr_of. by rewrite (Hm eq_refl).
Qed.
Theorem C13_copy w s h tm cnt p sid n ty b : from_scratch w -> slot_of w s = Some sid -> In (ty, b) one_way ->
  out_of w (CopyObject s h tm cnt p) = OHandle n ->
  bool_at (after w (CopyObject s h tm cnt p)) sid n ty = bool_at w sid h ty.
Proof.
  intros Hs Hsl Hty Ho. apply (scratch_winv P B E Hfs Hutf) in Hs. destruct (one_way_tables _ _ Hty) as (_ & T2 & T3).
  assert (forallb (copied ty) all_factories = true /\ ty <> CKA_CLASS /\ ty <> CKA_UNIQUE_ID /\ ty <> CKA_NEVER_EXTRACTABLE /\ ty <> CKA_ALWAYS_SENSITIVE) as (T1 & N1 & N2 & N3 & N4).
  { repeat (destruct Hty as [Hty|Hty]; [injection Hty as <- <-; vm_compute; done|]). done. }
  destruct (copy_call P B E w s h tm cnt p Hs) as [[_ [e Ha]]|(sid' & se & t & t' & l & r & C1 & C2 & C3 & -> & C5 & C6 & C7)].
  { apply answer_err in Ha as [_ Ha]. congruence. }
  assert (sid' = sid) as -> by (unfold Spec.slot_of in Hsl; congruence). destruct r as [n'|e]; [|apply answer_err in C7 as [_ C7]; congruence].
  apply answer_ok in C7 as [_ C7]. assert (n' = n) as -> by congruence. destruct C3 as (R1 & R2 & _).
  pose proof (token_ok B _ _ _ Hs R1) as Ht.
  assert (wp (copy_object P s h (default [] tm)) t (fun t' r => match r with Ok n => attr_of t' n ty = attr_of t h ty | Err _ => True end)) as Hwp.
  { apply (wp_copy_object P Hfs); [done|done| |done]. intros t0 t1 o uid m h' Hn Hso Hf Hm Hu -> Hpl.
    rewrite (placed_attr _ _ _ _ _ ty Hpl Hm (or_introl N1) T2 (or_introl T3)). destruct (copy_attr P Hfs _ _ _ _ Hf) as (_ & f' & F1 & _).
    rewrite (copy_takes f' o _ m uid ty T1 Hf N1 N2 N3 N4 F1). eapply (seen_attr t h o ty KBool); [done| |done|done]. destruct Hso as [|(? & ? & _)]; [by left|by right]. }
  unfold wp in Hwp. rewrite C6 in Hwp. cbn [fst snd] in Hwp. rewrite !bool_attr_at. unfold Spec.attr_at. by rewrite R1, R2, Hwp.
Qed.

(* ---- C15 ---- *)
Lemma seen_bool t h o ty b d : tok_ok t -> seen P t h o -> search_by_id ty = Some KBool -> bool_of t h ty = Some b -> bool_attr ty d o = b.
Proof.
  intros Ht Ho Hk. unfold bool_of, bool_attr. rewrite <- (seen_attr t h o ty KBool Ht Ho Hk) by done. destruct (get_attr o ty) as [a|]; [|done].
  by destruct (attr_to_bool a) as [[]|]; intros [= <-].
Qed.
Lemma set_sobjs_same t h o : t_sobjs t !! h = Some o -> set_sobjs (<[h := o]> (t_sobjs t)) t = t.
Proof. intros H. rewrite insert_id by done. by destruct t. Qed.
Lemma set_refused t h l : tok_ok t -> bool_of t h CKA_MODIFIABLE = Some false ->
  wp (set_object_attrs P h l) t (fun t' r => noise t t' /\ exists e, r = Err e).
Proof.
  intros Ht Hb. unfold set_object_attrs. apply wp_bind, wp_gets. destruct (t_sobjs t !! h) as [o|] eqn:Ho.
  - apply wp_bind, wp_lift. destruct (get_object_factory _ o) as [f|e]; [|by split; [reflexivity|eauto]].
    assert (is_modifiable o = false) as Hm by (eapply (seen_bool t h); [done|by left|done|done]).
    unfold set_object_attributes. rewrite Hm. cbn [negb]. apply wp_bind, wp_modify, wp_lift. rewrite set_sobjs_same by done. split; [reflexivity|eauto].
  - apply wp_bind, wp_gets, wp_bind, wp_ensure; [intros _|by split; [reflexivity|eauto]].
    apply wp_bind, wp_st_fetch; [|intros; split; [apply noise_io|eauto]]. intros i o Hf. apply wp_bind, wp_lift.
    destruct (get_object_factory _ o) as [f|e]; [|by split; [apply noise_io|eauto]]. apply wp_bind, wp_ensure; [|split; [apply noise_io|eauto]].
    unfold is_modifiable, bool_attr. rewrite (fetched_attr P Hfs t h _ o CKA_MODIFIABLE KBool Ht Hf Ho) by done.
    unfold bool_of in Hb. destruct (attr_of t h CKA_MODIFIABLE) as [a|]; [|done]. destruct (attr_to_bool a) as [[]|]; done.
Qed.
Lemma destroy_refused t h : tok_ok t -> bool_of t h CKA_DESTROYABLE <> Some true ->
  wp (destroy_object P h) t (fun t' r => noise t t' /\ exists e, r = Err e).
Proof.
  intros Ht Hb. unfold destroy_object. apply wp_bind, wp_gets, wp_bind. destruct (t_sobjs t !! h) as [o|] eqn:Ho.
  - apply wp_bind, wp_ensure; [|split; [reflexivity|eauto]]. intros Hd. exfalso. apply Hb. apply bool_attr_true in Hd as (a & Ha & Hx).
    unfold bool_of, attr_of. rewrite Ho, Ha. cbn. by rewrite Hx.
  - apply wp_bind, wp_st_fetch; [|intros; split; [apply noise_io|eauto]]. intros i o Hf. apply wp_bind, wp_ensure; [|split; [apply noise_io|eauto]].
    intros Hd. exfalso. apply Hb. apply bool_attr_true in Hd as (a & Ha & Hx). unfold bool_of.
    rewrite <- (fetched_attr P Hfs t h [CKA_DESTROYABLE] o CKA_DESTROYABLE KBool Ht Hf Ho) by done. rewrite Ha. cbn. by rewrite Hx.
Qed.
Lemma copy_refused t s h l : tok_ok t -> bool_of t h CKA_COPYABLE = Some false ->
  wp (copy_object P s h l) t (fun t' r => noise t t' /\ exists e, r = Err e).
Proof.
  intros Ht Hb. unfold copy_object. apply wp_bind, wp_gets, wp_bind.
  assert (forall t0 o, noise t t0 -> seen P t h o ->
    wp (let! uid := new_uid P in let! n := lift (factories_copy uid (p_fs P) o l) in insert_object P s n) t0 (fun t' r => noise t t' /\ exists e, r = Err e)) as Hgo.
  { intros t0 o Hn Ho. unfold new_uid. apply wp_bind, wp_bind, wp_draw, wp_ret, wp_bind, wp_lift.
    assert (is_copyable o = false) as Hc by (by eapply (seen_bool t h)). unfold factories_copy. rewrite Hc. cbn [negb].
    split; [etransitivity; [exact Hn|apply noise_fresh]|eauto]. }
  destruct (t_sobjs t !! h) as [o|] eqn:Hs.
  - apply wp_ret. apply Hgo; [reflexivity|by left].
  - apply wp_bind, wp_st_fetch; [|intros; split; [apply noise_io|eauto]]. intros i o Hf. apply wp_bind, wp_gets, wp_bind, wp_ensure; [|intros; split; [apply noise_io|eauto]].
    intros Hl. apply wp_ret. apply Hgo; [apply noise_io|by right].
Qed.
Lemma replaced_idle w w' sid t t' : replaced B w w' sid t t' -> noise t t' -> idle B w w'.
Proof.
  intros (R1 & R2 & R3) Hn i. destruct (decide (i = sid)) as [->|Hne]; [by rewrite R1, R2|]. rewrite (R3 i Hne). destruct (token_of B w i); [reflexivity|done].
Qed.
(* The call is refused: it returns an error and leaves every object of every slot as it was. *)
Definition refused_call (w : world) (c : call) : Prop :=
  (sane (fun e => e <> CKR_OK) P B E -> rv w c <> CKR_OK) /\ out_of w c = ONone /\ forall sid h, same_object w (after w c) sid h.
Lemma idle_refused w c e : idle B w (after w c) -> answer P B E w c = Err e -> refused_call w c.
Proof.
  intros Hi Ha. pose proof (answer_err _ _ _ _ _ _ Ha) as [A1 A2]. split_and!; [|done|by intros; apply idle_same].
  intros HS Hok. destruct (answer_sane P B E w c HS Hok) as [o Ho]. congruence.
Qed.
Lemma bool_at_token w sid t h ty : token_of B w sid = Some t -> bool_at w sid h ty = bool_of t h ty.
Proof. intros H. unfold Spec.bool_at. by rewrite H. Qed.
Lemma noise_bool t t' h ty : noise t t' -> bool_of t' h ty = bool_of t h ty.
Proof. by intros (i & n & ->). Qed.
Theorem C15_modifiable w s h tm cnt sid : from_scratch w -> slot_of w s = Some sid -> bool_at w sid h CKA_MODIFIABLE = Some false ->
  refused_call w (SetAttributeValue s h tm cnt).
Proof.
  intros Hs Hsl Hb. apply (scratch_winv P B E Hfs Hutf) in Hs.
  destruct (set_call P B E w s h tm cnt Hs) as [[Hi [e Ha]]|(sid' & se & t & t0 & t' & l & o & r & C1 & C2 & C3 & C4 & C5 & C6 & C7 & C8 & C9 & C10)]; [by eapply idle_refused|].
  assert (sid' = sid) as -> by (unfold Spec.slot_of in Hsl; congruence). pose proof (token_ok B _ _ _ Hs (proj1 C4)) as Ht. rewrite (bool_at_token _ _ _ _ _ (proj1 C4)) in Hb.
  pose proof (set_refused t0 h l (noise_ok _ _ C3 Ht) ltac:(by rewrite (noise_bool _ _ _ _ C3))) as Hwp. unfold wp in Hwp. rewrite C9 in Hwp. destruct Hwp as [W1 [e W2]]. cbn [snd] in W2. subst r.
  eapply idle_refused; [|exact C10]. eapply replaced_idle; [exact C4|]. by transitivity t0.
Qed.
Theorem C15_destroyable w s h sid : from_scratch w -> slot_of w s = Some sid -> bool_at w sid h CKA_DESTROYABLE <> Some true ->
  refused_call w (DestroyObject s h).
Proof.
  intros Hs Hsl Hb. apply (scratch_winv P B E Hfs Hutf) in Hs.
  destruct (destroy_call P B E w s h Hs) as [[Hi [e Ha]]|(sid' & se & t & t0 & t' & o & r & C1 & C2 & C3 & C4 & C6 & C7 & C8 & C9 & C10)]; [by eapply idle_refused|].
  assert (sid' = sid) as -> by (unfold Spec.slot_of in Hsl; congruence). pose proof (token_ok B _ _ _ Hs (proj1 C4)) as Ht. rewrite (bool_at_token _ _ _ _ _ (proj1 C4)) in Hb.
  pose proof (destroy_refused t0 h (noise_ok _ _ C3 Ht) ltac:(by rewrite (noise_bool _ _ _ _ C3))) as Hwp. unfold wp in Hwp. rewrite C9 in Hwp. destruct Hwp as [W1 [e W2]]. cbn [snd] in W2. subst r.
  eapply idle_refused; [|exact C10]. eapply replaced_idle; [exact C4|]. by transitivity t0.
Qed.
Theorem C15_copyable w s h tm cnt p sid : from_scratch w -> slot_of w s = Some sid -> bool_at w sid h CKA_COPYABLE = Some false ->
  refused_call w (CopyObject s h tm cnt p).
Proof.
  intros Hs Hsl Hb. apply (scratch_winv P B E Hfs Hutf) in Hs.
  destruct (copy_call P B E w s h tm cnt p Hs) as [[Hi [e Ha]]|(sid' & se & t & t' & l & r & C1 & C2 & C4 & C5 & C6 & C9 & C10)]; [by eapply idle_refused|].
  assert (sid' = sid) as -> by (unfold Spec.slot_of in Hsl; congruence). pose proof (token_ok B _ _ _ Hs (proj1 C4)) as Ht. rewrite (bool_at_token _ _ _ _ _ (proj1 C4)) in Hb.
  pose proof (copy_refused t s h l Ht Hb) as Hwp. unfold wp in Hwp. rewrite C9 in Hwp. destruct Hwp as [W1 [e W2]]. cbn [snd] in W2. subst r.
  eapply idle_refused; [|exact C10]. by eapply replaced_idle.
Qed.

(* ---- C16 ---- *)
Definition convertible (l : list ckattr) : bool := forallb (fun c => is_ok (from_ck_attr c)) l.
Lemma apply_convertible l o : convertible l = true -> exists o', apply_template o l = (o', Ok tt).
Proof.
  revert o. induction l as [|c l IH]; intros o; cbn [apply_template convertible forallb]; [eauto|]. intros H. apply andb_prop in H as [H1 H2].
  destruct (from_ck_attr c) as [a|] eqn:Ha; [|done]. cbn [rbind]. destruct (from_ck_kind _ _ Ha) as [K1 K2].
  assert (exists o', set_attr o a = Ok o') as [o' ->]; [|by apply IH]. unfold set_attr. destruct (N.eqb_spec (a_type a) CKA_CLASS) as [He|]; [|eauto].
  assert (ca_type c = CKA_CLASS) as Hcc by congruence. revert Ha. unfold from_ck_attr. rewrite Hcc. cbn [search_by_id]. change (search_by_id CKA_CLASS) with (Some KNum).
  destruct (ck_to_ulong c) as [x|]; cbn [rbind]; [|done]. intros Hx. injection Hx as <-. cbn. eauto.
Qed.
(* A call that fails leaves every object as it was: token objects always, session objects if every entry of the
   template has a value of the right form for its type. *)
Theorem C16_failure_partial w s h tm cnt sid : from_scratch w -> slot_of w s = Some sid ->
  session_object_at w sid h = false \/ convertible (default [] tm) = true ->
  rv w (SetAttributeValue s h tm cnt) <> CKR_OK -> forall i x, same_object w (after w (SetAttributeValue s h tm cnt)) i x.
Proof.
  intros Hs Hsl Hk Hr i x. apply (scratch_winv P B E Hfs Hutf) in Hs.
  destruct (set_call P B E w s h tm cnt Hs) as [[Hi _]|(sid' & se & t & t0 & t' & l & o & r & C1 & C2 & C3 & C4 & C5 & C6 & C7 & C8 & C9 & C10)]; [by apply idle_same|].
  assert (sid' = sid) as -> by (unfold Spec.slot_of in Hsl; congruence). pose proof (token_ok B _ _ _ Hs (proj1 C4)) as Ht.
  destruct r as [[]|e]; [apply answer_ok in C10 as [C10 _]; congruence|]. apply idle_same. eapply replaced_idle; [exact C4|]. transitivity t0; [done|].
  destruct (t_sobjs t0 !! h) as [o0|] eqn:Ho.
  - destruct Hk as [Hk|Hk].
    + unfold Spec.session_object_at in Hk. rewrite (proj1 C4) in Hk. unfold is_session_object in Hk. destruct C3 as (i3 & n3 & ->). cbn in Ho. rewrite Ho in Hk. done.
    + subst l. unfold set_object_attrs in C9. unfold gets, mbind at 1, modify, lift in C9. cbn in C9. rewrite Ho in C9. unfold mbind, lift, modify in C9. destruct (get_object_factory _ o0) as [f|e']; [|by injection C9 as <- _].
      unfold set_object_attributes in C9. destruct (negb _); [injection C9 as <- _; by rewrite set_sobjs_same|].
      destruct (check_set_attributes _ _) as [[]|]; [|injection C9 as <- _; by rewrite set_sobjs_same]. destruct (apply_convertible _ o0 Hk) as [o' Ho']. rewrite Ho' in C9. done.
  - eapply (set_object_failed P Hfs); [|exact Ho|exact C9]. by eapply noise_ok.
Qed.
(* The attribute types a token object may keep sealed. *)
Definition secret_types : list N := [CKA_PRIVATE_EXPONENT; CKA_PRIME_1; CKA_PRIME_2; CKA_EXPONENT_1; CKA_EXPONENT_2; CKA_COEFFICIENT; CKA_SEED; CKA_VALUE].
Lemma sens_secret f ty : good_factory f -> In ty (f_sensitive f) -> In ty secret_types.
Proof.
  intros Hf Hin. destruct (good_check (fun x => forallb (fun ty => existsb (N.eqb ty) secret_types) (f_sensitive (snd x))) f eq_refl Hf) as [k Hk].
  pose proof (proj1 (forallb_forall _ _) Hk _ Hin) as Hx. apply existsb_exists in Hx as (x & Hx & He). by apply N.eqb_eq in He as ->.
Qed.
Lemma eph_flags f ty : good_factory f -> In ty (f_ephemeral f) -> ty = CKA_OBJECT_VALIDATION_FLAGS.
Proof.
  intros Hf Hin. destruct (good_check (fun x => forallb (fun ty => ty =? CKA_OBJECT_VALIDATION_FLAGS) (f_ephemeral (snd x))) f eq_refl Hf) as [k Hk].
  pose proof (proj1 (forallb_forall _ _) Hk _ Hin) as Hx. by apply N.eqb_eq in Hx.
Qed.
(* A call that succeeds gives every attribute of the template the value of its (last) entry and leaves the others. Secret
   values of token objects are stored sealed under the token's key and bound to the object. *)
Theorem C16_success w s h tm cnt sid t : from_scratch w -> sane (fun e => e <> CKR_OK) P B E -> slot_of w s = Some sid -> token_of B w sid = Some t ->
  let c := SetAttributeValue s h tm cnt in let l := default [] tm in
  rv w c = CKR_OK -> forall ty, ty <> CKA_OBJECT_VALIDATION_FLAGS -> search_by_id ty <> Some KIgnore ->
  (session_object_at w sid h = true \/ ~ In ty secret_types -> set_to l ty (attr_at w sid h ty) (attr_at (after w c) sid h ty)) /\
  (session_object_at w sid h = false -> In ty secret_types -> single l ty ->
    set_to l ty (attr_at w sid h ty) (attr_at (after w c) sid h ty) \/
    exists c' uid e, find_ck l ty = Some c' /\ id_at w sid h = Some uid /\ is_sealed P t uid (ck_to_buf c') e /\ attr_at (after w c) sid h ty = Some (from_bytes ty e)).
Proof.
  intros Hs HS Hsl Htk c l Hr ty Hte Htk2. apply (scratch_winv P B E Hfs Hutf) in Hs.
  destruct (answer_sane P B E w c HS Hr) as [oo Hoo].
  destruct (set_call P B E w s h tm cnt Hs) as [[_ [e He]]|(sid' & se & t1 & t0 & t' & l' & o & r & C1 & C2 & C3 & C4 & C5 & C6 & C7 & C8 & C9 & C10)].
  { unfold c in Hoo. congruence. }
  assert (sid' = sid) as -> by (unfold Spec.slot_of in Hsl; congruence). assert (t1 = t) as -> by (destruct C4; congruence).
  pose proof (token_ok B _ _ _ Hs Htk) as Ht. assert (r = Ok tt) as -> by (destruct r as [[]|e]; [done|unfold c in Hoo; congruence]). subst l'.
  pose proof (set_object_done P Hfs _ _ _ _ (noise_ok _ _ C3 Ht) C9) as Hd. destruct C4 as (R1 & R2 & _).
  unfold Spec.attr_at, Spec.session_object_at, Spec.id_at. fold c in R2. rewrite R1, R2. fold l in Hd. destruct C3 as (i3 & n3 & ->).
  cbn [t_sobjs set_io set_fresh t_handles] in Hd. change (attr_of (set_io i3 (set_fresh n3 t)) h) with (attr_of t h) in Hd.
  unfold is_session_object. destruct (t_sobjs t !! h) as [o1|] eqn:Ho1.
  - split; [intros _; apply Hd|done].
  - destruct Hd as (_ & f & uid & F1 & F2 & F3). destruct (F3 ty) as [F4 F5]. { intros Hin. apply Hte. by eapply eph_flags. }
    split.
    + intros [?|Hns]; [done|]. apply F4; [|done]. intros Hin. by apply Hns, (sens_secret f).
    + intros _ Hin Hsi. destruct (in_dec N.eq_dec ty (f_sensitive f)) as [Hse|Hse]; [|left; by apply F4]. specialize (F5 Hse Hsi).
      destruct (find_ck l ty) as [c'|] eqn:Hc'.
      * right. destruct F5 as (e & E1 & E2). exists c', uid, e. split_and!; done.
      * left. unfold set_to. by rewrite single_last, Hc'.
Qed.
End attrs.

(* ---- cases ---- *)
Notation toy_after := (after toy toy_be toy_env).
Definition sens_aes (tok : bool) : list ckattr := aes_tmpl tok ++ [tbool CKA_SENSITIVE true; tbool CKA_EXTRACTABLE true; tbool CKA_DESTROYABLE true].
Definition wa := fst (toy_run toy_user [CreateObject 2 (Some (sens_aes true)) true; CreateObject 2 (Some (sens_aes false)) true;
  CreateObject 2 (Some (aes_tmpl true ++ [tbool CKA_MODIFIABLE false; tbool CKA_COPYABLE false; tbool CKA_DESTROYABLE false])) true]).
Example wa_case : map (fun h => bool_at toy_be wa 0 h CKA_SENSITIVE) [10; 11; 12] = [Some true; Some true; Some true] /\
  map (fun h => bool_at toy_be wa 0 h CKA_MODIFIABLE) [10; 11; 12] = [Some true; Some true; Some false] /\
  map (fun h => bool_at toy_be wa 0 h CKA_COPYABLE) [10; 11; 12] = [Some true; Some true; Some false] /\
  map (fun h => bool_at toy_be wa 0 h CKA_DESTROYABLE) [10; 11; 12] = [Some true; Some true; Some false] /\
  map (session_object_at toy_be wa 0) [10; 11; 12] = [false; true; false].
Proof. vm_compute. done. Qed.
(* Protecting a key succeeds, lifting the protection does not; the history meets the conditions of C13. *)
Definition unprotect : list call :=
  [SetAttributeValue 2 10 (Some [tbool CKA_SENSITIVE false]) 1; SetAttributeValue 2 11 (Some [tbool CKA_LABEL true; tbool CKA_SENSITIVE false]) 2;
   SetAttributeValue 2 11 (Some [tbool CKA_EXTRACTABLE false]) 1; SetAttributeValue 2 11 (Some [tbool CKA_EXTRACTABLE true]) 1; CopyObject 2 11 (Some [tbool CKA_TOKEN true]) 1 true].
Example C13_case : forallb (keeps_token 0) unprotect = true /\ no_replace toy_be wa 0 unprotect /\
  map fst (snd (toy_run wa unprotect)) = [CKR_ATTRIBUTE_READ_ONLY; CKR_ATTRIBUTE_READ_ONLY; CKR_OK; CKR_ATTRIBUTE_READ_ONLY; CKR_OK] /\
  bool_at toy_be (fst (toy_run wa unprotect)) 0 11 CKA_EXTRACTABLE = Some false /\ bool_at toy_be (fst (toy_run wa unprotect)) 0 13 CKA_EXTRACTABLE = Some false.
Proof.
  split; [done|]. split; [|by vm_compute]. left. intros t Ht. assert (option_map t_dedup (token_of toy_be wa 0) = Some None) as H by by vm_compute.
  rewrite Ht in H. by injection H.
Qed.
Example C15_case : map fst (snd (toy_run wa [SetAttributeValue 2 12 (Some [tbool CKA_ENCRYPT true]) 1; CopyObject 2 12 (Some []) 0 true; DestroyObject 2 12;
  SetAttributeValue 2 10 (Some [tbool CKA_ENCRYPT true]) 1; CopyObject 2 10 (Some []) 0 true; DestroyObject 2 10])) =
  [CKR_ACTION_PROHIBITED; CKR_ACTION_PROHIBITED; CKR_ACTION_PROHIBITED; CKR_OK; CKR_OK; CKR_OK].
Proof. vm_compute. done. Qed.
(* A template whose second entry is not acceptable, on a token object; and one that is applied, with a repeated entry. *)
Definition bad_second : list ckattr := [tbool CKA_ENCRYPT true; ca CKA_START_DATE [1; 2; 3]].
Example C16_case : toy_rv wa (SetAttributeValue 2 10 (Some bad_second) 2) = CKR_ATTRIBUTE_VALUE_INVALID /\
  let c := SetAttributeValue 2 10 (Some [ca CKA_VALUE (repeat 8 16); tbool CKA_ENCRYPT true; tbool CKA_ENCRYPT false; tbool CKA_SIGN true]) 4 in
  toy_rv wa c = CKR_OK /\ map (bool_at toy_be (toy_after wa c) 0 10) [CKA_ENCRYPT; CKA_SIGN; CKA_SENSITIVE] = [Some false; Some true; Some true].
Proof. vm_compute. done. Qed.
(* On a session object the same template is applied up to the entry that fails. *)
Theorem C16_session_refuted : exists w s h tm cnt, from_scratch toy toy_be toy_env w /\
  toy_rv w (SetAttributeValue s h tm cnt) <> CKR_OK /\ ~ same_object toy_be w (toy_after w (SetAttributeValue s h tm cnt)) 0 h.
Proof.
  exists wa, 2, 11, (Some bad_second), 2. split; [apply toy_user_scratch|]. split; [by vm_compute|]. intros (_ & _ & _ & H). specialize (H CKA_ENCRYPT). vm_compute in H. discriminate.
Qed.
