(* C24: the attributes that tell how a key came to exist. *)
From Verif Require Import Base Monad Hoare Attr Obj Factory Tables Create Sqlite Storage Token Backend State Api Toy
  ObjSpec Rows ObjOk ObjNew Triple TokInv TokStep TokenFrame TokWp TokAuth Spec WorldWp Sessions SessionInv SessionFacts ObjWorld ObjView ObjAttrs NewView ObjFacts
  AttrFacts Errors ObjCalls ToyFacts SetFacts ThmObjects ThmAttrs Origin.

(* A table that says nothing of certificates and keeps CKA_TRUSTED from being set, or the table of certificates. *)
Definition no_cert (x : (N * N) * factory) : bool :=
  (f_class (snd x) =? CKO_CERTIFICATE) ||
  fixed CKA_TRUSTED x && forallb (fun oa => negb (oa_type oa =? CKA_CERTIFICATE_TYPE)) (f_attrs (snd x)).
Lemma no_certs : forallb no_cert all_factories = true. Proof. vm_compute. done. Qed.
Lemma check_no_cert f tmpl c : good_factory f -> f_class f <> CKO_CERTIFICATE -> check_set_attributes (f_attrs f) tmpl = Ok tt -> In c tmpl ->
  ca_type c <> CKA_TRUSTED /\ ca_type c <> CKA_CERTIFICATE_TYPE.
Proof.
  intros Hf Hc Hs Hin. destruct (good_check _ f no_certs Hf) as [k Hk]. unfold no_cert in Hk. cbn [snd] in Hk. rewrite (proj2 (N.eqb_neq _ _) Hc) in Hk. cbn [orb] in Hk.
  apply andb_prop in Hk as [K1 K2]. destruct (check_set_in _ _ _ Hs Hin) as (oa & H1 & H2 & H3). apply find_oa_in in H1 as [H1 H4]. split; intros He.
  - pose proof (proj1 (forallb_forall _ _) K1 _ H1) as Hx. cbv beta in Hx. rewrite H4, He, N.eqb_refl, H2 in Hx. cbn [negb orb] in Hx.
    rewrite !andb_true_iff in Hx. destruct Hx as [[Hu Hx1] Hx2]. destruct (H3 Hu) as (_ & v & Hv & Hw). destruct v; rewrite Hw in *; done.
  - pose proof (proj1 (forallb_forall _ _) K2 _ H1) as Hx. cbv beta in Hx. rewrite H4, He, N.eqb_refl in Hx. done.
Qed.

Section origin.
Context (P : params) (B : backend) (E : N -> keyenv).
Context (Hfs : p_fs P = all_factories) (Hutf : forall n, utf8_valid (p_uuid P n) = true).
Notation world := (world B).
Notation from_scratch := (from_scratch P B E). Notation rv := (rv P B E). Notation after := (after P B E). Notation run := (run P B E).
Notation out_of := (out_of P B E). Notation answer := (answer P B E).
Notation id_at := (id_at B). Notation attr_at := (attr_at B). Notation bool_at := (bool_at B). Notation slot_of := (slot_of B). Notation token_of := (token_of B).
Notation winv := (winv B).

Lemma set_no_cert t h tmpl f c a ty : good_factory f -> attr_of t h CKA_CERTIFICATE_TYPE = None -> set_by P t h tmpl ty a f c -> ty <> CKA_TRUSTED /\ ty <> CKA_CERTIFICATE_TYPE.
Proof.
  intros Hf Hn [(o & O1 & O2 & _) S2 S3 <- _]. eapply check_no_cert; [done| |done|done].
  intros Hc. unfold get_object_factory in O2. rewrite Hfs in O2. peel O2. peel O2. apply get_factory_good in O2 as [_ O2]. cbn [fst] in O2.
  assert (a0 = CKO_CERTIFICATE) as -> by congruence. cbn in E1. unfold get_ulong, get_as in E1. rewrite (proj2 O1), Hn in E1. done.
Qed.
Definition trusts (h : N) (u : bytes) (x : option attr) (t : token) : Prop :=
  gone h t \/ object_id t h = Some u /\ attr_of t h CKA_CERTIFICATE_TYPE = None /\ attr_of t h CKA_TRUSTED = x.
Lemma trusts_step h u x k t t' : tok_ok t -> tstep P k t t' -> mild k -> trusts h u x t -> trusts h u x t'.
Proof.
  intros Ht Hs [Hk1 Hk2] [Hg|(Hid & Hc & Hx)]; [left; by eapply (tstep_gone P Hfs)|].
  assert (forall ty, ty = CKA_CERTIFICATE_TYPE \/ ty = CKA_TRUSTED -> gone h t' \/ object_id t' h = Some u /\ attr_of t' h ty = attr_of t h ty) as Ha.
  { intros ty Hty. destruct (tstep_attr P Hfs k t t' h u ty Ht Hs Hk1 Hid) as [Hg|[Hid' [He|[[He _]|(tmpl & f & _ & Hf & [He|[c Hcc]])]]]]; [by left|by right|by destruct (Hk2 h)| |].
    - exfalso. revert He. apply good_lasting; [|done]. destruct Hty as [->| ->]; by vm_compute.
    - exfalso. eapply set_no_cert in Hcc; [|done|done]. destruct Hcc, Hty; congruence. }
  destruct (Ha CKA_CERTIFICATE_TYPE (or_introl eq_refl)) as [?|[H1 H2]]; [by left|]. destruct (Ha CKA_TRUSTED (or_intror eq_refl)) as [?|[_ H3]]; [by left|].
  right. split_and!; congruence.
Qed.
(* No call changes these attributes of an object that exists. *)
Theorem C24_kept w cs sid h u ty : from_scratch w -> forallb (keeps_token sid) cs = true -> no_replace B w sid cs ->
  In ty [CKA_LOCAL; CKA_KEY_GEN_MECHANISM; CKA_ALWAYS_SENSITIVE; CKA_NEVER_EXTRACTABLE] -> id_at w sid h = Some u ->
  id_at (fst (run w cs)) sid h <> None -> attr_at (fst (run w cs)) sid h ty = attr_at w sid h ty.
Proof.
  intros Hs Hk Hd Hty Hid Hid'. apply (scratch_winv P B E Hfs Hutf) in Hs.
  assert (forallb (lasting ty) all_factories = true /\ forallb (fixed ty) all_factories = true) as [T1 T2].
  { cbn in Hty. destruct Hty as [<-|[<-|[<-|[<-|[]]]]]; vm_compute; done. }
  apply (run_stays P B E Hfs Hutf cs w sid h u ty (fun a => a = attr_at w sid h ty) T1); try done.
  intros t tmpl f c a _ Hf Hset _. exfalso. by eapply (no_set P).
Qed.
Theorem C24_kept_trusted w cs sid h u : from_scratch w -> forallb (keeps_token sid) cs = true -> no_replace B w sid cs ->
  attr_at w sid h CKA_CERTIFICATE_TYPE = None -> id_at w sid h = Some u ->
  id_at (fst (run w cs)) sid h <> None -> attr_at (fst (run w cs)) sid h CKA_TRUSTED = attr_at w sid h CKA_TRUSTED.
Proof.
  intros Hs Hk Hd. apply (scratch_winv P B E Hfs Hutf) in Hs. unfold Spec.id_at, Spec.attr_at. destruct (token_of w sid) as [t|] eqn:Ht; [|done]. intros Hc Hid Hx.
  destruct (run_keeps P B E Hfs Hutf (trusts h u (attr_of t h CKA_TRUSTED)) cs (trusts_step h u _) w sid t Hs Hk Ht) as (t' & T1 & T2 & _).
  - destruct Hd as [Hd|Hd]; [left; by apply Hd|by right].
  - by right.
  - rewrite T1 in *. destruct T2 as [Hg|(_ & _ & H)]; [|done]. by apply gone_id in Hg.
Qed.

(* A created key is not local, and neither always sensitive nor never extractable; a template naming one of the
   attributes is refused. *)
Lemma create_view env sh l t t' n : tok_ok t -> t_dedup t = None -> create_object P env sh l t = (t', Ok n) ->
  (forall o, factories_create env (p_uuid P (t_fresh t)) (p_fs P) l = Ok o -> (o_class o =? CKO_TRUST) || (o_class o =? CKO_NSS_TRUST) = false) ->
  exists o t0, factories_create env (p_uuid P (t_fresh t)) (p_fs P) l = Ok o /\ new_ok o /\ noise t t0 /\ n = h_next (t_handles t) /\ placed P t0 t' sh n o.
Proof.
  intros Ht Hd Hi Hcl. revert Hi. cut (wp (create_object P env sh l) t (fun t' r => match r with Ok n => exists o t0, factories_create env (p_uuid P (t_fresh t)) (p_fs P) l = Ok o /\ new_ok o /\
    noise t t0 /\ n = h_next (t_handles t) /\ placed P t0 t' sh n o | Err _ => True end)).
  { intros H Hi. unfold wp in H. by rewrite Hi in H. }
  unfold create_object, new_uid. apply wp_bind, wp_bind, wp_draw, wp_ret, wp_bind, wp_lift. destruct (factories_create _ _ _ _) as [o|] eqn:Ho; [|done].
  assert (new_ok o) as Hno. { rewrite Hfs in Ho. eapply made_new, factories_create_ok; [apply Hutf|exact Ho]. }
  assert (forall t0, noise t t0 -> t_handles t0 = t_handles t -> tok_ok t0 -> wp (insert_object P sh o) t0 (fun t' r => match r with Ok n => exists o0 t0,
    Ok o = Ok o0 /\ new_ok o0 /\ noise t t0 /\ n = h_next (t_handles t) /\ placed P t0 t' sh n o0 | Err _ => True end)) as Hins.
  { intros t0 Hn Hh Ht0. unfold wp. destruct (insert_object P sh o t0) as [t1 [h|]] eqn:Hi; [|done]. cbn [fst snd]. apply (insert_view P Hfs) in Hi as [-> Hp]; [|done|done].
    exists o, t0. rewrite Hh in *. done. }
  assert (noise t (set_fresh (t_fresh t + 1) t)) as Hn1 by apply noise_fresh. assert (tok_ok (set_fresh (t_fresh t + 1) t)) as Ht1 by (by eapply noise_ok).
  apply wp_bind. destruct (is_token o).
  - apply wp_bind, wp_gets, wp_bind, wp_ensure; [intros _|done]. unfold check_dedup. cbv zeta.
    apply wp_bind, wp_gets. cbn [t_dedup set_fresh]. rewrite Hd, (Hcl o eq_refl). apply wp_ret. by apply Hins.
  - apply wp_ret. by apply Hins.
Qed.
Lemma origin_type ty : In ty [CKA_LOCAL; CKA_ALWAYS_SENSITIVE; CKA_NEVER_EXTRACTABLE; CKA_KEY_GEN_MECHANISM; CKA_SENSITIVE; CKA_EXTRACTABLE; CKA_TRUSTED] ->
  ty <> CKA_CLASS /\ forallb (lasting ty) all_factories = true /\ (search_by_id ty = Some KBool \/ search_by_id ty = Some KNum).
Proof. intros H. cbn in H. repeat (destruct H as [<-|H]; [split; [done|split; [by vm_compute|first [by left|by right]]]|]). done. Qed.
Lemma placed_origin t t' sh h o ty : placed P t t' sh h o -> new_ok o ->
  In ty [CKA_LOCAL; CKA_ALWAYS_SENSITIVE; CKA_NEVER_EXTRACTABLE; CKA_KEY_GEN_MECHANISM; CKA_SENSITIVE; CKA_EXTRACTABLE; CKA_TRUSTED] -> attr_of t' h ty = get_attr o ty.
Proof. intros Hp Ho Hty. destruct (origin_type ty Hty) as (T1 & T2 & T3). eapply (placed_attr P Hfs); try done. by left. Qed.
Lemma attr_at_token w sid t h ty : token_of w sid = Some t -> attr_at w sid h ty = attr_of t h ty.
Proof. intros H. unfold Spec.attr_at. by rewrite H. Qed.
Theorem C24_created w s l p sid n cl : from_scratch w -> slot_of w s = Some sid -> (forall t, token_of w sid = Some t -> t_dedup t = None) ->
  let c := CreateObject s (Some l) p in
  out_of w c = OHandle n -> tmpl_ulong l CKA_CLASS = Ok cl -> In cl [CKO_PUBLIC_KEY; CKO_PRIVATE_KEY; CKO_SECRET_KEY; CKO_OTP_KEY] ->
  (forall x, In x l -> ~ In (ca_type x) [CKA_LOCAL; CKA_ALWAYS_SENSITIVE; CKA_NEVER_EXTRACTABLE; CKA_KEY_GEN_MECHANISM; CKA_TRUSTED]) /\
  bool_at (after w c) sid n CKA_LOCAL = Some false /\
  (cl <> CKO_PUBLIC_KEY -> bool_at (after w c) sid n CKA_ALWAYS_SENSITIVE = Some false /\ bool_at (after w c) sid n CKA_NEVER_EXTRACTABLE = Some false).
Proof.
  intros Hs Hsl Hd c Ho Hcl Hkc. apply (scratch_winv P B E Hfs Hutf) in Hs. unfold c in *.
  destruct (create_call P B E w s (Some l) p Hs) as [[_ [e Ha]]|(sid' & se & t & t0 & t' & l' & env & r & C1 & C2 & C3 & C4 & C5 & C6 & C7 & C8)].
  { apply answer_err in Ha as [_ Ha]. congruence. }
  assert (sid' = sid) as -> by (unfold Spec.slot_of in Hsl; congruence). injection C5 as <-. destruct r as [n'|e]; [|apply answer_err in C8 as [_ C8]; congruence].
  apply answer_ok in C8 as [_ C8]. assert (n' = n) as -> by congruence. destruct C3 as (R1 & R2 & _). pose proof (token_ok B _ _ _ Hs R1) as Ht.
  assert (t_dedup t0 = None) as Hd0. { destruct C4 as (i & m & ->). exact (Hd _ R1). }
  assert (key_class cl = true /\ (cl <> CKO_PUBLIC_KEY -> secret_class cl = true)) as [K1 K2].
  { cbn in Hkc. repeat (destruct Hkc as [<-|Hkc]; [split; [reflexivity|done]|]). done. }
  destruct (create_view _ _ _ _ _ _ (noise_ok _ _ C4 Ht) Hd0 C7) as (o & t1 & O1 & O2 & O3 & O4 & O5).
  { intros o Hf. rewrite Hfs in Hf. destruct (factories_created _ _ _ _ cl Hf Hcl K1) as [(F0 & _) _]. rewrite F0. cbn in Hkc. repeat (destruct Hkc as [<-|Hkc]; [reflexivity|]). done. }
  rewrite Hfs in O1.
  destruct (factories_created _ _ _ _ cl O1 Hcl K1) as [(_ & F1 & F2) F3]. split; [exact F3|].
  rewrite !(bool_attr_at B). unfold Spec.attr_at. rewrite R2.
  rewrite !(placed_origin _ _ _ _ _ _ O5 O2) by (cbn; tauto).
  rewrite (F1 K1). split; [done|]. intros Hp. destruct (F2 (K2 Hp)) as [-> ->]. done.
Qed.

(* A generated key tells the mechanism, and whether it is sensitive and unextractable from the start. *)
Lemma generate_call w s m tm p n : winv w -> let c := GenerateKey s m tm p in out_of w c = OHandle n ->
  exists sid t t0 t' mt pr l env uid o, w_smap w !! s = Some sid /\ replaced B w (after w c) sid t t' /\ noise t t0 /\ m = Some (mt, pr) /\ tm = Some l /\
    utf8_valid uid = true /\ gen_key P B (E env) uid mt pr l = Ok o /\ insert_object P s o t0 = (t', Ok n).
Proof.
  intros Hw c Ho.
  cut (match answer w c with Ok (_, OHandle n) => exists sid t t0 t' mt pr l env uid o, w_smap w !! s = Some sid /\ replaced B w (after w c) sid t t' /\ noise t t0 /\ m = Some (mt, pr) /\ tm = Some l /\
    utf8_valid uid = true /\ gen_key P B (E env) uid mt pr l = Ok o /\ insert_object P s o t0 = (t', Ok n) | _ => True end).
  { destruct (answer w c) as [[r o]|e] eqn:Ha; [apply answer_ok in Ha as [_ Ha]|apply answer_err in Ha as [_ Ha]]; rewrite Ho in Ha; [by subst o|done]. }
  apply (call_wp P B E c w (fun w' ro => match ro with Ok (_, OHandle n) => exists sid t t0 t' mt pr l env uid o, w_smap w !! s = Some sid /\ replaced B w w' sid t t' /\ noise t t0 /\ m = Some (mt, pr) /\ tm = Some l /\
    utf8_valid uid = true /\ gen_key P B (E env) uid mt pr l = Ok o /\ insert_object P s o t0 = (t', Ok n) | _ => True end)).
  cbn [api c]. unfold c_generate_key. wp_step. wp_step; [|done]. destruct m as [[mt pr]|]; [|done]. destruct tm as [l|]; [|done].
  wp_step. wp_step; [|done]. match goal with H : Some (mt, pr) = Some _ |- _ => injection H as <- end. wp_step. wp_step; [|done]. match goal with H : Some l = Some _ |- _ => injection H as <- end.
  wp_step. wp_step; [|done]. wp_step. wp_step; [|done].
  match goal with H : w_smap w !! s = Some _ |- _ => rename H into Hm end. match goal with H : w_slots w !! _ = Some _ |- _ => rename H into Hsl end.
  match goal with H : sl_sessions _ !! s = Some _ |- _ => rename H into Hse end.
  assert (s_slot s0 = sid) as Hss. { apply (so_sessions _ _ _ _ _ (si_slots _ _ (wi_inv _ _ Hw) _ _ Hsl) _ _ Hse). }
  rewrite Hss. apply wp_bind, wp_ro_check; [|done]. intros Hro. cbv zeta. wp_step. wp_step; [|done].
  wp_step. unfold mech_flags. wp_step. wp_step. destruct (List.filter _ _) as [|x ?]; wp_step; [done|]. wp_step. wp_step; [|done].
  wp_step. wp_step. apply wp_draw. wp_step. wp_step. unfold new_uid. apply wp_bind, wp_draw, wp_ret. wp_step. wp_step.
  destruct (gen_key P B _ _ mt pr l) as [o|] eqn:Hg; [|done]. wp_step. wp_step. wp_step. unfold wp.
  change (sl_token (put_token B ?a sl)) with a. rewrite ?with_slot_twice.
  destruct (insert_object P s o _) as [t' r] eqn:Hd. cbn [fst snd]. destruct r as [h|e]; cbn [fst snd]; [|done].
  match type of Hd with insert_object _ _ _ ?t0 = _ => match type of Hg with gen_key _ _ (E ?env) ?uid _ _ _ = _ => exists sid, (sl_token sl), t0, t', mt, pr, l, env, uid, o end end.
  change (sl_token (put_token B ?a sl)) with a. split_and!; try done.
  - repeat match goal with |- context [put_token B ?a (put_token B ?b sl)] => change (put_token B a (put_token B b sl)) with (put_token B a sl) end. by apply slot_replaced.
  - eexists _, _. reflexivity.
Qed.
(* What the key at a handle says of its origin, as in made_here. *)
Definition says_made (w : world) (sid n mt : N) : Prop :=
  bool_at w sid n CKA_LOCAL = Some true /\ attr_at w sid n CKA_KEY_GEN_MECHANISM = Some (from_ulong CKA_KEY_GEN_MECHANISM mt) /\
  bool_at w sid n CKA_NEVER_EXTRACTABLE = Some (negb (default true (bool_at w sid n CKA_EXTRACTABLE))) /\
  bool_at w sid n CKA_ALWAYS_SENSITIVE = Some (default false (bool_at w sid n CKA_SENSITIVE)).
Lemma placed_made w sid t0 t' sh n o mt : token_of w sid = Some t' ->
  (forall ty, In ty [CKA_LOCAL; CKA_ALWAYS_SENSITIVE; CKA_NEVER_EXTRACTABLE; CKA_KEY_GEN_MECHANISM; CKA_SENSITIVE; CKA_EXTRACTABLE; CKA_TRUSTED] -> attr_of t' n ty = attr_of t0 n ty) ->
  forall t, placed P t t0 sh n o -> new_ok o -> made_here mt o -> says_made w sid n mt.
Proof.
  intros R2 Ha t Hpl Hno (M1 & M2 & M3 & M4). unfold says_made.
  rewrite !(bool_attr_at B). unfold Spec.attr_at. rewrite R2. rewrite !Ha by (cbn; tauto). rewrite !(placed_origin _ _ _ _ _ _ Hpl Hno) by (cbn; tauto).
  rewrite M1, M2, M3, M4. unfold flag. cbn [from_bool]. split_and!; try done; cbn; f_equal.
  - destruct (get_attr o CKA_EXTRACTABLE) as [a|]; [|done]. cbn. destruct (attr_to_bool a) as [[]|]; done.
  - destruct (get_attr o CKA_SENSITIVE) as [a|]; [|done]. cbn. destruct (attr_to_bool a) as [[]|]; done.
Qed.
Theorem C24_generated w s mt pr l p sid n : from_scratch w -> slot_of w s = Some sid ->
  let c := GenerateKey s (Some (mt, pr)) (Some l) p in
  out_of w c = OHandle n -> says_made (after w c) sid n mt.
Proof.
  intros Hs Hsl c Ho. apply (scratch_winv P B E Hfs Hutf) in Hs.
  destruct (generate_call w s _ _ p n Hs Ho) as (sid' & t & t0 & t' & mt' & pr' & l' & env & uid & o & C1 & C2 & C3 & C4 & C5 & C6 & C7 & C8).
  injection C4 as <- <-. injection C5 as <-. assert (sid' = sid) as -> by (unfold Spec.slot_of in Hsl; congruence). destruct C2 as (R1 & R2 & _).
  pose proof (token_ok B _ _ _ Hs R1) as Ht. pose proof (made_new _ (gen_key_ok P B Hfs _ _ _ _ _ _ C6 C7)) as Hno.
  apply (insert_view P Hfs) in C8 as [_ Hpl]; [|by eapply noise_ok|done].
  eapply placed_made; [exact R2| |exact Hpl|exact Hno|by eapply gen_made]. done.
Qed.
Definition adding (k : kind) : Prop := match k with KQuiet _ | KHandle | KSadd _ _ | KNew _ _ => True | _ => False end.
Lemma insert_keeps sh o t t' r h u : tok_ok t -> new_ok o -> hm t !! h = Some u -> insert_object P sh o t = (t', r) -> tok_ok t' /\ same_view h t t'.
Proof.
  intros Ht Ho Hh Hi. destruct (hs_insert_odd P Hfs adding I I sh o (fun _ => I) I Ho t Ht) as (H1 & H2 & _). rewrite Hi in *. cbn [fst snd] in *. split; [done|].
  eapply (tsteps_view P Hfs); [done|exact H2|exact Hh|]. intros k Hk. by destruct k.
Qed.
Lemma pair_call w s m tp tv p1 p2 ns : winv w -> let c := GenerateKeyPair s m tp tv p1 p2 in out_of w c = OHandles ns ->
  exists sid t t0 t1 t' mt pr l1 l2 env u1 u2 o1 o2 n1 n2, w_smap w !! s = Some sid /\ replaced B w (after w c) sid t t' /\ noise t t0 /\ m = Some (mt, pr) /\ tp = Some l1 /\ tv = Some l2 /\
    utf8_valid u1 = true /\ utf8_valid u2 = true /\ gen_pair P (E env) u1 u2 mt l1 l2 = Ok (o1, o2) /\ ns = [n1; n2] /\
    insert_object P s o1 t0 = (t1, Ok n1) /\ insert_object P s o2 t1 = (t', Ok n2).
Proof.
  intros Hw c Ho.
  set (Q := fun (w' : world) (ro : result (N * out)) => match ro with Ok (_, OHandles ns) =>
    exists sid t t0 t1 t' mt pr l1 l2 env u1 u2 o1 o2 n1 n2, w_smap w !! s = Some sid /\ replaced B w w' sid t t' /\ noise t t0 /\ m = Some (mt, pr) /\ tp = Some l1 /\ tv = Some l2 /\
    utf8_valid u1 = true /\ utf8_valid u2 = true /\ gen_pair P (E env) u1 u2 mt l1 l2 = Ok (o1, o2) /\ ns = [n1; n2] /\
    insert_object P s o1 t0 = (t1, Ok n1) /\ insert_object P s o2 t1 = (t', Ok n2) | _ => True end).
  cut (Q (after w c) (answer w c)).
  { unfold Q. destruct (answer w c) as [[r o]|e] eqn:Ha; [apply answer_ok in Ha as [_ Ha]|apply answer_err in Ha as [_ Ha]]; rewrite Ho in Ha; [by subst o|done]. }
  assert (forall w' e, Q w' (Err e)) as HQ by done.
  apply (call_wp P B E c w Q).
  cbn [api c]. unfold c_generate_key_pair. wp_step. wp_step; [|done]. destruct m as [[mt pr]|]; [|done]. destruct tp as [l1|]; [|done]. destruct tv as [l2|]; [|done].
  do 3 (wp_step; wp_step; [|done]; match goal with H : Some _ = Some ?x |- _ => injection H as <- end).
  wp_step. wp_step; [|done]. wp_step. wp_step; [|done].
  match goal with H : w_smap w !! s = Some _ |- _ => rename H into Hm end. match goal with H : w_slots w !! _ = Some _ |- _ => rename H into Hsl end.
  match goal with H : sl_sessions _ !! s = Some _ |- _ => rename H into Hse end.
  assert (s_slot s0 = sid) as Hss. { apply (so_sessions _ _ _ _ _ (si_slots _ _ (wi_inv _ _ Hw) _ _ Hsl) _ _ Hse). }
  rewrite Hss. apply wp_bind, wp_ro_check; [|done]. intros Hro1. apply wp_bind, wp_ro_check; [|done]. intros Hro2. cbv zeta. wp_step. wp_step; [|done].
  wp_step. unfold mech_flags. wp_step. wp_step. destruct (List.filter _ _) as [|x ?]; wp_step; [done|]. wp_step. wp_step; [|done].
  wp_step. wp_step. apply wp_draw. unfold new_uid. wp_step. wp_step. apply wp_bind, wp_draw, wp_ret. wp_step. wp_step. wp_step. apply wp_bind, wp_draw, wp_ret. wp_step. wp_step.
  destruct (gen_pair P _ _ _ mt l1 l2) as [[o1 o2]|] eqn:Hg; [|done].
  change (sl_token (put_token B ?a ?b)) with a. wp_step. wp_step. wp_step. unfold wp at 1.
  change (sl_token (put_token B ?a ?b)) with a.
  destruct (insert_object P s o1 _) as [t1 r1] eqn:Hd. cbn [fst snd]. destruct r1 as [n1|e]; [|done].
  wp_step. wp_step. wp_step. wp_step. unfold wp at 1. change (sl_token (put_token B ?a ?b)) with a. destruct (insert_object P s o2 t1) as [t' r2] eqn:Hd2. cbn [fst snd].
  destruct r2 as [n2|e].
  2: { cbv beta iota. apply wp_bind, wp_any. intros w1 [r1|]; done. }
  wp_step. unfold Q.
  match type of Hd with insert_object _ _ _ ?t0 = _ => match type of Hg with gen_pair _ (E ?env) ?u1 ?u2 _ _ _ = _ => exists sid, (sl_token sl), t0, t1, t', mt, pr, l1, l2, env, u1, u2, o1, o2, n1, n2 end end.
  rewrite ?with_slot_twice. split_and!; try done.
  - repeat match goal with |- context [put_token B ?a (put_token B ?b ?x)] => change (put_token B a (put_token B b x)) with (put_token B a x) end. by apply slot_replaced.
  - eexists _, _. reflexivity.
Qed.
Theorem C24_generated_pair w s mt pr l1 l2 p1 p2 sid n1 n2 : from_scratch w -> slot_of w s = Some sid ->
  let c := GenerateKeyPair s (Some (mt, pr)) (Some l1) (Some l2) p1 p2 in
  out_of w c = OHandles [n1; n2] -> says_made (after w c) sid n1 mt /\ says_made (after w c) sid n2 mt.
Proof.
  intros Hs Hsl c Ho. apply (scratch_winv P B E Hfs Hutf) in Hs.
  destruct (pair_call w s _ _ _ p1 p2 _ Hs Ho) as (sid' & t & t0 & t1 & t' & mt' & pr' & l1' & l2' & env & u1 & u2 & o1 & o2 & m1 & m2 & C1 & C2 & C3 & C4 & C5 & C6 & C7 & C8 & C9 & C10 & C11 & C12).
  injection C4 as <- <-. injection C5 as <-. injection C6 as <-. injection C10 as <- <-. assert (sid' = sid) as -> by (unfold Spec.slot_of in Hsl; congruence). destruct C2 as (R1 & R2 & _).
  pose proof (token_ok B _ _ _ Hs R1) as Ht. pose proof (noise_ok _ _ C3 Ht) as Ht0. destruct (gen_pair_ok P Hfs _ _ _ _ _ _ _ _ C7 C8 C9) as [[N1 _] [N2 _]]. destruct (pair_made _ _ _ _ _ _ _ _ _ C9) as [M1 M2].
  pose proof (hs_insert_odd P Hfs adding I I s o1 (fun _ => I) I N1 t0 Ht0) as (Ht1 & _). rewrite C11 in Ht1. cbn [fst] in Ht1.
  apply (insert_view P Hfs) in C11 as [_ Hp1]; [|done|done]. destruct (pl_id _ _ _ _ _ _ Hp1) as (u & _ & Hu). apply id_named in Hu; [|done].
  destruct (insert_keeps _ _ _ _ _ _ _ Ht1 N2 Hu C12) as [_ Hv]. apply (insert_view P Hfs) in C12 as [_ Hp2]; [|done|done]. split.
  - eapply placed_made; [exact R2| |exact Hp1|exact N1|exact M1]. intros ty _. by apply view_attr.
  - eapply placed_made; [exact R2| |exact Hp2|exact N2|exact M2]. done.
Qed.
(* A copy says what its origin says, unless the template of the call says otherwise. *)
Theorem C24_copied_partial w s h tm cnt p sid n ty : from_scratch w -> slot_of w s = Some sid -> In ty [CKA_LOCAL; CKA_KEY_GEN_MECHANISM; CKA_TRUSTED] ->
  (forall c, In c (default [] tm) -> ca_type c <> ty) -> out_of w (CopyObject s h tm cnt p) = OHandle n ->
  attr_at (after w (CopyObject s h tm cnt p)) sid n ty = attr_at w sid h ty.
Proof.
  intros Hs Hsl Hty Hno Ho. apply (scratch_winv P B E Hfs Hutf) in Hs.
  destruct (origin_type ty) as (N1 & T2 & T3); [cbn in *; tauto|].
  assert (ty <> CKA_UNIQUE_ID /\ ty <> CKA_NEVER_EXTRACTABLE /\ ty <> CKA_ALWAYS_SENSITIVE) as (N2 & N3 & N4) by (cbn in Hty; repeat (destruct Hty as [<-|Hty]; [done|]); done).
  destruct (copy_call P B E w s h tm cnt p Hs) as [[_ [e Ha]]|(sid' & se & t & t' & l & r & C1 & C2 & C3 & -> & C5 & C6 & C7)].
  { apply answer_err in Ha as [_ Ha]. congruence. }
  assert (sid' = sid) as -> by (unfold Spec.slot_of in Hsl; congruence). destruct r as [n'|e]; [|apply answer_err in C7 as [_ C7]; congruence].
  apply answer_ok in C7 as [_ C7]. assert (n' = n) as -> by congruence. destruct C3 as (R1 & R2 & _). pose proof (token_ok B _ _ _ Hs R1) as Ht.
  assert (wp (copy_object P s h (default [] tm)) t (fun t' r => match r with Ok n => attr_of t' n ty = attr_of t h ty | Err _ => True end)) as Hwp.
  { apply (wp_copy_object P Hfs); [done|done| |done]. intros t0 t1 o uid m h' Hn Hso Hf Hm Hu -> Hpl.
    rewrite (placed_attr P Hfs _ _ _ _ _ ty Hpl Hm (or_introl N1) T2 T3). destruct (copy_attr P Hfs _ _ _ _ Hf) as (_ & f' & F1 & _ & F3).
    destruct (F3 ty N1 N2 N3 N4) as [->|(c & x & oa & X1 & X2 & _)]; [|by destruct (Hno c X1)].
    assert (exists k, search_by_id ty = Some k /\ k <> KBytes) as (k & K1 & K2) by (destruct T3; eauto).
    eapply (seen_attr P Hfs t h o ty k); [done| |done|done]. destruct Hso as [|(? & ? & _)]; [by left|by right]. }
  unfold wp in Hwp. rewrite C6 in Hwp. cbn [fst snd] in Hwp. unfold Spec.attr_at. by rewrite R1, R2, Hwp.
Qed.
End origin.

(* ---- cases ---- *)
Definition gen_tmpl (tok : bool) : list ckattr := [tulong CKA_VALUE_LEN 16; tbool CKA_TOKEN tok; tbool CKA_SENSITIVE true; tbool CKA_EXTRACTABLE false].
Definition aes_gen : option mech := Some (CKM_AES_KEY_GEN, None).
(* A key generated with the attributes of a well kept key, one created with the same, and a pair. *)
Example C24_case : map snd (snd (toy_run toy_user [GenerateKey 2 aes_gen (Some (gen_tmpl true)) true; CreateObject 2 (Some (aes_tmpl true ++ [tbool CKA_SENSITIVE true; tbool CKA_EXTRACTABLE false])) true;
    GenerateKeyPair 2 (Some (CKM_EC_KEY_PAIR_GEN, None)) (Some [ca CKA_EC_PARAMS [6; 8; 42; 134; 72; 206; 61; 3; 1; 7]]) (Some [tbool CKA_TOKEN true]) true true])) = [OHandle 10; OHandle 11; OHandles [12; 13]] /\
  let w := fst (toy_run toy_user [GenerateKey 2 aes_gen (Some (gen_tmpl true)) true; CreateObject 2 (Some (aes_tmpl true ++ [tbool CKA_SENSITIVE true; tbool CKA_EXTRACTABLE false])) true;
    SetAttributeValue 2 10 (Some [tbool CKA_LOCAL false]) 1; SetAttributeValue 2 11 (Some [tbool CKA_ALWAYS_SENSITIVE true]) 1]) in
  map (bool_at toy_be w 0 10) [CKA_LOCAL; CKA_ALWAYS_SENSITIVE; CKA_NEVER_EXTRACTABLE] = [Some true; Some true; Some true] /\
  map (bool_at toy_be w 0 11) [CKA_LOCAL; CKA_ALWAYS_SENSITIVE; CKA_NEVER_EXTRACTABLE] = [Some false; Some false; Some false].
Proof. cbv zeta. split_and!; vm_compute; reflexivity. Qed.
(* The template of C_GenerateKey chooses CKA_TRUSTED. *)
Theorem C24_trusted_refuted : exists w c n, from_scratch toy toy_be toy_env w /\ c = GenerateKey 2 aes_gen (Some (gen_tmpl true ++ [tbool CKA_TRUSTED true])) true /\
  toy_out w c = OHandle n /\ bool_at toy_be (toy_after w c) 0 n CKA_TRUSTED = Some true.
Proof. eexists (fst (toy_run toy_user [])), _, 10. split; [apply toy_user_scratch|]. split; [reflexivity|]. split; vm_compute; reflexivity. Qed.
(* A created, hence not local, key of no known generation mechanism has a copy that says it was generated here and is trusted. *)
Theorem C24_copy_refuted : exists w h c n, from_scratch toy toy_be toy_env w /\
  c = CopyObject 2 h (Some [tbool CKA_LOCAL true; tbool CKA_TRUSTED true; tbool CKA_NEVER_EXTRACTABLE true; tulong CKA_KEY_GEN_MECHANISM CKM_AES_KEY_GEN]) 4 true /\
  map (bool_at toy_be w 0 h) [CKA_LOCAL; CKA_TRUSTED; CKA_NEVER_EXTRACTABLE] = [Some false; Some false; Some false] /\
  toy_out w c = OHandle n /\
  map (bool_at toy_be (toy_after w c) 0 n) [CKA_LOCAL; CKA_TRUSTED; CKA_NEVER_EXTRACTABLE] = [Some true; Some true; Some true] /\
  attr_at toy_be (toy_after w c) 0 n CKA_KEY_GEN_MECHANISM = Some (from_ulong CKA_KEY_GEN_MECHANISM CKM_AES_KEY_GEN).
Proof.
  eexists (fst (toy_run toy_user [CreateObject 2 (Some (aes_tmpl true ++ [tbool CKA_EXTRACTABLE false])) true])), 10, _, 11. split; [apply toy_user_scratch|]. split; [reflexivity|].
  split_and!; vm_compute; reflexivity.
Qed.
(* A key whose value came from outside claims to have been always sensitive and never extractable. *)
Theorem C24_unwrap_refuted : exists w c n, from_scratch toy toy_be toy_env w /\
  c = UnwrapKey 2 (Some (CKM_AES_KEY_WRAP, None)) 10 (Some (repeat 1 16)) (Some [tulong CKA_CLASS CKO_SECRET_KEY; tulong CKA_KEY_TYPE CKK_AES; tbool CKA_TOKEN true;
        tbool CKA_LOCAL true; tbool CKA_ALWAYS_SENSITIVE true; tbool CKA_NEVER_EXTRACTABLE true; tbool CKA_TRUSTED true]) true /\
  toy_out w c = OHandle n /\
  map (bool_at toy_be (toy_after w c) 0 n) [CKA_LOCAL; CKA_ALWAYS_SENSITIVE; CKA_NEVER_EXTRACTABLE; CKA_TRUSTED] = [Some true; Some true; Some true; Some true].
Proof.
  eexists (fst (toy_run toy_user [CreateObject 2 (Some (aes_tmpl true ++ [tbool CKA_UNWRAP true])) true])), _, 11. split; [apply toy_user_scratch|]. split; [reflexivity|].
  split_and!; vm_compute; reflexivity.
Qed.
