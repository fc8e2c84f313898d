(* What no sequence of calls does to the attributes of an object. *)
From Verif Require Import Base Monad Hoare Attr Obj Factory Tables Create Sqlite Storage Token Backend State Api
  Rows ObjOk ObjNew Triple TokInv TokStep TokenFrame TokWp TokAuth Spec WorldFrame WorldWp Sessions SessionInv SessionFacts
  Lifecycle ObjWorld ObjView ObjAttrs NewView ObjFacts.

(* ---- what check_set_attributes lets through ---- *)
Lemma find_oa_in tab ty oa : find_oa tab ty = Some oa -> In oa tab /\ oa_type oa = ty.
Proof.
  induction tab as [|a r IH]; cbn [find_oa]; [done|]. destruct (N.eqb_spec (oa_type a) ty) as [He|]; [|intros H; destruct (IH H); split; [by right|done]].
  intros H. injection H as <-. split; [by left|done].
Qed.
Lemma check_set_in tab tmpl c : check_set_attributes tab tmpl = Ok tt -> In c tmpl ->
  exists oa, find_oa tab (ca_type c) = Some oa /\ oa_is oa OA_NeverSettable = false /\
    (oa_is oa OA_Unchangeable = true -> a_kind (oa_attr oa) = KBool /\
       exists v, ck_to_bool c = Ok v /\ (if v then oa_is oa OA_ChangeToTrue = true else oa_is oa OA_ChangeToFalse = true)).
Proof.
  induction tmpl as [|d r IH]; [done|]. cbn [check_set_attributes]. destruct (find_oa tab (ca_type d)) as [oa|] eqn:Hf; [|done].
  destruct (oa_is oa OA_NeverSettable) eqn:Hn; [done|].
  match goal with |- rbind ?x _ = _ -> _ => destruct x as [u|] eqn:Hx; [|done] end. cbn [rbind]. intros Hr [->|Hin]; [|by apply IH].
  exists oa. split_and!; [done|done|]. intros Hu. rewrite Hu in Hx. destruct (a_kind (oa_attr oa)); try done. split; [done|].
  destruct (ck_to_bool c) as [v|]; [|done]. cbn [rbind] in Hx. exists v. split; [done|].
  destruct v; [destruct (oa_is oa OA_ChangeToTrue)|destruct (oa_is oa OA_ChangeToFalse)]; done.
Qed.

(* The tables that let C_SetAttributeValue give a type no other value than b, or none at all. *)
Definition only_to (ty : N) (b : bool) (x : (N * N) * factory) : bool :=
  forallb (fun oa => negb (oa_type oa =? ty) || oa_is oa OA_NeverSettable ||
    (oa_is oa OA_Unchangeable && negb (oa_is oa (if b then OA_ChangeToFalse else OA_ChangeToTrue)))) (f_attrs (snd x)).
Definition fixed (ty : N) (x : (N * N) * factory) : bool :=
  forallb (fun oa => negb (oa_type oa =? ty) || oa_is oa OA_NeverSettable ||
    (oa_is oa OA_Unchangeable && negb (oa_is oa OA_ChangeToFalse) && negb (oa_is oa OA_ChangeToTrue))) (f_attrs (snd x)).
Lemma set_only_to f tmpl c ty b : forallb (only_to ty b) all_factories = true -> good_factory f ->
  check_set_attributes (f_attrs f) tmpl = Ok tt -> In c tmpl -> ca_type c = ty -> ck_to_bool c = Ok b.
Proof.
  intros Ht Hf Hc Hin <-. destruct (good_check _ f Ht Hf) as [k Hk]. destruct (check_set_in _ _ _ Hc Hin) as (oa & H1 & H2 & H3).
  apply find_oa_in in H1 as [H1 H4]. pose proof (proj1 (forallb_forall _ _) Hk _ H1) as Hx. cbv beta in Hx. rewrite H4, N.eqb_refl, H2 in Hx. cbn [negb orb] in Hx.
  apply andb_prop in Hx as [Hu Hx]. destruct (H3 Hu) as (_ & v & Hv & Hw). rewrite Hv. f_equal. destruct v, b; try done; rewrite Hw in Hx; done.
Qed.
Lemma set_fixed f tmpl c ty : forallb (fixed ty) all_factories = true -> good_factory f ->
  check_set_attributes (f_attrs f) tmpl = Ok tt -> In c tmpl -> ca_type c <> ty.
Proof.
  intros Ht Hf Hc Hin <-. destruct (good_check _ f Ht Hf) as [k Hk]. destruct (check_set_in _ _ _ Hc Hin) as (oa & H1 & H2 & H3).
  apply find_oa_in in H1 as [H1 H4]. pose proof (proj1 (forallb_forall _ _) Hk _ H1) as Hx. cbv beta in Hx. rewrite H4, N.eqb_refl, H2 in Hx. cbn [negb orb] in Hx.
  rewrite !andb_true_iff in Hx. destruct Hx as [[Hu Hx1] Hx2]. destruct (H3 Hu) as (_ & v & Hv & Hw). destruct v; rewrite Hw in *; done.
Qed.
Definition lasting (ty : N) (x : (N * N) * factory) : bool := negb (existsb (N.eqb ty) (f_ephemeral (snd x))).
Lemma good_lasting f ty : forallb (lasting ty) all_factories = true -> good_factory f -> ~ In ty (f_ephemeral f).
Proof.
  intros Ht Hf Hin. destruct (good_check _ f Ht Hf) as [k Hk]. unfold lasting in Hk. apply negb_true_iff in Hk. cbn [snd] in Hk.
  rewrite <- not_true_iff_false in Hk. apply Hk, existsb_exists. exists ty. split; [done|apply N.eqb_refl].
Qed.

Section attrs.
Context (P : params) (B : backend) (E : N -> keyenv) (Hfs : p_fs P = all_factories) (Hutf : forall n, utf8_valid (p_uuid P n) = true).
Notation world := (world B). Notation winv := (winv B). Notation token_of := (token_of B). Notation after := (after P B E).

Definition mild (k : kind) : Prop := k <> KReset /\ forall h, k <> KDedup h.

(* A statement about the token that the steps of calls keep holds after any calls; A says which steps the calls take. *)
Section keeps.
Context (A : kind -> Prop) (ok : call -> bool) (Hok : forall c n k, ok c = true -> call_kind (op_stores B) n c k -> A k).
Lemma call_keeps_if (J : token -> Prop) w c sid t : (forall k t t', tok_ok t -> tstep P k t t' -> mild k -> A k -> J t -> J t') -> ok c = true ->
  winv w -> keeps_token sid c = true -> token_of w sid = Some t -> t_dedup t = None \/ creates c = false -> J t ->
  exists t', token_of (after w c) sid = Some t' /\ J t' /\ t_dedup t' = t_dedup t.
Proof.
  intros HJ Hoc Hw Hk Ht Hd Hj. destruct (live_call c) eqn:Hc.
  - pose proof (token_steps P B E Hfs Hutf w c sid Hw Hc) as H. rewrite Ht in H. destruct (token_of (after w c) sid) as [t'|]; [|done]. exists t'. split; [done|].
    destruct H as [->|[Hs H]]; [done|]. pose proof (token_ok B _ _ _ Hw Ht) as Htk.
    assert (tsteps P (fun k => mild k /\ A k) t t') as Hst.
    { destruct Hd as [Hd|Hd].
      - eapply tsteps_mono; [|exact (tsteps_dedup P _ _ _ H Hd)]. intros k [K1 K2]. split; [|by eapply Hok]. split; [|done]. intros ->. by eapply not_reset.
      - eapply tsteps_mono; [|exact H]. intros k K1. split; [|by eapply Hok]. split; [intros ->; by eapply not_reset|]. intros h ->. destruct c; cbn [call_kind creates] in *; try done. }
    clear H Hd Ht Hw Hs. induction Hst as [|t t1 t' (k & [Hk1 Hk2] & H1) Hr IH]; [done|].
    assert (t_dedup t1 = t_dedup t) as <-. { destruct H1; done. }
    apply IH; [by eapply HJ|]. by eapply tstep_ok.
  - destruct c; try discriminate Hc; try discriminate Hk. exists t. split; [by apply init_keep|done].
Qed.
Lemma run_keeps_if (J : token -> Prop) cs : (forall k t t', tok_ok t -> tstep P k t t' -> mild k -> A k -> J t -> J t') -> forallb ok cs = true ->
  forall w sid t, winv w -> forallb (keeps_token sid) cs = true -> token_of w sid = Some t -> t_dedup t = None \/ existsb creates cs = false -> J t ->
  exists t', token_of (fst (run P B E w cs)) sid = Some t' /\ J t' /\ winv (fst (run P B E w cs)).
Proof.
  intros HJ. induction cs as [|c cs IH]; intros Hoc w sid t Hw Hk Ht Hd Hj; [by exists t|].
  cbn [forallb existsb] in Hk, Hd, Hoc. apply andb_prop in Hk as [Hk1 Hk2]. apply andb_prop in Hoc as [Ho1 Ho2]. rewrite orb_false_iff in Hd.
  destruct (call_keeps_if J w c sid t HJ Ho1 Hw Hk1 Ht ltac:(tauto) Hj) as (t1 & H1 & H2 & H3).
  specialize (IH Ho2 (after w c) sid t1 (after_winv P B E Hfs Hutf w c Hw) Hk2 H1 ltac:(rewrite H3; tauto) H2).
  cbn [run]. unfold Spec.after in *. destruct (step P B E w c) as [w1 o]. cbn [fst] in *. destruct (run P B E w1 cs) as [w2 os]. done.
Qed.
End keeps.
Lemma run_keeps (J : token -> Prop) cs : (forall k t t', tok_ok t -> tstep P k t t' -> mild k -> J t -> J t') ->
  forall w sid t, winv w -> forallb (keeps_token sid) cs = true -> token_of w sid = Some t -> t_dedup t = None \/ existsb creates cs = false -> J t ->
  exists t', token_of (fst (run P B E w cs)) sid = Some t' /\ J t' /\ winv (fst (run P B E w cs)).
Proof.
  intros HJ. apply (run_keeps_if (fun _ => True) (fun _ => true)); [done| |by induction cs].
  intros k t t' H1 H2 H3 _. by apply (HJ k).
Qed.

(* An attribute stays within Q if every permitted C_SetAttributeValue keeps it there. *)
Definition stays (h : N) (u : bytes) (ty : N) (Q : option attr -> Prop) (t : token) : Prop :=
  gone h t \/ object_id t h = Some u /\ Q (attr_of t h ty).
Lemma stays_step h u ty (Q : option attr -> Prop) : forallb (lasting ty) all_factories = true ->
  (forall t tmpl f c a, tok_ok t -> good_factory f -> set_by P t h tmpl ty a f c -> Q (attr_of t h ty) -> Q a) ->
  forall k t t', tok_ok t -> tstep P k t t' -> mild k -> stays h u ty Q t -> stays h u ty Q t'.
Proof.
  intros Hl HQ k t t' Ht Hs [Hk1 Hk2] [Hg|[Hid Hq]]; [left; by eapply (tstep_gone P Hfs)|].
  destruct (tstep_attr P Hfs k t t' h u ty Ht Hs Hk1 Hid) as [Hg|[Hid' [He|[[He _]|(tmpl & f & _ & Hf & [He|[c Hc]])]]]].
  - by left.
  - right. split; [done|]. by rewrite He.
  - by destruct (Hk2 h).
  - exfalso. by eapply good_lasting.
  - right. split; [done|]. by eapply HQ.
Qed.
Lemma run_stays cs w sid h u ty (Q : option attr -> Prop) : forallb (lasting ty) all_factories = true ->
  (forall t tmpl f c a, tok_ok t -> good_factory f -> set_by P t h tmpl ty a f c -> Q (attr_of t h ty) -> Q a) ->
  winv w -> forallb (keeps_token sid) cs = true -> no_replace B w sid cs -> id_at B w sid h = Some u -> Q (attr_at B w sid h ty) ->
  id_at B (fst (run P B E w cs)) sid h <> None -> Q (attr_at B (fst (run P B E w cs)) sid h ty).
Proof.
  intros Hl HQ Hw Hk Hd. unfold id_at, attr_at. destruct (token_of w sid) as [t|] eqn:Ht; [|done]. intros Hid Hq Hx.
  destruct (run_keeps (stays h u ty Q) cs (stays_step h u ty Q Hl HQ) w sid t Hw Hk Ht) as (t' & T1 & T2 & _).
  - destruct Hd as [Hd|Hd]; [left; by apply Hd|by right].
  - by right.
  - rewrite T1 in *. destruct T2 as [Hg|[_ H]]; [|done]. by apply gone_id in Hg.
Qed.
Lemma set_bool_to t h tmpl f c a ty b : forallb (only_to ty b) all_factories = true -> search_by_id ty = Some KBool ->
  good_factory f -> set_by P t h tmpl ty a f c -> a = Some (from_bool ty b).
Proof.
  intros Ht Hk Hf [_ S2 S3 <- S5]. pose proof (set_only_to _ _ _ _ _ Ht Hf S2 S3 eq_refl) as Hb.
  destruct S5 as [Hs|(x & X1 & X2)]; [apply (good_sensitive _ _ Hf) in Hs; congruence|]. rewrite (from_ck_bool _ _ _ Hk X1 Hb) in X2.
  destruct X2 as [X2|[X2 _]]; [done|]. by unfold is_kept in X2.
Qed.
Lemma no_set t h tmpl f c a ty : forallb (fixed ty) all_factories = true -> good_factory f -> ~ set_by P t h tmpl ty a f c.
Proof. intros Ht Hf [_ S2 S3 S4 _]. by eapply set_fixed. Qed.
End attrs.
