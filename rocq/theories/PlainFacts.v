(* The objects the code reads show the plain values. *)
From Verif Require Import Base Monad Hoare Attr Obj Factory Tables Create Sqlite Storage Token
  ObjSpec PlainSpec Rows ObjOk ObjNew Triple TokInv TokStep TokWp.

Section plain.
Context (P : params) (Hfs : p_fs P = all_factories).

Lemma decrypt_value ver key uid l o o' ty : (forall t, In t l -> t <> CKA_CLASS) -> NoDup l -> decrypt_attrs P ver key uid l o = Ok o' -> In ty l ->
  match get_attr o ty with
  | Some a => exists k v, key = Some k /\ p_open P ver k uid (a_val a) = Ok v /\ get_attr o' ty = Some (from_bytes ty v)
  | None => get_attr o' ty = None
  end.
Proof.
  revert o. induction l as [|x l IH]; intros o Hc Hnd; cbn [decrypt_attrs]; [done|]. apply list.NoDup_cons in Hnd as [Hx Hnd].
  assert (forall o1 o2, decrypt_attrs P ver key uid l o1 = Ok o2 -> ~ In ty l -> get_attr o2 ty = get_attr o1 ty) as Hother.
  { clear. induction l as [|x l IH]; intros o1 o2; cbn [decrypt_attrs]; [by intros [= ->]|]. destruct (get_attr o1 x) as [a|]; [|intros H Hn; apply IH; [done|contradict Hn; by right]].
    match goal with |- rbind ?x _ = _ -> _ => destruct x as [v|] end; cbn [rbind]; [|done]. destruct (set_attr o1 (from_bytes x v)) as [o3|] eqn:Hs; cbn [rbind]; [|done].
    intros H Hn. rewrite (IH _ _ H) by (contradict Hn; by right). rewrite (get_set _ _ _ _ Hs). cbn [a_type from_bytes]. destruct (N.eqb_spec x ty) as [->|]; [|done]. destruct Hn. by left. }
  destruct (get_attr o x) as [a|] eqn:Hg.
  - match goal with |- rbind ?x _ = _ -> _ => destruct x as [v|] eqn:Hv end; cbn [rbind]; [|done].
    destruct (set_attr o (from_bytes x v)) as [o1|] eqn:Hs; cbn [rbind]; [|done]. intros H [->|Hin].
    + rewrite Hg. destruct key as [k|]; [|done]. exists k, v. split_and!; [done|done|]. rewrite (Hother _ _ H) by (by rewrite elem_of_list_In in Hx).
      rewrite (get_set _ _ _ _ Hs). cbn [a_type from_bytes]. by rewrite N.eqb_refl.
    + assert (x <> ty) as Hne by (intros ->; by rewrite elem_of_list_In in Hx). specialize (IH o1 (fun t Ht => Hc t (or_intror Ht)) Hnd H Hin).
      rewrite (get_set _ _ _ _ Hs) in IH. cbn [a_type from_bytes] in IH. destruct (N.eqb_spec x ty); done.
  - intros H [->|Hin].
    + rewrite Hg. rewrite (Hother _ _ H) by (by rewrite elem_of_list_In in Hx). done.
    + by apply (IH o (fun t Ht => Hc t (or_intror Ht)) Hnd).
Qed.
Lemma fetch_types_basic l ty : In ty [CKA_CLASS; CKA_KEY_TYPE; CKA_CERTIFICATE_TYPE; CKA_SENSITIVE; CKA_EXTRACTABLE] \/ In ty l -> selected (fetch_types l) ty = true.
Proof.
  intros H. unfold fetch_types. destruct l as [|x l]; [done|]. apply selected_in. generalize dependent (x :: l). clear. intros l H.
  generalize dependent [CKA_CLASS; CKA_KEY_TYPE; CKA_CERTIFICATE_TYPE; CKA_SENSITIVE; CKA_EXTRACTABLE]. intros l2 H. apply or_comm in H. revert l H. rename l2 into l. induction l as [|y l IH]; intros acc H; cbn [foldl]; [by destruct H|].
  apply IH. unfold add_missing. destruct (existsb (N.eqb y) acc) eqn:Hb.
  - destruct H as [H|[->|H]]; [by left| |by right]. left. apply existsb_exists in Hb as (z & Hz & He). by apply N.eqb_eq in He as ->.
  - rewrite in_app_iff. cbn in *. tauto.
Qed.

(* An object that shows, of the selected types, what the handle names. *)
Record shows (t : token) (h : N) (sel : N -> bool) (o : object) : Prop := Shows {
  sh_class : class_of t h = Some (o_class o);
  sh_factory : factory_of P t h = opt (get_object_factory (p_fs P) o);
  sh_protected : is_protected t h = is_sensitive o || negb (is_extractable o);
  sh_plain : forall ty k, sel ty = true -> search_by_id ty = Some k -> k <> KBytes -> get_attr o ty = attr_of t h ty;
  sh_value : forall ty, sel ty = true -> is_ok (get_object_factory (p_fs P) o) = true -> a_val <$> get_attr o ty = value_of P t h ty }.

Lemma shows_class t h o : class_ok o -> (forall ty, In ty [CKA_CLASS; CKA_KEY_TYPE; CKA_CERTIFICATE_TYPE; CKA_SENSITIVE; CKA_EXTRACTABLE] -> get_attr o ty = attr_of t h ty) ->
  class_of t h = Some (o_class o) /\ factory_of P t h = opt (get_object_factory (p_fs P) o) /\ is_protected t h = is_sensitive o || negb (is_extractable o).
Proof.
  clear. intros Hc Ha. assert (class_of t h = Some (o_class o)) as Hcl.
  { unfold class_of, num_of. rewrite <- Ha by (cbn; tauto). unfold class_ok, get_ulong, get_as in Hc. destruct (get_attr o CKA_CLASS) as [a|]; [|done]. by rewrite Hc. }
  assert (forall ty, In ty [CKA_CLASS; CKA_KEY_TYPE; CKA_CERTIFICATE_TYPE; CKA_SENSITIVE; CKA_EXTRACTABLE] -> num_of t h ty = opt (get_ulong o ty)) as Hn.
  { intros ty Hty. unfold num_of. rewrite <- Ha by done. unfold get_ulong, get_as. by destruct (get_attr o ty). }
  split_and!; [done| |].
  - unfold factory_of, kind_of. rewrite Hcl. unfold get_object_factory. unfold class_ok in Hc. rewrite Hc. cbn [rbind]. rewrite !Hn by (cbn; tauto). unfold secret_class.
    destruct (o_class o =? CKO_CERTIFICATE). { by destruct (get_ulong o CKA_CERTIFICATE_TYPE). }
    destruct (o_class o =? CKO_PUBLIC_KEY), (o_class o =? CKO_PRIVATE_KEY), (o_class o =? CKO_SECRET_KEY), (o_class o =? CKO_OTP_KEY); cbn [orb]; try (by destruct (get_ulong o CKA_KEY_TYPE)); done.
  - unfold is_protected. rewrite Hcl. unfold is_sensitive, is_extractable, secret_class. set (s := (o_class o =? CKO_PRIVATE_KEY) || _ || _). destruct s; [|done]. cbn [andb].
    unfold bool_of, bool_attr. rewrite <- !Ha by (cbn; tauto).
    destruct (get_attr o CKA_SENSITIVE) as [x|]; [destruct (attr_to_bool x) as [[]|]|]; destruct (get_attr o CKA_EXTRACTABLE) as [y|]; try destruct (attr_to_bool y) as [[]|]; done.
Qed.
Lemma shows_of t h o : obj_pre o -> (forall ty, In ty [CKA_CLASS; CKA_KEY_TYPE; CKA_CERTIFICATE_TYPE; CKA_SENSITIVE; CKA_EXTRACTABLE] -> get_attr o ty = attr_of t h ty) ->
  class_of t h = Some (o_class o) /\ factory_of P t h = opt (get_object_factory (p_fs P) o) /\ is_protected t h = is_sensitive o || negb (is_extractable o).
Proof. intros [_ Hc _]. by apply shows_class. Qed.
Lemma shows_session t h o : tok_ok t -> t_sobjs t !! h = Some o -> shows t h (fun _ => true) o.
Proof.
  intros Ht Hs. destruct (tk_sobj _ Ht _ _ Hs) as [[Hp _] _ _ _]. assert (forall ty, get_attr o ty = attr_of t h ty) as Ha by (intros; unfold attr_of; by rewrite Hs).
  destruct (shows_of t h o Hp (fun ty _ => Ha ty)) as (S1 & S2 & S3). split; try done.
  intros ty _ _. unfold value_of, is_session_object. rewrite <- Ha, Hs. by destruct (get_attr o ty).
Qed.
Lemma shows_fetched t h l o : tok_ok t -> t_sobjs t !! h = None -> fetched P t h l o -> shows t h (selected (fetch_types l)) o /\ is_ok (get_object_factory (p_fs P) o) = true.
Proof.
  intros Ht Hs Hf. pose proof (fetched_pre P Hfs _ _ _ _ Hf) as [Hp _].
  assert (forall ty, In ty [CKA_CLASS; CKA_KEY_TYPE; CKA_CERTIFICATE_TYPE; CKA_SENSITIVE; CKA_EXTRACTABLE] -> get_attr o ty = attr_of t h ty) as Ha.
  { intros ty Hty. assert (exists k, search_by_id ty = Some k /\ k <> KBytes) as (k & K1 & K2).
    { repeat (destruct Hty as [<-|Hty]; [eexists; split; [reflexivity|done]|]). done. }
    eapply (fetched_attr P Hfs t h l o ty k); try done. apply fetch_types_basic. by left. }
  destruct (shows_of t h o Hp Ha) as (S1 & S2 & S3).
  assert (exists f, get_object_factory (p_fs P) o = Ok f) as [f Hof].
  { destruct Hf as (uid & o1 & f & o2 & H1 & H2 & H3 & H4 & ->). exists f. rewrite <- H3. pose proof (obj_factory_good P Hfs _ _ H3) as Hg. destruct (fetch_pre _ _ _ _ H2) as [Hp1 _].
    destruct (decrypt_ok P (f_sensitive f) _ _ _ _ _ _ (fun t Hin => good_sens f t Hg Hin) (fun t Hin => Hin) H4 Hp1) as [_ (_ & _ & _ & D & _)].
    unfold get_object_factory, get_ulong, get_as. change (get_attr (set_handle o2 h)) with (get_attr o2).
    assert (forall ty k, search_by_id ty = Some k -> k <> KBytes -> get_attr o2 ty = get_attr o1 ty) as D'.
    { intros ty k Hk Hkb. apply D. intros Hin. destruct (good_sens f ty Hg Hin) as [Hse _]. congruence. }
    rewrite (D' CKA_CLASS KNum), (D' CKA_KEY_TYPE KNum), (D' CKA_CERTIFICATE_TYPE KNum) by done. done. }
  split; [split; try done|by rewrite Hof].
  - intros ty k Hsel Hk Hkb. by eapply (fetched_attr P Hfs t h l o ty k).
  - intros ty Hsel _. unfold value_of, is_session_object. rewrite Hs. rewrite S2, Hof. cbn [opt].
    destruct Hf as (uid & o1 & f' & o2 & H1 & H2 & H3 & H4 & ->). pose proof (obj_factory_good P Hfs _ _ H3) as Hg. destruct (fetch_pre _ _ _ _ H2) as [Hp1 _].
    destruct (fetch_get _ _ _ _ H2) as (i & m & F1 & F2 & F3 & _). assert (rows_of (t_db t) uid = Some m) as Hrows by (apply rows_of_some; [apply (tk_db _ Ht)|eauto]).
    unfold object_id, attr_of. rewrite Hs, H1, Hrows.
    destruct (decrypt_ok P (f_sensitive f') _ _ _ _ _ _ (fun t Hin => good_sens f' t Hg Hin) (fun t Hin => Hin) H4 Hp1) as [_ (_ & _ & _ & D & _)].
    assert (f' = f) as ->.
    { assert (forall ty k, search_by_id ty = Some k -> k <> KBytes -> get_attr o2 ty = get_attr o1 ty) as D'.
      { intros ty' k Hk Hkb. apply D. intros Hin. destruct (good_sens f' ty' Hg Hin) as [Hse _]. congruence. }
      revert Hof H3. unfold get_object_factory, get_ulong, get_as. change (get_attr (set_handle o2 h)) with (get_attr o2).
      rewrite (D' CKA_CLASS KNum), (D' CKA_KEY_TYPE KNum), (D' CKA_CERTIFICATE_TYPE KNum) by done. congruence. }
    change (get_attr (set_handle o2 h)) with (get_attr o2). rewrite <- F3 by done. destruct (existsb (N.eqb ty) (f_sensitive f)) eqn:Hb.
    + assert (In ty (f_sensitive f)) as Hin by (apply existsb_exists in Hb as (z & Hz & He); by apply N.eqb_eq in He as ->).
      pose proof (decrypt_value _ _ _ _ _ _ ty (fun t Hin => proj1 (proj2 (good_sens f t Hg Hin))) (proj1 (good_nodup f Hg)) H4 Hin) as Hv. destruct (get_attr o1 ty) as [a|]; [|by rewrite Hv].
      destruct Hv as (k & v & -> & -> & ->). done.
    + assert (~ In ty (f_sensitive f)) as Hin. { intros Hin. rewrite <- not_true_iff_false in Hb. apply Hb, existsb_exists. exists ty. split; [done|apply N.eqb_refl]. }
      rewrite D by done. by destruct (get_attr o1 ty).
Qed.
End plain.
