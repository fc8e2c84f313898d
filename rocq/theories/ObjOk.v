(* Well-formed objects: what every object the module builds satisfies. *)
From Verif Require Import Base Monad Attr Obj Factory Tables Create Sqlite Storage Token Rows.

(* ---- the tables of the factories ---- *)
Definition attr_wfb (a : attr) : bool :=
  bool_decide (search_by_id (a_type a) = Some (a_kind a)) &&
  match a_kind a with
  | KBool => bytes_eqb (a_val a) [0] || bytes_eqb (a_val a) [1]
  | KNum => bytes_eqb (a_val a) (le64 (unle (a_val a)))
  | KString => utf8_valid (a_val a)
  | KDate => bytes_eqb (a_val a) []
  | _ => true
  end.
Lemma bytes_eqb_eq a b : bytes_eqb a b = true -> a = b.
Proof. unfold bytes_eqb. apply bool_decide_eq_true_1. Qed.
Lemma attr_wfb_wf a : attr_wfb a = true -> attr_wf a.
Proof.
  unfold attr_wfb. intros [H1 H2]%andb_true_iff. apply bool_decide_eq_true_1 in H1. apply attr_wf_intro; [done|].
  destruct (a_kind a); try done.
  - apply orb_true_iff in H2 as [H|H]; apply bytes_eqb_eq in H; auto.
  - apply bytes_eqb_eq in H2. eauto.
  - apply bytes_eqb_eq in H2. auto.
Qed.
Definition fac_ok (x : (N * N) * factory) : bool :=
  let f := snd x in
  (fst (fst x) =? f_class f) && (f_class f <? 2 ^ 64)
  && forallb (fun oa => negb (has_default oa) || attr_wfb (oa_attr oa)) (f_attrs f)
  && forallb (fun t => bool_decide (search_by_id t = Some KBytes)) (f_sensitive f)
  && forallb (fun t => negb (existsb (N.eqb t) [CKA_CLASS; CKA_UNIQUE_ID; CKA_TOKEN])) (f_ephemeral f)
  && match find_oa (f_attrs f) CKA_UNIQUE_ID with
     | Some oa => oa_is oa OA_NeverSettable && oa_is oa OA_Unchangeable && negb (oa_is oa OA_ChangeOnCopy)
     | None => false end
  && match find_oa (f_attrs f) CKA_TOKEN with
     | Some oa => oa_is oa OA_Unchangeable && bool_decide (a_kind (oa_attr oa) = KBool)
                  && negb (oa_is oa OA_ChangeToTrue) && negb (oa_is oa OA_ChangeToFalse)
     | None => true end.
Lemma all_fac_ok : forallb fac_ok all_factories = true.
Proof. vm_compute. reflexivity. Qed.
Lemma get_factory_in fs k f : get_factory fs k = Ok f -> In (k, f) fs.
Proof.
  induction fs as [|[k' f'] fs IH]; cbn; [done|]. destruct (bool_decide _) eqn:Hb; [|auto].
  apply bool_decide_eq_true_1 in Hb. intros ?. simplify_eq. auto.
Qed.
Definition good_factory (f : factory) : Prop := exists k, In (k, f) all_factories.
Lemma good_check (p : (N * N) * factory -> bool) f : forallb p all_factories = true -> good_factory f -> exists k, p (k, f) = true.
Proof. intros H [k Hk]. exists k. by apply (proj1 (forallb_forall _ _) H). Qed.
Lemma good_fac f : good_factory f -> exists k, fac_ok (k, f) = true.
Proof. apply good_check, all_fac_ok. Qed.
Lemma get_factory_good k f : get_factory all_factories k = Ok f -> good_factory f /\ f_class f = fst k.
Proof.
  intros H%get_factory_in. pose proof (proj1 (forallb_forall _ _) all_fac_ok _ H) as Hk. split; [by exists k|].
  unfold fac_ok in Hk. rewrite !andb_true_iff in Hk. destruct Hk as [[[[[[H1 _] _] _] _] _] _]. cbn [fst snd] in H1. lia.
Qed.
Lemma object_factory_good o f : get_object_factory all_factories o = Ok f -> good_factory f.
Proof.
  unfold get_object_factory. destruct (get_ulong o CKA_CLASS) as [c|]; [|done]. cbn [rbind].
  match goal with |- rbind ?x _ = _ -> _ => destruct x as [ty|] end; [|done]. cbn [rbind]. apply get_factory_good.
Qed.
Lemma good_class f : good_factory f -> f_class f < 2 ^ 64.
Proof. intros [k H]%good_fac. unfold fac_ok in H. rewrite !andb_true_iff in H. cbn [snd] in H. lia. Qed.
Lemma good_default f oa : good_factory f -> In oa (f_attrs f) -> has_default oa = true -> attr_wf (oa_attr oa).
Proof.
  intros [k H]%good_fac Hin Hd. unfold fac_ok in H. rewrite !andb_true_iff in H. cbn [snd] in H. destruct H as [[[[[[_ _] H] _] _] _] _].
  pose proof (proj1 (forallb_forall _ _) H _ Hin) as Hx. cbv beta in Hx. rewrite Hd in Hx. by apply attr_wfb_wf.
Qed.
Lemma good_nodup f : good_factory f -> NoDup (f_sensitive f) /\ NoDup (map oa_type (f_attrs f)).
Proof.
  intros Hf. destruct (good_check (fun x => bool_decide (NoDup (f_sensitive (snd x))) && bool_decide (NoDup (map oa_type (f_attrs (snd x))))) f) as [k H];
    [vm_compute; reflexivity|done|]. cbn [snd] in H. apply andb_true_iff in H as [H1 H2]. split; by eapply bool_decide_eq_true_1.
Qed.
Lemma good_sensitive f t : good_factory f -> In t (f_sensitive f) -> search_by_id t = Some KBytes.
Proof.
  intros [k H]%good_fac Hin. unfold fac_ok in H. rewrite !andb_true_iff in H. cbn [snd] in H. destruct H as [[[[_ H] _] _] _].
  pose proof (proj1 (forallb_forall _ _) H _ Hin) as Hx. cbv beta in Hx. by apply bool_decide_eq_true_1 in Hx.
Qed.
Lemma good_ephemeral f t : good_factory f -> In t (f_ephemeral f) -> t <> CKA_CLASS /\ t <> CKA_UNIQUE_ID /\ t <> CKA_TOKEN.
Proof.
  intros [k H]%good_fac Hin. unfold fac_ok in H. rewrite !andb_true_iff in H. cbn [snd] in H. destruct H as [[[_ H] _] _].
  pose proof (proj1 (forallb_forall _ _) H _ Hin) as Hx. cbv beta in Hx. cbn [existsb] in Hx. lia.
Qed.
Lemma good_uid f : good_factory f -> exists oa, find_oa (f_attrs f) CKA_UNIQUE_ID = Some oa /\ oa_is oa OA_NeverSettable = true /\
  oa_is oa OA_Unchangeable = true /\ oa_is oa OA_ChangeOnCopy = false.
Proof.
  intros [k H]%good_fac. unfold fac_ok in H. rewrite !andb_true_iff in H. cbn [snd] in H. destruct H as [[_ H] _].
  destruct (find_oa _ _) as [oa|]; [|done]. exists oa. rewrite !andb_true_iff, negb_true_iff in H. tauto.
Qed.
Lemma good_token f oa : good_factory f -> find_oa (f_attrs f) CKA_TOKEN = Some oa ->
  oa_is oa OA_Unchangeable = true /\ a_kind (oa_attr oa) = KBool /\ oa_is oa OA_ChangeToTrue = false /\ oa_is oa OA_ChangeToFalse = false.
Proof.
  intros [k H]%good_fac Hf. unfold fac_ok in H. rewrite !andb_true_iff in H. cbn [snd] in H. destruct H as [_ H]. rewrite Hf in H.
  rewrite !andb_true_iff, !negb_true_iff in H. destruct H as [[[H1 H2] H3] H4]. by apply bool_decide_eq_true_1 in H2.
Qed.

(* ---- well-formed objects ---- *)
Definition nocls (l : list attr) : list N := map a_type (List.filter (fun a => negb (a_type a =? CKA_CLASS)) l).
Record obj_pre (o : object) : Prop := ObjPre {
  pre_attrs : Forall attr_wf (o_attrs o);
  pre_class : class_ok o;
  pre_types : NoDup (nocls (o_attrs o)) }.
Definition has_uid (o : object) : Prop := exists uid, get_string o CKA_UNIQUE_ID = Ok uid.
Definition obj_ok (o : object) : Prop := obj_pre o /\ has_uid o.

Lemma nocls_in l t : In t (nocls l) <-> In t (map a_type l) /\ t <> CKA_CLASS.
Proof.
  unfold nocls. rewrite !in_map_iff. split.
  - intros (a & <- & H). apply in_filter in H as [H1 H2]. split; [by exists a|]. lia.
  - intros [(a & <- & H) Hne]. exists a. split; [done|]. apply in_filter. split; [done|]. lia.
Qed.
Lemma nocls_app l l' : nocls (l ++ l') = nocls l ++ nocls l'.
Proof. unfold nocls. by rewrite filter_app, map_app. Qed.
Lemma nocls_replace l a : nocls (replace_first l a) = if a_type a =? CKA_CLASS then nocls l else
  if existsb (fun x => a_type x =? a_type a) l then nocls l else nocls l ++ [a_type a].
Proof.
  unfold nocls. induction l as [|x l IH]; cbn.
  - by destruct (a_type a =? CKA_CLASS).
  - destruct (N.eqb_spec (a_type x) (a_type a)) as [E|E]; cbn.
    + rewrite E. destruct (a_type a =? CKA_CLASS) eqn:Hc; cbn; [done|]. by rewrite E.
    + destruct (a_type x =? CKA_CLASS) eqn:Hc; cbn [negb map]; rewrite IH; destruct (a_type a =? CKA_CLASS); try done;
        by destruct (existsb _ l).
Qed.
Lemma existsb_find l t : existsb (fun x => a_type x =? t) l = match find_attr l t with Some _ => true | None => false end.
Proof. induction l as [|x l IH]; cbn; [done|]. by destruct (a_type x =? t). Qed.
Lemma nodup_snoc {A} (l : list A) x : NoDup l -> ~ In x l -> NoDup (l ++ [x]).
Proof. intros H1 H2. apply NoDup_app. split; [done|]. split; [|apply NoDup_singleton]. intros y Hy Hx. apply elem_of_list_singleton in Hx as ->. by rewrite elem_of_list_In in Hy. Qed.
Lemma nocls_find l t : t <> CKA_CLASS -> find_attr l t = None -> ~ In t (nocls l).
Proof. intros Hne H Hin. apply nocls_in in Hin as [Hin _]. by apply find_none in H. Qed.
Lemma forall_replace (Q : attr -> Prop) l a : Forall Q l -> Q a -> Forall Q (replace_first l a).
Proof. intros H Ha. induction H as [|x l Hx Hl IH]; cbn; [by constructor|]. destruct (_ =? _); by constructor. Qed.

Lemma pre_new c : c < 2 ^ 64 -> obj_pre (obj_new c).
Proof.
  intros H. split; [|by apply class_ok_new|apply NoDup_nil_2]. constructor; [|done]. apply attr_wf_intro; [done|]. cbn [from_ulong a_kind a_val]. eauto.
Qed.
Lemma pre_push o a : obj_pre o -> attr_wf a -> a_type a = CKA_CLASS \/ get_attr o (a_type a) = None -> obj_pre (push_attr o a).
Proof.
  intros [H1 H2 H3] Ha Hn. split.
  - apply Forall_app. split; [done|by constructor].
  - by apply class_ok_push.
  - unfold push_attr. cbn [with_attrs o_attrs]. rewrite nocls_app. unfold nocls at 2. cbn [List.filter]. destruct (a_type a =? CKA_CLASS) eqn:Hc; cbn [negb map].
    + by rewrite app_nil_r.
    + apply nodup_snoc; [done|]. apply nocls_find; [lia|]. destruct Hn as [?|?]; [lia|done].
Qed.
Lemma pre_set o a o' : obj_pre o -> attr_wf a -> set_attr o a = Ok o' -> obj_pre o'.
Proof.
  intros [H1 H2 H3] Ha Hs. assert (o_attrs o' = replace_first (o_attrs o) a) as E.
  { revert Hs. unfold set_attr. destruct (_ =? CKA_CLASS); [destruct (attr_to_ulong a); cbn; [|done]|]; intros ?; by simplify_eq. }
  split.
  - rewrite E. by apply forall_replace.
  - by eapply class_ok_set.
  - rewrite E, nocls_replace, existsb_find. destruct (a_type a =? CKA_CLASS) eqn:Hc; [done|].
    destruct (find_attr _ _) eqn:Hf; [done|]. apply nodup_snoc; [done|]. apply nocls_find; [lia|done].
Qed.
Lemma pre_put o a : obj_pre o -> attr_wf a -> obj_pre (put_attr o a).
Proof. intros H Ha. unfold put_attr. destruct (set_attr o a) eqn:Hs; [by eapply pre_set|done]. Qed.
Lemma pre_del o t : t <> CKA_CLASS -> obj_pre o -> obj_pre (del_attr o t).
Proof.
  intros Ht [H1 H2 H3]. split.
  - cbn. apply List.Forall_forall. intros x Hx. apply in_filter in Hx as [Hx _]. by apply (proj1 (List.Forall_forall _ _) H1).
  - by apply class_ok_del.
  - cbn. unfold nocls in *. clear H1 H2. induction (o_attrs o) as [|x l IH]; cbn in *; [done|].
    destruct (a_type x =? CKA_CLASS) eqn:Hc; cbn in *.
    + destruct (negb _); cbn; [rewrite Hc; cbn|]; auto.
    + apply list.NoDup_cons in H3 as [H3 H4]. destruct (negb (a_type x =? t)); cbn; [rewrite Hc; cbn|auto]. apply list.NoDup_cons. split; [|auto].
      intros Hin. apply H3. rewrite elem_of_list_In in *. apply in_map_iff in Hin as (y & Hy & Hin). apply in_map_iff. exists y. split; [done|].
      apply in_filter in Hin as [Hin ?]. apply in_filter in Hin as [Hin ?]. by apply in_filter.
Qed.
Lemma pre_handle o h : obj_pre o -> obj_pre (set_handle o h).
Proof. by intros [H1 H2 H3]. Qed.
Lemma pre_session o h : obj_pre o -> obj_pre (set_session o h).
Proof. by intros [H1 H2 H3]. Qed.

(* The identifier and the handle. *)
Lemma wf_string a : attr_wf a -> search_by_id (a_type a) = Some KString -> attr_to_string a = Ok (a_val a).
Proof.
  intros [H1 H2] H. assert (a_kind a = KString) as Hk.
  { revert H1. unfold norm. rewrite H. destruct (a_kind a) eqn:E; cbn; congruence. }
  unfold attr_to_string. rewrite Hk in *. by rewrite H2.
Qed.
Lemma pre_get_wf o t a : obj_pre o -> get_attr o t = Some a -> attr_wf a.
Proof. intros [H _ _] Hg. apply (proj1 (List.Forall_forall _ _) H). by eapply find_in. Qed.
Lemma pre_has_uid o a : obj_pre o -> get_attr o CKA_UNIQUE_ID = Some a -> get_string o CKA_UNIQUE_ID = Ok (a_val a).
Proof.
  intros H Hg. unfold get_string, get_as. rewrite Hg. apply wf_string; [by eapply pre_get_wf|]. by rewrite (get_type _ _ _ Hg).
Qed.
Lemma uid_has o : has_uid o -> exists a, get_attr o CKA_UNIQUE_ID = Some a.
Proof. intros [uid H]. unfold get_string, get_as in H. destruct (get_attr o _); [by eexists|done]. Qed.
Lemma ok_intro o a : obj_pre o -> get_attr o CKA_UNIQUE_ID = Some a -> obj_ok o.
Proof. intros H Hg. split; [done|]. eexists. by apply pre_has_uid. Qed.
Lemma ok_set o a o' : obj_ok o -> attr_wf a -> set_attr o a = Ok o' -> obj_ok o'.
Proof.
  intros [H Hu] Ha Hs. destruct (uid_has _ Hu) as [x Hx]. pose proof (pre_set _ _ _ H Ha Hs) as H'.
  assert (exists y, get_attr o' CKA_UNIQUE_ID = Some y) as [y Hy].
  { rewrite (get_set _ _ _ _ Hs). destruct (_ =? _); eauto. }
  by eapply ok_intro.
Qed.
Lemma ok_put o a : obj_ok o -> attr_wf a -> obj_ok (put_attr o a).
Proof. intros H Ha. unfold put_attr. destruct (set_attr o a) eqn:Hs; [by eapply ok_set|done]. Qed.
Lemma ok_push o a : obj_ok o -> attr_wf a -> a_type a = CKA_CLASS \/ get_attr o (a_type a) = None -> obj_ok (push_attr o a).
Proof.
  intros [H Hu] Ha Hn. destruct (uid_has _ Hu) as [x Hx]. eapply ok_intro; [by apply pre_push|]. rewrite get_push, Hx. done.
Qed.
Lemma ok_del o t : t <> CKA_CLASS -> t <> CKA_UNIQUE_ID -> obj_ok o -> obj_ok (del_attr o t).
Proof.
  intros H1 H2 [H Hu]. destruct (uid_has _ Hu) as [x Hx]. eapply ok_intro; [by apply pre_del|]. rewrite get_del, Hx. by destruct (N.eqb_spec CKA_UNIQUE_ID t).
Qed.
Lemma ok_handle o h : obj_ok o -> obj_ok (set_handle o h).
Proof. intros [H Hu]. split; [by apply pre_handle|done]. Qed.
Lemma ok_session o h : obj_ok o -> obj_ok (set_session o h).
Proof. intros [H Hu]. split; [by apply pre_session|done]. Qed.

Lemma wf_bool t b : search_by_id t = Some KBool -> attr_wf (from_bool t b).
Proof. intros H. apply attr_wf_intro; [done|]. cbn. destruct b; auto. Qed.
Lemma wf_ulong t x : search_by_id t = Some KNum -> attr_wf (from_ulong t x).
Proof. intros H. apply attr_wf_intro; [done|]. cbn [from_ulong a_kind a_val]. eauto. Qed.
Lemma wf_bytes t v : search_by_id t = Some KBytes -> attr_wf (from_bytes t v).
Proof. intros H. by apply attr_wf_intro. Qed.
Lemma wf_str t v : search_by_id t = Some KString -> utf8_valid v = true -> attr_wf (from_string t v).
Proof. intros H Hv. by apply attr_wf_intro. Qed.

(* The value of a boolean attribute. *)
Lemma wf_bool_val a : attr_wf a -> search_by_id (a_type a) = Some KBool -> exists b, a = from_bool (a_type a) b.
Proof.
  intros [H1 H2] H. assert (a_kind a = KBool) as Hk.
  { revert H1. unfold norm. rewrite H. destruct (a_kind a) eqn:E; cbn; congruence. }
  destruct a as [t k v]. cbn [a_kind a_type a_val] in *. subst k. destruct H2 as [-> | ->]; [by exists false|by exists true].
Qed.
Lemma bool_from t b : attr_to_bool (from_bool t b) = Ok b.
Proof. by destruct b. Qed.
Lemma pre_bool o t a : obj_pre o -> get_attr o t = Some a -> search_by_id t = Some KBool -> exists b, a = from_bool t b.
Proof.
  intros H Hg Hk. pose proof (get_type _ _ _ Hg) as Ht. destruct (wf_bool_val a) as [b Hb]; [by eapply pre_get_wf|by rewrite Ht|].
  exists b. by rewrite <- Ht.
Qed.

(* What is kept by changes to other attributes. *)
Definition same_id (o o' : object) : Prop :=
  o_handle o' = o_handle o /\ o_session o' = o_session o /\ get_attr o' CKA_UNIQUE_ID = get_attr o CKA_UNIQUE_ID /\
  get_attr o' CKA_TOKEN = get_attr o CKA_TOKEN.
Global Instance same_id_pre : PreOrder same_id.
Proof. split; [by intros o|]. intros a b c (A1 & A2 & A3 & A4) (B1 & B2 & B3 & B4). unfold same_id. split_and!; congruence. Qed.
Definition ids (t : N) : bool := (t =? CKA_UNIQUE_ID) || (t =? CKA_TOKEN).
Lemma same_set o a o' : ids (a_type a) = false -> set_attr o a = Ok o' -> same_id o o'.
Proof.
  unfold ids. intros Ht Hs. destruct (set_attr_frame _ _ _ Hs) as [F1 F2]. unfold same_id. rewrite !(get_set _ _ _ _ Hs).
  destruct (N.eqb_spec (a_type a) CKA_UNIQUE_ID); [lia|]. destruct (N.eqb_spec (a_type a) CKA_TOKEN); [lia|]. done.
Qed.
Lemma same_put o a : ids (a_type a) = false -> same_id o (put_attr o a).
Proof. intros Ht. unfold put_attr. destruct (set_attr o a) eqn:Hs; [by eapply same_set|reflexivity]. Qed.
Lemma same_push o a : ids (a_type a) = false -> same_id o (push_attr o a).
Proof.
  unfold ids. intros Ht. unfold same_id. rewrite !get_push. split_and!; try done.
  - destruct (get_attr o CKA_UNIQUE_ID); [done|]. destruct (N.eqb_spec (a_type a) CKA_UNIQUE_ID); [lia|done].
  - destruct (get_attr o CKA_TOKEN); [done|]. destruct (N.eqb_spec (a_type a) CKA_TOKEN); [lia|done].
Qed.
Lemma same_del o t : ids t = false -> same_id o (del_attr o t).
Proof.
  unfold ids. intros Ht. unfold same_id. rewrite !get_del. split_and!; try done.
  - destruct (N.eqb_spec CKA_UNIQUE_ID t); [lia|done].
  - destruct (N.eqb_spec CKA_TOKEN t); [lia|done].
Qed.
Lemma same_uid o o' : same_id o o' -> get_string o' CKA_UNIQUE_ID = get_string o CKA_UNIQUE_ID.
Proof. intros (_ & _ & H & _). unfold get_string, get_as. by rewrite H. Qed.
Lemma same_token o o' : same_id o o' -> is_token o' = is_token o.
Proof. intros (_ & _ & _ & H). unfold is_token, bool_attr. by rewrite H. Qed.
