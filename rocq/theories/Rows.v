(* Facts about attributes, objects and the rows of the database. *)
From Verif Require Import Base Monad Attr Obj Sqlite Storage.
From Verif Require Export ObjSpec.

(* ---- attributes of an object ---- *)
Lemma find_replace l a t : find_attr (replace_first l a) t = if a_type a =? t then Some a else find_attr l t.
Proof.
  induction l as [|x l IH]; cbn; [done|]. destruct (N.eqb_spec (a_type x) (a_type a)) as [E|E]; cbn.
  - rewrite E. by destruct (_ =? _).
  - rewrite IH. destruct (N.eqb_spec (a_type x) t), (N.eqb_spec (a_type a) t); congruence.
Qed.
Lemma find_app l l' t : find_attr (l ++ l') t = match find_attr l t with Some a => Some a | None => find_attr l' t end.
Proof. induction l as [|x l IH]; cbn; [done|]. by destruct (_ =? _). Qed.
Lemma find_type l t a : find_attr l t = Some a -> a_type a = t.
Proof. induction l as [|x l IH]; cbn; [done|]. destruct (N.eqb_spec (a_type x) t); [intros ?; by simplify_eq|done]. Qed.
Lemma find_in l t a : find_attr l t = Some a -> In a l.
Proof. induction l as [|x l IH]; cbn; [done|]. destruct (_ =? _); [intros ?; simplify_eq; auto|auto]. Qed.
Lemma find_none l t : find_attr l t = None <-> ~ In t (map a_type l).
Proof.
  induction l as [|x l IH]; cbn; [intuition|]. destruct (N.eqb_spec (a_type x) t).
  - split; [done|]. intros H. exfalso. auto.
  - rewrite IH. intuition.
Qed.
Lemma find_filter_ne l t t' : t <> t' -> find_attr (List.filter (fun a => negb (a_type a =? t')) l) t = find_attr l t.
Proof.
  intros Hne. induction l as [|x l IH]; cbn; [done|]. destruct (N.eqb_spec (a_type x) t'); cbn.
  - rewrite IH. destruct (N.eqb_spec (a_type x) t); [congruence|done].
  - by rewrite IH.
Qed.
Lemma find_filter_eq l t : find_attr (List.filter (fun a => negb (a_type a =? t)) l) t = None.
Proof. induction l as [|x l IH]; cbn; [done|]. destruct (N.eqb_spec (a_type x) t); cbn; [done|]. by destruct (N.eqb_spec (a_type x) t). Qed.

Lemma get_push o a t : get_attr (push_attr o a) t = match get_attr o t with Some x => Some x | None => if a_type a =? t then Some a else None end.
Proof. unfold get_attr, push_attr. cbn. by rewrite find_app. Qed.
Lemma get_del o t t' : get_attr (del_attr o t') t = if t =? t' then None else get_attr o t.
Proof.
  unfold get_attr, del_attr. cbn. destruct (N.eqb_spec t t') as [->|]; [apply find_filter_eq|by apply find_filter_ne].
Qed.
Lemma get_set o a o' t : set_attr o a = Ok o' -> get_attr o' t = if a_type a =? t then Some a else get_attr o t.
Proof.
  unfold set_attr, get_attr. destruct (_ =? CKA_CLASS).
  - destruct (attr_to_ulong a); cbn; [|done]. intros ?. simplify_eq. cbn. apply find_replace.
  - intros ?. simplify_eq. cbn. apply find_replace.
Qed.
Lemma set_attr_frame o a o' : set_attr o a = Ok o' -> o_handle o' = o_handle o /\ o_session o' = o_session o.
Proof. unfold set_attr. destruct (_ =? CKA_CLASS); [destruct (attr_to_ulong a); cbn; [|done]|]; intros ?; by simplify_eq. Qed.
Lemma set_attr_ok o a : (a_type a =? CKA_CLASS) = false -> set_attr o a = Ok (with_attrs o (replace_first (o_attrs o) a)).
Proof. intros H. unfold set_attr. by rewrite H. Qed.
Lemma get_put o a t : (a_type a =? CKA_CLASS) = false -> get_attr (put_attr o a) t = if a_type a =? t then Some a else get_attr o t.
Proof. intros H. unfold put_attr. rewrite set_attr_ok by done. unfold get_attr. cbn. apply find_replace. Qed.
Lemma put_frame o a : (a_type a =? CKA_CLASS) = false ->
  o_handle (put_attr o a) = o_handle o /\ o_session (put_attr o a) = o_session o /\ o_class (put_attr o a) = o_class o.
Proof. intros H. unfold put_attr. rewrite set_attr_ok by done. done. Qed.
Lemma get_type o t a : get_attr o t = Some a -> a_type a = t.
Proof. apply find_type. Qed.

(* The class field of an object is its CKA_CLASS attribute. *)
Definition class_ok (o : object) : Prop := get_ulong o CKA_CLASS = Ok (o_class o).
Lemma unle_le_mod n x : unle (le n x) = x mod 256 ^ N.of_nat n.
Proof.
  revert x; induction n as [|n IH]; intros x; cbn [le unle]; [change (256 ^ N.of_nat 0) with 1; by rewrite N.mod_1_r|].
  rewrite IH, Nat2N.inj_succ, N.pow_succ_r'. rewrite N.mod_mul_r by (try lia; apply N.pow_nonzero; lia). done.
Qed.
Lemma le64_mod x : le64 (x mod 2 ^ 64) = le64 x.
Proof.
  pose proof (le_unle (le 8 x) (le_bytesok 8 x)) as H. rewrite le_length, unle_le_mod in H. exact H.
Qed.
Lemma ulong_of_num a x : a_kind a = KNum -> attr_to_ulong a = Ok x -> blen (a_val a) = 8.
Proof. unfold attr_to_ulong. intros ->. by destruct (N.eqb_spec (blen (a_val a)) 8). Qed.
Lemma class_ok_set o a o' : class_ok o -> set_attr o a = Ok o' -> class_ok o'.
Proof.
  intros Hc Hs. unfold class_ok, get_ulong, get_as. rewrite (get_set _ _ _ _ Hs). revert Hs. unfold set_attr.
  destruct (N.eqb_spec (a_type a) CKA_CLASS) as [E|E].
  - destruct (attr_to_ulong a); cbn; [|done]. intros ?. by simplify_eq.
  - intros ?. simplify_eq. exact Hc.
Qed.
Lemma class_ok_put o a : class_ok o -> class_ok (put_attr o a).
Proof. intros Hc. unfold put_attr. destruct (set_attr o a) eqn:H; [|done]. by eapply class_ok_set. Qed.
Lemma class_ok_push o a : class_ok o -> class_ok (push_attr o a).
Proof. unfold class_ok, get_ulong, get_as. rewrite get_push. by destruct (get_attr o CKA_CLASS). Qed.
Lemma ulong_from_ulong t x : attr_to_ulong (from_ulong t x) = Ok (x mod 2 ^ 64).
Proof.
  unfold attr_to_ulong, from_ulong. cbn [a_kind a_val]. unfold blen, le64. rewrite le_length.
  change (N.of_nat 8 =? 8) with true. cbv iota. f_equal. apply unle_le_mod.
Qed.
Lemma class_ok_new c : c < 2 ^ 64 -> class_ok (obj_new c).
Proof.
  intros H. unfold class_ok, get_ulong, get_as. change (get_attr (obj_new c) CKA_CLASS) with (Some (from_ulong CKA_CLASS c)).
  cbv iota beta. rewrite ulong_from_ulong. cbn [o_class obj_new]. f_equal. by apply N.mod_small.
Qed.
Lemma class_ok_del o t : t <> CKA_CLASS -> class_ok o -> class_ok (del_attr o t).
Proof. intros Hne. unfold class_ok, get_ulong, get_as. rewrite get_del. destruct (N.eqb_spec CKA_CLASS t); [congruence|done]. Qed.

(* ---- rows ---- *)
Lemma from_sql_type t v a : from_sql t v = Ok a -> a_type a = t.
Proof.
  unfold from_sql. destruct (search_by_id t) as [[]|]; try done; destruct v; try done; intros H.
  all: repeat match type of H with
       | (let? _ := ?r in _) = _ => destruct r; cbn in H; [|done]
       | (if ?b then _ else _) = _ => destruct b; [|done]
       | match ?b with [] => _ | _ => _ end = _ => destruct b
       end; try done; by inversion H.
Qed.
Fixpoint assoc {A} (l : list (N * A)) (t : N) : option A :=
  match l with [] => None | (k, v) :: r => if k =? t then Some v else assoc r t end.
Lemma assoc_none {A} (l : list (N * A)) t : ~ In t (map fst l) -> assoc l t = None.
Proof. induction l as [|[k v] l IH]; cbn; [done|]. intros H. destruct (N.eqb_spec k t); [exfalso; auto|auto]. Qed.
Lemma assoc_in {A} (l : list (N * A)) t v : NoDup (map fst l) -> assoc l t = Some v <-> In (t, v) l.
Proof.
  induction l as [|[k x] l IH]; cbn; [done|]. intros Hnd. apply list.NoDup_cons in Hnd as [Hn Hnd]. rewrite elem_of_list_In in Hn.
  destruct (N.eqb_spec k t) as [->|Hne].
  - split.
    + intros ?. simplify_eq. auto.
    + intros [?|H]; [by simplify_eq|]. exfalso. apply Hn. apply in_map_iff. by exists (t, v).
  - rewrite IH by done. split; [auto|]. intros [?|?]; [by simplify_eq|done].
Qed.
Lemma assoc_map (m : gmap N sqlval) t : assoc (map_to_list m) t = m !! t.
Proof.
  apply option_eq. intros v. rewrite assoc_in by apply NoDup_fst_map_to_list. by rewrite <- elem_of_list_In, elem_of_map_to_list.
Qed.
Lemma in_filter {A} (f : A -> bool) l x : In x (List.filter f l) <-> In x l /\ f x = true.
Proof. apply List.filter_In. Qed.
Lemma nodup_filter {A} (f : N * A -> bool) l : NoDup (map fst l) -> NoDup (map fst (List.filter f l)).
Proof.
  induction l as [|x l IH]; cbn; [done|]. intros H. apply list.NoDup_cons in H as [H1 H2]. destruct (f x); cbn; [|auto].
  apply list.NoDup_cons. split; [|auto]. intros Hin. apply H1. rewrite elem_of_list_In in *. apply in_map_iff in Hin as (y & <- & Hy).
  apply in_filter in Hy as [Hy _]. by apply in_map.
Qed.
Lemma assoc_filter {A} (f : N * A -> bool) l t : NoDup (map fst l) ->
  assoc (List.filter f l) t = match assoc l t with Some v => if f (t, v) then Some v else None | None => None end.
Proof.
  intros Hnd. apply option_eq. intros v. rewrite assoc_in by by apply nodup_filter. rewrite in_filter.
  destruct (assoc l t) as [w|] eqn:E.
  - pose proof (proj1 (assoc_in l t w Hnd) E) as Hw. split.
    + intros [H1 H2]. apply assoc_in in H1; [|done]. simplify_eq. by rewrite H2.
    + destruct (f (t, w)) eqn:Hf; [|done]. intros ?. by simplify_eq.
  - split; [|done]. intros [H1 H2]. apply assoc_in in H1; [|done]. congruence.
Qed.

Lemma add_rows_get l o o' : add_rows o l = Ok o' -> NoDup (map fst l) ->
  (forall t, get_attr o' t = match assoc l t with Some v => opt (from_sql t v) | None => get_attr o t end) /\
  (forall t v, In (t, v) l -> is_ok (from_sql t v) = true) /\
  o_handle o' = o_handle o /\ o_session o' = o_session o /\ (class_ok o -> class_ok o').
Proof.
  revert o. induction l as [|[k v] l IH]; intros o; cbn.
  - intros ? _. simplify_eq. done.
  - intros H Hnd. apply list.NoDup_cons in Hnd as [Hk Hnd]. rewrite elem_of_list_In in Hk.
    destruct (from_sql k v) as [a|] eqn:Hf; cbn in H; [|done].
    destruct (set_attr o a) as [o1|] eqn:Hs; cbn in H; [|done].
    destruct (IH o1 H Hnd) as (H1 & H2 & H3 & H4 & H5). destruct (set_attr_frame _ _ _ Hs) as [F1 F2].
    split_and!.
    + intros t. rewrite H1. destruct (N.eqb_spec k t) as [->|Hne].
      * rewrite (assoc_none l t) by done. rewrite (get_set _ _ _ _ Hs), (from_sql_type _ _ _ Hf), N.eqb_refl, Hf. done.
      * destruct (assoc l t); [done|]. rewrite (get_set _ _ _ _ Hs), (from_sql_type _ _ _ Hf).
        by destruct (N.eqb_spec k t).
    + intros t x [?|Hin]; [|eauto]. simplify_eq. by rewrite Hf.
    + congruence.
    + congruence.
    + intros Hc. apply H5. by eapply class_ok_set.
Qed.
Lemma from_sql_class v a : from_sql CKA_CLASS v = Ok a -> is_ok (attr_to_ulong a) = true.
Proof.
  unfold from_sql. change (search_by_id CKA_CLASS) with (Some KNum). destruct v; try done. cbn.
  destruct (val_to_ulong z); cbn; [|done]. intros ?. simplify_eq. done.
Qed.
Lemma add_rows_ok l o : (forall t v, In (t, v) l -> is_ok (from_sql t v) = true) -> exists o', add_rows o l = Ok o'.
Proof.
  revert o. induction l as [|[k v] l IH]; intros o H; cbn [add_rows]; [by eexists|].
  pose proof (H k v (or_introl eq_refl)) as Hk. destruct (from_sql k v) as [a|] eqn:Hf; [|done]. cbn [rbind].
  destruct (set_attr o a) as [o1|] eqn:Hs; cbn [rbind].
  - apply IH. intros t x Hin. apply H. by right.
  - exfalso. revert Hs. unfold set_attr. rewrite (from_sql_type _ _ _ Hf). destruct (N.eqb_spec k CKA_CLASS) as [->|]; [|done].
    apply from_sql_class in Hf. destruct (attr_to_ulong a); done.
Qed.

(* Reading one object back. *)
Lemma unavailable_lt : CK_UNAVAILABLE_INFORMATION < 2 ^ 64. Proof. reflexivity. Qed.
Lemma rows_get rows sel o : rows_to_object (List.filter (fun p => sel (fst p)) (map_to_list rows)) = Ok o ->
  (forall t, sel t = true -> get_attr o t = row_attr rows t) /\
  (forall t, sel t = false -> t <> CKA_CLASS -> get_attr o t = None) /\ class_ok o /\
  o_handle o = CK_INVALID_HANDLE /\ o_session o = CK_INVALID_HANDLE.
Proof.
  intros H. destruct (add_rows_get _ _ _ H) as (H1 & _ & H3 & H4 & H5).
  { apply nodup_filter. apply NoDup_fst_map_to_list. }
  assert (forall t, get_attr (obj_new CK_UNAVAILABLE_INFORMATION) t =
    if t =? CKA_CLASS then Some (from_ulong CKA_CLASS CK_UNAVAILABLE_INFORMATION) else None) as Hn.
  { intros t. unfold get_attr, obj_new. cbn [o_attrs find_attr]. change (a_type (from_ulong CKA_CLASS CK_UNAVAILABLE_INFORMATION)) with CKA_CLASS.
    rewrite N.eqb_sym. by destruct (_ =? _). }
  split_and!; try done.
  - intros t Ht. rewrite H1, assoc_filter by apply NoDup_fst_map_to_list. rewrite assoc_map. cbn [fst]. rewrite Ht.
    unfold row_attr. destruct (rows !! t); [done|]. by rewrite Hn.
  - intros t Ht Hne. rewrite H1, assoc_filter by apply NoDup_fst_map_to_list. cbn [fst]. rewrite Ht, Hn.
    destruct (assoc _ t); by destruct (N.eqb_spec t CKA_CLASS).
  - apply H5. by apply class_ok_new.
Qed.
Lemma rows_to_objects_one x : rows_to_objects [x] = (let? o := rows_to_object x in Ok [o]).
Proof. reflexivity. Qed.
Lemma rows_to_objects_length l os : rows_to_objects l = Ok os -> length os = length l.
Proof.
  revert os. induction l as [|x l IH]; intros os; cbn; [intros ?; by simplify_eq|].
  destruct (rows_to_object x); cbn; [|done]. destruct (match l with [] => false | _ => _ end); [done|].
  destruct (rows_to_objects l); cbn; [|done]. intros ?. simplify_eq. cbn. f_equal. eauto.
Qed.

(* No two stored objects have the same unique id. *)
Definition uid_unique (d : db) : Prop := forall i j ri rj u, d_objs d !! i = Some ri -> d_objs d !! j = Some rj ->
  ri !! CKA_UNIQUE_ID = Some (SText u) -> rj !! CKA_UNIQUE_ID = Some (SText u) -> i = j.
Lemma ids_in d uid i r : In (i, r) (ids_with_uid d uid) <-> d_objs d !! i = Some r /\ r !! CKA_UNIQUE_ID = Some (SText uid).
Proof.
  unfold ids_with_uid, row_match. rewrite in_filter, <- elem_of_list_In, elem_of_map_to_list. cbn. by rewrite bool_decide_eq_true.
Qed.
Lemma ids_nodup d uid : NoDup (map fst (ids_with_uid d uid)).
Proof. apply nodup_filter, NoDup_fst_map_to_list. Qed.
Lemma ids_cases d uid : uid_unique d ->
  (ids_with_uid d uid = [] /\ forall i r, d_objs d !! i = Some r -> r !! CKA_UNIQUE_ID <> Some (SText uid)) \/
  exists i r, ids_with_uid d uid = [(i, r)] /\ d_objs d !! i = Some r /\ r !! CKA_UNIQUE_ID = Some (SText uid).
Proof.
  intros Hu. pose proof (ids_in d uid) as Hin. pose proof (ids_nodup d uid) as Hnd.
  destruct (ids_with_uid d uid) as [|[i r] [|[j r'] l]].
  - left. split; [done|]. intros i r H1 H2. by apply (Hin i r).
  - right. exists i, r. split; [done|]. apply Hin. by left.
  - exfalso. destruct (proj1 (Hin i r)) as [A1 A2]; [by left|]. destruct (proj1 (Hin j r')) as [B1 B2]; [by right; left|].
    pose proof (Hu _ _ _ _ _ A1 B1 A2 B2). subst j. cbn in Hnd. apply list.NoDup_cons in Hnd as [Hn _]. apply Hn. left.
Qed.
Lemma ids_found d uid i r : uid_unique d -> d_objs d !! i = Some r -> r !! CKA_UNIQUE_ID = Some (SText uid) -> ids_with_uid d uid = [(i, r)].
Proof.
  intros Hu H1 H2. destruct (ids_cases d uid Hu) as [[_ H]|(j & r' & H & H3 & H4)]; [by edestruct H|].
  pose proof (Hu _ _ _ _ _ H1 H3 H2 H4). subst. by simplify_eq.
Qed.

(* An object fetched, wholly or in part, has the attributes of its rows. *)
Definition selected (attrs : list N) (t : N) : bool := match attrs with [] => true | _ => existsb (N.eqb t) attrs end.
Lemma selected_in attrs t : In t attrs -> selected attrs t = true.
Proof. destruct attrs; [done|]. intros H. unfold selected. apply existsb_exists. exists t. split; [done|]. apply N.eqb_refl. Qed.
Lemma filter_true {A} (l : list A) : List.filter (fun _ => true) l = l.
Proof. induction l; cbn; by f_equal. Qed.
Lemma fetch_rows d uid attrs o : fetch_by_uid d uid attrs = Ok o -> exists i rows,
  d_objs d !! i = Some rows /\ rows !! CKA_UNIQUE_ID = Some (SText uid) /\
  rows_to_object (List.filter (fun p => selected attrs (fst p)) (map_to_list rows)) = Ok o.
Proof.
  unfold fetch_by_uid. destruct (d_tables d); [|done]. cbn [negb]. destruct (all_u32 attrs); [|done]. cbn [rbind].
  set (sel := fun rows : gmap N sqlval => match attrs with [] => map_to_list rows
    | _ => List.filter (fun p => existsb (N.eqb (fst p)) attrs) (map_to_list rows) end).
  assert (forall rows, sel rows = List.filter (fun p => selected attrs (fst p)) (map_to_list rows)) as Hsel.
  { intros rows. unfold sel, selected. destruct attrs; [|done]. by rewrite filter_true. }
  destruct (rows_to_objects _) as [os|] eqn:Ho; cbn; [|done]. intros Hr. destruct os as [|o1 [|? ?]]; [done| |done]. simplify_eq.
  pose proof (rows_to_objects_length _ _ Ho) as Hl. set (g := List.filter _ _) in *.
  assert (forall x, In x g -> exists i rows, d_objs d !! i = Some rows /\ rows !! CKA_UNIQUE_ID = Some (SText uid) /\ x = sel rows) as Hg.
  { intros x Hx. apply in_filter in Hx as [Hx _]. apply in_map_iff in Hx as ([i rows] & <- & Hx). apply ids_in in Hx as [? ?]. eauto. }
  destruct g as [|x [|? ?]]; [done| |done]. destruct (Hg x (or_introl eq_refl)) as (i & rows & H1 & H2 & ->).
  exists i, rows. rewrite rows_to_objects_one in Ho. rewrite <- Hsel. split_and!; [done|done|].
  destruct (rows_to_object (sel rows)); cbn in Ho; by simplify_eq.
Qed.
Lemma fetch_get d uid attrs o : fetch_by_uid d uid attrs = Ok o -> exists i rows,
  d_objs d !! i = Some rows /\ rows !! CKA_UNIQUE_ID = Some (SText uid) /\
  (forall t, selected attrs t = true -> get_attr o t = row_attr rows t) /\
  (forall t, selected attrs t = false -> t <> CKA_CLASS -> get_attr o t = None) /\ class_ok o /\
  o_handle o = CK_INVALID_HANDLE /\ o_session o = CK_INVALID_HANDLE.
Proof.
  intros H. destruct (fetch_rows _ _ _ _ H) as (i & rows & H1 & H2 & H3). exists i, rows. by destruct (rows_get _ _ _ H3).
Qed.

(* ---- the writing side ---- *)
(* The HOTP code stores CKA_ALLOWED_MECHANISMS as a byte string (src/hotp.rs:170-176), which is an array of numbers
   elsewhere: the attribute as the storage gives it back, with the same type and value. *)
Definition norm (a : attr) : attr :=
  match a_kind a, search_by_id (a_type a) with KBytes, Some KUlongArray => Attr (a_type a) KUlongArray (a_val a) | _, _ => a end.
Lemma norm_type a : a_type (norm a) = a_type a.
Proof. unfold norm. destruct (a_kind a); try done. by destruct (search_by_id (a_type a)) as [[]|]. Qed.
Lemma norm_val a : a_val (norm a) = a_val a.
Proof. unfold norm. destruct (a_kind a); try done. by destruct (search_by_id (a_type a)) as [[]|]. Qed.
Lemma norm_kind a : a_kind a <> KBytes -> norm a = a.
Proof. unfold norm. by destruct (a_kind a). Qed.
Lemma norm_id a : search_by_id (a_type a) = Some (a_kind a) -> norm a = a.
Proof. unfold norm. intros ->. by destruct (a_kind a). Qed.
(* What may stand in an attribute of an object. *)
Definition attr_wf (a : attr) : Prop := search_by_id (a_type a) = Some (a_kind (norm a)) /\
  match a_kind a with
  | KBool => a_val a = [0] \/ a_val a = [1]
  | KNum => exists x, a_val a = le64 x
  | KString => utf8_valid (a_val a) = true
  | KDate => a_val a = [] \/ vec_to_date_validate (a_val a) = Ok (a_val a)
  | KBytes => norm a = a \/ blen (a_val a) mod 8 = 0
  | _ => True
  end.
Lemma attr_wf_intro a : search_by_id (a_type a) = Some (a_kind a) ->
  match a_kind a with
  | KBool => a_val a = [0] \/ a_val a = [1]
  | KNum => exists x, a_val a = le64 x
  | KString => utf8_valid (a_val a) = true
  | KDate => a_val a = [] \/ vec_to_date_validate (a_val a) = Ok (a_val a)
  | _ => True
  end -> attr_wf a.
Proof.
  intros H1 H2. pose proof (norm_id a H1) as Hn. split; [by rewrite Hn|]. destruct (a_kind a) eqn:Hk; auto.
Qed.
Lemma from_ck_kind c a : from_ck_attr c = Ok a -> search_by_id (a_type a) = Some (a_kind a) /\ a_type a = ca_type c.
Proof.
  unfold from_ck_attr. destruct (search_by_id (ca_type c)) as [[]|] eqn:Hk; try done;
    [destruct (ck_to_bool c)|destruct (ck_to_ulong c)|destruct (ck_to_string c)| | |destruct (ck_to_date c)|];
    cbn; try done; intros ?; simplify_eq; done.
Qed.
Lemma from_ck_wf c a : from_ck_attr c = Ok a -> attr_wf a /\ a_type a = ca_type c.
Proof.
  intros H. destruct (from_ck_kind c a H) as [H1 H2]. split; [|done]. apply attr_wf_intro; [done|]. revert H. clear H1 H2. unfold from_ck_attr.
  destruct (search_by_id (ca_type c)) as [[]|] eqn:Hk; try done.
  - unfold ck_to_bool. destruct (_ =? 1); [|done]. destruct (ca_ptr c); [|done]. cbn. intros ?. simplify_eq. cbn. destruct (negb _); auto.
  - destruct (ck_to_ulong c); cbn; [|done]. intros ?. simplify_eq. cbn. eauto.
  - unfold ck_to_string. destruct (_ =? 0).
    + cbn. intros ?. simplify_eq. done.
    + destruct (ca_ptr c); [|done]. destruct (utf8_valid b) eqn:Hu; [|done]. cbn. intros ?. simplify_eq. done.
  - intros ?. simplify_eq. done.
  - intros ?. simplify_eq. done.
  - unfold ck_to_date. destruct (_ =? 0).
    + cbn. intros ?. simplify_eq. cbn. right. reflexivity.
    + destruct (ca_ptr c) as [b|]; [|done]. unfold vec_to_date_validate. destruct (negb _) eqn:Hl; [done|]. destruct (forallb _ _) eqn:Hf; [|done].
      cbn. intros ?. simplify_eq. cbn. right. unfold vec_to_date_validate. by rewrite Hl, Hf.
  - intros ?. simplify_eq. done.
Qed.

Definition is_kept (a : attr) : bool := match a_kind a with KDeny | KIgnore => false | _ => true end.
Lemma date_round v : vec_to_date_validate v = Ok v -> exists s, to_date_string v = Ok s /\ s <> [] /\ string_to_ck_date s = Ok v.
Proof.
  unfold vec_to_date_validate. destruct (N.eqb_spec (blen v) 8) as [Hl|]; [|done]. cbn [negb]. destruct (forallb ascii_digit v) eqn:Hf; [|done]. intros _.
  unfold blen in Hl. do 8 (destruct v as [|? v]; [cbn in Hl; lia|]). destruct v; [|cbn in Hl; lia]. cbn in Hf.
  unfold ascii_digit in Hf. cbn [to_date_string]. eexists. split; [reflexivity|].
  assert (forall x, x <? 0x80 = true -> utf8_of_byte x = [x]) as Hb by (intros x Hx; unfold utf8_of_byte; by rewrite Hx).
  cbn [map concat]. rewrite !Hb by lia. cbn [app]. split; [done|]. cbn. unfold vec_to_date_validate, ascii_digit. cbn.
  replace (_ && _) with true by lia. done.
Qed.
(* What is written for an attribute is read back unchanged. *)
Lemma sql_round a v : attr_wf a -> to_sql a = Ok (Some v) -> from_sql (a_type a) v = Ok (norm a).
Proof.
  intros [Hk Hw]. destruct (decide (search_by_id (a_type a) = Some (a_kind a))) as [Hid|Hid]; cycle 1.
  { revert Hk Hw Hid. unfold norm, to_sql, from_sql. destruct a as [t k b]. cbn [a_type a_kind a_val].
    destruct k; try (intros -> ? []; done). destruct (search_by_id t) as [[]|] eqn:Ht; try done. cbn.
    intros _ [?|Hm] _ ?; simplify_eq. rewrite Hm. done. }
  rewrite (norm_id a Hid) in *. clear Hid. unfold to_sql, from_sql. rewrite Hk. destruct a as [t k b]. cbn [a_type a_kind a_val] in *. destruct k; try done.
  - unfold attr_to_bool. cbn. destruct Hw as [-> | ->]; cbn; intros ?; by simplify_eq.
  - destruct Hw as [x ->]. change (Attr t KNum (le64 x)) with (from_ulong t x). rewrite ulong_from_ulong. cbn [rbind].
    unfold num_to_val. set (y := x mod 2 ^ 64). assert (from_ulong t y = from_ulong t x) as Hy.
    { unfold from_ulong. f_equal. apply le64_mod. }
    destruct (N.eqb_spec y CK_UNAVAILABLE_INFORMATION) as [E|E].
    + cbn [rbind]. intros [= <-]. change (val_to_ulong (-1)) with (Ok CK_UNAVAILABLE_INFORMATION). cbn [rbind]. by rewrite <- E, Hy.
    + unfold u32_try. destruct (y <? 2 ^ 32); cbn [rbind]; [|done]. intros [= <-]. unfold val_to_ulong.
      destruct (Z.eqb_spec (Z.of_N y) (-1)); [lia|]. destruct (Z.ltb_spec (Z.of_N y) 0); [lia|]. cbn [rbind]. by rewrite N2Z.id, Hy.
  - unfold attr_to_string. cbn [a_kind a_val]. rewrite Hw. cbn [rbind]. intros [= <-]. by rewrite Hw.
  - intros ?. simplify_eq. done.
  - destruct (_ =? 0) eqn:Hm; [|done]. intros ?. simplify_eq. by rewrite Hm.
  - destruct Hw as [->|Hw].
    + cbn. intros ?. by simplify_eq.
    + destruct (date_round b Hw) as (s & -> & Hs & Hr). cbn. intros ?. simplify_eq. destruct s; [done|]. by rewrite Hr.
Qed.
Lemma to_sql_none a : to_sql a = Ok None -> is_kept a = false.
Proof.
  unfold to_sql, is_kept. destruct (a_kind a); try done.
  - destruct (attr_to_bool a); done.
  - destruct (attr_to_ulong a); cbn; [|done]. destruct (num_to_val a0); done.
  - destruct (attr_to_string a); done.
  - by destruct (_ =? 0).
  - destruct (to_date_string _); done.
Qed.
Lemma to_sql_some a v : to_sql a = Ok (Some v) -> is_kept a = true.
Proof. unfold to_sql, is_kept. destruct (a_kind a); done. Qed.

(* A transaction. *)
Definition plain_stmt (s : stmt) : bool := match s with SBegin | SCommit => false | _ => true end.
Lemma exec_inside l d w : forallb plain_stmt l = true -> foldl exec1 (Conn d (Some w)) l = Conn d (Some (foldl (fun d s => exec_db s d) w l)).
Proof.
  revert w. induction l as [|s l IH]; intros w H; [done|]. cbn in H. apply andb_true_iff in H as [Hs Hl]. cbn [foldl].
  rewrite <- (IH (exec_db s w)) by done. by destruct s.
Qed.
Lemma exec_tx l d : forallb plain_stmt l = true -> exec (SBegin :: l ++ [SCommit]) d = Conn (foldl (fun d s => exec_db s d) d l) None.
Proof. intros H. unfold exec. cbn [foldl exec1]. rewrite foldl_app, exec_inside by done. done. Qed.

Fixpoint kept_rows (l : list attr) (m : gmap N sqlval) : gmap N sqlval :=
  match l with
  | [] => m
  | a :: r => kept_rows r (match to_sql a with Ok (Some v) => <[a_type a := v]> m | _ => m end)
  end.
Lemma ins_exec l id s d : ins_stmts id l = Ok s ->
  forallb plain_stmt s = true /\ d_tables (foldl (fun d s => exec_db s d) d s) = d_tables d /\
  d_meta (foldl (fun d s => exec_db s d) d s) = d_meta d /\
  (forall j, j <> id -> d_objs (foldl (fun d s => exec_db s d) d s) !! j = d_objs d !! j) /\
  d_rows (foldl (fun d s => exec_db s d) d s) id = kept_rows l (d_rows d id) /\
  (d_objs d !! id = None -> s = [] -> d_objs (foldl (fun d s => exec_db s d) d s) !! id = None) /\
  (s <> [] -> d_objs (foldl (fun d s => exec_db s d) d s) !! id = Some (kept_rows l (d_rows d id))).
Proof.
  revert s d. induction l as [|a l IH]; intros s d; cbn [ins_stmts kept_rows].
  - intros ?. simplify_eq. done.
  - destruct (negb _); [done|]. destruct (u32_try _); [|done]. cbn [rbind]. destruct (to_sql a) as [v|] eqn:Hv; cbn; [|done].
    destruct (ins_stmts id l) as [r|] eqn:Hr; cbn; [|done]. destruct v as [v|]; intros ?; simplify_eq; [|by apply IH].
    cbn [forallb plain_stmt foldl]. set (d1 := exec_db (SInsObj id (a_type a) v) d).
    destruct (IH r d1 eq_refl) as (H1 & H2 & H3 & H4 & H5 & H6 & H7). rewrite H1, H2, H3. cbn [andb].
    assert (d_rows d1 id = <[a_type a := v]> (d_rows d id)) as Hd.
    { unfold d1, d_rows. cbn. by rewrite lookup_insert. }
    split_and!; try done.
    + intros j Hj. rewrite H4 by done. cbn. by rewrite lookup_insert_ne.
    + by rewrite H5, Hd.
    + intros _. destruct r as [|s0 r0]; [|rewrite H7 by done; by rewrite Hd].
      cbn [foldl] in *. rewrite <- Hd, <- H5. rewrite Hd. unfold d1. cbn. by rewrite lookup_insert.
Qed.
Lemma kept_rows_get l m t : Forall attr_wf l -> (forall a, In a l -> is_ok (to_sql a) = true) ->
  kept_rows l m !! t = match find_attr (rev (List.filter is_kept l)) t with
                       | Some a => match to_sql a with Ok (Some v) => Some v | _ => None end
                       | None => m !! t end.
Proof.
  revert m. induction l as [|a l IH]; intros m Hw Hok; [done|]. cbn [kept_rows List.filter]. inversion Hw; subst.
  rewrite IH by (try done; intros; apply Hok; by right). pose proof (Hok a (or_introl eq_refl)) as Ha.
  destruct (to_sql a) as [[v|]|] eqn:Hv; [| |done].
  - rewrite (to_sql_some _ _ Hv). cbn [rev]. rewrite find_app. destruct (find_attr _ t); [done|]. cbn.
    destruct (N.eqb_spec (a_type a) t) as [<-|Hne]; [by rewrite lookup_insert, Hv|by rewrite lookup_insert_ne].
  - by rewrite (to_sql_none _ Hv).
Qed.

(* A database this module could have written. *)
Record db_wf (d : db) : Prop := DbWf {
  wf_unique : uid_unique d;
  wf_zero : d_objs d !! 0 = None }.
Lemma max_id_above d i r : d_objs d !! i = Some r -> i <= max_id d.
Proof.
  intros H. apply elem_of_map_to_list, elem_of_list_In in H. unfold max_id. induction (map_to_list (d_objs d)) as [|[j x] l IH]; [done|].
  cbn. destruct H as [?|H]; [simplify_eq; lia|]. apply IH in H. lia.
Qed.
Lemma db_new_wf : db_wf db_new.
Proof. split; [|done]. intros i j ri rj u H. cbn in H. by rewrite lookup_empty in H. Qed.

(* Which attribute of a type ends up in the rows: the last one. *)
Definition last_attr (l : list attr) (t : N) : option attr := find_attr (rev (List.filter is_kept l)) t.
Lemma last_attr_in l t a : last_attr l t = Some a -> In a l /\ a_type a = t /\ is_kept a = true.
Proof.
  intros H. pose proof (find_in _ _ _ H) as Hi. apply in_rev in Hi. apply in_filter in Hi as [H1 H2]. apply find_type in H. done.
Qed.
Lemma find_rev l t : NoDup (map a_type l) -> find_attr (rev l) t = find_attr l t.
Proof.
  induction l as [|a l IH]; cbn; [done|]. intros H. apply list.NoDup_cons in H as [Hn H]. rewrite elem_of_list_In in Hn.
  rewrite find_app, IH by done. cbn. destruct (N.eqb_spec (a_type a) t) as [<-|].
  - by rewrite (proj2 (find_none l (a_type a)) Hn).
  - by destruct (find_attr l t).
Qed.
Lemma find_kept l t : NoDup (map a_type l) -> find_attr (List.filter is_kept l) t = match find_attr l t with Some a => if is_kept a then Some a else None | None => None end.
Proof.
  induction l as [|a l IH]; cbn; [done|]. intros H. apply list.NoDup_cons in H as [Hn H]. rewrite elem_of_list_In in Hn.
  destruct (is_kept a) eqn:Hk; cbn; destruct (N.eqb_spec (a_type a) t) as [<-|]; rewrite ?Hk; auto.
  rewrite IH by done. by rewrite (proj2 (find_none l (a_type a)) Hn).
Qed.
Lemma nodup_filter_types (f : attr -> bool) l : NoDup (map a_type l) -> NoDup (map a_type (List.filter f l)).
Proof.
  induction l as [|x l IH]; cbn; [done|]. intros H. apply list.NoDup_cons in H as [H1 H2]. destruct (f x); cbn; [|auto].
  apply list.NoDup_cons. split; [|auto]. intros Hin. apply H1. rewrite elem_of_list_In in *. apply in_map_iff in Hin as (y & <- & Hy).
  apply in_filter in Hy as [Hy _]. by apply in_map.
Qed.
Lemma last_attr_nodup l t : NoDup (map a_type l) -> last_attr l t = match find_attr l t with Some a => if is_kept a then Some a else None | None => None end.
Proof. intros H. unfold last_attr. rewrite find_rev by by apply nodup_filter_types. by apply find_kept. Qed.

Lemma ins_ok id l s : ins_stmts id l = Ok s -> forall a, In a l -> is_ok (to_sql a) = true.
Proof.
  revert s. induction l as [|x l IH]; intros s; [done|]. cbn [ins_stmts]. destruct (negb _); [done|]. destruct (u32_try _); [|done]. cbn [rbind].
  destruct (to_sql x) eqn:Hx; cbn [rbind]; [|done]. destruct (ins_stmts id l) eqn:Hr; [|done]. intros _ y [<-|Ha]; [by rewrite Hx|eauto].
Qed.
Lemma ins_nil id l : ins_stmts id l = Ok [] -> forall a, In a l -> is_kept a = false.
Proof.
  induction l as [|x l IH]; [done|]. cbn [ins_stmts]. destruct (negb _); [done|]. destruct (u32_try _); [|done]. cbn [rbind].
  destruct (to_sql x) as [[v|]|] eqn:Hx; cbn [rbind]; [| |done].
  - by destruct (ins_stmts id l).
  - destruct (ins_stmts id l) eqn:Hr; [|done]. cbn. intros ?. simplify_eq. intros y [<-|Ha]; [by apply to_sql_none|eauto].
Qed.

(* The effect of storing an object. *)
Lemma old_id_cases d uid : db_wf d -> (old_id d uid = 0 /\ ids_with_uid d uid = [] /\ forall i r, d_objs d !! i = Some r -> r !! CKA_UNIQUE_ID <> Some (SText uid)) \/
  exists i r, old_id d uid = i /\ i <> 0 /\ ids_with_uid d uid = [(i, r)] /\ d_objs d !! i = Some r /\ r !! CKA_UNIQUE_ID = Some (SText uid).
Proof.
  intros [Hu Hz]. unfold old_id. destruct (ids_cases d uid Hu) as [[-> H]|(i & r & -> & H1 & H2)]; [by left|].
  right. exists i, r. split_and!; try done. intros ->. congruence.
Qed.
Lemma new_id_fresh d uid : db_wf d -> new_id d uid <> 0 /\ forall r, d_objs d !! new_id d uid = Some r -> r !! CKA_UNIQUE_ID = Some (SText uid).
Proof.
  intros Hw. unfold new_id. destruct (old_id_cases d uid Hw) as [(-> & _ & _)|(i & r & -> & Hi & _ & H1 & H2)].
  - cbn. split; [lia|]. intros r H. apply max_id_above in H. lia.
  - destruct (N.eqb_spec i 0); [done|]. split; [done|]. intros r' H. congruence.
Qed.
Definition tx_db (l : list stmt) (d : db) : db := foldl (fun d s => exec_db s d) d l.
Lemma del_effect d uid : db_wf d ->
  let d' := tx_db (del_stmts d uid) d in
  forallb plain_stmt (del_stmts d uid) = true /\ d_tables d' = d_tables d /\ d_meta d' = d_meta d /\
  (forall j, d_objs d' !! j = match d_objs d !! j with
                             | Some r => if bool_decide (r !! CKA_UNIQUE_ID = Some (SText uid)) then None else Some r
                             | None => None end) /\
  d_objs d' !! new_id d uid = None.
Proof.
  intros Hw. unfold del_stmts, tx_db. pose proof (new_id_fresh d uid Hw) as [Hn0 Hn].
  destruct (old_id_cases d uid Hw) as [(Ho & _ & H)|(i & r & Ho & Hi & _ & H1 & H2)].
  - rewrite Ho. cbn. split_and!; try done.
    + intros j. destruct (d_objs d !! j) as [r|] eqn:Hj; [|done]. rewrite bool_decide_eq_false_2; [done|by eapply H].
    + destruct (d_objs d !! new_id d uid) as [g|] eqn:Hd; [|done]. exfalso. eapply H; [done|]. by apply Hn.
  - rewrite Ho. destruct (N.eqb_spec i 0); [done|]. cbn. split_and!; try done.
    + intros j. destruct (N.eq_dec j i) as [->|Hne].
      * rewrite lookup_delete, H1. by rewrite bool_decide_eq_true_2.
      * rewrite lookup_delete_ne by done. destruct (d_objs d !! j) as [r'|] eqn:Hj; [|done]. rewrite bool_decide_eq_false_2; [done|].
        intros H3. apply Hne. by eapply (wf_unique d Hw).
    + unfold new_id. rewrite Ho. destruct (N.eqb_spec i 0); [done|]. apply lookup_delete.
Qed.
Lemma store_effect d o s uid : db_wf d -> store_obj_stmts d o = Ok s -> get_string o CKA_UNIQUE_ID = Ok uid ->
  Forall attr_wf (o_attrs o) -> last_attr (o_attrs o) CKA_UNIQUE_ID = get_attr o CKA_UNIQUE_ID ->
  let d' := c_disk (exec s d) in
  d_tables d = true /\ d_tables d' = true /\ d_meta d' = d_meta d /\
  d_objs d' !! new_id d uid = Some (kept_rows (o_attrs o) ∅) /\
  kept_rows (o_attrs o) ∅ !! CKA_UNIQUE_ID = Some (SText uid) /\
  (forall j, j <> new_id d uid -> d_objs d' !! j = d_objs d !! j) /\ db_wf d'.
Proof.
  intros Hw Hs Hu Hwf Hlast. unfold store_obj_stmts in Hs. rewrite Hu in Hs. cbn [rbind] in Hs.
  destruct (d_tables d) eqn:Ht; [|done]. cbn [negb] in Hs. destruct (ins_stmts _ _) as [l|] eqn:Hi; [|done]. cbn [rbind] in Hs. simplify_eq.
  cbv zeta. destruct (del_effect d uid Hw) as (D1 & D2 & D3 & D4 & D5).
  destruct (ins_exec _ _ _ (tx_db (del_stmts d uid) d) Hi) as (I1 & I2 & I3 & I4 & I5 & I6 & I7).
  assert (is_ok (ins_stmts (new_id d uid) (o_attrs o)) = true) as _ by by rewrite Hi.
  assert (exec (SBegin :: del_stmts d uid ++ l ++ [SCommit]) d = Conn (tx_db l (tx_db (del_stmts d uid) d)) None) as He.
  { rewrite app_assoc. rewrite exec_tx by (rewrite forallb_app, D1, I1; done). unfold tx_db. by rewrite foldl_app. }
  rewrite He. cbn [c_disk]. unfold get_string, get_as in Hu. destruct (get_attr o CKA_UNIQUE_ID) as [ua|] eqn:Hua; [|done].
  destruct (last_attr_in _ _ _ Hlast) as (L1 & L2 & L3).
  assert (d_rows (tx_db (del_stmts d uid) d) (new_id d uid) = ∅) as Hr by (unfold d_rows; by rewrite D5).
  assert (kept_rows (o_attrs o) ∅ !! CKA_UNIQUE_ID = Some (SText uid)) as Hk.
  { rewrite kept_rows_get by (try done; by eapply ins_ok). fold (last_attr (o_attrs o) CKA_UNIQUE_ID). rewrite Hlast.
    unfold to_sql. revert Hu. unfold attr_to_string. destruct (a_kind ua); try done. destruct (utf8_valid _); [|done]. intros ?. by simplify_eq. }
  assert (d_objs (tx_db l (tx_db (del_stmts d uid) d)) !! new_id d uid = Some (kept_rows (o_attrs o) ∅)) as Hid.
  { rewrite <- Hr. apply I7. intros ->. apply (ins_nil _ _ Hi) in L1. congruence. }
  assert (forall j, j <> new_id d uid -> d_objs (tx_db l (tx_db (del_stmts d uid) d)) !! j = d_objs d !! j) as Hoth.
  { intros j Hj. unfold tx_db at 1. rewrite I4 by done. rewrite D4. destruct (d_objs d !! j) as [r|] eqn:Hdj; [|done]. rewrite bool_decide_eq_false_2; [done|].
    intros Hru. apply Hj. unfold new_id. destruct (old_id_cases d uid Hw) as [(Ho & _ & H)|(i & r' & Ho & Hi0 & _ & H1 & H2)].
    - by edestruct H.
    - rewrite Ho. destruct (N.eqb_spec i 0); [done|]. by eapply (wf_unique d Hw). }
  unfold tx_db in *. rewrite I2, D2, I3, D3. split_and!; try done. split.
  - intros i j ri rj u Hri Hrj U1 U2. destruct (N.eq_dec i (new_id d uid)) as [->|Ni]; destruct (N.eq_dec j (new_id d uid)) as [->|Nj]; [done|..].
    + rewrite Hid in Hri. rewrite Hoth in Hrj by done. simplify_eq. exfalso. apply Nj. unfold new_id.
      destruct (old_id_cases d uid Hw) as [(Ho & _ & H)|(i & r' & Ho & Hi0 & _ & H1 & H2)]; [by edestruct H|].
      rewrite Ho. destruct (N.eqb_spec i 0); [done|]. by eapply (wf_unique d Hw).
    + rewrite Hid in Hrj. rewrite Hoth in Hri by done. simplify_eq. exfalso. apply Ni. unfold new_id.
      destruct (old_id_cases d uid Hw) as [(Ho & _ & H)|(k & r' & Ho & Hi0 & _ & H1 & H2)]; [by edestruct H|].
      rewrite Ho. destruct (N.eqb_spec k 0); [done|]. by eapply (wf_unique d Hw).
    + rewrite Hoth in Hri, Hrj by done. by eapply (wf_unique d Hw).
  - rewrite Hoth; [apply (wf_zero d Hw)|]. pose proof (new_id_fresh d uid Hw) as [H _]. congruence.
Qed.
Lemma remove_effect d uid s : db_wf d -> remove_stmts d uid = Ok s ->
  let d' := c_disk (exec s d) in
  d_tables d' = d_tables d /\ d_meta d' = d_meta d /\
  (forall j, d_objs d' !! j = match d_objs d !! j with
                             | Some r => if bool_decide (r !! CKA_UNIQUE_ID = Some (SText uid)) then None else Some r
                             | None => None end) /\ db_wf d'.
Proof.
  intros Hw. unfold remove_stmts. destruct (d_tables d) eqn:Ht; [|done]. cbn [negb]. intros ?. simplify_eq. cbv zeta.
  destruct (del_effect d uid Hw) as (D1 & D2 & D3 & D4 & D5). rewrite exec_tx by done. cbn [c_disk]. unfold tx_db in *.
  split_and!; try done; [congruence|]. split.
  - intros i j ri rj u. rewrite !D4. destruct (d_objs d !! i) as [r1|] eqn:E1; [|done]. destruct (d_objs d !! j) as [r2|] eqn:E2; [|by destruct (bool_decide _)].
    destruct (bool_decide _); [done|]. destruct (bool_decide _); [done|]. intros ? ? U1 U2. simplify_eq. by eapply (wf_unique d Hw).
  - by rewrite D4, (wf_zero d Hw).
Qed.

(* Reading after writing. *)
Lemma fetch_whole d uid i rows : db_wf d -> d_tables d = true -> d_objs d !! i = Some rows -> rows !! CKA_UNIQUE_ID = Some (SText uid) ->
  (forall t v, rows !! t = Some v -> is_ok (from_sql t v) = true) -> exists o, fetch_by_uid d uid [] = Ok o.
Proof.
  intros Hw Ht H1 H2 Hok. unfold fetch_by_uid. rewrite Ht. cbn [negb all_u32 rbind]. rewrite (ids_found d uid i rows) by (try done; apply Hw).
  cbn [map List.filter snd]. destruct (map_to_list rows) as [|p l] eqn:Hl.
  - apply map_to_list_empty_iff in Hl. subst. by rewrite lookup_empty in H2.
  - rewrite rows_to_objects_one. unfold rows_to_object. rewrite <- Hl. destruct (add_rows_ok (map_to_list rows) (obj_new CK_UNAVAILABLE_INFORMATION)) as [o Ho].
    + intros t v Hin. apply Hok. by apply elem_of_map_to_list, elem_of_list_In.
    + rewrite Ho. cbn. eauto.
Qed.
Lemma fetch_same d d' uid attrs : db_wf d -> db_wf d' -> d_tables d' = d_tables d ->
  (forall i r, r !! CKA_UNIQUE_ID = Some (SText uid) -> d_objs d !! i = Some r <-> d_objs d' !! i = Some r) ->
  fetch_by_uid d' uid attrs = fetch_by_uid d uid attrs.
Proof.
  intros Hw Hw' Ht H. unfold fetch_by_uid. rewrite Ht.
  assert (ids_with_uid d' uid = ids_with_uid d uid) as ->; [|done].
  destruct (ids_cases d uid (wf_unique _ Hw)) as [[-> H1]|(i & r & -> & H1 & H2)].
  - destruct (ids_cases d' uid (wf_unique _ Hw')) as [[-> H2]|(i & r & -> & H2 & H3)]; [done|]. exfalso. by apply (H1 i r); [apply H|].
  - apply ids_found; [apply Hw'| |done]. by apply H.
Qed.
Lemma kept_from_sql l t v : Forall attr_wf l -> (forall a, In a l -> is_ok (to_sql a) = true) ->
  kept_rows l ∅ !! t = Some v -> exists a, last_attr l t = Some a /\ from_sql t v = Ok (norm a).
Proof.
  intros Hw Hok. rewrite kept_rows_get by done. fold (last_attr l t). destruct (last_attr l t) as [a|] eqn:Hl; [|by rewrite lookup_empty].
  destruct (last_attr_in _ _ _ Hl) as (H1 & H2 & H3). destruct (to_sql a) as [[x|]|] eqn:Hx; try done. intros ?. simplify_eq.
  exists a. split; [done|]. eapply sql_round; [|done]. by apply (proj1 (List.Forall_forall _ _) Hw).
Qed.
Lemma kept_attr l t : Forall attr_wf l -> (forall a, In a l -> is_ok (to_sql a) = true) ->
  row_attr (kept_rows l ∅) t = match last_attr l t with Some a => Some (norm a)
    | None => if t =? CKA_CLASS then Some (from_ulong CKA_CLASS CK_UNAVAILABLE_INFORMATION) else None end.
Proof.
  intros Hw Hok. unfold row_attr. destruct (kept_rows l ∅ !! t) as [v|] eqn:Hk.
  - destruct (kept_from_sql l t v Hw Hok Hk) as (a & -> & ->). done.
  - rewrite kept_rows_get in Hk by done. fold (last_attr l t) in Hk. destruct (last_attr l t) as [a|] eqn:Hl; [|done].
    destruct (last_attr_in _ _ _ Hl) as (H1 & H2 & H3). pose proof (Hok a H1) as Ha. destruct (to_sql a) as [[x|]|] eqn:Hx; try done.
    apply to_sql_none in Hx. congruence.
Qed.
Theorem store_then_fetch d o s uid : db_wf d -> store_obj_stmts d o = Ok s -> get_string o CKA_UNIQUE_ID = Ok uid ->
  Forall attr_wf (o_attrs o) -> last_attr (o_attrs o) CKA_UNIQUE_ID = get_attr o CKA_UNIQUE_ID ->
  exists o', fetch_by_uid (c_disk (exec s d)) uid [] = Ok o' /\
  (forall t, get_attr o' t = match last_attr (o_attrs o) t with Some a => Some (norm a)
    | None => if t =? CKA_CLASS then Some (from_ulong CKA_CLASS CK_UNAVAILABLE_INFORMATION) else None end) /\
  (forall u attrs, u <> uid -> fetch_by_uid (c_disk (exec s d)) u attrs = fetch_by_uid d u attrs).
Proof.
  intros Hw Hs Hu Hwf Hl. destruct (store_effect d o s uid Hw Hs Hu Hwf Hl) as (S1 & S2 & S3 & S4 & S5 & S6 & S7).
  assert (forall a, In a (o_attrs o) -> is_ok (to_sql a) = true) as Hok.
  { unfold store_obj_stmts in Hs. rewrite Hu in Hs. cbn [rbind] in Hs. rewrite S1 in Hs. cbn [negb] in Hs.
    destruct (ins_stmts _ _) eqn:Hi; [|done]. by eapply ins_ok. }
  destruct (fetch_whole (c_disk (exec s d)) uid (new_id d uid) (kept_rows (o_attrs o) ∅)) as [o' Ho']; try done.
  { intros t v Hk. by destruct (kept_from_sql _ _ _ Hwf Hok Hk) as (a & _ & ->). }
  exists o'. split; [done|]. split.
  - intros t. destruct (fetch_get _ _ _ _ Ho') as (i & rows & F1 & F2 & F3 & _). rewrite F3 by done.
    assert (i = new_id d uid) as -> by by eapply (wf_unique _ S7). simplify_eq. by apply kept_attr.
  - intros u attrs Hne. apply fetch_same; try done; [congruence|]. intros i r Hr.
    destruct (N.eq_dec i (new_id d uid)) as [->|Hi]; [|by rewrite S6]. split; intros H.
    + destruct (new_id_fresh d uid Hw) as [_ Hf]. apply Hf in H. congruence.
    + by simplify_eq.
Qed.
