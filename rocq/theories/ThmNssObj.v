(* C47: what is stored in an NSS database is read back. *)
From Verif Require Import NssSpec Rows NssFacts ToyNss ThmNssPin.

Lemma sens_facts : base.NoDup (attrs_with nc_sensitive) /\ ~ CKA_CLASS ∈ attrs_with nc_sensitive /\
  forall t, t ∈ attrs_with nc_sensitive -> t ∈ table_columns /\ ignore_attribute t = false /\ search_by_id t = Some KBytes /\ ~ t ∈ attrs_with nc_authenticated.
Proof.
  split; [apply (bool_decide_eq_true_1 _); vm_compute; reflexivity|]. split; [apply (bool_decide_eq_false_1 _); vm_compute; reflexivity|].
  assert (X : forallb (fun t => bool_decide (t ∈ table_columns) && negb (ignore_attribute t) && bool_decide (search_by_id t = Some KBytes)
             && negb (bool_decide (t ∈ attrs_with nc_authenticated))) (attrs_with nc_sensitive) = true) by (vm_compute; reflexivity).
  intros t Ht. rewrite forallb_forall in X. apply elem_of_list_In in Ht. specialize (X t Ht).
  rewrite !andb_true_iff, !negb_true_iff in X. destruct X as [[[X1 X2] X3] X4].
  apply bool_decide_eq_true in X1. apply bool_decide_eq_true in X3. apply bool_decide_eq_false in X4. done.
Qed.
Lemma auth_facts : base.NoDup (attrs_with nc_authenticated).
Proof. apply (bool_decide_eq_true_1 _); vm_compute; reflexivity. Qed.
Lemma asked_facts t : t ∈ [CKA_CLASS; CKA_KEY_TYPE; CKA_CERTIFICATE_TYPE; CKA_EXTRACTABLE; CKA_SENSITIVE] ->
  t ∈ table_columns /\ t ∉ attrs_with nc_sensitive.
Proof.
  assert (X : forallb (fun t => bool_decide (t ∈ table_columns) && negb (bool_decide (t ∈ attrs_with nc_sensitive)))
    [CKA_CLASS; CKA_KEY_TYPE; CKA_CERTIFICATE_TYPE; CKA_EXTRACTABLE; CKA_SENSITIVE] = true) by (vm_compute; reflexivity).
  intros Ht. rewrite forallb_forall in X. apply elem_of_list_In in Ht. specialize (X t Ht). apply andb_true_iff in X as [X1 X2].
  apply bool_decide_eq_true in X1. apply negb_true_iff, bool_decide_eq_false in X2. done.
Qed.
Lemma col_facts t : t ∈ table_columns -> is_skippable_attribute t = false /\ is_db_attribute t = true.
Proof.
  intros Ha. assert (X : forallb (fun t => negb (is_skippable_attribute t) && is_db_attribute t) table_columns = true) by (vm_compute; reflexivity).
  rewrite forallb_forall in X. apply elem_of_list_In in Ha. specialize (X _ Ha). apply andb_true_iff in X as [X1 X2]. split; [by apply negb_true_iff|done].
Qed.
Lemma del_none l o : (forall a, In a (o_attrs o) -> ~ In (a_type a) l) -> foldl del_attr o l = o.
Proof.
  revert o. induction l as [|t l IH]; intros o Ho; cbn [foldl]; [done|].
  assert (Hd : del_attr o t = o).
  { destruct o as [h ss c at']. unfold del_attr, with_attrs. cbn [o_handle o_session o_class o_attrs] in *. f_equal.
    induction at' as [|a r IHr]; cbn [List.filter]; [done|]. destruct (N.eqb_spec (a_type a) t) as [E|E].
    - exfalso. apply (Ho a); [by left|]. left. done.
    - cbn [negb]. f_equal. apply IHr. intros b Hb. apply Ho. by right. }
  rewrite Hd. apply IH. intros a Ha Hin. apply (Ho a Ha). by right.
Qed.

Local Opaque attrs_with table_columns for_types.
Section Store.
  Context (C : nssp) (L : nss_laws C) (Hnr : no_repeat C) (K : bytes).
  Definition kept_in (prv : bool) (n0 n1 : N) (o : object) (F : N -> option attr) : Prop :=
    forall t, if prv && bool_decide (t ∈ attrs_with nc_sensitive) then
                match get_attr o t with
                | Some a => exists x, F t = Some x /\ sealed_attr C K n0 n1 t a x
                | None => F t = None
                end
              else F t = get_attr o t.
  Lemma store_run o s s' prv id : complete s -> storable C o -> fresh C s -> s_key s = Some K ->
    store C o s = (s', Ok (prv, id)) ->
    exists f n1 row F class, get_object_factory (n_fs C) o = Ok f /\ s_rn s <= n1 <= s_rn s' /\ complete s' /\ s_key s' = Some K /\
      tb_rows (main_table prv (s_db s')) !! id = Some row /\ row_of F row /\ plain_attrs F class /\ class < 2 ^ 32 /\ kept_in prv (s_rn s) n1 o F /\
      (forall t a, t ∈ attrs_with nc_authenticated -> F t = Some a ->
         exists b x, n_meta (s_db s') !! sig_name prv id t = Some (b, x) /\ signed_as C K n1 (s_rn s') id t (a_val a) b) /\
      keys_ok C K (s_rn s) n1 (s_rn s') s' /\
      (forall k, (forall t, k <> sig_name prv id t) -> n_meta (s_db s') !! k = n_meta (s_db s) !! k).
  Proof.
    intros Hcomp [Hh Heph] Hf Hk H. unfold store in H. cbv [mbind lift] in H.
    destruct (get_ulong o CKA_CLASS) as [class|e] eqn:Ecl; [|discriminate H].
    destruct (class_table class) as [p|] eqn:Ect; [|discriminate H]. cbv [gets ensure ret] in H. rewrite Hk in H.
    destruct (get_object_factory (n_fs C) o) as [f|e] eqn:Ef; [|discriminate H]. cbv beta iota in H.
    rewrite del_none in H by (intros a Ha; by apply (Heph f)).
    assert (Hseal : exists s1 o1, (if p then for_types (attrs_with nc_sensitive) (seal_attr C) o else ret o) s = (s1, Ok o1) /\
              drew C K false s s1 /\ kept_in p (s_rn s) (s_rn s1) o (get_attr o1) /\ List.Forall holds (o_attrs o1)).
    { destruct sens_facts as (F1 & F2 & F3). destruct p.
      - destruct (seal_run C L Hnr K (attrs_with nc_sensitive) o s F1 F2 Hf Hk) as (s1 & o1 & R1 & R2 & R3 & R4 & R5).
        exists s1, o1. split; [done|]. split; [done|]. split; [exact R4|]. apply List.Forall_forall. intros a Ha.
        destruct (R5 a Ha) as [Hi|(Hi & Hkd & Hv)]; [rewrite List.Forall_forall in Hh; by apply Hh|].
        destruct (F3 _ Hi) as (G1 & G2 & G3 & _). split; [done|]. split; [done|]. rewrite Hkd. done.
      - exists s, o. split; [done|]. split; [apply drew_refl|]. split; [done|done]. }
    destruct Hseal as (s1 & o1 & Hr & Hd & Hkept & Hh1). unfold ret in Hr at 1. rewrite Hr in H.
    destruct (store_object (s_db s1) p o1) as [[i d]|e] eqn:Est; [|discriminate H]. cbv beta iota in H.
    assert (Hf1 : fresh C s1) by (by apply (drew_fresh C Hnr K false s)). pose proof Hd as (D1 & D2 & D3 & D4 & D5).
    destruct (sign_run_all C L Hnr K p i (fun t => a_val <$> get_attr o1 t) (attrs_with nc_authenticated) d s1 auth_facts Hf1) as (s2 & d2 & R1 & R2 & R3 & R4 & R5 & R6); [congruence|].
    rewrite R1 in H. cbv [modify] in H. injection H as <- <- <-. pose proof R2 as (S1 & S2 & S3 & S4 & S5).
    unfold store_object in Est. destruct (next_id (tb_rows (main_table p (s_db s1)))) as [i'|e] eqn:En; [|discriminate Est]. cbn [rbind] in Est.
    destruct (columns (o_attrs o1)) as [l|e] eqn:Ec; [|discriminate Est]. cbn [rbind] in Est.
    destruct (known_columns _ l); [|discriminate Est]. injection Est as <- <-.
    exists f, (s_rn s1), (insert_row l), (get_attr o1), class. cbn [set_db s_rn s_key s_db s_cols s_cache].
    destruct Hcomp as (C1 & C2 & C3).
    split; [done|]. split; [lia|]. split.
    { unfold complete. cbn [set_db s_cols s_db]. split; [congruence|]. rewrite R3, R4. unfold set_rows. rewrite D1. destruct p; cbn [n_pub n_prv tb_cols]; done. }
    split; [congruence|]. split.
    { assert (X : main_table p d2 = main_table p (set_rows p (fun rows => <[i' := insert_row l]> rows) (s_db s1))) by (unfold main_table; destruct p; congruence).
      rewrite X. unfold main_table, set_rows. destruct p; cbn [n_pub n_prv tb_rows]; apply lookup_insert. }
    split; [intros t; unfold get_attr; apply (columns_row (o_attrs o1) l Hh1 Ec t)|].
    assert (Hcls : get_attr o1 CKA_CLASS = get_attr o CKA_CLASS).
    { specialize (Hkept CKA_CLASS). destruct sens_facts as (_ & F2 & _). rewrite (bool_decide_eq_false_2 _ F2), andb_false_r in Hkept. done. }
    split.
    { split.
      - intros t a Ha. pose proof (find_in _ _ _ Ha) as Hin. pose proof (find_type _ _ _ Ha) as Hty. rewrite List.Forall_forall in Hh1. destruct (Hh1 a Hin) as (_ & Hi & _). split; [done|]. by rewrite <- Hty.
      - rewrite Hcls. unfold get_ulong, get_as in Ecl. destruct (get_attr o CKA_CLASS) as [a|]; [|discriminate Ecl]. by exists a. }
    split.
    { unfold class_table in Ect. unfold CKO_PRIVATE_KEY, CKO_SECRET_KEY, CKO_PUBLIC_KEY, CKO_CERTIFICATE, CKO_TRUST, CKO_NSS_TRUST in Ect.
      repeat match type of Ect with (if ?b then _ else _) = _ => let E := fresh in destruct b eqn:E; [lia|] end. discriminate Ect. }
    split; [done|]. split.
    { intros t a Ht Ha. specialize (R5 t). rewrite (bool_decide_eq_true_2 _ Ht), Ha in R5. cbn [fmap option_fmap option_map] in R5.
      destruct R5 as (b & B1 & B2). by exists b, []. }
    split.
    { intros n x Hn Hx. cbn [set_db s_cache] in Hx. destruct (S5 _ _ Hx) as [Hx1|(m & M1 & M2 & ->)].
      - destruct (D5 _ _ Hx1) as [Hx2|(m & M1 & M2 & ->)]; [rewrite Hf in Hx2 by lia; done|]. apply Hnr in M2. subst m. f_equal. lia.
      - apply Hnr in M2. subst m. f_equal. lia. }
    intros k Hkk. rewrite R6 by done. rewrite <- D1. unfold set_rows. destruct p; done.
  Qed.

  Lemma fetch_run types prv id s n0 n1 n2 row F class o f : complete s -> s_key s = Some K ->
    n0 <= n1 <= n2 -> tb_rows (main_table prv (s_db s)) !! id = Some row -> row_of F row -> plain_attrs F class -> class < 2 ^ 32 ->
    kept_in prv n0 n1 o F -> keys_ok C K n0 n1 n2 s ->
    (forall t a, t ∈ attrs_with nc_authenticated -> F t = Some a ->
       exists b x, n_meta (s_db s) !! sig_name prv id t = Some (b, x) /\ signed_as C K n1 n2 id t (a_val a) b) ->
    (forall t a, get_attr o t = Some a -> holds a) ->
    get_object_factory (n_fs C) o = Ok f ->
    (forall t, t ∈ types -> t ∈ table_columns) ->
    exists s2 o2, fetch C prv id types s = (s2, Ok o2) /\ same_store s s2 /\
      forall t a, types = [] \/ t ∈ types -> get_attr o t = Some a -> get_attr o2 t = Some a.
  Proof.
    intros (C1 & C2 & C3) Hk Hn Hrow Hro Hpl Hclass Hkept Hok Hsig Hold Hfac Htypes.
    destruct sens_facts as (F1 & F2 & F3).
    (* the columns read *)
    assert (Hcells : exists TS, fetch_by_nssid s prv id (query_types types) = row_object (named_cells TS row) /\
              (forall t, t ∈ TS -> t ∈ table_columns) /\ (types = [] -> TS = table_columns) /\ (forall t, wanted types t -> t ∈ TS)).
    { assert (Hcols : tb_cols (main_table prv (s_db s)) = table_columns) by (by destruct prv).
      assert (Hw : forall t, wanted types t -> t ∈ table_columns) by (intros t [Ht|Ht]; [by apply Htypes|by apply asked_facts]).
      unfold fetch_by_nssid. rewrite Hrow, Hcols.
      assert (Hall : forallb (fun t => bool_decide (t ∈ table_columns)) (query_types types) = true).
      { apply forallb_forall. intros t Ht. apply bool_decide_eq_true_2, Hw, query_sub. by apply elem_of_list_In. }
      rewrite Hall. destruct types as [|t0 types].
      - exists table_columns. change (query_types []) with ([] : list N). cbv iota. rewrite C1, star_named by done. done.
      - remember (t0 :: types) as ts eqn:Ets. assert (Hne : ts <> []) by (subst; done). clear Ets t0 types.
        assert (Hq : forall t, wanted ts t -> t ∈ query_types ts) by (intros t Ht; apply query_in; [done|done|apply col_facts; by apply Hw|apply col_facts; by apply Hw]).
        exists (query_types ts). destruct (query_types ts) as [|x q] eqn:Eq.
        + exfalso. apply (not_elem_of_nil CKA_CLASS). apply Hq. right. apply elem_of_list_here.
        + split; [done|]. rewrite <- Eq. split; [intros t Ht; by apply Hw, query_sub|]. split; [done|]. intros t Ht. rewrite Eq. by apply Hq. }
    destruct Hcells as (TS & Hfe & Hts & Hts0 & Hwant).
    destruct (cells_read F class row TS no_object Hro Hpl) as (o1 & R1 & R2 & R3).
    assert (Hcin : CKA_CLASS ∈ TS) by (apply Hwant; right; apply elem_of_list_here).
    assert (Hcls : o_class o1 = class) by (by rewrite R2, bool_decide_eq_true_2).
    unfold fetch. cbv [mbind]. rewrite Hfe. unfold row_object. rewrite R1. cbn [rbind]. rewrite Hcls.
    assert (Ecu : class =? CK_UNAVAILABLE_INFORMATION = false) by (unfold CK_UNAVAILABLE_INFORMATION; lia). rewrite Ecu. cbv [gets]. rewrite Hk. cbv [ret].
    assert (Hget : forall t, t <> CKA_CLASS -> get_attr o1 t = if bool_decide (t ∈ TS) then F t else None).
    { intros t Ht. rewrite R3. assert (X : get_attr no_object t = None).
      { unfold get_attr, no_object, obj_new. cbn [o_attrs find_attr a_type from_ulong]. destruct (N.eqb_spec CKA_CLASS t); [congruence|done]. }
      rewrite X. destruct (bool_decide (t ∈ TS)); [|done]. by destruct (F t). }
    assert (Hgetc : get_attr o1 CKA_CLASS = F CKA_CLASS).
    { rewrite R3, bool_decide_eq_true_2 by done. destruct Hpl as [_ (a & Ha & _)]. by rewrite Ha. }
    (* the sensitive attributes *)
    assert (Hopen : exists s2 o2, (if prv then for_types (attrs_with nc_sensitive) (open_attr C) o1 else (fun s => (s, Ok o1))) s = (s2, Ok o2) /\
              same_store s s2 /\ keys_ok C K n0 n1 n2 s2 /\
              (forall t, t ∈ TS -> get_attr o2 t = get_attr o t) /\
              (forall t a, t ∉ attrs_with nc_sensitive -> get_attr o2 t = Some a -> F t = Some a)).
    { destruct prv.
      - destruct (open_run C L Hnr K n0 n1 n2 (fun t => if bool_decide (t ∈ TS) then get_attr o t else None) (attrs_with nc_sensitive) o1 s F1 F2 Hk Hok) as (s2 & o2 & O1 & O2 & O3 & O4 & O5); [lia| |].
        { intros t Ht. specialize (Hkept t). rewrite (bool_decide_eq_true_2 _ Ht) in Hkept. cbn [andb] in Hkept.
          rewrite Hget by (intros ->; by apply F2). destruct (bool_decide (t ∈ TS)); [|done]. exact Hkept. }
        exists s2, o2. split; [done|]. split; [done|]. split; [done|]. split.
        + intros t Ht. rewrite O5. specialize (Hkept t). destruct (bool_decide (t ∈ attrs_with nc_sensitive)) eqn:Es.
          * apply bool_decide_eq_true in Es. rewrite bool_decide_eq_true_2 by done.
            destruct (get_attr o t) as [a|] eqn:Ea; [|done]. cbn [option_map]. f_equal. destruct (Hold t a Ea) as (_ & _ & Hkd & _).
            pose proof (find_type _ _ _ Ea) as Hty. rewrite Hty in Hkd. destruct (F3 t Es) as (_ & _ & Hkb & _). destruct a as [t' k v].
            cbn [a_type a_kind a_val] in *. unfold from_bytes. congruence.
          * cbn [andb] in Hkept. rewrite <- Hkept. destruct (N.eq_dec t CKA_CLASS) as [->|Hnc]; [done|]. rewrite Hget by done. by rewrite bool_decide_eq_true_2.
        + intros t a Ht. rewrite O5. rewrite (bool_decide_eq_false_2 _ Ht). destruct (N.eq_dec t CKA_CLASS) as [->|Hnc]; [by rewrite Hgetc|]. rewrite Hget by done. by destruct (bool_decide (t ∈ TS)).
      - exists s, o1. split; [done|]. split; [done|]. split; [done|]. split.
        + intros t Ht. specialize (Hkept t). cbn [andb] in Hkept. rewrite <- Hkept. destruct (N.eq_dec t CKA_CLASS) as [->|Hnc]; [done|]. rewrite Hget by done. by rewrite bool_decide_eq_true_2.
        + intros t a Ht. destruct (N.eq_dec t CKA_CLASS) as [->|Hnc]; [by rewrite Hgetc|]. rewrite Hget by done. by destruct (bool_decide (t ∈ TS)). }
    destruct Hopen as (s2 & o2 & O1 & (O2 & O3 & O4) & O5 & O6 & O7). rewrite O1. cbv beta iota.
    destruct (check_run C L Hnr K n0 n1 n2 prv id (attrs_with nc_authenticated) o2 s2) as (s3 & V1 & V2 & V3 & V4); [congruence|done|lia| |].
    { intros t a Ht Ha. rewrite O2. apply Hsig; [done|]. apply O7; [|done]. intros X. by destruct (F3 t X) as (_ & _ & _ & Y). }
    rewrite V1.
    assert (Hfac2 : get_object_factory (n_fs C) o2 = Ok f).
    { unfold get_object_factory, get_ulong, get_as in *. rewrite !O6; [exact Hfac| | |]; apply Hwant; right; rewrite !elem_of_cons; auto 10. }
    exists s3, o2. assert (Hsk : attrs_with nc_skippable = [1073743360]) by (vm_compute; reflexivity). rewrite Hsk. cbn [for_types].
    unfold add_default. cbv [mbind lift]. rewrite Hfac2. rewrite bool_decide_eq_false_2.
    2: { intros X. apply Htypes in X. apply col_facts in X as [X _]. vm_compute in X. discriminate X. }
    cbv [ret]. split; [done|]. split; [unfold same_store; split; [congruence|split; congruence]|].
    intros t a Ht Ha. rewrite <- Ha. apply O6. destruct Ht as [->|Ht].
    - rewrite Hts0 by done. destruct (Hold t a Ha) as (X & _). by rewrite (find_type _ _ _ Ha) in X.
    - apply Hwant. by left.
  Qed.
End Store.

(* A new object gets a number that no other has. *)
Lemma max_above (rows : gmap N (gmap N bytes)) i r : rows !! i = Some r -> i <= max_id rows.
Proof.
  intros H. unfold max_id. apply elem_of_map_to_list, elem_of_list_In in H. induction (map_to_list rows) as [|p l IH]; [done|].
  cbn [map foldr]. destruct H as [->|H]; [cbn [fst]; lia|]. specialize (IH H). lia.
Qed.
Lemma free_new rows fuel i j : free_id rows fuel i = Ok j -> rows !! j = None.
Proof.
  revert i. induction fuel as [|n IH]; intros i; cbn [free_id]; [intros H; discriminate H|]. destruct (rows !! i) as [r|] eqn:E.
  - destruct (i <? 0x3fffffff); [apply IH|intros H; discriminate H].
  - destruct (0x3fffffff <? i); intros H; [discriminate H|]. injection H as <-. done.
Qed.
Lemma next_new rows j : next_id rows = Ok j -> rows !! j = None.
Proof.
  unfold next_id. destruct ((0 <? max_id rows) && (max_id rows <? 0x3fffffff)); [|apply free_new]. intros H. injection H as <-.
  destruct (rows !! (max_id rows + 1)) as [r|] eqn:E; [|done]. apply max_above in E. lia.
Qed.

Section Histories.
  Context (C : nssp) (L : nss_laws C) (Hnr : no_repeat C) (K : bytes).
  (* Storing any object, whatever comes of it. *)
  Lemma store_any o s s' r : complete s -> fresh C s -> s_key s = Some K -> store C o s = (s', r) ->
    complete s' /\ fresh C s' /\ s_key s' = Some K /\ s_rn s <= s_rn s' /\
    (forall id x, s_cache s' !! id = Some x -> s_cache s !! id = Some x \/ exists n, s_rn s <= n /\ id = n_rnd C n 32) /\
    n_meta (s_db s') !! (0, 0, 0) = n_meta (s_db s) !! (0, 0, 0) /\
    forall prv id row, tb_rows (main_table prv (s_db s)) !! id = Some row ->
      tb_rows (main_table prv (s_db s')) !! id = Some row /\
      (forall t, n_meta (s_db s') !! sig_name prv id t = n_meta (s_db s) !! sig_name prv id t) /\ r <> Ok (prv, id).
  Proof.
    intros Hcomp Hf Hk H.
    assert (Hself : complete s /\ fresh C s /\ s_key s = Some K /\ s_rn s <= s_rn s /\
      (forall id x, s_cache s !! id = Some x -> s_cache s !! id = Some x \/ exists n, s_rn s <= n /\ id = n_rnd C n 32) /\
      n_meta (s_db s) !! (0, 0, 0) = n_meta (s_db s) !! (0, 0, 0) /\
      forall e, r = Err e -> forall prv id row, tb_rows (main_table prv (s_db s)) !! id = Some row ->
      tb_rows (main_table prv (s_db s)) !! id = Some row /\
      (forall t, n_meta (s_db s) !! sig_name prv id t = n_meta (s_db s) !! sig_name prv id t) /\ r <> Ok (prv, id)).
    { split; [done|]. split; [done|]. split; [done|]. split; [lia|]. split; [by left|]. split; [done|]. intros e ->. done. }
    unfold store in H. cbv [mbind lift] in H.
    destruct (get_ulong o CKA_CLASS) as [class|e] eqn:Ecl; [|apply pair_equal_spec in H as [<- <-]; destruct Hself as (Y1 & Y2 & Y3 & Y4 & Y5 & Y6 & Hx); exact (conj Y1 (conj Y2 (conj Y3 (conj Y4 (conj Y5 (conj Y6 (Hx _ eq_refl)))))))].
    destruct (class_table class) as [p|] eqn:Ect; [|apply pair_equal_spec in H as [<- <-]; destruct Hself as (Y1 & Y2 & Y3 & Y4 & Y5 & Y6 & Hx); exact (conj Y1 (conj Y2 (conj Y3 (conj Y4 (conj Y5 (conj Y6 (Hx _ eq_refl)))))))]. cbv [gets ensure ret] in H. rewrite Hk in H.
    destruct (get_object_factory (n_fs C) o) as [f|e] eqn:Ef; [|apply pair_equal_spec in H as [<- <-]; destruct Hself as (Y1 & Y2 & Y3 & Y4 & Y5 & Y6 & Hx); exact (conj Y1 (conj Y2 (conj Y3 (conj Y4 (conj Y5 (conj Y6 (Hx _ eq_refl)))))))]. cbv beta iota in H.
    remember (foldl del_attr o (f_ephemeral f)) as o0 eqn:Eo0.
    assert (Hseal : exists s1 o1, (if p then for_types (attrs_with nc_sensitive) (seal_attr C) o0 else (fun s => (s, Ok o0))) s = (s1, Ok o1) /\
              drew C K false s s1).
    { destruct sens_facts as (F1 & F2 & F3). destruct p.
      - destruct (seal_run C L Hnr K (attrs_with nc_sensitive) o0 s F1 F2 Hf Hk) as (s1 & o1 & R1 & R2 & _). by exists s1, o1.
      - exists s, o0. split; [done|]. apply drew_refl. }
    destruct Hseal as (s1 & o1 & Hr & Hd). rewrite Hr in H. pose proof Hd as (D1 & D2 & D3 & D4 & D5).
    assert (Hf1 : fresh C s1) by (by apply (drew_fresh C Hnr K false s)).
    destruct (store_object (s_db s1) p o1) as [[i d]|e] eqn:Est.
    2: { apply pair_equal_spec in H as [<- <-]. split; [unfold complete; by rewrite D1, D2|]. split; [done|]. split; [congruence|]. split; [done|]. split; [|by rewrite D1].
         intros id x Hx. destruct (D5 _ _ Hx) as [Hx1|(m & M1 & M2 & _)]; [by left|right]. exists m. split; [lia|done]. }
    cbv beta iota in H.
    destruct (sign_run_all C L Hnr K p i (fun t => a_val <$> get_attr o1 t) (attrs_with nc_authenticated) d s1 auth_facts Hf1) as (s2 & d2 & R1 & R2 & R3 & R4 & R5 & R6); [congruence|].
    rewrite R1 in H. cbv [modify] in H. apply pair_equal_spec in H as [<- <-]. pose proof R2 as (S1 & S2 & S3 & S4 & S5).
    unfold store_object in Est. destruct (next_id (tb_rows (main_table p (s_db s1)))) as [i'|e] eqn:En; [|discriminate Est]. cbn [rbind] in Est.
    destruct (columns (o_attrs o1)) as [l|e] eqn:Ec; [|discriminate Est]. cbn [rbind] in Est.
    destruct (known_columns _ l); [|discriminate Est]. injection Est as <- <-. cbn [set_db s_rn s_key s_db s_cols s_cache].
    apply next_new in En. rewrite D1 in En. destruct Hcomp as (C1 & C2 & C3).
    split.
    { unfold complete. cbn [set_db s_cols s_db]. split; [congruence|]. rewrite R3, R4. unfold set_rows. rewrite D1. destruct p; cbn [n_pub n_prv tb_cols]; done. }
    split; [exact (drew_fresh C Hnr K true s1 s2 R2 Hf1)|]. split; [congruence|]. split; [lia|]. split.
    { intros id x Hx. destruct (S5 _ _ Hx) as [Hx1|(m & M1 & M2 & _)]; [|right; exists m; split; [lia|done]].
      destruct (D5 _ _ Hx1) as [Hx2|(m & M1 & M2 & _)]; [by left|right; exists m; split; [lia|done]]. }
    split.
    { rewrite R6 by (intros t; unfold sig_name; destruct p; discriminate). rewrite <- D1. unfold set_rows. by destruct p. }
    intros prv id row Hrow. assert (Hne : (prv, id) <> (p, i')) by (intros X; injection X as -> ->; congruence). split; [|split; [|congruence]].
    - rewrite <- D1 in Hrow. assert (X : main_table prv d2 = main_table prv (set_rows p (fun rows => <[i' := insert_row l]> rows) (s_db s1))) by (unfold main_table; destruct prv; congruence).
      rewrite X. unfold main_table, set_rows in *. destruct prv, p; cbn [n_pub n_prv tb_rows] in *; try done; rewrite lookup_insert_ne; try done; congruence.
    - intros t. rewrite R6; [rewrite <- D1; unfold set_rows; by destruct p|]. intros u. unfold sig_name. destruct prv, p; congruence.
  Qed.
End Histories.

Section Home.
  Context (C : nssp) (L : nss_laws C) (Hnr : no_repeat C) (p salt iv : bytes) (np iter n0 n1 n2 : N) (prv : bool) (id : N).
  Context (row : gmap N bytes) (Sg : N -> option (bytes * bytes)) (Hiv : blen iv = 14) (Hnp : np < n0) (H01 : n0 <= n1 <= n2).
  Local Notation K := (n_sha1 C (salt ++ p)).
  Local Notation ks := (n_rnd C np 32).
  (* The object is there, and the user is logged in with the PIN or not at all. *)
  Definition at_home (t : ntok) : Prop :=
    let s := k_nss t in
    complete s /\ fresh C s /\ entry C p salt ks iv iter (s_db s) /\ n2 <= s_rn s /\ keys_ok C K n0 n1 n2 s /\
    (forall k, s_cache s !! ks = Some k -> k = (false, n_kdf C K ks iter)) /\
    tb_rows (main_table prv (s_db s)) !! id = Some row /\ (forall u, n_meta (s_db s) !! sig_name prv id u = Sg u) /\
    ((s_key s = None /\ k_logged t = KRY_UNSPEC) \/ (s_key s = Some K /\ k_logged t = CKU_USER)).

  Lemma login_home s : entry C p salt ks iv iter (s_db s) -> s_key s = None ->
    (forall k, s_cache s !! ks = Some k -> k = (false, n_kdf C K ks iter)) ->
    exists s', auth_user C CKU_USER p false s = (s', Ok tt) /\ s_db s' = s_db s /\ s_cols s' = s_cols s /\ s_rn s' = s_rn s /\ s_key s' = Some K /\
      forall i x, s_cache s' !! i = Some x -> (i = ks /\ x = (false, n_kdf C K ks iter)) \/ s_cache s !! i = Some x.
  Proof.
    intros He Hk Hc. destruct (s_cache s !! ks) as [k|] eqn:Ec.
    - rewrite (Hc k eq_refl) in Ec. destruct (any_pin C L p salt ks iv iter (nl_len C L np 32) Hiv p false s He Ec) as (key & Ha & Hkey).
      rewrite Ha. exists (set_keys key s). cbn [set_keys s_db s_cols s_rn s_key s_cache]. rewrite Hkey by done. split; [done|]. split; [done|]. split; [done|]. split; [done|]. split; [done|]. by right.
    - destruct (right_pin C L p salt ks iv iter (nl_len C L np 32) Hiv s He Hk Ec) as (s' & Ha & R1 & R2 & R3 & R4 & R5). exists s'.
      split; [done|]. split; [done|]. split; [done|]. split; [done|]. split; [done|]. intros i x Hx. rewrite R5 in Hx. apply cache_add_in in Hx as [[-> ->]|Hx]; [by left|by right].
  Qed.

  Lemma home_step c t : at_home t -> easy p c -> at_home (fst (ncall_run C c t)).
  Proof.
    intros Hh Hc. destruct t as [s u]. pose proof Hh as (A1 & A2 & A3 & A4 & A5 & A6 & A7 & A8 & A9). cbn [k_nss k_logged] in *.
    destruct c; cbn [easy] in Hc; try done; cbn [ncall_run].
    - destruct Hc as [-> ->]. cbv [mbind]. unfold nlogin. cbv [mbind gets ensure ret fail]. cbn [k_logged].
      change ((CKU_USER =? CKU_SO) || (CKU_USER =? CKU_USER)) with true. cbv iota.
      destruct A9 as [[Hk ->]|[Hk ->]]; [|exact Hh]. change (negb (CKU_USER =? KRY_UNSPEC)) with true. change (KRY_UNSPEC =? KRY_UNSPEC) with true. cbv beta iota.
      unfold back. cbn [k_nss k_logged]. destruct (login_home s A3 Hk A6) as (s' & Ha & R1 & R2 & R3 & R4 & R5). rewrite Ha. cbv [modify]. unfold set_logged. cbn [k_nss fst].
      unfold at_home. cbn [k_nss k_logged]. unfold complete. rewrite R1, R2, R3. split; [done|]. split.
      { intros n Hn. rewrite R3 in Hn. destruct (s_cache s' !! n_rnd C n 32) as [x|] eqn:E; [|done]. apply R5 in E as [[E _]|E]; [apply Hnr in E; lia|]. by rewrite A2 in E by lia. }
      split; [done|]. split; [done|]. split.
      { intros n x Hn Hx. apply R5 in Hx as [[E _]|E]; [apply Hnr in E; lia|]. by apply A5. }
      split.
      { intros k Hx. apply R5 in Hx as [[_ E]|E]; [done|]. by apply A6. }
      split; [done|]. split; [done|]. by right.
    - cbv [mbind]. unfold nlogout. cbv [mbind gets ensure ret fail]. destruct (any_logged (Ntok s u)); [|exact Hh].
      cbv [modify]. unfold back, unauth_user, set_logged. cbv [modify]. cbn [k_nss k_logged fst]. unfold at_home. cbn [k_nss k_logged set_keys].
      split; [done|]. split; [done|]. split; [done|]. split; [done|]. split; [done|]. split; [done|]. split; [done|]. split; [done|]. by left.
    - cbv [mbind]. unfold ncreate. cbv [mbind gets ensure ret fail]. destruct A9 as [[Hk ->]|[Hk ->]]; [exact Hh|].
      change (any_logged (Ntok s CKU_USER)) with true. cbv iota beta. unfold back. cbn [k_nss k_logged].
      destruct (store C o s) as [s' r] eqn:E. destruct (store_any C L Hnr K o s s' r A1 A2 Hk E) as (B1 & B2 & B3 & B4 & B5 & B6 & B7).
      assert (X : at_home (Ntok s' CKU_USER)).
      { unfold at_home. cbn [k_nss k_logged]. destruct (B7 prv id row A7) as (B8 & B9 & _). split; [done|]. split; [done|]. split; [unfold entry; by rewrite B6|]. split; [lia|]. split.
        { intros n x Hn Hx. apply B5 in Hx as [Hx|(m & Hm & Hx)]; [by apply A5|]. apply Hnr in Hx. lia. }
        split.
        { intros k Hx. apply B5 in Hx as [Hx|(m & Hm & Hx)]; [by apply A6|]. apply Hnr in Hx. lia. }
        split; [done|]. split; [intros v; by rewrite B9|]. by right. }
      destruct r as [[p' i']|e]; exact X.
    - cbv [mbind]. cbn [k_nss]. destruct (search (s_db s) tmpl); exact Hh.
    - cbn [fst k_nss]. assert (X : s_db (open_db (s_db s) (s_rn s)) = s_db s /\ s_cols (open_db (s_db s) (s_rn s)) = s_cols s).
      { destruct A1 as (C1 & C2 & C3). unfold open_db, check_columns, missing. rewrite C2, C3.
        assert (Y : List.filter (fun t => negb (bool_decide (t ∈ table_columns))) table_columns = []) by (vm_compute; reflexivity). rewrite Y, !app_nil_r.
        destruct (s_db s) as [[pc pr] [vc vr] m]. cbn [n_pub n_prv n_meta tb_cols tb_rows] in *. subst pc vc. cbv iota beta. cbn [s_db s_cols]. rewrite C1. split; [done|].
        destruct table_columns; done. }
      destruct X as [X1 X2]. unfold at_home. cbn [k_nss k_logged]. unfold complete. rewrite X1, X2. split; [done|].
      change (s_cache (open_db (s_db s) (s_rn s))) with (∅ : gmap bytes (bool * bytes)). split; [intros n Hn; apply lookup_empty|].
      split; [done|]. split; [done|]. split; [intros n x Hn Hx; by rewrite open_cache, lookup_empty in Hx|]. split; [intros k Hx; by apply lookup_empty_Some in Hx|].
      split; [done|]. split; [done|]. by left.
  Qed.
  Lemma home_run l t : at_home t -> List.Forall (easy p) l -> at_home (nrun C t l).
  Proof.
    revert t. induction l as [|c l IH]; intros t Ht Hl; cbn [nrun]; [done|]. apply List.Forall_cons_iff in Hl as [Hc Hl].
    apply IH; [by apply home_step|done].
  Qed.
End Home.

(* An object that the format can hold, created by a user who gave the right PIN, is read back as it was given, after any
   number of other objects, searches, logins, logouts and restarts. *)
Theorem C47_partial (C : nssp) (L : nss_laws C) (Hr : no_repeat C) (p : bytes) (t : ntok) (o : object) (prv : bool) (id : N)
    (l : list ncall) (types : list N) :
  ready C p t -> storable C o -> outcome C t (NCreate o) = Ok (ONew prv id) ->
  List.Forall (easy p) l -> (forall u, u ∈ types -> u ∈ table_columns) ->
  let t2 := nrun C t (NCreate o :: l) in
  k_logged t2 = CKU_USER ->
  exists o2, outcome C t2 (NRead prv id types) = Ok (OObject o2) /\
    forall u a, types = [] \/ u ∈ types -> get_attr o u = Some a -> get_attr o2 u = Some a.
Proof.
  intros (Hlog & Hcomp & Hfresh & salt & np & iter & iv & Hnp & Hiv & Hent & Hkey & Hcache) Hst Hout Hl Hty. cbv zeta. intros Hend.
  destruct t as [s u]. cbn [k_nss k_logged stored] in *. subst u. cbn [nrun] in *.
  unfold outcome in Hout. cbn [ncall_run] in Hout, Hend |- *. unfold ncreate in Hout, Hend |- *. cbv [mbind gets ensure ret] in Hout, Hend |- *.
  change (any_logged (Ntok s CKU_USER)) with true in *. cbv iota beta in Hout, Hend |- *. unfold back at 1 in Hout. unfold back at 1 in Hend. unfold back at 1. cbn [k_nss k_logged] in Hout, Hend |- *.
  destruct (store C o s) as [s' r] eqn:E. destruct r as [[prv' id']|e]; [|discriminate Hout]. cbn [snd] in Hout. injection Hout as -> ->. cbn [fst] in *.
  destruct (store_run C L Hr (n_sha1 C (salt ++ p)) o s s' prv id Hcomp Hst Hfresh Hkey E) as (f & n1 & row & F & class & R1 & R2 & R3 & R4 & R5 & R6 & R7 & R8 & R9 & R10 & R11 & R12).
  destruct (store_any C L Hr (n_sha1 C (salt ++ p)) o s s' _ Hcomp Hfresh Hkey E) as (B1 & B2 & B3 & B4 & B5 & B6 & B7).
  assert (Hh : at_home C p salt iv np iter (s_rn s) n1 (s_rn s') prv id row (fun v => n_meta (s_db s') !! sig_name prv id v) (Ntok s' CKU_USER)).
  { unfold at_home. cbn [k_nss k_logged]. split; [done|]. split; [done|]. split; [unfold entry; by rewrite B6|]. split; [lia|]. split; [done|]. split.
    { intros k Hx. apply B5 in Hx as [Hx|(m & Hm & Hx)]; [by apply Hcache|]. apply Hr in Hx. lia. }
    split; [done|]. split; [done|]. by right. }
  apply (home_run C L Hr p salt iv np iter (s_rn s) n1 (s_rn s') prv id row _ Hiv Hnp R2 l) in Hh; [|done].
  destruct (nrun C (Ntok s' CKU_USER) l) as [s2 u2]. cbn [k_nss k_logged] in *. subst u2.
  destruct Hh as (A1 & A2 & A3 & A4 & A5 & A6 & A7 & A8 & A9). cbn [k_nss k_logged] in *. destruct A9 as [[_ X]|[Hk _]]; [vm_compute in X; discriminate X|].
  destruct (fetch_run C L Hr (n_sha1 C (salt ++ p)) types prv id s2 (s_rn s) n1 (s_rn s') row F class o f A1 Hk R2 A7 R6 R7 R8 R9 A5) as (s3 & o2 & F1 & F2 & F3).
  { intros v a Hv Ha. rewrite A8. by apply R10. }
  { intros v a Ha. destruct Hst as [Hst _]. rewrite List.Forall_forall in Hst. apply Hst. by apply find_in in Ha. }
  { done. } { done. }
  exists o2. split; [|done]. unfold outcome. cbn [ncall_run]. unfold nread. cbv [mbind gets ensure ret]. unfold back. cbn [k_nss k_logged]. rewrite F1.
  change (any_logged (Ntok s3 CKU_USER)) with true. cbn [orb]. done.
Qed.

(* A new object replaces none. *)
Theorem C47_others (C : nssp) (L : nss_laws C) (Hr : no_repeat C) (p : bytes) (t : ntok) (o : object) (prv : bool) (id : N) (row : gmap N bytes) :
  ready C p t -> tb_rows (main_table prv (stored t)) !! id = Some row ->
  let t2 := fst (ncall_run C (NCreate o) t) in
  same_entry prv id (k_nss t) (k_nss t2) /\ outcome C t (NCreate o) <> Ok (ONew prv id).
Proof.
  intros (Hlog & Hcomp & Hfresh & salt & np & iter & iv & Hnp & Hiv & Hent & Hkey & Hcache) Hrow. cbv zeta.
  destruct t as [s u]. cbn [k_nss k_logged stored] in *. subst u. unfold outcome. cbn [ncall_run]. unfold ncreate. cbv [mbind gets ensure ret].
  change (any_logged (Ntok s CKU_USER)) with true. cbv iota beta. unfold back. cbn [k_nss k_logged].
  destruct (store C o s) as [s' r] eqn:E. destruct (store_any C L Hr _ o s s' r Hcomp Hfresh Hkey E) as (B1 & B2 & B3 & B4 & B5 & B6 & B7).
  destruct (B7 prv id row Hrow) as (B8 & B9 & B10). assert (X : same_entry prv id s s') by (split; [unfold stored in Hrow; cbn [k_nss] in Hrow; by rewrite B8, Hrow|done]).
  destruct r as [[p' i']|e]; cbn [fst snd k_nss]; (split; [exact X|]); [|done]. intros Y. injection Y as -> ->. by apply B10.
Qed.

(* The state the theorem starts from is reached on every new token. *)
Theorem C47_ready (C : nssp) (L : nss_laws C) (Hr : no_repeat C) (rn : N) (so p : bytes) : blen p <= 500 ->
  ready C p (nrun C (started new_db rn) [NLogin CKU_SO so; NInitPin p; NRestart; NLogin CKU_USER p]).
Proof.
  intros Hp. assert (Hnew : s_db (open_db new_db rn) = new_db /\ s_cols (open_db new_db rn) = table_columns) by (vm_compute; done).
  destruct Hnew as [Hn1 Hn2].
  destruct (set_pin_works C L p (open_db new_db rn)) as (s & salt & ks & iter & iv & Hs & Hks & Hiv & (Hc1 & Hc2 & Hc3 & np & -> & Hlt) & He & _); [done|].
  assert (H1 : ncall_run C (NLogin CKU_SO so) (started new_db rn) = (Ntok (open_db new_db rn) CKU_SO, Ok ODone)).
  { cbn [ncall_run]. unfold nlogin. cbv [mbind gets ensure ret]. change (k_logged (started new_db rn)) with KRY_UNSPEC.
    change ((CKU_SO =? CKU_SO) || (CKU_SO =? CKU_USER)) with true. change (negb (CKU_SO =? KRY_UNSPEC)) with true.
    change (KRY_UNSPEC =? KRY_UNSPEC) with true. cbv beta iota. unfold back, auth_user. cbv [mbind gets].
    change (k_nss (started new_db rn)) with (open_db new_db rn). unfold fetch_password. rewrite open_meta. done. }
  assert (H2 : ncall_run C (NInitPin p) (Ntok (open_db new_db rn) CKU_SO) = (Ntok s CKU_SO, Ok ODone)).
  { cbn [ncall_run]. unfold ninit_pin. cbv [mbind gets ensure ret]. cbn [k_logged]. change (CKU_SO =? CKU_SO) with true. cbv iota beta.
    unfold back. cbn [k_nss k_logged]. rewrite Hs. done. }
  unfold nrun. rewrite H1. cbn [fst]. rewrite H2. cbn [fst]. cbn [ncall_run]. cbn [fst k_nss k_logged].
  assert (X : s_db (open_db (s_db s) (s_rn s)) = s_db s /\ s_cols (open_db (s_db s) (s_rn s)) = table_columns).
  { unfold open_db, check_columns, missing. rewrite Hc2, Hc3, Hn1.
    assert (Y : List.filter (fun t => negb (bool_decide (t ∈ table_columns))) table_columns = []) by (vm_compute; reflexivity).
    change (tb_cols (n_pub new_db)) with table_columns. change (tb_cols (n_prv new_db)) with table_columns.
    change (tb_rows (n_pub new_db)) with (∅ : gmap N (gmap N bytes)). change (tb_rows (n_prv new_db)) with (∅ : gmap N (gmap N bytes)). rewrite Y, !app_nil_r. cbv iota beta. cbn [s_db s_cols].
    rewrite Hn1 in Hc2, Hc3. destruct (s_db s) as [a b m]. cbn [n_pub n_prv n_meta] in *. subst a b. split; [done|]. destruct table_columns; done. }
  destruct X as [X1 X2].
  assert (He' : entry C p salt (n_rnd C np 32) iv iter (s_db (open_db (s_db s) (s_rn s)))) by (by rewrite X1).
  destruct (right_pin C L p salt (n_rnd C np 32) iv iter Hks Hiv (open_db (s_db s) (s_rn s)) He' eq_refl (lookup_empty _)) as (s3 & Ha & R1 & R2 & R3 & R4 & R5).
  cbv [mbind]. unfold nlogin. cbv [mbind gets ensure ret]. cbn [k_logged].
  change ((CKU_USER =? CKU_SO) || (CKU_USER =? CKU_USER)) with true. change (negb (CKU_USER =? KRY_UNSPEC)) with true.
  change (KRY_UNSPEC =? KRY_UNSPEC) with true. cbv beta iota. unfold back. cbn [k_nss k_logged]. rewrite Ha. cbv [modify]. unfold set_logged. cbn [k_nss fst].
  assert (Hrn : s_rn s3 = s_rn s) by (rewrite R3; done).
  assert (Hca : forall i x, s_cache s3 !! i = Some x -> i = n_rnd C np 32 /\ x = (false, n_kdf C (n_sha1 C (salt ++ p)) (n_rnd C np 32) iter)).
  { intros i x Hx. rewrite R5 in Hx. apply cache_add_in in Hx as [Hx|Hx]; [done|]. rewrite open_cache, lookup_empty in Hx. discriminate Hx. }
  split; [done|]. cbn [k_nss]. split.
  { unfold complete. rewrite R1, R2, X1, X2, Hc2, Hc3, Hn1. exact (conj eq_refl (conj eq_refl eq_refl)). }
  split.
  { intros n Hn. destruct (s_cache s3 !! n_rnd C n 32) as [x|] eqn:E; [|done]. apply Hca in E as [E _]. apply Hr in E. lia. }
  exists salt, np, iter, iv. split; [lia|]. split; [done|]. unfold stored. cbn [k_nss]. rewrite R1. split; [exact He'|]. split; [done|].
  intros k Hk. exact (proj2 (Hca _ _ Hk)).
Qed.

(* Examples and counterexamples: a generic secret key on a token with a PIN. *)
Definition toy_secret (more : list attr) : object :=
  Obj 0 0 CKO_SECRET_KEY ([from_ulong CKA_CLASS CKO_SECRET_KEY; from_ulong CKA_KEY_TYPE CKK_GENERIC_SECRET; from_bool CKA_TOKEN true;
    from_bytes CKA_VALUE [1; 2; 3]] ++ more).
Definition toy_in : list ncall := [NLogin CKU_SO []; NInitPin toy_pin; NRestart; NLogin CKU_USER toy_pin].
Definition toy_at (l : list ncall) : ntok := nrun toy_nss (started new_db 0) (toy_in ++ l).
Definition read_back (l : list ncall) (prv : bool) (id : N) (types : list N) (t : N) : option (option bytes) :=
  match outcome toy_nss (toy_at l) (NRead prv id types) with
  | Ok (OObject o) => Some (a_val <$> get_attr o t)
  | _ => None
  end.
Lemma toy_ready : ready toy_nss toy_pin (toy_at []).
Proof. apply (C47_ready toy_nss toy_nss_laws toy_no_repeat 0 [] toy_pin). vm_compute. discriminate. Qed.
Lemma toy_storable : storable toy_nss (toy_secret [from_bytes CKA_ID [7]]).
Proof.
  assert (H : List.Forall holds (o_attrs (toy_secret [from_bytes CKA_ID [7]]))).
  { cbn [toy_secret o_attrs app]. repeat apply List.Forall_cons; [..|apply List.Forall_nil]; (split; [apply (bool_decide_eq_true_1 _); vm_compute; reflexivity|]; split; [vm_compute; reflexivity|]; split; [vm_compute; reflexivity|]).
    1: exists CKO_SECRET_KEY. 2: exists CKK_GENERIC_SECRET. 1, 2: split; [reflexivity|]; split; [vm_compute; reflexivity|intros X; vm_compute in X; discriminate X].
    all: cbn [from_bytes from_bool a_kind a_val]; discriminate. }
  split; [exact H|]. intros f a Hf Ha Hin.
  vm_compute in Hf. injection Hf as <-. cbn [f_ephemeral] in Hin. cbn [toy_secret o_attrs app In] in Ha.
  repeat (destruct Ha as [<-|Ha]; [vm_compute in Hin; intuition discriminate|]). exact Ha.
Qed.
Example C47_read : exists o2,
  outcome toy_nss (toy_at [NCreate (toy_secret [from_bytes CKA_ID [7]]); NCreate (toy_secret []); NLogout; NRestart; NLogin CKU_USER toy_pin]) (NRead true 1 []) = Ok (OObject o2) /\
  get_attr o2 CKA_VALUE = Some (from_bytes CKA_VALUE [1; 2; 3]).
Proof.
  destruct (C47_partial toy_nss toy_nss_laws toy_no_repeat toy_pin (toy_at []) (toy_secret [from_bytes CKA_ID [7]]) true 1
    [NCreate (toy_secret []); NLogout; NRestart; NLogin CKU_USER toy_pin] []) as (o2 & H1 & H2).
  - exact toy_ready.
  - exact toy_storable.
  - vm_compute. reflexivity.
  - repeat constructor.
  - intros u Hu. by apply elem_of_nil in Hu.
  - vm_compute. reflexivity.
  - exists o2. split; [exact H1|]. apply H2; [by left|reflexivity].
Qed.

(* Three bytes that are taken for an empty value. *)
Theorem C47_value_refuted : exists o, outcome toy_nss (toy_at []) (NCreate o) = Ok (ONew true 1) /\
  a_val <$> get_attr o CKA_ID = Some [0xa5; 0; 0x5a] /\ read_back [NCreate o] true 1 [] CKA_ID = Some (Some []).
Proof. exists (toy_secret [from_bytes CKA_ID [0xa5; 0; 0x5a]]). split_and!; vm_compute; reflexivity. Qed.
(* The mechanisms a key is allowed for are not stored: read back, the key is allowed for all. *)
Theorem C47_mechanisms_refuted : exists o, outcome toy_nss (toy_at []) (NCreate o) = Ok (ONew true 1) /\
  a_val <$> get_attr o CKA_ALLOWED_MECHANISMS = Some (le64 CKM_AES_CBC) /\
  read_back [NCreate o] true 1 [] CKA_ALLOWED_MECHANISMS = Some None.
Proof. exists (toy_secret [from_ulong_bytevec CKA_ALLOWED_MECHANISMS (le64 CKM_AES_CBC)]). split_and!; vm_compute; reflexivity. Qed.
(* After a change of the PIN no secret can be read any more. *)
Theorem C47_pin_change_refuted : exists o new, outcome toy_nss (toy_at []) (NCreate o) = Ok (ONew true 1) /\
  outcome toy_nss (toy_at [NCreate o]) (NSetPin toy_pin new) = Ok ODone /\
  outcome toy_nss (toy_at [NCreate o; NSetPin toy_pin new; NRestart]) (NLogin CKU_USER new) = Ok ODone /\
  is_ok (outcome toy_nss (toy_at [NCreate o; NSetPin toy_pin new; NRestart; NLogin CKU_USER new]) (NRead true 1 [])) = false.
Proof. exists (toy_secret []), [9; 9; 9]. split_and!; vm_compute; reflexivity. Qed.
(* A public secret key is read without a login, but with the encrypted value in place of the value. *)
Theorem C47_ciphertext_refuted : exists o v, outcome toy_nss (toy_at []) (NCreate o) = Ok (ONew true 1) /\
  read_back [NCreate o; NLogout] true 1 [] CKA_VALUE = Some (Some v) /\ v <> [1; 2; 3] /\
  a_val <$> get_attr o CKA_VALUE = Some [1; 2; 3].
Proof.
  exists (toy_secret [from_bool CKA_PRIVATE false]). eexists. split; [vm_compute; reflexivity|]. split; [vm_compute; reflexivity|].
  split; [discriminate|vm_compute; reflexivity].
Qed.
(* A database in which both tables lack a column gets it when it is opened, and then no object can be read. *)
Theorem C47_old_database_refuted : exists d, let t := nrun toy_nss (started d 0) [NLogin CKU_SO []; NInitPin toy_pin; NLogout; NLogin CKU_USER toy_pin; NCreate (toy_secret [])] in
  tb_cols (n_prv (stored t)) = tb_cols (n_prv d) ++ [CKA_PARAMETER_SET] /\
  is_ok (outcome toy_nss t (NRead true 1 [CKA_VALUE])) = true /\
  is_ok (outcome toy_nss t (NRead true 1 [])) = false /\
  is_ok (outcome toy_nss (nrun toy_nss t [NRestart; NLogin CKU_USER toy_pin]) (NRead true 1 [])) = true.
Proof.
  exists (let c := List.filter (fun t => negb (t =? CKA_PARAMETER_SET)) table_columns in Ndb (Table c ∅) (Table c ∅) ∅).
  cbv zeta. split_and!; vm_compute; reflexivity.
Qed.
