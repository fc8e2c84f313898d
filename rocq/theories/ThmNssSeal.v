(* C48: what an NSS database holds of secrets, and what is checked when it is read. *)
From Verif Require Import Tables NssSpec Rows NssFacts ToyNss ThmNssPin ThmNssObj.
Local Opaque attrs_with table_columns for_types.

Lemma columns_first l k t a b : columns l = Ok k -> find_attr l t = Some a -> is_skippable_attribute t = false -> attr_cell a = Ok b ->
  insert_row k !! t = Some b.
Proof.
  revert k. induction l as [|x l IH]; intros k Hc Hf Hs Hb; cbn [columns find_attr] in *; [discriminate Hf|].
  destruct (N.eqb_spec (a_type x) t) as [E|E].
  - injection Hf as ->. rewrite E, Hs in Hc. destruct (is_db_attribute t); [|discriminate Hc]. cbn [negb] in Hc. rewrite Hb in Hc. cbn [rbind] in Hc.
    destruct (columns l) as [k'|]; [|discriminate Hc]. cbn [rbind] in Hc. injection Hc as <-. cbn [insert_row foldr fst snd]. apply lookup_insert.
  - destruct (is_skippable_attribute (a_type x)); [by apply IH|]. destruct (is_db_attribute (a_type x)); [|discriminate Hc]. cbn [negb] in Hc.
    destruct (attr_cell x) as [c|]; [|discriminate Hc]. cbn [rbind] in Hc. destruct (columns l) as [k'|] eqn:Ek; [|discriminate Hc]. cbn [rbind] in Hc.
    injection Hc as <-. cbn [insert_row foldr fst snd]. rewrite lookup_insert_ne by done. by apply IH.
Qed.
Lemma columns_none l k t : columns l = Ok k -> find_attr l t = None -> insert_row k !! t = None.
Proof.
  revert k. induction l as [|x l IH]; intros k Hc Hf; cbn [columns find_attr] in *.
  { injection Hc as <-. apply lookup_empty. }
  destruct (N.eqb_spec (a_type x) t) as [E|E]; [discriminate Hf|].
  destruct (is_skippable_attribute (a_type x)); [by apply IH|]. destruct (is_db_attribute (a_type x)); [|discriminate Hc]. cbn [negb] in Hc.
  destruct (attr_cell x) as [c|]; [|discriminate Hc]. cbn [rbind] in Hc. destruct (columns l) as [k'|] eqn:Ek; [|discriminate Hc]. cbn [rbind] in Hc.
  injection Hc as <-. cbn [insert_row foldr fst snd]. rewrite lookup_insert_ne by done. by apply IH.
Qed.
Lemma cell_bytes u y : y <> [] -> attr_cell (from_bytes u y) = Ok y.
Proof. destruct y; done. Qed.
Lemma get_del_all l o t a : get_attr (foldl del_attr o l) t = Some a -> get_attr o t = Some a.
Proof.
  revert o. induction l as [|x l IH]; intros o; cbn [foldl]; [done|]. intros H. apply IH in H. rewrite get_del in H. by destruct (t =? x).
Qed.

(* Every secret value of a new private or secret key is stored encrypted, under a salt of its own drawn in the call: no
   column of a sensitive attribute holds anything else. *)
Theorem C48_partial (C : nssp) (L : nss_laws C) (Hr : no_repeat C) (p : bytes) (t : ntok) (o : object) (id : N) :
  ready C p t -> outcome C t (NCreate o) = Ok (ONew true id) ->
  let t2 := fst (ncall_run C (NCreate o) t) in
  exists K row, s_key (k_nss t) = Some K /\ tb_rows (n_prv (stored t2)) !! id = Some row /\
    forall u b, u ∈ attrs_with nc_sensitive -> row !! u = Some b ->
      exists a, get_attr o u = Some a /\ sealed_with C K (s_rn (k_nss t)) (s_rn (k_nss t2)) (a_val a) b.
Proof.
  intros (Hlog & Hcomp & Hf & salt & np & iter & iv & Hnp & Hiv & Hent & Hk & Hcache) Hout. cbv zeta.
  destruct t as [s u]. cbn [k_nss k_logged stored] in *. subst u. unfold outcome in Hout. cbn [ncall_run] in Hout |- *. unfold ncreate in Hout |- *. cbv [mbind gets ensure ret] in Hout |- *.
  change (any_logged (Ntok s CKU_USER)) with true in *. cbv iota beta in Hout |- *. unfold back in Hout |- *. cbn [k_nss k_logged] in Hout |- *.
  destruct (store C o s) as [s' r] eqn:H. destruct r as [[prv' id']|e]; [|discriminate Hout]. cbn [snd] in Hout. injection Hout as -> ->. cbn [fst k_nss stored].
  set (K := n_sha1 C (salt ++ p)) in *. exists K.
  unfold store in H. cbv [mbind lift] in H.
  destruct (get_ulong o CKA_CLASS) as [class|e] eqn:Ecl; [|discriminate H].
  destruct (class_table class) as [pv|] eqn:Ect; [|discriminate H]. cbv [gets ensure ret] in H. rewrite Hk in H.
  destruct (get_object_factory (n_fs C) o) as [f|e] eqn:Ef; [|discriminate H]. cbv beta iota in H.
  remember (foldl del_attr o (f_ephemeral f)) as o0 eqn:Eo0.
  destruct pv.
  2: { destruct (store_object (s_db s) false o0) as [[i d]|e]; [|discriminate H]. cbv beta iota in H.
       destruct (for_types _ _ d s) as [s9 [d9|e9]]; [|discriminate H]. cbv [modify] in H. discriminate H. }
  destruct sens_facts as (F1 & F2 & F3).
  destruct (seal_run C L Hr K (attrs_with nc_sensitive) o0 s F1 F2 Hf Hk) as (s1 & o1 & R1 & R2 & _ & R4 & _). rewrite R1 in H.
  destruct (store_object (s_db s1) true o1) as [[i d]|e] eqn:Est; [|discriminate H]. cbv beta iota in H.
  assert (Hf1 : fresh C s1) by (by apply (drew_fresh C Hr K false s)). pose proof R2 as (D1 & D2 & D3 & D4 & D5).
  destruct (sign_run_all C L Hr K true i (fun t => a_val <$> get_attr o1 t) (attrs_with nc_authenticated) d s1 auth_facts Hf1) as (s2 & d2 & S1 & S2 & S3 & S4 & _); [congruence|].
  rewrite S1 in H. cbv [modify] in H. injection H as <- ->. pose proof S2 as (_ & _ & _ & S5 & _).
  unfold store_object in Est. destruct (next_id (tb_rows (main_table true (s_db s1)))) as [i'|e] eqn:En; [|discriminate Est]. cbn [rbind] in Est.
  destruct (columns (o_attrs o1)) as [l|e] eqn:Ec; [|discriminate Est]. cbn [rbind] in Est.
  destruct (known_columns _ l); [|discriminate Est]. injection Est as -> <-.
  exists (insert_row l). split; [done|]. cbn [set_db s_db s_rn]. split.
  { unfold stored. cbn [k_nss set_db s_db]. rewrite S4. unfold set_rows. cbn [n_prv tb_rows]. apply lookup_insert. }
  intros u b Hu Hb. specialize (R4 u). rewrite (bool_decide_eq_true_2 _ Hu) in R4. destruct (F3 u Hu) as (G1 & _).
  destruct (get_attr o0 u) as [a|] eqn:Ea.
  - exists a. split; [rewrite Eo0 in Ea; by apply get_del_all in Ea|]. destruct R4 as (x & Hx & y & -> & Hy).
    destruct Hy as (n & iv' & Hn & Hiv' & ->). exists n, iv'. split; [lia|].
    assert (Hcell : attr_cell (from_bytes u (n_der C (IEnc (n_rnd C n 32) pbe_iterations iv' (n_enc C (n_kdf C K (n_rnd C n 32) pbe_iterations) ([4; 14] ++ iv') (a_val a))))) =
       Ok (n_der C (IEnc (n_rnd C n 32) pbe_iterations iv' (n_enc C (n_kdf C K (n_rnd C n 32) pbe_iterations) ([4; 14] ++ iv') (a_val a))))).
    { apply cell_bytes, (nl_some C L). }
    pose proof (columns_first _ _ u _ _ Ec Hx (proj1 (col_facts u G1)) Hcell) as Hb'. rewrite Hb' in Hb. injection Hb as <-. done.
  - rewrite (columns_none _ _ u Ec R4) in Hb. discriminate Hb.
Qed.

(* These are the attributes that the object types of the module declare to be secret. *)
Theorem C48_sensitive (C : nssp) : n_fs C = all_factories ->
  forall k f u, In (k, f) (n_fs C) -> In u (f_sensitive f) -> u ∈ attrs_with nc_sensitive.
Proof.
  intros -> k f u Hf Hu. assert (X : forallb (fun p => forallb (fun u => bool_decide (u ∈ attrs_with nc_sensitive)) (f_sensitive (snd p))) all_factories = true) by (vm_compute; reflexivity).
  rewrite forallb_forall in X. specialize (X _ Hf). cbn [snd] in X. rewrite forallb_forall in X. specialize (X _ Hu). by apply bool_decide_eq_true in X.
Qed.

(* The same for C_SetAttributeValue with each attribute given once. *)
Lemma put_types l t v : is_Some (find_value l t) -> map ca_type (put_value l t v) = map ca_type l.
Proof.
  induction l as [|c l IH]; cbn [find_value put_value]; [intros [? X]; discriminate X|]. destruct (N.eqb_spec (ca_type c) t) as [E|E]; intros H.
  - cbn [map]. unfold ca. cbn [ca_type]. by rewrite E.
  - cbn [map]. by rewrite IH.
Qed.
Lemma find_put_value l t v u : find_value (put_value l t v) u = if t =? u then Some v else find_value l u.
Proof.
  induction l as [|c l IH]; cbn [put_value find_value]; unfold ca; cbn [ca_type ck_to_buf ca_ptr].
  - done.
  - destruct (N.eqb_spec (ca_type c) t) as [E|E]; cbn [find_value ca_type ck_to_buf ca_ptr].
    + rewrite E. by destruct (N.eqb_spec t u).
    + rewrite IH. destruct (N.eqb_spec (ca_type c) u) as [E2|E2]; [|done]. by rewrite (proj2 (N.eqb_neq t u)) by congruence.
Qed.
Section Modify.
  Context (C : nssp) (L : nss_laws C) (Hnr : no_repeat C) (K : bytes).
  Lemma seal_values ts l s : base.NoDup ts -> fresh C s -> s_key s = Some K ->
    exists s1 l1, for_types ts (seal_value C) l s = (s1, Ok l1) /\ drew C K false s s1 /\ map ca_type l1 = map ca_type l /\
      forall t, if bool_decide (t ∈ ts) then
                  match find_value l t with
                  | Some v => exists b, find_value l1 t = Some b /\ sealed_as C K (s_rn s) (s_rn s1) v b
                  | None => find_value l1 t = None
                  end
                else find_value l1 t = find_value l t.
  Proof using L Hnr.
    intros Hnd. revert l s. induction ts as [|t ts IH]; intros l s Hf Hk.
    { exists s, l. split; [done|]. split; [apply drew_refl|]. done. }
    change (for_types (t :: ts) (seal_value C) l s) with (mbind (seal_value C t l) (fun l' => for_types ts (seal_value C) l') s). cbv [mbind].
    apply list.NoDup_cons in Hnd as [Hni Hnd]. specialize (IH Hnd). unfold seal_value at 1. destruct (find_value l t) as [v|] eqn:Ev.
    - destruct (encrypt_run C L K v s Hf Hk) as (s1 & b & Hr & Hd & Hs). cbv [mbind]. rewrite Hr. cbv [ret].
      destruct (IH (put_value l t b) s1) as (s2 & l2 & Hr2 & Hd2 & Ht2 & Ha2).
      { by apply (drew_fresh C Hnr K false s). } { destruct Hd as (_ & _ & -> & _). done. }
      exists s2, l2. split; [exact Hr2|]. split; [by apply (drew_trans C K _ _ s1)|]. split; [rewrite Ht2; apply put_types; by rewrite Ev|].
      intros u. specialize (Ha2 u). rewrite find_put_value in Ha2. pose proof Hd as (_ & _ & _ & Hle & _). pose proof Hd2 as (_ & _ & _ & Hle2 & _).
      destruct (N.eqb_spec t u) as [Etu|Hn].
      + rewrite <- Etu in *. rewrite (bool_decide_eq_true_2 (t ∈ t :: ts)) by apply elem_of_list_here. rewrite Ev. rewrite (bool_decide_eq_false_2 (t ∈ ts)) in Ha2 by done.
        exists b. split; [done|]. apply (sealed_mono C K (s_rn s) (s_rn s1)); [lia|lia|done].
      + rewrite (bool_decide_ext (u ∈ t :: ts) (u ∈ ts)) by (rewrite elem_of_cons; intuition congruence).
        destruct (bool_decide (u ∈ ts)); [|done]. destruct (find_value l u); [|done]. destruct Ha2 as (x & Hx & Hz). exists x. split; [done|].
        apply (sealed_mono C K (s_rn s1) (s_rn s2)); [lia|lia|done].
    - cbv [ret]. destruct (IH l s Hf Hk) as (s2 & l2 & Hr2 & Hd2 & Ht2 & Ha2). exists s2, l2. split; [exact Hr2|]. split; [done|]. split; [done|].
      intros u. specialize (Ha2 u). destruct (N.eqb_spec t u) as [Etu|Hn].
      + rewrite <- Etu in *. rewrite (bool_decide_eq_true_2 (t ∈ t :: ts)) by apply elem_of_list_here. rewrite Ev. rewrite (bool_decide_eq_false_2 (t ∈ ts)) in Ha2 by done.
        by rewrite Ha2.
      + rewrite (bool_decide_ext (u ∈ t :: ts) (u ∈ ts)) by (rewrite elem_of_cons; intuition congruence). done.
  Qed.
End Modify.
(* What a column gets from a list of changes in which each type stands once. *)
Lemma update_lookup k row u : update_row k row !! u = match insert_row (rev k) !! u with Some b => Some b | None => row !! u end.
Proof.
  revert row. induction k as [|[t b] k IH]; intros row; cbn [update_row foldl rev]; [cbn [insert_row foldr]; by rewrite lookup_empty|].
  change (foldl (fun m p => <[fst p := snd p]> m) (<[fst (t, b) := snd (t, b)]> row) k) with (update_row k (<[t := b]> row)). rewrite IH. cbn [fst snd].
  unfold insert_row. rewrite foldr_app. cbn [foldr fst snd].
  assert (X : forall (l : list (N * bytes)) (m : gmap N bytes) v, foldr (fun p m => <[fst p := snd p]> m) m l !! v =
    match foldr (fun p m => <[fst p := snd p]> m) (∅ : gmap N bytes) l !! v with Some b => Some b | None => m !! v end).
  { intros l m v. induction l as [|[x y] l IHl]; cbn [foldr fst snd]; [by rewrite lookup_empty|]. destruct (decide (x = v)) as [->|]; [by rewrite !lookup_insert|].
    rewrite !lookup_insert_ne by done. exact IHl. }
  rewrite (X (rev k) (<[t:=b]> ∅)). destruct (foldr _ ∅ (rev k) !! u); [done|]. destruct (decide (t = u)) as [->|]; [by rewrite !lookup_insert|].
  by rewrite !lookup_insert_ne, lookup_empty by done.
Qed.
Lemma changes l u : forall attrs k, NoDup (map ca_type l) -> from_all l = Ok attrs -> columns attrs = Ok k ->
  u ∈ attrs_with nc_sensitive ->
  insert_row (rev k) !! u = match find_value l u with Some v => Some (if bool_decide (v = []) then special_null else v) | None => None end.
Proof.
  intros attrs k Hnd Hfrom Hcol Hu. destruct sens_facts as (_ & _ & F3). destruct (F3 u Hu) as (G1 & _ & G3 & _). destruct (col_facts u G1) as [G4 G5].
  assert (X : forall (k : list (N * bytes)) t b (m : gmap N bytes), foldr (fun p m => <[fst p := snd p]> m) m (rev ((t, b) :: k)) !! u =
      if bool_decide (u ∈ map fst k) then foldr (fun p m => <[fst p := snd p]> m) (∅ : gmap N bytes) (rev k) !! u else (<[t := b]> m) !! u).
  { clear. intros k t b m. cbn [rev]. rewrite foldr_app. cbn [foldr fst snd]. generalize (<[t := b]> m). clear. intros m.
    assert (Y : forall (l : list (N * bytes)) (m : gmap N bytes), foldr (fun p m => <[fst p := snd p]> m) m l !! u =
       if bool_decide (u ∈ map fst l) then foldr (fun p m => <[fst p := snd p]> m) (∅ : gmap N bytes) l !! u else m !! u).
    { clear. induction l as [|[x y] l IH]; intros m; cbn [foldr map fst snd].
      - rewrite bool_decide_eq_false_2; [done|]. apply not_elem_of_nil.
      - destruct (decide (x = u)) as [->|Hn].
        + rewrite !lookup_insert. rewrite bool_decide_eq_true_2; [done|]. apply elem_of_list_here.
        + rewrite !lookup_insert_ne by done. rewrite IH. rewrite (bool_decide_ext (u ∈ x :: map fst l) (u ∈ map fst l)) by (rewrite elem_of_cons; intuition congruence). done. }
    rewrite (Y (rev k) m). rewrite (bool_decide_ext (u ∈ map fst (rev k)) (u ∈ map fst k)); [done|]. rewrite map_rev, !elem_of_list_In. symmetry. apply in_rev. }
  revert attrs k Hfrom Hcol Hnd. induction l as [|c l IH]; intros attrs k Hfrom Hcol Hnd.
  { cbn [from_all] in Hfrom. injection Hfrom as <-. cbn [columns] in Hcol. injection Hcol as <-. cbn [rev insert_row foldr find_value]. apply lookup_empty. }
  cbn [from_all] in Hfrom. destruct (from_ck_attr c) as [a|e] eqn:Ea; [|discriminate Hfrom]. cbn [rbind] in Hfrom.
  destruct (from_all l) as [attrs'|e]; [|discriminate Hfrom]. cbn [rbind] in Hfrom. injection Hfrom as <-.
  assert (Hat : a_type a = ca_type c).
  { clear -Ea. unfold from_ck_attr in Ea. destruct (search_by_id (ca_type c)) as [[]|]; try discriminate Ea; try (injection Ea as <-; reflexivity).
    all: match type of Ea with rbind ?x _ = _ => destruct x; [|discriminate Ea] end; cbn [rbind] in Ea; injection Ea as <-; reflexivity. }
  cbn [map] in Hnd. apply list.NoDup_cons in Hnd as [Hni Hnd]. cbn [columns] in Hcol. rewrite Hat in Hcol. cbn [find_value].
  destruct (N.eqb_spec (ca_type c) u) as [E|E].
  - rewrite E, G4, G5 in Hcol. cbn [negb] in Hcol. destruct (attr_cell a) as [b|e] eqn:Eb; [|discriminate Hcol]. cbn [rbind] in Hcol.
    destruct (columns attrs') as [k'|e] eqn:Ek; [|discriminate Hcol]. cbn [rbind] in Hcol. injection Hcol as <-. unfold insert_row. rewrite X.
    assert (Hno : bool_decide (u ∈ map fst k') = false).
    { apply bool_decide_eq_false_2. intros Hin.
      assert (Hnone : find_value l u = None).
      { clear -Hni E. induction l as [|d l IHl]; cbn [find_value map] in *; [done|]. rewrite not_elem_of_cons in Hni. destruct Hni as [H1 H2].
        rewrite (proj2 (N.eqb_neq _ _)) by congruence. by apply IHl. }
      specialize (IH attrs' k' eq_refl Ek Hnd). rewrite Hnone in IH. unfold insert_row in IH.
      clear -IH Hin. assert (Z : forall l : list (N * bytes), u ∈ map fst l -> is_Some (foldr (fun p m => <[fst p := snd p]> m) (∅ : gmap N bytes) l !! u)).
      { clear. induction l as [|[x y] l IHl]; cbn [map foldr fst snd]; intros H; [by apply elem_of_nil in H|]. destruct (decide (x = u)) as [->|Hn]; [rewrite lookup_insert; eauto|].
        rewrite lookup_insert_ne by done. apply IHl. apply elem_of_cons in H as [H|H]; [congruence|done]. }
      destruct (Z (rev k')) as [z Hz]; [rewrite map_rev, elem_of_list_In; rewrite elem_of_list_In in Hin; by apply in_rev in Hin|]. rewrite IH in Hz. discriminate Hz. }
    rewrite Hno, lookup_insert. f_equal. unfold from_ck_attr in Ea. rewrite E, G3 in Ea. injection Ea as <-. unfold attr_cell in Eb. cbn [a_val a_kind from_bytes] in Eb.
    destruct (ck_to_buf c) as [|x y]; injection Eb as <-; [done|]. by rewrite bool_decide_eq_false_2.
  - assert (Hc : exists k', columns attrs' = Ok k' /\ (k = k' \/ exists b, k = (ca_type c, b) :: k')).
    { destruct (is_skippable_attribute (ca_type c)); [exists k; split; [exact Hcol|by left]|]. destruct (negb _); [discriminate Hcol|].
      destruct (attr_cell a) as [b|e]; [|discriminate Hcol]. cbn [rbind] in Hcol. destruct (columns attrs') as [k'|e]; [|discriminate Hcol]. cbn [rbind] in Hcol. injection Hcol as <-.
      exists k'. split; [done|]. right. by exists b. }
    destruct Hc as (k' & Hk' & Hcase). specialize (IH attrs' k' eq_refl Hk' Hnd). destruct Hcase as [->|(b & ->)]; [exact IH|].
    unfold insert_row in *. rewrite X. destruct (bool_decide (u ∈ map fst k')) eqn:Eb; [exact IH|]. rewrite lookup_insert_ne, lookup_empty by done.
    rewrite <- IH. apply bool_decide_eq_false in Eb. symmetry. clear -Eb.
    assert (Z : forall l : list (N * bytes), ~ u ∈ map fst l -> foldr (fun p m => <[fst p := snd p]> m) (∅ : gmap N bytes) l !! u = None).
    { clear. induction l as [|[x y] l IHl]; cbn [map foldr fst snd]; intros H; [apply lookup_empty|]. rewrite not_elem_of_cons in H. destruct H as [H1 H2].
      rewrite lookup_insert_ne by congruence. by apply IHl. }
    apply Z. rewrite map_rev, elem_of_list_In. rewrite elem_of_list_In in Eb. intros H. by apply in_rev in H.
Qed.
Theorem C48_modified (C : nssp) (L : nss_laws C) (Hr : no_repeat C) (p : bytes) (t : ntok) (id : N) (tmpl : list ckattr) (row : gmap N bytes) :
  ready C p t -> NoDup (map ca_type tmpl) -> outcome C t (NModify true id tmpl) = Ok ODone ->
  tb_rows (n_prv (stored t)) !! id = Some row ->
  let t2 := fst (ncall_run C (NModify true id tmpl) t) in
  exists K row', s_key (k_nss t) = Some K /\ tb_rows (n_prv (stored t2)) !! id = Some row' /\
    forall u b, u ∈ attrs_with nc_sensitive -> row' !! u = Some b ->
      match find_value tmpl u with
      | Some v => sealed_with C K (s_rn (k_nss t)) (s_rn (k_nss t2)) v b
      | None => row !! u = Some b
      end.
Proof.
  intros (Hlog & Hcomp & Hf & salt & np & iter & iv & Hnp & Hiv & Hent & Hk & Hcache) Hnd Hout Hrow. cbv zeta.
  destruct t as [s lg]. cbn [k_nss k_logged stored] in *. unfold outcome in Hout. cbn [ncall_run] in Hout |- *. cbv [mbind] in Hout |- *. unfold back in Hout |- *. cbn [k_nss k_logged] in Hout |- *.
  destruct (update C true id tmpl s) as [s' [[]|e]] eqn:H; [|discriminate Hout]. cbv [ret]. cbn [fst k_nss]. clear Hout.
  set (K := n_sha1 C (salt ++ p)) in *. exists K. unfold update in H. cbv [mbind gets ensure ret fail] in H. rewrite Hk in H. cbv iota beta in H.
  destruct sens_facts as (F1 & F2 & F3).
  destruct (seal_values C L Hr K (attrs_with nc_sensitive) tmpl s F1 Hf Hk) as (s1 & l1 & R1 & R2 & R3 & R4). rewrite R1 in H. cbv [lift] in H.
  destruct (from_all l1) as [attrs|e] eqn:Efr; [|discriminate H]. destruct (store_attributes (s_db s1) true id attrs) as [d|e] eqn:Est; [|discriminate H].
  assert (Hf1 : fresh C s1) by (by apply (drew_fresh C Hr K false s)). pose proof R2 as (D1 & D2 & D3 & D4 & D5).
  destruct (sign_run_all C L Hr K true id (find_value l1) (attrs_with nc_authenticated) d s1 auth_facts Hf1) as (s2 & d2 & S1 & S2 & S3 & S4 & _); [congruence|].
  rewrite S1 in H. cbv [modify] in H. injection H as <-. pose proof S2 as (_ & _ & _ & S5 & _).
  unfold store_attributes in Est. destruct (columns attrs) as [k|e] eqn:Ek; [|discriminate Est]. cbn [rbind] in Est.
  assert (Ed : d = set_rows true (alter (update_row k) id) (s_db s1)).
  { destruct k; [discriminate Est|]. destruct (known_columns _ _); [|discriminate Est]. by injection Est as <-. }
  exists (update_row k row). split; [done|]. split.
  { unfold stored. cbn [k_nss set_db s_db]. rewrite S4, Ed. unfold set_rows. cbn [n_prv tb_rows]. rewrite D1. unfold stored in Hrow. cbn [k_nss] in Hrow.
    rewrite lookup_alter, Hrow. reflexivity. }
  intros u b Hu Hb. rewrite update_lookup in Hb. rewrite (changes l1 u attrs k) in Hb; [|by rewrite R3|done|done|done].
  specialize (R4 u). rewrite (bool_decide_eq_true_2 _ Hu) in R4. destruct (find_value tmpl u) as [v|].
  - destruct R4 as (y & Hy & Hs). rewrite Hy in Hb. destruct Hs as (n & iv' & Hn & Hiv' & ->). rewrite bool_decide_eq_false_2 in Hb by apply (nl_some C L).
    injection Hb as <-. exists n, iv'. cbn [set_db s_rn]. split; [lia|reflexivity].
  - rewrite R4 in Hb. exact Hb.
Qed.

(* What a logged-in user reads of the authenticated attributes was checked. *)
Section Checked.
  Context (C : nssp) (K : bytes).
  Lemma derive_keys sg salt it s s' k : s_key s = Some K -> keys_from C K s -> derive_key C sg salt it s = (s', Ok k) ->
    s_db s' = s_db s /\ s_key s' = Some K /\ keys_from C K s' /\ exists sg' it', k = (sg', n_kdf C K salt it').
  Proof.
    intros Hk Hc H. unfold derive_key in H. cbv [mbind ensure ret fail gets cached] in H. destruct (blen salt =? 32); [|discriminate H]. rewrite Hk in H.
    destruct (s_cache s !! salt) as [x|] eqn:E.
    - injection H as <- <-. split; [done|]. split; [done|]. split; [done|]. by apply Hc.
    - rewrite Hk in H. cbv [modify] in H. injection H as <- <-. split; [done|]. split; [done|]. split; [|by eexists _, _].
      intros i x Hx. cbn [set_cache s_cache] in Hx. apply cache_add_in in Hx as [[-> ->]|Hx]; [by eexists _, _|by apply Hc].
  Qed.
  Lemma derive_keys_err sg salt it s s' e : s_key s = Some K -> keys_from C K s -> derive_key C sg salt it s = (s', Err e) -> s' = s.
  Proof.
    intros Hk Hc H. unfold derive_key in H. cbv [mbind ensure ret fail gets cached] in H. destruct (blen salt =? 32); [|by apply pair_equal_spec in H as [<- _]]. rewrite Hk in H.
    destruct (s_cache s !! salt) as [x|] eqn:E; [by apply pair_equal_spec in H as [<- _]|]. rewrite Hk in H. cbv [modify] in H. apply pair_equal_spec in H as [_ H]. discriminate H.
  Qed.
  Lemma decrypt_keys b s s' d : s_key s = Some K -> keys_from C K s -> decrypt_data C b s = (s', Ok d) ->
    s_db s' = s_db s /\ s_key s' = Some K /\ keys_from C K s'.
  Proof.
    intros Hk Hc H. unfold decrypt_data in H. destruct (n_parse C b) as [[salt it iv x|salt it x|]|]; try discriminate H. cbv [mbind] in H.
    destruct (derive_key C false salt it s) as [s1 [k|e]] eqn:E; [|discriminate H]. destruct (derive_keys _ _ _ _ _ _ Hk Hc E) as (R1 & R2 & R3 & _).
    destruct (aes_cbc_decrypt C k iv x) as [y|e]; cbv [skip ret lift forget modify] in H; [|discriminate H]. injection H as <- _. done.
  Qed.
  Lemma open_keys ts o s s' o' : s_key s = Some K -> keys_from C K s -> for_types ts (open_attr C) o s = (s', Ok o') ->
    s_db s' = s_db s /\ s_key s' = Some K /\ keys_from C K s'.
  Proof.
    revert o s. induction ts as [|t ts IH]; intros o s Hk Hc H.
    { cbv [for_types ret] in H. apply pair_equal_spec in H as [<- _]. done. }
    change (for_types (t :: ts) (open_attr C) o s) with (mbind (open_attr C t o) (fun o' => for_types ts (open_attr C) o') s) in H. cbv [mbind] in H.
    unfold open_attr at 1 in H. destruct (get_attr o t) as [a|]; [|cbv [ret] in H; by apply (IH o s)]. cbv [mbind] in H.
    destruct (decrypt_data C (a_val a) s) as [s1 [d|e]] eqn:E; [|discriminate H]. destruct (decrypt_keys _ _ _ _ Hk Hc E) as (R1 & R2 & R3). cbv [lift] in H.
    destruct (set_attr o (from_bytes t d)) as [o1|e]; [|discriminate H]. destruct (IH o1 s1 R2 R3 H) as (Q1 & Q2 & Q3). split; [congruence|done].
  Qed.
  Lemma check_keys prv id ts o s s' o' : s_key s = Some K -> keys_from C K s -> for_types ts (check_attr C prv id) o s = (s', Ok o') ->
    o' = o /\ forall t a, t ∈ ts -> get_attr o t = Some a -> authentic C K (s_db s) prv id t (a_val a).
  Proof.
    revert s. induction ts as [|t ts IH]; intros s Hk Hc H.
    { cbv [for_types ret] in H. apply pair_equal_spec in H as [_ H]. injection H as <-. split; [done|]. intros t a Ht. by apply elem_of_nil in Ht. }
    change (for_types (t :: ts) (check_attr C prv id) o s) with (mbind (check_attr C prv id t o) (fun o' => for_types ts (check_attr C prv id) o') s) in H. cbv [mbind] in H.
    unfold check_attr at 1 in H. destruct (get_attr o t) as [a|] eqn:Ea.
    2: { cbv [ret] in H. destruct (IH s Hk Hc H) as [R1 R2]. split; [done|]. intros u b Hu Hb. apply elem_of_cons in Hu as [->|Hu]; [congruence|]. by apply R2. }
    cbv [mbind gets] in H. destruct (n_meta (s_db s) !! sig_name prv id t) as [[sig x]|] eqn:Em; [|discriminate H]. cbv [mbind] in H.
    destruct (check_signature C (a_val a) sig id t s) as [s1 [[]|e]] eqn:E; [|discriminate H]. cbv [ret] in H.
    assert (X : s_db s1 = s_db s /\ s_key s1 = Some K /\ keys_from C K s1 /\ authentic C K (s_db s) prv id t (a_val a)).
    { unfold check_signature in E. destruct (n_parse C sig) as [[salt it iv y|salt it tag|]|] eqn:Ep; try discriminate E. cbv [mbind] in E.
      destruct (derive_key C true salt it s) as [s2 [k|e]] eqn:Ed; [|discriminate E]. destruct (derive_keys _ _ _ _ _ _ Hk Hc Ed) as (R1 & R2 & R3 & sg' & it' & ->).
      destruct (hmac_verify C (sg', n_kdf C K salt it') id t (a_val a) tag) as [[]|e] eqn:Eh; cbv [skip ret lift forget modify] in E; [|discriminate E]. injection E as <-.
      split; [done|]. split; [done|]. split; [done|]. exists sig, x, salt, it, tag, it'. split; [done|]. split; [done|].
      unfold hmac_verify in Eh. cbn [fst snd] in Eh. destruct (negb sg'); [discriminate Eh|]. destruct ((blen tag =? 0) || (32 <? blen tag)) eqn:Eb; [discriminate Eh|].
      match type of Eh with (if bytes_eqb ?a ?b then _ else _) = _ => destruct (bytes_eqb a b) eqn:Et; [|discriminate Eh] end.
      apply bool_decide_eq_true in Et. split; [lia|exact Et]. }
    destruct X as (X1 & X2 & X3 & X4). destruct (IH s1 X2 X3 H) as [R1 R2]. split; [done|]. intros u b Hu Hb. apply elem_of_cons in Hu as [->|Hu].
    - rewrite Ea in Hb. injection Hb as <-. done.
    - rewrite <- X1. by apply R2.
  Qed.
End Checked.

Theorem C48_checked_partial (C : nssp) (K : bytes) (t : ntok) (prv : bool) (id : N) (types : list N) (o : object) :
  s_key (k_nss t) = Some K -> keys_from C K (k_nss t) ->
  outcome C t (NRead prv id types) = Ok (OObject o) ->
  forall u a, u ∈ attrs_with nc_authenticated -> get_attr o u = Some a -> authentic C K (stored t) prv id u (a_val a).
Proof.
  intros Hk Hc H. unfold outcome in H. cbn [ncall_run] in H. destruct t as [s lg]. cbn [k_nss stored] in *. unfold stored. cbn [k_nss].
  cbv [mbind] in H. unfold nread, back in H. cbv [mbind gets] in H. cbn [k_nss k_logged] in H.
  destruct (fetch C prv id types s) as [s' [o'|e]] eqn:E; [|discriminate H]. cbv [ensure ret fail] in H.
  match type of H with context [if ?b then _ else _] => destruct b; [|discriminate H] end. cbn [snd] in H. injection H as ->.
  unfold fetch in E. cbv [mbind] in E. destruct (fetch_by_nssid s prv id (query_types types)) as [o1|e]; [|discriminate E]. cbv [gets] in E. rewrite Hk in E. cbv iota beta in E.
  assert (Ho : exists s1 o2, (if prv then for_types (attrs_with nc_sensitive) (open_attr C) o1 else ret o1) s = (s1, Ok o2) /\ s_db s1 = s_db s /\ s_key s1 = Some K /\ keys_from C K s1).
  { destruct ((if prv then for_types (attrs_with nc_sensitive) (open_attr C) o1 else ret o1) s) as [s1 [o2|e]] eqn:Eo; [|discriminate E].
    exists s1, o2. split; [done|]. destruct prv; [by apply (open_keys C K) in Eo|]. cbv [ret] in Eo. apply pair_equal_spec in Eo as [<- _]. done. }
  destruct Ho as (s1 & o2 & Eo & D1 & D2 & D3). rewrite Eo in E.
  destruct (for_types (attrs_with nc_authenticated) (check_attr C prv id) o2 s1) as [s2 [o3|e]] eqn:Ec; [|discriminate E].
  destruct (check_keys C K _ _ _ _ _ _ _ D2 D3 Ec) as [-> Hall]. rewrite D1 in Hall.
  assert (Hsk : attrs_with nc_skippable = [1073743360]) by (vm_compute; reflexivity). rewrite Hsk in E.
  change (for_types [1073743360] (add_default C types) o2 s2) with (mbind (add_default C types 1073743360 o2) (fun o => ret o) s2) in E. cbv [mbind] in E.
  unfold add_default in E. cbv [mbind lift ret] in E. destruct (get_object_factory (n_fs C) o2) as [f|e]; [|discriminate E].
  intros u a Hu Ha. apply Hall; [done|]. destruct (bool_decide (1073743360 ∈ types)).
  - unfold set_attribute_default in E. destruct (find_oa (f_attrs f) 1073743360) as [x|] eqn:Ex; [|injection E as _ <-; done].
    destruct (has_default x); [|injection E as _ <-; done]. destruct (set_attr o2 (oa_attr x)) as [o4|e] eqn:Es; [|discriminate E]. injection E as _ <-.
    rewrite (get_set _ _ _ u Es) in Ha. destruct (N.eqb_spec (a_type (oa_attr x)) u) as [Eq|]; [|done]. exfalso.
    assert (Hxt : a_type (oa_attr x) = 1073743360).
    { clear -Ex. induction (f_attrs f) as [|y l IH]; cbn [find_oa] in Ex; [discriminate Ex|].
      match type of Ex with (if ?b then _ else _) = _ => destruct b eqn:Eb end; [injection Ex as <-; by apply N.eqb_eq|by apply IH]. }
    rewrite Hxt in Eq. subst u. revert Hu. apply (bool_decide_eq_false_1 _). vm_compute. reflexivity.
  - injection E as _ <-. done.
Qed.

(* In a new process that opens any database, also one that was changed by somebody else, a login leads to a state the
   theorem speaks of. *)
Theorem C48_login (C : nssp) (d : ndb) (rn : N) (p : bytes) :
  outcome C (started d rn) (NLogin CKU_USER p) = Ok ODone ->
  let t := fst (ncall_run C (NLogin CKU_USER p) (started d rn)) in
  exists K, s_key (k_nss t) = Some K /\ keys_from C K (k_nss t).
Proof.
  intros H. cbv zeta. revert H. unfold outcome. cbn [ncall_run].
  assert (Hs : exists s, started d rn = Ntok s KRY_UNSPEC /\ s_key s = None /\ s_cache s = ∅).
  { unfold started, open_db. destruct (check_columns [] (n_pub d)) as [c1 p1]. destruct (check_columns c1 (n_prv d)) as [c2 p2]. by eexists. }
  destruct Hs as (s & -> & Hk & Hc). unfold nlogin. cbv [mbind gets ensure ret fail]. cbn [k_logged].
  change ((CKU_USER =? CKU_SO) || (CKU_USER =? CKU_USER)) with true. change (negb (CKU_USER =? KRY_UNSPEC)) with true. change (KRY_UNSPEC =? KRY_UNSPEC) with true.
  cbv iota beta. unfold back. cbn [k_nss k_logged]. destruct (auth_user C CKU_USER p false s) as [s1 [[]|e]] eqn:E; [|discriminate]. cbv [modify]. intros _. cbn [fst set_logged k_nss].
  unfold auth_user in E. cbv [mbind gets lift] in E. change (CKU_USER =? CKU_SO) with false in E. change (negb (CKU_USER =? CKU_USER)) with false in E. cbv iota in E.
  destruct (fetch_password (s_db s)) as [[salt data]|e]; [|discriminate E]. rewrite Hk in E. rewrite bool_decide_eq_false_2 in E by discriminate. cbv [modify] in E.
  set (s0 := set_keys (Some (enckey C p salt)) s) in *. cbv [attempt] in E.
  destruct (decrypt_data C data s0) as [s2 [plain|e]] eqn:Ed; [|discriminate E].
  assert (K0 : s_key s0 = Some (enckey C p salt)) by reflexivity.
  assert (C0 : keys_from C (enckey C p salt) s0). { intros i k X. unfold s0 in X. cbn [set_keys s_cache] in X. rewrite Hc in X. by rewrite lookup_empty in X. }
  destruct (decrypt_keys C _ _ _ _ _ K0 C0 Ed) as (_ & Q2 & Q3).
  match type of E with context [bytes_eqb ?a ?b] => destruct (bytes_eqb a b) end; [|discriminate E]. cbn [andb] in E. cbv [skip ret] in E. injection E as <-.
  by exists (enckey C p salt).
Qed.

(* Examples and counterexamples. *)
Definition toy_pub : object :=
  Obj 0 0 CKO_PUBLIC_KEY [from_ulong CKA_CLASS CKO_PUBLIC_KEY; from_ulong CKA_KEY_TYPE CKK_RSA; from_bool CKA_TOKEN true; from_bool CKA_PRIVATE false;
    from_bytes CKA_MODULUS [9; 9]].
Definition cell_at (d : ndb) (prv : bool) (id t : N) : option bytes := row ← tb_rows (main_table prv d) !! id; row !! t.
Definition read_cell (t : ntok) (prv : bool) (id u : N) : option (option bytes) :=
  match outcome toy_nss t (NRead prv id []) with
  | Ok (OObject o) => Some (a_val <$> get_attr o u)
  | _ => None
  end.
(* Somebody changes a column of an object, and a signature. *)
Definition with_cell (prv : bool) (id u : N) (v : bytes) (d : ndb) : ndb := set_rows prv (alter (fun row => <[u := v]> row) id) d.
Definition with_sig (prv : bool) (id u : N) (sig : bytes) (d : ndb) : ndb := set_meta (fun m => <[sig_name prv id u := (sig, [])]> m) d.
Definition toy_again (d : ndb) (l : list ncall) : ntok := nrun toy_nss (started d 1000) l.

Example C48_sealed : exists K row, s_key (k_nss (toy_at [])) = Some K /\
  tb_rows (n_prv (stored (toy_at [NCreate (toy_secret [])]))) !! 1 = Some row /\ is_Some (row !! CKA_VALUE) /\
  forall b, row !! CKA_VALUE = Some b -> sealed_with toy_nss K (s_rn (k_nss (toy_at []))) (s_rn (k_nss (toy_at [NCreate (toy_secret [])]))) [1; 2; 3] b.
Proof.
  destruct (C48_partial toy_nss toy_nss_laws toy_no_repeat toy_pin (toy_at []) (toy_secret []) 1) as (K & row & H1 & H2 & H3); [exact toy_ready|vm_compute; reflexivity|].
  exists K, row. split; [exact H1|]. split; [exact H2|]. split.
  - assert (X : is_Some (cell_at (stored (toy_at [NCreate (toy_secret [])])) true 1 CKA_VALUE)) by (eexists; vm_compute; reflexivity).
    unfold cell_at, main_table in X. change (stored (toy_at [NCreate (toy_secret [])])) with (stored (fst (ncall_run toy_nss (NCreate (toy_secret [])) (toy_at [])))) in X.
    rewrite H2 in X. exact X.
  - intros b Hb. destruct (H3 CKA_VALUE b) as (a & Ha & Hs); [apply (bool_decide_eq_true_1 _); vm_compute; reflexivity|exact Hb|].
    assert (Y : get_attr (toy_secret []) CKA_VALUE = Some (from_bytes CKA_VALUE [1; 2; 3])) by (vm_compute; reflexivity). rewrite Y in Ha. injection Ha as <-. exact Hs.
Qed.
Lemma ready_create (C : nssp) (L : nss_laws C) (Hr : no_repeat C) p t o : ready C p t -> ready C p (fst (ncall_run C (NCreate o) t)).
Proof.
  intros (A1 & A2 & A3 & salt & np & iter & iv & A4 & A5 & A6 & A7 & A8). destruct t as [s u]. cbn [k_nss k_logged] in *. subst u.
  cbn [ncall_run]. cbv [mbind]. unfold ncreate. cbv [mbind gets ensure ret fail]. change (any_logged (Ntok s CKU_USER)) with true. cbv iota beta. unfold back. cbn [k_nss k_logged].
  destruct (store C o s) as [s' r] eqn:E. destruct (store_any C L Hr _ o s s' r A2 A3 A7 E) as (B1 & B2 & B3 & B4 & B5 & B6 & B7).
  assert (X : ready C p (Ntok s' CKU_USER)).
  { split; [done|]. split; [done|]. split; [exact B2|]. exists salt, np, iter, iv. cbn [k_nss]. unfold stored in *. cbn [k_nss] in *. split; [lia|]. split; [done|]. split; [rewrite <- A6; exact B6|].
    split; [done|]. intros k Hx. apply B5 in Hx as [Hx|(m & Hm & Hx)]; [by apply A8|]. apply Hr in Hx. lia. }
  destruct r as [[p' i']|e]; exact X.
Qed.
Example C48_set : exists K row', s_key (k_nss (toy_at [NCreate (toy_secret [])])) = Some K /\
  let t2 := toy_at [NCreate (toy_secret []); NModify true 1 [ca CKA_LABEL [65]; ca CKA_VALUE [8; 8; 8]]] in
  tb_rows (n_prv (stored t2)) !! 1 = Some row' /\
  forall b, row' !! CKA_VALUE = Some b -> sealed_with toy_nss K (s_rn (k_nss (toy_at [NCreate (toy_secret [])]))) (s_rn (k_nss t2)) [8; 8; 8] b.
Proof.
  assert (Hrow : exists row, tb_rows (n_prv (stored (toy_at [NCreate (toy_secret [])]))) !! 1 = Some row) by (eexists; vm_compute; reflexivity). destruct Hrow as [row Hrow].
  destruct (C48_modified toy_nss toy_nss_laws toy_no_repeat toy_pin (toy_at [NCreate (toy_secret [])]) 1 [ca CKA_LABEL [65]; ca CKA_VALUE [8; 8; 8]] row) as (K & row' & H1 & H2 & H3).
  - exact (ready_create toy_nss toy_nss_laws toy_no_repeat toy_pin (toy_at []) (toy_secret []) toy_ready).
  - apply (bool_decide_eq_true_1 _). vm_compute. reflexivity.
  - vm_compute. reflexivity.
  - exact Hrow.
  - exists K, row'. split; [exact H1|]. cbv zeta. split; [exact H2|]. intros b Hb.
    exact (H3 CKA_VALUE b (bool_decide_eq_true_1 (CKA_VALUE ∈ attrs_with nc_sensitive) eq_refl) Hb).
Qed.
(* A changed modulus is refused to a logged-in user. *)
Example C48_changed : exists d, d = stored (toy_at [NCreate toy_pub]) /\
  read_cell (toy_again d [NLogin CKU_USER toy_pin]) false 1 CKA_MODULUS = Some (Some [9; 9]) /\
  read_cell (toy_again (with_cell false 1 CKA_MODULUS [6; 6] d) [NLogin CKU_USER toy_pin]) false 1 CKA_MODULUS = None.
Proof. eexists. split; [reflexivity|]. split; vm_compute; reflexivity. Qed.
(* But somebody without the PIN who changes the modulus and stores a signature of one byte has it accepted, if the byte
   is right, which one of 256 is. *)
Theorem C48_forged_refuted : exists d salt iter b, d = stored (toy_at [NCreate toy_pub]) /\
  read_cell (toy_again d [NLogin CKU_USER toy_pin]) false 1 CKA_MODULUS = Some (Some [9; 9]) /\
  read_cell (toy_again (with_sig false 1 CKA_MODULUS (n_der toy_nss (IMac salt iter [b])) (with_cell false 1 CKA_MODULUS [6; 6] d)) [NLogin CKU_USER toy_pin])
    false 1 CKA_MODULUS = Some (Some [6; 6]).
Proof.
  eexists. exists (repeat 7 32), 1.
  exists (default 0 (head (n_mac toy_nss (n_kdf toy_nss (default [] (s_key (k_nss (toy_at [])))) (repeat 7 32) 1) (mac_text 1 CKA_MODULUS [6; 6])))).
  split; [reflexivity|]. split; vm_compute; reflexivity.
Qed.
(* Without a login nothing is checked. *)
Theorem C48_logged_out_refuted : exists d, d = stored (toy_at [NCreate toy_pub]) /\
  read_cell (toy_again d []) false 1 CKA_MODULUS = Some (Some [9; 9]) /\
  read_cell (toy_again (with_cell false 1 CKA_MODULUS [6; 6] d) []) false 1 CKA_MODULUS = Some (Some [6; 6]).
Proof. eexists. split; [reflexivity|]. split; vm_compute; reflexivity. Qed.
(* A secret value given twice in one C_SetAttributeValue is stored as it is. *)
Theorem C48_twice_refuted : exists v tmpl, let t := toy_at [NCreate (toy_secret [])] in
  outcome toy_nss t (NModify true 1 tmpl) = Ok ODone /\
  cell_at (stored (fst (ncall_run toy_nss (NModify true 1 tmpl) t))) true 1 CKA_VALUE = Some v /\ v = [8; 8; 8] /\
  In (ca CKA_VALUE v) tmpl.
Proof. exists [8; 8; 8], [ca CKA_VALUE [8; 8; 8]; ca CKA_VALUE [8; 8; 8]]. cbv zeta. split_and!; [vm_compute; reflexivity..|by left]. Qed.
