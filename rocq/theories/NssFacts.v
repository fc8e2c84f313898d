(* Facts about the NSS backend. *)
From Verif Require Import NssSpec Rows.

(* How one attribute goes through a column. *)
Lemma cell_round a : holds a -> exists b, attr_cell a = Ok b /\ cell_attr (a_type a) b = Ok a.
Proof.
  intros (_ & _ & Hk & Hv). destruct a as [t k v]. cbn [a_type a_kind a_val] in *. unfold attr_cell, cell_attr. cbn [a_val a_kind].
  rewrite Hk. destruct k; try done.
  2: { destruct Hv as (x & -> & Hx & Hp). exists (be 4 x). destruct (le64 x) as [|y l] eqn:E; [apply (f_equal length) in E; unfold le64 in E; rewrite le_length in E; discriminate E|].
       rewrite <- E. unfold attr_to_ulong. cbn [a_kind a_val]. unfold le64 at 1. unfold blen. rewrite le_length. change (N.of_nat 8 =? 8) with true. cbv iota.
       cbn [rbind]. rewrite unle_le64 by lia. unfold num_to_val.
       assert (E1 : x =? CK_UNAVAILABLE_INFORMATION = false) by (unfold CK_UNAVAILABLE_INFORMATION; lia).
       assert (E2 : x <? 2 ^ 32 = true) by lia. rewrite E1, E2. split; [done|].
       destruct (t =? CKA_PARAMETER_SET) eqn:Et.
       - unfold parameter_set_fixup. unfold blen. rewrite be_length. change (N.of_nat 4 =? 4) with true. rewrite unbe_be by (change (256 ^ N.of_nat 4) with (2 ^ 32); lia).
         assert (E3 : x <? ckp_max = true) by (apply N.ltb_lt, Hp; lia). rewrite E3. done.
       - rewrite be_length. change (N.of_nat 4 =? 4) with true. cbv iota. rewrite unbe_be by (change (256 ^ N.of_nat 4) with (2 ^ 32); lia). done. }
  all: destruct v as [|y l]; [exists special_null; split; reflexivity|]; exists (y :: l); split; [done|];
    unfold bytes_eqb; rewrite bool_decide_eq_false_2 by exact Hv; done.
Qed.

(* The row made of the attributes of an object. *)
Lemma columns_row l k : List.Forall holds l -> columns l = Ok k ->
  forall t, match find_attr l t with
            | Some a => exists b, insert_row k !! t = Some b /\ cell_attr t b = Ok a
            | None => insert_row k !! t = None
            end.
Proof.
  revert k. induction l as [|a l IH]; intros k Hl Hc t; cbn [columns find_attr] in *.
  { injection Hc as <-. apply lookup_empty. }
  apply List.Forall_cons_iff in Hl as [Ha Hl].
  assert (Hs : is_skippable_attribute (a_type a) = false /\ is_db_attribute (a_type a) = true).
  { destruct Ha as [Ha _]. assert (X : forallb (fun t => negb (is_skippable_attribute t) && is_db_attribute t) table_columns = true) by (vm_compute; reflexivity).
    rewrite forallb_forall in X. apply elem_of_list_In in Ha. specialize (X _ Ha). apply andb_true_iff in X as [X1 X2]. split; [by apply negb_true_iff|done]. }
  destruct Hs as [E1 E2]. rewrite E1, E2 in Hc. cbn [negb] in Hc. destruct (cell_round a Ha) as (b & Hb & Hr). rewrite Hb in Hc. cbn [rbind] in Hc.
  destruct (columns l) as [k'|e]; [|discriminate Hc]. cbn [rbind] in Hc. injection Hc as <-. cbn [insert_row foldr fst snd].
  destruct (a_type a =? t) eqn:Et.
  - apply N.eqb_eq in Et. subst t. exists b. split; [apply lookup_insert|done].
  - apply N.eqb_neq in Et. specialize (IH k' Hl eq_refl t). destruct (find_attr l t) as [a'|].
    + destruct IH as (b' & H1 & H2). exists b'. split; [|done]. by rewrite lookup_insert_ne.
    + by rewrite lookup_insert_ne.
Qed.

(* Reading the row back. *)
Definition row_of (F : N -> option attr) (row : gmap N bytes) : Prop :=
  forall t, match F t with Some a => exists b, row !! t = Some b /\ cell_attr t b = Ok a | None => row !! t = None end.
Definition plain_attrs (F : N -> option attr) (class : N) : Prop :=
  (forall t a, F t = Some a -> a_type a = t /\ ignore_attribute t = false) /\
  exists a, F CKA_CLASS = Some a /\ attr_to_ulong a = Ok class.
Lemma cells_read F class row ts o : row_of F row -> plain_attrs F class ->
  exists o', cells_to_object (named_cells ts row) o = Ok o' /\
    o_class o' = (if bool_decide (CKA_CLASS ∈ ts) then class else o_class o) /\
    forall t, get_attr o' t = if bool_decide (t ∈ ts) then (match F t with Some a => Some a | None => get_attr o t end) else get_attr o t.
Proof.
  intros Hr [Hf (ac & Hc & Hu)]. revert o. induction ts as [|t ts IH]; intros o; cbn [named_cells map cells_to_object].
  { exists o. split; [done|]. split; [done|]. intros t. done. }
  fold (named_cells ts row). pose proof (Hr t) as Ht. destruct (F t) as [a|] eqn:Ef.
  - destruct Ht as (b & Hb & Ha). destruct (Hf t a Ef) as [Hat Hi]. rewrite Hi. cbn [rbind]. rewrite Hb, Ha. cbn [rbind].
    assert (Hs : exists o1, set_attr o a = Ok o1 /\ o_class o1 = if t =? CKA_CLASS then class else o_class o).
    { unfold set_attr. rewrite Hat. destruct (t =? CKA_CLASS) eqn:Et; [|by eexists].
      apply N.eqb_eq in Et. rewrite Et, Hc in Ef. injection Ef as <-. rewrite Hu. cbn [rbind]. by eexists. }
    destruct Hs as (o1 & Hs & Hcl). rewrite Hs. cbn [rbind]. destruct (IH o1) as (o' & Ho & Hk & Hg). exists o'. split; [done|]. split.
    + rewrite Hk, Hcl. destruct (N.eqb_spec t CKA_CLASS) as [->|Hn].
      * rewrite (bool_decide_eq_true_2 (CKA_CLASS ∈ CKA_CLASS :: ts)) by (apply elem_of_list_here). by destruct (bool_decide _).
      * rewrite (bool_decide_ext (CKA_CLASS ∈ ts) (CKA_CLASS ∈ t :: ts)); [done|]. rewrite elem_of_cons. intuition congruence.
    + intros u. rewrite Hg. rewrite (get_set o a o1 u Hs), Hat. destruct (N.eqb_spec t u) as [->|Hn].
      * rewrite (bool_decide_eq_true_2 (u ∈ u :: ts)) by (apply elem_of_list_here). rewrite Ef. destruct (bool_decide (u ∈ ts)); reflexivity.
      * rewrite (bool_decide_ext (u ∈ ts) (u ∈ t :: ts)); [done|]. rewrite elem_of_cons. intuition congruence.
  - assert (Hsk : cells_to_object ((t, Ok (row !! t)) :: named_cells ts row) o = cells_to_object (named_cells ts row) o).
    { cbn [cells_to_object]. destruct (ignore_attribute t); [done|]. cbn [rbind]. by rewrite Ht. }
    cbn [cells_to_object] in Hsk. rewrite Hsk. destruct (IH o) as (o' & Ho & Hk & Hg). exists o'. split; [done|].
    assert (Hn : t <> CKA_CLASS) by congruence. split.
    + rewrite Hk. rewrite (bool_decide_ext (CKA_CLASS ∈ ts) (CKA_CLASS ∈ t :: ts)); [done|]. rewrite elem_of_cons. intuition congruence.
    + intros u. rewrite Hg. destruct (N.eqb_spec t u) as [->|Hn'].
      * rewrite Ef. destruct (bool_decide (u ∈ ts)), (bool_decide (u ∈ u :: ts)); reflexivity.
      * rewrite (bool_decide_ext (u ∈ ts) (u ∈ t :: ts)); [done|]. rewrite elem_of_cons. intuition congruence.
Qed.
Lemma star_named cols tb row : tb_cols tb = cols -> star_cells cols tb row = named_cells cols row.
Proof.
  intros <-. unfold star_cells, named_cells. apply list_eq. intros i. rewrite list_lookup_imap, list_lookup_fmap.
  destruct (tb_cols tb !! i) as [t|]; done.
Qed.

(* The columns asked for. *)
Lemma remove_keeps t u l : t <> u -> t ∈ l -> t ∈ remove_first u l.
Proof.
  intros Hn. induction l as [|x l IH]; cbn [remove_first]; [done|]. rewrite elem_of_cons. destruct (N.eqb_spec x u) as [->|].
  - intros [H|H]; [congruence|done].
  - rewrite elem_of_cons. intuition.
Qed.
Lemma remove_sub t u l : t ∈ remove_first u l -> t ∈ l.
Proof.
  induction l as [|x l IH]; cbn [remove_first]; [done|]. destruct (x =? u); rewrite !elem_of_cons; intuition.
Qed.
Lemma add_in t u l : t ∈ add_missing u l <-> t = u \/ t ∈ l.
Proof.
  unfold add_missing. destruct (bool_decide (u ∈ l)) eqn:E.
  - apply bool_decide_eq_true in E. intuition congruence.
  - rewrite elem_of_app, elem_of_list_singleton. tauto.
Qed.
Definition wanted (types : list N) (t : N) : Prop :=
  t ∈ types \/ t ∈ [CKA_CLASS; CKA_KEY_TYPE; CKA_CERTIFICATE_TYPE; CKA_EXTRACTABLE; CKA_SENSITIVE].
Lemma query_in types t : types <> [] -> wanted types t -> is_skippable_attribute t = false -> is_db_attribute t = true -> t ∈ query_types types.
Proof.
  intros Hne Hw Hs Hd. unfold query_types. destruct types as [|x types]; [done|]. remember (x :: types) as ts eqn:Ets. clear Ets Hne.
  assert (H0 : t ∈ add_missing CKA_SENSITIVE (add_missing CKA_EXTRACTABLE (add_missing CKA_CERTIFICATE_TYPE
                 (add_missing CKA_KEY_TYPE (add_missing CKA_CLASS ts))))).
  { rewrite !add_in. destruct Hw as [Hw|Hw]; [by repeat right|]. rewrite !elem_of_cons in Hw. set_solver. }
  remember (add_missing _ _) as l eqn:El. clear El.
  assert (H1 : t ∈ foldl (fun l u => remove_first u l) l (attrs_with nc_skippable)).
  { assert (Hn : Forall (fun u => t <> u) (attrs_with nc_skippable)).
    { change (attrs_with nc_skippable) with [1073743360]. repeat constructor. intros ->. vm_compute in Hs. discriminate Hs. }
    revert l H0. induction (attrs_with nc_skippable) as [|u us IH]; intros l H0; cbn [foldl]; [done|].
    apply Forall_cons_1 in Hn as [Hn1 Hn2]. apply IH; [done|]. by apply remove_keeps. }
  remember (foldl _ l _) as l1 eqn:E1. clear E1 l H0 Hw. revert l1 H1.
  induction ts as [|u us IH]; intros l H1; cbn [foldl]; [done|]. apply IH. destruct (is_db_attribute u) eqn:Eu; [done|].
  apply remove_keeps; [congruence|done].
Qed.
Lemma query_sub types t : t ∈ query_types types -> wanted types t.
Proof.
  unfold query_types. destruct types as [|x types]; [by intros ?%elem_of_nil|]. remember (x :: types) as ts eqn:Ets. clear Ets.
  assert (Hf : forall ts l, t ∈ foldl (fun l t => if is_db_attribute t then l else remove_first t l) l ts -> t ∈ l).
  { clear. induction ts as [|u us IH]; intros l; cbn [foldl]; [done|]. intros H. apply IH in H. destruct (is_db_attribute u); [done|]. by apply remove_sub in H. }
  intros H. apply Hf in H. clear Hf. assert (Hf : forall us l, t ∈ foldl (fun l u => remove_first u l) l us -> t ∈ l).
  { clear. induction us as [|u us IH]; intros l; cbn [foldl]; [done|]. intros H. apply IH in H. by apply remove_sub in H. }
  apply Hf in H. rewrite !add_in in H. unfold wanted. rewrite !elem_of_cons. tauto.
Qed.

Section Keys.
  Context (C : nssp) (L : nss_laws C) (Hnr : no_repeat C) (K : bytes).
  Local Notation rnd n := (n_rnd C n 32).
  Local Notation key n := (n_kdf C K (rnd n) pbe_iterations).
  Definition fresh (s : nss) : Prop := forall n, s_rn s <= n -> s_cache s !! rnd n = None.
  Definition sealed_as (n0 n1 : N) (d b : bytes) : Prop :=
    exists n iv, n0 <= n < n1 /\ blen iv = 14 /\ b = n_der C (IEnc (rnd n) pbe_iterations iv (n_enc C (key n) ([4; 14] ++ iv) d)).
  Definition signed_as (n0 n1 id t : N) (v b : bytes) : Prop :=
    exists n, n0 <= n < n1 /\ b = n_der C (IMac (rnd n) pbe_iterations (n_mac C (key n) (mac_text id t v))).
  (* What a loop that only draws numbers and derives keys of one kind does to the state. *)
  Definition drew (sg : bool) (s s1 : nss) : Prop :=
    s_db s1 = s_db s /\ s_cols s1 = s_cols s /\ s_key s1 = s_key s /\ s_rn s <= s_rn s1 /\
    forall id x, s_cache s1 !! id = Some x ->
      s_cache s !! id = Some x \/ exists n, s_rn s <= n < s_rn s1 /\ id = rnd n /\ x = (sg, key n).
  Lemma drew_refl sg s : drew sg s s.
  Proof using Type. repeat split; try lia. auto. Qed.
  Lemma drew_trans sg s1 s2 s3 : drew sg s1 s2 -> drew sg s2 s3 -> drew sg s1 s3.
  Proof using Type.
    intros (A1 & A2 & A3 & A4 & A5) (B1 & B2 & B3 & B4 & B5). split; [congruence|]. split; [congruence|]. split; [congruence|]. split; [lia|].
    intros id x Hx. destruct (B5 _ _ Hx) as [H|(n & H1 & H2)].
    - destruct (A5 _ _ H) as [H'|(n & H1 & H2)]; [by left|right; exists n; split; [lia|done]].
    - right; exists n; split; [lia|done].
  Qed.
  Lemma drew_fresh sg s s1 : drew sg s s1 -> fresh s -> fresh s1.
  Proof using Hnr.
    intros (_ & _ & _ & Hle & Hc) Hf n Hn. destruct (s_cache s1 !! rnd n) as [x|] eqn:E; [|done].
    apply Hc in E as [E|(m & H1 & H2 & _)]; [rewrite Hf in E by lia; done|]. apply Hnr in H2. lia.
  Qed.
  Lemma cache_add_in id k c m x : cache_add id k c !! m = Some x -> (m = id /\ x = k) \/ c !! m = Some x.
  Proof using Type.
    unfold cache_add. destruct (decide (m = id)) as [->|Hn].
    - rewrite lookup_insert. intros [= <-]. by left.
    - rewrite lookup_insert_ne by done. destruct (Nat.ltb _ _); [|by right]. destruct (last_name c) as [i|]; [|by right].
      intros H. apply lookup_delete_Some in H as [_ H]. by right.
  Qed.

  Lemma encrypt_run d s : fresh s -> s_key s = Some K ->
    exists s1 b, encrypt_data C pbe_iterations d s = (s1, Ok b) /\ drew false s s1 /\ sealed_as (s_rn s) (s_rn s1) d b.
  Proof using L.
    intros Hf Hk. unfold encrypt_data. cbv [mbind random]. unfold derive_key. cbv [mbind ensure]. rewrite (nl_len C L). change (32 =? 32) with true.
    cbv [ret gets cached]. cbn [s_db s_cols s_key s_cache s_rn]. rewrite Hk, (Hf (s_rn s)) by lia. cbv [modify]. cbv beta iota. cbn [s_db s_cols s_key s_cache s_rn set_cache fst snd].
    eexists _, _. split; [reflexivity|]. split.
    - split; [done|]. split; [done|]. split; [by cbn [s_key set_cache]|]. cbn [s_rn s_cache set_cache]. split; [lia|]. intros id x Hx.
      apply cache_add_in in Hx as [[-> ->]|Hx]; [right|by left]. exists (s_rn s). split; [lia|done].
    - exists (s_rn s), (n_rnd C (s_rn s + 1) 14). cbn [s_rn set_cache]. split; [lia|]. split; [apply (nl_len C L)|]. done.
  Qed.
  Lemma sign_run v id t s : fresh s -> s_key s = Some K ->
    exists s1 b, make_signature C v id t pbe_iterations s = (s1, Ok b) /\ drew true s s1 /\ signed_as (s_rn s) (s_rn s1) id t v b.
  Proof using L.
    intros Hf Hk. unfold make_signature. cbv [mbind random]. unfold derive_key. cbv [mbind ensure]. rewrite (nl_len C L). change (32 =? 32) with true.
    cbv [ret gets cached]. cbn [s_db s_cols s_key s_cache s_rn]. rewrite Hk, (Hf (s_rn s)) by lia. cbv [modify]. cbv beta iota. cbn [s_db s_cols s_key s_cache s_rn set_cache fst snd negb].
    eexists _, _. split; [reflexivity|]. split.
    - split; [done|]. split; [done|]. split; [by cbn [s_key set_cache]|]. cbn [s_rn s_cache set_cache]. split; [lia|]. intros i x Hx.
      apply cache_add_in in Hx as [[-> ->]|Hx]; [right|by left]. exists (s_rn s). split; [lia|done].
    - exists (s_rn s). cbn [s_rn set_cache]. split; [lia|]. done.
  Qed.
  Lemma sealed_mono n0 n1 m0 m1 d b : m0 <= n0 -> n1 <= m1 -> sealed_as n0 n1 d b -> sealed_as m0 m1 d b.
  Proof using Type. intros H0 H1 (n & iv & H & Hr). exists n, iv. split; [lia|done]. Qed.
  Lemma signed_mono n0 n1 m0 m1 id t d b : m0 <= n0 -> n1 <= m1 -> signed_as n0 n1 id t d b -> signed_as m0 m1 id t d b.
  Proof using Type. intros H0 H1 (n & H & Hr). exists n. split; [lia|done]. Qed.

  (* Sealing the sensitive attributes. *)
  Definition sealed_attr (n0 n1 : N) (t : N) (a x : attr) : Prop := exists b, x = from_bytes t b /\ sealed_as n0 n1 (a_val a) b.
  Lemma seal_run ts o s : base.NoDup ts -> ~ CKA_CLASS ∈ ts -> fresh s -> s_key s = Some K ->
    exists s1 o1, for_types ts (seal_attr C) o s = (s1, Ok o1) /\ drew false s s1 /\ o_class o1 = o_class o /\
      (forall t, if bool_decide (t ∈ ts) then
                   match get_attr o t with
                   | Some a => exists x, get_attr o1 t = Some x /\ sealed_attr (s_rn s) (s_rn s1) t a x
                   | None => get_attr o1 t = None
                   end
                 else get_attr o1 t = get_attr o t) /\
      (forall a, In a (o_attrs o1) -> In a (o_attrs o) \/ a_type a ∈ ts /\ a_kind a = KBytes /\ a_val a <> special_null).
  Proof using L Hnr.
    intros Hnd Hcl. revert o s. induction ts as [|t ts IH]; intros o s Hf Hk; cbn [for_types].
    { exists s, o. split; [done|]. split; [apply drew_refl|]. split; [done|]. split; [done|]. auto. }
    apply list.NoDup_cons in Hnd as [Hni Hnd]. assert (Hcl' : CKA_CLASS ∉ ts) by set_solver. specialize (IH Hnd Hcl').
    cbv [mbind]. unfold seal_attr at 1. destruct (get_attr o t) as [a|] eqn:Ea.
    - destruct (encrypt_run (a_val a) s Hf Hk) as (s1 & b & Hr & Hd & Hs). cbv [mbind]. rewrite Hr. cbv [lift].
      assert (Ht : (a_type (from_bytes t b) =? CKA_CLASS) = false) by (cbn [a_type from_bytes]; apply N.eqb_neq; set_solver).
      pose proof (set_attr_ok o (from_bytes t b) Ht) as Hset. rewrite Hset. pose proof (fun u => get_set _ _ _ u Hset) as Hg.
      destruct (IH (with_attrs o (replace_first (o_attrs o) (from_bytes t b))) s1) as (s2 & o2 & Hr2 & Hd2 & Hc2 & Ha2 & Hi2).
      { by apply (drew_fresh false s). } { destruct Hd as (_ & _ & -> & _). done. }
      exists s2, o2. split; [exact Hr2|]. split; [by apply (drew_trans _ _ s1)|]. split; [by rewrite Hc2|]. split.
      + intros u. specialize (Ha2 u). rewrite Hg in Ha2. cbn [a_type from_bytes] in Ha2. pose proof Hd as (_ & _ & _ & Hle & _). pose proof Hd2 as (_ & _ & _ & Hle2 & _).
        destruct (N.eqb_spec t u) as [->|Hn].
        * rewrite (bool_decide_eq_true_2 (u ∈ u :: ts)) by apply elem_of_list_here. rewrite Ea. rewrite bool_decide_eq_false_2 in Ha2 by done.
          exists (from_bytes u b). split; [done|]. exists b. split; [done|]. apply (sealed_mono (s_rn s) (s_rn s1)); [lia|lia|done].
        * rewrite (bool_decide_ext (u ∈ t :: ts) (u ∈ ts)) by (rewrite elem_of_cons; intuition congruence).
          destruct (bool_decide (u ∈ ts)); [|done]. destruct (get_attr o u); [|done]. destruct Ha2 as (x & Hx & y & Hy & Hz). exists x. split; [done|]. exists y. split; [done|].
          apply (sealed_mono (s_rn s1) (s_rn s2)); [lia|lia|done].
      + intros x Hx. destruct (Hi2 x Hx) as [H|(H & H')].
        * cbn [with_attrs o_attrs] in H. clear -H Hs L. induction (o_attrs o) as [|y l IHl]; cbn [replace_first] in H.
          -- destruct H as [<-|[]]. right. cbn [a_type a_kind a_val from_bytes]. split; [apply elem_of_list_here|]. split; [done|].
             destruct Hs as (n & iv & _ & _ & ->). apply (nl_null C L).
          -- destruct (a_type y =? a_type (from_bytes t b)).
             ++ destruct H as [<-|H]; [|left; by right]. right. cbn [a_type a_kind a_val from_bytes]. split; [apply elem_of_list_here|]. split; [done|].
                destruct Hs as (n & iv & _ & _ & ->). apply (nl_null C L).
             ++ destruct H as [<-|H]; [left; by left|]. destruct (IHl H) as [H1|H1]; [left; by right|by right].
        * right. split; [set_solver|done].
    - cbv [ret]. destruct (IH o s Hf Hk) as (s2 & o2 & Hr2 & Hd2 & Hc2 & Ha2 & Hi2). exists s2, o2. split; [done|]. split; [done|]. split; [done|]. split.
      + intros u. specialize (Ha2 u). destruct (N.eqb_spec t u) as [->|Hn].
        * rewrite (bool_decide_eq_true_2 (u ∈ u :: ts)) by apply elem_of_list_here. rewrite Ea. rewrite bool_decide_eq_false_2 in Ha2 by done. by rewrite Ha2.
        * by rewrite (bool_decide_ext (u ∈ t :: ts) (u ∈ ts)) by (rewrite elem_of_cons; intuition congruence).
      + intros x Hx. destruct (Hi2 x Hx) as [H|(H & H')]; [by left|right]. split; [set_solver|done].
  Qed.

  (* Signing the authenticated attributes. *)
  Lemma sign_run_all prv id (F : N -> option bytes) ts d s : base.NoDup ts -> fresh s -> s_key s = Some K ->
    exists s1 d1, for_types ts (fun t => sign_value C prv id (F t) t) d s = (s1, Ok d1) /\ drew true s s1 /\
      n_pub d1 = n_pub d /\ n_prv d1 = n_prv d /\
      (forall t, if bool_decide (t ∈ ts) then
                   match F t with
                   | Some v => exists b, n_meta d1 !! sig_name prv id t = Some (b, []) /\ signed_as (s_rn s) (s_rn s1) id t v b
                   | None => n_meta d1 !! sig_name prv id t = n_meta d !! sig_name prv id t
                   end
                 else n_meta d1 !! sig_name prv id t = n_meta d !! sig_name prv id t) /\
      (forall k, (forall t, k <> sig_name prv id t) -> n_meta d1 !! k = n_meta d !! k).
  Proof using L Hnr.
    intros Hnd. revert d s. induction ts as [|t ts IH]; intros d s Hf Hk; cbn [for_types].
    { exists s, d. split; [done|]. split; [apply drew_refl|]. done. }
    apply list.NoDup_cons in Hnd as [Hni Hnd]. specialize (IH Hnd).
    cbv [mbind]. unfold sign_value at 1. destruct (F t) as [v|] eqn:Ea.
    - destruct (sign_run v id t s Hf Hk) as (s1 & b & Hr & Hd & Hs). cbv [mbind]. rewrite Hr. cbv [ret].
      destruct (IH (set_meta (fun m => <[sig_name prv id t := (b, [])]> m) d) s1) as (s2 & d2 & Hr2 & Hd2 & Hp1 & Hp2 & Ha2 & Hi2).
      { by apply (drew_fresh true s). } { destruct Hd as (_ & _ & -> & _). done. }
      exists s2, d2. split; [exact Hr2|]. split; [by apply (drew_trans _ _ s1)|]. split; [by rewrite Hp1|]. split; [by rewrite Hp2|]. split.
      + intros u. specialize (Ha2 u). cbn [set_meta n_meta] in Ha2. pose proof Hd as (_ & _ & _ & Hle & _). pose proof Hd2 as (_ & _ & _ & Hle2 & _).
        destruct (N.eqb_spec t u) as [->|Hn].
        * rewrite (bool_decide_eq_true_2 (u ∈ u :: ts)) by apply elem_of_list_here. rewrite Ea. rewrite bool_decide_eq_false_2 in Ha2 by done. rewrite lookup_insert in Ha2.
          exists b. split; [done|]. apply (signed_mono (s_rn s) (s_rn s1)); [lia|lia|done].
        * rewrite (bool_decide_ext (u ∈ t :: ts) (u ∈ ts)) by (rewrite elem_of_cons; intuition congruence).
          assert (Hne : sig_name prv id t <> sig_name prv id u) by (unfold sig_name; congruence).
          rewrite lookup_insert_ne in Ha2 by done.
          destruct (bool_decide (u ∈ ts)); [|done]. destruct (F u); [|done]. destruct Ha2 as (x & Hx & Hz). exists x. split; [done|].
          apply (signed_mono (s_rn s1) (s_rn s2)); [lia|lia|done].
      + intros k Hkk. rewrite Hi2 by done. cbn [set_meta n_meta]. rewrite lookup_insert_ne by (apply not_eq_sym, Hkk). done.
    - cbv [ret]. destruct (IH d s Hf Hk) as (s2 & d2 & Hr2 & Hd2 & Hp1 & Hp2 & Ha2 & Hi2). exists s2, d2. split; [done|]. split; [done|]. split; [done|]. split; [done|]. split; [|done].
      intros u. specialize (Ha2 u). destruct (N.eqb_spec t u) as [->|Hn].
      + rewrite (bool_decide_eq_true_2 (u ∈ u :: ts)) by apply elem_of_list_here. rewrite Ea. rewrite bool_decide_eq_false_2 in Ha2 by done. done.
      + by rewrite (bool_decide_ext (u ∈ t :: ts) (u ∈ ts)) by (rewrite elem_of_cons; intuition congruence).
  Qed.

  (* Reading: the keys in the cache are the ones that would be derived. *)
  Definition keys_ok (n0 n1 n2 : N) (s : nss) : Prop :=
    forall n x, n0 <= n < n2 -> s_cache s !! rnd n = Some x -> x = (n1 <=? n, key n).
  Definition same_store (s s1 : nss) : Prop := s_db s1 = s_db s /\ s_cols s1 = s_cols s /\ s_key s1 = s_key s.
  Lemma derive_read n0 n1 n2 n sg s : s_key s = Some K -> keys_ok n0 n1 n2 s -> n0 <= n < n2 -> sg = (n1 <=? n) ->
    exists s1, derive_key C sg (rnd n) pbe_iterations s = (s1, Ok (sg, key n)) /\ same_store s s1 /\ keys_ok n0 n1 n2 s1.
  Proof using L Hnr.
    intros Hk Hok Hn Hsg. unfold derive_key. cbv [mbind ensure]. rewrite (nl_len C L). change (32 =? 32) with true.
    cbv [ret gets cached]. rewrite Hk. destruct (s_cache s !! rnd n) as [x|] eqn:E.
    - exists s. rewrite (Hok n x Hn E). rewrite Hsg. done.
    - rewrite Hk. cbv [modify]. cbv beta iota. eexists. split; [reflexivity|]. split; [done|].
      intros m x Hm Hx. cbn [set_cache s_cache] in Hx. apply cache_add_in in Hx as [[Hx1 ->]|Hx]; [|by apply Hok].
      apply Hnr in Hx1. subst m. by rewrite Hsg.
  Qed.
  Lemma decrypt_run n0 n1 n2 d b s : s_key s = Some K -> keys_ok n0 n1 n2 s -> n1 <= n2 -> sealed_as n0 n1 d b ->
    exists s1, decrypt_data C b s = (s1, Ok d) /\ same_store s s1 /\ keys_ok n0 n1 n2 s1.
  Proof using L Hnr.
    intros Hk Hok Hle (n & iv & Hn & Hiv & ->). unfold decrypt_data. rewrite (nl_der C L). cbv [mbind].
    destruct (derive_read n0 n1 n2 n false s Hk Hok) as (s1 & Hr & Hs & Hk1); [lia|lia|]. rewrite Hr. exists s1.
    unfold aes_cbc_decrypt, full_iv. rewrite Hiv. change (14 =? 14) with true. cbv iota. cbn [fst snd]. rewrite (nl_dec C L). done.
  Qed.
  Lemma verify_run n0 n1 n2 v b id t s : s_key s = Some K -> keys_ok n0 n1 n2 s -> n0 <= n1 -> signed_as n1 n2 id t v b ->
    exists s1, check_signature C v b id t s = (s1, Ok tt) /\ same_store s s1 /\ keys_ok n0 n1 n2 s1.
  Proof using L Hnr.
    intros Hk Hok Hle (n & Hn & ->). unfold check_signature. rewrite (nl_der C L). cbv [mbind].
    destruct (derive_read n0 n1 n2 n true s Hk Hok) as (s1 & Hr & Hs & Hk1); [lia|lia|]. rewrite Hr. exists s1.
    unfold hmac_verify. cbn [fst snd negb]. pose proof (nl_mac C L (key n) (mac_text id t v)) as Hlen. rewrite Hlen. change ((32 =? 0) || (32 <? 32)) with false. cbv iota.
    rewrite firstn_all. unfold bytes_eqb. rewrite bool_decide_eq_true_2 by done. done.
  Qed.
  Lemma open_run n0 n1 n2 (G : N -> option attr) ts o s : base.NoDup ts -> ~ CKA_CLASS ∈ ts -> s_key s = Some K -> keys_ok n0 n1 n2 s -> n1 <= n2 ->
    (forall t, t ∈ ts -> match G t with Some a => exists x, get_attr o t = Some x /\ sealed_attr n0 n1 t a x | None => get_attr o t = None end) ->
    exists s1 o1, for_types ts (open_attr C) o s = (s1, Ok o1) /\ same_store s s1 /\ keys_ok n0 n1 n2 s1 /\ o_class o1 = o_class o /\
      forall t, get_attr o1 t = if bool_decide (t ∈ ts) then option_map (fun a => from_bytes t (a_val a)) (G t) else get_attr o t.
  Proof using L Hnr.
    intros Hnd Hcl. revert o s. induction ts as [|t ts IH]; intros o s Hk Hok Hle HG; cbn [for_types].
    { exists s, o. done. }
    apply list.NoDup_cons in Hnd as [Hni Hnd]. assert (Hcl' : CKA_CLASS ∉ ts) by set_solver. specialize (IH Hnd Hcl').
    pose proof (HG t (elem_of_list_here _ _)) as Ht. cbv [mbind]. unfold open_attr at 1. destruct (G t) as [a|] eqn:Eg.
    - destruct Ht as (x & Hx & b & -> & Hb). rewrite Hx. cbv [mbind]. cbn [a_val from_bytes].
      destruct (decrypt_run n0 n1 n2 (a_val a) b s Hk Hok Hle Hb) as (s1 & Hr & Hs & Hk1). rewrite Hr. cbv [lift].
      assert (Htc : (a_type (from_bytes t (a_val a)) =? CKA_CLASS) = false) by (cbn [a_type from_bytes]; apply N.eqb_neq; set_solver).
      pose proof (set_attr_ok o _ Htc) as Hset. fold (from_bytes t (a_val a)). rewrite Hset. pose proof (fun u => get_set _ _ _ u Hset) as Hg.
      destruct Hs as (S1 & S2 & S3).
      destruct (IH (with_attrs o (replace_first (o_attrs o) (from_bytes t (a_val a)))) s1) as (s2 & o2 & R1 & (R2 & R3 & R4) & R5 & R6 & R7); [congruence|done|done| |].
      { intros u Hu. rewrite Hg. cbn [a_type from_bytes]. destruct (N.eqb_spec t u) as [->|]; [done|]. apply HG. by apply elem_of_list_further. }
      exists s2, o2. split; [done|]. split; [unfold same_store; split; [congruence|split; congruence]|]. split; [done|]. split; [by rewrite R6|].
      intros u. rewrite R7, Hg. cbn [a_type from_bytes]. destruct (N.eqb_spec t u) as [->|Hn].
      + rewrite (bool_decide_eq_true_2 (u ∈ u :: ts)) by apply elem_of_list_here. rewrite bool_decide_eq_false_2 by done. by rewrite Eg.
      + by rewrite (bool_decide_ext (u ∈ t :: ts) (u ∈ ts)) by (rewrite elem_of_cons; intuition congruence).
    - rewrite Ht. cbv [ret]. destruct (IH o s Hk Hok Hle) as (s2 & o2 & R1 & R2 & R5 & R6 & R7); [intros u Hu; apply HG; by apply elem_of_list_further|].
      exists s2, o2. split; [done|]. split; [done|]. split; [done|]. split; [done|].
      intros u. rewrite R7. destruct (N.eqb_spec t u) as [->|Hn].
      + rewrite (bool_decide_eq_true_2 (u ∈ u :: ts)) by apply elem_of_list_here. rewrite bool_decide_eq_false_2 by done. by rewrite Eg, Ht.
      + by rewrite (bool_decide_ext (u ∈ t :: ts) (u ∈ ts)) by (rewrite elem_of_cons; intuition congruence).
  Qed.
  Lemma check_run n0 n1 n2 prv id ts o s : s_key s = Some K -> keys_ok n0 n1 n2 s -> n0 <= n1 ->
    (forall t a, t ∈ ts -> get_attr o t = Some a -> exists b x, n_meta (s_db s) !! sig_name prv id t = Some (b, x) /\ signed_as n1 n2 id t (a_val a) b) ->
    exists s1, for_types ts (check_attr C prv id) o s = (s1, Ok o) /\ same_store s s1.
  Proof using L Hnr.
    revert s. induction ts as [|t ts IH]; intros s Hk Hok Hle HG; cbn [for_types].
    { exists s. done. }
    cbv [mbind]. unfold check_attr at 1. destruct (get_attr o t) as [a|] eqn:Ea.
    - destruct (HG t a (elem_of_list_here _ _) Ea) as (b & x & Hm & Hb). cbv [mbind gets]. rewrite Hm. cbv [mbind].
      destruct (verify_run n0 n1 n2 (a_val a) b id t s Hk Hok Hle Hb) as (s1 & Hr & (S1 & S2 & S3) & Hk1). rewrite Hr. cbv [ret].
      destruct (IH s1) as (s2 & R1 & R2 & R3 & R4); [congruence|done|done| |].
      { intros u a' Hu Ha'. rewrite S1. apply HG; [by apply elem_of_list_further|done]. }
      exists s2. split; [done|]. unfold same_store. split; [congruence|]. split; congruence.
    - cbv [ret]. apply IH; [done|done|done|]. intros u a' Hu Ha'. apply HG; [by apply elem_of_list_further|done].
  Qed.
End Keys.
