(* C26 and C27: the database under a token. *)
From Verif Require Import Base Attr Obj Sqlite StoreSpec Rows ObjOk ObjNew ObjAttrs.
From Verif Require Import Monad Sqlite Storage Token Backend State Api Toy Spec AuthSpec Users ThmObjects ThmAuth ThmInit.

Lemma proper_wf a : proper_attr a -> attr_wf a.
Proof.
  intros (k & Hk & [He|(He & -> & Hm)] & Hs).
  - apply attr_wf_intro; [by rewrite He|]. destruct (a_kind a); done.
  - split; unfold norm; rewrite He, Hk; cbn [a_kind]; [done|]. by right.
Qed.
Lemma proper_all o : proper o -> Forall attr_wf (o_attrs o).
Proof. intros H. apply List.Forall_forall. intros a Ha. by apply proper_wf, (pr_attrs _ H). Qed.
Lemma found_type l t a : find_attr l t = Some a -> In a l /\ a_type a = t.
Proof.
  induction l as [|x l IH]; cbn [find_attr]; [done|]. destruct (N.eqb_spec (a_type x) t) as [He|].
  - intros H. injection H as <-. split; [by left|done].
  - intros H. destruct (IH H). split; [by right|done].
Qed.
Lemma in_found l a : In a l -> exists b, find_attr l (a_type a) = Some b.
Proof.
  induction l as [|x l IH]; [done|]. cbn [find_attr]. destruct (N.eqb_spec (a_type x) (a_type a)) as [He|Hn]; [eauto|]. intros [->|H]; [done|by apply IH].
Qed.
Lemma last_some l a : In a l -> is_kept a = true -> exists b, last_attr l (a_type a) = Some b.
Proof. intros H1 H2. unfold last_attr. apply in_found. apply in_rev. try rewrite rev_involutive. by apply List.filter_In. Qed.
Lemma once_get o a : once o -> In a (o_attrs o) -> get_attr o (a_type a) = Some a.
Proof.
  unfold once, get_attr. induction (o_attrs o) as [|x l IH]; [done|]. cbn [map find_attr]. intros Hn. apply list.NoDup_cons in Hn as [H1 H2]. intros [->|H].
  - by rewrite N.eqb_refl.
  - destruct (N.eqb_spec (a_type x) (a_type a)) as [He|]; [|by apply IH]. exfalso. apply H1. rewrite He. apply elem_of_list_In. by apply in_map.
Qed.
Lemma string_kept o uid : get_string o CKA_UNIQUE_ID = Ok uid -> exists a, In a (o_attrs o) /\ a_type a = CKA_UNIQUE_ID /\ is_kept a = true /\ get_attr o CKA_UNIQUE_ID = Some a.
Proof.
  unfold get_string, get_as. destruct (get_attr o CKA_UNIQUE_ID) as [a|] eqn:Ha; [|done]. intros Hs. destruct (found_type _ _ _ Ha) as [H1 H2]. exists a. split_and!; try done.
  unfold attr_to_string in Hs. unfold is_kept. destruct (a_kind a); done.
Qed.
Lemma proper_last o : proper o -> last_attr (o_attrs o) CKA_UNIQUE_ID = get_attr o CKA_UNIQUE_ID.
Proof.
  intros H. destruct (pr_uid _ H) as [uid Hu]. destruct (string_kept _ _ Hu) as (a & H1 & H2 & H3 & ->). destruct (last_some _ _ H1 H3) as [b Hb]. rewrite H2 in Hb. rewrite Hb.
  destruct (last_attr_in _ _ _ Hb) as (B1 & B2 & _). f_equal. apply (pr_once _ H); try done. congruence.
Qed.

(* ---- histories ---- *)
Lemma meta_exec l d : forallb (fun s => match s with SInsMeta _ _ _ => true | _ => false end) l = true ->
  d_tables (foldl (fun d s => exec_db s d) d l) = d_tables d /\ d_objs (foldl (fun d s => exec_db s d) d l) = d_objs d.
Proof. revert d. induction l as [|s l IH]; intros d H; [done|]. cbn in H. destruct s; try done. cbn [foldl]. by destruct (IH (exec_db (SInsMeta name value data) d)) as [-> ->]. Qed.
Lemma meta_tx l d : forallb (fun s => match s with SInsMeta _ _ _ => true | _ => false end) l = true ->
  d_tables (c_disk (exec (SBegin :: l ++ [SCommit]) d)) = d_tables d /\ d_objs (c_disk (exec (SBegin :: l ++ [SCommit]) d)) = d_objs d.
Proof.
  intros H. rewrite exec_tx; [by apply meta_exec|]. apply forallb_forall. intros s Hs. pose proof (proj1 (forallb_forall _ _) H _ Hs) as Hx. by destruct s.
Qed.
Definition user_body (u c : N) (i : auth_info) : list stmt := (if ai_default i then [SInsMeta META_USER_FLAGS u (le 4 1)] else []) ++ [SInsMeta META_USER_COUNTER u (le 4 c)]
      ++ match ai_data i with Some b => [SInsMeta META_USER_DATA u b] | None => [] end.
Lemma user_stmts u i l : store_user_stmts u i = Ok l -> exists c, l = SBegin :: user_body u c i ++ [SCommit].
Proof.
  unfold store_user_stmts. destruct (u32_try _) as [c|]; [|done]. cbn [rbind]. intros [= <-]. exists c. unfold user_body. by rewrite <- !app_assoc.
Qed.
Lemma after_wf d c : db_wf d -> proper_call c -> db_wf (db_after d c).
Proof.
  intros Hw Hc. unfold db_after. destruct (stmts_of d c) as [l|] eqn:Hl; [|done]. destruct c; cbn [stmts_of] in Hl.
  - destruct (pr_uid _ Hc) as [uid Hu]. by destruct (store_effect d o l uid Hw Hl Hu (proper_all _ Hc) (proper_last _ Hc)) as (_ & _ & _ & _ & _ & _ & H).
  - by destruct (remove_effect d uid l Hw Hl) as (_ & _ & _ & H).
  - injection Hl as <-. change (store_info_stmts i) with (SBegin :: [SInsMeta META_TOKEN_INFO VAL_LABEL (ti_label i); SInsMeta META_TOKEN_INFO VAL_SERIAL (ti_serial i);
      SInsMeta META_TOKEN_INFO VAL_FLAGS (le 4 (N.land (ti_flags i) stored_flags_mask))] ++ [SCommit]).
    match goal with |- db_wf (c_disk (exec (SBegin :: ?x ++ _) d)) => destruct (meta_tx x d eq_refl) as [_ H] end. destruct Hw as [W1 W2]. split; [|by rewrite H]. unfold uid_unique. by rewrite H.
  - apply user_stmts in Hl as [n ->]. destruct (meta_tx (user_body u n i) d) as [_ H]. { unfold user_body. by destruct (ai_default i), (ai_data i). }
    destruct Hw as [W1 W2]. split; [|by rewrite H]. unfold uid_unique. by rewrite H.
  - injection Hl as <-. change (c_disk (exec reset_stmts d)) with (Db true ∅ ∅). split; [|done]. intros i j ri rj u Hi. cbn [d_objs] in Hi. rewrite lookup_empty in Hi. done.
Qed.
Lemma run_wf cs d : db_wf d -> Forall proper_call cs -> db_wf (db_run d cs).
Proof. revert d. induction cs as [|c cs IH]; intros d Hw H; [done|]. apply List.Forall_cons_iff in H as [H1 H2]. apply IH; [by apply after_wf|done]. Qed.
Lemma new_wf : db_wf db_new.
Proof. split; [|done]. intros i j ri rj u. cbn. by rewrite lookup_empty. Qed.
Lemma spared d c uid attrs : db_wf d -> proper_call c -> spares uid c -> fetch_by_uid (db_after d c) uid attrs = fetch_by_uid d uid attrs.
Proof.
  intros Hw Hc Hs. pose proof (after_wf d c Hw Hc) as Hw'. unfold db_after in *. destruct (stmts_of d c) as [l|] eqn:Hl; [|done]. destruct c; cbn [stmts_of spares] in *.
  - destruct (pr_uid _ Hc) as [u Hu]. destruct (store_then_fetch d o l u Hw Hl Hu (proper_all _ Hc) (proper_last _ Hc)) as (o' & _ & _ & H). apply H. congruence.
  - destruct (remove_effect d uid0 l Hw Hl) as (H1 & _ & H2 & _). apply fetch_same; try done. intros i r Hr. rewrite H2. split.
    + intros ->. rewrite bool_decide_eq_false_2; [done|]. congruence.
    + destruct (d_objs d !! i) as [r'|]; [|done]. by destruct (bool_decide _).
  - injection Hl as <-. change (store_info_stmts i) with (SBegin :: [SInsMeta META_TOKEN_INFO VAL_LABEL (ti_label i); SInsMeta META_TOKEN_INFO VAL_SERIAL (ti_serial i);
      SInsMeta META_TOKEN_INFO VAL_FLAGS (le 4 (N.land (ti_flags i) stored_flags_mask))] ++ [SCommit]) in *.
    match goal with |- context [exec (SBegin :: ?x ++ _) d] => destruct (meta_tx x d eq_refl) as [H1 H2] end. apply fetch_same; try done.
  - apply user_stmts in Hl as [n ->]. destruct (meta_tx (user_body u n i) d) as [H1 H2]. { unfold user_body. by destruct (ai_default i), (ai_data i). }
    apply fetch_same; try done. intros j r _. by rewrite H2.
  - done.
Qed.
Lemma run_spared cs d uid attrs : db_wf d -> Forall proper_call cs -> Forall (spares uid) cs -> fetch_by_uid (db_run d cs) uid attrs = fetch_by_uid d uid attrs.
Proof.
  revert d. induction cs as [|c cs IH]; intros d Hw H1 H2; [done|]. apply List.Forall_cons_iff in H1 as [A1 A2]. apply List.Forall_cons_iff in H2 as [B1 B2].
  cbn [db_run foldl]. etransitivity; [apply IH; [by apply after_wf|done|done]|]. by apply spared.
Qed.

(* After any history of the database, an object that is accepted is read back with exactly the types and values it was stored with, and
   so it is after any later history that does not concern it. *)
Theorem C26_read_back cs o cs' uid l : Forall proper_call cs -> Forall proper_call cs' -> proper o -> get_string o CKA_UNIQUE_ID = Ok uid -> Forall (spares uid) cs' ->
  let d := db_run db_new cs in stmts_of d (DStore o) = Ok l ->
  exists o', fetch_by_uid (db_run (db_after d (DStore o)) cs') uid [] = Ok o' /\ forall ty v, ty <> CKA_CLASS \/ (exists c, content o CKA_CLASS c) -> content o' ty v <-> content o ty v.
Proof.
  intros Hcs Hcs' Ho Hu Hsp d Hl. pose proof (run_wf cs db_new new_wf Hcs) as Hw. fold d in Hw. cbn [stmts_of] in Hl.
  destruct (store_then_fetch d o l uid Hw Hl Hu (proper_all _ Ho) (proper_last _ Ho)) as (o' & Hf & Ha & _). exists o'. split.
  { rewrite run_spared; try done; [|by apply after_wf]. unfold db_after. cbn [stmts_of]. by rewrite Hl. }
  intros ty v Hty. specialize (Ha ty). pose proof (once_fetch _ _ _ _ Hf) as Hon.
  assert (forall a, In a (o_attrs o') -> a_type a = ty -> get_attr o' ty = Some a) as Hget.
  { intros a H1 <-. by apply once_get. }
  split.
  - intros (a & A1 & A2 & A3 & A4 & A5). rewrite (Hget a A1 A2) in Ha. destruct (last_attr (o_attrs o) ty) as [b|] eqn:Hb.
    + injection Ha as ->. rewrite norm_val in A3. destruct (last_attr_in _ _ _ Hb) as (B1 & B2 & B3). exists b. split_and!; try done; unfold is_kept in B3; by destruct (a_kind b).
    + destruct (N.eqb_spec ty CKA_CLASS) as [->|]; [|done]. destruct Hty as [|[c (b & B1 & B2 & _ & B4 & B5)]]; [done|].
      destruct (last_some _ _ B1) as [x Hx]; [unfold is_kept; by destruct (a_kind b)|]. rewrite B2 in Hx. congruence.
  - intros (b & B1 & B2 & B3 & B4 & B5). destruct (last_some _ _ B1) as [x Hx]; [unfold is_kept; by destruct (a_kind b)|]. rewrite B2 in Hx. rewrite Hx in Ha.
    destruct (last_attr_in _ _ _ Hx) as (X1 & X2 & X3). assert (x = b) as -> by (apply (pr_once _ Ho); congruence). apply found_type in Ha as [H1 H2]. exists (norm b). split_and!; try done.
    + by rewrite norm_val.
    + unfold norm. destruct (a_kind b) eqn:Hk; try congruence. destruct (search_by_id (a_type b)) as [[]|]; cbn [a_kind]; congruence.
    + unfold norm. destruct (a_kind b) eqn:Hk; try congruence. destruct (search_by_id (a_type b)) as [[]|]; cbn [a_kind]; congruence.
Qed.


(* ---- C27 ---- *)
Definition tx (l : list stmt) : Prop := exists b, l = SBegin :: b ++ [SCommit] /\ forallb plain_stmt b = true.
Lemma prefix_tx l d k : tx l -> c_disk (exec (firstn k l) d) = d \/ c_disk (exec (firstn k l) d) = c_disk (exec l d).
Proof.
  intros (b & -> & Hb). destruct k as [|k]; [by left|]. cbn [firstn]. destruct (decide (length b < k)%nat) as [Hk|Hk].
  - right. rewrite firstn_all2; [done|]. rewrite app_length. cbn. lia.
  - left. rewrite take_app_le by lia. unfold exec. cbn [foldl exec1 c_disk]. rewrite exec_inside; [done|]. apply forallb_forall. intros s Hs. apply (proj1 (forallb_forall _ _) Hb).
    rewrite <- (firstn_skipn k b). apply in_or_app. by left.
Qed.
Lemma ins_plain id l s : ins_stmts id l = Ok s -> forallb plain_stmt s = true.
Proof.
  revert s. induction l as [|a l IH]; intros s; cbn [ins_stmts]; [intros [= <-]; done|]. destruct (negb _); [done|]. destruct (u32_try _); cbn [rbind]; [|done].
  destruct (to_sql a) as [v|]; cbn [rbind]; [|done]. destruct (ins_stmts id l) as [r|]; cbn [rbind]; [|done]. intros [= <-]. specialize (IH _ eq_refl). by destruct v.
Qed.
Lemma del_plain d uid : forallb plain_stmt (del_stmts d uid) = true.
Proof. unfold del_stmts. by destruct (_ =? _). Qed.
Lemma stmts_tx d c l : stmts_of d c = Ok l -> tx l.
Proof.
  destruct c; cbn [stmts_of].
  - unfold store_obj_stmts. destruct (get_string o CKA_UNIQUE_ID) as [uid|]; cbn [rbind]; [|done]. destruct (negb _); [done|]. destruct (ins_stmts _ _) as [s|] eqn:Hs; cbn [rbind]; [|done].
    intros [= <-]. exists (del_stmts d uid ++ s). rewrite <- app_assoc. split; [done|]. rewrite forallb_app, del_plain. by eapply ins_plain.
  - unfold remove_stmts. destruct (negb _); [done|]. intros [= <-]. exists (del_stmts d uid). split; [done|apply del_plain].
  - intros [= <-]. by eexists [_; _; _].
  - intros H. apply user_stmts in H as [n ->]. exists (user_body u n i). split; [done|]. unfold user_body. by destruct (ai_default i), (ai_data i).
  - intros [= <-]. by exists [SDropMeta; SCreateMeta; SDropObj; SCreateObj].
Qed.
(* Wherever the process dies while the database works on a request, the database file is the one before or the one after. *)
Theorem C27_old_or_new cs c k : let d := db_run db_new cs in died d c k = d \/ died d c k = db_after d c.
Proof.
  intros d. unfold died, db_after. destruct (stmts_of d c) as [l|] eqn:Hl; [|by left]. apply prefix_tx. by eapply stmts_tx.
Qed.
(* What that means for the object being written: it is as before, or has exactly the new content. *)
Theorem C27_object cs o k uid : Forall proper_call cs -> proper o -> get_string o CKA_UNIQUE_ID = Ok uid -> (exists c, content o CKA_CLASS c) ->
  let d := db_run db_new cs in let d' := died d (DStore o) k in
  fetch_by_uid d' uid [] = fetch_by_uid d uid [] \/ exists o', fetch_by_uid d' uid [] = Ok o' /\ forall ty v, content o' ty v <-> content o ty v.
Proof.
  intros Hcs Ho Hu Hcl d d'. destruct (C27_old_or_new cs (DStore o) k) as [H|H]; fold d d' in H; rewrite H; [by left|]. destruct (stmts_of d (DStore o)) as [l|] eqn:Hl.
  - right. destruct (C26_read_back cs o [] uid l Hcs (List.Forall_nil _) Ho Hu (List.Forall_nil _) Hl) as (o' & H1 & H2). exists o'. split; [exact H1|]. intros ty v. apply H2. by right.
  - left. unfold db_after. by rewrite Hl.
Qed.
(* for every other object: nothing; *)
Theorem C27_other_objects cs c k uid attrs : Forall proper_call cs -> proper_call c -> spares uid c ->
  let d := db_run db_new cs in fetch_by_uid (died d c k) uid attrs = fetch_by_uid d uid attrs.
Proof.
  intros Hcs Hc Hs d. pose proof (run_wf cs db_new new_wf Hcs) as Hw. fold d in Hw. destruct (C27_old_or_new cs c k) as [H|H]; fold d in H; rewrite H; [done|]. by apply spared.
Qed.
(* for the record of a user: it is as before, or has the new counter and data; the other user's is untouched; *)
Lemma user_meta_after d u i l : store_user_stmts u i = Ok l -> forall m, m = d_meta (c_disk (exec l d)) ->
  (forall n v, v <> u \/ (n <> META_USER_FLAGS /\ n <> META_USER_COUNTER /\ n <> META_USER_DATA) -> m !! (n, v) = d_meta d !! (n, v)) /\
  ai_cur i < 2 ^ 32 /\ m !! (META_USER_COUNTER, u) = Some (le 4 (ai_cur i)) /\ m !! (META_USER_DATA, u) = (match ai_data i with Some b => Some b | None => d_meta d !! (META_USER_DATA, u) end) /\
  m !! (META_USER_FLAGS, u) = (if ai_default i then Some (le 4 1) else d_meta d !! (META_USER_FLAGS, u)).
Proof.
  unfold store_user_stmts, u32_try. destruct (ai_cur i <? 2 ^ 32) eqn:Hc; cbn [rbind]; [|done]. intros Hl. injection Hl as <-. intros m ->.
  assert (forall (a b : N * N) x (t : gmap (N * N) bytes), a <> b -> <[a := x]> t !! b = t !! b) as Hne by (intros; by apply lookup_insert_ne).
  split_and!; [..|lia| | |]; destruct (ai_default i), (ai_data i) as [b|]; cbn; intros;
    repeat first [rewrite lookup_insert|rewrite Hne by (intros X; apply pair_equal_spec in X as [X1 X2]; first [vm_compute in X1; discriminate X1|intuition congruence])]; done.
Qed.

Lemma flag_rows cs : Forall proper_call cs -> forall v, d_meta (db_run db_new cs) !! (META_USER_FLAGS, v) = None.
Proof.
  intros H. cut (forall d, db_wf d -> (forall v, d_meta d !! (META_USER_FLAGS, v) = None) -> forall v, d_meta (db_run d cs) !! (META_USER_FLAGS, v) = None).
  { intros X v. apply X; [apply new_wf|]. intros u. apply lookup_empty. }
  induction cs as [|c cs IH]; intros d Hw Hd; [exact Hd|]. apply List.Forall_cons_iff in H as [H1 H2]. apply (IH H2 (db_after d c)); [by apply after_wf|].
  intros v. unfold db_after. destruct (stmts_of d c) as [l|] eqn:Hl; [|apply Hd]. destruct c; cbn [stmts_of] in Hl.
  - destruct (pr_uid _ H1) as [uid Hu]. destruct (store_effect d o l uid Hw Hl Hu (proper_all _ H1) (proper_last _ H1)) as (_ & _ & -> & _). apply Hd.
  - destruct (remove_effect d uid l Hw Hl) as (_ & -> & _). apply Hd.
  - injection Hl as <-. cbn. rewrite !lookup_insert_ne by (intros X; discriminate X). apply Hd.
  - destruct (user_meta_after d u i l Hl _ eq_refl) as (M1 & _ & _ & _ & M5). destruct (N.eq_dec v u) as [->|Hne]; [|rewrite M1 by auto; apply Hd]. rewrite M5. cbn in H1. rewrite H1. apply Hd.
  - injection Hl as <-. apply lookup_empty.
Qed.
Theorem C27_user_record cs u i k b : Forall proper_call cs -> ai_default i = false -> ai_data i = Some b ->
  let d := db_run db_new cs in let d' := died d (DUser u i) k in 
  (fetch_user d' u = fetch_user d u \/ fetch_user d' u = Ok (AuthInfo false (Some b) MAX_LOGIN_ATTEMPTS (ai_cur i))) /\
  (forall u', u' <> u -> fetch_user d' u' = fetch_user d u') /\ fetch_info d' = fetch_info d.
Proof.
  intros Hcs Hdef Hd d d'. destruct (C27_old_or_new cs (DUser u i) k) as [H|H]; fold d d' in H; [rewrite H; auto|]. unfold db_after in H. cbn [stmts_of] in H.
  destruct (store_user_stmts u i) as [l|] eqn:Hl; [|rewrite H; auto]. destruct (user_meta_after d u i l Hl _ eq_refl) as (M1 & M2 & M3 & M4 & M5). rewrite <- H in *.
  assert (d_tables d' = d_tables d) as Ht'. { rewrite H. apply user_stmts in Hl as [n ->]. destruct (meta_tx (user_body u n i) d) as [-> _]; [|done]. unfold user_body. by destruct (ai_default i), (ai_data i). }
  split_and!.
  - destruct (d_tables d) eqn:Ht; [|left; unfold fetch_user; by rewrite Ht, Ht']. right. unfold fetch_user. rewrite Ht'. cbn [negb]. rewrite M3, M4, M5, Hd, Hdef.
    assert (blen (le 4 (ai_cur i)) =? 4 = true) as Hb by done. rewrite Hb, unle_le4 by done. unfold d. rewrite flag_rows by done. done.
  - intros u' Hu. unfold fetch_user. by rewrite Ht', !M1 by auto.
  - unfold fetch_info. rewrite Ht'. rewrite !M1; [done|..]; right; split_and!; intros X; vm_compute in X; discriminate X.
Qed.
(* for the label, the serial number and the flags of the token: the same. *)
Lemma copy_whole s x : length s = length x -> list.last s <> Some 0 -> s <> [] -> copy_sized_string s x = s.
Proof.
  intros Hl Hz Hn. unfold copy_sized_string. destruct (rev s) as [|c r] eqn:Hr; [by apply (f_equal (@rev N)) in Hr; rewrite rev_involutive in Hr|].
  assert (s = rev r ++ [c]) as Hs by (rewrite <- (rev_involutive s), Hr; done). rewrite Hs, last_snoc in Hz. destruct (N.eqb_spec c 0) as [->|]; [done|].
  rewrite Hl, Nat.leb_refl. by rewrite <- Hl, firstn_all.
Qed.
Theorem C27_token_info cs i k : length (ti_label i) = 32%nat -> length (ti_serial i) = 16%nat -> list.last (ti_label i) <> Some 0 -> list.last (ti_serial i) <> Some 0 ->
  let d := db_run db_new cs in let d' := died d (DInfo i) k in
  (fetch_info d' = fetch_info d \/ fetch_info d' = Ok (TokenInfo (ti_label i) (ti_serial i) (N.land (ti_flags i) stored_flags_mask))) /\
  forall u, fetch_user d' u = fetch_user d u.
Proof.
  intros L1 L2 Z1 Z2 d d'. destruct (C27_old_or_new cs (DInfo i) k) as [H|H]; fold d d' in H; [rewrite H; auto|]. unfold db_after in H. cbn [stmts_of] in H.
  assert (d_tables d' = d_tables d) as Ht' by (rewrite H; done).
  assert (forall n v, n <> META_TOKEN_INFO -> d_meta d' !! (n, v) = d_meta d !! (n, v)) as Ho.
  { intros n v Hn. rewrite H. cbn. by rewrite !lookup_insert_ne by (intros X; apply pair_equal_spec in X as [X1 X2]; congruence). }
  split.
  - destruct (d_tables d) eqn:Ht; [|left; unfold fetch_info; by rewrite Ht, Ht']. right. unfold fetch_info. rewrite Ht'. cbn [negb]. rewrite H.
    assert (d_meta (c_disk (exec (store_info_stmts i) d)) !! (META_TOKEN_INFO, VAL_FLAGS) = Some (le 4 (N.land (ti_flags i) stored_flags_mask)) /\
      d_meta (c_disk (exec (store_info_stmts i) d)) !! (META_TOKEN_INFO, VAL_SERIAL) = Some (ti_serial i) /\
      d_meta (c_disk (exec (store_info_stmts i) d)) !! (META_TOKEN_INFO, VAL_LABEL) = Some (ti_label i)) as (-> & -> & ->).
    { cbn. split_and!; repeat first [rewrite lookup_insert|rewrite lookup_insert_ne by (intros X; discriminate X)]; done. }
    assert (forall x, blen (le 4 x) =? 4 = true) as -> by done. cbn [rbind]. rewrite unle_le4.
    + rewrite !copy_whole; try done; intros X; rewrite X in *; done.
    + replace (N.land (ti_flags i) stored_flags_mask) with (N.land (N.land (ti_flags i) stored_flags_mask) (N.ones 32)) by (rewrite <- N.land_assoc; done). rewrite N.land_ones. by apply N.mod_lt.
  - intros u. unfold fetch_user. rewrite Ht'. by rewrite !Ho by (intros X; vm_compute in X; discriminate X).
Qed.

(* ---- cases ---- *)
Definition obj26 (uid v : bytes) : object := Obj 0 0 CKO_DATA [Attr CKA_CLASS KNum (le64 0); Attr CKA_UNIQUE_ID KString uid; Attr CKA_VALUE KBytes v; Attr CKA_PRIVATE KBool [1]].
Lemma proper26 uid v : utf8_valid uid = true -> proper (obj26 uid v).
Proof.
  intros Hu. split.
  - intros a [<-|[<-|[<-|[<-|[]]]]]; (eexists; split; [vm_compute; reflexivity|]); cbn [a_kind a_val]; (split; [by left|]); eauto.
  - intros a b [<-|[<-|[<-|[<-|[]]]]] [<-|[<-|[<-|[<-|[]]]]] H; try done; vm_compute in H; discriminate H.
  - exists uid. assert (get_attr (obj26 uid v) CKA_UNIQUE_ID = Some (Attr CKA_UNIQUE_ID KString uid)) as X by done. unfold get_string, get_as. rewrite X. unfold attr_to_string. cbn [a_kind a_val rbind].
    rewrite Hu. done.
Qed.
(* One object is stored, another after it; the process dies anywhere while the first is rewritten. *)
Definition hist26 : list dbcall := [DReset; DStore (obj26 [1] [5; 6]); DStore (obj26 [2] [7]); DUser 1 (AuthInfo false (Some [3]) 10 2)].
Example C26_case : Forall proper_call hist26 /\ proper (obj26 [1] [8]) /\ get_string (obj26 [1] [8]) CKA_UNIQUE_ID = Ok [1] /\ Forall (spares [1]) [DRemove [2]; DStore (obj26 [2] [9])] /\
  exists l, stmts_of (db_run db_new hist26) (DStore (obj26 [1] [8])) = Ok l /\ length l = 7%nat.
Proof.
  split_and!.
  - repeat (apply List.Forall_cons; [first [by apply proper26|done]|]). done.
  - by apply proper26.
  - done.
  - repeat (apply List.Forall_cons; [vm_compute; intros X; discriminate X|]). done.
  - eexists. split; vm_compute; reflexivity.
Qed.
Definition value27 (k : nat) : option bytes := match fetch_by_uid (died (db_run db_new hist26) (DStore (obj26 [1] [8])) k) [1] [] with Ok o => option_map a_val (get_attr o CKA_VALUE) | Err _ => None end.
Example C27_case : map value27 (seq 0 9) = repeat (Some [5; 6]) 7 ++ repeat (Some [8]) 2.
Proof. vm_compute. reflexivity. Qed.
(* A number above 32 bits cannot be represented and is refused. *)
Example C26_case_refused : store_obj_stmts (db_run db_new [DReset]) (Obj 0 0 CKO_DATA [Attr CKA_UNIQUE_ID KString [1]; Attr CKA_VALUE_LEN KNum (le64 (2 ^ 32))]) = Err CKR_GENERAL_ERROR.
Proof. vm_compute. reflexivity. Qed.

(* C_InitToken is not one write: the process may die after the tables are emptied and before there is an SO again (the record is neither
   the one before nor the one after, and the token can never be initialised again), or when the SO has the default empty PIN. *)
Definition dies_at (k : nat) : list call := used ++ [Disturb 0 (repeat None k ++ repeat (Some IoDevice) 30); InitToken 0 (Some so_pin) None; Crash; on].
Theorem C27_init_token_refuted : from_scratch toy toy_be toy_env (toy_end used) /\ toy_rv (toy_end used) (InitToken 0 (Some so_pin) None) = CKR_OK /\
  is_ok (record_of toy_be (toy_end used) 0 CKU_SO) = true /\
  record_of toy_be (toy_end (dies_at 2)) 0 CKU_SO = Err CKR_USER_PIN_NOT_INITIALIZED /\ toy_rv (toy_end (dies_at 2)) (InitToken 0 (Some so_pin) None) = CKR_SLOT_ID_INVALID /\
  toy_rv (toy_end used) (InitToken 0 (Some []) None) = CKR_PIN_INCORRECT /\ toy_rv (toy_end (dies_at 3)) (InitToken 0 (Some []) None) = CKR_OK.
Proof. split; [by exists used|]. split_and!; vm_compute; reflexivity. Qed.
