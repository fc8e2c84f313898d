(* What Token::search_objects finds. *)
From Verif Require Import Base Monad Hoare Attr Obj Factory Tables Create Sqlite Storage Token
  ObjSpec PlainSpec SearchSpec Rows ObjOk ObjNew Triple TokInv TokStep TokWp PlainFacts.

(* ---- one template entry ---- *)
Lemma from_sql_kind t v a : from_sql t v = Ok a -> search_by_id t = Some (a_kind a).
Proof.
  unfold from_sql. destruct (search_by_id t) as [k|]; [|done]. destruct k; destruct v; try done; try (by intros [= <-]).
  - destruct (val_to_ulong z); cbn [rbind]; [|done]. by intros [= <-].
  - destruct (utf8_valid b); [|done]. by intros [= <-].
  - destruct (_ =? 0); [|done]. by intros [= <-].
  - destruct b as [|x b]; [by intros [= <-]|]. destruct (string_to_ck_date _); cbn [rbind]; [|done]. by intros [= <-].
Qed.
Lemma ck_sql c p : ck_to_sql c = Ok p -> exists x, from_ck_attr c = Ok x /\ to_sql x = Ok (Some (snd p)) /\ fst p = ca_type c.
Proof.
  unfold ck_to_sql, from_ck_attr. destruct (u32_try (ca_type c)); cbn [rbind]; [|done]. destruct (search_by_id (ca_type c)) as [[]|]; try done.
  - destruct (ck_to_bool c) as [b|]; cbn [rbind]; [|done]. intros [= <-]. exists (from_bool (ca_type c) b). split_and!; try done. by destruct b.
  - unfold ck_to_ulong. destruct (ca_len c =? 8) eqn:Hl; [|done]. destruct (ca_ptr c) as [b|] eqn:Hp; [|done]. cbn [rbind].
    destruct (num_to_val (unle b)) as [v|] eqn:Hv; cbn [rbind]; [|done]. intros [= <-]. exists (from_ulong (ca_type c) (unle b)). split_and!; try done.
    unfold to_sql. cbn [from_ulong a_kind]. change (Attr (ca_type c) KNum (le64 (unle b))) with (from_ulong (ca_type c) (unle b)).
    rewrite ulong_from_ulong. cbn [rbind]. assert (unle b < 2 ^ 64) as Hlt.
    { revert Hv. unfold num_to_val. destruct (N.eqb_spec (unle b) CK_UNAVAILABLE_INFORMATION) as [->|]; [done|]. unfold u32_try. destruct (N.ltb_spec (unle b) (2 ^ 32)); [|done]. lia. }
    rewrite N.mod_small by done. by rewrite Hv.
  - destruct (ck_to_string c) as [s|] eqn:Hs; cbn [rbind]; [|done]. intros [= <-]. exists (from_string (ca_type c) s). split_and!; try done.
    unfold to_sql, attr_to_string. cbn [from_string a_kind a_val snd]. assert (utf8_valid s = true) as ->; [|done]. revert Hs. unfold ck_to_string. destruct (_ =? 0); [by intros [= <-]|].
    destruct (ca_ptr c) as [b|]; [|done]. destruct (utf8_valid b) eqn:Hu; [|done]. by intros [= <-].
  - intros [= <-]. eexists. split_and!; try done.
  - intros H. exists (from_ulong_bytevec (ca_type c) (ck_to_buf c)). split; [done|]. revert H. unfold to_sql, ck_to_buf, ca_len. cbn [from_ulong_bytevec a_kind a_val].
    destruct (ca_ptr c) as [b|].
    + destruct (N.eqb_spec (blen b) 0) as [Hb|]; [|destruct (blen b mod 8 =? 0); [by intros [= <-]|done]].
      destruct b; [|unfold blen in Hb; cbn in Hb; lia]. by intros [= <-].
    + destruct (ca_nulllen c =? 0); [by intros [= <-]|done].
  - destruct (ck_to_date c) as [d|]; cbn [rbind]; [|done]. destruct (to_date_string (a_val (from_date (ca_type c) d))) as [s|] eqn:Hs; cbn [rbind]; [|done].
    intros [= <-]. exists (from_date (ca_type c) d). split_and!; try done. unfold to_sql. cbn [from_date a_kind]. by rewrite Hs.
Qed.
Lemma ck_norm c x : from_ck_attr c = Ok x -> norm x = x.
Proof. intros H. destruct (from_ck_kind c x H) as [H1 H2]. by apply norm_id. Qed.
Lemma entry_match m c p : rows_ok m -> plain_entry c -> ck_to_sql c = Ok p ->
  (row_match (fst p) (snd p) m = true <-> exists a, row_attr m (ca_type c) = Some a /\ a_val a = ck_to_buf c).
Proof.
  intros (_ & R2 & _ & R4 & R5) Hp Hc. destruct (ck_sql c p Hc) as (x & X1 & X2 & ->). pose proof (Hp x X1) as Hx. destruct (from_ck_wf c x X1) as [Xw Xt].
  destruct (from_ck_kind c x X1) as [Xk _]. unfold row_match. rewrite bool_decide_eq_true. unfold row_attr. split.
  - intros ->. pose proof (sql_round x _ Xw X2) as Hr. rewrite Xt, (ck_norm c x X1) in Hr. rewrite Hr. by exists x.
  - destruct (m !! ca_type c) as [v|] eqn:Hm.
    + intros (a & H1 & H2). f_equal. destruct (from_sql (ca_type c) v) as [a'|] eqn:Hf; [|done]. cbn in H1. injection H1 as ->.
      pose proof (R4 _ _ _ Hm Hf) as Ha. pose proof (from_sql_kind _ _ _ Hf) as Hk. pose proof (from_sql_type _ _ _ Hf) as Hty.
      assert (a = x) as ->; [|congruence]. destruct a as [t1 k1 v1], x as [t2 k2 v2]. cbn in *. rewrite Xt in Xk. f_equal; congruence.
    + destruct (N.eqb_spec (ca_type c) CKA_CLASS) as [He|]; [|by intros (? & ? & _)]. rewrite He in Hm. rewrite Hm in R5. by destruct R5.
Qed.
Lemma params_match m tm ps : rows_ok m -> Forall plain_entry tm -> ck_params tm = Ok ps ->
  (forallb (fun q => row_match (fst q) (snd q) m) ps = true <-> forall c, In c tm -> exists a, row_attr m (ca_type c) = Some a /\ a_val a = ck_to_buf c).
Proof.
  intros Hm. revert ps. induction tm as [|c tm IH]; intros ps Hp; cbn [ck_params]; [by intros [= <-]|]. inversion Hp as [|? ? P1 P2]; subst.
  destruct (ck_to_sql c) as [p|] eqn:Hc; cbn [rbind]; [|done]. destruct (ck_params tm) as [ps'|] eqn:Hps; cbn [rbind]; [|done]. intros [= <-].
  cbn [forallb]. rewrite andb_true_iff, (IH _ P2 eq_refl), (entry_match m c p Hm P1 Hc). split.
  - intros [H1 H2] c' [<-|Hin]; auto.
  - intros H. split; [apply H; by left|]. intros c' Hin. apply H. by right.
Qed.
Lemma private_plain : plain_entry (ca CKA_PRIVATE [0]).
Proof. intros x [= <-]. reflexivity. Qed.

(* ---- the objects read from the rows ---- *)
Lemma rows_objects l os : rows_to_objects l = Ok os -> Forall2 (fun x o => rows_to_object x = Ok o) l os.
Proof.
  revert os. induction l as [|x l IH]; intros os; cbn [rows_to_objects]; [intros [= <-]; constructor|].
  destruct (rows_to_object x) as [o|] eqn:Hx; cbn [rbind]; [|done]. destruct (match l with [] => false | _ => _ end); [done|].
  destruct (rows_to_objects l) as [os'|]; cbn [rbind]; [|done]. intros [= <-]. constructor; auto.
Qed.
Lemma row_object m o : rows_to_object (map_to_list m) = Ok o -> (forall ty, get_attr o ty = row_attr m ty) /\ class_ok o.
Proof.
  intros H. destruct (rows_get m (fun _ => true) o) as (H1 & _ & H3 & _); [by rewrite filter_true|]. split; [|done]. intros ty. by apply H1.
Qed.
Lemma row_uid m o uid : rows_ok m -> rows_to_object (map_to_list m) = Ok o -> m !! CKA_UNIQUE_ID = Some (SText uid) -> get_string o CKA_UNIQUE_ID = Ok uid.
Proof.
  intros (_ & R2 & _) Ho Hu. destruct (row_object _ _ Ho) as [Ha _]. unfold get_string, get_as. rewrite Ha. unfold row_attr. rewrite Hu.
  pose proof (R2 _ _ Hu) as Hok. unfold from_sql in *. change (search_by_id CKA_UNIQUE_ID) with (Some KString) in *. cbn [opt] in *.
  destruct (utf8_valid uid) eqn:Hv; [|done]. cbn [opt]. unfold attr_to_string. cbn [from_string a_kind a_val]. by rewrite Hv.
Qed.

Section search.
Context (P : params) (Hfs : p_fs P = all_factories).

(* ---- handles ---- *)
Definition asked (tm : list ckattr) (o : object) : bool := negb (is_sensitive o && negb (is_ok (check_sensitive (p_fs P) o tm))).
Definition keep (tm : list ckattr) (o : object) : bool :=
  asked tm o && match get_string o CKA_UNIQUE_ID with Ok u => negb (internal_uid u) | Err _ => false end.
Definition grown (t t' : token) : Prop := exists hs, t' = set_handles hs t /\ (forall h u, h_map (t_handles t) !! h = Some u -> h_map hs !! h = Some u).
Global Instance grown_pre : PreOrder grown.
Proof.
  split.
  - intros t. exists (t_handles t). split; [by destruct t|done].
  - intros t t1 t2 (h1 & -> & H1) (h2 & -> & H2). exists h2. split; [done|]. intros h u H. apply H2, H1, H.
Qed.
Lemma grown_map t t' h u : grown t t' -> h_map (t_handles t) !! h = Some u -> h_map (t_handles t') !! h = Some u.
Proof. intros (hs & -> & H) Hm. cbn. auto. Qed.
Definition handled (t : token) (o : object) (h : N) : Prop := exists u, get_string o CKA_UNIQUE_ID = Ok u /\ h_map (t_handles t) !! h = Some u.
Lemma handled_grown t t' o h : grown t t' -> handled t o h -> handled t' o h.
Proof. intros Hg (u & H1 & H2). exists u. split; [done|]. by eapply grown_map. Qed.
Lemma wp_search_handles tm l t (Q : token -> result (list N) -> Prop) : tok_ok t ->
  (forall t' hs, tok_ok t' -> grown t t' -> Forall2 (handled t') (List.filter (keep tm) l) hs -> Q t' (Ok hs)) ->
  (forall t' e, Q t' (Err e)) -> wp (search_handles P tm l) t Q.
Proof.
  revert t Q. induction l as [|o l IH]; intros t Q Ht H1 H2; cbn [search_handles List.filter].
  - apply wp_ret, H1; [done|reflexivity|constructor].
  - cbn [List.filter] in H1. assert (keep tm o = negb (is_sensitive o && negb (is_ok (check_sensitive (p_fs P) o tm))) && match get_string o CKA_UNIQUE_ID with Ok u => negb (internal_uid u) | Err _ => false end) as Hk by reflexivity.
    rewrite Hk in H1. clear Hk. destruct (is_sensitive o && _); cbn [negb andb] in H1; [by apply IH|].
    destruct (get_string o CKA_UNIQUE_ID) as [u|] eqn:Hu; [|by apply IH]. destruct (internal_uid u); [by apply IH|]. cbn [negb] in H1.
    apply wp_bind, wp_gets. destruct (uid_handle (t_handles t) u) as [h|] eqn:Hh.
    + apply wp_bind, wp_ret, wp_bind, IH; [done| |auto]. intros t' hs Ht' Hg Hf. apply wp_ret, H1; [done|done|]. constructor; [|done].
      exists u. split; [done|]. eapply grown_map; [done|]. by apply uid_handle_some.
    + apply wp_bind. change (let! h := h_fresh in h_insert h u;;; ret h) with (new_handle u). apply wp_new_handle; [|intros; apply H2]. intros _.
      apply wp_bind, IH; [by apply tok_hadd| |auto]. intros t' hs Ht' Hg Hf.
      assert (grown t (add_handle u t)) as Hg0.
      { eexists. split; [reflexivity|]. intros h v Hv. cbn. rewrite lookup_insert_ne; [done|]. intros <-. apply (tk_keys _ Ht) in Hv. lia. }
      apply wp_ret, H1; [done|by etransitivity|]. constructor; [|done]. exists u. split; [done|]. eapply grown_map; [done|]. cbn. apply lookup_insert.
Qed.

(* ---- which objects may be asked for ---- *)
Lemma check_tab tab tmpl : is_ok (check_sensitive_tab tab tmpl) = true <->
  forall c, In c tmpl -> exists oa, find_oa tab (ca_type c) = Some oa /\ oa_is oa OA_Sensitive = false.
Proof.
  induction tmpl as [|c tmpl IH]; cbn [check_sensitive_tab]; [done|]. destruct (find_oa tab (ca_type c)) as [oa|] eqn:Hf; cycle 1.
  { split; [done|]. intros H. destruct (H c) as (oa & ? & _); [by left|congruence]. }
  destruct (oa_is oa OA_Sensitive) eqn:Hs; cycle 1.
  - rewrite IH. split; [|intros H c' Hc; apply H; by right]. intros H c' [<-|Hc]; eauto.
  - split; [done|]. intros H. destruct (H c) as (oa' & ? & ?); [by left|congruence].
Qed.
Lemma asked_ask t h o tmpl : class_ok o -> (forall ty, get_attr o ty = attr_of t h ty) -> asked tmpl o = true <-> may_ask P t h tmpl.
Proof.
  intros Hc Ha. destruct (shows_class P t h o Hc (fun ty _ => Ha ty)) as (S1 & S2 & _). unfold asked, may_ask.
  assert (sensitive_key t h = is_sensitive o) as ->.
  { unfold sensitive_key. rewrite S1. unfold is_sensitive, secret_class. set (s := (o_class o =? CKO_PRIVATE_KEY) || _ || _). destruct s; [|done]. cbn [andb].
    unfold bool_of, bool_attr. rewrite <- Ha. destruct (get_attr o CKA_SENSITIVE) as [x|]; [destruct (attr_to_bool x) as [[]|]|]; done. }
  destruct (is_sensitive o); cbn [andb negb]; [|by split]. rewrite negb_involutive, S2. unfold check_sensitive.
  destruct (get_object_factory (p_fs P) o) as [f|]; cbn [rbind opt].
  - rewrite check_tab. split; [intros H _; by exists f|]. intros H. destruct (H eq_refl) as (f' & [= <-] & H'). exact H'.
  - split; [done|]. intros H. by destruct (H eq_refl) as (f' & ? & _).
Qed.
Lemma private_tables : forallb (fun p : (N * N) * factory => negb (secret_class (fst (fst p))) ||
  match find_oa (f_attrs (snd p)) CKA_PRIVATE with Some oa => negb (oa_is oa OA_Sensitive) | None => false end) all_factories = true.
Proof. by vm_compute. Qed.
Lemma asked_private tmpl o : class_ok o -> asked (tmpl ++ [ca CKA_PRIVATE [0]]) o = asked tmpl o.
Proof.
  intros Hc. unfold asked. destruct (is_sensitive o) eqn:Hs; [|done]. cbn [andb]. rewrite !negb_involutive. unfold check_sensitive.
  destruct (get_object_factory (p_fs P) o) as [f|] eqn:Hf; cbn [rbind]; [|done].
  assert (secret_class (o_class o) = true) as Hsec. { unfold is_sensitive in Hs. by destruct (secret_class (o_class o)). }
  assert (exists oa, find_oa (f_attrs f) CKA_PRIVATE = Some oa /\ oa_is oa OA_Sensitive = false) as (oa & O1 & O2).
  { unfold get_object_factory in Hf. unfold class_ok in Hc. rewrite Hc in Hf. cbn [rbind] in Hf.
    match type of Hf with rbind ?x _ = _ => destruct x as [ty|]; [|done] end. cbn [rbind] in Hf. rewrite Hfs in Hf. apply get_factory_in in Hf.
    pose proof (proj1 (forallb_forall _ _) private_tables _ Hf) as Hx. cbn [fst snd] in Hx. rewrite Hsec in Hx. cbn [negb orb] in Hx.
    destruct (find_oa (f_attrs f) CKA_PRIVATE) as [oa|]; [|done]. exists oa. split; [done|]. by destruct (oa_is oa OA_Sensitive). }
  apply eq_iff_eq_true. rewrite !check_tab. split.
  - intros H c Hin. apply H, in_app_iff. by left.
  - intros H c Hin. apply in_app_iff in Hin as [Hin|[<-|[]]]; [by apply H|]. exists oa. done.
Qed.

(* ---- stored objects ---- *)
Definition tmpl_for (t : token) (tmpl : list ckattr) : list ckattr := if logged_in t then tmpl else tmpl ++ [ca CKA_PRIVATE [0]].
Lemma private_row m : rows_ok m -> (exists a, row_attr m CKA_PRIVATE = Some a /\ a_val a = [0]) <->
  match row_attr m CKA_PRIVATE with Some a => opt (attr_to_bool a) | None => None end = Some false.
Proof.
  intros (_ & R2 & _). unfold row_attr. destruct (m !! CKA_PRIVATE) as [v|] eqn:Hm; cycle 1.
  { split; [by intros (? & ? & _)|done]. }
  pose proof (R2 _ _ Hm) as Hok. destruct (from_sql CKA_PRIVATE v) as [a|] eqn:Hf; [|done]. cbn [opt].
  assert (exists b, a = from_bool CKA_PRIVATE b) as [b ->].
  { unfold from_sql in Hf. change (search_by_id CKA_PRIVATE) with (Some KBool) in Hf. cbn iota in Hf. destruct v; try done. injection Hf as <-. eauto. }
  rewrite bool_from. cbn [opt]. destruct b; split; try done.
  - intros (x & [= <-] & Hx). discriminate Hx.
  - intros _. eexists. split; [reflexivity|done].
Qed.
Lemma row_found t tmpl h uid m o ps : rows_ok m -> Forall plain_entry tmpl -> t_sobjs t !! h = None -> h_map (t_handles t) !! h = Some uid ->
  rows_of (t_db t) uid = Some m -> m !! CKA_UNIQUE_ID = Some (SText uid) -> rows_to_object (map_to_list m) = Ok o -> ck_params (tmpl_for t tmpl) = Ok ps ->
  (to_find P t tmpl h <-> keep (tmpl_for t tmpl) o = true /\ forallb (fun q => row_match (fst q) (snd q) m) ps = true).
Proof.
  intros Hm Hp Hs Hh Hr Hu Ho Hps. destruct (row_object _ _ Ho) as [Ha Hc].
  assert (forall ty, attr_of t h ty = row_attr m ty) as Hat by (intros ty; unfold attr_of; by rewrite Hs, Hh, Hr).
  assert (object_id t h = Some uid) as Hid by (unfold object_id; by rewrite Hs, Hh, Hr).
  assert (is_session_object t h = false) as Hno by (unfold is_session_object; by rewrite Hs).
  assert (asked (tmpl_for t tmpl) o = asked tmpl o) as Hask by (unfold tmpl_for; destruct (logged_in t); [done|by apply asked_private]).
  assert (Forall plain_entry (tmpl_for t tmpl)) as Hp'.
  { unfold tmpl_for. destruct (logged_in t); [done|]. apply List.Forall_app. split; [done|]. constructor; [apply private_plain|constructor]. }
  rewrite (params_match m _ ps Hm Hp' Hps). unfold keep. rewrite (row_uid m o uid Hm Ho Hu), Hask, andb_true_iff, negb_true_iff.
  rewrite (asked_ask t h o tmpl Hc) by (intros; by rewrite Ha, Hat). unfold to_find, visible, matches. rewrite Hid, Hno.
  assert (bool_of t h CKA_PRIVATE = Some false <-> exists a, row_attr m CKA_PRIVATE = Some a /\ a_val a = [0]) as Hpriv.
  { rewrite private_row by done. unfold bool_of. by rewrite Hat. }
  assert ((forall c, In c tmpl -> exists a, attr_of t h (ca_type c) = Some a /\ a_val a = ck_to_buf c) /\
    (t_logged t = CKU_USER \/ t_logged t = CKU_SO \/ bool_of t h CKA_PRIVATE = Some false) <->
    forall c, In c (tmpl_for t tmpl) -> exists a, row_attr m (ca_type c) = Some a /\ a_val a = ck_to_buf c) as Hmt.
  { unfold tmpl_for, logged_in. destruct (N.eqb_spec (t_logged t) CKU_SO) as [Hl|Hl]; cbn [orb].
    { split; [intros [H _] c Hin; rewrite <- Hat; auto|]. intros H. split; [intros c Hin; rewrite Hat; auto|auto]. }
    destruct (N.eqb_spec (t_logged t) CKU_USER) as [Hl'|Hl'].
    { split; [intros [H _] c Hin; rewrite <- Hat; auto|]. intros H. split; [intros c Hin; rewrite Hat; auto|auto]. }
    split.
    - intros [H1 [H2|[H2|H2]]]; try done. intros c Hin. apply in_app_iff in Hin as [Hin|[<-|[]]]; [rewrite <- Hat; auto|]. by apply Hpriv.
    - intros H. split; [intros c Hin; rewrite Hat; apply H, in_app_iff; by left|]. right. right. apply Hpriv. apply (H (ca CKA_PRIVATE [0])), in_app_iff. right. by left. }
  rewrite <- Hmt. split.
  - intros (_ & [[=]|[H1 H2]] & H3 & H4). split_and!; try done. by apply H2.
  - intros [[H1 H2] [H3 H4]]. split_and!; try done. right. split; [done|]. by intros u [= <-].
Qed.

(* ---- session objects ---- *)
Lemma match_entry o c : obj_pre o -> (forall a, In a (o_attrs o) -> a_type a = CKA_CLASS -> get_attr o CKA_CLASS = Some a) ->
  existsb (fun a => match_ck_attr a c) (o_attrs o) = true <-> exists a, get_attr o (ca_type c) = Some a /\ a_val a = ck_to_buf c.
Proof.
  intros Hp H1. rewrite existsb_exists. unfold match_ck_attr. split.
  - intros (a & Hin & Hm). apply andb_prop in Hm as [Hm1 Hm2]. apply N.eqb_eq in Hm1. apply bytes_eqb_eq in Hm2. exists a. split; [|done].
    destruct (N.eq_dec (a_type a) CKA_CLASS) as [He|He].
    + rewrite <- Hm1, He. by apply H1.
    + rewrite <- Hm1. apply nodup_entry; try done. apply Hp.
  - intros (a & Hg & Hv). exists a. pose proof (get_type _ _ _ Hg) as Ht. split; [by eapply find_in|]. rewrite Ht, N.eqb_refl. cbn. rewrite Hv. unfold bytes_eqb. by apply bool_decide_eq_true_2.
Qed.
Lemma session_found t tmpl h o : tok_ok t -> one_class t -> t_sobjs t !! h = Some o ->
  to_find P t tmpl h <-> asked tmpl o && match_template o tmpl = true.
Proof.
  intros Ht H1 Hs. destruct (tk_sobj _ Ht _ _ Hs) as [[Hp _] _ _ (u & Hu & _)]. assert (forall ty, get_attr o ty = attr_of t h ty) as Ha by (intros; unfold attr_of; by rewrite Hs).
  rewrite andb_true_iff, (asked_ask t h o tmpl (pre_class _ Hp) Ha). unfold to_find, visible, matches, match_template. rewrite forallb_forall.
  assert (is_session_object t h = true) as -> by (unfold is_session_object; by rewrite Hs).
  assert (object_id t h = Some u) as -> by (unfold object_id; by rewrite Hs, Hu).
  split.
  - intros (_ & _ & H2 & H3). split; [done|]. intros c Hc. apply match_entry; [done|exact (fun a => H1 h o a Hs)|]. rewrite Ha. auto.
  - intros [H2 H3]. split_and!; try done; [by left|]. intros c Hc. rewrite <- Ha. apply match_entry; [done|exact (fun a => H1 h o a Hs)|]. by apply H3.
Qed.

(* ---- the whole search ---- *)
Definition okeep (tm : list ckattr) (p : N * gmap N sqlval) : bool := match rows_to_object (map_to_list (snd p)) with Ok o => keep tm o | Err _ => false end.
Lemma zip_keep tm (L : list (N * gmap N sqlval)) os st (R : object -> N -> Prop) : Forall2 (fun x o => rows_to_object x = Ok o) (map (fun p => map_to_list (snd p)) L) os ->
  Forall2 R (List.filter (keep tm) os) st -> Forall2 (fun p h => exists o, rows_to_object (map_to_list (snd p)) = Ok o /\ R o h) (List.filter (okeep tm) L) st.
Proof.
  revert os st. induction L as [|p L IH]; intros os st Ho Hs; cbn [map] in Ho; inversion Ho as [|x o ? os' H1 H2]; subst; cbn [List.filter] in *.
  - inversion Hs. constructor.
  - assert (okeep tm p = keep tm o) as -> by (unfold okeep; by rewrite H1). destruct (keep tm o).
    + inversion Hs as [|? h ? st' R1 R2]; subst. constructor; eauto.
    + eauto.
Qed.
Lemma forall2_nodup {A} (f : A -> N) (R : A -> N -> Prop) l hs : NoDup (map f l) -> Forall2 R l hs -> (forall a b h, In a l -> In b l -> R a h -> R b h -> f a = f b) -> NoDup hs.
Proof.
  intros Hn H. revert Hn. induction H as [|a h l hs Hr H IH]; cbn [map]; intros Hn Hi; [constructor|]. apply list.NoDup_cons in Hn as [Hn1 Hn2]. constructor.
  - intros Hin. apply elem_of_list_In in Hin. assert (exists b, In b l /\ R b h) as (b & B1 & B2).
    { clear -H Hin. induction H as [|b h' l hs Hb H IH]; [done|]. destruct Hin as [->|Hin]; [exists b; split; [by left|done]|]. destruct (IH Hin) as (c & C1 & C2). exists c. split; [by right|done]. }
    apply Hn1. apply elem_of_list_In. rewrite (Hi a b h (or_introl eq_refl) (or_intror B1) Hr B2). by apply in_map.
  - apply IH; [done|]. intros x y k Hx Hy. apply Hi; by right.
Qed.
Lemma forall2_left {A B'} (R : A -> B' -> Prop) l l' a : Forall2 R l l' -> In a l -> exists b, In b l' /\ R a b.
Proof. intros H. induction H as [|x y l l' Hr H IH]; [done|]. intros [->|Hin]; [exists y; split; [by left|done]|]. destruct (IH Hin) as (b & ? & ?). exists b. split; [by right|done]. Qed.
Lemma forall2_right {A B'} (R : A -> B' -> Prop) l l' b : Forall2 R l l' -> In b l' -> exists a, In a l /\ R a b.
Proof. intros H. induction H as [|x y l l' Hr H IH]; [done|]. intros [->|Hin]; [exists x; split; [by left|done]|]. destruct (IH Hin) as (a & ? & ?). exists a. split; [by right|done]. Qed.

Lemma rows_readable m : rows_ok m -> exists o, rows_to_object (map_to_list m) = Ok o.
Proof. intros (_ & R2 & _). apply add_rows_ok. intros t v Hin. apply R2. by apply elem_of_map_to_list, elem_of_list_In. Qed.
Lemma search_finds t tmpl ps os st : tok_ok t -> Forall plain_entry tmpl -> ids_apart t -> one_class t -> ck_params (tmpl_for t tmpl) = Ok ps ->
  rows_to_objects (map (fun p => map_to_list (snd p)) (List.filter (fun p => forallb (fun q => row_match (fst q) (snd q) (snd p)) ps) (map_to_list (d_objs (t_db t))))) = Ok os ->
  Forall2 (handled t) (List.filter (keep (tmpl_for t tmpl)) os) st -> finds P t tmpl (search_session_objects P tmpl t ++ st).
Proof.
  intros Ht Hp Hap H1c Hps Hos Hst. apply rows_objects in Hos. set (L := List.filter _ _) in Hos.
  pose proof (zip_keep _ _ _ _ _ Hos Hst) as Hz. set (K := List.filter (okeep (tmpl_for t tmpl)) L) in Hz.
  assert (forall i m, d_objs (t_db t) !! i = Some m -> rows_ok m) as Hrows by apply (tk_db _ Ht).
  assert (uid_unique (t_db t)) as Huu by apply (tk_db _ Ht).
  assert (forall i m, In (i, m) K <-> d_objs (t_db t) !! i = Some m /\ forallb (fun q => row_match (fst q) (snd q) m) ps = true /\ exists o, rows_to_object (map_to_list m) = Ok o /\ keep (tmpl_for t tmpl) o = true) as HK.
  { intros i m. unfold K, L. rewrite !in_filter, <- elem_of_list_In, elem_of_map_to_list. unfold okeep. cbn [snd]. split.
    - intros [[X1 X2] X3]. split_and!; try done. destruct (rows_to_object _) as [o|]; [|done]. by exists o.
    - intros (X1 & X2 & o & X3 & X4). by rewrite X3. }
  (* a handle of a kept record *)
  assert (forall p h o, In p K -> rows_to_object (map_to_list (snd p)) = Ok o -> handled t o h -> exists u, h_map (t_handles t) !! h = Some u /\ snd p !! CKA_UNIQUE_ID = Some (SText u) /\ rows_of (t_db t) u = Some (snd p) /\ t_sobjs t !! h = None) as Hhd.
  { intros [i m] h o Hin Ho (u & U1 & U2). apply HK in Hin as (X1 & _ & _). cbn [snd] in *. destruct (proj1 (Hrows _ _ X1)) as [u' Hu'].
    pose proof (row_uid m o u' (Hrows _ _ X1) Ho Hu') as Hg. assert (u' = u) as -> by congruence. assert (rows_of (t_db t) u = Some m) as Hr by (apply rows_of_some; eauto).
    exists u. split_and!; try done. destruct (t_sobjs t !! h) as [o'|] eqn:Hs; [|done]. destruct (tk_sobj _ Ht _ _ Hs) as [_ _ _ (v & V1 & V2)].
    assert (rows_of (t_db t) v = None) as Hn. { apply (Hap h v); [unfold is_session_object; by rewrite Hs|]. unfold object_id. by rewrite Hs, V1. }
    congruence. }
  assert (forall h, In h st -> exists p o u, In p K /\ rows_to_object (map_to_list (snd p)) = Ok o /\ h_map (t_handles t) !! h = Some u /\ snd p !! CKA_UNIQUE_ID = Some (SText u) /\ rows_of (t_db t) u = Some (snd p) /\ t_sobjs t !! h = None) as Hin_st.
  { intros h Hin. destruct (forall2_right _ _ _ _ Hz Hin) as (p & Hpk & o & Ho & Hh). destruct (Hhd p h o Hpk Ho Hh) as (u & U). by exists p, o, u. }
  assert (forall i m u, d_objs (t_db t) !! i = Some m -> m !! CKA_UNIQUE_ID = Some (SText u) -> In (i, m) K -> exists h, In h st /\ h_map (t_handles t) !! h = Some u /\ t_sobjs t !! h = None) as Hst_in.
  { intros i m u Hi Hu Hin. destruct (forall2_left _ _ _ _ Hz Hin) as (h & Hh & o & Ho & Hhh). destruct (Hhd _ h o Hin Ho Hhh) as (v & V1 & V2 & _ & V4). cbn [snd] in V2. exists h. split_and!; try done. congruence. }
  assert (forall h, In h (search_session_objects P tmpl t) <-> exists o, t_sobjs t !! h = Some o /\ asked tmpl o && match_template o tmpl = true) as Hsess.
  { intros h. unfold search_session_objects. rewrite in_map_iff. split.
    - intros ([h' o] & <- & Hin). apply in_filter in Hin as [X1 X2]. apply elem_of_list_In, elem_of_map_to_list in X1. by exists o.
    - intros (o & X1 & X2). exists (h, o). split; [done|]. apply in_filter. split; [by apply elem_of_list_In, elem_of_map_to_list|done]. }
  split.
  - apply NoDup_app. split_and!.
    + unfold search_session_objects. apply nodup_filter, NoDup_fst_map_to_list.
    + intros h Hh Hh'. apply elem_of_list_In in Hh, Hh'. apply Hsess in Hh as (o & X1 & _). destruct (Hin_st _ Hh') as (p & o' & u & _ & _ & _ & _ & _ & X). congruence.
    + eapply (forall2_nodup fst); [|exact Hz|].
      * apply nodup_filter, nodup_filter, NoDup_fst_map_to_list.
      * intros [i m] [j m'] h Ha Hb (o & O1 & O2) (o' & O1' & O2'). destruct (Hhd _ _ _ Ha O1 O2) as (u & U1 & U2 & _). destruct (Hhd _ _ _ Hb O1' O2') as (v & V1 & V2 & _).
        cbn [fst snd] in *. apply HK in Ha as [Ha _]. apply HK in Hb as [Hb _]. eapply Huu; [exact Ha|exact Hb|exact U2|congruence].
  - intros h. rewrite in_app_iff. destruct (t_sobjs t !! h) as [o|] eqn:Hs.
    + rewrite (session_found t tmpl h o Ht H1c Hs). rewrite Hsess. split.
      * intros [(o' & X1 & X2)|Hin]; [congruence|]. destruct (Hin_st _ Hin) as (p & o' & u & _ & _ & _ & _ & _ & X). congruence.
      * intros X. left. by exists o.
    + split.
      * intros [Hin|Hin]; [apply Hsess in Hin as (o & X & _); congruence|]. destruct (Hin_st _ Hin) as ([i m] & o & u & X1 & X2 & X3 & X4 & X5 & _). cbn [snd] in *.
        apply HK in X1 as (Y1 & Y2 & o' & Y3 & Y4). assert (o' = o) as -> by congruence. eapply row_found; eauto.
      * intros Hf. right. pose proof Hf as (Hid & _). unfold object_id in Hid. rewrite Hs in Hid. destruct (h_map (t_handles t) !! h) as [u|] eqn:Hh; [|done]. destruct (rows_of (t_db t) u) as [m|] eqn:Hr; [|done].
        pose proof Hr as Hr'. apply rows_of_some in Hr' as (i & X1 & X2); [|done]. destruct (rows_readable m (Hrows _ _ X1)) as [o Ho].
        apply (row_found t tmpl h u m o ps) in Hf as [F1 F2]; try done; [|by eapply Hrows].
        destruct (Hst_in i m u X1 X2) as (h' & Y1 & Y2 & _). { apply HK. split_and!; try done. by exists o. }
        assert (h' = h) as -> by (by eapply (tk_inj _ Ht)). done.
  - intros u h Hu Hno Hh Hs Hf. destruct (rows_of (t_db t) u) as [m|] eqn:Hr; [|done].
    pose proof Hr as Hr'. apply rows_of_some in Hr' as (i & X1 & X2); [|done]. destruct (rows_readable m (Hrows _ _ X1)) as [o Ho].
    apply (row_found (with_handle t u h) tmpl h u m o ps) in Hf as [F1 F2]; try done; [|by eapply Hrows|cbn; apply lookup_insert].
    destruct (Hst_in i m u X1 X2) as (h' & Y1 & Y2 & Y3). { apply HK. split_and!; try done. by exists o. }
    apply (Hno h'). unfold object_id. by rewrite Y3, Y2, Hr.
Qed.
Lemma wp_search_objects tmpl t (Q : token -> result (list N) -> Prop) : tok_ok t -> Forall plain_entry tmpl -> ids_apart t -> one_class t ->
  (forall t' hs, tok_ok t' -> (exists i, grown (set_io i t) t') -> finds P t' tmpl hs -> Q t' (Ok hs)) -> (forall t' e, Q t' (Err e)) -> wp (search_objects P tmpl) t Q.
Proof.
  intros Ht Hp Hap H1c H1 H2. unfold search_objects. apply wp_bind, wp_gets, wp_bind, wp_gets. cbv zeta. fold (tmpl_for t tmpl). apply wp_bind. unfold st_search.
  apply wp_bind, wp_dbread; [|intros; apply H2]. intros i. destruct (db_search (t_db t) (tmpl_for t tmpl)) as [os|e] eqn:Hd; [|apply H2].
  unfold db_search in Hd. destruct (ck_params (tmpl_for t tmpl)) as [ps|] eqn:Hps; cbn [rbind] in Hd; [|done]. destruct (negb (d_tables (t_db t))); [done|].
  apply wp_search_handles; [by apply (tok_same t); try done; apply (tk_db _ Ht)| |auto]. intros t' st Ht' Hg Hf. apply wp_ret, H1; [done|by exists i|].
  destruct Hg as (hs & -> & Hg). change (search_session_objects P tmpl t) with (search_session_objects P tmpl (set_handles hs (set_io i t))).
  eapply (search_finds _ tmpl ps os st); try done.
  intros h u Hs. unfold is_session_object, object_id in *. cbn in *. intros Hid. apply (Hap h u); unfold is_session_object, object_id; destruct (t_sobjs t !! h); done.
Qed.
End search.
