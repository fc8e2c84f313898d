(* Running the functions of the token: the exact states after, and the elementary steps they consist of. *)
From Verif Require Import Base Monad Hoare Attr Obj Factory Tables Create Sqlite Storage Token Rows ObjOk ObjNew Triple TokInv TokStep TokenFrame.
From Verif Require Loose.

Lemma set_io_id t : set_io (t_io t) t = t. Proof. by destruct t. Qed.
Lemma wp_io t (Q : token -> result unit -> Prop) : (forall i, Q (set_io i t) (Ok tt)) -> (forall i e, Q (set_io i t) (Err (ioerr_rv e))) -> wp io t Q.
Proof. intros H1 H2. unfold wp, io. destruct (t_io t) as [|[e|] r] eqn:E; cbn [fst snd]; auto. rewrite <- (set_io_id t). apply H1. Qed.
Lemma wp_dbread {A} (f : db -> result A) t (Q : token -> result A -> Prop) :
  (forall i, Q (set_io i t) (f (t_db t))) -> (forall i e, Q (set_io i t) (Err (ioerr_rv e))) -> wp (dbread f) t Q.
Proof. intros H1 H2. unfold dbread. apply wp_bind, wp_io; auto. Qed.
Lemma wp_dbwrite f t (Q : token -> result unit -> Prop) :
  (forall i l, f (t_db t) = Ok l -> Q (set_db (c_disk (exec l (t_db t))) (set_io i t)) (Ok tt)) ->
  (forall i e, Q (set_io i t) (Err e)) -> wp (dbwrite f) t Q.
Proof. intros H1 H2. unfold dbwrite. apply wp_bind, wp_io; [|auto]. intros i. unfold wp. cbn [t_db set_io]. destruct (f (t_db t)) as [l|e]; cbn; auto. Qed.
Lemma wp_draw t (Q : token -> result N -> Prop) : Q (set_fresh (t_fresh t + 1) t) (Ok (t_fresh t)) -> wp draw t Q.
Proof. done. Qed.

(* Reading and drawing random numbers. *)
Definition noise (t t' : token) : Prop := exists i n, t' = set_fresh n (set_io i t).
Global Instance noise_pre : PreOrder noise.
Proof.
  split.
  - intros t. exists (t_io t), (t_fresh t). by destruct t.
  - intros t t1 t2 (i & n & ->) (i' & n' & ->). by exists i', n'.
Qed.
Lemma noise_io i t : noise t (set_io i t).
Proof. exists i, (t_fresh t). by destruct t. Qed.
Lemma noise_fresh n t : noise t (set_fresh n t).
Proof. exists (t_io t), n. by destruct t. Qed.

(* The attributes are decrypted: only the sensitive ones change. *)
Definition same_but (ss : list N) (o o' : object) : Prop :=
  o_handle o' = o_handle o /\ o_session o' = o_session o /\ o_class o' = o_class o /\
  (forall t, ~ In t ss -> get_attr o' t = get_attr o t) /\ (forall t, get_attr o' t = None <-> get_attr o t = None).
Lemma same_but_refl ss o : same_but ss o o.
Proof. split_and!; done. Qed.
Lemma same_but_trans ss a b c : same_but ss a b -> same_but ss b c -> same_but ss a c.
Proof.
  intros (A1 & A2 & A3 & A4 & A5) (B1 & B2 & B3 & B4 & B5). split_and!; try congruence.
  - intros t Ht. rewrite B4, A4; done.
  - intros t. by rewrite B5, A5.
Qed.
Lemma same_but_set ss o t v a o' : In t ss -> t <> CKA_CLASS -> get_attr o t = Some a -> set_attr o (from_bytes t v) = Ok o' -> same_but ss o o'.
Proof.
  intros Ht Hc Hg Hs. destruct (set_attr_frame _ _ _ Hs) as [F1 F2]. split_and!; try done.
  - revert Hs. rewrite set_attr_ok; [intros ?; by simplify_eq|]. cbn. lia.
  - intros x Hx. rewrite (get_set _ _ _ _ Hs). cbn. destruct (N.eqb_spec t x); [by subst|done].
  - intros x. rewrite (get_set _ _ _ _ Hs). cbn. destruct (N.eqb_spec t x) as [->|]; [by rewrite Hg|done].
Qed.
Lemma same_but_id ss o o' : (forall t, In t ss -> ids t = false) -> same_but ss o o' -> same_id o o'.
Proof.
  intros Hs (A1 & A2 & A3 & A4 & A5). unfold same_id. split_and!; try done; apply A4; intros Hin; by specialize (Hs _ Hin).
Qed.
Lemma same_but_bool ss o o' t d : ~ In t ss -> same_but ss o o' -> bool_attr t d o' = bool_attr t d o.
Proof. intros Ht (_ & _ & _ & H & _). unfold bool_attr. by rewrite H. Qed.

(* The update made of a duplicate's attributes. *)
Definition nocls_ck (l : list ckattr) : list N := map ca_type (List.filter (fun c => negb (ca_type c =? CKA_CLASS)) l).
Lemma swap_remove_in l t c : In c (swap_remove l t) -> In c l.
Proof.
  induction l as [|x l IH]; cbn; [done|]. destruct (ca_type x =? t).
  - destruct (rev l) as [|y q] eqn:E; [done|]. intros H. right. rewrite in_rev, E. destruct H as [<-|H]; [by left|]. right. by apply in_rev.
  - intros [<-|H]; auto.
Qed.
Lemma swap_remove_ne l t c : t <> CKA_CLASS -> NoDup (nocls_ck l) -> In c (swap_remove l t) -> ca_type c <> t.
Proof.
  intros Ht. unfold nocls_ck. induction l as [|x l IH]; cbn; [done|]. destruct (N.eqb_spec (ca_type x) t) as [Hx|Hx].
  - assert ((ca_type x =? CKA_CLASS) = false) as -> by lia. cbn. intros Hnd%list.NoDup_cons Hc. destruct Hnd as [Hni _].
    assert (In c l) as Hin. { destruct (rev l) as [|y q] eqn:E; [done|]. rewrite in_rev, E. destruct Hc as [<-|H]; [by left|]. right. by apply in_rev. }
    intros Hct. apply Hni. rewrite Hx, <- Hct. apply elem_of_list_In, in_map, in_filter. split; [done|]. lia.
  - destruct (ca_type x =? CKA_CLASS); cbn; intros Hnd [<-|Hc]; try done; apply IH; try done. by apply list.NoDup_cons in Hnd as [_ ?].
Qed.
Lemma nocls_of_attrs l : nocls_ck (map (fun a => ca (a_type a) (a_val a)) l) = nocls l.
Proof. unfold nocls_ck, nocls. induction l as [|a l IH]; cbn; [done|]. destruct (a_type a =? CKA_CLASS); cbn; by rewrite IH. Qed.
Lemma nodup_entry l a t : NoDup (nocls l) -> t <> CKA_CLASS -> In a l -> a_type a = t -> find_attr l t = Some a.
Proof.
  intros Hnd Ht. unfold nocls in Hnd. induction l as [|x l IH]; cbn in *; [done|]. intros [->|Hin] Ha.
  - by rewrite Ha, N.eqb_refl.
  - destruct (N.eqb_spec (a_type x) CKA_CLASS) as [Hx|Hx]; cbn in Hnd.
    + destruct (N.eqb_spec (a_type x) t); [congruence|]. by apply IH.
    + apply list.NoDup_cons in Hnd as [Hni Hnd]. destruct (N.eqb_spec (a_type x) t) as [Hxt|Hxt]; [|by apply IH].
      exfalso. apply Hni. rewrite Hxt, <- Ha. apply elem_of_list_In, in_map, in_filter. split; [done|]. lia.
Qed.
Lemma apply_same_token tm o : (forall c, In c tm -> ca_type c <> CKA_UNIQUE_ID /\ (ca_type c = CKA_TOKEN -> c = ca CKA_TOKEN [1])) ->
  get_attr o CKA_TOKEN = Some (from_bool CKA_TOKEN true) -> same_id o (fst (apply_template o tm)).
Proof.
  revert o. induction tm as [|c tm IH]; intros o Hc Ho; cbn [apply_template]; [reflexivity|].
  destruct (from_ck_attr c) as [a|] eqn:Ha; [|reflexivity]. cbn [rbind]. destruct (set_attr o a) as [o1|] eqn:Hs; [|reflexivity].
  destruct (from_ck_wf _ _ Ha) as [_ Hty]. destruct (Hc c) as [C1 C2]; [by left|]. destruct (set_attr_frame _ _ _ Hs) as [F1 F2].
  assert (get_attr o1 CKA_TOKEN = Some (from_bool CKA_TOKEN true)) as Ht1.
  { rewrite (get_set _ _ _ _ Hs). destruct (N.eqb_spec (a_type a) CKA_TOKEN) as [E|]; [|done]. rewrite (C2 ltac:(congruence)) in Ha. vm_compute in Ha. by injection Ha as <-. }
  assert (same_id o o1) as Hs1. { unfold same_id. rewrite Ht1, Ho, (get_set _ _ _ _ Hs). destruct (N.eqb_spec (a_type a) CKA_UNIQUE_ID); [congruence|done]. }
  etransitivity; [exact Hs1|]. apply IH; [|done]. intros; apply Hc; by right.
Qed.
Lemma sealed_in ss tmpl tm c : sealed ss tmpl tm -> In c tm -> In c tmpl \/ exists c0, In c0 tmpl /\ ca_type c = ca_type c0 /\ In (ca_type c) ss.
Proof.
  induction 1 as [|x y l l' Hx H IH]; cbn; [done|]. intros [<-|Hin].
  - destruct Hx as [->|[H1 H2]]; [by left; left|]. right. exists x. rewrite H1. auto.
  - destruct (IH Hin) as [?|(c0 & ? & ? & ?)]; [by left; right|]. right. exists c0. auto.
Qed.
Lemma wp_and {S A} (m : M S A) s (Q Q' : S -> result A -> Prop) : wp m s Q -> wp m s Q' -> wp m s (fun s' r => Q s' r /\ Q' s' r).
Proof. done. Qed.

Section wps.
Context (P : params) (Hfs : p_fs P = all_factories) (Hutf : forall n, utf8_valid (p_uuid P n) = true).

Lemma good_sens f t : good_factory f -> In t (f_sensitive f) -> search_by_id t = Some KBytes /\ t <> CKA_CLASS /\ ids t = false.
Proof.
  intros Hf Ht. pose proof (good_sensitive _ _ Hf Ht) as H. split; [done|]. unfold ids.
  destruct (N.eqb_spec t CKA_CLASS) as [->|]; [by vm_compute in H|]. destruct (N.eqb_spec t CKA_UNIQUE_ID) as [->|]; [by vm_compute in H|].
  destruct (N.eqb_spec t CKA_TOKEN) as [->|]; [by vm_compute in H|]. done.
Qed.
Lemma decrypt_ok ss ver key uid l o o' : (forall t, In t ss -> search_by_id t = Some KBytes /\ t <> CKA_CLASS /\ ids t = false) -> (forall t, In t l -> In t ss) ->
  decrypt_attrs P ver key uid l o = Ok o' -> obj_pre o -> obj_pre o' /\ same_but ss o o'.
Proof.
  intros Hss. revert o. induction l as [|t l IH]; intros o Hl; cbn [decrypt_attrs].
  - intros ?. simplify_eq. split; [done|apply same_but_refl].
  - destruct (get_attr o t) as [a|] eqn:Hg; [|apply IH; intros; apply Hl; by right].
    match goal with |- rbind ?x _ = _ -> _ => destruct x as [v|] end; cbn [rbind]; [|done]. destruct (set_attr o (from_bytes t v)) as [o1|] eqn:Hs; cbn [rbind]; [|done].
    intros H Ho. destruct (Hss t) as (S1 & S2 & S3); [apply Hl; by left|]. destruct (IH o1) as [I1 I2]; [intros; apply Hl; by right|done|eapply pre_set; [done|by apply wf_bytes|done]|].
    split; [done|]. eapply same_but_trans; [|done]. eapply same_but_set; try done. apply Hl. by left.
Qed.

(* The types whose rows st_fetch asks for. *)
Definition fetch_types (attrs : list N) : list N :=
  match attrs with [] => [] | _ => foldl add_missing attrs [CKA_CLASS; CKA_KEY_TYPE; CKA_CERTIFICATE_TYPE; CKA_SENSITIVE; CKA_EXTRACTABLE] end.

(* The outcome of fetching from the stored rows. *)
Definition fetched (t : token) (h : N) (attrs : list N) (o : object) : Prop :=
  exists uid o1 f o2, h_map (t_handles t) !! h = Some uid /\ fetch_by_uid (t_db t) uid (fetch_types attrs) = Ok o1 /\
    get_object_factory (p_fs P) o1 = Ok f /\ decrypt_attrs P (t_ver t) (t_key t) uid (f_sensitive f) o1 = Ok o2 /\ o = set_handle o2 h.
Lemma wp_st_fetch h attrs t (Q : token -> result object -> Prop) :
  (forall i o, fetched t h attrs o -> Q (set_io i t) (Ok o)) -> (forall i e, Q (set_io i t) (Err e)) -> wp (st_fetch P h attrs) t Q.
Proof.
  intros H1 H2. assert (forall e, Q t (Err e)) as H3 by (intros e; rewrite <- (set_io_id t); apply H2).
  unfold st_fetch. apply wp_bind. unfold h_get. apply wp_gets. destruct (h_map (t_handles t) !! h) as [uid|] eqn:Hu; [|apply wp_fail, H3]. cbv zeta.
  fold (fetch_types attrs). apply wp_bind, wp_dbread; [|done]. intros i. destruct (fetch_by_uid (t_db t) uid (fetch_types attrs)) as [o1|e] eqn:Hf; [|done].
  apply wp_bind, wp_lift. destruct (get_object_factory _ o1) as [f|] eqn:Hof; [|done]. apply wp_bind, wp_gets, wp_bind, wp_gets. cbn [t_key t_ver set_io].
  apply wp_bind, wp_lift. destruct (decrypt_attrs _ _ _ _ _ _) as [o2|] eqn:Hd; [|done]. apply wp_ret. apply H1. by exists uid, o1, f, o2.
Qed.
Lemma fetched_pre t h attrs o : fetched t h attrs o -> obj_pre o /\ o_handle o = h.
Proof.
  intros (uid & o1 & f & o2 & H1 & H2 & H3 & H4 & ->). split; [|done]. apply pre_handle. pose proof (obj_factory_good P Hfs _ _ H3) as Hf.
  destruct (fetch_pre _ _ _ _ H2) as [Hp _]. by destruct (decrypt_ok (f_sensitive f) _ _ _ _ _ _ (fun t Hin => good_sens f t Hf Hin) (fun t Hin => Hin) H4 Hp).
Qed.
(* What is fetched of a record, but for the encrypted attributes. *)
Lemma fetched_attr t h l o ty k : tok_ok t -> fetched t h l o -> t_sobjs t !! h = None -> selected (fetch_types l) ty = true ->
  search_by_id ty = Some k -> k <> KBytes -> get_attr o ty = attr_of t h ty.
Proof.
  intros Ht (uid & o1 & f & o2 & H1 & H2 & H3 & H4 & ->) Hso Hsel Hk Hne. unfold attr_of. rewrite Hso, H1.
  destruct (fetch_get _ _ _ _ H2) as (i & m & F1 & F2 & F3 & _). assert (rows_of (t_db t) uid = Some m) as ->; [|].
  { apply rows_of_some; [apply (tk_db _ Ht)|eauto]. }
  rewrite <- F3 by done. pose proof (obj_factory_good P Hfs _ _ H3) as Hf. destruct (fetch_pre _ _ _ _ H2) as [Hp _].
  destruct (decrypt_ok (f_sensitive f) _ _ _ _ _ _ (fun t Hin => good_sens f t Hf Hin) (fun t Hin => Hin) H4 Hp) as [_ (_ & _ & _ & D & _)].
  change (get_attr (set_handle o2 h) ty) with (get_attr o2 ty). apply D. intros Hin. destruct (good_sens f ty Hf Hin) as [Hs _]. congruence.
Qed.
Lemma bool_attr_true ty o : bool_attr ty false o = true -> exists a, get_attr o ty = Some a /\ attr_to_bool a = Ok true.
Proof. unfold bool_attr. destruct (get_attr o ty) as [a|]; [|done]. destruct (attr_to_bool a) as [b|] eqn:Hb; [|done]. intros ->. eauto. Qed.
Lemma agree_decrypt ver key uid l o o' : (forall t, In t l -> t <> CKA_CLASS) -> decrypt_attrs P ver key uid l o = Ok o' -> agree o -> agree o'.
Proof.
  revert o. induction l as [|t l IH]; intros o Hl; cbn [decrypt_attrs]; [by intros [= <-]|]. assert (forall x, In x l -> x <> CKA_CLASS) as Hl' by (intros; apply Hl; by right).
  destruct (get_attr o t) as [a|]; [|by apply IH]. match goal with |- rbind ?x _ = _ -> _ => destruct x as [v|] end; cbn [rbind]; [|done].
  destruct (set_attr o (from_bytes t v)) as [o1|] eqn:Hs; cbn [rbind]; [|done]. intros H Ho. eapply IH; [done|exact H|]. eapply agree_set; [exact Hs| |done]. cbn. apply Hl. by left.
Qed.
Lemma fetched_agree t h o : fetched t h [] o -> agree o.
Proof.
  intros (uid & o1 & f & o2 & H1 & H2 & H3 & H4 & ->). change (agree o2). pose proof (obj_factory_good P Hfs _ _ H3) as Hf.
  eapply agree_decrypt; [|exact H4|]; [intros x Hx; by apply (good_sens f x Hf) in Hx as (_ & Hx & _)|]. eapply once_agree, once_fetch; exact H2.
Qed.
Lemma fetched_ok t h o : tok_ok t -> fetched t h [] o -> obj_ok o /\ is_token o = true /\ h_map (t_handles t) !! h = Some (default [] (opt (get_string o CKA_UNIQUE_ID))).
Proof.
  intros Ht (uid & o1 & f & o2 & H1 & H2 & H3 & H4 & ->). pose proof (obj_factory_good P Hfs _ _ H3) as Hf. cbn [fetch_types] in H2.
  destruct (fetch_ok _ _ _ (tk_db _ Ht) H2) as ([[F0 F1] _] & F2 & F3).
  destruct (decrypt_ok (f_sensitive f) _ _ _ _ _ _ (fun t Hin => good_sens _ _ Hf Hin) (fun t Hin => Hin) H4 F0) as [D1 D2].
  assert (same_id o1 o2) as Hs. { eapply same_but_id; [|done]. intros x Hx. by apply (good_sens _ _ Hf). }
  split_and!.
  - apply ok_handle. split; [done|]. exists uid. by rewrite (same_uid _ _ Hs).
  - unfold is_token. change (bool_attr CKA_TOKEN false (set_handle o2 h)) with (is_token o2). by rewrite (same_token _ _ Hs).
  - change (get_string (set_handle o2 h)) with (get_string o2). by rewrite (same_uid _ _ Hs), F2.
Qed.

Section triples.
Context (K : kind -> Prop).
Notation R := (tsteps P K).
Notation hs := (hs tok_ok R).
Lemma hs_tok {A} (m : M token A) (Q : A -> Prop) :
  (forall t, tok_ok t -> wp m t (fun t' r => R t t' /\ match r with Ok a => Q a | Err _ => True end)) -> hs m Q.
Proof. intros H t Ht. destruct (H t Ht) as [H1 H2]. split_and!; try done. by eapply tsteps_ok. Qed.

Lemma R_log t t' : K (KQuiet LLog) -> t_handles t' = t_handles t -> t_sobjs t' = t_sobjs t -> log_fields t t' -> t_dedup t' = t_dedup t ->
  t_filter t' = t_filter t -> R t t'.
Proof. intros Ka H1 H2 H3. intros. eapply tsteps_one; [exact Ka|]. constructor; try done. by rewrite (proj1 H3). Qed.
Lemma R_auth t t' : K (KQuiet LAll) -> t_handles t' = t_handles t -> t_sobjs t' = t_sobjs t -> d_objs (t_db t') = d_objs (t_db t) -> t_dedup t' = t_dedup t ->
  t_filter t' = t_filter t -> R t t'.
Proof. intros Ka. intros. eapply tsteps_one; [exact Ka|]. by constructor. Qed.
Context (Kq : K (KQuiet LCalm)).
Lemma R_quiet t t' : t_handles t' = t_handles t -> t_sobjs t' = t_sobjs t -> t_dedup t' = t_dedup t -> t_filter t' = t_filter t -> calm_fields t t' -> R t t'.
Proof. intros. eapply tsteps_one; [exact Kq|]. constructor; try done. by rewrite (proj1 H3). Qed.
Lemma R_noise t t' : noise t t' -> R t t'.
Proof. intros (i & n & ->). by apply R_quiet. Qed.
Lemma R_io i t : R t (set_io i t).
Proof. by apply R_quiet. Qed.

Lemma hs_io : hs io (fun _ => True).
Proof. apply hs_tok. intros t Ht. apply wp_io; intros; split; try done; apply R_io. Qed.
Lemma hs_draw : hs draw (fun _ => True).
Proof. apply hs_tok. intros t Ht. apply wp_draw. split; [|done]. by apply R_quiet. Qed.
Lemma hs_dbread {A} (f : db -> result A) : hs (dbread f) (fun a => exists t, tok_ok t /\ f (t_db t) = Ok a).
Proof.
  apply hs_tok. intros t Ht. apply wp_dbread; intros; (split; [apply R_io|]); [|done]. destruct (f (t_db t)) eqn:E; [|done]. by exists t.
Qed.
Lemma hs_meta f : K (KQuiet LAll) -> (forall d l, f d = Ok l -> d_objs (c_disk (exec l d)) = d_objs d) -> hs (dbwrite f) (fun _ => True).
Proof. intros Ka Hf. apply hs_tok. intros t Ht. apply wp_dbwrite; intros; (split; [|done]); [|apply R_io]. apply R_auth; try done. cbn. by apply Hf. Qed.
Lemma hs_info i : K (KQuiet LAll) -> hs (dbwrite (fun _ => Ok (store_info_stmts i))) (fun _ => True).
Proof. intros Ka. apply hs_meta; [done|]. intros d l Hl. injection Hl as <-. done. Qed.
Lemma hs_user u i : K (KQuiet LAll) -> hs (dbwrite (fun _ => store_user_stmts u i)) (fun _ => True).
Proof.
  intros Ka. apply hs_meta; [done|]. intros d l. unfold store_user_stmts. destruct (u32_try (ai_cur i)) as [c|]; cbn [rbind]; [|done]. intros Hl. injection Hl as <-.
  destruct (ai_default i), (ai_data i); done.
Qed.
Lemma hs_new_uid : hs (new_uid P) (fun u => utf8_valid u = true).
Proof. unfold new_uid. eapply hs_bind; [apply _|apply hs_draw|]. intros a _. by apply hs_ret; [apply _|]. Qed.
End triples.

Notation is_sealed := (is_sealed P). Notation enciphered := (enciphered P).
(* ---- sealing ---- *)
Lemma wp_encrypt_value u v t (Q : token -> result bytes -> Prop) :
  (forall k e, t_key t = Some k -> p_seal P (t_ver t) k u (t_fresh t) v = Ok e -> Q (set_fresh (t_fresh t + 1) t) (Ok e)) ->
  (forall t' e, noise t t' -> Q t' (Err e)) -> wp (encrypt_value P u v) t Q.
Proof.
  intros H1 H2. unfold encrypt_value. apply wp_bind, wp_gets. destruct (t_key t) as [k|] eqn:Hk; [|apply wp_fail, H2; reflexivity].
  apply wp_bind, wp_gets, wp_bind, wp_draw, wp_lift. destruct (p_seal P (t_ver t) k u (t_fresh t) v) eqn:Hs; [by eapply H1|]. apply H2, noise_fresh.
Qed.
Lemma wp_encrypt_attrs ss uid l o t (Q : token -> result object -> Prop) :
  (forall t, In t ss -> search_by_id t = Some KBytes /\ t <> CKA_CLASS /\ ids t = false) -> (forall t, In t l -> In t ss) -> NoDup l ->
  (forall t' o', noise t t' -> (obj_pre o -> obj_pre o') /\ (agree o -> agree o') -> same_but l o o' ->
    (forall ty a, In ty l -> get_attr o ty = Some a -> exists e, get_attr o' ty = Some (from_bytes ty e) /\ is_sealed t uid (a_val a) e) -> Q t' (Ok o')) ->
  (forall t' e, noise t t' -> Q t' (Err e)) -> wp (encrypt_attrs P uid l o) t Q.
Proof.
  intros Hss. revert o t Q. induction l as [|ty l IH]; intros o t Q Hl Hnd H1 H2; cbn [encrypt_attrs].
  - apply wp_ret. apply H1; [reflexivity|done|apply same_but_refl|done].
  - apply list.NoDup_cons in Hnd as [Hni Hnd]. rewrite elem_of_list_In in Hni. destruct (Hss ty) as (S1 & S2 & S3); [apply Hl; by left|].
    destruct (get_attr o ty) as [a|] eqn:Hg.
    + apply wp_bind, wp_encrypt_value; [|done]. intros k e Hk He. apply wp_bind, wp_lift. destruct (set_attr o (from_bytes ty e)) as [o1|] eqn:Hs; [|apply H2, noise_fresh].
      apply IH; [intros; apply Hl; by right|done| |].
      * intros t' o' Hn Hp (B1 & B2 & B3 & B4 & B5) Hv. apply H1.
        -- etransitivity; [apply noise_fresh|done].
        -- split; intros Ho; apply Hp; [eapply pre_set; [done|by apply wf_bytes|done]|by eapply agree_set].
        -- eapply same_but_trans; [eapply (same_but_set (ty :: l)); try done; by left|]. split_and!; try done. intros x Hx. apply B4. intros ?. apply Hx. by right.
        -- intros x b [<-|Hx] Hb.
           ++ rewrite Hg in Hb. simplify_eq. exists e. rewrite B4 by done. rewrite (get_set _ _ _ _ Hs). cbn. rewrite N.eqb_refl. split; [done|].
              by exists k, (t_fresh t).
           ++ apply Hv; [done|]. rewrite (get_set _ _ _ _ Hs). cbn. destruct (N.eqb_spec ty x); [by subst|done].
      * intros t' e' Hn. apply H2. etransitivity; [apply noise_fresh|done].
    + apply IH; [intros; apply Hl; by right|done| |done]. intros t' o' Hn Hp (B1 & B2 & B3 & B4 & B5) Hv. apply H1; try done.
      * split_and!; try done. intros x Hx. apply B4. intros ?. apply Hx. by right.
      * intros x b [<-|Hx] Hb; [congruence|]. by apply Hv.
Qed.
Lemma find_ck_type l t c : find_ck l t = Some c -> ca_type c = t.
Proof. induction l as [|x l IH]; cbn; [done|]. destruct (N.eqb_spec (ca_type x) t); [|done]. intros ?. by simplify_eq. Qed.
Lemma insert_sealed ss l t v : In t ss -> find_ck l t <> None -> sealed ss l (insert_unique l t v).
Proof.
  intros Ht. induction l as [|x l IH]; cbn; [done|]. destruct (N.eqb_spec (ca_type x) t) as [<-|]; intros H.
  - constructor; [by right|]. apply Forall2_same_length_lookup_2; [done|]. intros i a b Ha Hb. left. congruence.
  - constructor; [by left|]. by apply IH.
Qed.
Lemma sealed_refl ss l : sealed ss l l.
Proof. induction l; constructor; auto. Qed.
Lemma sealed_trans ss a b c : sealed ss a b -> sealed ss b c -> sealed ss a c.
Proof.
  intros H. revert c. induction H as [|x y l l' Hx H IH]; intros c Hc; inversion Hc as [|y' z l1 l2 Hy Hl]; subst; constructor; [|by apply IH].
  destruct Hx as [->|[Hx1 Hx2]]; [done|]. right. destruct Hy as [->|[Hy1 Hy2]]; [done|]. split; [congruence|done].
Qed.
Lemma find_insert l t v ty : find_ck (insert_unique l t v) ty = if t =? ty then Some (ca t v) else find_ck l ty.
Proof.
  induction l as [|c l IH]; cbn [insert_unique find_ck]; [done|]. destruct (N.eqb_spec (ca_type c) t) as [He|He]; cbn [find_ck].
  - cbn [ca_type ca]. destruct (N.eqb_spec t ty); [done|]. destruct (N.eqb_spec (ca_type c) ty); [congruence|done].
  - rewrite IH. destruct (N.eqb_spec (ca_type c) ty) as [<-|]; [|done]. destruct (N.eqb_spec t (ca_type c)); [congruence|done].
Qed.
Lemma wp_encrypt_tmpl ss uid l tm t (Q : token -> result (list ckattr) -> Prop) : (forall t, In t l -> In t ss) -> NoDup l ->
  (forall t' tm', noise t t' -> sealed ss tm tm' -> enciphered t uid l tm tm' -> (forall ty, ~ In ty l -> find_ck tm' ty = find_ck tm ty) -> Q t' (Ok tm')) ->
  (forall t' e, noise t t' -> Q t' (Err e)) -> wp (encrypt_tmpl P uid l tm) t Q.
Proof.
  revert tm t Q. induction l as [|ty l IH]; intros tm t Q Hl Hnd H1 H2; cbn [encrypt_tmpl].
  - apply wp_ret. apply H1; [reflexivity|apply sealed_refl|intros ? ? []|done].
  - apply list.NoDup_cons in Hnd as [Hni Hnd]. rewrite elem_of_list_In in Hni. destruct (find_ck tm ty) as [c|] eqn:Hg.
    + apply wp_bind, wp_encrypt_value; [|done]. intros k e Hk He. apply IH; [intros; apply Hl; by right|done| |].
      * intros t' tm' Hn Hs Hen Hot. apply H1; [etransitivity; [apply noise_fresh|done]| | |].
        -- eapply sealed_trans; [|done]. apply insert_sealed; [apply Hl; by left|congruence].
        -- intros ty' c' [<-|Hin] Hc'.
           ++ rewrite Hc' in Hg. injection Hg as ->. exists e. split; [|exists k, (t_fresh t); done]. by rewrite Hot, find_insert, N.eqb_refl.
           ++ apply Hen; [done|]. rewrite find_insert. destruct (N.eqb_spec ty ty') as [->|]; done.
        -- intros ty' Hn'. rewrite Hot by (intros ?; apply Hn'; by right). rewrite find_insert. destruct (N.eqb_spec ty ty') as [->|]; [|done]. exfalso. apply Hn'. by left.
      * intros t' e' Hn. apply H2. etransitivity; [apply noise_fresh|done].
    + apply IH; try done; [intros; apply Hl; by right|]. intros t' tm' Hn Hs Hen Hot. apply H1; try done.
      * intros ty' c' [<-|Hin] Hc'; [congruence|by apply Hen].
      * intros ty' Hn'. apply Hot. intros ?. apply Hn'. by right.
Qed.

(* ---- handles ---- *)
Definition new_handle (uid : bytes) : M token N := let! h := h_fresh in h_insert h uid;;; ret h.
Definition bump (t : token) : token := set_handles (Handles (h_map (t_handles t)) (h_next (t_handles t) + 1)) t.
Definition add_handle (uid : bytes) (t : token) : token :=
  set_handles (Handles (<[h_next (t_handles t) := uid]> (h_map (t_handles t))) (h_next (t_handles t) + 1)) t.
Lemma wp_h_insert h uid t (Q : token -> result unit -> Prop) :
  (h_map (t_handles t) !! h = None -> uid_handle (t_handles t) uid = None -> Q (set_handles (Handles (<[h := uid]> (h_map (t_handles t))) (h_next (t_handles t))) t) (Ok tt)) ->
  Q t (Err CKR_GENERAL_ERROR) -> wp (h_insert h uid) t Q.
Proof. intros H1 H2. unfold wp, h_insert. destruct (h_map (t_handles t) !! h), (uid_handle (t_handles t) uid); cbn; auto. Qed.
Lemma wp_new_handle uid t (Q : token -> result N -> Prop) :
  (uid_handle (t_handles t) uid = None -> Q (add_handle uid t) (Ok (h_next (t_handles t)))) -> (forall e, Q (bump t) (Err e)) -> wp (new_handle uid) t Q.
Proof.
  intros H1 H2. unfold new_handle. apply wp_bind. change (wp h_fresh t ?Q') with (Q' (bump t) (Ok (h_next (t_handles t)))). cbv beta iota.
  apply wp_bind, wp_h_insert; [|apply H2]. cbn. intros _ Hu. apply wp_ret. by apply H1.
Qed.

Section triples2.
Context (K : kind -> Prop).
Notation R := (tsteps P K).
Notation hs := (hs tok_ok R).
Context (Kq : K (KQuiet LCalm)).
Local Hint Resolve hs_io hs_draw hs_info hs_user hs_new_uid : triple.
Lemma hs_st_fetch h attrs : hs (st_fetch P h attrs) (fun o => obj_pre o /\ (attrs = [] -> obj_ok o /\ is_token o = true)).
Proof.
  apply hs_tok. intros t Ht. apply wp_st_fetch.
  - intros i o Ho. split; [by apply R_io|]. split; [by eapply fetched_pre|]. intros ->. destruct (fetched_ok t h o Ht Ho) as (H1 & H2 & _). done.
  - intros. split; [by apply R_io|done].
Qed.
Context (Kh : K KHandle).
Lemma R_bump t : R t (bump t).
Proof. eapply tsteps_one; [exact Kh|]. constructor. Qed.
Lemma R_add uid t : uid_handle (t_handles t) uid = None -> R t (add_handle uid t).
Proof. intros. eapply tsteps_one; [exact Kh|]. by constructor. Qed.
Lemma hs_new_handle uid : hs (new_handle uid) (fun _ => True).
Proof. apply hs_tok. intros t Ht. apply wp_new_handle; intros; (split; [|done]); [by apply R_add|apply R_bump]. Qed.
Lemma hs_search_handles tm l : hs (search_handles P tm l) (fun _ => True).
Proof.
  induction l as [|o l IH]; cbn [search_handles]; [apply hs_ret; [apply _|done]|]. destruct (_ && _); [done|]. destruct (get_string o _) as [uid|]; [|done].
  destruct (internal_uid uid); [done|]. eapply hs_bind; [apply _|apply (hs_gets _ _ _ (fun _ => True)); done|]. intros [h|] _.
  - eapply hs_bind; [apply _|apply (hs_ret _ _ _ (fun _ => True)); done|]. intros h' _. eapply hs_bind; [apply _|done|]. intros. by apply hs_ret; [apply _|].
  - eapply hs_bind; [apply _|apply (hs_new_handle uid)|]. intros h' _. eapply hs_bind; [apply _|done|]. intros. by apply hs_ret; [apply _|].
Qed.
Lemma hs_st_search tm : hs (st_search P tm) (fun _ => True).
Proof. unfold st_search. eapply hs_bind; [apply _|by apply hs_dbread|]. intros os _. apply hs_search_handles. Qed.
Lemma same_factory o o' : get_attr o' CKA_CLASS = get_attr o CKA_CLASS -> get_attr o' CKA_KEY_TYPE = get_attr o CKA_KEY_TYPE -> get_attr o' CKA_CERTIFICATE_TYPE = get_attr o CKA_CERTIFICATE_TYPE ->
  get_object_factory (p_fs P) o' = get_object_factory (p_fs P) o.
Proof. intros E1 E2 E3. unfold get_object_factory, get_ulong, get_as. by rewrite E1, E2, E3. Qed.
Lemma eph_absent f x : good_factory f -> search_by_id x <> Some KBytes -> x = CKA_CLASS \/ x = CKA_KEY_TYPE \/ x = CKA_CERTIFICATE_TYPE -> existsb (N.eqb x) (f_sensitive f) = false /\ existsb (N.eqb x) (f_ephemeral f) = false.
Proof.
  intros Hf Hx Hc. split; apply not_true_iff_false; intros H; apply existsb_exists in H as (y & H1 & H2); apply N.eqb_eq in H2; subst y.
  - destruct (good_sens _ _ Hf H1) as [E _]. done.
  - destruct (good_check (fun p => forallb (fun t => negb (existsb (N.eqb t) [CKA_CLASS; CKA_KEY_TYPE; CKA_CERTIFICATE_TYPE])) (f_ephemeral (snd p))) f) as [k E]; [vm_compute; reflexivity|done|].
    cbn [snd] in E. pose proof (proj1 (forallb_forall _ _) E _ H1) as E1. cbv beta in E1. cbn [existsb] in E1. clear -E1 Hc. lia.
Qed.
Definition steps_to {A} (m : M token A) (t : token) : Prop := wp m t (fun t' r => R t t' /\ match r with Ok _ => True | Err _ => True end).
Lemma to_st_store odd o t : (forall uid, K (KNew odd uid)) -> new_ok o -> is_token o = true -> tok_ok t -> classed odd t o -> steps_to (st_store P o) t.
Proof.
  intros Kn [Ho [Hh _]] Htk Ht Hodd. unfold steps_to, st_store. apply wp_bind, wp_lift.
  assert (R t t) as Hr by reflexivity. destruct (get_object_factory _ o) as [f|] eqn:Hof; [|done]. pose proof (obj_factory_good P Hfs _ _ Hof) as Hf.
  apply wp_bind, wp_lift. destruct (get_string o CKA_UNIQUE_ID) as [uid|] eqn:Hu; [|done].
  apply wp_bind, (wp_encrypt_attrs (f_sensitive f)); [intros; by apply (good_sens f)|done|apply (good_nodup f Hf)| |].
  2: { intros. split; [|done]. by apply R_noise. }
  intros t1 o1 Hn Hp Hsb Hse. cbv zeta. assert (same_id o o1) as Hid. { eapply same_but_id; [|done]. intros x Hx. by apply (good_sens _ _ Hf). }
  assert (obj_ok o1) as Ho1. { split; [by apply Hp, Ho|]. exists uid. by rewrite (same_uid _ _ Hid). }
  destruct (del_attrs_ok (f_ephemeral f) o1) as [D1 D2]; [intros; by eapply good_eph|done|].
  assert (same_id o (del_attrs (f_ephemeral f) o1)) as Hid2 by (by etransitivity). set (o2 := del_attrs (f_ephemeral f) o1) in *.
  assert (o_handle o2 = CK_INVALID_HANDLE) as Hh2 by (destruct Hid2 as [-> _]; done). rewrite Hh2. cbn [N.eqb]. rewrite N.eqb_refl. cbv iota.
  apply wp_bind. apply (wp_new_handle uid). 2: { intros e. split; [|done]. etransitivity; [by apply R_noise|apply R_bump]. }
  intros Hun. apply wp_bind, wp_dbwrite.
  - intros i s Hs. apply wp_ret. split; [|done]. transitivity (set_io i t1); [etransitivity; [by apply R_noise|by apply R_io]|].
    eapply tsteps_one; [apply (Kn uid)|]. apply (ts_new P (set_io i t1) o2 uid s); try done.
    + by rewrite (same_token _ _ Hid2).
    + by rewrite (same_uid _ _ Hid2).
    + destruct Hodd as [Hodd|Hodd]; [by left|]. right. intros Ha. unfold o2. apply agree_del; [|apply Hp, Hodd; destruct Hn as (i1 & n1 & ->); exact Ha]. intros Hin. by apply (good_eph f) in Hin as [? _].
    + exists f. assert (forall x, search_by_id x <> Some KBytes -> x = CKA_CLASS \/ x = CKA_KEY_TYPE \/ x = CKA_CERTIFICATE_TYPE -> get_attr o2 x = get_attr o x) as Hx.
      { intros x X1 X2. destruct (eph_absent f x Hf X1 X2) as [E1 E2]. unfold o2. rewrite get_dels, E2. destruct Hsb as (_ & _ & _ & Hsb & _). apply Hsb. intros Hin.
        apply not_true_iff_false in E1. apply E1. apply existsb_exists. exists x. split; [done|apply N.eqb_refl]. }
      split.
      * rewrite (same_factory o o2); [done| | |]; apply Hx; auto; vm_compute; discriminate.
      * intros ty a Hin Hg. unfold o2 in Hg. rewrite get_dels in Hg. destruct (existsb _ _); [done|]. destruct (get_attr o ty) as [a0|] eqn:Hg0.
        -- destruct (Hse ty a0 Hin Hg0) as (e & E1 & E2). rewrite E1 in Hg. injection Hg as <-. exists (a_val a0). destruct Hn as (i1 & n1 & ->). exact E2.
        -- apply Hsb in Hg0. congruence.
  - intros i e. split; [|done]. transitivity t1; [by apply R_noise|]. transitivity (add_handle uid t1); [by apply R_add|by apply R_io].
Qed.
Lemma to_insert_object odd sh o t : (is_token o = true -> forall uid, K (KNew odd uid)) -> K (KSadd odd sh) -> new_ok o -> tok_ok t -> classed odd t o -> steps_to (insert_object P sh o) t.
Proof.
  intros Kn Ks Ho Ht Hodd. unfold insert_object. destruct (is_token o) eqn:Htk.
  - specialize (Kn eq_refl). unfold steps_to. apply wp_bind, wp_gets, wp_bind, wp_ensure; [|split; [reflexivity|done]]. intros _. by eapply to_st_store.
  - unfold steps_to. apply wp_bind. change (wp h_fresh t ?Q') with (Q' (bump t) (Ok (h_next (t_handles t)))). cbv beta iota zeta.
    apply wp_bind, wp_lift. change (get_string (set_session (set_handle o (h_next (t_handles t))) sh)) with (get_string o).
    destruct (get_string o CKA_UNIQUE_ID) as [uid|] eqn:Hu; [|split; [apply R_bump|done]].
    apply wp_bind, wp_h_insert; [|split; [apply R_bump|done]]. cbn. intros _ Hun. apply wp_bind, wp_modify, wp_ret. split; [|done].
    eapply tsteps_one; [apply Ks|]. by apply (ts_sadd P t sh o uid).
Qed.
Lemma hs_insert_object sh o : (forall uid, K (KNew false uid)) -> K (KSadd false sh) -> made o -> hs (insert_object P sh o) (fun _ => True).
Proof. intros Kn Ks [Ho Ha]. apply hs_tok. intros t Ht. apply (to_insert_object false); try done. by right. Qed.
Lemma hs_insert_session sh o : K (KSadd false sh) -> made o -> is_token o = false -> hs (insert_object P sh o) (fun _ => True).
Proof. intros Ks [Ho Ha] Hl. apply hs_tok. intros t Ht. apply (to_insert_object false); try done; [congruence|by right]. Qed.
Lemma hs_insert_odd sh o : (forall uid, K (KNew true uid)) -> K (KSadd true sh) -> new_ok o -> hs (insert_object P sh o) (fun _ => True).
Proof. intros Kn Ks Ho. apply hs_tok. intros t Ht. apply (to_insert_object true); try done. by left. Qed.
Lemma insert_object_ret sh o t t' h : new_ok o -> insert_object P sh o t = (t', Ok h) -> h = h_next (t_handles t).
Proof.
  intros [Ho [Hh _]]. cut (wp (insert_object P sh o) t (fun _ r => match r with Ok h => h = h_next (t_handles t) | Err _ => True end)).
  { intros H E. unfold wp in H. by rewrite E in H. }
  unfold insert_object. destruct (is_token o) eqn:Htk.
  - apply wp_bind, wp_gets, wp_bind, wp_ensure; [intros _|done]. unfold st_store. apply wp_bind, wp_lift.
    destruct (get_object_factory _ o) as [f|] eqn:Hof; [|done]. pose proof (obj_factory_good P Hfs _ _ Hof) as Hf.
    apply wp_bind, wp_lift. destruct (get_string o CKA_UNIQUE_ID) as [uid|] eqn:Hu; [|done].
    apply wp_bind, (wp_encrypt_attrs (f_sensitive f)); [intros; by apply (good_sens f)|done|apply (good_nodup f Hf)| |done].
    intros t1 o1 Hn Hp Hsb _. cbv zeta. assert (same_id o o1) as Hid. { eapply same_but_id; [|done]. intros x Hx. by apply (good_sens _ _ Hf). }
    assert (obj_ok o1) as Ho1. { split; [by apply Hp, Ho|]. exists uid. by rewrite (same_uid _ _ Hid). }
    destruct (del_attrs_ok (f_ephemeral f) o1) as [D1 D2]; [intros; by eapply good_eph|done|].
    assert (same_id o (del_attrs (f_ephemeral f) o1)) as Hid2 by (by etransitivity). set (o2 := del_attrs (f_ephemeral f) o1) in *.
    assert (o_handle o2 = CK_INVALID_HANDLE) as Hh2 by (destruct Hid2 as [-> _]; done). rewrite Hh2. cbn [N.eqb]. rewrite N.eqb_refl. cbv iota.
    apply wp_bind. apply (wp_new_handle uid); [|done]. intros Hun. apply wp_bind, wp_dbwrite; [|done]. intros i s Hs. apply wp_ret.
    by destruct Hn as (? & ? & ->).
  - apply wp_bind. change (wp h_fresh t ?Q') with (Q' (bump t) (Ok (h_next (t_handles t)))). cbv beta iota zeta.
    apply wp_bind, wp_lift. destruct (get_string _ CKA_UNIQUE_ID) as [uid|]; [|done].
    apply wp_bind, wp_h_insert; [|done]. intros _ _. by apply wp_bind, wp_modify, wp_ret.
Qed.

(* ---- updates ---- *)
Lemma wp_st_update h tmpl t (Q : token -> result unit -> Prop) :
  (forall t1 uid o f tm o' s, noise t t1 -> h_map (t_handles t) !! h = Some uid -> fetch_by_uid (t_db t) uid [] = Ok o -> get_object_factory (p_fs P) o = Ok f ->
    sealed (f_sensitive f) tmpl tm -> apply_template o tm = (o', Ok tt) -> store_obj_stmts (t_db t) (del_attrs (f_ephemeral f) o') = Ok s ->
    enciphered t uid (f_sensitive f) tmpl tm ->
    Q (set_db (c_disk (exec s (t_db t))) t1) (Ok tt)) ->
  (forall t1 e, noise t t1 -> Q t1 (Err e)) -> wp (st_update P h tmpl) t Q.
Proof.
  intros H1 H2. unfold st_update. apply wp_bind. unfold h_get. apply wp_gets. destruct (h_map (t_handles t) !! h) as [uid|] eqn:Hu; [|apply wp_fail, H2; reflexivity].
  apply wp_bind, wp_dbread; [|intros; apply H2, noise_io]. intros i. destruct (fetch_by_uid (t_db t) uid []) as [o|e] eqn:Hf; [|apply H2, noise_io].
  apply wp_bind, wp_lift. destruct (get_object_factory _ o) as [f|] eqn:Hof; [|apply H2, noise_io].
  apply wp_bind, (wp_encrypt_tmpl (f_sensitive f)); [done|apply good_nodup; by eapply obj_factory_good| |].
  - intros t1 tm Hn Hs Hen _. assert (noise t t1) as Hn1 by (etransitivity; [apply noise_io|done]).
    assert (t_db t1 = t_db t) as Hdb by (destruct Hn1 as (i1 & n1 & ->); done).
    destruct (apply_template o tm) as [o' [[]|e]] eqn:Ha; [|apply wp_fail; by apply H2].
    apply wp_dbwrite; [|intros; apply H2; etransitivity; [exact Hn1|apply noise_io]]. intros i1 s Hst. rewrite Hdb in *. eapply H1; try done. etransitivity; [exact Hn1|apply noise_io].
  - intros t1 e Hn. apply H2. etransitivity; [apply noise_io|done].
Qed.
(* A partial fetch agrees with the whole record. *)
Lemma partial_factory t h l o uid o1 : selected (fetch_types l) CKA_CLASS = true -> selected (fetch_types l) CKA_KEY_TYPE = true -> selected (fetch_types l) CKA_CERTIFICATE_TYPE = true ->
  tok_ok t -> fetched t h l o -> h_map (t_handles t) !! h = Some uid -> fetch_by_uid (t_db t) uid [] = Ok o1 ->
  get_object_factory (p_fs P) o = get_object_factory (p_fs P) o1 /\
  forall ty k, selected (fetch_types l) ty = true -> search_by_id ty = Some k -> k <> KBytes -> get_attr o ty = get_attr o1 ty.
Proof.
  intros S1 S2 S3 Ht (uid' & o0 & f & o2 & H1 & H2 & H3 & H4 & ->) Hu H5. rewrite Hu in H1. simplify_eq.
  pose proof (obj_factory_good P Hfs _ _ H3) as Hf. destruct (fetch_pre _ _ _ _ H2) as [Hp _].
  destruct (decrypt_ok (f_sensitive f) _ _ _ _ _ _ (fun t Hin => good_sens f t Hf Hin) (fun t Hin => Hin) H4 Hp) as [D1 D2].
  destruct (fetch_get _ _ _ _ H2) as (i & r & F1 & F2 & F3 & _). destruct (fetch_get _ _ _ _ H5) as (i' & r' & G1 & G2 & G3 & _).
  assert (r' = r) as ->. { pose proof (ids_found _ _ _ _ (wf_unique _ (db_ok_wf _ (tk_db _ Ht))) F1 F2) as E1.
    pose proof (ids_found _ _ _ _ (wf_unique _ (db_ok_wf _ (tk_db _ Ht))) G1 G2) as E2. congruence. }
  assert (forall ty k, selected (fetch_types l) ty = true -> search_by_id ty = Some k -> k <> KBytes -> get_attr (set_handle o2 h) ty = get_attr o1 ty) as Ha.
  { intros ty k Hs Hk Hne. change (get_attr (set_handle o2 h) ty) with (get_attr o2 ty). rewrite G3 by done. destruct D2 as (_ & _ & _ & D2 & _). rewrite D2.
    - by apply F3.
    - intros Hin. destruct (good_sens f ty Hf Hin) as [E _]. congruence. }
  split; [|done]. unfold get_object_factory, get_ulong, get_as. rewrite !(Ha CKA_CLASS KNum), !(Ha CKA_KEY_TYPE KNum), !(Ha CKA_CERTIFICATE_TYPE KNum) by done. done.
Qed.
Lemma R_noise_db t t1 d : noise t t1 -> exists i n, set_db d t1 = set_fresh n (set_db d (set_io i t)).
Proof. intros (i & n & ->). by exists i, n. Qed.
Lemma hs_set_object_attrs h tmpl : K (KSupd h tmpl) -> K (KUpd h tmpl) -> hs (set_object_attrs P h tmpl) (fun _ => True).
Proof.
  intros Ks Ku. apply hs_tok. intros t Ht. assert (R t t) as Hr by reflexivity. unfold set_object_attrs. apply wp_bind, wp_gets. destruct (t_sobjs t !! h) as [o|] eqn:Ho.
  - apply wp_bind, wp_lift. destruct (get_object_factory _ o) as [f|] eqn:Hof; [|done]. destruct (set_object_attributes f o tmpl) as [o' r] eqn:Hs.
    apply wp_bind, wp_modify, wp_lift. split; [|by destruct r]. assert (o' = fst (set_object_attributes f o tmpl)) as -> by (by rewrite Hs).
    eapply tsteps_one; [exact Ks|]. by constructor.
  - apply wp_bind, wp_gets, wp_bind, wp_ensure; [|done]. intros Hli. apply wp_bind, wp_st_fetch; [|intros; split; [by apply R_io|done]]. intros i o Hf.
    apply wp_bind, wp_lift. destruct (get_object_factory _ o) as [f|] eqn:Hof; [|split; [by apply R_io|done]].
    apply wp_bind, wp_ensure; [|split; [by apply R_io|done]]. intros Hm. apply wp_bind, wp_lift. destruct (check_set_attributes (f_attrs f) tmpl) as [[]|] eqn:Hc; [|split; [by apply R_io|done]].
    apply wp_st_update.
    + intros t1 uid o1 f1 tm o' s Hn Hu Hfe Hof1 Hse Hap Hst Hen. split; [|done].
      destruct (partial_factory t h [CKA_CLASS; CKA_KEY_TYPE; CKA_MODIFIABLE] o uid o1 eq_refl eq_refl eq_refl Ht Hf Hu Hfe) as [E1 E2]. rewrite Hof, Hof1 in E1. injection E1 as ->.
      destruct (R_noise_db _ _ (c_disk (exec s (t_db (set_io i t)))) Hn) as (i1 & n1 & ->).
      transitivity (set_io i1 t); [by apply R_io|]. transitivity (set_db (c_disk (exec s (t_db t))) (set_io i1 t)); [|by apply R_quiet].
      eapply tsteps_one; [exact Ku|]. eapply (ts_upd P (set_io i1 t)); try done. unfold is_modifiable, bool_attr in *. by rewrite <- (E2 CKA_MODIFIABLE KBool).
    + intros t1 e Hn. split; [|done]. transitivity (set_io i t); [by apply R_io|by apply R_noise].
Qed.

(* ---- duplicates ---- *)
Lemma dedup_tmpl o tm ss : obj_pre o -> is_token o = true -> (forall t, In t ss -> ids t = false) ->
  sealed ss (swap_remove (map (fun a => ca (a_type a) (a_val a)) (o_attrs o)) CKA_UNIQUE_ID) tm ->
  forall c, In c tm -> ca_type c <> CKA_UNIQUE_ID /\ (ca_type c = CKA_TOKEN -> c = ca CKA_TOKEN [1]).
Proof.
  intros Hp Htk Hss Hs c Hc. set (l := map (fun a => ca (a_type a) (a_val a)) (o_attrs o)) in *.
  assert (forall x, In x (swap_remove l CKA_UNIQUE_ID) -> ca_type x <> CKA_UNIQUE_ID) as H1.
  { intros x. apply swap_remove_ne; [done|]. unfold l. rewrite nocls_of_attrs. apply Hp. }
  destruct (sealed_in _ _ _ _ Hs Hc) as [Hin|(c0 & Hin & Hty & Hse)].
  - split; [by apply H1|]. intros Hct. apply swap_remove_in in Hin. unfold l in Hin. apply in_map_iff in Hin as (a & <- & Ha). cbn in Hct.
    pose proof (nodup_entry _ _ CKA_TOKEN (pre_types _ Hp) ltac:(done) Ha Hct) as Hg. change (get_attr o CKA_TOKEN = Some a) in Hg.
    rewrite (token_true _ Hp Htk) in Hg. by simplify_eq.
  - split; [rewrite Hty; by apply H1|]. intros Hct. apply Hss in Hse. rewrite Hct in Hse. done.
Qed.
Definition dedup_rel (t t' : token) : Prop := t_dedup t' = t_dedup t.
Local Instance dedup_pre : PreOrder dedup_rel.
Proof. split; [by intros t|]. intros a b c H1 H2. unfold dedup_rel in *. congruence. Qed.
Lemma hs_is_duplicate tm : hs (is_duplicate P tm) (fun _ => True).
Proof. unfold is_duplicate. eapply hs_bind; [apply _|apply hs_st_search|]. intros [|x [|y l]] _; first [by apply hs_ret; [apply _|]|apply hs_fail; apply _]. Qed.
Lemma hs_is_cert_dup o : hs (is_cert_dup P o) (fun _ => True).
Proof. unfold is_cert_dup. destruct (get_attr o CKA_ISSUER); [destruct (get_attr o CKA_SERIAL_NUMBER)|]; first [apply hs_is_duplicate|by apply hs_ret; [apply _|]]. Qed.
Lemma hs_is_key_dup o : hs (is_key_dup P o) (fun _ => True).
Proof. unfold is_key_dup. destruct (get_attr o CKA_ID); [destruct (get_attr o CKA_KEY_TYPE)|]; first [apply hs_is_duplicate|by apply hs_ret; [apply _|]]. Qed.
Lemma hs_check_dedup o : (forall h, K (KDedup h)) -> obj_ok o -> is_token o = true -> hs (check_dedup P o) (fun _ => True).
Proof.
  intros Kd Ho Htk. apply hs_tok. intros t Ht. unfold check_dedup. apply wp_bind, wp_gets. destruct (t_dedup t) as [dd|] eqn:Hd.
  - match goal with |- wp (mbind ?m0 _) _ _ => set (m := m0) end.
    assert (hs m (fun _ => True)) as Hm.
    { unfold m. destruct dd; repeat match goal with |- context [if ?b then _ else _] => destruct b end;
        first [apply hs_is_cert_dup|apply hs_is_key_dup|by apply hs_ret; [apply _|]]. }
    assert (rel dedup_rel m) as Hr.
    { unfold m. destruct dd; repeat match goal with |- context [if ?b then _ else _] => destruct b end;
        first [apply rel_is_cert_dup|apply rel_is_key_dup|apply rel_ret]; try done; apply _. }
    clearbody m. apply wp_bind. specialize (Hm t Ht). specialize (Hr t). unfold wp at 1. destruct (m t) as [t1 [[h|]|e]]; cbn [fst snd] in *; destruct Hm as (M1 & M2 & _).
    + apply wp_bind, wp_st_update.
      * intros t2 uid o1 f tm o' s Hn Hu Hfe Hof Hse Hap Hst _. apply wp_ret. split; [|done]. transitivity t1; [done|].
        destruct (R_noise_db _ _ (c_disk (exec s (t_db t1))) Hn) as (i1 & n1 & ->).
        transitivity (set_io i1 t1); [by apply R_io|]. transitivity (set_db (c_disk (exec s (t_db t1))) (set_io i1 t1)); [|by apply R_quiet].
        pose proof (obj_factory_good P Hfs _ _ Hof) as Hf. destruct (fetch_ok _ _ _ (tk_db _ M1) Hfe) as ([F1 _] & F2 & F3).
        assert (forall c, In c tm -> ca_type c <> CKA_UNIQUE_ID /\ (ca_type c = CKA_TOKEN -> c = ca CKA_TOKEN [1])) as Hc.
        { eapply dedup_tmpl; [apply Ho|done| |exact Hse]. intros x Hx. by apply (good_sens f). }
        assert (same_id o1 o') as A2. { pose proof (apply_same_token tm o1 Hc) as A. rewrite Hap in A. apply A. apply token_true; [apply F1|done]. }
        assert (obj_ok o') as A1. { pose proof (apply_ok tm o1 F1) as A. by rewrite Hap in A. }
        destruct (del_attrs_ok (f_ephemeral f) o') as [D1 D2]; [intros; by eapply good_eph|done|].
        eapply tsteps_one; [apply (Kd h)|]. eapply (ts_dedup P (set_io i1 t1) h o1 _ uid); try done; cbn.
        -- rewrite Hr, Hd. done.
        -- by etransitivity.
      * intros t2 e Hn. split; [|done]. etransitivity; [exact M2|by apply R_noise].
    + apply wp_ret. done.
    + done.
  - destruct (_ || _); [|apply wp_ret; split; [reflexivity|done]]. apply wp_bind. destruct (hs_is_cert_dup o t Ht) as (H1 & H2 & _). unfold wp at 1.
    destruct (is_cert_dup P o t) as [t1 [[h|]|e]]; cbn [fst snd] in *; done.
Qed.
Lemma hs_create_object env sh tmpl : (forall h, K (KDedup h)) -> (forall uid, K (KNew false uid)) -> K (KSadd false sh) -> hs (create_object P env sh tmpl) (fun _ => True).
Proof.
  intros Kd Kn Ks. unfold create_object. eapply hs_bind; [apply _|by apply hs_new_uid|]. intros uid Hu.
  eapply hs_bind; [apply _|apply (hs_lift _ _ _ (fun o => made o)); intros o Ho; rewrite Hfs in Ho; eapply factories_create_ok; [exact Hu|exact Ho]|]. intros o Ho.
  eapply (hs_bind _ _ _ _ (fun _ => True)).
  - destruct (is_token o) eqn:Htk; [|by apply hs_ret; [apply _|]]. eapply hs_bind; [apply _|apply (hs_gets _ _ _ (fun _ => True)); done|]. intros l _.
    eapply hs_bind; [apply _|apply (hs_ensure _ _ _ _ (fun _ => True)); done|]. intros _ _. apply hs_check_dedup; [done|apply Ho|done].
  - intros [h|] _; [by apply hs_ret; [apply _|]|]. by apply hs_insert_object.
Qed.
Lemma hs_get_or_fetch h l : hs (get_or_fetch P h l) (fun o => obj_pre o /\ (l = [] -> obj_ok o)).
Proof.
  unfold get_or_fetch. eapply hs_bind; [apply _|apply (hs_gets _ _ _ (fun so => match so with Some o => obj_ok o | None => True end))|].
  - intros t Ht. destruct (t_sobjs t !! h) as [o|] eqn:Ho; [|done]. by apply (tk_sobj _ Ht _ _ Ho).
  - intros [o|] Ho; [apply hs_ret; [apply _|]; split; [apply Ho|done]|]. eapply hs_mono; [by apply hs_st_fetch|]. intros o [H1 H2]. split; [done|]. intros ->. by apply H2.
Qed.
Lemma hs_get_object_by_handle h : hs (get_object_by_handle P h) obj_ok.
Proof.
  unfold get_object_by_handle. eapply hs_bind; [apply _|by apply hs_get_or_fetch|]. intros o [_ Ho]. eapply hs_bind; [apply _|apply (hs_gets _ _ _ (fun _ => True)); done|]. intros l _.
  eapply hs_bind; [apply _|apply (hs_ensure _ _ _ _ (fun _ => True)); done|]. intros _ _. apply hs_ret; [apply _|]. by apply Ho.
Qed.
Lemma hs_get_object_attrs h q : hs (get_object_attrs P h q) (fun _ => True).
Proof.
  unfold get_object_attrs. eapply hs_bind; [apply _|apply (hs_gets _ _ _ (fun _ => True)); done|]. intros l _. cbv zeta. eapply hs_bind; [apply _|by apply hs_get_or_fetch|]. intros o _.
  eapply hs_bind; [apply _|apply (hs_ensure _ _ _ _ (fun _ => True)); done|]. intros _ _. by apply hs_ret; [apply _|].
Qed.
Lemma hs_get_object_size h : hs (get_object_size P h) (fun _ => True).
Proof. unfold get_object_size. eapply hs_bind; [apply _|by apply hs_get_or_fetch|]. intros o _. by apply hs_ret; [apply _|]. Qed.
Lemma hs_search_objects tm : hs (search_objects P tm) (fun _ => True).
Proof.
  unfold search_objects. eapply hs_bind; [apply _|apply (hs_gets _ _ _ (fun _ => True)); done|]. intros l _. eapply hs_bind; [apply _|apply (hs_gets _ _ _ (fun _ => True)); done|]. intros b _.
  cbv zeta. eapply hs_bind; [apply _|by apply hs_st_search|]. intros r _. by apply hs_ret; [apply _|].
Qed.
Lemma hs_copy_object sh h tmpl : (forall uid, K (KNew (existsb (fun c => ca_type c =? CKA_CLASS) tmpl) uid)) -> K (KSadd (existsb (fun c => ca_type c =? CKA_CLASS) tmpl) sh) ->
  hs (copy_object P sh h tmpl) (fun _ => True).
Proof.
  intros Kn Ks. set (odd := existsb _ tmpl) in *. apply hs_tok. intros t Ht. assert (R t t) as Hr by reflexivity.
  assert (forall o t1, noise t t1 -> obj_ok o -> (odd = true \/ (all_agree t -> agree o)) ->
    steps_to (let! uid := new_uid P in let! n := lift (factories_copy uid (p_fs P) o tmpl) in insert_object P sh n) t1) as Hc.
  { intros o t1 Hn Ho Hag. unfold steps_to, new_uid. apply wp_bind, wp_bind, wp_draw, wp_ret, wp_bind, wp_lift.
    assert (R t1 (set_fresh (t_fresh t1 + 1) t1)) as Hr1 by (apply R_noise; first [exact Kq|apply noise_fresh]).
    destruct (factories_copy _ _ _ _) as [n|] eqn:Hf; [|done]. assert (steps_to (insert_object P sh n) (set_fresh (t_fresh t1 + 1) t1)) as Hi.
    { apply (to_insert_object odd); try done.
      - eapply factories_copy_ok; [apply (Hutf (t_fresh t1))|apply Ho|exact Hf].
      - eapply (tsteps_ok P Hfs K t1); [|done]. eapply (tsteps_ok P Hfs K t); [done|by apply R_noise].
      - destruct odd eqn:Hodd; [by left|]. right. intros Ha. destruct Hag as [|Hag]; [done|]. eapply factories_copy_agree; [apply Ho| |exact Hodd|exact Hf].
        apply Hag. destruct Hn as (i1 & n1 & ->). exact Ha. }
    unfold steps_to in Hi. eapply wp_mono; [exact Hi|]. intros t2 r [H1 H2]. split; [by etransitivity|done]. }
  unfold copy_object. apply wp_bind, wp_gets. destruct (t_sobjs t !! h) as [o|] eqn:Ho.
  - apply wp_bind, wp_ret. apply Hc; [reflexivity|by apply (tk_sobj _ Ht _ _ Ho)|]. right. intros Ha. by apply (Ha _ _ Ho).
  - apply wp_bind, wp_bind, wp_st_fetch; [|intros; split; [by apply R_io|done]]. intros i o Hf.
    apply wp_bind, wp_gets, wp_bind, wp_ensure; [|split; [by apply R_io|done]]. intros _. apply wp_ret.
    unfold steps_to in Hc. eapply wp_mono; [apply (Hc o (set_io i t)); [apply noise_io|by apply (fetched_ok t h o Ht Hf)|right; intros _; by eapply fetched_agree]|].
    intros t2 r [H1 H2]. split; [|done]. transitivity (set_io i t); [by apply R_io|done].
Qed.
Lemma hs_destroy_object h : K (KSdel h) -> (forall uid, K (KRemove h uid)) -> K (KHdel h) -> hs (destroy_object P h) (fun _ => True).
Proof.
  intros Ks Kr Kd. apply hs_tok. intros t Ht. assert (R t t) as Hr by reflexivity. unfold destroy_object. apply wp_bind, wp_gets, wp_bind. destruct (t_sobjs t !! h) as [o|] eqn:Ho.
  - apply wp_bind, wp_ensure; [|done]. intros Hd. apply wp_modify. unfold h_remove. apply wp_modify. split; [|done]. eapply tsteps_one; [exact Ks|]. eapply (ts_sdel P t); done.
  - apply wp_bind, wp_st_fetch; [|intros; split; [by apply R_io|done]]. intros i o Hf. apply wp_bind, wp_ensure; [|split; [by apply R_io|done]]. intros Hd. apply wp_bind, wp_attempt.
    assert (bool_of t h CKA_DESTROYABLE = Some true) as Hb.
    { apply bool_attr_true in Hd as (a & Ha & Hb). unfold bool_of. by rewrite <- (fetched_attr t h [CKA_DESTROYABLE] o CKA_DESTROYABLE KBool Ht Hf Ho), Ha, Hb. }
    unfold st_remove. apply wp_bind. unfold h_get. apply wp_gets. cbn [t_handles set_io]. destruct (h_map (t_handles t) !! h) as [uid|] eqn:Hu.
    + apply wp_dbwrite.
      * intros i1 s Hs. apply wp_skip. unfold h_remove. apply wp_modify. split; [|done]. transitivity (set_io i1 t); [by apply R_io|].
        etransitivity; [eapply tsteps_one; [apply (Kr uid)|]; eapply (ts_remove P (set_io i1 t) h uid s); done|]. eapply tsteps_one; [exact Kd|]. apply ts_hdel; [done|].
        left. unfold object_id. cbn [t_sobjs set_db set_io t_handles t_db]. rewrite Ho, Hu. rewrite (remove_rows _ uid) by (try done; apply (tk_db _ Ht)). by rewrite bool_decide_eq_true_2.
      * intros i1 e. apply wp_skip. unfold h_remove. apply wp_modify. split; [|done]. transitivity (set_io i1 t); [by apply R_io|]. eapply tsteps_one; [exact Kd|].
        apply ts_hdel; [done|]. by right.
    + apply wp_fail, wp_skip. unfold h_remove. apply wp_modify. split; [|done]. transitivity (set_io i t); [by apply R_io|]. eapply tsteps_one; [exact Kd|]. apply ts_hdel; [done|].
      by right.
Qed.
Lemma hs_builtins l : K (KSadd false CK_INVALID_HANDLE) -> hs (builtins P l) (fun _ => True).
Proof.
  intros Ks. induction l as [|[m fl] l IH]; cbn [builtins]; [by apply hs_skip; [apply _|]|].
  eapply hs_bind; [apply _|apply (hs_lift _ _ _ (fun o => made o /\ is_token o = false)); intros o Ho; split; [eapply builtin_ok; [exact Hfs|exact Ho]|by apply (Loose.builtin_loose P m o Hfs)]|]. intros o [Ho Hl].
  eapply hs_bind; [apply _|by apply hs_insert_session|]. intros _ _. done.
Qed.
Lemma hs_internal_objects_init : K (KSadd false CK_INVALID_HANDLE) -> hs (internal_objects_init P) (fun _ => True).
Proof. intros Ks. unfold internal_objects_init. eapply hs_bind; [apply _|apply (hs_gets _ _ _ (fun _ => True)); done|]. intros l _. by apply hs_builtins. Qed.
Lemma hs_drop sel : K (KDrop sel) -> hs (modify (drop_objs sel)) (fun _ => True).
Proof. intros Kd. apply hs_tok. intros t Ht. apply wp_modify. split; [|done]. eapply tsteps_one; [exact Kd|]. constructor. Qed.
Lemma hs_log f : K (KQuiet LLog) -> (forall t, t_handles (f t) = t_handles t /\ t_sobjs (f t) = t_sobjs t /\ log_fields t (f t) /\ t_dedup (f t) = t_dedup t /\ t_filter (f t) = t_filter t) -> hs (modify f) (fun _ => True).
Proof. intros Ka H. apply hs_tok. intros t Ht. apply wp_modify. destruct (H t) as (H1 & H2 & H3 & H4 & H5). split; [|done]. by apply R_log. Qed.
Lemma hs_quiet f : K (KQuiet LAll) -> (forall t, t_handles (f t) = t_handles t /\ t_sobjs (f t) = t_sobjs t /\ d_objs (t_db (f t)) = d_objs (t_db t) /\ t_dedup (f t) = t_dedup t /\ t_filter (f t) = t_filter t) -> hs (modify f) (fun _ => True).
Proof. intros Ka H. apply hs_tok. intros t Ht. apply wp_modify. destruct (H t) as (H1 & H2 & H3 & H4 & H5). split; [|done]. by apply R_auth. Qed.
End triples2.
End wps.
