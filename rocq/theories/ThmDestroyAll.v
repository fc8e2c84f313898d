(* C59: which records can be read, and so destroyed. *)
From Verif Require Import Base Monad Hoare Attr Obj Factory Tables Create Sqlite Storage Token Backend State Api Toy
  ObjSpec PlainSpec Rows ObjOk ObjNew Triple TokInv TokStep TokenFrame TokWp TokAuth Spec WorldWp Sessions SessionInv SessionFacts ObjWorld ObjView ObjAttrs NewView ObjFacts
  AttrFacts Errors ObjCalls ToyFacts SetFacts PlainFacts ThmObjects ThmAttrs AuthSpec Users AuthFacts AuthInv AuthPins AuthTry ThmAuth ThmInit KeyFacts ThmKeys SealSpec SealFacts ThmSeal KeptSpec ThmDestroy.

Lemma sensitive_once : forallb (fun x => bool_decide (base.NoDup (f_sensitive (snd x)))) all_factories = true.
Proof. vm_compute. reflexivity. Qed.
Lemma sensitive_listed : forallb (fun x => forallb (fun ty => existsb (N.eqb ty) (secret_attrs (fst x))) (f_sensitive (snd x))) all_factories = true.
Proof. vm_compute. reflexivity. Qed.
Lemma sensitive_dh : forallb (fun x => negb (bool_decide (fst x = (CKO_PRIVATE_KEY, CKK_DH))) || match f_sensitive (snd x) with [] => true | _ => false end) all_factories = true.
Proof. vm_compute. reflexivity. Qed.
Lemma factory_in fs k f : get_factory fs k = Ok f -> In (k, f) fs.
Proof.
  induction fs as [|[k' f'] fs IH]; cbn; [done|]. destruct (bool_decide_reflect (k' = k)) as [->|]; [intros [= ->]; by left|]. intros H. right. auto.
Qed.
Lemma known_factory fs k : In k (map fst fs) -> exists f, get_factory fs k = Ok f.
Proof.
  induction fs as [|[k' f'] fs IH]; cbn; [done|]. destruct (bool_decide_reflect (k' = k)) as [->|]; [eauto|]. intros [|H]; [done|auto].
Qed.

Section all.
Context (P : params) (B : backend) (E : N -> keyenv).
Context (Hfs : p_fs P = all_factories) (Hutf : forall n, utf8_valid (p_uuid P n) = true).
Notation world := (world B).
Notation from_scratch := (from_scratch P B E). Notation rv := (rv P B E). Notation after := (after P B E).
Notation slot_of := (slot_of B). Notation token_of := (token_of B). Notation id_at := (id_at B). Notation bool_at := (bool_at B). Notation session_of := (session_of B).
Notation end_of := (end_of P B E).

Lemma decrypt_opens ver key uid l o : base.NoDup l -> (forall ty, In ty l -> ty <> CKA_CLASS) ->
  (forall ty a, In ty l -> get_attr o ty = Some a -> exists k x, key = Some k /\ p_open P ver k uid (a_val a) = Ok x) ->
  exists o2, decrypt_attrs P ver key uid l o = Ok o2.
Proof using.
  revert o. induction l as [|ty l IH]; intros o Hn Hc H; [by eexists|]. apply list.NoDup_cons in Hn as [Hn1 Hn2]. cbn [decrypt_attrs].
  destruct (get_attr o ty) as [a|] eqn:Ha.
  - destruct (H ty a (or_introl eq_refl) Ha) as (k & x & -> & Hx). rewrite Hx. cbn [rbind].
    destruct (set_attr o (from_bytes ty x)) as [o'|] eqn:Hs; [|exfalso].
    + cbn [rbind]. apply IH; [done|intros y Hy; apply Hc; by right|]. intros y b Hy Hb. rewrite (get_set _ _ _ y Hs) in Hb. change (a_type (from_bytes ty x)) with ty in Hb.
      destruct (N.eqb_spec ty y) as [->|]; [exfalso; by apply Hn1, elem_of_list_In|]. apply (H y b); [by right|done].
    + unfold set_attr in Hs. change (a_type (from_bytes ty x)) with ty in Hs. destruct (N.eqb_spec ty CKA_CLASS) as [E1|]; [|done]. by apply (Hc ty (or_introl eq_refl)).
  - apply IH; [done|intros y Hy; apply Hc; by right|]. intros y b Hy. apply H. by right.
Qed.
(* A record can be read if the module knows its kind and its sealed values, if it has some, can be opened. *)
Lemma readable_when t h uid m k : tok_ok t -> t_sobjs t !! h = None -> h_map (t_handles t) !! h = Some uid -> rows_of (t_db t) uid = Some m ->
  d_tables (t_db t) = true -> kind_of t h = Some k -> In k (map fst all_factories) ->
  (k <> (CKO_PRIVATE_KEY, CKK_DH) -> forall ty a, In ty (secret_attrs k) -> row_attr m ty = Some a -> exists key x, t_key t = Some key /\ p_open P (t_ver t) key uid (a_val a) = Ok x) ->
  readable P t h.
Proof using Hfs.
  intros Ht Hso Hh Hm Htb Hk Hin Hop. destruct (known_factory _ _ Hin) as [f Hf].
  pose proof (proj1 (rows_of_some _ _ _ ltac:(apply (tk_db _ Ht))) Hm) as (i & G1 & G2).
  destruct (db_ok_rows _ (tk_db _ Ht) _ _ G1) as (R1 & R2 & R3 & R4 & R5).
  assert (exists o1, fetch_by_uid (t_db t) uid [] = Ok o1) as [o1 F2].
  { unfold fetch_by_uid. rewrite Htb. cbn [negb all_u32 rbind]. rewrite (ids_found _ _ i m ltac:(apply (tk_db _ Ht)) G1 G2). cbn [map snd].
    destruct (add_rows_ok (map_to_list m) (obj_new CK_UNAVAILABLE_INFORMATION)) as [o1 Ho1].
    { intros ty v Hx. apply (R2 ty v). by apply elem_of_map_to_list, elem_of_list_In. }
    exists o1. destruct (map_to_list m) as [|p r] eqn:Hl.
    - exfalso. assert (In (CKA_UNIQUE_ID, SText uid) (map_to_list m)) as Hx by (by apply elem_of_list_In, elem_of_map_to_list). by rewrite Hl in Hx.
    - cbn [List.filter]. rewrite rows_to_objects_one. unfold rows_to_object. rewrite Ho1. done. }
  destruct (fetch_get _ _ _ _ F2) as (i' & m' & K1 & K2 & K3 & _). assert (rows_of (t_db t) uid = Some m') as Hm' by (apply rows_of_some; [apply (tk_db _ Ht)|eauto]). rewrite Hm in Hm'. injection Hm' as <-.
  assert (get_object_factory (p_fs P) o1 = Ok f) as Hof.
  { revert Hk. unfold kind_of, class_of, num_of, attr_of. rewrite Hso, Hh, Hm. unfold get_object_factory, get_ulong, get_as. rewrite !(fun ty => K3 ty eq_refl), Hfs.
    destruct (row_attr m CKA_CLASS) as [a|]; [|done]. destruct (attr_to_ulong a) as [c|]; [|done]. cbn [opt rbind].
    unfold secret_class. destruct (c =? CKO_CERTIFICATE).
    - destruct (row_attr m CKA_CERTIFICATE_TYPE) as [b|]; [|done]. destruct (attr_to_ulong b); [|done]. cbn. by intros [= <-].
    - rewrite !orb_assoc. destruct (_ || (c =? CKO_OTP_KEY)).
      + destruct (row_attr m CKA_KEY_TYPE) as [b|]; [|done]. destruct (attr_to_ulong b); [|done]. cbn. by intros [= <-].
      + cbn. by intros [= <-]. }
  pose proof (obj_factory_good P Hfs _ _ Hof) as Hg. pose proof (factory_in _ _ _ Hf) as Hkf.
  destruct (decrypt_opens (t_ver t) (t_key t) uid (f_sensitive f) o1) as [o2 Ho2].
  - pose proof (proj1 (forallb_forall _ _) sensitive_once _ Hkf) as X. by apply bool_decide_eq_true_1 in X.
  - intros ty Hty. by destruct (good_sens f ty Hg Hty) as (_ & ? & _).
  - intros ty a Hty Ha. rewrite (K3 ty eq_refl) in Ha.
    pose proof (proj1 (forallb_forall _ _) sensitive_listed _ Hkf) as X. cbn [fst snd] in X. pose proof (proj1 (forallb_forall _ _) X _ Hty) as Y.
    apply existsb_exists in Y as (y & Y1 & Y2). apply N.eqb_eq in Y2. subst y. apply (Hop) with (ty := ty); [|done|done].
    intros ->. pose proof (proj1 (forallb_forall _ _) sensitive_dh _ Hkf) as Z. cbn [fst snd] in Z. rewrite bool_decide_eq_true_2 in Z by done. cbn in Z. destruct (f_sensitive f); done.
  - exists (set_handle o2 h), uid, o1, f, o2. split_and!; done.
Qed.

(* C59: a stored object of a kind that has no secret attributes (data, certificates, public keys and others) is destroyed. *)
Theorem C59_public_partial w s sid t se h u k : from_scratch w -> slot_of w s = Some sid -> token_of w sid = Some t ->
  session_of w s = Some se -> is_writable B se = true -> session_object_at B w sid h = false -> id_at w sid h = Some u ->
  kind_of t h = Some k -> In k (map fst all_factories) -> secret_attrs k = [] ->
  bool_at w sid h CKA_DESTROYABLE = Some true -> admitted B w sid h -> healthy t -> d_tables (t_db t) = true ->
  rv w (DestroyObject s h) = CKR_OK /\ id_at (after w (DestroyObject s h)) sid h = None /\ stored B (after w (DestroyObject s h)) sid u = None.
Proof using All.
  intros Hw Hs Ht Hse Hwr Hso Hid Hk Hin Hsec Hd Had Hio Htb. apply (C59_stored_partial P B E Hfs Hutf w s sid t se h u); try done.
  pose proof (scratch_winv P B E Hfs Hutf w Hw) as HW. pose proof (token_ok B _ _ _ HW Ht) as Hok.
  unfold session_object_at, is_session_object in Hso. unfold Spec.id_at, object_id in Hid. rewrite Ht in Hso, Hid. destruct (t_sobjs t !! h) as [?|] eqn:Ho; [done|].
  destruct (h_map (t_handles t) !! h) as [uid|] eqn:Hh; [|done]. destruct (rows_of (t_db t) uid) as [m|] eqn:Hm; [|done].
  apply (readable_when t h uid m k); try done. rewrite Hsec. done.
Qed.

(* C59: after any history from the initialisation of the token on, in which no call gives an object another class or key
   type (the other exclusions are those of C28), a stored object of any kind is destroyed while the key of the token is in
   memory. *)
Theorem C59_secret_partial (HV : value_laws P) (HL : pin_laws P) (HS : sane (fun e => plain_code e = true) P B E)
  (Hop : forall x h l, be_updates B x = Some (h, l) -> Forall (fun c => ca_type c = CKA_OTP_COUNTER) l /\ Nat.le (length l) 1)
  cs pin label cs' s sid t key se h u k : let c := InitToken sid pin label in let w := end_of (cs ++ [c] ++ cs') in
  forallb plain_call (cs ++ [c] ++ cs') = true -> rv (end_of cs) c = CKR_OK -> unwiped P B E (end_of (cs ++ [c])) cs' sid = true ->
  slot_of w s = Some sid -> token_of w sid = Some t -> t_key t = Some key ->
  session_of w s = Some se -> is_writable B se = true -> session_object_at B w sid h = false -> id_at w sid h = Some u ->
  kind_of t h = Some k -> In k (map fst all_factories) ->
  bool_at w sid h CKA_DESTROYABLE = Some true -> admitted B w sid h -> healthy t ->
  rv w (DestroyObject s h) = CKR_OK /\ id_at (after w (DestroyObject s h)) sid h = None /\ stored B (after w (DestroyObject s h)) sid u = None.
Proof using Hfs Hutf.
  intros c w Hp Hi Hun Hs Ht Hkey Hse Hwr Hso Hid Hk Hin Hd Had Hio.
  assert (d_tables (t_db t) = true) as Htb.
  { destruct (end_pins P B E Hfs Hutf HL HS (cs ++ [c] ++ cs') sid (plain_steady _ Hp)) as (v & k0 & HK). fold w in HK.
    rewrite (view_token _ _ _ _ Ht) in HK. by destruct (po_key _ _ _ _ _ HK key Hkey) as (_ & _ & ?). }
  assert (from_scratch w) as Hw by (exists (cs ++ [c] ++ cs'); reflexivity).
  destruct (C28_sealed_partial P B E Hfs Hutf HL HS Hop cs sid pin label cs' Hp Hi Hun) as (v & k0 & Hsd & Hmem). fold c w in Hsd, Hmem. destruct (Hmem t key Ht Hkey) as [-> Hv].
  apply (C59_stored_partial P B E Hfs Hutf w s sid t se h u); try done.
  pose proof (scratch_winv P B E Hfs Hutf w Hw) as HW. pose proof (token_ok B _ _ _ HW Ht) as Hok.
  unfold session_object_at, is_session_object in Hso. unfold Spec.id_at, object_id in Hid. rewrite Ht in Hso, Hid. destruct (t_sobjs t !! h) as [?|] eqn:Ho; [done|].
  destruct (h_map (t_handles t) !! h) as [uid|] eqn:Hh; [|done]. destruct (rows_of (t_db t) uid) as [m|] eqn:Hm; [|done].
  apply (readable_when t h uid m k); try done. intros Hdh ty a Hty Ha.
  pose proof (proj1 (rows_of_some _ _ _ ltac:(apply (tk_db _ Hok))) Hm) as (i & G1 & G2).
  assert (db_at B w sid = t_db t) as Hdb. { unfold db_at. unfold Spec.token_of in Ht. destruct (w_slots w !! sid); [|done]. by injection Ht as <-. }
  rewrite Hdb in Hsd. destruct k as [c0 kt].
  assert (row_kind m = Some (c0, kt)) as Hrk.
  { destruct (secret_key c0 kt ty Hty) as (S1 & S2 & _). revert Hk. unfold kind_of, class_of, num_of, attr_of. rewrite Ho, Hh, Hm. unfold row_kind, row_num.
    destruct (row_attr m CKA_CLASS) as [b|]; [|done]. destruct (attr_to_ulong b) as [c1|]; [|done]. cbn [opt]. destruct (N.eqb_spec c1 CKO_CERTIFICATE) as [->|].
    - destruct (match row_attr m CKA_CERTIFICATE_TYPE with Some _ => _ | None => _ end); [|done]. cbn. intros [= <- _]. done.
    - unfold secret_class in S1. destruct (_ || (c1 =? CKO_OTP_KEY)) eqn:Hor.
      + destruct (row_attr m CKA_KEY_TYPE) as [b'|]; [|done]. destruct (attr_to_ulong b'); [|done]. cbn. by intros [= <- <-].
      + intros [= <- _]. rewrite !orb_false_iff in Hor. destruct Hor as [[[_ O1] O2] O3]. rewrite O1, O2, O3 in S1. done. }
  destruct (Hsd i m G1) with (ty := ty) (a := a) as (uid' & r & x & X1 & X2); [congruence|unfold row_secrets; by rewrite Hrk|done|].
  rewrite G2 in X1. injection X1 as <-. exists k0, x. split; [done|]. rewrite Hv. by eapply vl_open.
Qed.
End all.

(* The cases: a data object and an AES key. *)
Definition known59 (t : token) : option (N * N) * bool * list (option ioerr) * bool :=
  (kind_of t 10, match kind_of t 10 with Some k => bool_decide (k ∈ map fst all_factories) | None => false end, t_io t, d_tables (t_db t)).
Example C59_public_case : from_scratch toy toy_be toy_env (w59 true) /\ Spec.slot_of toy_be (w59 true) 2 = Some 0 /\
  option_map (is_writable toy_be) (Spec.session_of toy_be (w59 true) 2) = Some true /\ session_object_at toy_be (w59 true) 0 10 = false /\
  match Spec.id_at toy_be (w59 true) 0 10 with Some _ => true | None => false end = true /\
  option_map known59 (Spec.token_of toy_be (w59 true) 0) = Some (Some (CKO_DATA, 0), true, [], true) /\ secret_attrs (CKO_DATA, 0) = [] /\
  bools59 (w59 true) = [Some true; Some true; Some true] /\ admitted toy_be (w59 true) 0 10 /\ toy_rv (w59 true) (DestroyObject 2 10) = CKR_OK.
Proof.
  split; [apply toy_user_scratch|]. do 7 (split; [vm_compute; reflexivity|]). split; [right; left; vm_compute; reflexivity|]. vm_compute. reflexivity.
Qed.
Definition then59 : list call := skipn 2 home ++ [good; tok_key].
Example C59_secret_case : let w := toy_end (before28 ++ [init28] ++ then59) in
  forallb plain_call (before28 ++ [init28] ++ then59) = true /\ toy_rv (toy_end before28) init28 = CKR_OK /\
  unwiped toy toy_be toy_env (toy_end (before28 ++ [init28])) then59 0 = true /\
  Spec.slot_of toy_be w 2 = Some 0 /\ option_map (is_writable toy_be) (Spec.session_of toy_be w 2) = Some true /\ session_object_at toy_be w 0 10 = false /\
  match Spec.id_at toy_be w 0 10 with Some _ => true | None => false end = true /\ option_map t_key (Spec.token_of toy_be w 0) = Some (Some (p_master toy 0)) /\
  option_map known59 (Spec.token_of toy_be w 0) = Some (Some (CKO_SECRET_KEY, CKK_AES), true, [], true) /\
  bools59 w = [Some true; Some true; Some true] /\ logged toy_be w 0 = Some CKU_USER /\ toy_rv w (DestroyObject 2 10) = CKR_OK.
Proof. cbv zeta. repeat (split; [vm_compute; reflexivity|]). vm_compute. reflexivity. Qed.
