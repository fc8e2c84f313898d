(* C14: which attribute queries are answered. *)
From Verif Require Import Base Monad Hoare Attr Obj Factory Tables Create Sqlite Storage Token Backend State Api Toy
  ObjSpec PlainSpec Rows ObjOk ObjNew Triple TokInv TokStep TokenFrame TokWp TokAuth Spec WorldWp Sessions SessionInv SessionFacts ObjWorld ObjView ObjAttrs NewView ObjFacts
  AttrFacts Errors ObjCalls ToyFacts SetFacts PlainFacts ThmObjects ThmAttrs AuthSpec Users AuthFacts AuthInv AuthPins AuthTry ThmAuth ThmInit KeyFacts ThmKeys SealSpec SealFacts ThmSeal KeptSpec ThmQuery ThmDestroy ThmDestroyAll.

Definition base_types : list N := [CKA_CLASS; CKA_KEY_TYPE; CKA_CERTIFICATE_TYPE; CKA_SENSITIVE; CKA_EXTRACTABLE].
Lemma missing_in b l ty : In ty (foldl add_missing l b) <-> In ty l \/ In ty b.
Proof.
  revert l. induction b as [|x b IH]; intros l; cbn [foldl In]; [tauto|]. rewrite IH. unfold add_missing. destruct (existsb (N.eqb x) l) eqn:Hx; cbn [In].
  - apply existsb_exists in Hx as (y & Hy & E1). apply N.eqb_eq in E1. subst y. split; [tauto|]. intros [?|[<-|?]]; auto.
  - rewrite in_app_iff. cbn. tauto.
Qed.
Lemma types_in l ty : l <> [] -> In ty (fetch_types l) <-> In ty l \/ In ty base_types.
Proof. intros H. unfold fetch_types. destruct l as [|x l]; [done|]. apply missing_in. Qed.
Lemma types_selected l ty : In ty l \/ In ty base_types -> selected (fetch_types l) ty = true.
Proof. destruct l as [|x l]; [done|]. intros H. apply selected_in. by apply types_in. Qed.
Lemma u32_all l : Forall (fun ty => ty < 2 ^ 32) l -> all_u32 l = Ok tt.
Proof. induction 1 as [|x l Hx _ IH]; [done|]. cbn [all_u32]. unfold u32_try. rewrite (proj2 (N.ltb_lt _ _) Hx). exact IH. Qed.
Lemma types_u32 l : Forall (fun ty => ty < 2 ^ 32) l -> all_u32 (fetch_types l) = Ok tt.
Proof.
  intros H. apply u32_all. destruct l as [|x l]; [done|]. apply List.Forall_forall. intros ty Hty. apply types_in in Hty; [|done]. destruct Hty as [Hty|Hty].
  - by apply (proj1 (List.Forall_forall _ _) H).
  - repeat (destruct Hty as [<-|Hty]; [vm_compute; reflexivity|]). done.
Qed.

Section answered.
Context (P : params) (B : backend) (E : N -> keyenv).
Context (Hfs : p_fs P = all_factories) (Hutf : forall n, utf8_valid (p_uuid P n) = true).
Notation world := (world B).
Notation from_scratch := (from_scratch P B E). Notation rv := (rv P B E). Notation after := (after P B E). Notation out_of := (out_of P B E).
Notation slot_of := (slot_of B). Notation token_of := (token_of B). Notation id_at := (id_at B). Notation bool_at := (bool_at B). Notation session_of := (session_of B).
Notation end_of := (end_of P B E).

Lemma types_readable t h uid m k l : tok_ok t -> t_sobjs t !! h = None -> h_map (t_handles t) !! h = Some uid -> rows_of (t_db t) uid = Some m ->
  d_tables (t_db t) = true -> kind_of t h = Some k -> In k (map fst all_factories) -> Forall (fun ty => ty < 2 ^ 32) l ->
  (k <> (CKO_PRIVATE_KEY, CKK_DH) -> forall ty a, selected (fetch_types l) ty = true -> In ty (secret_attrs k) -> row_attr m ty = Some a -> exists key x, t_key t = Some key /\ p_open P (t_ver t) key uid (a_val a) = Ok x) ->
  exists o, fetched P t h l o.
Proof using All.
  intros Ht Hso Hh Hm Htb Hk Hin Hu Hop. destruct (known_factory _ _ Hin) as [f Hf].
  pose proof (proj1 (rows_of_some _ _ _ ltac:(apply (tk_db _ Ht))) Hm) as (i & G1 & G2).
  destruct (db_ok_rows _ (tk_db _ Ht) _ _ G1) as (R1 & R2 & R3 & R4 & [vc R5]). set (l' := fetch_types l) in *.
  assert (exists o1, fetch_by_uid (t_db t) uid l' = Ok o1) as [o1 F2].
  { unfold fetch_by_uid. rewrite Htb. cbn [negb]. unfold l'. rewrite (types_u32 l Hu). fold l'. cbn [rbind]. rewrite (ids_found _ _ i m ltac:(apply (tk_db _ Ht)) G1 G2). cbn [map snd].
    assert (match l' with [] => map_to_list m | _ :: _ => List.filter (fun p => existsb (N.eqb (fst p)) l') (map_to_list m) end = List.filter (fun p => selected l' (fst p)) (map_to_list m)) as ->.
    { unfold selected. destruct l'; [by rewrite filter_true|done]. }
    set (g := List.filter (fun p => selected l' (fst p)) (map_to_list m)).
    destruct (add_rows_ok g (obj_new CK_UNAVAILABLE_INFORMATION)) as [o1 Ho1].
    { intros ty v Hx. apply in_filter in Hx as [Hx _]. apply (R2 ty v). by apply elem_of_map_to_list, elem_of_list_In. }
    exists o1. assert (In (CKA_CLASS, vc) g) as Hx.
    { apply in_filter. split; [by apply elem_of_list_In, elem_of_map_to_list|]. apply types_selected. right. by left. }
    clearbody g. destruct g as [|p r]; [done|]. cbn [List.filter]. rewrite rows_to_objects_one. unfold rows_to_object. rewrite Ho1. done. }
  destruct (fetch_get _ _ _ _ F2) as (i' & m' & K1 & K2 & K3 & K4 & _). assert (rows_of (t_db t) uid = Some m') as Hm' by (apply rows_of_some; [apply (tk_db _ Ht)|eauto]). rewrite Hm in Hm'. injection Hm' as <-.
  assert (forall ty, In ty base_types -> get_attr o1 ty = row_attr m ty) as Hb by (intros ty Hty; apply K3, types_selected; by right).
  assert (get_object_factory (p_fs P) o1 = Ok f) as Hof.
  { revert Hk. unfold kind_of, class_of, num_of, attr_of. rewrite Hso, Hh, Hm. unfold get_object_factory, get_ulong, get_as. rewrite !Hb by (cbn; tauto). rewrite Hfs.
    destruct (row_attr m CKA_CLASS) as [a|]; [|done]. destruct (attr_to_ulong a) as [c|]; [|done]. cbn [opt rbind].
    unfold secret_class. destruct (c =? CKO_CERTIFICATE).
    - destruct (row_attr m CKA_CERTIFICATE_TYPE) as [b|]; [|done]. destruct (attr_to_ulong b); [|done]. cbn. by intros [= <-].
    - rewrite !orb_assoc. destruct (_ || (c =? CKO_OTP_KEY)).
      + destruct (row_attr m CKA_KEY_TYPE) as [b|]; [|done]. destruct (attr_to_ulong b); [|done]. cbn. by intros [= <-].
      + cbn. by intros [= <-]. }
  pose proof (obj_factory_good P Hfs _ _ Hof) as Hg. pose proof (factory_in _ _ _ Hf) as Hkf.
  destruct (decrypt_opens P (t_ver t) (t_key t) uid (f_sensitive f) o1) as [o2 Ho2].
  - pose proof (proj1 (forallb_forall _ _) sensitive_once _ Hkf) as X. by apply bool_decide_eq_true_1 in X.
  - intros ty Hty. by destruct (good_sens f ty Hg Hty) as (_ & ? & _).
  - intros ty a Hty Ha. destruct (selected l' ty) eqn:Hsel; [|rewrite (K4 ty Hsel) in Ha; [done|by destruct (good_sens f ty Hg Hty) as (_ & ? & _)]].
    rewrite (K3 ty Hsel) in Ha.
    pose proof (proj1 (forallb_forall _ _) sensitive_listed _ Hkf) as X. cbn [fst snd] in X. pose proof (proj1 (forallb_forall _ _) X _ Hty) as Y.
    apply existsb_exists in Y as (y & Y1 & Y2). apply N.eqb_eq in Y2. subst y. apply (Hop) with (ty := ty); [|done|done|done].
    intros ->. pose proof (proj1 (forallb_forall _ _) sensitive_dh _ Hkf) as Z. cbn [fst snd] in Z. rewrite bool_decide_eq_true_2 in Z by done. cbn in Z. destruct (f_sensitive f); done.
  - exists (set_handle o2 h), uid, o1, f, o2. split_and!; done.
Qed.
Lemma get_runs w s sid h l cnt t t' q r : winv B w -> slot_of w s = Some sid -> token_of w sid = Some t -> get_object_attrs P h l t = (t', Ok (q, r)) ->
  out_of w (GetAttributeValue s h (Some l) cnt) = OAttrs q /\ rv w (GetAttributeValue s h (Some l) cnt) = r.
Proof using All.
  intros Hw H1 Htk H7. destruct (slot_parts B w s sid Hw H1) as (sl & se & H2 & H3 & S3 & _ & H4). rewrite S3 in Htk. injection Htk as <-. pose proof (wi_inv _ _ Hw) as HI.
  assert (initialized B w = true) as Hin.
  { unfold initialized. destruct (N.eqb_spec (w_next w) 0) as [E0|]; [|done]. pose proof (si_off _ _ HI E0) as X. rewrite X, lookup_empty in H2. done. }
  assert (exists w', api P B E (GetAttributeValue s h (Some l) cnt) w = (w', Ok (r, OAttrs q))) as (w' & A1).
  { eexists. cbn [api]. unfold c_get_attribute_value, tmpl_of, Api.lock, State.lock, token_of_session, session_slot, token_ready, get_slot, Api.tok, State.tok, get_slot, ensure, gets, Monad.mbind, put_slot, modify, lift, ret, skip, failed.
    unfold Spec.slot_of in H1. rewrite Hin, H1. cbn [fst snd]. rewrite Hin, H2. cbn [fst snd]. rewrite H4. cbn [fst snd]. rewrite Hin, H2, H7. reflexivity. }
  unfold Spec.rv, Spec.out_of, step. rewrite A1. done.
Qed.

(* C14: a query of a session object is always answered. *)
Theorem C14_session_answered w s sid h l cnt : from_scratch w -> slot_of w s = Some sid -> session_object_at B w sid h = true ->
  exists q, out_of w (GetAttributeValue s h (Some l) cnt) = OAttrs q.
Proof using All.
  intros Hw Hs Hso. pose proof (scratch_winv P B E Hfs Hutf w Hw) as HW. destruct (slot_parts B w s sid HW Hs) as (sl & se & S1 & S2 & S3 & S4 & Hi).
  pose proof (wo_slots _ _ (wi_ok _ _ HW) _ _ S1) as Hok. unfold session_object_at, is_session_object in Hso. rewrite S3 in Hso. destruct (t_sobjs (sl_token sl) !! h) as [o|] eqn:Ho; [|done].
  pose proof (so_token _ _ _ (tk_sobj _ Hok _ _ Ho)) as Htk. destruct (get_object_attributes (p_fs P) o l) as [q r] eqn:Hg. exists q.
  eapply (get_runs w s sid h l cnt (sl_token sl) (sl_token sl) q r); try done.
  unfold get_object_attrs, get_or_fetch, Monad.mbind, gets, ensure, ret. rewrite Ho, Htk. cbn [negb]. rewrite orb_true_r. cbn. by rewrite Hg.
Qed.

Lemma stored_answered w s sid t h l cnt : from_scratch w -> slot_of w s = Some sid -> token_of w sid = Some t -> session_object_at B w sid h = false ->
  admitted B w sid h -> healthy t -> (exists o, fetched P t h (map q_type l ++ (if logged_in t then [] else [CKA_TOKEN; CKA_PRIVATE])) o) ->
  exists q, out_of w (GetAttributeValue s h (Some l) cnt) = OAttrs q /\ factory_of P t h <> None.
Proof using All.
  intros Hw Hs Ht Hso Had Hio [o F]. pose proof (scratch_winv P B E Hfs Hutf w Hw) as HW. pose proof (token_ok B _ _ _ HW Ht) as Hok.
  unfold session_object_at, is_session_object in Hso. unfold admitted, logged, Spec.bool_at, bool_of in Had. rewrite Ht in Hso, Had. destruct (t_sobjs t !! h) as [?|] eqn:Ho; [done|].
  assert (logged_in t || negb (is_token o) || negb (is_private o) = true) as Hsee.
  { destruct (logged_in t) eqn:Hl; [done|]. pose proof (fetched_attr P Hfs _ _ _ _ CKA_PRIVATE KBool Hok F Ho ltac:(apply types_selected; left; apply in_app_iff; right; cbn; tauto) eq_refl ltac:(done)) as Ap.
    unfold logged_in in Hl. cbn in Had. destruct Had as [X|[X|X]]; [simplify_eq; rewrite X in Hl; done|simplify_eq; rewrite X in Hl; done|].
    unfold is_private, bool_attr. rewrite Ap. destruct (attr_of t h CKA_PRIVATE) as [a|]; [|done]. destruct (attr_to_bool a) as [b|]; [|done]. cbn in X. simplify_eq. apply orb_true_r. }
  destruct (get_object_attributes (p_fs P) o l) as [q r] eqn:Hg. exists q.
  assert (get_object_attrs P h l t = (t, Ok (q, r))) as Hrun.
  { unfold get_object_attrs, get_or_fetch, Monad.mbind, gets, ensure, ret. rewrite Ho, (fetch_now P _ _ _ _ Hio F), Hsee. by rewrite Hg. }
  split; [by eapply get_runs|]. destruct (shows_fetched P Hfs _ _ _ _ Hok Ho F) as [Hsh Hf]. rewrite (sh_factory _ _ _ _ _ Hsh). by destruct (get_object_factory (p_fs P) o).
Qed.

(* C14: so is a query of an object in the database that asks for no secret. *)
Theorem C14_plain_answered_partial w s sid t h u k l cnt : from_scratch w -> slot_of w s = Some sid -> token_of w sid = Some t ->
  session_object_at B w sid h = false -> id_at w sid h = Some u -> kind_of t h = Some k -> In k (map fst all_factories) ->
  admitted B w sid h -> healthy t -> d_tables (t_db t) = true ->
  l <> [] -> Forall (fun q => q_type q < 2 ^ 32 /\ ~ In (q_type q) (secret_attrs k)) l ->
  exists q, out_of w (GetAttributeValue s h (Some l) cnt) = OAttrs q /\ factory_of P t h <> None.
Proof using All.
  intros Hw Hs Ht Hso Hid Hk Hin Had Hio Htb Hne Hl. apply (stored_answered w s sid); try done.
  pose proof (scratch_winv P B E Hfs Hutf w Hw) as HW. pose proof (token_ok B _ _ _ HW Ht) as Hok.
  unfold session_object_at, is_session_object in Hso. unfold Spec.id_at, object_id in Hid. rewrite Ht in Hso, Hid. destruct (t_sobjs t !! h) as [?|] eqn:Ho; [done|].
  destruct (h_map (t_handles t) !! h) as [uid|] eqn:Hh; [|done]. destruct (rows_of (t_db t) uid) as [m|] eqn:Hm; [|done].
  pose proof (proj1 (List.Forall_forall _ _) Hl) as Hl'.
  apply (types_readable t h uid m k); try done.
  - apply List.Forall_forall. intros ty Hty. apply in_app_iff in Hty as [Hty|Hty]; [apply in_map_iff in Hty as (q & <- & Hq); by apply Hl'|].
    destruct (logged_in t); [done|]. destruct Hty as [<-|[<-|[]]]; vm_compute; reflexivity.
  - intros _ ty a Hsel Hty _. exfalso. apply in_map_iff in Hin as ([k0 f] & <- & Hin). cbn [fst] in Hty.
    assert (forallb (fun x => forallb (fun ty => negb (existsb (N.eqb ty) (CKA_TOKEN :: CKA_PRIVATE :: base_types))) (secret_attrs (fst x))) all_factories = true) as Hall by (by vm_compute).
    pose proof (proj1 (forallb_forall _ _) (proj1 (forallb_forall _ _) Hall _ Hin) _ Hty) as X. cbn beta in X. apply negb_true_iff in X.
    assert (~ In ty (CKA_TOKEN :: CKA_PRIVATE :: base_types)) as Hno. { intros Y. assert (existsb (N.eqb ty) (CKA_TOKEN :: CKA_PRIVATE :: base_types) = true) as Z; [|congruence]. apply existsb_exists. exists ty. split; [done|apply N.eqb_refl]. }
    destruct l as [|q0 l0]; [done|]. cbn [map app] in Hsel. unfold selected in Hsel. destruct (fetch_types _) as [|x r] eqn:Hft.
    + assert (In CKA_CLASS (fetch_types (q_type q0 :: map q_type l0 ++ (if logged_in t then [] else [CKA_TOKEN; CKA_PRIVATE])))) as Y by (apply types_in; [done|right; by left]). by rewrite Hft in Y.
    + apply existsb_exists in Hsel as (y & Y1 & Y2). apply N.eqb_eq in Y2. subst y. rewrite <- Hft in Y1. apply types_in in Y1; [|done]. destruct Y1 as [Y1|Y1]; [|apply Hno; cbn in *; tauto].
      change (In ty (map q_type (q0 :: l0) ++ (if logged_in t then [] else [CKA_TOKEN; CKA_PRIVATE]))) in Y1. apply in_app_iff in Y1 as [Y1|Y1].
      * apply in_map_iff in Y1 as (q & <- & Hq). by apply (Hl' q Hq).
      * destruct (logged_in t); [done|]. apply Hno. cbn in *. tauto.
Qed.

(* C14: and any query of an object in the database while the key of the token is in memory. *)
Theorem C14_secret_answered_partial (HV : value_laws P) (HL : pin_laws P) (HS : sane (fun e => plain_code e = true) P B E)
  (Hop : forall x h l, be_updates B x = Some (h, l) -> Forall (fun c => ca_type c = CKA_OTP_COUNTER) l /\ Nat.le (length l) 1)
  cs pin label cs' s sid t key h u k l cnt : let c := InitToken sid pin label in let w := end_of (cs ++ [c] ++ cs') in
  forallb plain_call (cs ++ [c] ++ cs') = true -> rv (end_of cs) c = CKR_OK -> unwiped P B E (end_of (cs ++ [c])) cs' sid = true ->
  slot_of w s = Some sid -> token_of w sid = Some t -> t_key t = Some key ->
  session_object_at B w sid h = false -> id_at w sid h = Some u -> kind_of t h = Some k -> In k (map fst all_factories) ->
  admitted B w sid h -> healthy t -> Forall (fun q => q_type q < 2 ^ 32) l ->
  exists q, out_of w (GetAttributeValue s h (Some l) cnt) = OAttrs q /\ factory_of P t h <> None.
Proof using Hfs Hutf.
  intros c w Hp Hi Hun Hs Ht Hkey Hso Hid Hk Hin Had Hio Hl.
  assert (d_tables (t_db t) = true) as Htb.
  { destruct (end_pins P B E Hfs Hutf HL HS (cs ++ [c] ++ cs') sid (plain_steady _ Hp)) as (v & k0 & HK). fold w in HK.
    rewrite (view_token _ _ _ _ Ht) in HK. by destruct (po_key _ _ _ _ _ HK key Hkey) as (_ & _ & ?). }
  assert (from_scratch w) as Hw by (exists (cs ++ [c] ++ cs'); reflexivity).
  destruct (C28_sealed_partial P B E Hfs Hutf HL HS Hop cs sid pin label cs' Hp Hi Hun) as (v & k0 & Hsd & Hmem). fold c w in Hsd, Hmem. destruct (Hmem t key Ht Hkey) as [-> Hv].
  apply (stored_answered w s sid); try done.
  pose proof (scratch_winv P B E Hfs Hutf w Hw) as HW. pose proof (token_ok B _ _ _ HW Ht) as Hok.
  unfold session_object_at, is_session_object in Hso. unfold Spec.id_at, object_id in Hid. rewrite Ht in Hso, Hid. destruct (t_sobjs t !! h) as [?|] eqn:Ho; [done|].
  destruct (h_map (t_handles t) !! h) as [uid|] eqn:Hh; [|done]. destruct (rows_of (t_db t) uid) as [m|] eqn:Hm; [|done].
  apply (types_readable t h uid m k); try done.
  { apply List.Forall_forall. intros ty Hty. apply in_app_iff in Hty as [Hty|Hty]; [apply in_map_iff in Hty as (q & <- & Hq); by apply (proj1 (List.Forall_forall _ _) Hl)|].
    destruct (logged_in t); [done|]. destruct Hty as [<-|[<-|[]]]; vm_compute; reflexivity. }
  intros Hdh ty a _ Hty Ha.
  pose proof (proj1 (rows_of_some _ _ _ ltac:(apply (tk_db _ Hok))) Hm) as (i & G1 & G2).
  assert (db_at B w sid = t_db t) as Hdb. { unfold db_at. unfold Spec.token_of in Ht. destruct (w_slots w !! sid); [|done]. by injection Ht as <-. }
  rewrite Hdb in Hsd. destruct k as [c0 kt].
  assert (row_kind m = Some (c0, kt)) as Hrk.
  { destruct (secret_key c0 kt ty Hty) as (S1 & S2 & _). revert Hk. unfold kind_of, class_of, num_of, attr_of. rewrite Ho, Hh, Hm. unfold row_kind, row_num.
    destruct (row_attr m CKA_CLASS) as [b|]; [|done]. destruct (attr_to_ulong b) as [c1|]; [|done]. cbn [opt]. destruct (N.eqb_spec c1 CKO_CERTIFICATE) as [->|].
    - destruct (match row_attr m CKA_CERTIFICATE_TYPE with Some _ => _ | None => _ end); [|done]. cbn. intros [= <- _]. done.
    - unfold secret_class in S1. destruct (_ || (c1 =? CKO_OTP_KEY)) eqn:Hor.
      + destruct (row_attr m CKA_KEY_TYPE) as [b'|]; [|done]. destruct (attr_to_ulong b'); [|done]. cbn. by intros [= <- <-].
      + intros [= <- _]. rewrite !orb_false_iff in Hor. destruct Hor as [[[_ O1] O2] O3]. rewrite O1, O2, O3 in S1. done. }
  destruct (Hsd i m G1) with (ty := ty) (a := a) as (uid' & r & x & X1 & X2); [congruence|unfold row_secrets; by rewrite Hrk|done|].
  rewrite G2 in X1. injection X1 as <-. exists k0, x. split; [done|]. rewrite Hv. by eapply vl_open.
Qed.
End answered.

(* ---- cases ---- *)
Notation toy_rv := (rv toy toy_be toy_env). Notation toy_out := (out_of toy toy_be toy_env).
(* The session object 12, asked for an attribute type the database cannot hold. *)
Example C14_session_answered_case : from_scratch toy toy_be toy_env wq /\ Spec.slot_of toy_be wq 2 = Some 0 /\ session_object_at toy_be wq 0 12 = true /\
  toy_out wq (GetAttributeValue 2 12 (Some [QAttr (2 ^ 32) None 0; QAttr CKA_LABEL None 0]) 2) = OAttrs [QAttr (2 ^ 32) None CK_UNAVAILABLE_INFORMATION; QAttr CKA_LABEL None 2].
Proof. split; [apply toy_user_scratch|]. repeat (split; [vm_compute; reflexivity|]). vm_compute. reflexivity. Qed.
(* The key 11 in the database, asked for its label and for an attribute it has not, by nobody logged in. *)
Definition wa := fst (toy_run toy_user [CreateObject 2 (Some (dh_tmpl true)) true; CreateObject 2 (Some (aes_tmpl true ++ [ca CKA_LABEL [97]; tbool CKA_PRIVATE false])) true; Logout 2]).
Definition ask : list qattr := [QAttr CKA_MODULUS None 0; QAttr CKA_LABEL None 0].
Example C14_plain_answered_case : from_scratch toy toy_be toy_env wa /\ Spec.slot_of toy_be wa 2 = Some 0 /\ session_object_at toy_be wa 0 11 = false /\
  match Spec.id_at toy_be wa 0 11 with Some _ => true | None => false end = true /\
  option_map (fun t => (kind_of t 11, t_io t, t_key t, d_tables (t_db t))) (Spec.token_of toy_be wa 0) = Some (Some (CKO_SECRET_KEY, CKK_AES), [], None, true) /\
  existsb (fun x => bool_decide (fst x = (CKO_SECRET_KEY, CKK_AES))) all_factories = true /\ admitted toy_be wa 0 11 /\
  forallb (fun q => (q_type q <? 2 ^ 32) && negb (existsb (N.eqb (q_type q)) (secret_attrs (CKO_SECRET_KEY, CKK_AES)))) ask = true /\
  toy_rv wa (GetAttributeValue 2 11 (Some ask) 2) = CKR_ATTRIBUTE_TYPE_INVALID /\
  toy_out wa (GetAttributeValue 2 11 (Some ask) 2) = OAttrs [QAttr CKA_MODULUS None CK_UNAVAILABLE_INFORMATION; QAttr CKA_LABEL None 1].
Proof.
  split; [apply toy_user_scratch|]. do 5 (split; [vm_compute; reflexivity|]). split; [right; right; vm_compute; reflexivity|]. repeat (split; [vm_compute; reflexivity|]). vm_compute. reflexivity.
Qed.
(* The same object asked for its secret: without the key in memory there is no answer, not even for its label. *)
Example C14_secret_unanswered : let c := GetAttributeValue 2 11 (Some [QAttr CKA_LABEL None 0; QAttr CKA_VALUE None 0]) 2 in
  toy_rv wa c <> CKR_OK /\ toy_out wa c = ONone.
Proof. cbv zeta. split; vm_compute; [discriminate|reflexivity]. Qed.
Example C14_secret_answered_case : let w := toy_end (before28 ++ [init28] ++ then59) in
  forallb plain_call (before28 ++ [init28] ++ then59) = true /\ toy_rv (toy_end before28) init28 = CKR_OK /\
  unwiped toy toy_be toy_env (toy_end (before28 ++ [init28])) then59 0 = true /\
  Spec.slot_of toy_be w 2 = Some 0 /\ session_object_at toy_be w 0 10 = false /\
  match Spec.id_at toy_be w 0 10 with Some _ => true | None => false end = true /\ option_map t_key (Spec.token_of toy_be w 0) = Some (Some (p_master toy 0)) /\
  option_map known59 (Spec.token_of toy_be w 0) = Some (Some (CKO_SECRET_KEY, CKK_AES), true, [], true) /\ logged toy_be w 0 = Some CKU_USER /\
  match toy_out w (GetAttributeValue 2 10 (Some [QAttr CKA_VALUE None 0]) 1) with OAttrs _ => true | _ => false end = true.
Proof. cbv zeta. repeat (split; [vm_compute; reflexivity|]). vm_compute. reflexivity. Qed.
