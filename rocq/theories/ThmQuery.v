(* C11, C14: what C_GetAttributeValue shows. *)
From Verif Require Import Base Monad Hoare Attr Obj Factory Tables Create Sqlite Storage Token Backend State Api Toy
  ObjSpec PlainSpec Rows ObjOk ObjNew Triple TokInv TokStep TokWp TokAuth PlainFacts Spec WorldWp Sessions SessionInv SessionFacts ObjWorld ObjView ObjAttrs NewView ObjFacts
  AttrFacts Errors ObjCalls ToyFacts SetFacts ThmObjects ThmAttrs.

Section query.
Context (P : params) (B : backend) (E : N -> keyenv).
Context (Hfs : p_fs P = all_factories) (Hutf : forall n, utf8_valid (p_uuid P n) = true).
Notation world := (world B).
Notation from_scratch := (from_scratch P B E). Notation rv := (rv P B E). Notation after := (after P B E). Notation run := (run P B E).
Notation out_of := (out_of P B E). Notation slot_of := (slot_of B). Notation token_of := (token_of B).

Lemma get_one_reply t h sel o f q q' e : shows P t h sel o -> get_object_factory (p_fs P) o = Ok f -> sel (q_type q) = true -> get_one f o q = (q', e) ->
  reply (hidden P t h (q_type q)) (if has_type P t h (q_type q) then value_of P t h (q_type q) else None) q q' e.
Proof.
  intros [S1 S2 S3 _ S5] Hf Hsel. specialize (S5 _ Hsel). rewrite Hf in S5, S2. cbn [is_ok opt] in *. specialize (S5 eq_refl). rewrite <- S5. unfold has_type, hidden. rewrite S2, S3. unfold get_one.
  destruct (find_oa (f_attrs f) (q_type q)) as [oa|]; [|rewrite andb_false_r; intros [= <- <-]; by apply ReplyMissing].
  destruct (_ && oa_is oa OA_Sensitive) eqn:Hhid; [intros [= <- <-]; by apply ReplyHidden|].
  destruct (get_attr o (q_type q)) as [a|]; cbn [fmap option_fmap option_map]; [|intros [= <- <-]; by apply ReplyMissing].
  destruct q as [ty [b|] n]; cbn [q_buf q_type q_len]; [|intros [= <- <-]; by eapply ReplyLength].
  destruct (N.eqb_spec n CK_UNAVAILABLE_INFORMATION) as [->|]; [intros [= <- <-]; by eapply ReplyBad|].
  destruct (N.ltb_spec n (blen (a_val a))); intros [= <- <-]; [by eapply ReplySmall|by eapply ReplyValue].
Qed.
Lemma get_loop_reply t h sel o f l : shows P t h sel o -> get_object_factory (p_fs P) o = Ok f -> (forall q, In q l -> sel (q_type q) = true) ->
  forall res q' e, get_loop f o l res = (q', e) -> exists es, Forall3 (fun q q' e => reply (hidden P t h (q_type q)) (if has_type P t h (q_type q) then value_of P t h (q_type q) else None) q q' e) l q' es /\
    e = if res =? CKR_OK then first_error es else res.
Proof.
  intros Hs Hf. induction l as [|q l IH]; intros Hsel res q' e; cbn [get_loop].
  - intros [= <- <-]. exists []. split; [constructor|]. cbn [first_error]. destruct (N.eqb_spec res CKR_OK); done.
  - destruct (get_one f o q) as [q1 e1] eqn:H1. destruct (get_loop f o l _) as [r' e'] eqn:H2. intros [= <- <-].
    destruct (IH (fun q Hq => Hsel q (or_intror Hq)) _ _ _ H2) as (es & E1 & ->). exists (e1 :: es). split.
    + constructor; [|done]. eapply get_one_reply; try done. apply Hsel. by left.
    + cbn [first_error]. destruct (N.eqb_spec res CKR_OK) as [->|Hne]; [done|]. destruct (N.eqb_spec res CKR_OK); done.
Qed.
(* The answer to a query. *)
Lemma get_object_attrs_reply t h l t' q r : tok_ok t -> get_object_attrs P h l t = (t', Ok (q, r)) ->
  (logged_in t = true \/ is_session_object t h = true \/ bool_of t h CKA_PRIVATE = Some false) /\
  (factory_of P t h = None /\ q = l /\ r <> CKR_OK \/
   factory_of P t h <> None /\ exists es, Forall3 (fun q q' e => reply (hidden P t h (q_type q)) (if has_type P t h (q_type q) then value_of P t h (q_type q) else None) q q' e) l q es /\ r = first_error es).
Proof.
  intros Ht.
  cut (wp (get_object_attrs P h l) t (fun _ ro => match ro with Ok (q, r) =>
    (logged_in t = true \/ is_session_object t h = true \/ bool_of t h CKA_PRIVATE = Some false) /\
    (factory_of P t h = None /\ q = l /\ r <> CKR_OK \/
     factory_of P t h <> None /\ exists es, Forall3 (fun q q' e => reply (hidden P t h (q_type q)) (if has_type P t h (q_type q) then value_of P t h (q_type q) else None) q q' e) l q es /\ r = first_error es) | Err _ => True end)).
  { intros H Hi. unfold wp in H. by rewrite Hi in H. }
  unfold get_object_attrs, get_or_fetch. apply wp_bind, wp_gets. cbv zeta. apply wp_bind, wp_bind, wp_gets. destruct (t_sobjs t !! h) as [o|] eqn:Hs.
  - apply wp_ret, wp_bind, wp_ensure; [|done]. intros _. apply wp_ret. destruct (get_object_attributes _ _ _) as [q1 e1] eqn:Hgo. split; [right; left; unfold is_session_object; by rewrite Hs|].
    pose proof (shows_session P _ _ _ Ht Hs) as Hsh. unfold get_object_attributes in Hgo. destruct (get_object_factory (p_fs P) o) as [f|e] eqn:Hf.
    + right. destruct (get_loop_reply _ _ _ _ _ _ Hsh Hf (fun _ _ => eq_refl) _ _ _ Hgo) as (es & E1 & E2). split; [by rewrite (sh_factory _ _ _ _ _ Hsh), Hf|by exists es].
    + injection Hgo as <- <-. left. split_and!; [|done|]; [by rewrite (sh_factory _ _ _ _ _ Hsh), Hf|]. pose proof (ok_object_factory (fun e => e <> CKR_OK) plain_ok (p_fs P) o) as Ho. by rewrite Hf in Ho.
  - apply wp_st_fetch; [|done]. intros i o Hf. apply wp_bind, wp_ensure; [|done]. intros Hen. apply wp_ret. destruct (get_object_attributes _ _ _) as [q1 e1] eqn:Hgo.
    destruct (shows_fetched P Hfs _ _ _ _ Ht Hs Hf) as [Hsh Hok]. destruct (get_object_factory (p_fs P) o) as [f|e] eqn:Hof; [|done]. split.
    + destruct (logged_in t) eqn:Hlog; [by left|]. right. right. cbn [orb] in Hen.
      assert (forall ty, ty = CKA_TOKEN \/ ty = CKA_PRIVATE -> get_attr o ty = attr_of t h ty) as Hg.
      { intros ty Hty. apply (sh_plain _ _ _ _ _ Hsh ty KBool); [|by destruct Hty as [-> | ->]|done]. apply fetch_types_basic. right. apply in_app_iff. right. destruct Hty as [-> | ->]; cbn; tauto. }
      assert (is_token o = true) as Htk.
      { unfold is_token, bool_attr. rewrite (Hg CKA_TOKEN) by tauto. destruct Hf as (uid & o1 & f1 & o2 & F1 & F2 & _). destruct (fetch_get _ _ _ _ F2) as (j & m & M1 & M2 & _).
        unfold attr_of. rewrite Hs, F1. assert (rows_of (t_db t) uid = Some m) as -> by (apply rows_of_some; [apply (tk_db _ Ht)|eauto]).
        destruct (db_ok_rows _ (tk_db _ Ht) _ _ M1) as (_ & _ & R3 & _). by rewrite R3. }
      rewrite Htk in Hen. cbn [negb orb] in Hen. unfold is_private, bool_attr in Hen. rewrite (Hg CKA_PRIVATE) in Hen by tauto. unfold bool_of.
      destruct (attr_of t h CKA_PRIVATE) as [a|]; [|done]. by destruct (attr_to_bool a) as [[]|].
    + right. unfold get_object_attributes in Hgo. rewrite Hof in Hgo.
      destruct (get_loop_reply _ _ _ _ _ _ Hsh Hof (fun q Hq => fetch_types_basic _ _ (or_intror (in_or_app _ _ _ (or_introl (in_map _ _ _ Hq))))) _ _ _ Hgo) as (es & E1 & E2). split; [by rewrite (sh_factory _ _ _ _ _ Hsh), Hof|by exists es].
Qed.

(* C14: either nothing is written, or every entry is answered by itself, from the attribute it asks for, and the
   return value is the first of the errors of the entries. Nothing is said of any entry only for a session object of a kind
   the module does not know. *)
Theorem C14_entries_partial w s h tm cnt sid t q : from_scratch w -> slot_of w s = Some sid -> token_of w sid = Some t ->
  let c := GetAttributeValue s h tm cnt in out_of w c = OAttrs q ->
  factory_of P t h = None /\ q = default [] tm /\ rv w c <> CKR_OK \/
  factory_of P t h <> None /\ exists es, Forall3 (fun q q' e => reply (hidden P t h (q_type q)) (if has_type P t h (q_type q) then value_of P t h (q_type q) else None) q q' e) (default [] tm) q es /\
    rv w c = first_error es.
Proof.
  intros Hs Hsl Htk c Ho. apply (scratch_winv P B E Hfs Hutf) in Hs.
  destruct (get_call P B E w s h tm cnt Hs) as [[_ [e Ha]]|(sid' & t1 & t' & l & q1 & r & C1 & C2 & -> & C4 & C5)]; [apply answer_err in Ha as [_ Ha]; fold c in Ha; congruence|].
  apply answer_ok in C5 as [C5 C6]. fold c in C5, C6. assert (q1 = q) as -> by congruence. assert (sid' = sid) as -> by (unfold Spec.slot_of in Hsl; congruence).
  assert (t1 = t) as -> by (destruct C2; congruence). pose proof (token_ok B _ _ _ Hs Htk) as Ht. rewrite C5. by apply get_object_attrs_reply in C4 as [_ C4].
Qed.
Theorem C14_nothing_else w s h tm cnt : from_scratch w -> let c := GetAttributeValue s h tm cnt in
  out_of w c = ONone \/ exists q, out_of w c = OAttrs q.
Proof.
  intros Hs c. apply (scratch_winv P B E Hfs Hutf) in Hs.
  destruct (get_call P B E w s h tm cnt Hs) as [[_ [e Ha]]|(sid' & t1 & t' & l & q1 & r & C1 & C2 & -> & C4 & C5)]; [apply answer_err in Ha as [_ Ha]; by left|].
  apply answer_ok in C5 as [_ C5]. eauto.
Qed.

(* C11: of a protected key, no attribute holding a secret is written or measured; the entry is marked unavailable and
   causes CKR_ATTRIBUTE_SENSITIVE. *)
Lemma secret_flagged k f ty : get_factory all_factories k = Ok f -> k <> (CKO_PRIVATE_KEY, CKK_DH) -> In ty (secret_attrs k) ->
  match find_oa (f_attrs f) ty with Some oa => oa_is oa OA_Sensitive | None => false end = true.
Proof.
  intros Hk Hne Hin. apply get_factory_in in Hk.
  assert (forallb (fun x => bool_decide (fst x = (CKO_PRIVATE_KEY, CKK_DH)) || forallb (fun ty => match find_oa (f_attrs (snd x)) ty with Some oa => oa_is oa OA_Sensitive | None => false end)
    (secret_attrs (fst x))) all_factories = true) as Hall by (by vm_compute).
  pose proof (proj1 (forallb_forall _ _) Hall _ Hk) as Hx. cbn [fst snd] in Hx. apply orb_true_iff in Hx as [Hx|Hx]; [by apply bool_decide_eq_true_1 in Hx|].
  exact (proj1 (forallb_forall _ _) Hx _ Hin).
Qed.
Theorem C11_secrets_hidden_partial w s h tm cnt sid t q k : from_scratch w -> slot_of w s = Some sid -> token_of w sid = Some t ->
  let c := GetAttributeValue s h tm cnt in out_of w c = OAttrs q ->
  is_protected t h = true -> kind_of t h = Some k -> k <> (CKO_PRIVATE_KEY, CKK_DH) ->
  q = default [] tm /\ rv w c <> CKR_OK \/
  exists es, rv w c = first_error es /\ length q = length (default [] tm) /\
    forall i q0, default [] tm !! i = Some q0 -> In (q_type q0) (secret_attrs k) ->
      q !! i = Some (QAttr (q_type q0) (q_buf q0) CK_UNAVAILABLE_INFORMATION) /\ es !! i = Some CKR_ATTRIBUTE_SENSITIVE.
Proof.
  intros Hs Hsl Htk c Ho Hp Hk Hne. destruct (C14_entries_partial w s h tm cnt sid t q Hs Hsl Htk Ho) as [(_ & ? & ?)|(Hf & es & E1 & E2)]; [by left|]. right. exists es.
  split; [done|]. split; [symmetry; by eapply Forall3_length_lm|]. intros i q0 Hi Hin.
  destruct (Forall3_lookup_l _ _ _ _ _ _ E1 Hi) as (q1 & e & Q1 & Q2 & Hr).
  assert (hidden P t h (q_type q0) = true) as Hh.
  { unfold hidden, factory_of in *. rewrite Hp, Hk in *. cbn [andb]. destruct (get_factory (p_fs P) k) as [f|] eqn:Hfk; [|done]. rewrite Hfs in Hfk. cbn [opt]. by apply (secret_flagged k). }
  rewrite Hh in Hr. inversion Hr; try done; simplify_eq. done.
Qed.
End query.

(* What `reply` means for the caller's memory: null pointers stay null, a buffer keeps its size if the caller states no
   more than its size, nothing after the stated length changes, and the entry is marked unavailable if the attribute is
   missing, hidden or too large. *)
Theorem C14_memory hid v q q' e : reply hid v q q' e -> q_type q' = q_type q /\
  match q_buf q, q_buf q' with
  | None, None => True
  | Some b, Some b' => (q_len q <= blen b -> length b' = length b /\ skipn (N.to_nat (q_len q)) b' = skipn (N.to_nat (q_len q)) b) /\
      (e <> CKR_OK -> b' = b)
  | _, _ => False
  end /\
  (e = CKR_OK <-> exists x, v = Some x /\ hid = false /\ q_len q' = blen x /\
     match q_buf q' with Some b' => blen x <= q_len q /\ q_len q <> CK_UNAVAILABLE_INFORMATION /\ firstn (length x) b' = x | None => True end) /\
  (hid = true -> e = CKR_ATTRIBUTE_SENSITIVE) /\ (hid = false -> v = None -> e = CKR_ATTRIBUTE_TYPE_INVALID) /\
  (In e [CKR_ATTRIBUTE_SENSITIVE; CKR_ATTRIBUTE_TYPE_INVALID; CKR_BUFFER_TOO_SMALL] -> q_len q' = CK_UNAVAILABLE_INFORMATION).
Proof.
  intros H. destruct H as [Hh Hv|Hh|x Hh Hv Hb|x b Hh Hv Hb Hl|x b Hh Hv Hb Hl Hn|x b Hh Hv Hb Hl]; cbn [q_type q_buf q_len]; subst.
  - split; [done|]. split; [by destruct (q_buf q)|]. split; [split; [done|by intros (x & ? & _)]|]. done.
  - split; [done|]. split; [by destruct (q_buf q)|]. split; [split; [done|by intros (x & ? & ? & _)]|]. done.
  - rewrite Hb. split; [done|]. split; [done|]. split; [split; [eauto|done]|]. split; [done|]. split; [done|]. intros Hin. by repeat (destruct Hin as [Hin|Hin]; [discriminate Hin|]).
  - rewrite Hb. split; [done|]. split; [done|]. split; [split; [done|]|done]. intros (y & [= <-] & _ & _ & Hy & _). lia.
  - rewrite Hb. split; [done|]. split.
    + split; [|done]. unfold blen in *. intros Hle. rewrite app_length, skipn_length. split; [lia|]. rewrite skipn_app. rewrite (skipn_all2 x) by lia. cbn [app].
      rewrite drop_drop. f_equal. lia.
    + split; [split; [|done]|].
      * intros _. exists x. split_and!; try done. by rewrite firstn_app, Nat.sub_diag, firstn_O, app_nil_r, firstn_all.
      * split; [done|]. split; [done|]. intros Hin. by repeat (destruct Hin as [Hin|Hin]; [discriminate Hin|]).
  - rewrite Hb. split; [done|]. split; [done|]. split; [split; [done|]|].
    + intros (y & _ & _ & _ & _ & Hy & _). by rewrite Hl in Hy.
    + split; [done|]. split; [done|]. intros Hin. by repeat (destruct Hin as [Hin|Hin]; [discriminate Hin|]).
Qed.

(* ---- cases ---- *)
Definition dh_tmpl (tok : bool) : list ckattr := [tulong CKA_CLASS CKO_PRIVATE_KEY; tulong CKA_KEY_TYPE CKK_DH; tbool CKA_TOKEN tok; ca CKA_PRIME [23]; ca CKA_BASE [5]; ca CKA_VALUE [6]; tbool CKA_SENSITIVE true].
Definition wq := fst (toy_run toy_user [CreateObject 2 (Some (dh_tmpl true)) true; CreateObject 2 (Some (aes_tmpl true ++ [ca CKA_LABEL [97]; tbool CKA_PRIVATE false])) true; CreateObject 2 (Some (aes_tmpl false ++ [ca CKA_LABEL [97;98]])) true]).
Notation toy_tok w := (token_of toy_be w 0).
(* A protected AES key on the token (handle 11): five entries answered one by one. *)
Definition query5 : call := GetAttributeValue 2 11 (Some [QAttr CKA_VALUE (Some [0; 0; 0]) 3; QAttr CKA_LABEL None 0; QAttr CKA_LABEL (Some [0; 0; 0]) 3;
  QAttr CKA_KEY_TYPE (Some [7; 7]) 2; QAttr CKA_MODULUS None 5]) 5.
Example C14_case : toy_rv wq query5 = CKR_ATTRIBUTE_SENSITIVE /\ toy_out wq query5 = OAttrs [QAttr CKA_VALUE (Some [0; 0; 0]) CK_UNAVAILABLE_INFORMATION; QAttr CKA_LABEL None 1;
  QAttr CKA_LABEL (Some [97; 0; 0]) 1; QAttr CKA_KEY_TYPE (Some [7; 7]) CK_UNAVAILABLE_INFORMATION; QAttr CKA_MODULUS None CK_UNAVAILABLE_INFORMATION].
Proof. vm_compute. done. Qed.
Example C11_case : option_map (fun t => (is_protected t 11, kind_of t 11, value_of toy t 11 CKA_VALUE)) (toy_tok wq) = Some (true, Some (CKO_SECRET_KEY, CKK_AES), Some (repeat 9 16)).
Proof. vm_compute. done. Qed.
(* The private value of a Diffie-Hellman key is returned although the key is sensitive and not extractable. *)
Theorem C11_dh_refuted : exists w s h t b, from_scratch toy toy_be toy_env w /\ token_of toy_be w 0 = Some t /\ is_protected t h = true /\
  In CKA_VALUE (secret_attrs (default (0, 0) (kind_of t h))) /\ value_of toy t h CKA_VALUE = Some b /\ b <> [] /\
  toy_out w (GetAttributeValue s h (Some [QAttr CKA_VALUE (Some [0]) 1]) 1) = OAttrs [QAttr CKA_VALUE (Some b) (blen b)] /\
  toy_rv w (GetAttributeValue s h (Some [QAttr CKA_VALUE (Some [0]) 1]) 1) = CKR_OK.
Proof.
  assert (is_Some (toy_tok wq)) as [t Ht] by (destruct (toy_tok wq) eqn:H; [eauto|]; assert (option_map t_logged (toy_tok wq) = None) as X by (by rewrite H); vm_compute in X; discriminate).
  assert (option_map (fun t => (is_protected t 10, kind_of t 10, value_of toy t 10 CKA_VALUE)) (toy_tok wq) = Some (true, Some (CKO_PRIVATE_KEY, CKK_DH), Some [6])) as H by (by vm_compute).
  rewrite Ht in H. cbn [option_map] in H. injection H as H1 H2 H3. exists wq, 2, 10, t, [6]. split; [apply toy_user_scratch|]. split; [done|]. split; [done|]. split; [rewrite H2; cbn; tauto|].
  split; [done|]. split; [done|]. split; by vm_compute.
Qed.
(* The entries for token objects are not independent of each other: the whole call fails, with nothing marked, because of
   one entry; either with an attribute type of more than 32 bits, or with a secret attribute while nobody is logged in. *)
Theorem C14_independent_refuted : exists w s h q q1 q2, from_scratch toy toy_be toy_env w /\
  toy_out w (GetAttributeValue s h (Some [q]) 1) = OAttrs [q1] /\ toy_rv w (GetAttributeValue s h (Some [q]) 1) = CKR_OK /\
  toy_out w (GetAttributeValue s h (Some [q; q2]) 2) = ONone /\ toy_rv w (GetAttributeValue s h (Some [q; q2]) 2) = CKR_GENERAL_ERROR.
Proof.
  exists wq, 2, 11, (QAttr CKA_LABEL None 0), (QAttr CKA_LABEL None 1), (QAttr (2 ^ 32) None 0). split; [apply toy_user_scratch|]. by vm_compute.
Qed.
Theorem C11_others_refuted : exists w s h q q1, from_scratch toy toy_be toy_env w /\
  toy_out w (GetAttributeValue s h (Some [q]) 1) = OAttrs [q1] /\ toy_rv w (GetAttributeValue s h (Some [q]) 1) = CKR_OK /\
  toy_out w (GetAttributeValue s h (Some [q; QAttr CKA_VALUE None 0]) 2) = ONone /\ toy_rv w (GetAttributeValue s h (Some [q; QAttr CKA_VALUE None 0]) 2) = CKR_GENERAL_ERROR.
Proof.
  exists (fst (toy_run toy_user [CreateObject 2 (Some (dh_tmpl true)) true; CreateObject 2 (Some (aes_tmpl true ++ [ca CKA_LABEL [97]; tbool CKA_PRIVATE false])) true; Logout 2])), 2, 11, (QAttr CKA_LABEL None 0), (QAttr CKA_LABEL None 1).
  split; [apply toy_user_scratch|]. by vm_compute.
Qed.
