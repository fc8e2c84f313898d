(* C12: a key once protected, and every copy of it, stays protected. *)
From Verif Require Import Base Monad Hoare Attr Obj Factory Tables Create Sqlite Storage Token Backend State Api Toy
  ObjSpec PlainSpec Rows ObjOk ObjNew Triple TokInv TokStep TokWp TokAuth PlainFacts Spec WorldWp Sessions SessionInv SessionFacts ObjWorld ObjView ObjAttrs NewView ObjFacts
  AttrFacts Errors ObjCalls ToyFacts SetFacts ThmObjects ThmAttrs ThmQuery Protect.

(* The call changes the class or key type of an object, or makes a copy of another class or key type. *)
Definition retypes (c : call) : bool :=
  match c with
  | SetAttributeValue _ _ (Some l) _ | CopyObject _ _ (Some l) _ _ => existsb (fun c => (ca_type c =? CKA_CLASS) || (ca_type c =? CKA_KEY_TYPE)) l
  | _ => false
  end.
Lemma retypes_no l : existsb (fun c => (ca_type c =? CKA_CLASS) || (ca_type c =? CKA_KEY_TYPE)) l = false -> untyped l.
Proof.
  intros H c Hc Hin. rewrite <- not_true_iff_false in H. apply H, existsb_exists. exists c. split; [done|]. destruct Hin as [<-|[<-|[]]]; by rewrite N.eqb_refl, ?orb_true_r.
Qed.

Section protect.
Context (P : params) (B : backend) (E : N -> keyenv).
Context (Hfs : p_fs P = all_factories) (Hutf : forall n, utf8_valid (p_uuid P n) = true).
(* Cryptographic operations change nothing of their key but the counter of an OTP key. *)
Context (Hop : forall x h l, be_updates B x = Some (h, l) -> Forall (fun c => ca_type c = CKA_OTP_COUNTER) l).
Notation world := (world B).
Notation from_scratch := (from_scratch P B E). Notation rv := (rv P B E). Notation after := (after P B E). Notation run := (run P B E).
Notation out_of := (out_of P B E). Notation slot_of := (slot_of B). Notation token_of := (token_of B).

(* The objects hs of the slot and the copies made of them, the copies of these, and so on, while cs is carried out. *)
Definition grow (sid : N) (hs : list N) (w : world) (c : call) : list N :=
  match c, out_of w c with
  | CopyObject s o _ _ _, OHandle n => if bool_decide (slot_of w s = Some sid) && existsb (N.eqb o) hs then n :: hs else hs
  | _, _ => hs
  end.
Fixpoint family (sid : N) (hs : list N) (w : world) (cs : list call) : list N :=
  match cs with
  | [] => hs
  | c :: r => family sid (grow sid hs w c) (after w c) r
  end.

Lemma calm_call c n k : negb (retypes c) = true -> call_kind (op_stores B) n c k -> calm k.
Proof.
  intros Hr Hk h tmpl [-> | ->]; cbn [call_kind] in Hk.
  all: destruct c; try done; try (destruct Hk as [x Hx]; apply Hop in Hx; intros c Hc Hin; rewrite List.Forall_forall in Hx; rewrite (Hx _ Hc) in Hin;
         destruct Hin as [Hin|[Hin|[]]]; vm_compute in Hin; discriminate Hin).
  all: apply negb_true_iff in Hr; cbn [retypes] in Hr; destruct Hk as [[-> ->]|[-> ->]]; [by apply retypes_no|by intros c []].
Qed.
Lemma copied_safe cl kt s o tm cnt p w sid t n hs : winv B w -> token_of w sid = Some t -> retypes (CopyObject s o tm cnt p) = false ->
  slot_of w s = Some sid -> In o hs -> Forall (fun h => safe cl kt h t) hs -> out_of w (CopyObject s o tm cnt p) = OHandle n ->
  exists t', token_of (after w (CopyObject s o tm cnt p)) sid = Some t' /\ safe cl kt n t'.
Proof.
  intros Hw Ht Hr Hsl Hin Hs Ho. destruct (copy_call P B E w s o tm cnt p Hw) as [[_ [e Ha]]|(sid' & se & t1 & t' & l & r & C1 & C2 & C3 & -> & C5 & C6 & C7)].
  { apply answer_err in Ha as [_ Ha]. congruence. }
  assert (sid' = sid) as -> by (unfold Spec.slot_of in Hsl; congruence). destruct r as [n'|e]; [|apply answer_err in C7 as [_ C7]; congruence].
  apply answer_ok in C7 as [_ C7]. assert (n' = n) as -> by congruence. destruct C3 as (R1 & R2 & _). assert (t1 = t) as -> by congruence. exists t'. split; [done|].
  rewrite List.Forall_forall in Hs. eapply (copy_safe P Hfs Hutf); [by eapply token_ok| |by apply Hs|exact C6].
  destruct tm as [l|]; [by apply retypes_no|by intros c []].
Qed.
Lemma family_safe cl kt cs sid : forallb (fun c => negb (retypes c)) cs = true -> forallb (keeps_token sid) cs = true ->
  forall hs w t, winv B w -> token_of w sid = Some t -> t_dedup t = None \/ existsb creates cs = false -> Forall (fun h => safe cl kt h t) hs ->
  exists t', token_of (fst (run w cs)) sid = Some t' /\ Forall (fun h => safe cl kt h t') (family sid hs w cs).
Proof.
  induction cs as [|c cs IH]; intros Hr Hk hs w t Hw Ht Hd Hs; [by exists t|].
  cbn [forallb existsb] in Hr, Hk, Hd. apply andb_prop in Hr as [Hr1 Hr2], Hk as [Hk1 Hk2]. rewrite orb_false_iff in Hd.
  destruct (call_keeps_if P B E Hfs Hutf calm (fun c => negb (retypes c)) calm_call (fun t => Forall (fun h => safe cl kt h t) hs) w c sid t) as (t1 & H1 & H2 & H3); try done; [|tauto|].
  { intros k a b Ha Hst Hm Hc HF. rewrite List.Forall_forall in *. intros h Hh. eapply (safe_step P Hfs); try done. by apply HF. }
  assert (Forall (fun h => safe cl kt h t1) (grow sid hs w c)) as H4.
  { unfold grow. destruct c; try done; try (match goal with |- Forall _ (match ?x with _ => _ end) => destruct x; done end).
    match goal with |- Forall _ (match ?x with _ => _ end) => destruct x eqn:Ho; try done end.
    match goal with |- Forall _ (if ?x then _ else _) => destruct x eqn:Hx; [|done] end. apply andb_prop in Hx as [X1 X2]. apply bool_decide_eq_true_1 in X1.
    apply existsb_exists in X2 as (y & Y1 & Y2). apply N.eqb_eq in Y2 as <-. constructor; [|done].
    apply negb_true_iff in Hr1. destruct (copied_safe cl kt _ _ _ _ _ w sid t _ hs Hw Ht Hr1 X1 Y1 Hs Ho) as (t2 & T1 & T2). congruence. }
  specialize (IH Hr2 Hk2 _ (after w c) t1 (after_winv P B E Hfs Hutf w c Hw) H1 ltac:(rewrite H3; tauto) H4).
  destruct IH as (t2 & I1 & I2). exists t2. split; [|exact I2]. clear -I1. cbn [Api.run]. unfold Spec.after in I1. destruct (step P B E w c) as [w1 o]. cbn [fst] in *.
  by destruct (run w1 cs) as [w2 os].
Qed.

Lemma attr_named t h ty : tok_ok t -> attr_of t h ty <> None -> exists u, object_id t h = Some u.
Proof.
  intros Ht. unfold attr_of, object_id. destruct (t_sobjs t !! h) as [o|] eqn:Ho; [destruct (tk_sobj _ Ht _ _ Ho) as [_ _ _ (uid & -> & _)]; eauto|].
  destruct (h_map _ !! h) as [u|]; [|done]. destruct (rows_of _ _); [eauto|done].
Qed.
(* C12: whatever calls are made, as long as none changes the class or key type: the key and all copies made of it keep
   their kind and stay protected, so that C11 applies to them. The last hypothesis on h is about an object in memory whose
   class was changed before. *)
Theorem C12_family_partial w cs sid t h k n t' : from_scratch w -> forallb (keeps_token sid) cs = true -> no_replace B w sid cs ->
  forallb (fun c => negb (retypes c)) cs = true -> token_of w sid = Some t ->
  kind_of t h = Some k -> is_protected t h = true -> agrees t h ->
  In n (family sid [h] w cs) -> token_of (fst (run w cs)) sid = Some t' -> object_id t' n <> None ->
  kind_of t' n = Some k /\ is_protected t' n = true.
Proof.
  intros Hs Hk Hd Hr Ht Hki Hp Ha Hin Ht' Hid. apply (scratch_winv P B E Hfs Hutf) in Hs. pose proof (token_ok B _ _ _ Hs Ht) as Htk.
  destruct (family_safe (attr_of t h CKA_CLASS) (attr_of t h CKA_KEY_TYPE) cs sid Hr Hk [h] w t Hs Ht) as (t1 & T1 & T2).
  { destruct Hd as [Hd|Hd]; [left; by apply Hd|by right]. }
  { constructor; [|done]. right. split_and!; try done.
    - apply (attr_named t h CKA_CLASS Htk). unfold kind_of, class_of, num_of in Hki. by destruct (attr_of t h CKA_CLASS).
    - unfold is_protected in Hp. destruct (class_of t h); [|done]. apply andb_prop in Hp as [_ Hp]. apply negb_true_iff, andb_false_iff in Hp.
      destruct Hp as [Hp|Hp]; apply bool_decide_eq_false_1 in Hp; [by left|by right]. }
  assert (t1 = t') as -> by congruence. rewrite List.Forall_forall in T2. destruct (T2 n Hin) as [Hg|(_ & S1 & S2 & S3 & _)]; [by apply gone_id in Hg|].
  assert (class_of t' n = class_of t h) as Hc by (unfold class_of, num_of; by rewrite S1).
  assert (num_of t' n CKA_KEY_TYPE = num_of t h CKA_KEY_TYPE) as Hkt by (unfold num_of; by rewrite S2).
  unfold is_protected, kind_of in *. rewrite Hc, Hkt. destruct (class_of t h) as [c|]; [|done]. apply andb_prop in Hp as [P1 P2]. split.
  - assert ((c =? CKO_CERTIFICATE) = false) as Hx by (unfold CKO_PRIVATE_KEY, CKO_SECRET_KEY, CKO_OTP_KEY, CKO_CERTIFICATE in *; lia). by rewrite Hx in *.
  - rewrite P1. cbn [andb]. apply negb_true_iff, andb_false_iff. destruct S3; [left|right]; by apply bool_decide_eq_false_2.
Qed.
(* So their secrets are not shown. *)
Theorem C12_unreadable_partial w cs sid t h k n t' s tm cnt q : from_scratch w -> forallb (keeps_token sid) cs = true -> no_replace B w sid cs ->
  forallb (fun c => negb (retypes c)) cs = true -> token_of w sid = Some t ->
  kind_of t h = Some k -> is_protected t h = true -> agrees t h -> k <> (CKO_PRIVATE_KEY, CKK_DH) ->
  In n (family sid [h] w cs) -> token_of (fst (run w cs)) sid = Some t' -> object_id t' n <> None ->
  let c := GetAttributeValue s n tm cnt in slot_of (fst (run w cs)) s = Some sid -> out_of (fst (run w cs)) c = OAttrs q ->
  q = default [] tm /\ rv (fst (run w cs)) c <> CKR_OK \/
  exists es, rv (fst (run w cs)) c = first_error es /\ length q = length (default [] tm) /\
    forall i q0, default [] tm !! i = Some q0 -> In (q_type q0) (secret_attrs k) ->
      q !! i = Some (QAttr (q_type q0) (q_buf q0) CK_UNAVAILABLE_INFORMATION) /\ es !! i = Some CKR_ATTRIBUTE_SENSITIVE.
Proof.
  intros Hs Hk Hd Hr Ht Hki Hp Ha Hne Hin Ht' Hid c Hsl Ho. destruct (C12_family_partial w cs sid t h k n t') as [K1 K2]; try done.
  apply (C11_secrets_hidden_partial P B E Hfs Hutf (fst (run w cs)) s n tm cnt sid t' q k); try done.
  destruct Hs as [cs0 ->]. exists (cs0 ++ cs). rewrite run_app. destruct (run (init_world B ∅) cs0) as [w1 o1]. cbn [fst]. by destruct (run w1 cs).
Qed.
End protect.

(* ---- cases ---- *)
Definition wp0 := fst (toy_run toy_user [CreateObject 2 (Some (aes_tmpl true ++ [tbool CKA_SENSITIVE true])) true]).
(* A copy in memory, a copy of that on the token, and the flags tried on both. *)
Definition spread : list call := [CopyObject 2 10 (Some [tbool CKA_TOKEN false]) 1 true; CopyObject 2 11 (Some [tbool CKA_TOKEN true; ca CKA_LABEL [98]]) 2 true;
  SetAttributeValue 2 12 (Some [tbool CKA_SENSITIVE false]) 1; SetAttributeValue 2 11 (Some [ca CKA_LABEL [99]]) 1].
Example C12_case : family toy toy_be toy_env 0 [10] wp0 spread = [12; 11; 10] /\ forallb (fun c => negb (retypes c)) spread = true /\
  map fst (snd (toy_run wp0 spread)) = [CKR_OK; CKR_OK; CKR_ATTRIBUTE_READ_ONLY; CKR_OK] /\
  option_map (fun t => map (fun h => (kind_of t h, is_protected t h, value_of toy t h CKA_VALUE)) [10; 11; 12]) (token_of toy_be (fst (toy_run wp0 spread)) 0) =
    Some (repeat (Some (CKO_SECRET_KEY, CKK_AES), true, Some (repeat 9 16)) 3).
Proof. vm_compute. done. Qed.

(* A copy of another class shows the secret of a sensitive key. *)
Theorem C12_copy_class_refuted : exists w cs s h n t v, from_scratch toy toy_be toy_env w /\ token_of toy_be w 0 = Some t /\ is_protected t h = true /\ value_of toy t h CKA_VALUE = Some v /\
  forallb (keeps_token 0) cs = true /\ In n (family toy toy_be toy_env 0 [h] w cs) /\
  let w' := fst (toy_run w cs) in let c := GetAttributeValue s n (Some [QAttr CKA_VALUE (Some (repeat 0 16)) 16]) 1 in
  toy_rv w' c = CKR_OK /\ toy_out w' c = OAttrs [QAttr CKA_VALUE (Some v) 16].
Proof.
  assert (option_map (fun t => (is_protected t 10, value_of toy t 10 CKA_VALUE)) (token_of toy_be wp0 0) = Some (true, Some (repeat 9 16))) as H by (by vm_compute).
  destruct (token_of toy_be wp0 0) as [t|] eqn:Ht; [|done]. cbn [option_map] in H. injection H as H1 H2.
  exists wp0, [CopyObject 2 10 (Some [tulong CKA_CLASS CKO_DATA; tbool CKA_TOKEN false]) 2 true], 2, 10, 11, t, (repeat 9 16).
  split; [apply toy_user_scratch|]. split; [done|]. split; [done|]. split; [done|]. split; [done|]. split; [vm_compute; tauto|]. cbv zeta. split; vm_compute; reflexivity.
Qed.
(* The class of a key can be changed, or the type of an elliptic curve key to that of a Diffie-Hellman key. *)
Definition ec_tmpl (tok : bool) : list ckattr := [tulong CKA_CLASS CKO_PRIVATE_KEY; tulong CKA_KEY_TYPE CKK_EC; tbool CKA_TOKEN tok; ca CKA_EC_PARAMS [6; 8; 42; 134; 72; 206; 61; 3; 1; 7]; ca CKA_VALUE (repeat 6 16); tbool CKA_SENSITIVE true].
Definition wpe := fst (toy_run toy_user [CreateObject 2 (Some (ec_tmpl false)) true; CreateObject 2 (Some (aes_tmpl false ++ [tbool CKA_SENSITIVE true])) true]).
Theorem C12_set_type_refuted : exists w, from_scratch toy toy_be toy_env w /\ forall h a v, In (h, a, v) [(10, tulong CKA_KEY_TYPE CKK_DH, repeat 6 16); (11, tulong CKA_CLASS CKO_DATA, repeat 9 16)] ->
  option_map (fun t => (is_protected t h, value_of toy t h CKA_VALUE)) (token_of toy_be w 0) = Some (true, Some v) /\
  let w' := fst (toy_run w [SetAttributeValue 2 h (Some [a]) 1]) in let c := GetAttributeValue 2 h (Some [QAttr CKA_VALUE (Some (repeat 0 16)) 16]) 1 in
  toy_rv w' c = CKR_OK /\ toy_out w' c = OAttrs [QAttr CKA_VALUE (Some v) 16].
Proof. exists wpe. split; [apply toy_user_scratch|]. intros h a v [H|[H|[]]]; injection H as <- <- <-; cbv zeta; split_and!; vm_compute; reflexivity. Qed.
