(* C25: what C_WrapKey gives out. *)
From Verif Require Import Base Monad Hoare Attr Obj Factory Tables Create Sqlite Storage Token Backend State Api Toy
  ObjSpec Rows ObjOk ObjNew TokInv TokStep TokWp Spec WorldFrame WorldWp Sessions SessionInv SessionFacts ObjWorld ObjFacts ObjCalls ToyFacts ThmObjects MechSpec ThmMech.

Section wrap.
Context (P : params) (B : backend) (E : N -> keyenv).
Context (Hfs : p_fs P = all_factories) (Hutf : forall n, utf8_valid (p_uuid P n) = true).
Notation world := (world B). Notation after := (after P B E). Notation out_of := (out_of P B E).
Notation bool_at := (bool_at B).

Lemma seen_get t h ty o b : tok_ok t -> seen P t h o -> search_by_id ty = Some KBool -> get_bool o ty = Ok b -> bool_of t h ty = Some b.
Proof.
  intros Ht Hs Hk Hb. assert (get_attr o ty = attr_of t h ty) as Ha.
  { destruct Hs as [Hs|[Hs Hf]]; [unfold attr_of; by rewrite Hs|]. by apply (fetched_attr P Hfs t h [] o ty KBool). }
  unfold bool_of. rewrite <- Ha. unfold get_bool, get_as in Hb. destruct (get_attr o ty); [|done]. by rewrite Hb.
Qed.
Definition secret_kind (f : factory) : bool := match f_kind f with FSecret _ | FAes | FHotp => true | _ => false end.
Lemma secret_kinds : forallb (fun p : N * N * factory => implb (secret_kind (snd p)) (secret_class (fst (fst p)))) all_factories = true.
Proof. vm_compute. reflexivity. Qed.
Lemma seen_pre t h o : tok_ok t -> seen P t h o -> obj_pre o.
Proof. intros Ht [Hs|[Hs Hf]]; [destruct (tk_sobj _ Ht _ _ Hs) as [[Hx _] _]; exact Hx|destruct (fetched_pre P Hfs _ _ _ _ Hf) as [Hx _]; exact Hx]. Qed.
Lemma exported f o d : obj_pre o -> get_object_factory (p_fs P) o = Ok f -> export_key B f o = Ok d -> get_bool o CKA_EXTRACTABLE = Ok true.
Proof.
  intros Hp Hg. assert (forall c k, check_key_ops o c k CKA_EXTRACTABLE = Ok tt -> get_bool o CKA_EXTRACTABLE = Ok true) as Hc.
  { intros c k. unfold check_key_ops, rbind. destruct (get_ulong o CKA_CLASS); [|done]. destruct (negb _); [done|].
    destruct (if negb (k =? _) then _ else _) as [?|?]; [|done]. destruct (get_bool o CKA_EXTRACTABLE) as [[|]|]; done. }
  assert (secret_kind f = true -> secret_class (o_class o) = true) as Hcl.
  { intros Hk. revert Hg. unfold get_object_factory. rewrite (pre_class _ Hp). cbn [rbind]. destruct (if o_class o =? CKO_CERTIFICATE then _ else _) as [ty|]; [|done]. cbn [rbind].
    rewrite Hfs. intros Hin%get_factory_in. pose proof (proj1 (forallb_forall _ _) secret_kinds _ Hin) as Hx. cbn [fst snd] in Hx. by rewrite Hk in Hx. }
  assert (secret_kind f = true -> secret_export o = Ok d -> get_bool o CKA_EXTRACTABLE = Ok true) as Hs.
  { intros Hk. unfold secret_export, is_extractable, bool_attr, get_bool, get_as. rewrite (Hcl Hk). destruct (get_attr o CKA_EXTRACTABLE) as [a|]; cbn [negb]; [|done]. destruct (attr_to_bool a) as [[|]|]; done. }
  unfold export_key. unfold secret_kind in Hs. destruct (f_kind f); try done; try (by apply Hs). clear Hs. unfold rbind. destruct (get_ulong o CKA_KEY_TYPE) as [kt|]; [|done].
  destruct (kt =? CKK_RSA). { destruct (check_key_ops _ _ _ _) as [[]|] eqn:Hx; [|done]. intros _. by eapply Hc. }
  destruct (_ || _); [|done]. destruct (check_key_ops _ _ _ _) as [[]|] eqn:Hx; [|done]. intros _. by eapply Hc.
Qed.

Definition may_wrap (w : world) (sid wkey key : N) : Prop :=
  bool_at w sid key CKA_EXTRACTABLE = Some true /\ bool_at w sid wkey CKA_WRAP = Some true /\
  exists b, bool_at w sid key CKA_WRAP_WITH_TRUSTED = Some b /\ (b = true -> bool_at w sid wkey CKA_TRUSTED = Some true).
Theorem C25_wrap w h m wkey key buf len sid : from_scratch P B E w -> slot_of B w h = Some sid ->
  out_of w (WrapKey h m wkey key buf len) <> ONone ->
  bool_at w sid key CKA_EXTRACTABLE = Some true /\ bool_at w sid wkey CKA_WRAP = Some true /\
  exists b, bool_at w sid key CKA_WRAP_WITH_TRUSTED = Some b /\ (b = true -> bool_at w sid wkey CKA_TRUSTED = Some true).
Proof.
  intros Hsc Hsl Ho. pose proof (scratch_winv P B E Hfs Hutf w Hsc) as Hw. fold (may_wrap w sid wkey key).
  pose (Q := fun (_ : world) (r : result (N * out)) => match r with Ok _ => may_wrap w sid wkey key | Err _ => True end).
  assert (wp (api P B E (WrapKey h m wkey key buf len)) w Q) as Hq.
  { cbn [api]. unfold c_wrap_key.
    apply wp_bind, wp_ensure; [intros _|done]. destruct m as [[mt par]|]; cbn [deref]; [|by repeat wp_step]. wp_step. wp_step. destruct len as [n|]; [|by repeat wp_step]. wp_step. wp_step.
    apply wp_bind, wp_lock; [|done]. intros Hi. apply wp_bind. eapply wp_ses; [exact Hw|exact Hsl| |done]. intros se sl _ Hs ->. cbv beta iota zeta.
    wp_step. wp_step; [|done]. assert (token_of B w sid = Some (sl_token sl)) as Ht by (unfold Spec.token_of; by rewrite Hs).
    pose proof (token_ok B w sid _ Hw Ht) as Hok.
    apply wp_bind. eapply peek_tok; [exact Hw|exact Hi|exact Hs| |done]. intros t1 o Hn1 Hso. cbv beta iota zeta.
    apply wp_bind. eapply peek_again; [exact Hw|exact Hi|exact Hs|exact Hn1| |done]. intros t2 wo Hn2 Hsw. cbv beta iota zeta.
    wp_step. wp_step; [|done]. wp_step. wp_step. destruct (get_object_factory (p_fs P) o) as [f|] eqn:Hf; [|done]. wp_step. eapply flags_there; [done|exact Hn2|done|]. intros _ fl.
    wp_step. wp_step; [|done]. wp_step. wp_step. destruct (get_bool wo CKA_WRAP) as [cw|] eqn:Hcw; [|done]. wp_step. wp_step; [|done]. wp_step. wp_step.
    destruct (get_bool o CKA_WRAP_WITH_TRUSTED) as [wt|] eqn:Hwt; [|done]. wp_step.
    apply (wp_mono _ _ (fun w' r => match r with Ok _ => wt = true -> get_bool wo CKA_TRUSTED = Ok true | Err _ => True end)).
    { destruct wt; [|by wp_step]. wp_step. wp_step. destruct (get_bool wo CKA_TRUSTED) as [tr|]; [|done]. apply wp_ensure; [|done]. intros -> _. done. }
    intros w' [[]|e] Htr; [|done]. wp_step. wp_step. destruct (export_key B f o) as [d|] eqn:Hd; [|done].
    assert (may_wrap w sid wkey key) as Hm.
    { apply exported in Hd; [|by eapply seen_pre|done]. unfold may_wrap, Spec.bool_at. rewrite Ht. split; [by eapply seen_get|]. split; [eapply seen_get; try done; congruence|].
      exists wt. split; [by eapply seen_get|]. intros ->. eapply seen_get; try done. by apply Htr. }
    eapply wp_any. intros ? [?|?]; done.
    done. }
  apply (call_wp P B E _ w) in Hq. apply answer_out in Ho as [v Ho]. by rewrite Ho in Hq.
Qed.
End wrap.

(* ---- concrete cases ---- *)
Definition secret (ext wwt : bool) : list ckattr := aes_tmpl false ++ [tbool CKA_EXTRACTABLE ext; tbool CKA_WRAP_WITH_TRUSTED wwt].
Definition keys25 : list call :=
  [CreateObject 2 (Some (aes_tmpl false ++ [tbool CKA_WRAP true])) true; CreateObject 2 (Some (secret true false)) true; CreateObject 2 (Some (secret false false)) true;
   CreateObject 2 (Some (secret true true)) true].
Definition w25 : world toy_be := fst (toy_run toy_user keys25).
Definition wrap25 (wkey key : N) : call := WrapKey 2 (Some (CKM_AES_KEY_WRAP, None)) wkey key true (Some 100).
Example C25_case : map snd (snd (toy_run toy_user keys25)) = [OHandle 10; OHandle 11; OHandle 12; OHandle 13] /\ slot_of toy_be w25 2 = Some 0 /\
  match toy_out w25 (wrap25 10 11) with OBuf b n => n =? 16 | _ => false end = true /\
  map (fun k => toy_rv w25 (wrap25 10 k)) [11; 12; 13] = [CKR_OK; CKR_KEY_UNEXTRACTABLE; CKR_WRAPPING_KEY_HANDLE_INVALID] /\ toy_rv w25 (wrap25 11 11) = CKR_WRAPPING_KEY_HANDLE_INVALID.
Proof. vm_compute. done. Qed.
