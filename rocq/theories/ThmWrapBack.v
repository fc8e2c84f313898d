(* C55: keys survive wrapping, and both ends of a key encapsulation have the same key. *)
From Verif Require Import Base Monad Hoare Attr Obj Factory Tables Create Sqlite Storage Token Backend State Api Toy
  ObjSpec PlainSpec Rows ObjOk ObjNew Triple TokInv TokStep TokenFrame TokWp TokAuth Spec WorldWp Sessions SessionInv SessionFacts ObjWorld ObjView ObjAttrs NewView ObjFacts
  AttrFacts Errors ObjCalls ToyFacts SetFacts PlainFacts ThmObjects ThmAttrs Origin ThmOrigin ThmDerived ThmMech ThmNew ThmKeys WrapSpec.

(* ---- the value of an object that was inserted ---- *)
Definition tells (t t' : token) : Prop := t_key t' = t_key t /\ t_ver t' = t_ver t.
Definition basic : list N := [CKA_CLASS; CKA_KEY_TYPE; CKA_CERTIFICATE_TYPE; CKA_SENSITIVE; CKA_EXTRACTABLE].
Lemma basic_tables : forallb (fun ty => forallb (lasting ty) all_factories && match search_by_id ty with Some KBool | Some KNum => true | _ => false end) basic = true.
Proof. vm_compute. done. Qed.
Lemma value_lasting : forallb (lasting CKA_VALUE) all_factories = true.
Proof. vm_compute. done. Qed.

Section wrap.
Context (P : params) (B : backend) (E : N -> keyenv).
Context (Hfs : p_fs P = all_factories) (Hutf : forall n, utf8_valid (p_uuid P n) = true) (HV : value_laws P).
Notation world := (world B).
Notation from_scratch := (from_scratch P B E). Notation rv := (rv P B E). Notation after := (after P B E). Notation run := (run P B E).
Notation out_of := (out_of P B E). Notation answer := (answer P B E).
Notation slot_of := (slot_of B). Notation token_of := (token_of B). Notation key_value := (key_value P B). Notation key_class := (key_class B). Notation names := (names P B).
Notation winv := (winv B).

Lemma insert_tells sh o t t' r : new_ok o -> insert_object P sh o t = (t', r) -> tells t t'.
Proof.
  intros Hno. pose proof Hno as [Ho [Hh _]]. cut (wp (insert_object P sh o) t (fun t' _ => tells t t')).
  { intros H Hi. unfold wp in H. by rewrite Hi in H. }
  unfold insert_object. destruct (is_token o).
  - apply wp_bind, wp_gets, wp_bind, wp_ensure; [intros _|done]. unfold st_store. apply wp_bind, wp_lift.
    destruct (get_object_factory _ o) as [f|] eqn:Hof; [|done]. pose proof (obj_factory_good P Hfs _ _ Hof) as Hf.
    apply wp_bind, wp_lift. destruct (get_string o CKA_UNIQUE_ID) as [uid|]; [|done].
    apply wp_bind, (wp_encrypt_attrs P (f_sensitive f)); [intros; by apply (good_sens f)|done|apply (good_nodup f Hf)| |by intros t1 e (i & n & ->)].
    intros t1 o1 (i & n & ->) _ _ _. cbv zeta. apply wp_bind. destruct (_ =? _).
    + apply (wp_new_handle uid); [|done]. intros _. apply wp_bind, wp_dbwrite; [|done]. intros j s _. by apply wp_ret.
    + apply wp_ret, wp_bind, wp_dbwrite; [|done]. intros j s _. by apply wp_ret.
  - apply wp_bind. change (wp h_fresh t ?Q') with (Q' (bump t) (Ok (h_next (t_handles t)))). cbv beta iota zeta.
    apply wp_bind, wp_lift. match goal with |- context [get_string ?a ?b] => destruct (get_string a b) end; [|done].
    apply wp_bind, wp_h_insert; [|done]. intros _ _. apply wp_bind, wp_modify. by apply wp_ret.
Qed.
Lemma placed_value t t' sh h o v : made o -> tells t t' -> placed P t t' sh h o -> get_attr o CKA_VALUE = Some (from_bytes CKA_VALUE v) -> value_of P t' h CKA_VALUE = Some v.
Proof.
  intros [Hno Hag] [K1 K2] Hpl Hv. pose proof Hno as [[Hp _] _]. pose proof Hpl as [(u & U1 & U2) Hses Hm Hd]. unfold value_of. rewrite Hses, U2. destruct (is_token o).
  - destruct (Hd eq_refl) as (_ & f & uid & F1 & F2 & F3). assert (u = uid) as -> by congruence. pose proof (obj_factory_good P Hfs _ _ F1) as Hf.
    assert (factory_of P t' h = Some f) as ->.
    { assert (forall ty, In ty basic -> get_attr o ty = attr_of t' h ty) as Ha.
      { intros ty Hty. pose proof (proj1 (forallb_forall _ _) basic_tables _ Hty) as Hx. apply andb_prop in Hx as [X1 X2]. symmetry. eapply (placed_attr P Hfs); [exact Hpl|done|by right|done|].
        destruct (search_by_id ty) as [[]|]; try done; [by left|by right]. }
      destruct (shows_of P t' h o Hp Ha) as (_ & -> & _). by rewrite F1. }
    destruct (F3 CKA_VALUE) as [G1 G2]; [by left|eapply good_lasting; [exact value_lasting|exact Hf]|]. cbn [negb].
    destruct (existsb (N.eqb CKA_VALUE) (f_sensitive f)) eqn:Hx.
    + rewrite Hv in G2. destruct G2 as (e & -> & k & r & S1 & S2). { apply existsb_exists in Hx as (y & Hy & He). by apply N.eqb_eq in He as ->. }
      rewrite K1, K2, S1. cbn [from_bytes a_val]. cbn [a_val from_bytes] in S2. by rewrite (vl_open _ HV _ _ _ _ _ _ S2).
    + rewrite G1. { unfold kept_attr_of. rewrite Hv. done. }
      intros Hin. apply not_true_iff_false in Hx. apply Hx, existsb_exists. exists CKA_VALUE. split; [done|apply N.eqb_refl].
  - cbn [negb]. unfold attr_of. rewrite (Hm eq_refl). change (get_attr (set_session (set_handle o h) sh) CKA_VALUE) with (get_attr o CKA_VALUE). by rewrite Hv.
Qed.

(* ---- what is exported and imported ---- *)
Definition kinds_ok (e : (N * N) * factory) : bool :=
  let '((c, kt), f) := e in
  negb (c =? CKO_SECRET_KEY) || match f_kind f with FAes => kt =? CKK_AES | FSecret _ => negb (kt =? CKK_AES) | _ => false end.
Lemma all_kinds : forallb kinds_ok all_factories = true.
Proof. vm_compute. done. Qed.
Lemma secret_kind kt f : get_factory (p_fs P) (CKO_SECRET_KEY, kt) = Ok f -> match f_kind f with FAes => kt = CKK_AES | FSecret _ => kt <> CKK_AES | _ => False end.
Proof.
  rewrite Hfs. intros H%get_factory_in. pose proof (proj1 (forallb_forall _ _) all_kinds _ H) as Hk. unfold kinds_ok in Hk. rewrite N.eqb_refl in Hk. cbn [negb orb] in Hk.
  destruct (f_kind f); try done; [by apply negb_true_iff, N.eqb_neq in Hk|by apply N.eqb_eq in Hk].
Qed.
Lemma export_value t h o f data : tok_ok t -> seen P t h o -> class_of t h = Some CKO_SECRET_KEY -> get_object_factory (p_fs P) o = Ok f -> export_key B f o = Ok data ->
  value_of P t h CKA_VALUE = Some data.
Proof.
  intros Ht Hs Hc Hf He. assert (exists sel, shows P t h sel o /\ sel CKA_VALUE = true) as (sel & [S1 S2 S3 S4 S5] & Hsel).
  { destruct Hs as [Hs|[H1 H2]]; [exists (fun _ => true); split; [by apply shows_session|done]|]. destruct (shows_fetched P Hfs t h [] o Ht H1 H2) as [H3 _]. eexists. split; [exact H3|]. done. }
  rewrite <- S5 by (done || by rewrite Hf). rewrite S1 in Hc. injection Hc as Hc.
  assert (export_key B f o = secret_export o) as Hex.
  { unfold get_object_factory in Hf. destruct (get_ulong o CKA_CLASS) as [cl|] eqn:Hgc; [|done]. cbn [rbind] in Hf. assert (cl = CKO_SECRET_KEY) as ->.
    { assert (class_ok o) as Hcl. { destruct Hs as [Hs|[H1 H2]]; [apply (tk_sobj _ Ht _ _ Hs)|]. pose proof (fetched_pre P Hfs _ _ _ _ H2) as [[_ Hp _] _]. exact Hp. } unfold class_ok in Hcl. congruence. }
    cbn [N.eqb] in Hf. change (CKO_SECRET_KEY =? CKO_CERTIFICATE) with false in Hf. cbv iota in Hf.
    change ((CKO_SECRET_KEY =? CKO_PUBLIC_KEY) || secret_class CKO_SECRET_KEY) with true in Hf. cbv iota in Hf. peel Hf. apply secret_kind in Hf. unfold export_key. by destruct (f_kind f). }
  rewrite Hex in He. unfold secret_export in He. destruct (negb _); [done|]. unfold get_bytes, get_as in He. destruct (get_attr o CKA_VALUE) as [a|]; [|done]. cbn.
  f_equal. unfold attr_to_bytes in He. destruct (a_kind a); try done; by injection He.
Qed.
Lemma set_key_value f o k o' : set_key f o k = Ok o' -> get_attr o' CKA_VALUE = Some (from_bytes CKA_VALUE k).
Proof.
  intros H. unfold set_key in H. peel H. unfold set_key_len in H. peel H. 
  assert (get_attr (put_attr o (from_bytes CKA_VALUE k)) CKA_VALUE = Some (from_bytes CKA_VALUE k)) as Hg. { rewrite get_put by done. cbn [a_type from_bytes]. by rewrite N.eqb_refl. }
  exact (kept_ensure CKA_VALUE _ _ _ _ H _ Hg).
Qed.
Lemma import_value uid f data l o : get_obj_factory_from_key_template (p_fs P) l = Ok f -> tmpl_ulong l CKA_CLASS = Ok CKO_SECRET_KEY -> import_key B uid f data l = Ok o ->
  get_attr o CKA_VALUE = Some (from_bytes CKA_VALUE (asked_for l data)).
Proof.
  intros Hf Hc Hi. unfold get_obj_factory_from_key_template in Hf. unfold tmpl_ulong in Hc. destruct (find_ck l CKA_CLASS) as [c|]; [|done]. rewrite Hc in Hf. cbn [rbind] in Hf.
  unfold asked_for, tmpl_ulong. destruct (find_ck l CKA_KEY_TYPE) as [c'|]; [|done]. destruct (ck_to_ulong c') as [kt|]; [|done]. cbn [rbind] in Hf. apply secret_kind in Hf.
  unfold import_key in Hi. destruct (f_kind f) eqn:Hk; try done; unfold secret_import in Hi; rewrite Hk in Hi.
  - cbn [rbind] in Hi. peel Hi. apply N.eqb_neq in Hf. rewrite Hf. apply set_key_value in Hi. by destruct (find_ck l CKA_VALUE_LEN).
  - subst kt. rewrite N.eqb_refl. destruct (find_ck l CKA_VALUE_LEN) as [cl|].
    + destruct (ck_to_ulong cl) as [n|]; [|done]. cbn [rbind] in Hi. destruct (_ <? _); [done|]. cbn [rbind] in Hi. destruct (aes_check_key_len _); [|done]. cbn [rbind] in Hi. peel Hi. by apply set_key_value in Hi.
    + cbn [rbind] in Hi. destruct (aes_check_key_len _); [|done]. cbn [rbind] in Hi. peel Hi. by apply set_key_value in Hi.
Qed.

(* ---- the calls ---- *)
Lemma wrap_call w s m wk k n b x : winv w -> let c := WrapKey s m wk k true (Some n) in out_of w c = OBuf b x ->
  exists sid t mt pr o kw f data r, w_smap w !! s = Some sid /\ token_of w sid = Some t /\ m = Some (mt, pr) /\
    seen P t k o /\ seen P t wk kw /\ get_object_factory (p_fs P) o = Ok f /\ export_key B f o = Ok data /\ be_wrap B mt pr kw data n r = Ok (b, x).
Proof.
  intros Hw c Ho.
  set (Q := fun (w' : world) (ro : result (N * out)) => match ro with Ok (_, OBuf b x) =>
    exists sid t mt pr o kw f data r, w_smap w !! s = Some sid /\ token_of w sid = Some t /\ m = Some (mt, pr) /\
    seen P t k o /\ seen P t wk kw /\ get_object_factory (p_fs P) o = Ok f /\ export_key B f o = Ok data /\ be_wrap B mt pr kw data n r = Ok (b, x) | _ => True end).
  cut (Q (after w c) (answer w c)).
  { unfold Q. destruct (answer w c) as [[r o]|e] eqn:Ha; [apply answer_ok in Ha as [_ Ha]|apply answer_err in Ha as [_ Ha]]; rewrite Ho in Ha; [by subst o|done]. }
  assert (forall w' e, Q w' (Err e)) as HQ by done.
  apply (call_wp P B E c w Q).
  cbn [api c]. unfold c_wrap_key. wp_step. wp_step; [|done]. destruct m as [[mt pr]|]; [|done].
  do 2 (wp_step; wp_step; [|done]; match goal with H : Some _ = Some ?x |- _ => injection H as <- end).
  wp_step. wp_step; [|done]. wp_step. wp_step; [|done].
  match goal with H : w_smap w !! s = Some _ |- _ => rename H into Hm end. match goal with H : w_slots w !! _ = Some _ |- _ => rename H into Hsl end.
  match goal with H : sl_sessions _ !! s = Some _ |- _ => rename H into Hse end.
  assert (s_slot s0 = sid) as Hss. { apply (so_sessions _ _ _ _ _ (si_slots _ _ (wi_inv _ _ Hw) _ _ Hsl) _ _ Hse). }
  assert (token_of w sid = Some (sl_token sl)) as Htk by (unfold Spec.token_of; by rewrite Hsl). pose proof (token_ok B _ _ _ Hw Htk) as Ht.
  rewrite Hss. cbv zeta. wp_step. wp_step; [|done].
  wp_step. wp_step. apply wp_peek; [done| |done]. intros t1 o Hn1 Hseen _. cbv beta iota.
  wp_step. wp_step. change (sl_token (put_token B ?a ?b)) with a. apply wp_peek; [by eapply noise_ok| |done]. intros t2 kw Hn2 Hseen2 _. cbv beta iota zeta.
  rewrite ?with_slot_twice. change (put_token B ?a (put_token B ?b ?x)) with (put_token B a x).
  apply wp_bind, wp_ensure; intros _; [|done]. apply wp_bind, wp_lift. destruct (get_object_factory (p_fs P) o) as [f|] eqn:Hf; [|done].
  wp_step. unfold mech_flags. wp_step. wp_step. destruct (List.filter _ _) as [|y ?]; wp_step; [done|]. apply wp_bind, wp_ensure; intros _; [|done].
  apply wp_bind, wp_lift. destruct (get_bool kw CKA_WRAP) as [cw|]; [|done]. apply wp_bind, wp_ensure; intros _; [|done].
  apply wp_bind, wp_lift. destruct (get_bool o CKA_WRAP_WITH_TRUSTED) as [wt|]; [|done].
  apply wp_bind. match goal with |- wp ?mm ?ww ?qq => assert (forall q : world -> result unit -> Prop, q ww (Ok tt) -> (forall w' e, q w' (Err e)) -> wp mm ww q) as Hg end.
  { intros q Q1 Q2. destruct wt; [|by apply wp_skip]. apply wp_bind, wp_lift. destruct (get_bool kw CKA_TRUSTED); [|apply Q2]. apply wp_ensure; intros; [apply Q1|apply Q2]. }
  apply Hg; clear Hg; [|done]. cbv beta iota. apply wp_bind, wp_lift. destruct (export_key B f o) as [data|] eqn:Hex; [|done].
  wp_step. wp_step. change (sl_token (put_token B ?a ?b)) with a. apply wp_draw. cbv beta iota. apply wp_bind, wp_lift.
  destruct (be_wrap B mt pr kw data n _) as [[b' x']|] eqn:Hb; [|done]. wp_step. unfold Q.
  exists sid, (sl_token sl), mt, pr, o, kw, f, data. eexists. split_and!; try done. by eapply noise_seen.
Qed.
Lemma unwrap_call w s m wk d tm p h : winv w -> let c := UnwrapKey s m wk d tm p in out_of w c = OHandle h ->
  exists sid t t0 t' mt pr l kw f data v uid o, w_smap w !! s = Some sid /\ replaced B w (after w c) sid t t' /\ noise t t0 /\ m = Some (mt, pr) /\ tm = Some l /\ seen P t wk kw /\
    get_obj_factory_from_key_template (p_fs P) l = Ok f /\ utf8_valid uid = true /\ import_key B uid f v l = Ok o /\ insert_object P s o t0 = (t', Ok h) /\
    d = Some data /\ be_unwrap B mt pr kw data = Ok v.
Proof.
  intros Hw c Ho.
  set (Q := fun (w' : world) (ro : result (N * out)) => match ro with Ok (_, OHandle h) => exists sid t t0 t' mt pr l kw f data v uid o, w_smap w !! s = Some sid /\ replaced B w w' sid t t' /\ noise t t0 /\ m = Some (mt, pr) /\ tm = Some l /\ seen P t wk kw /\
    get_obj_factory_from_key_template (p_fs P) l = Ok f /\ utf8_valid uid = true /\ import_key B uid f v l = Ok o /\ insert_object P s o t0 = (t', Ok h) /\
    d = Some data /\ be_unwrap B mt pr kw data = Ok v | _ => True end).
  cut (Q (after w c) (answer w c)).
  { unfold Q. destruct (answer w c) as [[r o]|e] eqn:Ha; [apply answer_ok in Ha as [_ Ha]|apply answer_err in Ha as [_ Ha]]; rewrite Ho in Ha; [by subst o|done]. }
  assert (forall w' e, Q w' (Err e)) as HQ by done.
  apply (call_wp P B E c w Q).
  cbn [api c]. unfold c_unwrap_key. wp_step. wp_step; [|done]. destruct m as [[mt pr]|]; [|done]. destruct d as [data|]; [|done]. destruct tm as [l|]; [|done].
  do 3 (wp_step; wp_step; [|done]; match goal with H : Some _ = Some ?x |- _ => injection H as <- end).
  wp_step. wp_step; [|done]. wp_step. wp_step; [|done].
  match goal with H : w_smap w !! s = Some _ |- _ => rename H into Hm end. match goal with H : w_slots w !! _ = Some _ |- _ => rename H into Hsl end.
  match goal with H : sl_sessions _ !! s = Some _ |- _ => rename H into Hse end.
  assert (s_slot s0 = sid) as Hss. { apply (so_sessions _ _ _ _ _ (si_slots _ _ (wi_inv _ _ Hw) _ _ Hsl) _ _ Hse). }
  assert (token_of w sid = Some (sl_token sl)) as Htk by (unfold Spec.token_of; by rewrite Hsl). pose proof (token_ok B _ _ _ Hw Htk) as Ht.
  rewrite Hss. apply wp_bind, wp_ro_check; [|done]. intros Hro. cbv zeta. wp_step. wp_step; [|done].
  wp_step. wp_step. apply wp_peek; [done| |done]. intros t1 kw Hn1 Hseen _. cbv beta iota zeta.
  apply wp_bind, wp_ensure; intros _; [|done]. apply wp_bind, wp_lift. destruct (get_obj_factory_from_key_template (p_fs P) l) as [f|] eqn:Hf; [|done].
  wp_step. unfold mech_flags. wp_step. wp_step. destruct (List.filter _ _) as [|y ?]; wp_step; [done|]. apply wp_bind, wp_ensure; intros _; [|done].
  apply wp_bind, wp_lift. destruct (get_bool kw CKA_UNWRAP) as [cu|]; [|done]. do 2 (apply wp_bind, wp_ensure; intros _; [|done]).
  apply wp_bind, wp_lift. destruct (be_unwrap B mt pr kw data) as [v|] eqn:Hv; [|done].
  wp_step. unfold new_uid. wp_step. change (sl_token (put_token B ?a ?b)) with a. apply wp_bind, wp_draw, wp_ret. cbv beta iota.
  rewrite ?with_slot_twice. change (put_token B ?a (put_token B ?b ?x)) with (put_token B a x).
  apply wp_bind, wp_lift. match goal with |- context [import_key B ?u f ?v l] => destruct (import_key B u f v l) as [o|] eqn:Hi; [|done] end.
  wp_step. wp_step. change (sl_token (put_token B ?a ?b)) with a. unfold wp at 1.
  match goal with |- context [insert_object P s o ?t] => destruct (insert_object P s o t) as [t' [h'|e]] eqn:Hins end; cbn [fst snd]; [|done]. cbv beta iota. wp_step. unfold Q.
  exists sid, (sl_token sl), (set_fresh (t_fresh t1 + 1) t1), t', mt, pr, l, kw, f. do 4 eexists. split_and!; try done.
  - rewrite ?with_slot_twice. change (put_token B ?a (put_token B ?b ?x)) with (put_token B a x). by apply slot_replaced.
  - etransitivity; [exact Hn1|apply noise_fresh].
Qed.
Lemma decap_call w s m wk tm d p h : winv w -> let c := DecapsulateKey s m wk tm d p in out_of w c = OHandle h ->
  exists sid t t0 t' mt pr l kw f data v uid o, w_smap w !! s = Some sid /\ replaced B w (after w c) sid t t' /\ noise t t0 /\ m = Some (mt, pr) /\ tm = Some l /\ seen P t wk kw /\
    get_obj_factory_from_key_template (p_fs P) l = Ok f /\ utf8_valid uid = true /\ import_key B uid f v l = Ok o /\ insert_object P s o t0 = (t', Ok h) /\
    d = Some data /\ be_decap B mt pr kw data = Ok v.
Proof.
  intros Hw c Ho.
  set (Q := fun (w' : world) (ro : result (N * out)) => match ro with Ok (_, OHandle h) => exists sid t t0 t' mt pr l kw f data v uid o, w_smap w !! s = Some sid /\ replaced B w w' sid t t' /\ noise t t0 /\ m = Some (mt, pr) /\ tm = Some l /\ seen P t wk kw /\
    get_obj_factory_from_key_template (p_fs P) l = Ok f /\ utf8_valid uid = true /\ import_key B uid f v l = Ok o /\ insert_object P s o t0 = (t', Ok h) /\
    d = Some data /\ be_decap B mt pr kw data = Ok v | _ => True end).
  cut (Q (after w c) (answer w c)).
  { unfold Q. destruct (answer w c) as [[r o]|e] eqn:Ha; [apply answer_ok in Ha as [_ Ha]|apply answer_err in Ha as [_ Ha]]; rewrite Ho in Ha; [by subst o|done]. }
  assert (forall w' e, Q w' (Err e)) as HQ by done.
  apply (call_wp P B E c w Q).
  cbn [api c]. unfold c_decapsulate_key. wp_step. wp_step; [|done]. destruct m as [[mt pr]|]; [|done]. destruct tm as [l|]; [|done]. destruct d as [data|]; [|done].
  do 3 (wp_step; wp_step; [|done]; match goal with H : Some _ = Some ?x |- _ => injection H as <- end).
  wp_step. wp_step; [|done]. wp_step. wp_step; [|done].
  match goal with H : w_smap w !! s = Some _ |- _ => rename H into Hm end. match goal with H : w_slots w !! _ = Some _ |- _ => rename H into Hsl end.
  match goal with H : sl_sessions _ !! s = Some _ |- _ => rename H into Hse end.
  assert (s_slot s0 = sid) as Hss. { apply (so_sessions _ _ _ _ _ (si_slots _ _ (wi_inv _ _ Hw) _ _ Hsl) _ _ Hse). }
  assert (token_of w sid = Some (sl_token sl)) as Htk by (unfold Spec.token_of; by rewrite Hsl). pose proof (token_ok B _ _ _ Hw Htk) as Ht.
  rewrite Hss. apply wp_bind, wp_ro_check; [|done]. intros Hro. cbv zeta. wp_step. wp_step; [|done].
  wp_step. wp_step. apply wp_peek; [done| |done]. intros t1 kw Hn1 Hseen _. cbv beta iota zeta.
  apply wp_bind, wp_ensure; intros _; [|done]. apply wp_bind, wp_lift. destruct (get_obj_factory_from_key_template (p_fs P) l) as [f|] eqn:Hf; [|done].
  wp_step. unfold mech_flags. wp_step. wp_step. destruct (List.filter _ _) as [|y ?]; wp_step; [done|]. apply wp_bind, wp_ensure; intros _; [|done].
  apply wp_bind, wp_lift. destruct (check_key_ops kw CKO_PRIVATE_KEY CKK_ML_KEM CKA_DECAPSULATE) as [[]|]; [|done].
  apply wp_bind, wp_lift. destruct (be_decap B mt pr kw data) as [v|] eqn:Hv; [|done].
  wp_step. unfold new_uid. wp_step. change (sl_token (put_token B ?a ?b)) with a. apply wp_bind, wp_draw, wp_ret. cbv beta iota.
  rewrite ?with_slot_twice. change (put_token B ?a (put_token B ?b ?x)) with (put_token B a x).
  apply wp_bind, wp_lift. match goal with |- context [import_key B ?u f ?v l] => destruct (import_key B u f v l) as [o|] eqn:Hi; [|done] end.
  wp_step. wp_step. change (sl_token (put_token B ?a ?b)) with a. unfold wp at 1.
  match goal with |- context [insert_object P s o ?t] => destruct (insert_object P s o t) as [t' [h'|e]] eqn:Hins end; cbn [fst snd]; [|done]. cbv beta iota. wp_step. unfold Q.
  exists sid, (sl_token sl), (set_fresh (t_fresh t1 + 1) t1), t', mt, pr, l, kw, f. do 4 eexists. split_and!; try done.
  - rewrite ?with_slot_twice. change (put_token B ?a (put_token B ?b ?x)) with (put_token B a x). by apply slot_replaced.
  - etransitivity; [exact Hn1|apply noise_fresh].
Qed.
Lemma encap_call w s m wk tm n p ct x h : winv w -> let c := EncapsulateKey s m wk tm true (Some n) p in out_of w c = OBufHandle ct x h ->
  exists sid t t0 t' mt pr l kw f r v uid o, w_smap w !! s = Some sid /\ replaced B w (after w c) sid t t' /\ noise t t0 /\ m = Some (mt, pr) /\ tm = Some l /\ seen P t wk kw /\
    get_obj_factory_from_key_template (p_fs P) l = Ok f /\ utf8_valid uid = true /\ import_key B uid f v l = Ok o /\ insert_object P s o t0 = (t', Ok h) /\
    be_encap B mt pr kw n r = Ok (v, ct).
Proof.
  intros Hw c Ho.
  set (Q := fun (w' : world) (ro : result (N * out)) => match ro with Ok (_, OBufHandle ct x h) => exists sid t t0 t' mt pr l kw f r v uid o, w_smap w !! s = Some sid /\ replaced B w w' sid t t' /\ noise t t0 /\ m = Some (mt, pr) /\ tm = Some l /\ seen P t wk kw /\
    get_obj_factory_from_key_template (p_fs P) l = Ok f /\ utf8_valid uid = true /\ import_key B uid f v l = Ok o /\ insert_object P s o t0 = (t', Ok h) /\
    be_encap B mt pr kw n r = Ok (v, ct) | _ => True end).
  cut (Q (after w c) (answer w c)).
  { unfold Q. destruct (answer w c) as [[r o]|e] eqn:Ha; [apply answer_ok in Ha as [_ Ha]|apply answer_err in Ha as [_ Ha]]; rewrite Ho in Ha; [by subst o|done]. }
  assert (forall w' e, Q w' (Err e)) as HQ by done.
  apply (call_wp P B E c w Q).
  cbn [api c]. unfold c_encapsulate_key. wp_step. wp_step; [|done]. destruct m as [[mt pr]|]; [|done]. destruct tm as [l|]; [|done].
  do 3 (wp_step; wp_step; [|done]; match goal with H : Some _ = Some ?x |- _ => injection H as <- end).
  wp_step. wp_step; [|done]. wp_step. wp_step; [|done].
  match goal with H : w_smap w !! s = Some _ |- _ => rename H into Hm end. match goal with H : w_slots w !! _ = Some _ |- _ => rename H into Hsl end.
  match goal with H : sl_sessions _ !! s = Some _ |- _ => rename H into Hse end.
  assert (s_slot s0 = sid) as Hss. { apply (so_sessions _ _ _ _ _ (si_slots _ _ (wi_inv _ _ Hw) _ _ Hsl) _ _ Hse). }
  assert (token_of w sid = Some (sl_token sl)) as Htk by (unfold Spec.token_of; by rewrite Hsl). pose proof (token_ok B _ _ _ Hw Htk) as Ht.
  rewrite Hss. apply wp_bind, wp_ro_check; [|done]. intros Hro. cbv zeta. wp_step. wp_step; [|done].
  wp_step. wp_step. apply wp_peek; [done| |done]. intros t1 kw Hn1 Hseen _. cbv beta iota zeta.
  apply wp_bind, wp_ensure; intros _; [|done]. apply wp_bind, wp_lift. destruct (get_obj_factory_from_key_template (p_fs P) l) as [f|] eqn:Hf; [|done].
  wp_step. unfold mech_flags. wp_step. wp_step. destruct (List.filter _ _) as [|y ?]; wp_step; [done|]. apply wp_bind, wp_ensure; intros _; [|done].
  apply wp_bind, wp_lift. destruct (be_encap_len B mt kw) as [el|]; [|done]. cbn [negb]. apply wp_bind, wp_ensure; intros _; [|done].
  apply wp_bind, wp_lift. destruct (check_key_ops kw CKO_PUBLIC_KEY CKK_ML_KEM CKA_ENCAPSULATE) as [[]|]; [|done].
  wp_step. wp_step. change (sl_token (put_token B ?a ?b)) with a. apply wp_draw. cbv beta iota.
  rewrite ?with_slot_twice. change (put_token B ?a (put_token B ?b ?x)) with (put_token B a x).
  apply wp_bind, wp_lift. destruct (be_encap B mt pr kw n _) as [[v ct']|] eqn:Hv; [|done].
  wp_step. unfold new_uid. wp_step. change (sl_token (put_token B ?a ?b)) with a. apply wp_bind, wp_draw, wp_ret. cbv beta iota.
  rewrite ?with_slot_twice. change (put_token B ?a (put_token B ?b ?x)) with (put_token B a x).
  apply wp_bind, wp_lift. match goal with |- context [import_key B ?u f ?v l] => destruct (import_key B u f v l) as [o|] eqn:Hi; [|done] end.
  apply wp_bind, wp_attempt. wp_step. change (sl_token (put_token B ?a ?b)) with a. unfold wp at 1.
  match goal with |- context [insert_object P s o ?t] => destruct (insert_object P s o t) as [t' [h'|e]] eqn:Hins end; cbn [fst snd]; cbv beta iota; wp_step; [|done]. unfold Q.
  eexists sid, (sl_token sl), _, t', mt, pr, l, kw, f, _, v, _, o. split_and!; [done| | |done|done|done|done| |exact Hi|exact Hins|exact Hv].
  - rewrite ?with_slot_twice. change (put_token B ?a (put_token B ?b ?x)) with (put_token B a x). by apply slot_replaced.
  - etransitivity; [exact Hn1|]. etransitivity; apply noise_fresh.
  - apply Hutf.
Qed.

Lemma new_value w w' sid t t0 t' s l f v uid o h : winv w -> replaced B w w' sid t t' -> noise t t0 ->
  get_obj_factory_from_key_template (p_fs P) l = Ok f -> utf8_valid uid = true -> import_key B uid f v l = Ok o -> insert_object P s o t0 = (t', Ok h) ->
  tmpl_ulong l CKA_CLASS = Ok CKO_SECRET_KEY -> key_value w' sid h = Some (asked_for l v).
Proof.
  intros Hw (R1 & R2 & _) Hn Hf Hu Hi Hins Hc. pose proof (token_ok B _ _ _ Hw R1) as Ht. assert (tok_ok t0) as Ht0 by (by eapply noise_ok).
  assert (made o) as Hm. { eapply import_key_ok; [done|eapply key_factory_good; [exact Hfs|exact Hf]|exact Hi]. } pose proof (made_new _ Hm) as Hno.
  pose proof (insert_tells _ _ _ _ _ Hno Hins) as Htl. apply (insert_view P Hfs) in Hins as [_ Hpl]; [|done|done].
  unfold WrapSpec.key_value. rewrite R2. eapply placed_value; try done. by eapply import_value.
Qed.

(* C55: a secret key wrapped by one token and unwrapped by the same or another one has the same value. *)
Theorem C55_wrapped w1 s1 i1 wk1 k n b x w2 s2 i2 wk2 l p h mt pr :
  from_scratch w1 -> slot_of w1 s1 = Some i1 -> from_scratch w2 -> slot_of w2 s2 = Some i2 ->
  (forall k1 k2, names w1 i1 wk1 k1 -> names w2 i2 wk2 k2 -> undoes B mt pr k1 k2) ->
  n <> 0 -> out_of w1 (WrapKey s1 (Some (mt, pr)) wk1 k true (Some n)) = OBuf b x ->
  key_class w1 i1 k = Some CKO_SECRET_KEY -> tmpl_ulong l CKA_CLASS = Ok CKO_SECRET_KEY ->
  let c := UnwrapKey s2 (Some (mt, pr)) wk2 (Some b) (Some l) p in
  out_of w2 c = OHandle h ->
  exists v, key_value w1 i1 k = Some v /\ key_value (after w2 c) i2 h = Some (asked_for l v).
Proof.
  intros Hs1 Hi1 Hs2 Hi2 Hun Hn Hwr Hk Hc c Ho. unfold c in *. clear c. apply (scratch_winv P B E Hfs Hutf) in Hs1, Hs2.
  destruct (wrap_call w1 s1 _ wk1 k n b x Hs1 Hwr) as (sid & t & mt' & pr' & o & kw & f & v & r & A1 & A2 & A3 & A4 & A5 & A6 & A7 & A8). injection A3 as <- <-.
  assert (sid = i1) as -> by (unfold Spec.slot_of in Hi1; congruence).
  destruct (unwrap_call w2 s2 _ wk2 _ _ p h Hs2 Ho) as (sid & t2 & t0 & t' & mt' & pr' & l' & kw2 & f2 & data & v2 & uid & o2 & B1 & B2 & B3 & B4 & B5 & B6 & B7 & B8 & B9 & B10 & B11 & B12).
  injection B4 as <- <-. injection B5 as <-. injection B11 as <-. assert (sid = i2) as -> by (unfold Spec.slot_of in Hi2; congruence).
  exists v. split.
  - unfold WrapSpec.key_value. unfold WrapSpec.key_class in Hk. rewrite A2 in Hk |- *. eapply export_value; [exact (token_ok B _ _ _ Hs1 A2)|exact A4|exact Hk|exact A6|exact A7].
  - assert (v2 = v) as ->. { assert (be_unwrap B mt pr kw2 b = Ok v) as Hv; [|rewrite Hv in B12; by injection B12]. eapply Hun; [by exists t|exists t2; split; [apply B2|exact B6]|exact Hn|exact A8]. }
    eapply new_value; [exact Hs2|exact B2|exact B3|exact B7|exact B8|exact B9|exact B10|exact Hc].
Qed.
(* C55: both ends of a key encapsulation have the same key. *)
Theorem C55_encapsulated w1 s1 i1 pk l1 n p1 ct x h1 w2 s2 i2 sk l2 p2 h2 mt pr :
  from_scratch w1 -> slot_of w1 s1 = Some i1 -> from_scratch w2 -> slot_of w2 s2 = Some i2 ->
  (forall k1 k2, names w1 i1 pk k1 -> names w2 i2 sk k2 -> agrees B mt pr k1 k2) ->
  tmpl_ulong l1 CKA_CLASS = Ok CKO_SECRET_KEY -> tmpl_ulong l2 CKA_CLASS = Ok CKO_SECRET_KEY ->
  let c1 := EncapsulateKey s1 (Some (mt, pr)) pk (Some l1) true (Some n) p1 in
  let c2 := DecapsulateKey s2 (Some (mt, pr)) sk (Some l2) (Some ct) p2 in
  out_of w1 c1 = OBufHandle ct x h1 -> out_of w2 c2 = OHandle h2 ->
  exists v, key_value (after w1 c1) i1 h1 = Some (asked_for l1 v) /\ key_value (after w2 c2) i2 h2 = Some (asked_for l2 v).
Proof.
  intros Hs1 Hi1 Hs2 Hi2 Hag Hc1 Hc2 c1 c2 Ho1 Ho2. unfold c1, c2 in *. clear c1 c2. apply (scratch_winv P B E Hfs Hutf) in Hs1, Hs2.
  destruct (encap_call w1 s1 _ pk _ n p1 ct x h1 Hs1 Ho1) as (sid & t1 & t10 & t1' & mt' & pr' & l' & kw1 & f1 & r & v & uid1 & o1 & A1 & A2 & A3 & A4 & A5 & A6 & A7 & A8 & A9 & A10 & A11).
  injection A4 as <- <-. injection A5 as <-. assert (sid = i1) as -> by (unfold Spec.slot_of in Hi1; congruence).
  destruct (decap_call w2 s2 _ sk _ _ p2 h2 Hs2 Ho2) as (sid & t2 & t0 & t' & mt' & pr' & l' & kw2 & f2 & data & v2 & uid & o2 & B1 & B2 & B3 & B4 & B5 & B6 & B7 & B8 & B9 & B10 & B11 & B12).
  injection B4 as <- <-. injection B5 as <-. injection B11 as <-. assert (sid = i2) as -> by (unfold Spec.slot_of in Hi2; congruence).
  exists v. split; [eapply new_value; [exact Hs1|exact A2|exact A3|exact A7|exact A8|exact A9|exact A10|exact Hc1]|].
  assert (v2 = v) as ->. { assert (be_decap B mt pr kw2 ct = Ok v) as Hv; [|rewrite Hv in B12; by injection B12]. eapply Hag; [exists t1; split; [apply A2|exact A6]|exists t2; split; [apply B2|exact B6]|exact A11]. }
  eapply new_value; [exact Hs2|exact B2|exact B3|exact B7|exact B8|exact B9|exact B10|exact Hc2].
Qed.
End wrap.

(* ---- cases ---- *)
Lemma toy_undoes mt pr k1 k2 : undoes toy_be mt pr k1 k2.
Proof.
  intros data n r b l Hn. cbn [be_wrap be_unwrap toy_be]. destruct (n =? 0) eqn:H0; [lia|]. destruct (n <? blen data); [done|]. intros [= <- _]. f_equal.
  rewrite map_map. rewrite <- (map_id data) at 2. apply map_ext. intros. lia.
Qed.
Definition kek : list ckattr := aes_tmpl true ++ [tbool CKA_WRAP true; tbool CKA_UNWRAP true].
Definition kept55 : list ckattr :=
  [tulong CKA_CLASS CKO_SECRET_KEY; tulong CKA_KEY_TYPE CKK_AES; tbool CKA_TOKEN true; tbool CKA_SENSITIVE true; tbool CKA_EXTRACTABLE true; ca CKA_VALUE (map N.of_nat (seq 1 32))].
Definition back55 (l : list ckattr) : list ckattr := [tulong CKA_CLASS CKO_SECRET_KEY; tulong CKA_KEY_TYPE CKK_AES; tbool CKA_TOKEN true] ++ l.
Definition wrapped55 : call := WrapKey 2 (Some (CKM_AES_KEY_WRAP, None)) 10 11 true (Some 64).
Definition unwrap55 (l : list ckattr) : call := UnwrapKey 2 (Some (CKM_AES_KEY_WRAP, None)) 10 (Some (map N.of_nat (seq 2 32))) (Some (back55 l)) true.
Definition world55 : State.world toy_be := fst (toy_run toy_user [CreateObject 2 (Some kek) true; CreateObject 2 (Some kept55) true]).
(* A sensitive key is wrapped and unwrapped; unwrapped with a smaller CKA_VALUE_LEN it is cut. *)
Example C55_case : toy_out world55 wrapped55 = OBuf (map N.of_nat (seq 2 32)) 32 /\ key_class toy_be world55 0 11 = Some CKO_SECRET_KEY /\
  toy_out world55 (unwrap55 []) = OHandle 12 /\ key_value toy toy_be world55 0 11 = Some (map N.of_nat (seq 1 32)) /\
  key_value toy toy_be (toy_after world55 (unwrap55 [])) 0 12 = Some (map N.of_nat (seq 1 32)) /\
  key_value toy toy_be (toy_after world55 (unwrap55 [tulong CKA_VALUE_LEN 16])) 0 12 = Some (map N.of_nat (seq 1 16)).
Proof. split_and!; vm_compute; reflexivity. Qed.

(* A token that encapsulates. *)
Definition kem : params := {|
  p_fs := p_fs toy; p_mechs := (CKM_ML_KEM, CKF_ENCAPSULATE .|. CKF_DECAPSULATE) :: p_mechs toy; p_uuid := p_uuid toy; p_master := p_master toy; p_serial := p_serial toy;
  p_seal_key := p_seal_key toy; p_open_key := p_open_key toy; p_seal := p_seal toy; p_open := p_open toy |}.
Lemma kem_agrees mt pr k1 k2 : agrees toy_be mt pr k1 k2.
Proof. intros n r v c. cbn [be_encap be_decap toy_be]. by intros [= <- _]. Qed.
Definition pub55 : list ckattr :=
  [tulong CKA_CLASS CKO_PUBLIC_KEY; tulong CKA_KEY_TYPE CKK_ML_KEM; tbool CKA_ENCAPSULATE true; tulong CKA_PARAMETER_SET 1; ca CKA_VALUE [1]].
Definition prv55 : list ckattr :=
  [tulong CKA_CLASS CKO_PRIVATE_KEY; tulong CKA_KEY_TYPE CKK_ML_KEM; tbool CKA_DECAPSULATE true; tulong CKA_PARAMETER_SET 1; ca CKA_VALUE [2]; ca CKA_SEED [3]].
Definition kem55 : State.world toy_be := fst (run kem toy_be toy_env toy_start (setup ++ [CreateObject 2 (Some pub55) true; CreateObject 2 (Some prv55) true])).
Lemma kem55_scratch : from_scratch kem toy_be toy_env kem55.
Proof. by eexists. Qed.
Definition encap55 : call := EncapsulateKey 2 (Some (CKM_ML_KEM, None)) 11 (Some (back55 [])) true (Some 8) true.
Definition decap55 : call := DecapsulateKey 2 (Some (CKM_ML_KEM, None)) 12 (Some (back55 [])) (Some (repeat 4 8)) true.
Example C55_case_kem : out_of kem toy_be toy_env kem55 encap55 = OBufHandle (repeat 4 8) 8 13 /\ out_of kem toy_be toy_env kem55 decap55 = OHandle 13 /\
  key_value kem toy_be (after kem toy_be toy_env kem55 encap55) 0 13 = Some (repeat 3 16) /\
  key_value kem toy_be (after kem toy_be toy_env kem55 decap55) 0 13 = Some (repeat 3 16).
Proof. split_and!; vm_compute; reflexivity. Qed.
