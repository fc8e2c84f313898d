(* C58: a new secret key has the value that was computed or given for it. *)
From Verif Require Import Base Monad Hoare Attr Obj Factory Tables Create Sqlite Storage Token Backend State Api Toy
  ObjSpec PlainSpec Rows ObjOk ObjNew Triple TokInv TokStep TokenFrame TokWp TokAuth Spec WorldWp Sessions SessionInv SessionFacts ObjWorld ObjView ObjAttrs NewView ObjFacts
  AttrFacts Errors ObjCalls ToyFacts SetFacts PlainFacts ThmObjects ThmAttrs ThmAtomic Origin ThmOrigin ThmDerived ThmMech ThmNew ThmKeys WrapSpec ThmWrapBack.

(* The value a mechanism computed for a derived object. Key agreement puts it in the template, see Agree.v. *)
Inductive computed : derived -> bytes -> Prop :=
| comp_key t v : computed (DKey t v) v
| comp_concat t o v : computed (DConcat t o v) v
| comp_data t v : computed (DData t v) v
| comp_agree t m v : In (ca CKA_VALUE v) t -> computed (DCreate t m) v.

(* ---- what a template says of CKA_VALUE and CKA_VALUE_LEN ---- *)
Definition heeded (ty : N) (x : (N * N) * factory) : bool := match find_oa (f_attrs (snd x)) ty with Some oa => negb (oa_is oa OA_Ignored) | None => true end.
Lemma heeded_tables : forallb (heeded CKA_VALUE) all_factories && forallb (heeded CKA_VALUE_LEN) all_factories = true.
Proof. vm_compute. done. Qed.
Lemma internal_heeds ty f tmpl un req o c : ty = CKA_VALUE \/ ty = CKA_VALUE_LEN -> good_factory f -> internal_object_create f tmpl un req = Ok o -> In c tmpl -> ca_type c = ty -> gives ty c o.
Proof.
  intros Hty Hf H Hin Hc. unfold internal_object_create in H. destruct (create_from_template _ _ _ _) as [o1|] eqn:H1; cbn [rbind] in H; [|done].
  eapply gives_kept; [|intros a; by eapply defaults_says].
  destruct (template_gives _ _ _ _ _ c H1 Hin) as (a & A1 & A2); [rewrite Hc; by destruct Hty as [->| ->]| |exists a; by rewrite <- Hc].
  intros oa Hoa. pose proof heeded_tables as Ht. apply andb_prop in Ht as [T1 T2].
  assert (forallb (heeded ty) all_factories = true) as Hh by (destruct Hty as [->| ->]; done).
  destruct (good_check _ f Hh Hf) as [k Hk]. unfold heeded in Hk. cbn [snd] in Hk. rewrite <- Hc, Hoa in Hk. by apply negb_true_iff in Hk.
Qed.
Lemma ikey_heeds ty uid f tmpl un req o c : ty = CKA_VALUE \/ ty = CKA_VALUE_LEN -> good_factory f -> internal_key_create uid f tmpl un req = Ok o -> In c tmpl -> ca_type c = ty -> gives ty c o.
Proof.
  unfold internal_key_create. intros Hty Hf H Hin Hc. destruct (internal_object_create _ _ _ _) as [x|] eqn:E; [|done]. cbn [rbind] in H. apply ok_inj in H as <-.
  eapply gives_kept; [by eapply internal_heeds|apply kept_unique].
Qed.
Lemma key_create_heeds ty uid f tmpl o c : ty = CKA_VALUE \/ ty = CKA_VALUE_LEN -> good_factory f -> key_create uid f tmpl = Ok o -> In c tmpl -> ca_type c = ty -> gives ty c o.
Proof.
  unfold key_create. intros Hty Hf H Hin Hc. destruct (internal_key_create _ _ _ _ _) as [x|] eqn:E; [|done]. cbn [rbind] in H. cbv zeta in H. apply ok_inj in H as <-.
  eapply gives_kept; [by eapply ikey_heeds|].
  destruct Hty as [->| ->]; (destruct (secret_class _); [etransitivity; [|etransitivity; [|by apply kept_put]]; [|by apply kept_put]|];
    (destruct (_ || _); [by apply kept_put|done])).
Qed.
Definition keeps_secret (f : factory) : Prop := match f_kind f with FSecret _ | FAes | FHotp => True | _ => False end.
Lemma validate_value o o' : hotp_validate o = Ok o' -> kept CKA_VALUE o o'.
Proof.
  intros H. unfold hotp_validate in H. peel H. apply (kept_ensure' CKA_VALUE) in E. peel H. apply (kept_ensure' CKA_VALUE) in E0. peel H. peel H. cbv zeta in H.
  assert (kept CKA_VALUE o (if a1 then put_attr a0 (from_bytes CKA_ALLOWED_MECHANISMS (le64 CKM_HOTP)) else a0)) as Hn.
  { etransitivity; [exact E|]. etransitivity; [exact E0|]. destruct a1; [|done]. by apply kept_put. }
  repeat peel H. done.
Qed.
Lemma validate_len o o' : hotp_validate o = Ok o' -> kept CKA_VALUE_LEN o o'.
Proof.
  intros H. unfold hotp_validate in H. peel H. apply (kept_ensure' CKA_VALUE_LEN) in E. peel H. apply (kept_ensure' CKA_VALUE_LEN) in E0. peel H. peel H. cbv zeta in H.
  assert (kept CKA_VALUE_LEN o (if a1 then put_attr a0 (from_bytes CKA_ALLOWED_MECHANISMS (le64 CKM_HOTP)) else a0)) as Hn.
  { etransitivity; [exact E|]. etransitivity; [exact E0|]. destruct a1; [|done]. by apply kept_put. }
  repeat peel H. done.
Qed.
Lemma factory_value env uid f tmpl o c : keeps_secret f -> good_factory f -> factory_create env uid f tmpl = Ok o -> In c tmpl -> ca_type c = CKA_VALUE -> gives CKA_VALUE c o.
Proof.
  intros Hk Hf H Hin Hc. unfold keeps_secret in Hk. unfold factory_create in H. destruct (f_kind f); try done.
  - unfold secret_create in H. do 4 peel H; (eapply (key_create_heeds CKA_VALUE) in E; [|by left|done|exact Hin|done]); (eapply gives_kept; [exact E|by eapply kept_ensure]).
  - unfold aes_create in H. do 3 peel H. eapply (key_create_heeds CKA_VALUE) in E; [|by left|done|exact Hin|done]. eapply gives_kept; [exact E|by eapply kept_ensure].
  - unfold hotp_create in H. do 3 peel H. eapply (key_create_heeds CKA_VALUE) in E; [|by left|done|exact Hin|done]. eapply gives_kept; [exact E|]. etransitivity; [|by eapply validate_value]. by apply kept_put.
Qed.
Lemma gives_value o v : gives CKA_VALUE (ca CKA_VALUE v) o -> get_attr o CKA_VALUE = Some (from_bytes CKA_VALUE v).
Proof. intros (a & H & ->). unfold from_ck_attr in H. cbn [ca_type ca] in H. change (search_by_id CKA_VALUE) with (Some KBytes) in H. apply ok_inj in H as <-. done. Qed.
Lemma gives_len o n : n < 2 ^ 64 -> gives CKA_VALUE_LEN (tulong CKA_VALUE_LEN n) o -> get_ulong o CKA_VALUE_LEN = Ok n.
Proof.
  intros Hn (a & H & Ha). unfold from_ck_attr in H. cbn [ca_type ca tulong] in H. change (search_by_id CKA_VALUE_LEN) with (Some KNum) in H. unfold ck_to_ulong, ca_len in H. cbn [ca_ptr ca tulong] in H.
  assert (blen (le64 n) = 8) as Hl by (unfold blen, le64; by rewrite le_length). rewrite Hl in H. change (8 =? 8) with true in H. cbv iota in H. cbn [rbind] in H. apply ok_inj in H as <-.
  unfold get_ulong, get_as. rewrite Ha. unfold attr_to_ulong. cbn [a_kind a_val from_ulong]. rewrite unle_le64 by done. rewrite Hl. by rewrite unle_le64.
Qed.

Section computed.
Context (P : params) (B : backend) (E : N -> keyenv).
Context (Hfs : p_fs P = all_factories) (Hutf : forall n, utf8_valid (p_uuid P n) = true) (HV : value_laws P).
Notation world := (world B).
Notation from_scratch := (from_scratch P B E). Notation rv := (rv P B E). Notation after := (after P B E).
Notation out_of := (out_of P B E). Notation answer := (answer P B E).
Notation slot_of := (slot_of B). Notation token_of := (token_of B). Notation key_value := (key_value P B). Notation names := (names P B).
Notation winv := (winv B).

Lemma inserted_value w w' sid t t0 t' s o h v : winv w -> replaced B w w' sid t t' -> noise t t0 -> made o -> insert_object P s o t0 = (t', Ok h) ->
  get_attr o CKA_VALUE = Some (from_bytes CKA_VALUE v) -> key_value w' sid h = Some v.
Proof using All.
  intros Hw (R1 & R2 & _) Hn Hm Hins Hv. pose proof (token_ok B _ _ _ Hw R1) as Ht. assert (tok_ok t0) as Ht0 by (by eapply noise_ok). pose proof (made_new _ Hm) as Hno.
  pose proof (insert_tells P Hfs _ _ _ _ _ Hno Hins) as Htl. apply (insert_view P Hfs) in Hins as [_ Hpl]; [|done|done].
  unfold WrapSpec.key_value. rewrite R2. eapply (placed_value P Hfs HV); done.
Qed.
Lemma derived_value uid key d o v : derived_object P uid key d = Ok o -> computed d v -> get_attr o CKA_VALUE = Some (from_bytes CKA_VALUE v).
Proof using All.
  intros H Hc. destruct Hc as [t v|t k v|t v|t m v Hin]; cbn [derived_object] in H.
  - do 2 peel H. by eapply set_key_value.
  - do 3 peel H. by eapply set_key_value.
  - do 2 peel H. apply ok_inj in H as <-. rewrite get_put by done. cbn [a_type from_bytes]. by rewrite N.eqb_refl.
  - peel H. pose proof (key_factory_good P Hfs _ _ E0) as Hf. peel H. apply ok_inj in H as <-. rewrite marked_get by done. apply gives_value.
    assert (keeps_secret a) as Hk. { unfold keeps_secret, secret_key_create in *. by destruct (f_kind a). }
    eapply factory_value; [exact Hk|done| |exact Hin|done]. by apply (secret_key_create_eq (KeyEnv (fun _ _ _ => Err 0) (fun _ _ _ => Err 0) (fun _ => Err 0))).
Qed.

(* C58: the object C_DeriveKey makes has the value the mechanism computed from the base key, the mechanism's parameter and the
   template, and that value whole. *)
Theorem C58_derived w s mt pr base l p x sid n : from_scratch w -> slot_of w s = Some sid -> let c := DeriveKey s (Some (mt, pr)) base (Some l) p x in
  out_of w c = OHandle n ->
  exists key others r d, names w sid base key /\ be_derive B mt pr key others l r = Ok [d] /\ forall v, computed d v -> key_value (after w c) sid n = Some v.
Proof using All.
  intros Hs Hsl c Ho. unfold c in *. clear c. apply (scratch_winv P B E Hfs Hutf) in Hs.
  destruct (derive_call P B E Hutf w s _ base _ p x n Hs Ho) as (sid' & t & t0 & t' & mt' & pr' & l' & others & r & key & d & o & C1 & C2 & C3 & C4 & C5 & C6 & C7 & (uid & C8 & C9) & C10).
  injection C4 as <- <-. injection C5 as <-. assert (sid' = sid) as -> by (unfold Spec.slot_of in Hsl; congruence). pose proof C2 as (R1 & _).
  pose proof (token_ok B _ _ _ Hs R1) as Ht.
  assert (obj_ok key) as Hko. { destruct C6 as [C6|[_ C6]]; [apply (tk_sobj _ Ht _ _ C6)|apply (fetched_ok P Hfs _ _ _ Ht C6)]. }
  exists key, others, r, d. split; [exists t; split; [exact R1|exact C6]|]. split; [exact C7|]. intros v Hv.
  eapply inserted_value; [exact Hs|exact C2|exact C3|exact (derived_object_ok P Hfs _ _ _ _ C8 Hko C9)|exact C10|]. by eapply derived_value.
Qed.

(* C58: a generated secret key is as many random bytes as the template asks for. *)
Theorem C58_generated w s mt pr l p sid n len : from_scratch w -> slot_of w s = Some sid -> mt <> CKM_PKCS5_PBKD2 -> In (tulong CKA_VALUE_LEN len) l -> len < 2 ^ 64 ->
  let c := GenerateKey s (Some (mt, pr)) (Some l) p in
  out_of w c = OHandle n -> exists r v, k_random (E r) len = Ok v /\ key_value (after w c) sid n = Some v.
Proof using All.
  intros Hs Hsl Hmt Hin Hlen c Ho. unfold c in *. clear c. apply (scratch_winv P B E Hfs Hutf) in Hs.
  destruct (generate_call P B E Hutf w s _ _ p n Hs Ho) as (sid' & t & t0 & t' & mt' & pr' & l' & env & uid & o & C1 & C2 & C3 & C4 & C5 & C6 & C7 & C8).
  injection C4 as <- <-. injection C5 as <-. assert (sid' = sid) as -> by (unfold Spec.slot_of in Hsl; congruence).
  assert (exists v, k_random (E env) len = Ok v /\ get_attr o CKA_VALUE = Some (from_bytes CKA_VALUE v)) as (v & V1 & V2).
  { clear C2 C3 C8. unfold gen_key in C7. rewrite Hfs in C7. destruct (lookup_type _ _) as [kt|].
    - destruct (get_factory _ _) as [f|] eqn:Hf; cbn [rbind] in C7; [|done]. apply get_factory_good in Hf as [Hf _]. unfold secret_generate in C7.
      peel C7. unfold key_generate in E0. eapply (ikey_heeds CKA_VALUE_LEN) in E0; [|by right|done|exact Hin|done]. peel C7. apply (kept_ensure' CKA_VALUE_LEN) in E1. peel C7. apply (kept_ensure' CKA_VALUE_LEN) in E2.
      pose proof (gives_len _ _ Hlen (gives_kept _ _ _ _ (gives_kept _ _ _ _ E0 E1) E2)) as Hg. unfold default_secret_key_generate in C7. rewrite Hg in C7. cbn [rbind] in C7.
      destruct (k_random (E env) len) as [v|]; [|done]. cbn [rbind] in C7. apply ok_inj in C7 as <-. exists v. split; [done|]. rewrite marked_get by done. rewrite get_put by done. cbn [a_type from_bytes]. by rewrite N.eqb_refl.
    - destruct (_ =? _).
      + destruct (get_factory _ _) as [f|] eqn:Hf; cbn [rbind] in C7; [|done]. apply get_factory_good in Hf as [Hf _]. unfold hotp_generate in C7.
        peel C7. unfold key_generate in E0. eapply (ikey_heeds CKA_VALUE_LEN) in E0; [|by right|done|exact Hin|done]. peel C7. apply validate_len in E1.
        pose proof (gives_len _ _ Hlen (gives_kept _ _ _ _ E0 E1)) as Hg. unfold default_secret_key_generate in C7. rewrite Hg in C7. cbn [rbind] in C7.
        destruct (k_random (E env) len) as [v|]; [|done]. cbn [rbind] in C7. exists v. split; [done|]. cbv zeta in C7.
        assert (get_attr (default_key_attributes (put_attr a0 (from_bytes CKA_VALUE v)) mt) CKA_VALUE = Some (from_bytes CKA_VALUE v)) as Hv.
        { rewrite marked_get by done. rewrite get_put by done. cbn [a_type from_bytes]. by rewrite N.eqb_refl. }
        destruct (get_bytes _ _) in C7; apply ok_inj in C7 as <-; [done|]. by rewrite put_get.
      + apply N.eqb_neq in Hmt. rewrite Hmt in C7. done. }
  exists env, v. split; [done|]. eapply inserted_value; [exact Hs|exact C2|exact C3| |exact C8|done]. by eapply gen_key_ok.
Qed.

(* C58: a key made from a password is what PBKDF2 gives for it. *)
Theorem C58_password w s pr l p sid n : from_scratch w -> slot_of w s = Some sid -> tmpl_ulong l CKA_CLASS = Ok CKO_SECRET_KEY ->
  let c := GenerateKey s (Some (CKM_PKCS5_PBKD2, pr)) (Some l) p in
  out_of w c = OHandle n -> exists v, be_pbkdf B pr l = Ok v /\ key_value (after w c) sid n = Some v.
Proof using All.
  intros Hs Hsl Hcl c Ho. unfold c in *. clear c. apply (scratch_winv P B E Hfs Hutf) in Hs.
  destruct (generate_call P B E Hutf w s _ _ p n Hs Ho) as (sid' & t & t0 & t' & mt' & pr' & l' & env & uid & o & C1 & C2 & C3 & C4 & C5 & C6 & C7 & C8).
  injection C4 as <- <-. injection C5 as <-. assert (sid' = sid) as -> by (unfold Spec.slot_of in Hsl; congruence).
  pose proof C7 as C7'. unfold gen_key in C7. change (lookup_type gen_types CKM_PKCS5_PBKD2) with (@None N) in C7. cbv iota in C7.
  change (CKM_PKCS5_PBKD2 =? CKM_HOTP_KEY_GEN) with false in C7. rewrite N.eqb_refl in C7. cbv iota in C7. peel C7. pose proof (key_factory_good P Hfs _ _ E0) as Hf. peel C7. peel C7. apply ok_inj in C7 as <-.
  exists a0. split; [done|]. eapply inserted_value; [exact Hs|exact C2|exact C3|by eapply gen_key_ok|exact C8|]. rewrite marked_get by done. apply gives_value.
  eapply factory_value; [|exact Hf|exact E2|apply in_or_app; right; by left|done].
  unfold get_obj_factory_from_key_template in E0. unfold tmpl_ulong in Hcl. destruct (find_ck l CKA_CLASS) as [cc|]; [|done]. rewrite Hcl in E0. cbn [rbind] in E0. peel E0.
  apply (secret_kind P Hfs) in E0. unfold keeps_secret. by destruct (f_kind a).
Qed.

(* C58: a secret key made by C_CreateObject has the value of the template. *)
Theorem C58_created_partial w s l p sid n v : from_scratch w -> slot_of w s = Some sid -> (forall t, token_of w sid = Some t -> t_dedup t = None) ->
  tmpl_ulong l CKA_CLASS = Ok CKO_SECRET_KEY -> In (ca CKA_VALUE v) l -> let c := CreateObject s (Some l) p in
  out_of w c = OHandle n -> key_value (after w c) sid n = Some v.
Proof using All.
  intros Hs Hsl Hd Hcl Hin c Ho. apply (scratch_winv P B E Hfs Hutf) in Hs. subst c.
  destruct (create_call P B E w s (Some l) p Hs) as [[_ [e Ha]]|(sid' & se & t & t0 & t' & l' & env & r & C1 & C2 & C3 & C4 & C5 & C6 & C7 & C8)].
  { apply answer_err in Ha as [_ Ha]. congruence. }
  assert (sid' = sid) as -> by (unfold Spec.slot_of in Hsl; congruence). injection C5 as <-. destruct r as [n'|e]; [|apply answer_err in C8 as [_ C8]; congruence].
  apply answer_ok in C8 as [_ C8]. assert (n' = n) as -> by congruence. pose proof C3 as (R1 & R2 & _). pose proof (token_ok B _ _ _ Hs R1) as Ht.
  assert (t_dedup t0 = None) as Hd0. { destruct C4 as (i & m & ->). exact (Hd _ R1). }
  destruct (create_insert P _ _ _ _ _ _ (noise_ok _ _ C4 Ht) Hd0 C7) as (o & t1 & O1 & O2 & O3).
  { intros o Hf. rewrite Hfs in Hf. rewrite (create_class _ _ _ _ _ Hf Hcl). done. }
  rewrite Hfs in O1. assert (made o) as Hm. { eapply factories_create_ok; [apply Hutf|exact O1]. }
  eapply inserted_value; [exact Hs|exact C3|etransitivity; [exact C4|exact O2]|exact Hm|exact O3|].
  apply gives_value. unfold factories_create in O1. rewrite Hcl in O1. cbn [rbind] in O1. change (CKO_SECRET_KEY =? CKO_CERTIFICATE) with false in O1.
  match type of O1 with rbind (if ?b then _ else _) _ = _ => change b with false in O1 end. cbv iota in O1. match type of O1 with rbind (if ?b then _ else _) _ = _ => change b with true in O1 end. cbv iota in O1.
  peel O1. destruct (get_factory _ _) as [f|] eqn:Hf; cbn [rbind] in O1; [|done]. pose proof Hf as Hf'. apply get_factory_good in Hf as [Hf _]. rewrite <- Hfs in Hf'. apply (secret_kind P Hfs) in Hf'.
  eapply factory_value; [|exact Hf|exact O1|exact Hin|done]. unfold keeps_secret. by destruct (f_kind f).
Qed.

Lemma copy_tells sh h tmpl t : tok_ok t -> wp (copy_object P sh h tmpl) t (fun t' _ => tells t t').
Proof using All.
  intros Ht. unfold copy_object. apply wp_bind, wp_gets, wp_bind.
  assert (forall t0, noise t t0 -> tells t t0) as Hnt. { intros t0 (i & n & ->). done. }
  assert (forall t0 o, noise t t0 -> obj_pre o -> wp (let! uid := new_uid P in let! n := lift (factories_copy uid (p_fs P) o tmpl) in insert_object P sh n) t0 (fun t' _ => tells t t')) as Hgo.
  { intros t0 o Hn Hp. assert (noise t (set_fresh (t_fresh t0 + 1) t0)) as Hn1 by (etransitivity; [exact Hn|apply noise_fresh]).
    unfold new_uid. apply wp_bind, wp_bind, wp_draw, wp_ret, wp_bind, wp_lift. destruct (factories_copy _ _ _ _) as [n|] eqn:Hf; [|by apply Hnt].
    pose proof (factories_copy_ok _ (Hutf _) _ _ _ _ Hp Hf) as Hno. unfold wp. destruct (insert_object P sh n _) as [t' r] eqn:Hi. cbn [fst snd].
    apply (insert_tells P Hfs _ _ _ _ _ Hno) in Hi as [I1 I2]. destruct (Hnt _ Hn1) as [J1 J2]. split; congruence. }
  destruct (t_sobjs t !! h) as [o|] eqn:Hs.
  - apply wp_ret. apply Hgo; [reflexivity|]. apply (tk_sobj _ Ht _ _ Hs).
  - apply wp_bind, wp_st_fetch; [|intros; apply Hnt, noise_io]. intros i o Hf. apply wp_bind, wp_gets, wp_bind, wp_ensure; [|intros; apply Hnt, noise_io]. intros Hl. apply wp_ret.
    apply Hgo; [apply noise_io|]. by eapply fetched_pre.
Qed.
(* C58: a copy has the value of the object it was made from, unless the template gives another. A session object whose class
   was changed by C_SetAttributeValue can hold two entries for the class, and its copy is then stored as one class and read as the other. *)
Theorem C58_copied_partial w s h tm cnt p sid n v : from_scratch w -> slot_of w s = Some sid -> (forall c, In c (default [] tm) -> ca_type c <> CKA_VALUE /\ ca_type c <> CKA_CLASS) ->
  (forall t o, token_of w sid = Some t -> t_sobjs t !! h = Some o -> agree o) ->
  key_value w sid h = Some v -> let c := CopyObject s h tm cnt p in out_of w c = OHandle n -> key_value (after w c) sid n = Some v.
Proof using All.
  intros Hs Hsl Hno Hag Hkv c Ho. unfold c in *. clear c. apply (scratch_winv P B E Hfs Hutf) in Hs.
  destruct (copy_call P B E w s h tm cnt p Hs) as [[_ [e Ha]]|(sid' & se & t & t' & l & r & C1 & C2 & C3 & -> & C5 & C6 & C7)].
  { apply answer_err in Ha as [_ Ha]. congruence. }
  assert (sid' = sid) as -> by (unfold Spec.slot_of in Hsl; congruence). destruct r as [n'|e]; [|apply answer_err in C7 as [_ C7]; congruence].
  apply answer_ok in C7 as [_ C7]. assert (n' = n) as -> by congruence. destruct C3 as (R1 & R2 & _). pose proof (token_ok B _ _ _ Hs R1) as Ht.
  unfold WrapSpec.key_value in *. rewrite R1 in Hkv. rewrite R2. pose proof (copy_tells s h (default [] tm) t Ht) as Hte. unfold wp in Hte. rewrite C6 in Hte. cbn [fst snd] in Hte.
  assert (wp (copy_object P s h (default [] tm)) t (fun t' r => tells t t' -> match r with Ok n => value_of P t' n CKA_VALUE = Some v | Err _ => True end)) as Hwp.
  { apply (wp_copy_object P Hfs); [done|done| |done]. intros t0 t1 o uid m h' Hn Hso Hf Hm Hu -> Hpl Htl.
    destruct (copy_attr P Hfs _ _ _ _ Hf) as (_ & f' & F1 & _ & F3).
    destruct (F3 CKA_VALUE) as [F4|(c & x & oa & X1 & X2 & _)]; [done..| |by destruct (Hno c X1) as [Hx _]].
    assert (exists sel, shows P t h sel o /\ sel CKA_VALUE = true) as (sel & Hsh & Hsel).
    { destruct Hso as [Hso|(H1 & H2 & _)]; [exists (fun _ => true); split; [by apply shows_session|done]|]. destruct (shows_fetched P Hfs t h [] o Ht H1 H2) as [H3 _]. eexists. split; [exact H3|]. done. }
    pose proof (sh_value _ _ _ _ _ Hsh CKA_VALUE Hsel) as Hv. rewrite F1 in Hv. specialize (Hv eq_refl). rewrite Hkv in Hv.
    destruct (get_attr o CKA_VALUE) as [a|] eqn:Ha; [|done]. cbn in Hv. injection Hv as Hv.
    eapply (placed_value P Hfs HV t0); [split; [exact Hm|]| |exact Hpl|].
    - eapply (factories_copy_agree uid); [| | |exact Hf].
      + destruct Hso as [Hso|(_ & H2 & _)]; [apply (tk_sobj _ Ht _ _ Hso)|by eapply fetched_pre].
      + destruct Hso as [Hso|(_ & H2 & _)]; [by eapply Hag|by eapply fetched_agree].
      + apply not_true_iff_false. intros (c & X1 & X2%N.eqb_eq)%existsb_exists. by destruct (Hno c X1).
    - destruct Hn as (i & k & ->). exact Htl.
    - rewrite F4. f_equal. pose proof (get_type _ _ _ Ha) as Hty. destruct (pre_get_wf o CKA_VALUE a) as [W _]; [|done|].
      { destruct Hso as [Hso|(_ & H2 & _)]; [apply (tk_sobj _ Ht _ _ Hso)|by eapply fetched_pre]. }
      unfold norm in W. rewrite Hty in W. change (search_by_id CKA_VALUE) with (Some KBytes) in W. destruct a as [ty k x]. cbn [a_type a_kind a_val] in *. subst. unfold from_bytes. destruct k; cbn [a_kind] in W; first [discriminate W|reflexivity]. }
  unfold wp in Hwp. rewrite C6 in Hwp. cbn [fst snd] in Hwp. by apply Hwp.
Qed.

(* ---- key pairs ---- *)
Definition value_at (w : world) (sid h ty : N) : option bytes := match token_of w sid with Some t => value_of P t h ty | None => None end.
(* The attributes of key material that are byte strings. *)
Definition byte_material : list N := List.filter (fun ty => negb ((ty =? CKA_PARAMETER_SET) || (ty =? CKA_VALUE_BITS))) material.
Lemma byte_tables : forallb (fun ty => forallb (lasting ty) all_factories && match search_by_id ty with Some KBytes => true | _ => false end) byte_material = true.
Proof using. vm_compute. done. Qed.
Lemma placed_bytes ty t t' sh h o v : In ty byte_material -> made o -> tells t t' -> placed P t t' sh h o -> get_attr o ty = Some (from_bytes ty v) -> value_of P t' h ty = Some v.
Proof using All.
  intros Hty [Hno Hag] [K1 K2] Hpl Hv. pose proof (proj1 (forallb_forall _ _) byte_tables _ Hty) as Hx. apply andb_prop in Hx as [X1 X2].
  pose proof Hno as [[Hp _] _]. pose proof Hpl as [(u & U1 & U2) Hses Hm Hd]. unfold value_of. rewrite Hses, U2. destruct (is_token o).
  - destruct (Hd eq_refl) as (_ & f & uid & F1 & F2 & F3). assert (u = uid) as -> by congruence. pose proof (obj_factory_good P Hfs _ _ F1) as Hf.
    assert (factory_of P t' h = Some f) as ->.
    { assert (forall ty, In ty basic -> get_attr o ty = attr_of t' h ty) as Ha.
      { intros ty' Hty'. pose proof (proj1 (forallb_forall _ _) basic_tables _ Hty') as Hx'. apply andb_prop in Hx' as [X1' X2']. symmetry. eapply (placed_attr P Hfs); [exact Hpl|done|by right|done|].
        destruct (search_by_id ty') as [[]|]; try done; [by left|by right]. }
      destruct (shows_of P t' h o Hp Ha) as (_ & -> & _). by rewrite F1. }
    destruct (F3 ty) as [G1 G2]; [left; by intros ->|eapply good_lasting; [exact X1|exact Hf]|]. cbn [negb].
    destruct (existsb (N.eqb ty) (f_sensitive f)) eqn:Hx.
    + rewrite Hv in G2. destruct G2 as (e & -> & k & r & S1 & S2). { apply existsb_exists in Hx as (y & Hy & He). by apply N.eqb_eq in He as ->. }
      rewrite K1, K2, S1. cbn [from_bytes a_val]. cbn [a_val from_bytes] in S2. by rewrite (vl_open _ HV _ _ _ _ _ _ S2).
    + rewrite G1. { unfold kept_attr_of. rewrite Hv. change (is_kept (from_bytes ty v)) with true. cbv iota. by rewrite norm_val. }
      intros Hin. apply not_true_iff_false in Hx. apply Hx, existsb_exists. exists ty. split; [done|apply N.eqb_refl].
  - cbn [negb]. unfold attr_of. rewrite (Hm eq_refl). change (get_attr (set_session (set_handle o h) sh) ty) with (get_attr o ty). by rewrite Hv.
Qed.
Lemma view_value h t t' ty : same_view h t t' -> tells t t' -> value_of P t' h ty = value_of P t h ty.
Proof using All.
  intros Hv [K1 K2]. unfold value_of, factory_of, kind_of, class_of, num_of, is_session_object.
  rewrite !(view_attr _ _ _ _ Hv), (view_id _ _ _ Hv), K1, K2. by rewrite (sv_sobj _ _ _ Hv).
Qed.
Lemma material_put ty v : In ty byte_material -> forall l o, NoDup (map fst l) -> In (ty, v) l -> get_attr (put_material o l) ty = Some (from_bytes ty v).
Proof using.
  intros Hty. apply filter_In in Hty as [Hm Hb]. apply negb_true_iff in Hb. intros l. induction l as [|[t x] l IH]; [done|]. intros o Hnd Hin. cbn [map fst] in Hnd. inversion Hnd as [|? ? H1 H2]; subst.
  cbn [put_material foldl fst snd]. destruct Hin as [Heq|Hin]; [|by apply IH]. injection Heq as -> ->.
  assert (is_material ty = true) as ->. { unfold is_material. apply existsb_exists. exists ty. split; [done|apply N.eqb_refl]. }
  assert (forall l o, ~ In ty (map fst l) -> get_attr (put_material o l) ty = get_attr o ty) as Hother.
  { clear. induction l as [|[t x] l IH]; [done|]. intros o Hn. cbn [put_material foldl fst snd]. cbn [map fst In] in Hn. change (get_attr (put_material (if is_material t then put_attr o (mat_attr t x) else o) l) ty = get_attr o ty).
    rewrite IH by tauto. destruct (is_material t); [|done]. apply put_get. unfold mat_attr. destruct (_ || _); cbn; tauto. }
  change (get_attr (put_material (put_attr o (mat_attr ty v)) l) ty = Some (from_bytes ty v)). rewrite Hother. 2: { intros Hx. apply H1. by apply elem_of_list_In. }
  unfold mat_attr. rewrite Hb. rewrite get_put; [cbn [a_type from_bytes]; by rewrite N.eqb_refl|]. apply N.eqb_neq. cbn [a_type from_bytes]. intros ->. vm_compute in Hm. repeat (destruct Hm as [Hm|Hm]; [discriminate Hm|]). exact Hm.
Qed.
(* C58: the keys of a new pair are made of what the generator gave: as far as it is a byte string, each part is an attribute of
   its key, and no other. *)
Theorem C58_pair w s mt pr l1 l2 p1 p2 sid n1 n2 : from_scratch w -> slot_of w s = Some sid ->
  (forall r kt a b m, k_pair (E r) kt a b = Ok m -> NoDup (map fst (fst m)) /\ NoDup (map fst (snd m))) ->
  let c := GenerateKeyPair s (Some (mt, pr)) (Some l1) (Some l2) p1 p2 in
  out_of w c = OHandles [n1; n2] ->
  exists r kt a b pub prv, k_pair (E r) kt a b = Ok (pub, prv) /\
    (forall ty v, In ty byte_material -> In (ty, v) pub -> value_at (after w c) sid n1 ty = Some v) /\
    (forall ty v, In ty byte_material -> In (ty, v) prv -> value_at (after w c) sid n2 ty = Some v).
Proof using All.
  intros Hs Hsl Hnd c Ho. unfold c in *. clear c. apply (scratch_winv P B E Hfs Hutf) in Hs.
  destruct (pair_call P B E Hutf w s _ _ _ p1 p2 _ Hs Ho) as (sid' & t & t0 & t1 & t' & mt' & pr' & l1' & l2' & env & u1 & u2 & o1 & o2 & m1 & m2 & C1 & C2 & C3 & C4 & C5 & C6 & C7 & C8 & C9 & C10 & C11 & C12).
  injection C4 as <- <-. injection C5 as <-. injection C6 as <-. injection C10 as <- <-. assert (sid' = sid) as -> by (unfold Spec.slot_of in Hsl; congruence). destruct C2 as (R1 & R2 & _).
  pose proof (token_ok B _ _ _ Hs R1) as Ht. pose proof (noise_ok _ _ C3 Ht) as Ht0. destruct (gen_pair_ok P Hfs _ _ _ _ _ _ _ _ C7 C8 C9) as [M1 M2]. pose proof M1 as [N1 _]. pose proof M2 as [N2 _].
  pose proof (hs_insert_odd P Hfs adding I I s o1 (fun _ => I) I N1 t0 Ht0) as (Ht1 & _). rewrite C11 in Ht1. cbn [fst] in Ht1.
  pose proof (insert_tells P Hfs _ _ _ _ _ N1 C11) as L1. pose proof (insert_tells P Hfs _ _ _ _ _ N2 C12) as L2.
  apply (insert_view P Hfs) in C11 as [_ Hp1]; [|done|done]. destruct (pl_id _ _ _ _ _ _ Hp1) as (u & _ & Hu). apply id_named in Hu; [|done].
  destruct (insert_keeps P Hfs _ _ _ _ _ _ _ Ht1 N2 Hu C12) as [_ Hv]. apply (insert_view P Hfs) in C12 as [_ Hp2]; [|done|done].
  unfold gen_pair in C9. destruct (lookup_type _ _) as [kt|]; [|done]. do 2 peel C9. unfold pair_generate in C9. do 7 peel C9. apply ok_inj in C9. injection C9 as <- <-.
  match goal with H : k_pair _ _ _ _ = Ok ?m |- _ => destruct m as [pub prv]; pose proof (Hnd _ _ _ _ _ H) as [D1 D2]; exists env, kt; do 2 eexists; exists pub, prv; split; [exact H|] end.
  cbn [fst snd] in *. unfold value_at. rewrite R2. 
  assert (forall ty, In ty byte_material -> ty <> CKA_LOCAL /\ ty <> CKA_KEY_GEN_MECHANISM /\ ty <> CKA_NEVER_EXTRACTABLE /\ ty <> CKA_ALWAYS_SENSITIVE) as Hnot.
  { intros ty Hty. cbn in Hty. repeat (destruct Hty as [<-|Hty]; [done|]). done. }
  split; intros ty v Hty Hin; destruct (Hnot ty Hty) as (Q1 & Q2 & Q3 & Q4).
  - rewrite (view_value _ _ _ _ Hv L2). eapply placed_bytes; [done|exact M1|exact L1|exact Hp1|]. rewrite marked_get by done. by apply material_put.
  - eapply placed_bytes; [done|exact M2|exact L2|exact Hp2|]. rewrite marked_get by done. by apply material_put.
Qed.
End computed.

(* A generated key of 16 bytes on the token, a key that was given, and keys derived from both: their values. *)
Definition stored_derive : list ckattr := derive_tmpl ++ [tbool CKA_TOKEN true].
Definition computing : list call :=
  base_keys ++ [DeriveKey 2 (Some (CKM_XOR_BASE_AND_DATA, None)) 11 (Some stored_derive) true 0; DeriveKey 2 (Some (CKM_ECDH1_DERIVE, None)) 11 (Some derive_tmpl) true 0].
Definition computed58 : State.world toy_be := fst (toy_run toy_user computing).
Example C58_case : from_scratch toy toy_be toy_env computed58 /\
  map snd (snd (toy_run toy_user computing)) = [OHandle 10; OHandle 11; OHandle 12; OHandle 13] /\
  map (key_value toy toy_be computed58 0) [10; 11; 12; 13] = map (fun x => Some (repeat x 16)) [5; 9; 1; 5].
Proof. split; [apply toy_user_scratch|]. split; vm_compute; reflexivity. Qed.
(* The mechanisms of the toy give 16 bytes of 1 for the third key, and put 16 bytes of 5 in the template of the fourth. *)
Example C58_case_computed key others : (exists d, be_derive toy_be CKM_XOR_BASE_AND_DATA None key others stored_derive 0 = Ok [d] /\ computed d (repeat 1 16)) /\
  (exists d, be_derive toy_be CKM_ECDH1_DERIVE None key others derive_tmpl 0 = Ok [d] /\ computed d (repeat 5 16)).
Proof. split; (eexists; split; [reflexivity|]); constructor. cbn. tauto. Qed.
(* The key stored sealed, third above, copied into the session and onto the token. *)
Example C58_case_copied : let copy := fun b => CopyObject 2 12 (Some [tbool CKA_TOKEN b]) 1 true in
  from_scratch toy toy_be toy_env computed58 /\ (t_sobjs <$> token_of toy_be computed58 0) ≫= (.!! 12) = None /\
  map snd (snd (toy_run toy_user (computing ++ [copy false; copy true]))) = [OHandle 10; OHandle 11; OHandle 12; OHandle 13; OHandle 14; OHandle 15] /\
  map (key_value toy toy_be (fst (toy_run toy_user (computing ++ [copy false; copy true]))) 0) [14; 15] = [Some (repeat 1 16); Some (repeat 1 16)].
Proof. cbv zeta. split; [apply toy_user_scratch|]. repeat (split; [vm_compute; reflexivity|]). vm_compute; reflexivity. Qed.
(* A pair on the token: point and private value, the latter sealed in the database. *)
Definition pair58 : call := GenerateKeyPair 2 (Some (CKM_EC_KEY_PAIR_GEN, None)) (Some [ca CKA_EC_PARAMS [6; 8; 42; 134; 72; 206; 61; 3; 1; 7]]) (Some [tbool CKA_TOKEN true]) true true.
Example C58_case_pair : (forall r kt a b m, k_pair (toy_env r) kt a b = Ok m -> NoDup (map fst (fst m)) /\ NoDup (map fst (snd m))) /\
  from_scratch toy toy_be toy_env computed58 /\ map snd (snd (toy_run toy_user (computing ++ [pair58]))) = [OHandle 10; OHandle 11; OHandle 12; OHandle 13; OHandles [14; 15]] /\
  let w := fst (toy_run toy_user (computing ++ [pair58])) in
  value_at toy toy_be w 0 14 CKA_EC_POINT = Some (be 4 14) /\ value_at toy toy_be w 0 15 CKA_VALUE = Some (be 4 15).
Proof.
  split. { intros r kt a b m H. cbn [k_pair toy_env] in H. apply ok_inj in H as <-. split; (constructor; [intros Hx; inversion Hx|constructor]). }
  split; [apply toy_user_scratch|]. split; [vm_compute; reflexivity|]. cbv zeta. split; vm_compute; reflexivity.
Qed.
