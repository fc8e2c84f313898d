(* C57: the material of a key does not change. *)
From Verif Require Import Base Monad Hoare Attr Obj Factory Tables Create Sqlite Storage Token Backend State Api Toy
  ObjSpec PlainSpec Rows ObjOk ObjNew Triple TokInv TokStep TokenFrame TokWp TokAuth Spec WorldWp Sessions SessionInv SessionFacts ObjWorld ObjView ObjAttrs NewView ObjFacts
  AttrFacts Errors ObjCalls ToyFacts SetFacts ThmObjects ThmAttrs Protect ThmProtect.

(* The attributes that make up a public or private key, but for CKA_VALUE. *)
Definition components : list N :=
  [CKA_MODULUS; CKA_MODULUS_BITS; CKA_PUBLIC_EXPONENT; CKA_PRIVATE_EXPONENT; CKA_PRIME_1; CKA_PRIME_2; CKA_EXPONENT_1; CKA_EXPONENT_2; CKA_COEFFICIENT;
   CKA_EC_PARAMS; CKA_EC_POINT; CKA_PRIME; CKA_BASE; CKA_PARAMETER_SET; CKA_SEED].
Definition value_fixed (x : (N * N) * factory) : bool := negb ((fst (fst x) =? CKO_PUBLIC_KEY) || (fst (fst x) =? CKO_PRIVATE_KEY)) || fixed CKA_VALUE x.

Section material.
Context (P : params) (B : backend) (E : N -> keyenv).
Context (Hfs : p_fs P = all_factories) (Hutf : forall n, utf8_valid (p_uuid P n) = true).
Notation world := (world B).
Notation from_scratch := (from_scratch P B E). Notation after := (after P B E). Notation run := (run P B E).
Notation id_at := (id_at B). Notation attr_at := (attr_at B). Notation token_of := (token_of B).

(* C57: whatever calls are made, as long as the handle names an object, its components are the same, and none is added.
   Secret components of stored objects are compared as they are stored. *)
Theorem C57_components w cs sid h u ty : from_scratch w -> forallb (keeps_token sid) cs = true -> no_replace B w sid cs ->
  In ty components -> id_at w sid h = Some u -> id_at (fst (run w cs)) sid h <> None -> attr_at (fst (run w cs)) sid h ty = attr_at w sid h ty.
Proof.
  intros Hs Hk Hd Hty Hid Hid'. apply (scratch_winv P B E Hfs Hutf) in Hs.
  assert (forallb (lasting ty) all_factories = true /\ forallb (fixed ty) all_factories = true) as [T1 T2].
  { cbn [components In] in Hty. repeat (destruct Hty as [<-|Hty]; [vm_compute; done|]). done. }
  apply (run_stays P B E Hfs Hutf cs w sid h u ty (fun a => a = attr_at w sid h ty) T1); try done.
  intros t tmpl f c a _ Hf Hset _. exfalso. by eapply (no_set P).
Qed.

Lemma table_value : forallb value_fixed all_factories = true. Proof. vm_compute. reflexivity. Qed.
Lemma set_value t h tmpl f c a cl : num_of t h CKA_CLASS = Some cl -> cl = CKO_PUBLIC_KEY \/ cl = CKO_PRIVATE_KEY -> good_factory f -> ~ set_by P t h tmpl CKA_VALUE a f c.
Proof.
  intros Hc Hcl Hf [(o & [L1 L2] & L3 & _) S2 S3 S4 _]. unfold get_object_factory in L3.
  assert (get_ulong o CKA_CLASS = Ok cl) as Hg. { unfold num_of in Hc. unfold get_ulong, get_as. rewrite L2. destruct (attr_of t h CKA_CLASS) as [x|]; [|done]. destruct (attr_to_ulong x); cbn [opt] in Hc; [|done]. injection Hc as ->. done. }
  rewrite Hg in L3. cbn [rbind] in L3. match type of L3 with rbind ?x _ = _ => destruct x as [kt|] eqn:Hk; [|done] end. cbn [rbind] in L3.
  rewrite Hfs in L3. assert (In ((cl, kt), f) all_factories) as Hin by (by apply get_factory_in).
  pose proof (proj1 (forallb_forall _ _) table_value _ Hin) as Hv. unfold value_fixed in Hv. cbn [fst] in Hv.
  assert (fixed CKA_VALUE (cl, kt, f) = true) as Hx by (destruct Hcl; subst cl; done). clear Hv.
  destruct (check_set_in _ _ _ S2 S3) as (oa & H1 & H2 & H3).
  apply find_oa_in in H1 as [H1 H4]. unfold fixed in Hx. cbn [snd] in Hx. pose proof (proj1 (forallb_forall _ _) Hx _ H1) as Hy. cbv beta in Hy.
  rewrite H4, S4, N.eqb_refl, H2 in Hy. cbn [negb orb] in Hy.
  rewrite !andb_true_iff in Hy. destruct Hy as [[Hu Hx1] Hx2]. destruct (H3 Hu) as (_ & v & Hv & Hw). destruct v; rewrite Hw in *; done.
Qed.
(* Cryptographic operations change nothing of their key but the counter of an OTP key. *)
Context (Hop : forall x h l, be_updates B x = Some (h, l) -> Forall (fun c => ca_type c = CKA_OTP_COUNTER) l).
Definition holds_value (h : N) (u : bytes) (cl v : option attr) (t : token) : Prop :=
  gone h t \/ object_id t h = Some u /\ attr_of t h CKA_CLASS = cl /\ attr_of t h CKA_VALUE = v.
Lemma holds_step h u cl n v k t t' : match cl with Some a => opt (attr_to_ulong a) | None => None end = Some n -> n = CKO_PUBLIC_KEY \/ n = CKO_PRIVATE_KEY ->
  tok_ok t -> tstep P k t t' -> mild k -> calm k -> holds_value h u cl v t -> holds_value h u cl v t'.
Proof using Hfs.
  intros Hcl Hn Ht Hs Hk Hc [Hg|(Hid & S1 & S2)]; [left; eapply (tstep_gone P Hfs); try done; apply Hk|].
  destruct (tstep_attr P Hfs k t t' h u CKA_VALUE Ht Hs (proj1 Hk) Hid) as [Hg|[Hid' He]]; [by left|]. right. split; [done|].
  rewrite (kind_step P Hfs k t t' h u CKA_CLASS Ht Hs Hk Hc (or_introl eq_refl) Hid ltac:(congruence)). split; [done|].
  destruct He as [He|[[He _]|(tmpl & f & _ & Hf & [He|[c Hx]])]]; [by rewrite He|by destruct (proj2 Hk h)| |].
  - exfalso. eapply (good_lasting f CKA_VALUE); [by vm_compute|done|done].
  - exfalso. eapply (set_value t h tmpl f c _ n); [|done|done|exact Hx]. unfold num_of. by rewrite S1.
Qed.
(* C57 for CKA_VALUE, the private or public value of a key: whatever calls are made, as long as none changes the class or
   key type of an object. *)
Theorem C57_value_partial w cs sid h u t t' cl : from_scratch w -> forallb (keeps_token sid) cs = true -> no_replace B w sid cs ->
  forallb (fun c => negb (retypes c)) cs = true -> token_of w sid = Some t -> class_of t h = Some cl -> cl = CKO_PUBLIC_KEY \/ cl = CKO_PRIVATE_KEY ->
  object_id t h = Some u -> token_of (fst (run w cs)) sid = Some t' -> object_id t' h <> None -> attr_of t' h CKA_VALUE = attr_of t h CKA_VALUE.
Proof using All.
  intros Hs Hk Hd Hr Ht Hcl Hkind Hid Ht' Hid'. apply (scratch_winv P B E Hfs Hutf) in Hs.
  destruct (run_keeps_if P B E Hfs Hutf calm (fun c => negb (retypes c)) (calm_call B Hop) (holds_value h u (attr_of t h CKA_CLASS) (attr_of t h CKA_VALUE)) cs) with w sid t as (t1 & R1 & R2 & _); try done.
  - intros k a b Ha Hst Hm Hc HJ. by eapply (holds_step _ _ _ cl).
  - destruct Hd as [Hd|Hd]; [left; by apply Hd|by right].
  - by right.
  - assert (t1 = t') as -> by congruence. destruct R2 as [Hg|(_ & _ & R2)]; [by apply gone_id in Hg|done].
Qed.
End material.

(* An EC key pair on the token; attempts to change its point and its private value. *)
Definition pair57 : call := GenerateKeyPair 2 (Some (CKM_EC_KEY_PAIR_GEN, None)) (Some [ca CKA_EC_PARAMS [6; 8; 42; 134; 72; 206; 61; 3; 1; 7]; tbool CKA_VERIFY true])
  (Some [tbool CKA_TOKEN true; tbool CKA_SIGN true]) true true.
Definition w57 : State.world toy_be := fst (toy_run toy_user [pair57]).
Definition seen57 (w : State.world toy_be) (h : N) (l : list N) : list (option bytes) := map (fun ty => a_val <$> attr_at toy_be w 0 h ty) l.
Definition set57 (h : N) (l : list ckattr) : call := SetAttributeValue 2 h (Some l) (N.of_nat (length l)).
Definition tries57 : list call := [set57 10 [ca CKA_EC_POINT [1]]; set57 11 [ca CKA_VALUE [1]]; set57 11 [ca CKA_LABEL [9]]].
Example C57_case : from_scratch toy toy_be toy_env w57 /\ forallb (keeps_token 0) tries57 = true /\ forallb (fun c => negb (retypes c)) tries57 = true /\
  map fst (snd (toy_run w57 tries57)) = [CKR_ATTRIBUTE_READ_ONLY; CKR_ATTRIBUTE_READ_ONLY; CKR_OK] /\
  option_map (fun t => (t_dedup t, class_of t 10, class_of t 11)) (token_of toy_be w57 0) = Some (None, Some CKO_PUBLIC_KEY, Some CKO_PRIVATE_KEY) /\
  seen57 w57 10 [CKA_EC_POINT] = [Some [0; 0; 0; 5]] /\
  option_map (fun t => (object_id t 11, value_of toy t 11 CKA_VALUE)) (token_of toy_be (fst (toy_run w57 tries57)) 0) = Some (id_at toy_be w57 0 11, Some [0; 0; 0; 6]).
Proof. split; [apply toy_user_scratch|]. repeat (split; [vm_compute; reflexivity|]). vm_compute. reflexivity. Qed.
(* C57 is false for CKA_VALUE of a key whose class may be changed: three permitted calls put another private value in
   place of that of the EC key, under the same handle. *)
Definition retype57 : list call := [set57 11 [tulong CKA_CLASS CKO_DATA]; set57 11 [ca CKA_VALUE [1; 2; 3]]; set57 11 [tulong CKA_CLASS CKO_PRIVATE_KEY]].
Theorem C57_class_refuted : let w' := fst (toy_run w57 retype57) in
  from_scratch toy toy_be toy_env w57 /\ map fst (snd (toy_run w57 retype57)) = [CKR_OK; CKR_OK; CKR_OK] /\ id_at toy_be w' 0 11 = id_at toy_be w57 0 11 /\
  option_map (fun t => (kind_of t 11, value_of toy t 11 CKA_VALUE)) (token_of toy_be w57 0) = Some (Some (CKO_PRIVATE_KEY, CKK_EC), Some [0; 0; 0; 6]) /\
  seen57 w' 11 [CKA_CLASS; CKA_VALUE] = [Some (le64 CKO_PRIVATE_KEY); Some [1; 2; 3]].
Proof. cbv zeta. split; [apply toy_user_scratch|]. repeat (split; [vm_compute; reflexivity|]). vm_compute. reflexivity. Qed.
(* C57 is false for secret keys: C_SetAttributeValue gives an AES key another value, of a length that no AES key has. *)
Definition w57a : State.world toy_be := fst (toy_run toy_user [CreateObject 2 (Some (aes_tmpl true)) true]).
Theorem C57_secret_refuted : let c := set57 10 [ca CKA_VALUE [1; 2; 3]] in
  from_scratch toy toy_be toy_env w57a /\ toy_rv w57a c = CKR_OK /\
  option_map (fun t => (kind_of t 10, value_of toy t 10 CKA_VALUE)) (token_of toy_be w57a 0) = Some (Some (CKO_SECRET_KEY, CKK_AES), Some (repeat 9 16)) /\
  option_map (fun t => (kind_of t 10, value_of toy t 10 CKA_VALUE)) (token_of toy_be (toy_after w57a c) 0) = Some (Some (CKO_SECRET_KEY, CKK_AES), Some [1; 2; 3]).
Proof. cbv zeta. split; [apply toy_user_scratch|]. repeat (split; [vm_compute; reflexivity|]). vm_compute. reflexivity. Qed.
