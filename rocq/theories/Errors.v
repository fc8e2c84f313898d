(* Which error codes the calls return: none returns CKR_OK as an error; faults (null dereferences) come only from null
   pointers among the arguments. *)
From Verif Require Import Base Monad Hoare Attr Obj Factory Tables Create Sqlite Storage Token Backend State Api Spec.

Definition okerr {A} (Q : N -> Prop) (r : result A) : Prop := match r with Ok _ => True | Err e => Q e end.
Definition errs {S A} (Q : N -> Prop) (m : M S A) : Prop := forall s, okerr Q (snd (m s)).

(* The answers about a wrong PIN, which only the authentication functions give, and the other errors. *)
Definition pin_code (e : N) : bool := (e =? CKR_PIN_INCORRECT) || (e =? CKR_PIN_LOCKED) || (e =? CKR_PIN_INVALID) || (e =? CKR_PIN_EXPIRED).
Definition plain_code (e : N) : bool := negb (e =? CKR_OK) && (e <? 2 ^ 64) && negb (pin_code e).

Section comb.
Context (Q : N -> Prop).
Lemma okerr_bind {A B} (r : result A) (f : A -> result B) : okerr Q r -> (forall a, r = Ok a -> okerr Q (f a)) -> okerr Q (rbind r f).
Proof. destruct r; cbn; auto. Qed.
Lemma okerr_map {A} (r : result A) e : Q e -> okerr Q (map_err r e).
Proof. by destruct r. Qed.
Context {S : Type}.
Lemma errs_bind {A B} (m : M S A) (f : A -> M S B) : errs Q m -> (forall a, errs Q (f a)) -> errs Q (mbind m f).
Proof. intros Hm Hf s. unfold mbind. specialize (Hm s). destruct (m s) as [s' [a|e]]; [apply Hf|exact Hm]. Qed.
Lemma errs_attempt {A B} (m : M S A) (f : result A -> M S B) :
  errs Q m -> (forall r, okerr Q r -> errs Q (f r)) -> errs Q (mbind (attempt m) f).
Proof. intros Hm Hf s. unfold mbind, attempt. specialize (Hm s). destruct (m s) as [s' r]. apply Hf, Hm. Qed.
Lemma errs_ret {A} (a : A) : errs Q (S:=S) (ret a).
Proof. by intros s. Qed.
Lemma errs_fail {A} e : Q e -> errs Q (S:=S) (A:=A) (fail e).
Proof. by intros H s. Qed.
Lemma errs_lift {A} (r : result A) : okerr Q r -> errs Q (S:=S) (lift r).
Proof. by intros H s. Qed.
Lemma errs_gets {A} (f : S -> A) : errs Q (gets f).
Proof. by intros s. Qed.
Lemma errs_modify f : errs Q (S:=S) (modify f).
Proof. by intros s. Qed.
Lemma errs_skip : errs Q (S:=S) skip.
Proof. by intros s. Qed.
Lemma errs_ensure b e : (b = false -> Q e) -> errs Q (S:=S) (ensure b e).
Proof. intros H s. unfold ensure. destruct b; [done|]. by apply H. Qed.
End comb.

(* The cryptography returns only errors in [Q]. *)
Record sane (Q : N -> Prop) (P : params) (B : backend) (E : N -> keyenv) : Prop := Sane {
  sane_seal_key : forall a b c d e, okerr Q (p_seal_key P a b c d e);
  sane_seal : forall a b c d e, okerr Q (p_seal P a b c d e);
  sane_open : forall a b c d, okerr Q (p_open P a b c d);
  sane_import : forall r a b c, okerr Q (k_import (E r) a b c);
  sane_pair : forall r a b c, okerr Q (k_pair (E r) a b c);
  sane_random : forall r a, okerr Q (k_random (E r) a);
  sane_new : forall a b c d e f, okerr Q (be_new B a b c d e f);
  sane_mech : forall x, okerr Q (be_mech B x);
  sane_out_len : forall x, okerr Q (be_out_len B x);
  sane_len : forall x a b, okerr Q (snd (be_len B x a b));
  sane_call : forall c x, okerr Q (snd (be_call B c x));
  sane_size : forall x, okerr Q (be_size B x);
  sane_save : forall x, okerr Q (be_save B x);
  sane_restore : forall a b c d, okerr Q (be_restore B a b c d);
  sane_bseal : forall a b, okerr Q (be_seal B a b);
  sane_wrap : forall a b c d e f, okerr Q (be_wrap B a b c d e f);
  sane_unwrap : forall a b c d, okerr Q (be_unwrap B a b c d);
  sane_derive : forall a b c d e f, okerr Q (be_derive B a b c d e f);
  sane_encap : forall a b c d e, okerr Q (be_encap B a b c d e);
  sane_decap : forall a b c d, okerr Q (be_decap B a b c d);
  sane_encap_len : forall a b, okerr Q (be_encap_len B a b);
  sane_export : forall a, okerr Q (be_export B a);
  sane_parse : forall a b c, okerr Q (be_parse B a b c);
  sane_pbkdf : forall a b, okerr Q (be_pbkdf B a b);
  (* the templates a derivation completes, and the attributes an operation stores, have no null pointers *)
  sane_derived : forall a b c d t f l, be_derive B a b c d t f = Ok l -> Q RV_NULL_DEREF \/ Forall (fun x => ca_ptr x <> None) t ->
    Q RV_NULL_DEREF \/ Forall (fun x => match x with DKey t _ | DConcat t _ _ | DData t _ | DPub t _ | DCreate t _ => Forall (fun x => ca_ptr x <> None) t end) l;
  sane_updates : forall x h l, be_updates B x = Some (h, l) -> Q RV_NULL_DEREF \/ Forall (fun x => ca_ptr x <> None) l }.

(* No entry of the template has a null value pointer, if faults matter. *)
Definition tm_ok (Q : N -> Prop) (t : list ckattr) : Prop := Q RV_NULL_DEREF \/ Forall (fun c => ca_ptr c <> None) t.
Definition ck_ok (Q : N -> Prop) (c : ckattr) : Prop := Q RV_NULL_DEREF \/ ca_ptr c <> None.
Lemma tm_ok_cons Q c t : tm_ok Q (c :: t) -> ck_ok Q c /\ tm_ok Q t.
Proof. intros [H|H]; [split; left; done|]. inversion H. split; by right. Qed.
Lemma tm_ok_app Q t c : tm_ok Q t -> ck_ok Q c -> tm_ok Q (t ++ [c]).
Proof. intros [H|H] [H'|H']; [by left..|]. right. apply Forall_app. split; [done|]. by constructor. Qed.
Lemma tm_ok_find Q t ty c : tm_ok Q t -> find_ck t ty = Some c -> ck_ok Q c.
Proof.
  induction t as [|x t IH]; [done|]. intros Hok. apply tm_ok_cons in Hok as [H1 H2]. cbn. destruct (_ =? _); [|auto].
  intros ?. by simplify_eq.
Qed.
Lemma ck_ok_ca Q t v : ck_ok Q (ca t v).
Proof. by right. Qed.

Section pure.
Context (Q : N -> Prop) (HQ : forall e, plain_code e = true -> Q e).
Ltac code e := first [is_const e | match e with ioerr_rv _ => idtac end].
Ltac goal_code e := match e with Err ?x => code x | _ => code e end.
Ltac qc := first [assumption | match goal with |- _ ?e => goal_code e; apply HQ; vm_compute; reflexivity end | match goal with H : okerr _ (Err _) |- _ => exact H end].
Create HintDb errdb discriminated.
Hint Constants Opaque : errdb.
Ltac ok_step :=
  match goal with
  | |- okerr _ (Ok _) => exact I
  | |- okerr _ (Err _) => qc
  | |- okerr _ (map_err _ _) => apply okerr_map; qc
  | |- okerr _ (rbind _ _) => apply okerr_bind; [|intros ? ?]
  | |- okerr _ (let _ := _ in _) => cbv zeta
  | |- okerr _ (if ?b then _ else _) => destruct b
  | |- okerr _ (match ?x with _ => _ end) => destruct x eqn:?
  | |- okerr _ _ => solve [eauto with errdb]
  end.
Ltac ok_tac := repeat ok_step.

Lemma ok_ck_ulong c : ck_ok Q c -> okerr Q (ck_to_ulong c).
Proof. intros [H|H]; unfold ck_to_ulong; ok_tac; try done. Qed.
Lemma ok_ck_bool c : ck_ok Q c -> okerr Q (ck_to_bool c).
Proof. intros [H|H]; unfold ck_to_bool; ok_tac; try done. Qed.
Lemma ok_ck_string c : okerr Q (ck_to_string c).
Proof. unfold ck_to_string; ok_tac; try done. Qed.
Lemma ok_date v : okerr Q (vec_to_date_validate v).
Proof. unfold vec_to_date_validate; ok_tac; try done. Qed.
Lemma ok_ck_date c : okerr Q (ck_to_date c).
Proof. unfold ck_to_date; ok_tac; try apply ok_date; done. Qed.
Lemma ok_a_bool a : okerr Q (attr_to_bool a).
Proof. unfold attr_to_bool; ok_tac; try done. Qed.
Lemma ok_a_ulong a : okerr Q (attr_to_ulong a).
Proof. unfold attr_to_ulong; ok_tac; try done. Qed.
Lemma ok_a_string a : okerr Q (attr_to_string a).
Proof. unfold attr_to_string; ok_tac; try done. Qed.
Lemma ok_a_bytes a : okerr Q (attr_to_bytes a).
Proof. unfold attr_to_bytes; ok_tac; try done. Qed.
Hint Resolve ok_ck_ulong ok_ck_bool ok_ck_string ok_date ok_ck_date ok_a_bool ok_a_ulong ok_a_string ok_a_bytes : errdb.
Lemma ok_from_ck c : ck_ok Q c -> okerr Q (from_ck_attr c).
Proof. intros H. unfold from_ck_attr. ok_tac. Qed.
Lemma ok_set_attr o a : okerr Q (set_attr o a).
Proof. unfold set_attr. ok_tac. Qed.
Lemma ok_get_bool o t : okerr Q (get_bool o t).
Proof. unfold get_bool, get_as. ok_tac. Qed.
Lemma ok_get_ulong o t : okerr Q (get_ulong o t).
Proof. unfold get_ulong, get_as. ok_tac. Qed.
Lemma ok_get_string o t : okerr Q (get_string o t).
Proof. unfold get_string, get_as. ok_tac. Qed.
Lemma ok_get_bytes o t : okerr Q (get_bytes o t).
Proof. unfold get_bytes, get_as. ok_tac. Qed.
Hint Resolve ok_from_ck ok_set_attr ok_get_bool ok_get_ulong ok_get_string ok_get_bytes : errdb.
Lemma ok_check_key_ops o c k p : okerr Q (check_key_ops o c k p).
Proof. unfold check_key_ops. ok_tac. Qed.
Lemma ok_ensure_ulong o t v : okerr Q (ensure_ulong o t v).
Proof. unfold ensure_ulong. ok_tac. Qed.
Lemma ok_get_factory fs k : okerr Q (get_factory fs k).
Proof. induction fs as [|[k' f] fs IH]; cbn [get_factory]; ok_tac; try done. Qed.
Hint Resolve ok_check_key_ops ok_ensure_ulong ok_get_factory : errdb.
Lemma ok_object_factory fs o : okerr Q (get_object_factory fs o).
Proof. unfold get_object_factory. ok_tac. Qed.
Lemma ok_create_tmpl tab u t : forall o, tm_ok Q t -> okerr Q (create_from_template tab u t o).
Proof.
  induction t as [|c t IH]; intros o Ht; [done|]. apply tm_ok_cons in Ht as [H1 H2]. cbn [create_from_template]. ok_tac; try by apply IH.
Qed.
Lemma ok_create_defaults r tab : forall o, okerr Q (create_defaults r tab o).
Proof. induction tab as [|c t IH]; intros o; [done|]. cbn [create_defaults]. ok_tac; try apply IH. Qed.
Hint Resolve ok_object_factory ok_create_tmpl ok_create_defaults : errdb.
Lemma ok_internal_create f t u r : tm_ok Q t -> okerr Q (internal_object_create f t u r).
Proof. intros. unfold internal_object_create. ok_tac. Qed.
Hint Resolve ok_internal_create : errdb.
Lemma ok_default_create u f t : tm_ok Q t -> okerr Q (default_object_create u f t).
Proof. intros. unfold default_object_create. ok_tac. Qed.
Lemma ok_internal_key uid f t u r : tm_ok Q t -> okerr Q (internal_key_create uid f t u r).
Proof. intros. unfold internal_key_create. ok_tac. Qed.
Hint Resolve ok_default_create ok_internal_key : errdb.
Lemma ok_key_create u f t : tm_ok Q t -> okerr Q (key_create u f t).
Proof. intros. unfold key_create. ok_tac. Qed.
Lemma ok_key_generate u f t : tm_ok Q t -> okerr Q (key_generate u f t).
Proof. intros. unfold key_generate. ok_tac. Qed.
Lemma ok_key_unwrap u f t : tm_ok Q t -> okerr Q (key_unwrap u f t).
Proof. intros. unfold key_unwrap. ok_tac. Qed.
Lemma ok_internal_derive u f t o : tm_ok Q t -> okerr Q (internal_key_derive u f t o).
Proof. intros. unfold internal_key_derive. ok_tac. Qed.
Hint Resolve ok_key_create ok_key_generate ok_key_unwrap ok_internal_derive : errdb.
Lemma ok_copy_check tab o t : okerr Q (copy_check tab o t).
Proof. induction t as [|c t IH]; [done|]. cbn [copy_check]. ok_tac; try done. Qed.
Lemma ok_apply t : forall o, tm_ok Q t -> okerr Q (snd (apply_template o t)).
Proof.
  induction t as [|c t IH]; intros o Ht; [done|]. apply tm_ok_cons in Ht as [H1 H2]. cbn [apply_template].
  assert (okerr Q (let? a := from_ck_attr c in set_attr o a)) as Hx by ok_tac.
  destruct (let? a := from_ck_attr c in set_attr o a); [by apply IH|exact Hx].
Qed.
Lemma ok_default_copy u f o t : tm_ok Q t -> okerr Q (default_copy u f o t).
Proof.
  intros H. unfold default_copy. apply okerr_bind; [apply ok_copy_check|intros _ _].
  pose proof (ok_apply t (blind_copy u o) H) as Ha. destruct (apply_template _ t) as [o' [?|e]]; [ok_tac|exact Ha].
Qed.
Lemma ok_check_set tab t : tm_ok Q t -> okerr Q (check_set_attributes tab t).
Proof. induction t as [|c t IH]; [done|]. intros Ht. apply tm_ok_cons in Ht as [H1 H2]. cbn [check_set_attributes]. ok_tac; auto. Qed.
Lemma ok_set_object f o t : tm_ok Q t -> okerr Q (snd (set_object_attributes f o t)).
Proof.
  intros H. unfold set_object_attributes. destruct (negb _); [cbn; qc|]. pose proof (ok_check_set (f_attrs f) t H) as Hc.
  destruct (check_set_attributes _ _); [by apply ok_apply|exact Hc].
Qed.
Lemma ok_check_sens fs o t : okerr Q (check_sensitive fs o t).
Proof.
  unfold check_sensitive. apply okerr_bind; [apply ok_object_factory|intros f _].
  induction t as [|c t IH]; [done|]. cbn [check_sensitive_tab]. ok_tac; done.
Qed.
Hint Resolve ok_copy_check ok_apply ok_default_copy ok_check_set ok_set_object ok_check_sens : errdb.
Lemma ok_factories_copy u fs o t : tm_ok Q t -> okerr Q (factories_copy u fs o t).
Proof. intros. unfold factories_copy. ok_tac. Qed.
Lemma ok_find_ulong t ty : tm_ok Q t -> okerr Q (match find_ck t ty with Some c => ck_to_ulong c | None => Err CKR_TEMPLATE_INCONSISTENT end).
Proof. intros. destruct (find_ck t ty) eqn:He; [|cbn; qc]. apply ok_ck_ulong. by eapply tm_ok_find. Qed.
Lemma ok_key_tmpl fs t : tm_ok Q t -> okerr Q (get_obj_factory_from_key_template fs t).
Proof.
  intros. unfold get_obj_factory_from_key_template. apply okerr_bind; [by apply ok_find_ulong|intros].
  apply okerr_bind; [by apply ok_find_ulong|intros]. apply ok_get_factory.
Qed.
Lemma ok_tmpl_ulong t ty : tm_ok Q t -> okerr Q (tmpl_ulong t ty).
Proof. intros. unfold tmpl_ulong. destruct (find_ck t ty) eqn:He; [|cbn; qc]. apply ok_ck_ulong. by eapply tm_ok_find. Qed.
Lemma ok_key_buffer o : okerr Q (get_key_buffer_len o).
Proof. unfold get_key_buffer_len. ok_tac. Qed.
Lemma ok_aes_len n : okerr Q (aes_check_key_len n).
Proof. unfold aes_check_key_len. ok_tac. Qed.
Lemma ok_check_ulong o t p : okerr Q (check_ulong o t p).
Proof. unfold check_ulong. ok_tac. Qed.
Hint Resolve ok_factories_copy ok_key_tmpl ok_tmpl_ulong ok_key_buffer ok_aes_len ok_check_ulong : errdb.
Lemma ok_cert_checks o : okerr Q (basic_cert_checks o).
Proof. unfold basic_cert_checks. ok_tac. Qed.
Hint Resolve ok_cert_checks : errdb.
Lemma ok_x509 u f t : tm_ok Q t -> okerr Q (x509_create u f t).
Proof. intros. unfold x509_create. ok_tac. Qed.
Lemma ok_some_trusted o l : okerr Q (some_trusted o l).
Proof. induction l as [|c t IH]; [done|]. cbn [some_trusted]. ok_tac; try done. Qed.
Hint Resolve ok_some_trusted : errdb.
Lemma ok_trust u f t : tm_ok Q t -> okerr Q (trust_create u f t).
Proof. intros. unfold trust_create. ok_tac. Qed.
Lemma ok_nss_trust u f t : tm_ok Q t -> okerr Q (nss_trust_create u f t).
Proof. intros. unfold nss_trust_create. ok_tac. Qed.
Lemma ok_secret_create u k f t : tm_ok Q t -> okerr Q (secret_create u k f t).
Proof. intros. unfold secret_create. ok_tac. Qed.
Lemma ok_aes_create u f t : tm_ok Q t -> okerr Q (aes_create u f t).
Proof. intros. unfold aes_create. ok_tac. Qed.
Lemma ok_hotp_validate o : okerr Q (hotp_validate o).
Proof. unfold hotp_validate. ok_tac. Qed.
Hint Resolve ok_hotp_validate : errdb.
Lemma ok_hotp_create u f t : tm_ok Q t -> okerr Q (hotp_create u f t).
Proof. intros. unfold hotp_create. ok_tac. Qed.
Lemma ok_set_key_len o n : okerr Q (set_key_len o n).
Proof. unfold set_key_len. ok_tac. Qed.
Hint Resolve ok_set_key_len : errdb.
Lemma ok_set_key f o k : okerr Q (set_key f o k).
Proof. unfold set_key. ok_tac. Qed.
Hint Resolve ok_set_key : errdb.
Lemma ok_secret_import u f d t : tm_ok Q t -> okerr Q (secret_import u f d t).
Proof.
  intros H. unfold secret_import. apply okerr_bind.
  - destruct (f_kind f); try exact I. apply okerr_bind; [|intros; ok_tac]. destruct (find_ck t CKA_VALUE_LEN) eqn:He; [|done].
    pose proof (tm_ok_find _ _ _ _ H He). ok_tac.
  - intros. ok_tac.
Qed.
Lemma ok_secret_export o : okerr Q (secret_export o).
Proof. unfold secret_export. ok_tac. Qed.
Lemma ok_key_derive u f t o : tm_ok Q t -> okerr Q (key_derive u f t o).
Proof. intros. unfold key_derive. ok_tac. Qed.
Hint Resolve ok_secret_import ok_secret_export ok_key_derive : errdb.

(* SQLite *)
Lemma ok_u32 x : okerr Q (u32_try x).
Proof. unfold u32_try. ok_tac. Qed.
Hint Resolve ok_u32 : errdb.
Lemma ok_num_to_val x : okerr Q (num_to_val x).
Proof. unfold num_to_val. ok_tac. Qed.
Lemma ok_val_ulong z : okerr Q (val_to_ulong z).
Proof. unfold val_to_ulong. ok_tac. Qed.
Lemma ok_date_string v : okerr Q (to_date_string v).
Proof. unfold to_date_string. ok_tac. Qed.
Lemma ok_ck_date_string s : okerr Q (string_to_ck_date s).
Proof. unfold string_to_ck_date. ok_tac. Qed.
Hint Resolve ok_num_to_val ok_val_ulong ok_date_string ok_ck_date_string : errdb.
Lemma ok_to_sql a : okerr Q (to_sql a).
Proof. unfold to_sql. ok_tac. Qed.
Lemma ok_from_sql t v : okerr Q (from_sql t v).
Proof. unfold from_sql. ok_tac. Qed.
Hint Resolve ok_to_sql ok_from_sql : errdb.
Lemma ok_add_rows l : forall o, okerr Q (add_rows o l).
Proof. induction l as [|[t v] l IH]; intros o; [done|]. cbn [add_rows]. ok_tac; try apply IH. Qed.
Lemma ok_rows_to_objects l : okerr Q (rows_to_objects l).
Proof.
  induction l as [|x l IH]; [done|]. cbn [rows_to_objects]. apply okerr_bind; [apply ok_add_rows|intros].
  destruct (match l with [] => _ | _ => _ end); [cbn; qc|]. apply okerr_bind; [done|intros; done].
Qed.
Lemma ok_all_u32 l : okerr Q (all_u32 l).
Proof. induction l as [|x l IH]; [done|]. cbn [all_u32]. ok_tac; try done. Qed.
Hint Resolve ok_rows_to_objects ok_all_u32 : errdb.
Lemma ok_fetch_by_uid d u l : okerr Q (fetch_by_uid d u l).
Proof. unfold fetch_by_uid. ok_tac. Qed.
Lemma ok_ck_to_sql c : ck_ok Q c -> okerr Q (ck_to_sql c).
Proof. intros. unfold ck_to_sql. ok_tac. Qed.
Hint Resolve ok_ck_to_sql : errdb.
Lemma ok_ck_params t : tm_ok Q t -> okerr Q (ck_params t).
Proof. induction t as [|c t IH]; [done|]. intros Ht. apply tm_ok_cons in Ht as [H1 H2]. cbn [ck_params]. ok_tac; auto. Qed.
Hint Resolve ok_ck_params : errdb.
Lemma ok_db_search d t : tm_ok Q t -> okerr Q (db_search d t).
Proof. intros. unfold db_search. ok_tac. Qed.
Lemma ok_ins_stmts i l : okerr Q (ins_stmts i l).
Proof. induction l as [|x l IH]; [done|]. cbn [ins_stmts]. ok_tac; try done. Qed.
Hint Resolve ok_ins_stmts : errdb.
Lemma ok_store_obj d o : okerr Q (store_obj_stmts d o).
Proof. unfold store_obj_stmts. ok_tac. Qed.
Lemma ok_remove d u : okerr Q (remove_stmts d u).
Proof. unfold remove_stmts. ok_tac. Qed.
Lemma ok_fetch_info d : okerr Q (fetch_info d).
Proof. unfold fetch_info. ok_tac. Qed.
Lemma ok_fetch_user d u : okerr Q (fetch_user d u).
Proof. unfold fetch_user. ok_tac. Qed.
Lemma ok_store_user u i : okerr Q (store_user_stmts u i).
Proof. unfold store_user_stmts. ok_tac. Qed.
Lemma ok_pin_uid u : okerr Q (get_pin_uid u).
Proof. unfold get_pin_uid. ok_tac. Qed.
Hint Resolve ok_db_search ok_store_obj ok_remove ok_fetch_info ok_fetch_user ok_store_user ok_pin_uid ok_fetch_by_uid : errdb.

(* ---- with the parameters ---- *)
Context (P : params) (B : backend) (E : N -> keyenv) (HS : sane Q P B E).
Definition h_seal_key := sane_seal_key _ _ _ _ HS.
Definition h_seal := sane_seal _ _ _ _ HS.
Definition h_open := sane_open _ _ _ _ HS.
Definition h_import := sane_import _ _ _ _ HS.
Definition h_pair := sane_pair _ _ _ _ HS.
Definition h_random := sane_random _ _ _ _ HS.
Definition h_new := sane_new _ _ _ _ HS.
Definition h_mech := sane_mech _ _ _ _ HS.
Definition h_out_len := sane_out_len _ _ _ _ HS.
Definition h_len := sane_len _ _ _ _ HS.
Definition h_call := sane_call _ _ _ _ HS.
Definition h_size := sane_size _ _ _ _ HS.
Definition h_save := sane_save _ _ _ _ HS.
Definition h_restore := sane_restore _ _ _ _ HS.
Definition h_bseal := sane_bseal _ _ _ _ HS.
Definition h_wrap := sane_wrap _ _ _ _ HS.
Definition h_unwrap := sane_unwrap _ _ _ _ HS.
Definition h_derive := sane_derive _ _ _ _ HS.
Definition h_encap := sane_encap _ _ _ _ HS.
Definition h_decap := sane_decap _ _ _ _ HS.
Definition h_encap_len := sane_encap_len _ _ _ _ HS.
Definition h_export := sane_export _ _ _ _ HS.
Definition h_parse := sane_parse _ _ _ _ HS.
Definition h_pbkdf := sane_pbkdf _ _ _ _ HS.
Hint Resolve h_seal_key h_seal h_open h_import h_pair h_random h_new h_mech h_out_len h_len h_call h_size h_save h_restore h_bseal h_wrap h_unwrap h_derive h_encap h_decap h_encap_len h_export h_parse h_pbkdf : errdb.

Lemma ok_asym_create r u f t : tm_ok Q t -> okerr Q (asym_create (E r) u f t).
Proof. intros. unfold asym_create. ok_tac. Qed.
Hint Resolve ok_asym_create ok_x509 ok_trust ok_nss_trust ok_secret_create ok_aes_create ok_hotp_create : errdb.
Lemma ok_factory_create r u f t : tm_ok Q t -> okerr Q (factory_create (E r) u f t).
Proof. intros. unfold factory_create. ok_tac. Qed.
Hint Resolve ok_factory_create : errdb.
Lemma ok_factories_create r u fs t : tm_ok Q t -> okerr Q (factories_create (E r) u fs t).
Proof. intros. unfold factories_create. ok_tac. Qed.
Hint Resolve ok_factories_create : errdb.
Lemma ok_default_generate r o : okerr Q (default_secret_key_generate (E r) o).
Proof. unfold default_secret_key_generate. ok_tac. Qed.
Hint Resolve ok_default_generate : errdb.
Lemma ok_secret_generate r u f k m t : tm_ok Q t -> okerr Q (secret_generate (E r) u f k m t).
Proof. intros. unfold secret_generate. ok_tac. Qed.
Lemma ok_hotp_generate r u f m t : tm_ok Q t -> okerr Q (hotp_generate (E r) u f m t).
Proof. intros. unfold hotp_generate. ok_tac. Qed.
Lemma ok_pair_generate r u1 u2 f1 f2 k m t1 t2 : tm_ok Q t1 -> tm_ok Q t2 -> okerr Q (pair_generate (E r) u1 u2 f1 f2 k m t1 t2).
Proof. intros. unfold pair_generate. ok_tac. Qed.
Hint Resolve ok_secret_generate ok_hotp_generate ok_pair_generate : errdb.
Lemma ok_gen_key r u m p t : tm_ok Q t -> okerr Q (gen_key P B (E r) u m p t).
Proof.
  intros. unfold gen_key. assert (forall d, tm_ok Q (t ++ [ca CKA_VALUE d])) as Ht.
  { intros. apply tm_ok_app; [done|apply ck_ok_ca]. }
  ok_tac.
Qed.
Lemma ok_gen_pair r u1 u2 m t1 t2 : tm_ok Q t1 -> tm_ok Q t2 -> okerr Q (gen_pair P (E r) u1 u2 m t1 t2).
Proof. intros. unfold gen_pair. ok_tac. Qed.
Lemma ok_export f o : okerr Q (export_key B f o).
Proof.
  unfold export_key. destruct (f_kind f); try solve [ok_tac]. pose proof (ok_get_ulong o CKA_KEY_TYPE) as Hk.
  destruct (get_ulong o CKA_KEY_TYPE); ok_tac.
Qed.
Lemma ok_import_key u f d t : tm_ok Q t -> okerr Q (import_key B u f d t).
Proof. intros. unfold import_key. ok_tac. Qed.
Lemma ok_fail_token t : tm_ok Q t -> okerr Q (fail_if_token t).
Proof. induction t as [|c t IH]; [done|]. intros Ht. apply tm_ok_cons in Ht as [H1 H2]. cbn [fail_if_token]. ok_tac; auto. Qed.
Lemma ok_concat t b x o : tm_ok Q t -> okerr Q (concat_attrs t b x o).
Proof.
  intros H. unfold concat_attrs. cbv zeta. apply okerr_bind; [|intros; apply okerr_bind; [|intros; exact I]].
  - destruct (_ || _); [done|]. destruct (find_ck _ _) eqn:He; [|done]. pose proof (tm_ok_find _ _ _ _ H He). ok_tac.
  - destruct (is_extractable b && is_extractable x); [|exact I].
    destruct (find_ck t CKA_EXTRACTABLE) eqn:He; [|exact I]. pose proof (tm_ok_find _ _ _ _ H He). ok_tac.
Qed.
Hint Resolve ok_gen_key ok_gen_pair ok_export ok_import_key ok_fail_token ok_concat : errdb.
Lemma ok_secret_key_create u f t : tm_ok Q t -> okerr Q (secret_key_create u f t).
Proof. intros. unfold secret_key_create. ok_tac. Qed.
Hint Resolve ok_secret_key_create : errdb.
Definition derived_ok (d : derived) : Prop := match d with DKey t _ | DConcat t _ _ | DData t _ | DPub t _ | DCreate t _ => tm_ok Q t end.
Lemma ok_derived u k d : derived_ok d -> okerr Q (derived_object P u k d).
Proof. intros H. unfold derived_object. destruct d; cbn in H; ok_tac. Qed.
Hint Resolve ok_derived : errdb.
Lemma ok_decrypt v k u ats : forall o, okerr Q (decrypt_attrs P v k u ats o).
Proof. induction ats as [|t r IH]; intros o; [done|]. cbn [decrypt_attrs]. ok_tac; apply IH. Qed.
Hint Resolve ok_decrypt : errdb.

(* ---- the monad ---- *)
Ltac er_base :=
  match goal with
  | |- errs _ (ret _) => apply errs_ret
  | |- errs _ skip => apply errs_skip
  | |- errs _ (gets _) => apply errs_gets
  | |- errs _ (modify _) => apply errs_modify
  | |- errs _ (fail _) => apply errs_fail; qc
  | |- errs _ (lift _) => apply errs_lift; ok_tac
  | |- errs _ (ensure _ _) => apply errs_ensure; intros ?; qc
  end.
Ltac er_step :=
  first
  [ er_base
  | match goal with
    | |- errs _ (mbind (attempt _) _) => apply errs_attempt; [|intros ? ?]
    | |- errs _ (mbind _ _) => apply errs_bind; [|intros ?]
    | |- errs _ (let _ := _ in _) => cbv zeta
    | |- errs _ (if ?b then _ else _) => destruct b eqn:?
    | |- errs _ (match ?x with _ => _ end) => destruct x eqn:?
    | |- errs _ _ => solve [eauto with errdb]
    end ].
Ltac er_tac := repeat er_step.

Lemma er_draw : errs Q draw.
Proof. by intros s. Qed.
Lemma er_io : errs Q io.
Proof. intros t. unfold io. destruct (t_io t) as [|[[]|] r]; cbn [snd okerr ioerr_rv]; try exact I; qc. Qed.
Lemma er_dbread {A} (f : db -> result A) : (forall d, okerr Q (f d)) -> errs Q (dbread f).
Proof. intros H. apply errs_bind; [apply er_io|]. intros _ t. apply H. Qed.
Lemma er_dbwrite f : (forall d, okerr Q (f d)) -> errs Q (dbwrite f).
Proof. intros H. apply errs_bind; [apply er_io|]. intros _ t. specialize (H (t_db t)). destruct (f (t_db t)); [done|exact H]. Qed.
Lemma er_h_insert h u : errs Q (h_insert h u).
Proof. intros t. unfold h_insert. cbv zeta; match goal with |- context [if ?b then _ else _] => destruct b end; cbn; [qc|done]. Qed.
Lemma er_h_fresh : errs Q h_fresh.
Proof. by intros s. Qed.
Lemma er_h_get h : errs Q (h_get h).
Proof. apply errs_gets. Qed.
Lemma er_h_remove h : errs Q (h_remove h).
Proof. apply errs_modify. Qed.
Hint Resolve er_draw er_io er_h_insert er_h_fresh er_h_get er_h_remove : errdb.
Ltac db_tac := repeat first [er_step | match goal with |- errs _ (dbread _) => apply er_dbread; intros ?; ok_tac | |- errs _ (dbwrite _) => apply er_dbwrite; intros ?; ok_tac end].
Lemma er_pin_flags : errs Q init_pin_flags.
Proof. unfold init_pin_flags. db_tac. Qed.
Lemma er_key_to_user u p : errs Q (key_to_user_data P u p).
Proof. unfold key_to_user_data. db_tac. Qed.
Lemma er_aci_reset : errs Q (aci_reset P).
Proof. unfold aci_reset. db_tac. Qed.
Lemma er_aci_auth u i p b : errs Q (aci_authenticate P u i p b).
Proof. unfold aci_authenticate. db_tac. Qed.
Lemma er_default_info : errs Q (default_token_info P).
Proof. unfold default_token_info. db_tac. Qed.
Hint Resolve er_pin_flags er_key_to_user er_aci_reset er_aci_auth er_default_info : errdb.
Lemma er_open : errs Q st_open.
Proof. unfold st_open. db_tac. Qed.
Lemma er_set_user_pin u p : errs Q (set_user_pin P u p).
Proof. unfold set_user_pin. db_tac. Qed.
Lemma er_reinit : errs Q (st_reinit P).
Proof. unfold st_reinit. db_tac. Qed.
Lemma er_fetch h l : errs Q (st_fetch P h l).
Proof. unfold st_fetch. db_tac. Qed.
Lemma er_encrypt_value u v : errs Q (encrypt_value P u v).
Proof. unfold encrypt_value. db_tac. Qed.
Hint Resolve er_open er_set_user_pin er_reinit er_fetch er_encrypt_value : errdb.
Lemma er_encrypt_attrs u ats : forall o, errs Q (encrypt_attrs P u ats o).
Proof. induction ats as [|t r IH]; intros o; [apply errs_ret|]. cbn [encrypt_attrs]. db_tac; apply IH. Qed.
Hint Resolve er_encrypt_attrs : errdb.
Lemma er_store o : errs Q (st_store P o).
Proof. unfold st_store. db_tac. Qed.
Lemma tm_ok_insert t ty v : tm_ok Q t -> tm_ok Q (insert_unique t ty v).
Proof.
  intros [H|H]; [by left|]. right. induction H as [|c t Hc Ht IH]; cbn; [by repeat constructor|].
  destruct (_ =? _); constructor; try done.
Qed.
(* the template stays free of null pointers *)
Lemma er_encrypt_tmpl {A} u ats (f : list ckattr -> M token A) : forall t, tm_ok Q t -> (forall t', tm_ok Q t' -> errs Q (f t')) ->
  errs Q (mbind (encrypt_tmpl P u ats t) f).
Proof.
  induction ats as [|a r IH]; intros t Ht Hf; cbn [encrypt_tmpl].
  - intros s. by apply Hf.
  - destruct (find_ck t a); [|by apply IH]. intros s. unfold mbind at 1 2.
    pose proof (er_encrypt_value u (ck_to_buf c) s) as He. destruct (encrypt_value _ _ _ _) as [s' [e|e]]; [|exact He].
    apply (IH _ (tm_ok_insert t a e Ht) Hf s').
Qed.
Lemma er_update h t : tm_ok Q t -> errs Q (st_update P h t).
Proof.
  intros Ht. unfold st_update. apply errs_bind; [er_tac|intros [uid|]]; [|db_tac].
  apply errs_bind; [db_tac|intros o]. apply errs_bind; [db_tac|intros f]. apply er_encrypt_tmpl; [done|]. intros t' Ht'.
  pose proof (ok_apply t' o Ht') as Ha. destruct (apply_template o t') as [o' [?|e]]; [db_tac|]. apply errs_fail. exact Ha.
Qed.
Lemma er_search_handles t l : errs Q (search_handles P t l).
Proof. induction l as [|o r IH]; [apply errs_ret|]. cbn [search_handles]. db_tac. Qed.
Hint Resolve er_store er_update er_search_handles : errdb.
Lemma er_search t : tm_ok Q t -> errs Q (st_search P t).
Proof. intros. unfold st_search. db_tac. Qed.
Lemma er_remove h : errs Q (st_remove h).
Proof. unfold st_remove. db_tac. Qed.
Lemma er_unauth u : errs Q (st_unauth_user u).
Proof. unfold st_unauth_user. db_tac. Qed.
(* the result inside *)
Context (HQp : forall e, pin_code e = true -> Q e).
Ltac qc ::= first [assumption | match goal with |- _ ?e => goal_code e; apply HQ; vm_compute; reflexivity end | match goal with |- _ ?e => goal_code e; apply HQp; vm_compute; reflexivity end | match goal with H : okerr _ (Err _) |- _ => exact H end].
Lemma er_auth {A} u p b (f : result (N * result unit) -> M token A) :
  (forall r, match r with Ok (_, Err e) | Err e => Q e | _ => True end -> errs Q (f r)) ->
  errs Q (mbind (attempt (st_auth_user P u p b)) f).
Proof.
  intros Hf s. unfold mbind at 1, attempt. destruct (st_auth_user P u p b s) as [s' r] eqn:He. apply Hf.
  revert He. unfold st_auth_user. unfold mbind at 1, lift at 1. pose proof (ok_pin_uid u) as Hu.
  destruct (get_pin_uid u) as [uid|e]; [|intros ?; by simplify_eq].
  unfold mbind at 1. pose proof (er_dbread (fun d => fetch_user d uid) (fun d => ok_fetch_user d uid) s) as Hd.
  destruct (dbread _ s) as [s1 [i|e]]; [|intros ?; by simplify_eq].
  unfold mbind at 1. pose proof (er_aci_auth uid i p (negb b) s1) as Ha.
  destruct (aci_authenticate _ _ _ _ _ _) as [s2 [[i' upd]|e]]; [|intros ?; by simplify_eq].
  destruct upd; unfold mbind, attempt, skip.
  - destruct (dbwrite _ s2) as [s3 r3]. destruct (_ =? _); unfold ret; intros ?; simplify_eq; [done|]. destruct (locked _); qc.
  - destruct (_ =? _); unfold ret; intros ?; simplify_eq; [done|]. destruct (locked _); qc.
Qed.
Hint Resolve er_search er_remove er_unauth : errdb.

(* ---- the token ---- *)
Lemma er_tk_auth u p b : errs Q (tk_auth_user P u p b).
Proof.
  unfold tk_auth_user. apply errs_bind; [er_tac|intros _]. apply er_auth. intros r Hr.
  destruct r as [[fl res]|e]; cbv beta iota zeta.
  - apply errs_bind; [er_tac|intros _]. apply errs_bind; [apply errs_lift; destruct res; done|]. intros _. er_tac.
  - apply errs_bind; [er_tac|intros _]. apply errs_bind; [apply errs_lift; done|]. intros _. er_tac.
Qed.
Hint Resolve er_tk_auth : errdb.
Lemma er_tk_set_pin u p o : errs Q (tk_set_pin P u p o).
Proof. unfold tk_set_pin. db_tac. Qed.
Hint Resolve er_tk_set_pin : errdb.
Lemma tm_ok_1 t v : tm_ok Q [ca t v].
Proof. right. repeat constructor; discriminate. Qed.
Hint Resolve tm_ok_1 : errdb.
Lemma ok_builtin m : okerr Q (builtin_mech P m).
Proof. unfold builtin_mech. ok_tac. Qed.
Hint Resolve ok_builtin : errdb.
Lemma er_insert h o : errs Q (insert_object P h o).
Proof. unfold insert_object. db_tac. Qed.
Hint Resolve er_insert : errdb.
Lemma er_builtins l : errs Q (builtins P l).
Proof. induction l as [|[m x] l IH]; cbn [builtins]; db_tac. Qed.
Hint Resolve er_builtins : errdb.
Lemma er_internal : errs Q (internal_objects_init P).
Proof. unfold internal_objects_init. db_tac. Qed.
Hint Resolve er_internal : errdb.
Lemma er_tk_init p l : errs Q (tk_initialize P p l).
Proof. unfold tk_initialize. db_tac. Qed.
Lemma er_tk_login u p : errs Q (tk_login P u p).
Proof. unfold tk_login. db_tac. Qed.
Lemma er_tk_logout : errs Q tk_logout.
Proof. unfold tk_logout. db_tac. Qed.
Lemma er_get_or_fetch h l : errs Q (get_or_fetch P h l).
Proof. unfold get_or_fetch. db_tac. Qed.
Hint Resolve er_tk_init er_tk_login er_tk_logout er_get_or_fetch : errdb.
Lemma er_by_handle h : errs Q (get_object_by_handle P h).
Proof. unfold get_object_by_handle. db_tac. Qed.
Lemma er_is_dup t : tm_ok Q t -> errs Q (is_duplicate P t).
Proof. intros. unfold is_duplicate. db_tac. Qed.
Hint Resolve er_by_handle er_is_dup : errdb.
Lemma tm_ok_map {A} (f : A -> ckattr) l : (forall a, ca_ptr (f a) <> None) -> tm_ok Q (map f l).
Proof. intros H. right. induction l; constructor; [apply H|done]. Qed.
Lemma er_cert_dup o : errs Q (is_cert_dup P o).
Proof. unfold is_cert_dup. destruct (get_attr o CKA_ISSUER), (get_attr o CKA_SERIAL_NUMBER); er_tac. apply er_is_dup. right. repeat constructor; discriminate. Qed.
Lemma er_key_dup o : errs Q (is_key_dup P o).
Proof. unfold is_key_dup. destruct (get_attr o CKA_ID), (get_attr o CKA_KEY_TYPE); er_tac. apply er_is_dup. right. repeat constructor; discriminate. Qed.
Lemma tm_ok_swap t ty : tm_ok Q t -> tm_ok Q (swap_remove t ty).
Proof.
  intros [H|H]; [by left|]. right. induction H as [|c t Hc Ht IH]; cbn; [done|]. destruct (_ =? _).
  - assert (Forall (fun c => ca_ptr c <> None) (rev t)) as Hr by by apply Forall_rev.
    destruct (rev t) as [|x q]; [done|]. inversion Hr; subst. constructor; [done|]. by apply Forall_rev.
  - constructor; auto.
Qed.
Hint Resolve er_cert_dup er_key_dup : errdb.
Lemma er_dedup o : errs Q (check_dedup P o).
Proof.
  unfold check_dedup. cbv zeta. apply errs_bind; [er_tac|intros d].
  assert (tm_ok Q (swap_remove (map (fun a => ca (a_type a) (a_val a)) (o_attrs o)) CKA_UNIQUE_ID)) as Ht.
  { apply tm_ok_swap, tm_ok_map. discriminate. }
  destruct d as [dd|]; [|er_tac]. apply errs_bind; [destruct dd; er_tac|]. intros [h|]; [|er_tac].
  apply errs_bind; [by apply er_update|]. intros _. er_tac.
Qed.
Lemma er_new_uid : errs Q (new_uid P).
Proof. unfold new_uid. er_tac. Qed.
Hint Resolve er_dedup er_new_uid : errdb.
Lemma er_create r h t : tm_ok Q t -> errs Q (create_object P (E r) h t).
Proof. intros. unfold create_object. er_tac. Qed.
Lemma er_destroy h : errs Q (destroy_object P h).
Proof. unfold destroy_object. er_tac. Qed.
Lemma er_set_attrs h t : tm_ok Q t -> errs Q (set_object_attrs P h t).
Proof.
  intros H. unfold set_object_attrs. apply errs_bind; [er_tac|intros [o|]].
  - apply errs_bind; [er_tac|intros f]. pose proof (ok_set_object f o t H) as Hs.
    destruct (set_object_attributes f o t) as [o' r]. apply errs_bind; [er_tac|intros _]. apply errs_lift. exact Hs.
  - er_tac.
Qed.
Lemma er_size h : errs Q (get_object_size P h).
Proof. unfold get_object_size. er_tac. Qed.
Lemma er_copy sh h t : tm_ok Q t -> errs Q (copy_object P sh h t).
Proof. intros. unfold copy_object. er_tac. Qed.
Lemma er_search_objects t : tm_ok Q t -> errs Q (search_objects P t).
Proof.
  intros. unfold search_objects. assert (tm_ok Q (t ++ [ca CKA_PRIVATE [0]])) by (apply tm_ok_app; [done|apply ck_ok_ca]). er_tac; apply er_search; match goal with |- tm_ok _ (if ?b then _ else _) => destruct b end; done.
Qed.
Lemma er_get_attrs h l : errs Q (get_object_attrs P h l).
Proof. unfold get_object_attrs. er_tac. Qed.
Lemma er_get_objects l : errs Q (get_objects P l).
Proof. induction l as [|h l IH]; cbn [get_objects]; er_tac. Qed.
Lemma er_derived_objects k l : Forall derived_ok l -> errs Q (derived_objects P k l).
Proof. intros H. induction H as [|d l Hd Hl IH]; cbn [derived_objects]; er_tac. Qed.
Hint Resolve er_create er_destroy er_set_attrs er_size er_copy er_search_objects er_get_attrs er_get_objects er_derived_objects : errdb.
Lemma er_destroy_all l : errs Q (destroy_all P l).
Proof. induction l as [|h l IH]; cbn [destroy_all]; er_tac. Qed.
Hint Resolve er_destroy_all : errdb.
Lemma er_insert_all sh os also : forall dn, errs Q (insert_all P sh os dn also).
Proof. induction os as [|h l IH]; intros dn; cbn [insert_all]; er_tac; try apply IH. Qed.
Hint Resolve er_insert_all : errdb.
Lemma ok_token_new d i n : okerr Q (snd (token_new P d i n)).
Proof.
  unfold token_new. assert (forall m : M token unit, errs Q m -> forall t, okerr Q (snd (m t))) as Hx by (intros m Hm; exact Hm).
  apply Hx. er_tac.
Qed.

(* ---- the state ---- *)
Notation world := (world B).
Lemma er_lock : errs Q (State.lock B).
Proof. unfold State.lock. er_tac. Qed.
Lemma er_lock' : errs Q (lock B).
Proof. apply er_lock. Qed.
Lemma er_get_slot sid : errs Q (get_slot B sid).
Proof. unfold get_slot. er_tac. Qed.
Lemma er_put_slot sid s : errs Q (put_slot B sid s).
Proof. unfold put_slot. er_tac. Qed.
Lemma er_session_slot h : errs Q (session_slot B h).
Proof. unfold session_slot. er_tac. Qed.
Hint Resolve er_lock er_lock' er_get_slot er_put_slot er_session_slot : errdb.
Lemma er_get_session h : errs Q (get_session B h).
Proof. unfold get_session. er_tac. Qed.
Lemma er_upd_session h f : errs Q (upd_session B h f).
Proof. unfold upd_session. er_tac. Qed.
Lemma er_tok {A} sid (m : M token A) : errs Q m -> errs Q (State.tok B sid m).
Proof.
  intros H. unfold State.tok. apply errs_bind; [er_tac|intros sl]. specialize (H (sl_token sl)). destruct (m _) as [t r].
  apply errs_bind; [er_tac|intros _]. apply errs_lift. exact H.
Qed.
Lemma er_tok' {A} sid (m : M token A) : errs Q m -> errs Q (tok B sid m).
Proof. apply er_tok. Qed.
Lemma er_token_ready sid : errs Q (token_ready B sid).
Proof. unfold token_ready. er_tac. Qed.
Hint Resolve er_get_session er_upd_session er_token_ready : errdb.
Lemma er_token_of_session h : errs Q (token_of_session B h).
Proof. unfold token_of_session. er_tac. Qed.
Lemma er_mech_flags sid m : errs Q (mech_flags P B sid m).
Proof. unfold mech_flags. er_tac. Qed.
Lemma er_modify_tok sid f : errs Q (tok B sid (modify f)).
Proof. apply er_tok', errs_modify. Qed.
Hint Resolve er_token_of_session er_mech_flags er_modify_tok : errdb.
Ltac et_step := first [ match goal with |- errs _ (tok _ _ _) => apply er_tok' | |- errs _ (State.tok _ _ _) => apply er_tok end | er_step].
Ltac et := repeat et_step.
Lemma ok_session_new sid u f : okerr Q (session_new B sid u f).
Proof. unfold session_new. ok_tac. Qed.
Lemma ok_get_operation s k : okerr Q (get_operation B s k).
Proof. unfold get_operation, check_login_status, get_op. ok_tac. Qed.
Hint Resolve ok_session_new ok_get_operation : errdb.
Lemma q_change ut s : snd (change_session_state B ut s) = CKR_OK \/ Q (snd (change_session_state B ut s)).
Proof. unfold change_session_state. cbv zeta. repeat match goal with |- context [if ?b then _ else _] => destruct b end; cbn [snd]; first [by left|right; qc]. Qed.
Lemma er_change_states sid ut : errs Q (change_session_states B sid ut).
Proof.
  unfold change_session_states. apply errs_bind; [et|intros sl].
  assert (forall l m, okerr Q (snd (change_states B ut l m))) as Hc.
  { induction l as [|[h s] l IH]; intros m; [done|]. cbn [change_states]. pose proof (q_change ut s) as Hs.
    destruct (change_session_state B ut s) as [s' r]. cbn [snd] in Hs. destruct (N.eqb_spec r CKR_OK); [apply IH|]. cbn. tauto. }
  specialize (Hc (map_to_list (sl_sessions sl)) (sl_sessions sl)). destruct (change_states _ _ _ _) as [m r].
  apply errs_bind; [et|intros _]. apply errs_lift. exact Hc.
Qed.
Lemma er_invalidate sid : errs Q (invalidate_session_states B sid).
Proof. unfold invalidate_session_states. et. Qed.
Lemma er_new_session sid u f : errs Q (new_session B sid u f).
Proof. unfold new_session. et. Qed.
Lemma er_drop_session h : errs Q (drop_session B h).
Proof. unfold drop_session. et. Qed.
Lemma er_drop_all sid : errs Q (drop_all_sessions_slot B sid).
Proof. unfold drop_all_sessions_slot. et. Qed.
Lemma q_allowed m o b : (check_allowed_mechs m o =? CKR_OK) = b -> b = false -> Q (check_allowed_mechs m o).
Proof.
  intros <-. unfold check_allowed_mechs. destruct (get_attr o _); [|done]. destruct (negb _); [intros _; qc|].
  destruct (mech_listed _ _ _); [done|intros _; qc].
Qed.
Lemma er_allowed m o : errs Q (S:=world) (ensure (check_allowed_mechs m o =? CKR_OK) (check_allowed_mechs m o)).
Proof. apply errs_ensure. by eapply q_allowed. Qed.
Hint Resolve er_change_states er_invalidate er_new_session er_drop_session er_drop_all er_allowed : errdb.

(* ---- the calls ---- *)
Definition rvs (m : M world (N * out)) : Prop :=
  forall w, match snd (m w) with Ok (r, _) => r = CKR_OK \/ Q r | Err e => Q e end.
Lemma rvs_bind {A} (m : M world A) f : errs Q m -> (forall a, rvs (f a)) -> rvs (mbind m f).
Proof. intros Hm Hf w. unfold mbind. specialize (Hm w). destruct (m w) as [w' [a|e]]; [apply Hf|exact Hm]. Qed.
Lemma rvs_attempt {A} (m : M world A) f : errs Q m -> (forall r, okerr Q r -> rvs (f r)) -> rvs (mbind (attempt m) f).
Proof. intros Hm Hf w. unfold mbind, attempt. specialize (Hm w). destruct (m w) as [w' r]. apply Hf, Hm. Qed.
Lemma rvs_ok o : rvs (ok B o).
Proof. intros w. by left. Qed.
Lemma rvs_failed e o : Q e -> rvs (failed B e o).
Proof. intros H w. by right. Qed.
Lemma rvs_fail e : Q e -> rvs (fail e).
Proof. intros H w. done. Qed.
Lemma rvs_errs m : rvs m -> errs Q m.
Proof. intros H w. specialize (H w). destruct (snd (m w)); done. Qed.
Lemma er_deref {A} (p : option A) : Q RV_NULL_DEREF \/ p <> None -> errs Q (deref B p).
Proof. intros H. unfold deref. destruct p; [er_tac|]. destruct H; [er_tac|done]. Qed.
Lemma er_some {A} (p : A) : errs Q (deref B (Some p)).
Proof. apply errs_ret. Qed.
Lemma er_ro s t : tm_ok Q t -> errs Q (ro_check B s t).
Proof. intros. unfold ro_check. er_tac. Qed.
Hint Resolve er_deref er_some er_ro : errdb.
Ltac rv_step :=
  match goal with
  | |- rvs (ok _ _) => apply rvs_ok
  | |- rvs (failed _ _ _) => apply rvs_failed; qc
  | |- rvs (fail _) => apply rvs_fail; qc
  | |- rvs (mbind (attempt _) _) => apply rvs_attempt; [|intros ? ?]
  | |- rvs (mbind _ _) => apply rvs_bind; [|intros ?]
  | |- rvs (let _ := _ in _) => cbv zeta
  | |- rvs (if ?b then _ else _) => destruct b eqn:?
  | |- rvs (match ?x with _ => _ end) => destruct x eqn:?
  | |- rvs _ => solve [eauto with errdb]
  | |- errs _ _ => et_step
  end.
Ltac rv_tac := repeat rv_step.
(* the pointers a call checks are made non-null first *)
Ltac nn := repeat match goal with |- rvs (mbind (ensure (nonnull ?p) _) _) => destruct p; cbn [nonnull]
  | |- rvs (mbind (ensure (nonnull ?p && _) _) _) => destruct p; cbn [nonnull andb]
  | |- rvs (mbind (ensure (_ && nonnull ?p && _) _) _) => destruct p; cbn [nonnull andb]
  | |- rvs (mbind (ensure (_ && nonnull ?p && _ && _) _) _) => destruct p; cbn [nonnull andb] end.
Lemma ensure_false {A} e (f : unit -> M world A) : forall w, mbind (ensure false e) f w = (w, Err e).
Proof. reflexivity. Qed.
Lemma rvs_efalse e f : Q e -> rvs (mbind (ensure false e) f).
Proof. intros H w. exact H. Qed.
Lemma rvs_etrue e f : rvs (f tt) -> rvs (mbind (ensure true e) f).
Proof. intros H w. exact (H w). Qed.

Lemma errs_slot_new c : errs Q (slot_new P B c).
Proof.
  unfold slot_new. apply errs_bind; [et|intros k]. pose proof (ok_token_new (k_db k) (sc_io c) (k_fresh k)) as Ht.
  destruct (token_new _ _ _ _) as [t [?|e]]; [et|]. apply errs_fail. exact Ht.
Qed.
Lemma errs_add_slots l : forall a, errs Q (add_slots P B l a).
Proof. pose proof errs_slot_new. induction l as [|c l IH]; intros a; cbn [add_slots]; et; try apply IH; apply H. Qed.
Hint Resolve errs_add_slots : errdb.
Lemma q_get_loop f o l : forall r, r = CKR_OK \/ Q r -> snd (get_loop f o l r) = CKR_OK \/ Q (snd (get_loop f o l r)).
Proof.
  induction l as [|q l IH]; intros r Hr; [exact Hr|]. cbn [get_loop].
  assert (snd (get_one f o q) = CKR_OK \/ Q (snd (get_one f o q))) as H1.
  { unfold get_one. cbv zeta. repeat match goal with |- context [match ?b with _ => _ end] => destruct b end; cbn [snd]; first [by left|right; qc]. }
  destruct (get_one f o q) as [q' e]. cbn [snd] in H1. destruct (r =? CKR_OK).
  - specialize (IH e H1). destruct (get_loop f o l e). exact IH.
  - specialize (IH r Hr). destruct (get_loop f o l r). exact IH.
Qed.
Lemma rvs_get_attribute h o t c : rvs (c_get_attribute_value P B h o t c).
Proof.
  unfold c_get_attribute_value. assert (errs Q (tmpl_of B t c)) as Ht by (unfold tmpl_of; et).
  apply rvs_bind; [done|intros l]. apply rvs_bind; [et|intros _]. apply rvs_bind; [et|intros sid].
  intros w. unfold mbind. pose proof (er_tok' sid (get_object_attrs P o l) (er_get_attrs o l) w) as He.
  destruct (tok B sid _ w) as [w' [r|e]] eqn:Hw; [|exact He]. cbn [snd failed ret].
  assert (snd r = CKR_OK \/ Q (snd r)) as Hr; [|exact Hr].
  revert Hw. unfold tok, State.tok. unfold mbind at 1. destruct (get_slot B sid w) as [w1 [sl|e]]; [|done].
  destruct (get_object_attrs P o l (sl_token sl)) as [t' r'] eqn:Hg. unfold mbind at 1, put_slot, modify, lift. intros ?. simplify_eq.
  revert Hg. unfold get_object_attrs. cbv zeta. unfold mbind at 1, gets. unfold mbind at 1.
  destruct (get_or_fetch _ _ _ _) as [t1 [ob|e]]; [|done]. unfold mbind, ensure. destruct (_ || _); [|done].
  unfold ret, fail. cbn. intros ?. simplify_eq. unfold get_object_attributes.
  pose proof (ok_object_factory (p_fs P) ob) as Hf. destruct (get_object_factory _ _) as [f|e]; cbn [snd].
  - apply q_get_loop. by left.
  - right. exact Hf.
Qed.
Lemma ok_gather {A} (f : opk -> result A) l : (forall k, okerr Q (f k)) -> forall r acc, r = CKR_OK \/ Q r -> okerr Q (gather f l r acc).
Proof.
  intros Hf. induction l as [|k l IH]; intros r acc Hr; cbn [gather].
  - destruct (N.eqb_spec r CKR_OK); [done|]. cbn. tauto.
  - specialize (Hf k). destruct (f k) as [a|e].
    + apply IH. by left.
    + destruct (e =? CKR_STATE_UNSAVEABLE); [|destruct (e =? CKR_OPERATION_NOT_INITIALIZED); [by apply IH|exact Hf]].
      apply IH. destruct (r =? CKR_OK); [done|]. right. qc.
Qed.
Lemma ok_op_size s k : okerr Q (op_size B s k).
Proof. unfold op_size. ok_tac. Qed.
Lemma ok_op_save s k : okerr Q (op_save B s k).
Proof. unfold op_save. ok_tac. Qed.
Lemma ok_gather_size s l : okerr Q (gather (op_size B s) l CKR_OPERATION_NOT_INITIALIZED []).
Proof. apply ok_gather; [apply ok_op_size|right; qc]. Qed.
Lemma ok_gather_save s l : okerr Q (gather (op_save B s) l CKR_OPERATION_NOT_INITIALIZED []).
Proof. apply ok_gather; [apply ok_op_save|right; qc]. Qed.
Hint Resolve ok_gather_size ok_gather_save : errdb.
Lemma er_restore_op h sid k key op : errs Q (restore_op P B h sid k key op).
Proof. unfold restore_op. et. Qed.
Hint Resolve er_restore_op : errdb.
Lemma er_state_restore h sid b key : errs Q (state_restore P B h sid b key).
Proof. unfold state_restore. et. Qed.
Hint Resolve er_state_restore : errdb.
Lemma er_cur_op h k : errs Q (cur_op B h k).
Proof. unfold cur_op. et. Qed.
Lemma er_run_op h k c x : errs Q (run_op B h k c x).
Proof. unfold run_op. pose proof (sane_call _ _ _ _ HS c x) as H. destruct (be_call B c x). apply errs_bind; [et|intros _]. apply errs_lift. exact H. Qed.
Lemma rvs_len_op h k n f x : rvs (len_op B h k n f x).
Proof.
  unfold len_op. pose proof (sane_len _ _ _ _ HS x n f) as H. destruct (be_len B x n f). apply rvs_bind; [et|intros _].
  apply rvs_bind; [by apply errs_lift|intros]. rv_tac.
Qed.
Hint Resolve er_cur_op er_run_op rvs_len_op : errdb.
Lemma rvs_updates h k w m : rvs m -> rvs (op_updates P B h k w m).
Proof.
  intros Hm. unfold op_updates. apply rvs_bind; [et|intros s]. destruct (_ !! k) as [[l|x]|]; try done.
  destruct (be_updates B x) as [[oh attrs]|] eqn:Hu; [|done]. pose proof (sane_updates _ _ _ _ HS _ _ _ Hu) as Ht. rv_tac.
Qed.
Lemma er_upd_op h k d : errs Q (upd_op B h k d).
Proof. unfold upd_op. et. Qed.
Lemma rvs_crypt_update k h d b n : rvs (crypt_update B k h d b n).
Proof. unfold crypt_update. rv_tac. Qed.
Hint Resolve rvs_updates er_upd_op rvs_crypt_update rvs_ok : errdb.

Lemma er_tmpl_of {A} (t : option (list A)) n : errs Q (tmpl_of B t n).
Proof. unfold tmpl_of. et. Qed.
Hint Resolve er_tmpl_of : errdb.
Lemma tm_ok_ptrs l : Q RV_NULL_DEREF \/ ptrs_ok (Some l) = true -> tm_ok Q l.
Proof.
  intros [H|H]; [by left|]. right. cbn in H. induction l as [|c l IH]; [done|]. cbn in H. apply andb_true_iff in H as [H1 H2].
  constructor; [|by apply IH]. destruct (ca_ptr c); done.
Qed.
Lemma rvs_tmpl t n f : Q RV_NULL_DEREF \/ ptrs_ok t = true -> (forall l, tm_ok Q l -> rvs (f l)) -> rvs (mbind (tmpl_of B t n) f).
Proof.
  intros Ht Hf. destruct t as [l|]; cbn [tmpl_of].
  - intros w. apply Hf. by apply tm_ok_ptrs.
  - intros w. unfold mbind, ensure. destruct (n =? 0); [|cbn; qc]. apply Hf. by right.
Qed.
Lemma er_some_or {A} (p : option A) : Q RV_NULL_DEREF \/ negb (none p) = true -> errs Q (deref B p).
Proof. intros [H|H]; apply er_deref; [by left|right]. by destruct p. Qed.

Ltac ens := repeat match goal with
  | |- rvs (mbind (ensure false _) _) => apply rvs_efalse; qc
  | |- rvs (mbind (ensure true _) _) => apply rvs_etrue
  | |- rvs (mbind (deref _ (Some _)) _) => apply (rvs_bind (deref B (Some _))); [apply er_some|]
  end.
Lemma rvs_deref {A} (a : A) f : rvs (f a) -> rvs (mbind (deref B (Some a)) f).
Proof. intros H w. exact (H w). Qed.
Ltac args := repeat match goal with
  | |- rvs (mbind (ensure (_ && false) _) _) => rewrite ?andb_false_r
  | |- rvs (mbind (ensure false _) _) => apply rvs_efalse; qc
  | |- rvs (mbind (ensure true _) _) => apply rvs_etrue
  | |- rvs (mbind (deref _ (Some _)) _) => apply rvs_deref; cbv beta
  | |- rvs (mbind (ensure ?b _) _) => is_var b; destruct b
  | |- rvs (match ?p with (_, _) => _ end) => destruct p
  | |- rvs (mbind (ensure ?b _) _) =>
    match b with context [nonnull ?p] => destruct p; cbn [nonnull andb]; rewrite ?andb_true_r, ?andb_false_r end
  end.
Ltac tm := repeat match goal with H : Q RV_NULL_DEREF \/ ptrs_ok (Some ?l) = true |- _ => apply tm_ok_ptrs in H end.

Ltac unf := unfold c_close_all_sessions, c_close_session, c_copy_object, c_create_object, c_crypt, c_crypt_final, c_crypt_update, c_decapsulate_key, c_derive_key, c_destroy_object, c_digest, c_digest_final, c_digest_init, c_digest_key, c_dual, c_encapsulate_key, c_finalize, c_find_objects, c_find_objects_final, c_find_objects_init, c_generate_key, c_generate_key_pair, c_generate_random, c_get_attribute_value, c_get_info, c_get_interface_list, c_get_mechanism_info, c_get_mechanism_list, c_get_object_size, c_get_operation_state, c_get_session_info, c_get_slot_info, c_get_slot_list, c_get_token_info, c_init_pin, c_init_token, c_initialize, c_login, c_logout, c_message, c_message_begin, c_message_final, c_message_next, c_open_session, c_seed_random, c_session_cancel, c_set_attribute_value, c_set_operation_state, c_set_pin, c_sign, c_sign_final, c_unwrap_key, c_update, c_verify, c_verify_final, c_verify_signature, c_verify_signature_final, c_wrap_key, op_init.
Lemma or_andl (X : Prop) a b : X \/ a && b = true -> (X \/ a = true) /\ (X \/ b = true).
Proof. destruct a, b; tauto. Qed.
Lemma rvs_get_state h b l : rvs (c_get_operation_state B h b l).
Proof. unfold c_get_operation_state. apply rvs_bind; [et|intros _]. apply rvs_bind; [et|intros s]. args. rv_tac. Qed.
Lemma rvs_set_state h b e a : Q RV_NULL_DEREF \/ negb (none b) = true -> rvs (c_set_operation_state P B h b e a).
Proof. intros H. pose proof (er_some_or b H). unfold c_set_operation_state. rv_tac. Qed.
Lemma rvs_copy h o t n p : Q RV_NULL_DEREF \/ ptrs_ok t = true -> rvs (c_copy_object P B h o t n p).
Proof.
  intros H. unfold c_copy_object. apply rvs_bind; [et|intros _]. apply rvs_bind; [et|intros _]. apply rvs_bind; [et|intros s].
  apply rvs_tmpl; [done|]. intros l Hl. rv_tac.
Qed.
Lemma rvs_set_attr h o t n : Q RV_NULL_DEREF \/ ptrs_ok t = true -> rvs (c_set_attribute_value P B h o t n).
Proof.
  intros H. unfold c_set_attribute_value. apply rvs_bind; [et|intros _]. apply rvs_bind; [et|intros s]. cbv zeta.
  apply rvs_bind; [et|intros _]. apply rvs_bind; [et|intros ob]. apply rvs_bind; [et|intros _].
  apply rvs_tmpl; [done|]. intros l Hl. rv_tac.
Qed.
Lemma rvs_find h t n : Q RV_NULL_DEREF \/ ptrs_ok t = true -> rvs (c_find_objects_init P B h t n).
Proof.
  intros H. unfold c_find_objects_init. apply rvs_bind; [et|intros _]. apply rvs_bind; [et|intros s]. cbv zeta.
  apply rvs_bind; [et|intros _]. apply rvs_tmpl; [done|]. intros l Hl. rv_tac.
Qed.
Lemma rvs_op_init k h m key sg : (k = KVerifySig -> m <> None -> Q RV_NULL_DEREF \/ negb (none sg) = true) -> rvs (op_init P B k h m key sg).
Proof.
  intros H. unfold op_init. apply rvs_bind; [et|intros _]. apply rvs_bind; [et|intros s]. destruct m as [[mt pr]|]; [|rv_tac].
  assert (errs Q (if bool_decide (k = KVerifySig) then let! x := deref B sg in ret (Some x) else ret None)) as Hs.
  { case_bool_decide; [|et]. pose proof (er_some_or sg (H H0 ltac:(done))). et. }
  repeat (apply rvs_bind; [first [exact Hs|et]|intros ?]; cbv zeta). rv_tac.
Qed.
Lemma rvs_crypt_final k h b l : Q RV_NULL_DEREF \/ negb b || negb (none l) = true -> rvs (c_crypt_final B k h b l).
Proof.
  intros H. unfold c_crypt_final. destruct l as [n|]; [rv_tac|]. destruct b; cbn in *.
  - destruct H; [|done]. rv_tac; unfold deref; et.
  - intros w. cbn. qc.
Qed.
Lemma rvs_dual k2 k1 d h x b l : rvs (c_dual B k2 k1 d h x b l).
Proof.
  unfold c_dual. args. apply rvs_bind; [et|intros _]. apply rvs_bind; [et|intros s]. apply rvs_bind; [et|intros _].
  intros w. unfold mbind at 1. pose proof (rvs_crypt_update k1 h b0 b n w) as Hc. destruct (crypt_update _ _ _ _ _ _ _) as [w' [r|e]]; [|exact Hc].
  cbn [snd] in Hc. destruct (negb b); [destruct r; exact Hc|]. revert w'.
  match goal with |- forall w', match snd (?m w') with _ => _ end => change (rvs m) end. rv_tac.
Qed.
Lemma rvs_derive h m k t p x : Q RV_NULL_DEREF \/ ptrs_ok t = true -> rvs (c_derive_key P B h m k t p x).
Proof.
  intros H. unfold c_derive_key. args. tm. do 11 (apply rvs_bind; [et|intros ?]; cbv zeta).
  match goal with |- rvs (mbind (lift ?r) _) => destruct r as [dl|e] eqn:Hd end.
  - assert (Forall derived_ok dl) as Hdl.
    { pose proof (sane_derived _ _ _ _ HS _ _ _ _ _ _ _ Hd H) as Ho. apply Forall_forall. intros y Hy. destruct Ho as [Ho|Ho].
      - destruct y; by left.
      - rewrite Forall_forall in Ho. specialize (Ho y Hy). destruct y; by right. }
    intros w. unfold mbind at 1, lift at 1. revert w.
    match goal with |- forall w', match snd (?m w') with _ => _ end => change (rvs m) end. rv_tac.
  - intros w. cbn. pose proof (f_equal (okerr Q) Hd) as He. cbn in He. rewrite <- He. apply (sane_derive _ _ _ _ HS).
Qed.
Lemma rvs_pair h m t1 t2 p1 p2 : Q RV_NULL_DEREF \/ ptrs_ok t1 = true -> Q RV_NULL_DEREF \/ ptrs_ok t2 = true -> 
  rvs (c_generate_key_pair P B E h m t1 t2 p1 p2).
Proof. intros H1 H2. unfold c_generate_key_pair. destruct p1, p2; rewrite ?andb_false_r, ?andb_true_r; args; tm; rv_tac. Qed.

Theorem api_rvs c : Q RV_NULL_DEREF \/ unchecked_ok c = true -> rvs (api P B E c).
Proof.
  intros Ha. destruct c; cbn [api unchecked_ok] in *.
  all: try (apply or_andl in Ha as [Ha Ha']).
  all: try match goal with
  | |- rvs (c_get_attribute_value _ _ _ _ _ _) => apply rvs_get_attribute
  | |- rvs (c_get_operation_state _ _ _ _) => apply rvs_get_state
  | |- rvs (c_set_operation_state _ _ _ _ _ _) => apply rvs_set_state; exact Ha
  | |- rvs (c_copy_object _ _ _ _ _ _ _) => apply rvs_copy; exact Ha
  | |- rvs (c_set_attribute_value _ _ _ _ _ _) => apply rvs_set_attr; exact Ha
  | |- rvs (c_find_objects_init _ _ _ _ _) => apply rvs_find; exact Ha
  | |- rvs (c_crypt_final _ _ _ _ _) => apply rvs_crypt_final; exact Ha
  | |- rvs (c_dual _ _ _ _ _ _ _ _) => apply rvs_dual
  | |- rvs (c_derive_key _ _ _ _ _ _ _ _) => apply rvs_derive; exact Ha
  | |- rvs (c_generate_key_pair _ _ _ _ _ _ _ _ _) => apply rvs_pair; assumption
  end.
  all: try match goal with |- rvs (match ?k with _ => _ end) => idtac | _ => unf; solve [args; tm; rv_tac] end.
  - assert (k = KVerifySig -> m <> None -> Q RV_NULL_DEREF \/ negb (none sig) = true) as Hk.
    { intros -> Hm. destruct m; [exact Ha|done]. }
    destruct k; first [apply rvs_fail; qc|apply rvs_op_init; exact Hk].
  - unf. pose proof (er_some_or seed Ha). rv_tac.
  - unf. destruct buf; [rv_tac|]. destruct Ha; [rv_tac|done].
Qed.
End pure.

Lemma plain_ok e : plain_code e = true -> e <> CKR_OK.
Proof. unfold plain_code. destruct (N.eqb_spec e CKR_OK); done. Qed.
Lemma plain_small e : plain_code e = true -> e < 2 ^ 64.
Proof. unfold plain_code. destruct (N.eqb_spec e CKR_OK), (N.ltb_spec e (2 ^ 64)); done. Qed.
Lemma pin_cases e : pin_code e = true -> e = CKR_PIN_INCORRECT \/ e = CKR_PIN_LOCKED \/ e = CKR_PIN_INVALID \/ e = CKR_PIN_EXPIRED.
Proof. unfold pin_code. destruct (N.eqb_spec e CKR_PIN_INCORRECT), (N.eqb_spec e CKR_PIN_LOCKED), (N.eqb_spec e CKR_PIN_INVALID), (N.eqb_spec e CKR_PIN_EXPIRED); auto; done. Qed.
Lemma pin_ok e : pin_code e = true -> e <> CKR_OK.
Proof. intros [-> |[-> |[-> | ->]]]%pin_cases; done. Qed.
Lemma pin_small e : pin_code e = true -> e < 2 ^ 64.
Proof. intros [-> |[-> |[-> | ->]]]%pin_cases; done. Qed.

(* No call returns CKR_OK as an error. *)
Section noerr.
Context (P : params) (B : backend) (E : N -> keyenv).
Lemma no_ok_err c w (HS : sane (fun e => e <> CKR_OK) P B E) : rv P B E w c = CKR_OK ->
  exists w' o, api P B E c w = (w', Ok (CKR_OK, o)).
Proof.
  assert (RV_NULL_DEREF <> CKR_OK) as Hn by (let X := fresh in intros X; vm_compute in X; discriminate X).
  pose proof (api_rvs (fun e => e <> CKR_OK) (fun e He => plain_ok e He) P B E HS (fun e He => pin_ok e He) c (or_introl Hn) w) as H.
  unfold rv, Api.step. destruct (api P B E c w) as [w' [[r o]|e]]; cbn [fst snd] in *; [|done]. intros ->. eauto.
Qed.
(* Only the unchecked pointers cause faults. *)
Lemma no_fault c w (HS : sane (fun e => e < 2 ^ 64) P B E) : unchecked_ok c = true -> rv P B E w c < 2 ^ 64.
Proof.
  intros Hc. pose proof (api_rvs (fun e => e < 2 ^ 64) (fun e He => plain_small e He) P B E HS (fun e He => pin_small e He) c (or_intror Hc) w) as H.
  unfold rv, Api.step. destruct (api P B E c w) as [w' [[r o]|e]]; cbn [fst snd] in *; [|done]. destruct H as [->|H]; [reflexivity|done].
Qed.
End noerr.
