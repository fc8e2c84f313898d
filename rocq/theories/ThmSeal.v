(* C28: the secrets in the database are sealed under the key of the token. *)
From Verif Require Import Base Monad Hoare Attr Obj Factory Tables Create Sqlite Storage Token Backend State Api Toy
  ObjSpec PlainSpec Rows ObjOk ObjNew TokInv TokStep TokWp Spec WorldWp Sessions SessionInv SessionFacts ObjWorld ObjFacts Errors ToyFacts ThmObjects
  AuthSpec Users AuthFacts AuthInv AuthPins AuthTry ThmAuth ThmInit KeyFacts ThmKeys SealSpec SealFacts.

Section seal.
Context (P : params) (B : backend) (E : N -> keyenv) (Hfs : p_fs P = all_factories) (Hutf : forall n, utf8_valid (p_uuid P n) = true).
Context (HL : pin_laws P) (HS : sane (fun e => plain_code e = true) P B E).
(* Cryptographic operations change nothing of their key but the counter of an OTP key. *)
Context (Hop : forall x h l, be_updates B x = Some (h, l) -> Forall (fun c => ca_type c = CKA_OTP_COUNTER) l /\ Nat.le (length l) 1).
Notation world := (world B). Notation winv := (winv B). Notation token_of := (token_of B). Notation after := (after P B E).
Notation rv := (rv P B E). Notation run := (run P B E). Notation end_of := (end_of P B E). Notation db_at := (db_at B).

Lemma plain_steady cs : forallb plain_call cs = true -> forallb steady cs = true.
Proof. induction cs as [|c cs IH]; [done|]. cbn [forallb]. intros [H1 H2]%andb_prop. rewrite (IH H2), andb_true_r. unfold plain_call in H1. by apply andb_prop in H1 as [_ H1]. Qed.
Lemma end_snoc cs c : end_of (cs ++ [c]) = after (end_of cs) c.
Proof. unfold ThmAuth.end_of. rewrite (run_app P B E). cbn [Api.run]. unfold Spec.after. by destruct (step P B E _ c). Qed.
Lemma calm_end cs sid : forallb plain_call cs = true -> calm_token B (end_of cs) sid.
Proof.
  induction cs as [|c cs IH] using rev_ind; [intros _ t; unfold Spec.token_of; cbn; by rewrite lookup_empty|]. rewrite forallb_app. cbn [forallb]. intros [H1 H2]%andb_prop. rewrite andb_true_r in H2.
  rewrite end_snoc. destruct (own_of P B E Hfs Hutf cs (plain_steady _ H1)) as [Hw Ho]. by apply (calm_step P B E Hfs Hutf Hop); auto.
Qed.
Lemma seal_run v k cs : forall w sid K, winv w -> own_disks B w -> forallb plain_call cs = true -> unwiped P B E w cs sid = true -> calm_token B w sid ->
  pins_of P v k K (view_at B w sid) -> sealed_db P v k (db_at w sid) -> sealed_db P v k (db_at (fst (run w cs)) sid).
Proof.
  induction cs as [|c cs IH]; intros w sid K Hw Ho Hp Hun Hca HK Hsd; [done|]. cbn [forallb unwiped] in Hp, Hun. apply andb_prop in Hp as [Hc Hp], Hun as [Hu Hun]. apply negb_true_iff in Hu.
  assert (steady c = true) as Hst by (unfold plain_call in Hc; by apply andb_prop in Hc as [_ Hc]).
  specialize (IH (after w c) sid _ (after_winv P B E Hfs Hutf w c Hw) (AuthFacts.after_own P B E Hfs Hutf w c Hw Ho Hst) Hp Hun (calm_step P B E Hfs Hutf Hop w c sid Hw Ho Hc Hca)
    (pins_step P B E Hfs Hutf HL HS v k w c sid K Hw Ho Hst Hu HK) (seal_step P B E Hfs Hutf Hop v k w c sid K Hw Ho Hc Hca HK Hsd)).
  cbn [Api.run]. unfold Spec.after in *. destruct (step P B E w c) as [w1 o]. cbn [fst] in *. destruct (run w1 cs) as [w2 os]. exact IH.
Qed.

(* C28: whatever happened before the token was initialised and whatever happens until it is initialised again, restarts
   and crashes included: every secret in the database is sealed, bound to its object, under one and the same key, which is
   the key of the token whenever that is in memory. *)
Theorem C28_sealed_partial cs sid pin label cs' : let c := InitToken sid pin label in
  forallb plain_call (cs ++ [c] ++ cs') = true -> rv (end_of cs) c = CKR_OK -> unwiped P B E (end_of (cs ++ [c])) cs' sid = true ->
  let w := end_of (cs ++ [c] ++ cs') in
  exists v k, sealed_db P v k (db_at w sid) /\ forall t k', token_of w sid = Some t -> t_key t = Some k' -> k' = k /\ t_ver t = v.
Proof.
  intros c Hp Hr Hun w. rewrite app_assoc in Hp. rewrite forallb_app in Hp. apply andb_prop in Hp as [Hp1 Hp2].
  destruct (own_of P B E Hfs Hutf _ (plain_steady _ Hp1)) as [Hw Ho]. destruct (end_pins P B E Hfs Hutf HL HS (cs ++ [c]) sid (plain_steady _ Hp1)) as (v & k & HK).
  exists v, k. assert (w = fst (run (end_of (cs ++ [c])) cs')) as ->. { unfold w. rewrite app_assoc. unfold ThmAuth.end_of. by rewrite (run_app P B E (cs ++ [c])). }
  assert (sealed_db P v k (db_at (end_of (cs ++ [c])) sid)) as Hsd.
  { destruct (C30_init_token_erases P B E Hfs Hutf HL HS (end_of cs) sid pin label) as (_ & Hem & _); [by exists cs|done|]. fold c in Hem. rewrite end_snoc. intros i m. rewrite Hem, lookup_empty. done. }
  split.
  - eapply seal_run; eauto. by apply calm_end.
  - intros t k' T Hk. pose proof (pins_run P B E Hfs Hutf HL HS v k cs' _ sid _ Hw Ho (plain_steady _ Hp2) Hun HK) as HK'. rewrite (view_token _ _ _ _ T) in HK'.
    by destruct (po_key _ _ _ _ _ HK' k' Hk) as (-> & V & _).
Qed.
End seal.

(* What the records of the token in slot 0 of the example hold: class and key type, and an attribute. *)
Definition values_at (w : State.world toy_be) (ty : N) : list (option (N * N) * option bytes) :=
  map (fun p => (row_kind (snd p), a_val <$> row_attr (snd p) ty)) (map_to_list (d_objs (db_at toy_be w 0))).
Definition k9 : bytes := repeat 9 16. Definition k8 : bytes := repeat 8 16. Definition k7 : bytes := repeat 7 16.
Definition tok_key : call := CreateObject 2 (Some (aes_tmpl true)) true.
Definition AES : option (N * N) := Some (CKO_SECRET_KEY, CKK_AES).
(* A key is stored, its value set, a copy made and the module restarted; what is stored are values of p_seal. *)
Definition before28 : list call := [on].
Definition init28 : call := InitToken 0 (Some so_pin) None.
Definition then28 : list call := skipn 2 home ++ [good; tok_key; SetAttributeValue 2 10 (Some [ca CKA_VALUE k8]) 1; CopyObject 2 10 (Some [tbool CKA_TOKEN true]) 1 true; Finalize; on].
Definition seal28 (n r : N) (x : bytes) : option bytes := ObjSpec.opt (p_seal toy 1 (p_master toy 0) (p_uuid toy n) r x).
Example C28_case : forallb plain_call (before28 ++ [init28] ++ then28) = true /\ toy_rv (toy_end before28) init28 = CKR_OK /\
  unwiped toy toy_be toy_env (toy_end (before28 ++ [init28])) then28 0 = true /\
  values_at (toy_end (before28 ++ [init28] ++ then28)) CKA_VALUE = [(AES, seal28 6 8 k8); (AES, seal28 9 10 k8)].
Proof. split_and!; vm_compute; reflexivity. Qed.
(* C28 is false if a template names an attribute twice: only the first entry is sealed, the last is stored. *)
Theorem C28_duplicate_refuted : let cs := home ++ [good; tok_key] in let c := SetAttributeValue 2 10 (Some [ca CKA_VALUE k8; ca CKA_VALUE k7]) 2 in
  toy_rv (toy_end cs) c = CKR_OK /\ values_at (toy_end (cs ++ [c])) CKA_VALUE = [(AES, Some k7)].
Proof. cbv zeta; split_and!; vm_compute; reflexivity. Qed.
(* C28 is false for the private values of Diffie-Hellman keys. *)
Theorem C28_dh_refuted : let cs := home ++ [good] in
  let c := CreateObject 2 (Some [tulong CKA_CLASS CKO_PRIVATE_KEY; tulong CKA_KEY_TYPE CKK_DH; tbool CKA_TOKEN true; ca CKA_PRIME [23]; ca CKA_BASE [5]; ca CKA_VALUE [6];
    tbool CKA_SENSITIVE true; tbool CKA_EXTRACTABLE false]) true in
  toy_rv (toy_end cs) c = CKR_OK /\ values_at (toy_end (cs ++ [c])) CKA_VALUE = [(Some (CKO_PRIVATE_KEY, CKK_DH), Some [6])].
Proof. cbv zeta; split_and!; vm_compute; reflexivity. Qed.
(* C28 is false if the class may be given in the template of a copy: a session key copied as a data object, and that copy
   to the token, gives a record of a secret key with its value in the clear. *)
Theorem C28_retyped_refuted : let cs := home ++ [good; CreateObject 2 (Some (aes_tmpl false)) true] in
  let c1 := CopyObject 2 10 (Some [tulong CKA_CLASS CKO_DATA]) 1 true in let c2 := CopyObject 2 11 (Some [tbool CKA_TOKEN true]) 1 true in
  toy_rv (toy_end cs) c1 = CKR_OK /\ toy_rv (toy_end (cs ++ [c1])) c2 = CKR_OK /\ values_at (toy_end (cs ++ [c1; c2])) CKA_VALUE = [(AES, Some k9)].
Proof. cbv zeta; split_and!; vm_compute; reflexivity. Qed.
