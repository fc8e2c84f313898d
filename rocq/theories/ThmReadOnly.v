(* C10: a read-only session leaves the stored objects alone. *)
From Verif Require Import Base Monad Attr Obj Factory Tables Create Sqlite Storage Token Backend State Api Toy
  ObjWorld Spec AuthSpec ToyFacts ThmObjects Loose ReadOnly.

Section c10.
Context (P : params) (B : backend) (E : N -> keyenv).
Context (Hfs : p_fs P = all_factories) (Hutf : forall n, utf8_valid (p_uuid P n) = true).
Notation world := (world B). Notation from_scratch := (from_scratch P B E). Notation after := (after P B E).

(* A call on a session opened without CKF_RW_SESSION creates, changes and removes no stored object of any slot: what the
   databases hold of objects is the same afterwards, whatever the call returns.  Left out, see [stores_nothing]:
   - C_CopyObject of a token object with a template without CKA_TOKEN, which does store an object (refuted below);
   - C_DeriveKey when the mechanism's parameters hold templates that mention CKA_TOKEN (refuted below);
   - the calls that finish a signature or verification with mechanisms that keep a counter in the key (HOTP). *)
Theorem C10_read_only_partial w c h s : from_scratch w -> session_of_call c = Some h -> session_of B w h = Some s ->
  has_flag (s_flags s) CKF_RW_SESSION = false -> stores_nothing B w c ->
  forall sid, d_objs (db_at B (after w c) sid) = d_objs (db_at B w sid).
Proof. intros Hw. apply (read_only_call P B E Hfs Hutf). by eapply scratch_winv. Qed.
End c10.

Notation toy_end cs := (fst (toy_run toy_user cs)).
Notation stored w := (size (d_objs (db_at toy_be w 0))).
(* Session 2 is read-write, session 3 read-only. *)
Definition one : list call := [CreateObject 2 (Some (aes_tmpl true ++ [tbool CKA_DERIVE true])) true].
Definition derive_tmpl : list ckattr := [tulong CKA_CLASS CKO_SECRET_KEY; tulong CKA_KEY_TYPE CKK_GENERIC_SECRET; tbool CKA_TOKEN false; tulong CKA_VALUE_LEN 16].
Definition ro_calls : list call :=
  [CreateObject 3 (Some (aes_tmpl true)) true; CreateObject 3 (Some (aes_tmpl false)) true; DestroyObject 3 10;
   SetAttributeValue 3 10 (Some [ca CKA_LABEL [65]]) 1; CopyObject 3 10 (Some [tbool CKA_TOKEN false]) 1 true;
   CopyObject 3 10 (Some [tbool CKA_TOKEN true]) 1 true; SetAttributeValue 3 12 (Some [ca CKA_LABEL [65]]) 1].
Example C10_some_refused :
  map fst (snd (toy_run (toy_end one) ro_calls)) =
    [CKR_SESSION_READ_ONLY; CKR_OK; CKR_ACTION_PROHIBITED; CKR_SESSION_READ_ONLY; CKR_OK; CKR_SESSION_READ_ONLY; CKR_OK] /\
  stored (toy_end one) = stored (toy_end (one ++ ro_calls)).
Proof. split; vm_compute; reflexivity. Qed.
Example C10_case : exists s, from_scratch toy toy_be toy_env (toy_end one) /\ session_of toy_be (toy_end one) 3 = Some s /\ has_flag (s_flags s) CKF_RW_SESSION = false /\
  Forall (fun c => session_of_call c = Some 3 /\ stores_nothing toy_be (toy_end one) c) ro_calls.
Proof.
  assert (exists s, session_of toy_be (toy_end one) 3 = Some s /\ has_flag (s_flags s) CKF_RW_SESSION = false) as (s & H1 & H2).
  { assert ((fun s => has_flag (s_flags s) CKF_RW_SESSION) <$> session_of toy_be (toy_end one) 3 = Some false) as H by (vm_compute; reflexivity).
    destruct (session_of toy_be (toy_end one) 3) as [s|]; [|discriminate H]. injection H as H. by exists s. }
  exists s. split_and!; [apply toy_user_scratch|done|done|]. unfold ro_calls.
  repeat (apply List.Forall_cons; [split; [done|first [exact I|right; eexists; split; [by left|done]]]|]). by apply List.Forall_nil.
Qed.
(* Found: the copy of a token object is a token object unless the template says otherwise, and the check looks at the
   template only; a read-only session stores an object. *)
Theorem C10_read_only_copy_refuted : exists w c s, from_scratch toy toy_be toy_env w /\ session_of_call c = Some 3 /\ session_of toy_be w 3 = Some s /\
  has_flag (s_flags s) CKF_RW_SESSION = false /\ rv toy toy_be toy_env w c = CKR_OK /\ stored w = 1%nat /\ stored (after toy toy_be toy_env w c) = 2%nat.
Proof.
  destruct C10_case as (s & H1 & H2 & H3 & _). exists (toy_end one), (CopyObject 3 10 None 0 true), s. split_and!; [done..| | |]; vm_compute; reflexivity.
Qed.
(* Found: C_DeriveKey checks the template it is given, but not those of the additional keys among the parameters of the
   SP 800-108 mechanisms. *)
Theorem C10_read_only_derive_refuted : exists w c s, from_scratch toy toy_be toy_env w /\ session_of_call c = Some 3 /\ session_of toy_be w 3 = Some s /\
  has_flag (s_flags s) CKF_RW_SESSION = false /\ rv toy toy_be toy_env w c = CKR_OK /\ stored w = 1%nat /\ stored (after toy toy_be toy_env w c) = 2%nat.
Proof.
  destruct C10_case as (s & H1 & H2 & H3 & _). exists (toy_end one), (DeriveKey 3 (Some (CKM_SP800_108_COUNTER_KDF, Some [1])) 10 (Some derive_tmpl) true 1), s.
  split_and!; [done..| | |]; vm_compute; reflexivity.
Qed.
