(* C40: null pointers. *)
From Verif Require Import Base Monad Hoare Attr Obj Factory Tables Create Sqlite Storage Token Backend State Api Toy
  Spec Errors ToyFacts.

Section null.
Context (P : params) (B : backend) (E : N -> keyenv).

(* A call lacking a pointer it needs answers CKR_ARGUMENTS_BAD and does nothing, in any state. *)
Theorem C40_null_refused w c : null_required c = true ->
  after P B E w c = w /\ rv P B E w c = CKR_ARGUMENTS_BAD /\ out_of P B E w c = ONone.
Proof.
  intros H.
  assert (api P B E c w = (w, Err CKR_ARGUMENTS_BAD)) as Ha.
  { destruct c; try discriminate H; cbn [null_required] in H; cbn [api].
    all: repeat match goal with p : option _ |- _ => destruct p as [?|]; cbn [none orb andb negb] in H; try discriminate H end.
    all: repeat match goal with p : bool |- _ => destruct p; cbn [none orb negb] in H; try discriminate H end.
    all: try reflexivity.
    unfold c_get_attribute_value, tmpl_of, mbind, ensure. destruct (cnt =? 0); [done|]. reflexivity. }
  unfold after, rv, out_of, step. rewrite Ha. done.
Qed.

(* No call reads or writes through a null pointer or panics, whatever the state and whichever pointers are null,
   except the ones of [unchecked_ok]. Missing for the full property: those calls, see below. *)
Theorem C40_no_null_access_partial w c : sane (fun e => e < 2 ^ 64) P B E -> unchecked_ok c = true -> is_fault (rv P B E w c) = false.
Proof.
  intros HS Hc. pose proof (no_fault P B E c w HS Hc) as H. unfold is_fault, RV_NULL_DEREF, RV_PANIC. lia.
Qed.
End null.

Example C40_sane : sane (fun e => e < 2 ^ 64) toy toy_be toy_env.
Proof. apply toy_sane. exact plain_small. Qed.
Example C40_case : map (rv toy toy_be toy_env toy_user)
  [CreateObject 2 None true; CreateObject 2 (Some (aes_tmpl false)) false; Sign 2 (Some [1]) true None; Verify 2 None (Some [1]);
   GetAttributeValue 2 1 None 1; GetAttributeValue 2 1 None 0; InitPIN 2 None; Login 2 CKU_USER None; OpInit KSign 2 None 1 None] =
  [CKR_ARGUMENTS_BAD; CKR_ARGUMENTS_BAD; CKR_ARGUMENTS_BAD; CKR_ARGUMENTS_BAD; CKR_ARGUMENTS_BAD;
   CKR_OK; CKR_USER_NOT_LOGGED_IN; CKR_USER_ALREADY_LOGGED_IN; CKR_OK].
Proof. vm_compute. reflexivity. Qed.

(* The property is false for: the value pointer of a template entry (searching, creating), the blob of C_SetOperationState,
   C_SeedRandom, C_GenerateRandom, the length pointer of C_EncryptFinal and C_DecryptFinal, the signature of
   C_VerifySignatureInit. *)
Definition with_key : list call := setup ++
  [CreateObject 2 (Some (aes_tmpl false ++ [tbool CKA_ENCRYPT true; tbool CKA_VERIFY true])) true;
   OpInit KEnc 2 (Some (CKM_AES_CBC, None)) 10 None].
Theorem C40_null_access_refuted : let w := fst (toy_run toy_start with_key) in reachable toy toy_be toy_env w /\
  forall c, In c [CreateObject 2 (Some [CkAttr CKA_CLASS None 8]) true;
                  SetOperationState 2 None 0 0; SeedRandom 2 None; GenerateRandom 2 false 4 0; EncryptFinal 2 true None;
                  OpInit KVerifySig 2 (Some (CKM_SHA256_HMAC, None)) 10 None] ->
  rv toy toy_be toy_env w c = RV_NULL_DEREF.
Proof.
  split; [by exists ∅, with_key|]. intros c Hc.
  repeat (destruct Hc as [<-|Hc]; [vm_compute; reflexivity|]). destruct Hc.
Qed.
