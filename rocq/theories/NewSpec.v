(* Vocabulary of C43: what a creating call brings about. *)
From Verif Require Import Base Pkcs11 Monad Attr Obj Sqlite Storage Token Backend State Api Spec.

(* The attributes an application chooses in a template, which no factory or mechanism computes. *)
Definition chosen_types : list N :=
  [CKA_TOKEN; CKA_PRIVATE; CKA_MODIFIABLE; CKA_COPYABLE; CKA_DESTROYABLE; CKA_LABEL; CKA_ID; CKA_APPLICATION; CKA_OBJECT_ID; CKA_SUBJECT; CKA_START_DATE; CKA_END_DATE;
   CKA_KEY_TYPE; CKA_CERTIFICATE_TYPE; CKA_SENSITIVE; CKA_EXTRACTABLE; CKA_WRAP_WITH_TRUSTED; CKA_ALWAYS_AUTHENTICATE;
   CKA_ENCRYPT; CKA_DECRYPT; CKA_SIGN; CKA_VERIFY; CKA_SIGN_RECOVER; CKA_VERIFY_RECOVER; CKA_WRAP; CKA_UNWRAP; CKA_DERIVE].
Section spec.
Context (B : backend).
Notation world := (world B).
(* The handle named nothing before and names an object now, and that holds what the template says. *)
Definition new_at (w w' : world) (sid n : N) (l : list ckattr) : Prop :=
  id_at B w sid n = None /\ id_at B w' sid n <> None /\
  forall x, In x l -> In (ca_type x) chosen_types -> exists a, from_ck_attr x = Ok a /\ attr_at B w' sid n (ca_type x) = Some a.
(* What had a handle before has it still, with the same attributes. *)
Definition others_kept (w w' : world) (sid : N) : Prop :=
  forall h u, id_at B w sid h = Some u -> id_at B w' sid h = Some u /\ forall ty, attr_at B w' sid h ty = attr_at B w sid h ty.
End spec.
