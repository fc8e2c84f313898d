(* C09: private token objects, and the calls that take the handle of an object. *)
From Verif Require Import Base Attr Obj Sqlite Storage Token Backend State Api ObjSpec Spec.

Section spec.
Context (B : backend).
(* Nobody is logged in on the slot, and the handle names a token object that is private: its CKA_PRIVATE is not false. *)
Definition locked_away (w : world B) (sid h : N) : Prop :=
  logged B w sid = Some KRY_UNSPEC /\ id_at B w sid h <> None /\ session_object_at B w sid h = false /\ bool_at B w sid h CKA_PRIVATE <> Some false.
(* The handles of the objects a call reads, changes, or uses as keys. *)
Definition takes (c : call) : list N :=
  match c with
  | CopyObject _ h _ _ _ | DestroyObject _ h | GetAttributeValue _ h _ _ | SetAttributeValue _ h _ _ | DigestKey _ h => [h]
  | OpInit _ _ (Some _) h _ => [h]
  | WrapKey _ _ w k _ _ => [w; k]
  | UnwrapKey _ _ w _ _ _ => [w]
  | DeriveKey _ m b _ _ _ => b :: match m with Some (mt, p) => be_derive_needs B mt p | None => [] end
  | EncapsulateKey _ _ k _ _ _ _ | DecapsulateKey _ _ k _ _ _ => [k]
  | SetOperationState _ _ _ a => if a =? CK_INVALID_HANDLE then [] else [a]
  | _ => []
  end.
End spec.
