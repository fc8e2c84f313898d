(* C56: what it means that a stored object stays. *)
From Verif Require Import Base Monad Attr Obj Factory Create Sqlite Storage Token Backend State Api Spec ObjSpec AuthSpec.

Section spec.
Context (P : params) (B : backend) (E : N -> keyenv).
Notation world := (world B). Notation after := (after P B E).

(* The record stored for a slot under the identifier u (CKA_UNIQUE_ID). *)
Definition stored (w : world) (sid : N) (u : bytes) : option (gmap N sqlval) := rows_of (db_at B w sid) u.
(* A boolean attribute of a record. *)
Definition row_bool (m : gmap N sqlval) (ty : N) : option bool := match row_attr m ty with Some a => opt (attr_to_bool a) | None => None end.
Definition unmodifiable (m : gmap N sqlval) : Prop := row_bool m CKA_MODIFIABLE = Some false.
Definition undestroyable (m : gmap N sqlval) : Prop := row_bool m CKA_DESTROYABLE = Some false.
(* Some handle of the slot names the object. *)
Definition has_handle (w : world) (sid : N) (u : bytes) : Prop := exists h, id_at B w sid h = Some u.

(* The call does not ask for the object u of the slot, whose record is m, to be changed or removed, or the object is not
   to be modified or destroyed. A call that makes objects comes when a handle names the object: without one its unique
   identifier can be given to the new object, see C56_refuted. C_CreateObject is called on a slot that is not set up to
   replace equal objects. *)
Definition spares (w : world) (c : call) (sid : N) (u : bytes) (m : gmap N sqlval) : Prop :=
  match c with
  | InitToken s _ _ => s <> sid
  | DestroyObject s o => on_slot B w s sid -> id_at B w sid o = Some u -> undestroyable m
  | SetAttributeValue s o _ _ => on_slot B w s sid -> id_at B w sid o = Some u -> unmodifiable m
  | Sign s _ _ _ | SignFinal s _ _ | Verify s _ _ | VerifyFinal s _ | VerifySignature s _ | VerifySignatureFinal s =>
      on_slot B w s sid -> unmodifiable m
  | CreateObject s _ _ => on_slot B w s sid -> has_handle w sid u /\ forall t, token_of B w sid = Some t -> t_dedup t = None
  | CopyObject s _ _ _ _ | GenerateKey s _ _ _ | GenerateKeyPair s _ _ _ _ _ | UnwrapKey s _ _ _ _ _ | DeriveKey s _ _ _ _ _
  | EncapsulateKey s _ _ _ _ _ _ | DecapsulateKey s _ _ _ _ _ => on_slot B w s sid -> has_handle w sid u
  | _ => True
  end.
Fixpoint all_spare (w : world) (cs : list call) (sid : N) (u : bytes) (m : gmap N sqlval) : Prop :=
  match cs with
  | [] => True
  | c :: cs => spares w c sid u m /\ all_spare (after w c) cs sid u m
  end.
End spec.
