(* C22: mechanisms and the lists that restrict them. *)
From Verif Require Import Base Attr Obj Sqlite Storage Token Backend State Api ObjSpec Spec OpsSpec.

(* The mechanism an application names in a call. *)
Definition mech_of_call (c : call) : option N :=
  match c with
  | GetMechanismInfo _ m _ => Some m
  | OpInit k _ (Some m) _ _ => match k with KSearch | KDigest => None | _ => Some (fst m) end
  | DigestInit _ (Some m) => Some (fst m)
  | GenerateKey _ (Some m) _ _ | GenerateKeyPair _ (Some m) _ _ _ _ | WrapKey _ (Some m) _ _ _ _ | UnwrapKey _ (Some m) _ _ _ _
  | DeriveKey _ (Some m) _ _ _ _ | EncapsulateKey _ (Some m) _ _ _ _ _ | DecapsulateKey _ (Some m) _ _ _ _ => Some (fst m)
  | _ => None
  end.
(* The key it is to be used with. *)
Definition key_of_call (c : call) : option N :=
  match c with
  | OpInit _ _ (Some _) key _ => Some key
  | WrapKey _ _ wkey _ _ _ | UnwrapKey _ _ wkey _ _ _ => Some wkey
  | DeriveKey _ _ base _ _ _ => Some base
  | EncapsulateKey _ _ key _ _ _ _ | DecapsulateKey _ _ key _ _ _ => Some key
  | _ => None
  end.
(* The mechanism types in the value of CKA_ALLOWED_MECHANISMS: consecutive groups of eight bytes, the least significant
   first. *)
Fixpoint ulongs (n : nat) (v : bytes) : list N :=
  match n with O => [] | S n' => foldr (fun b a => b + 256 * a) 0 (firstn 8 v) :: ulongs n' (skipn 8 v) end.
Definition allowed_list (v : bytes) : list N := ulongs (length v / 8) v.
(* What is left of the mechanisms of the build by the configuration of a slot. *)
Definition offered (c : slotconf) (all : list N) : list N :=
  match sc_mechs c with
  | None => all
  | Some (l, false) => List.filter (fun m => existsb (N.eqb m) l) all
  | Some (l, true) => List.filter (fun m => negb (existsb (N.eqb m) l)) all
  end.

Section spec.
Context (B : backend).
(* The slot a call works on. *)
Definition slot_in (w : world B) (c : call) : option N :=
  match slot_of_call c with Some sid => Some sid | None => match session_of_call c with Some h => slot_of B w h | None => None end end.
(* No object and no operation has changed, none is new. *)
Definition nothing_done (w w' : world B) : Prop := (forall sid h, same_object B w w' sid h) /\ forall s, session_of B w' s = session_of B w s.
End spec.
