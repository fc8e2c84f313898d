(* C28: what it means that the records of a database hold secrets in sealed form only. *)
From Verif Require Import Base Attr Obj Sqlite Storage State Api ObjSpec PlainSpec AuthSpec.
From Verif Require ThmProtect.

(* A number in a record, and the attributes of the record that hold the secret of a key. *)
Definition row_num (m : gmap N sqlval) (ty : N) : option N := match row_attr m ty with Some a => opt (attr_to_ulong a) | None => None end.
Definition row_kind (m : gmap N sqlval) : option (N * N) :=
  match row_num m CKA_CLASS, row_num m CKA_KEY_TYPE with Some c, Some kt => Some (c, kt) | _, _ => None end.
Definition row_secrets (m : gmap N sqlval) : list N := match row_kind m with Some k => secret_attrs k | None => [] end.

(* Every secret value of the record is what sealing some value under the key gives, for the object with the identifier
   of the record. The private values of Diffie-Hellman keys are left out, see C28_dh_refuted. *)
Definition sealed_record (P : params) (v : N) (k : bytes) (m : gmap N sqlval) : Prop :=
  row_kind m <> Some (CKO_PRIVATE_KEY, CKK_DH) -> forall ty a, In ty (row_secrets m) -> row_attr m ty = Some a ->
  exists uid r x, m !! CKA_UNIQUE_ID = Some (SText uid) /\ p_seal P v k uid r x = Ok (a_val a).
Definition sealed_db (P : params) (v : N) (k : bytes) (d : db) : Prop := forall i m, d_objs d !! i = Some m -> sealed_record P v k m.

(* The template of C_SetAttributeValue names an attribute twice. *)
Definition repeats (c : call) : bool :=
  match c with SetAttributeValue _ _ (Some l) _ => negb (bool_decide (NoDup (map ca_type l))) | _ => false end.
(* The module is not configured to replace objects when one with the same attributes is created. *)
Definition no_dedup (c : call) : bool :=
  match c with Initialize l => forallb (fun s => match sc_dedup s with None => true | Some _ => false end) l | _ => true end.
(* No call of a history is of these sorts, nor changes the class or key type of an object or of a copy (ThmProtect), and
   the database of a slot stays the same one. *)
Definition plain_call (c : call) : bool := negb (ThmProtect.retypes c) && negb (repeats c) && no_dedup c && steady c.
