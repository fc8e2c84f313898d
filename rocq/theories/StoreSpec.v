(* C26 and C27: the database under a token. *)
From Verif Require Import Base Attr Obj Sqlite.

(* What the module asks the database to do, and the statements it sends for it (none if it refuses). *)
Inductive dbcall := DStore (o : object) | DRemove (uid : bytes) | DInfo (i : token_info) | DUser (u : N) (i : auth_info) | DReset.
Definition stmts_of (d : db) (c : dbcall) : result (list stmt) :=
  match c with
  | DStore o => store_obj_stmts d o
  | DRemove uid => remove_stmts d uid
  | DInfo i => Ok (store_info_stmts i)
  | DUser u i => store_user_stmts u i
  | DReset => Ok reset_stmts
  end.
Definition db_after (d : db) (c : dbcall) : db := match stmts_of d c with Ok l => c_disk (exec l d) | Err _ => d end.
Definition db_run (d : db) (cs : list dbcall) : db := foldl db_after d cs.
(* The process dies after [k] of the statements: only what has been committed is left. *)
Definition died (d : db) (c : dbcall) (k : nat) : db := match stmts_of d c with Ok l => c_disk (exec (firstn k l) d) | Err _ => d end.

(* An attribute as the module makes them: of the kind its type has in the table, with a value of that kind.  One place of the
   code makes a list of numbers as a byte string (CKA_ALLOWED_MECHANISMS, src/hotp.rs:170-176). *)
Definition proper_attr (a : attr) : Prop := exists k, search_by_id (a_type a) = Some k /\
  (a_kind a = k \/ a_kind a = KBytes /\ k = KUlongArray /\ blen (a_val a) mod 8 = 0) /\
  match a_kind a with
  | KBool => a_val a = [0] \/ a_val a = [1]
  | KNum => exists x, a_val a = le64 x
  | KString => utf8_valid (a_val a) = true
  | KDate => a_val a = [] \/ vec_to_date_validate (a_val a) = Ok (a_val a)
  | _ => True
  end.
(* An object: proper attributes, never two different ones of the same type, and a unique identifier. *)
Record proper (o : object) : Prop := Proper {
  pr_attrs : forall a, In a (o_attrs o) -> proper_attr a;
  pr_once : forall a b, In a (o_attrs o) -> In b (o_attrs o) -> a_type a = a_type b -> a = b;
  pr_uid : exists uid, get_string o CKA_UNIQUE_ID = Ok uid }.
(* The module never stores a PIN marked as the default one (StorageAuthInfo::default_pin is never set in src/). *)
Definition proper_call (c : dbcall) : Prop := match c with DStore o => proper o | DUser u i => ai_default i = false | _ => True end.
(* The call leaves the object with this identifier alone. *)
Definition spares (uid : bytes) (c : dbcall) : Prop :=
  match c with DStore o => get_string o CKA_UNIQUE_ID <> Ok uid | DRemove u => u <> uid | DReset => False | _ => True end.
(* CKA_CHECK_VALUE is ignored wherever it is given and never stored (AttrType::IgnoreType, src/attribute.rs). *)
Definition content (o : object) (ty : N) (v : bytes) : Prop := exists a, In a (o_attrs o) /\ a_type a = ty /\ a_val a = v /\ a_kind a <> KIgnore /\ a_kind a <> KDeny.
