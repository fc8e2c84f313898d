(* Objects: src/object/mod.rs. *)
From Verif Require Import Base Attr.

(* struct Object, src/object/mod.rs:77-97.  The zeroize flag is not modelled (memory hygiene). *)
Record object := Obj {
  o_handle : N;
  o_session : N;
  o_class : N;
  o_attrs : list attr }.
Global Instance object_eq_dec : EqDecision object.
Proof. solve_decision. Defined.

(* Object::new, src/object/mod.rs:111-119. *)
Definition obj_new (class : N) : object :=
  Obj CK_INVALID_HANDLE CK_INVALID_HANDLE class [from_ulong CKA_CLASS class].

Definition with_attrs (o : object) (l : list attr) : object :=
  Obj (o_handle o) (o_session o) (o_class o) l.
Definition set_handle (o : object) (h : N) : object :=
  Obj h (o_session o) (o_class o) (o_attrs o).
Definition set_session (o : object) (s : N) : object :=
  Obj (o_handle o) s (o_class o) (o_attrs o).

(* attributes.iter().find(|r| r.get_type() == t): Object::get_attr, src/object/mod.rs:244-246. *)
Fixpoint find_attr (l : list attr) (t : N) : option attr :=
  match l with
  | [] => None
  | a :: r => if a_type a =? t then Some a else find_attr r t
  end.
Definition get_attr (o : object) (t : N) : option attr := find_attr (o_attrs o) t.

Definition has_attr (o : object) (t : N) : bool :=
  match get_attr o t with Some _ => true | None => false end.

(* attributes.push *)
Definition push_attr (o : object) (a : attr) : object := with_attrs o (o_attrs o ++ [a]).

(* Object::generate_unique, src/object/mod.rs:129-139.  The fresh UUID is an argument. *)
Definition generate_unique (uid : bytes) (o : object) : object :=
  if has_attr o CKA_UNIQUE_ID then o else push_attr o (from_string CKA_UNIQUE_ID uid).

(* Object::blind_copy, src/object/mod.rs:166-176: the source CKA_CLASS attribute is pushed again after
   the one Object::new creates. *)
Definition blind_copy (uid : bytes) (o : object) : object :=
  let n := generate_unique uid (obj_new (o_class o)) in
  with_attrs n (o_attrs n ++ List.filter (fun a => negb (a_type a =? CKA_UNIQUE_ID)) (o_attrs o)).

(* create_bool_checker!, src/object/mod.rs:39-52 and 204-211. *)
Definition bool_attr (t : N) (def : bool) (o : object) : bool :=
  match get_attr o t with
  | Some a => match attr_to_bool a with Ok b => b | Err _ => def end
  | None => def
  end.
Definition is_token := bool_attr CKA_TOKEN false.
Definition is_private := bool_attr CKA_PRIVATE true.
Definition is_always_sensitive := bool_attr CKA_ALWAYS_SENSITIVE true.
Definition is_copyable := bool_attr CKA_COPYABLE true.
Definition is_modifiable := bool_attr CKA_MODIFIABLE true.
Definition is_destroyable := bool_attr CKA_DESTROYABLE false.
Definition is_never_extractable := bool_attr CKA_NEVER_EXTRACTABLE false.
Definition always_auth := bool_attr CKA_ALWAYS_AUTHENTICATE false.

Definition secret_class (c : N) : bool :=
  (c =? CKO_PRIVATE_KEY) || (c =? CKO_SECRET_KEY) || (c =? CKO_OTP_KEY).

(* Object::is_sensitive, src/object/mod.rs:214-226. *)
Definition is_sensitive (o : object) : bool :=
  if secret_class (o_class o) then bool_attr CKA_SENSITIVE true o else false.
(* Object::is_extractable, src/object/mod.rs:229-241. *)
Definition is_extractable (o : object) : bool :=
  if secret_class (o_class o) then bool_attr CKA_EXTRACTABLE false o else true.

(* position + replace, or push *)
Fixpoint replace_first (l : list attr) (a : attr) : list attr :=
  match l with
  | [] => [a]
  | x :: r => if a_type x =? a_type a then a :: r else x :: replace_first r a
  end.

(* Object::set_attr, src/object/mod.rs:249-264. *)
Definition set_attr (o : object) (a : attr) : result object :=
  if a_type a =? CKA_CLASS then
    let? c := attr_to_ulong a in
    Ok (Obj (o_handle o) (o_session o) c (replace_first (o_attrs o) a))
  else Ok (with_attrs o (replace_first (o_attrs o) a)).

(* set_attr of an attribute built by from_bool/from_ulong/... other than CKA_CLASS never fails. *)
Definition put_attr (o : object) (a : attr) : object :=
  match set_attr o a with Ok o' => o' | Err _ => o end.

(* Object::del_attr, src/object/mod.rs:267-269. *)
Definition del_attr (o : object) (t : N) : object :=
  with_attrs o (List.filter (fun a => negb (a_type a =? t)) (o_attrs o)).

(* attr_as_type!, src/object/mod.rs:56-71 and 276-279.  A missing attribute is Error::not_found, whose rv
   is CKR_GENERAL_ERROR (src/error.rs). *)
Definition get_as {A} (conv : attr -> result A) (o : object) (t : N) : result A :=
  match get_attr o t with Some a => conv a | None => Err CKR_GENERAL_ERROR end.
Definition get_bool := get_as attr_to_bool.
Definition get_ulong := get_as attr_to_ulong.
Definition get_string := get_as attr_to_string.
Definition get_bytes := get_as attr_to_bytes.

(* Object::match_template, src/object/mod.rs:284-292. *)
Definition match_template (o : object) (tmpl : list ckattr) : bool :=
  forallb (fun c => existsb (fun a => match_ck_attr a c) (o_attrs o)) tmpl.

(* Object::check_key_ops, src/object/mod.rs:300-319. *)
Definition check_key_ops (o : object) (class ktype op : N) : result unit :=
  let? c := get_ulong o CKA_CLASS in
  if negb (c =? class) then Err CKR_KEY_TYPE_INCONSISTENT else
  let? _ := (if negb (ktype =? CK_UNAVAILABLE_INFORMATION) then
               let? kt := get_ulong o CKA_KEY_TYPE in
               if negb (kt =? ktype) then Err CKR_KEY_TYPE_INCONSISTENT else Ok tt
             else Ok tt) in
  match get_bool o op with
  | Ok true => Ok tt
  | _ => Err CKR_KEY_FUNCTION_NOT_PERMITTED
  end.

(* Object::rough_size, src/object/mod.rs:322-328; size_of::<Attribute>() is 40 on 64 bit hosts
   (an 8 byte type, a 24 byte Vec and the kind, padded). *)
Definition rough_size (o : object) : N :=
  40 * N.of_nat (length (o_attrs o)) + foldr (fun a n => blen (a_val a) + n) 0 (o_attrs o).

(* Object::ensure_ulong, src/object/mod.rs:335-349. *)
Definition ensure_ulong (o : object) (t v : N) : result object :=
  match get_attr o t with
  | Some a => let? x := attr_to_ulong a in
              if x =? v then Ok o else Err CKR_ATTRIBUTE_VALUE_INVALID
  | None => Ok (push_attr o (from_ulong t v))
  end.
