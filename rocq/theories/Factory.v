(* Object factories: src/object/factory.rs and the key traits of src/object/key.rs. *)
From Verif Require Import Base Attr Obj.

Infix ".|." := N.lor (at level 50, left associativity).

(* OAFlags, src/object/factory.rs:42-97. *)
Definition OA_Ignored : N := 0x1.
Definition OA_Sensitive : N := 0x2.
Definition OA_Defval : N := 0x4.
Definition OA_RequiredOnCreate : N := 0x8.
Definition OA_RequiredOnGenerate : N := 0x10.
Definition OA_AlwaysRequired : N := 0x20.
Definition OA_SettableOnlyOnCreate : N := 0x80.
Definition OA_NeverSettable : N := 0x100.
Definition OA_Unchangeable : N := 0x400.
Definition OA_ChangeToFalse : N := 0xC00.
Definition OA_ChangeToTrue : N := 0x1400.
Definition OA_ChangeOnCopy : N := 0x2400.
Definition OA_Ephemeral : N := 0x8000.

(* struct ObjectAttr, src/object/factory.rs:102-108. *)
Record oattr := OA { oa_attr : attr; oa_flags : N }.
Definition oa_type (x : oattr) : N := a_type (oa_attr x).

(* ObjectAttr::is, src/object/factory.rs:125-131 : all bits of [v] must be set. *)
Definition oa_is (x : oattr) (v : N) : bool :=
  if v =? 0 then false else N.land (oa_flags x) v =? v.
(* ObjectAttr::has_default, src/object/factory.rs:133-135. *)
Definition has_default (x : oattr) : bool := N.land (oa_flags x) OA_Defval =? OA_Defval.

(* What a factory's `create` does beyond creating the object from the template. *)
Inductive fkind :=
| FData                      (* DataFactory *)
| FBuiltin                   (* ProfileFactory, MechanismFactory, ValidationFactory *)
| FX509 | FTrust | FNssTrust
| FSecret (keysize : N)      (* GenericSecretKeyFactory *)
| FAes
| FHotp
| FPublic | FPrivate.        (* asymmetric keys *)

(* struct ObjectFactoryData, src/object/factory.rs:157-168: the sensitive and ephemeral lists are
   computed from the attribute table (finalize, 220-230). *)
Record factory := Factory { f_kind : fkind; f_class : N; f_attrs : list oattr }.

Definition f_sensitive (f : factory) : list N :=
  map oa_type (List.filter (fun a => oa_is a OA_Sensitive) (f_attrs f)).
Definition f_ephemeral (f : factory) : list N :=
  map oa_type (List.filter (fun a => oa_is a OA_Ephemeral) (f_attrs f)).

Fixpoint find_oa (l : list oattr) (t : N) : option oattr :=
  match l with
  | [] => None
  | a :: r => if oa_type a =? t then Some a else find_oa r t
  end.

(* First loop of internal_object_create, src/object/factory.rs:323-349. *)
Fixpoint create_from_template (tab : list oattr) (unacceptable : N) (tmpl : list ckattr) (o : object)
  : result object :=
  match tmpl with
  | [] => Ok o
  | c :: r =>
    match find_oa tab (ca_type c) with
    | None => Err CKR_ATTRIBUTE_VALUE_INVALID
    | Some oa =>
      if oa_is oa unacceptable then Err CKR_ATTRIBUTE_TYPE_INVALID else
      let? _ := match get_attr o (ca_type c) with
                | None => Ok tt
                | Some a =>
                  if negb (a_type a =? CKA_CLASS) then Err CKR_TEMPLATE_INCONSISTENT
                  else let? x := ck_to_ulong c in
                       let? y := attr_to_ulong a in
                       if x =? y then Ok tt else Err CKR_TEMPLATE_INCONSISTENT
                end in
      if oa_is oa OA_Ignored then create_from_template tab unacceptable r o
      else let? a := from_ck_attr c in
           create_from_template tab unacceptable r (push_attr o a)
    end
  end.

(* Second loop of internal_object_create, src/object/factory.rs:350-363. *)
Fixpoint create_defaults (required : N) (tab : list oattr) (o : object) : result object :=
  match tab with
  | [] => Ok o
  | oa :: r =>
    if has_attr o (oa_type oa) then create_defaults required r o
    else if has_default oa then create_defaults required r (push_attr o (oa_attr oa))
    else if oa_is oa required || oa_is oa OA_AlwaysRequired then Err CKR_TEMPLATE_INCOMPLETE
    else create_defaults required r o
  end.

(* internal_object_create, src/object/factory.rs:313-365. *)
Definition internal_object_create (f : factory) (tmpl : list ckattr) (unacceptable required : N)
  : result object :=
  let? o := create_from_template (f_attrs f) unacceptable tmpl (obj_new (f_class f)) in
  create_defaults required (f_attrs f) o.

(* default_object_create, src/object/factory.rs:367-379. *)
Definition default_object_create (uid : bytes) (f : factory) (tmpl : list ckattr) : result object :=
  let? o := internal_object_create f tmpl OA_NeverSettable OA_RequiredOnCreate in
  Ok (generate_unique uid o).

(* KeyFactory::internal_key_create, src/object/key.rs:56-69. *)
Definition internal_key_create (uid : bytes) (f : factory) (tmpl : list ckattr) (unacceptable required : N)
  : result object :=
  let? o := internal_object_create f tmpl unacceptable required in
  Ok (generate_unique uid o).

(* KeyFactory::key_create, src/object/key.rs:74-104. *)
Definition key_create (uid : bytes) (f : factory) (tmpl : list ckattr) : result object :=
  let? o := internal_key_create uid f tmpl OA_NeverSettable OA_RequiredOnCreate in
  let c := o_class o in
  let o1 := if (c =? CKO_PUBLIC_KEY) || secret_class c then put_attr o (from_bool CKA_LOCAL false) else o in
  Ok (if secret_class c then
        put_attr (put_attr o1 (from_bool CKA_ALWAYS_SENSITIVE false)) (from_bool CKA_NEVER_EXTRACTABLE false)
      else o1).

(* KeyFactory::key_generate, src/object/key.rs:111-119. *)
Definition key_generate (uid : bytes) (f : factory) (tmpl : list ckattr) : result object :=
  internal_key_create uid f tmpl (OA_SettableOnlyOnCreate .|. OA_NeverSettable) OA_RequiredOnGenerate.

(* KeyFactory::key_unwrap, src/object/key.rs:124-130. *)
Definition key_unwrap (uid : bytes) (f : factory) (tmpl : list ckattr) : result object :=
  internal_key_create uid f tmpl (OA_SettableOnlyOnCreate .|. OA_NeverSettable) OA_AlwaysRequired.

(* KeyFactory::internal_key_derive, src/object/key.rs:139-183. *)
Definition internal_key_derive (uid : bytes) (f : factory) (tmpl : list ckattr) (origin : object)
  : result object :=
  let? o := internal_key_create uid f tmpl (OA_SettableOnlyOnCreate .|. OA_NeverSettable) OA_AlwaysRequired in
  let o1 := put_attr o (from_bool CKA_LOCAL false) in
  let as_ := match get_bool origin CKA_ALWAYS_SENSITIVE with
             | Ok true => is_sensitive o1 | _ => false end in
  let o2 := put_attr o1 (from_bool CKA_ALWAYS_SENSITIVE as_) in
  let ne := match get_bool origin CKA_NEVER_EXTRACTABLE with
            | Ok true => negb (is_extractable o2) | _ => false end in
  Ok (put_attr o2 (from_bool CKA_NEVER_EXTRACTABLE ne)).

(* default_key_attributes, src/object/key.rs:484-503. *)
Definition default_key_attributes (o : object) (mech : N) : object :=
  let o1 := put_attr o (from_bool CKA_LOCAL true) in
  let o2 := put_attr o1 (from_ulong CKA_KEY_GEN_MECHANISM mech) in
  let extractable := match get_bool o2 CKA_EXTRACTABLE with Ok b => b | Err _ => true end in
  let o3 := put_attr o2 (from_bool CKA_NEVER_EXTRACTABLE (negb extractable)) in
  let sensitive := match get_bool o3 CKA_SENSITIVE with Ok b => b | Err _ => false end in
  put_attr o3 (from_bool CKA_ALWAYS_SENSITIVE sensitive).

(* Template checks of default_copy, src/object/factory.rs:407-436. *)
Fixpoint copy_check (tab : list oattr) (origin : object) (tmpl : list ckattr) : result unit :=
  match tmpl with
  | [] => Ok tt
  | c :: r =>
    match find_oa tab (ca_type c) with
    | None => Err CKR_TEMPLATE_INCONSISTENT
    | Some oa =>
      let? _ :=
        (if oa_is oa OA_Unchangeable then
           let? _ :=
             (if oa_is oa (OA_ChangeToFalse .|. OA_ChangeToTrue) then
                let val := match get_bool origin (ca_type c) with Ok b => b | Err _ => false end in
                if val && negb (oa_is oa OA_ChangeToFalse) then Err CKR_ATTRIBUTE_READ_ONLY
                else if negb val && negb (oa_is oa OA_ChangeToTrue) then Err CKR_ATTRIBUTE_READ_ONLY
                else Ok tt
              else Ok tt) in
           if oa_is oa OA_ChangeOnCopy then Ok tt else Err CKR_ATTRIBUTE_READ_ONLY
         else Ok tt) in
      copy_check tab origin r
    end
  end.

(* for ck_attr in template { obj.set_attr(Attribute::from_ck_attr(ck_attr)?)? }: the object reached when an
   entry fails is returned too, because set_object_attributes works in place. *)
Fixpoint apply_template (o : object) (tmpl : list ckattr) : object * result unit :=
  match tmpl with
  | [] => (o, Ok tt)
  | c :: r =>
    match (let? a := from_ck_attr c in set_attr o a) with
    | Ok o' => apply_template o' r
    | Err e => (o, Err e)
    end
  end.

(* default_copy, src/object/factory.rs:402-478. *)
Definition default_copy (uid : bytes) (f : factory) (origin : object) (tmpl : list ckattr) : result object :=
  let? _ := copy_check (f_attrs f) origin tmpl in
  match apply_template (blind_copy uid origin) tmpl with
  | (_, Err e) => Err e
  | (o, Ok _) =>
    let o1 :=
      match get_bool o CKA_EXTRACTABLE with
      | Ok e =>
        let val := match get_bool o CKA_NEVER_EXTRACTABLE with
                   | Ok ne => negb e && ne
                   | Err _ => match get_bool origin CKA_EXTRACTABLE with
                              | Ok oe => negb e && negb oe
                              | Err _ => false
                              end
                   end in
        put_attr o (from_bool CKA_NEVER_EXTRACTABLE val)
      | Err _ => o
      end in
    let o2 :=
      match get_bool o1 CKA_SENSITIVE with
      | Ok b =>
        let val := match get_bool origin CKA_ALWAYS_SENSITIVE with
                   | Ok ob => b && ob
                   | Err _ => match get_bool origin CKA_SENSITIVE with
                              | Ok os => b && os
                              | Err _ => false
                              end
                   end in
        put_attr o1 (from_bool CKA_ALWAYS_SENSITIVE val)
      | Err _ => o1
      end in
    Ok o2
  end.

(* check_set_attributes, src/object/factory.rs:484-513. *)
Fixpoint check_set_attributes (tab : list oattr) (tmpl : list ckattr) : result unit :=
  match tmpl with
  | [] => Ok tt
  | c :: r =>
    match find_oa tab (ca_type c) with
    | None => Err CKR_ATTRIBUTE_TYPE_INVALID
    | Some oa =>
      if oa_is oa OA_NeverSettable then Err CKR_ACTION_PROHIBITED else
      let? _ :=
        (if oa_is oa OA_Unchangeable then
           match a_kind (oa_attr oa) with
           | KBool => let? v := ck_to_bool c in
                      if v then if oa_is oa OA_ChangeToTrue then Ok tt else Err CKR_ATTRIBUTE_READ_ONLY
                      else if oa_is oa OA_ChangeToFalse then Ok tt else Err CKR_ATTRIBUTE_READ_ONLY
           | _ => Err CKR_ATTRIBUTE_READ_ONLY
           end
         else Ok tt) in
      check_set_attributes tab r
    end
  end.

(* set_object_attributes, src/object/factory.rs:520-538: works in place, so the object is returned also
   on error. *)
Definition set_object_attributes (f : factory) (o : object) (tmpl : list ckattr) : object * result unit :=
  if negb (is_modifiable o) then (o, Err CKR_ACTION_PROHIBITED) else
  match check_set_attributes (f_attrs f) tmpl with
  | Err e => (o, Err e)
  | Ok _ => apply_template o tmpl
  end.

(* An entry of the array passed to C_GetAttributeValue: the type, the buffer pValue points to (None for
   a null pointer; the list is the current content of the buffer, its length the real size of the caller's
   memory) and ulValueLen. *)
Record qattr := QAttr { q_type : N; q_buf : option bytes; q_len : N }.
Global Instance qattr_eq_dec : EqDecision qattr.
Proof. solve_decision. Defined.

(* copy_nonoverlapping(attr_val, pValue, attr_val.len()): the first bytes of the caller's memory are
   overwritten.  Writing past the end of the memory is undefined behaviour and visible here as a longer buffer. *)
Definition overwrite (buf v : bytes) : bytes := v ++ skipn (length v) buf.

(* One iteration of the loop of get_object_attributes, src/object/factory.rs:934-1004; the second component is the
   error recorded if no earlier error was. *)
Definition get_one (f : factory) (o : object) (q : qattr) : qattr * N :=
  let sensitive := is_sensitive o || negb (is_extractable o) in
  match find_oa (f_attrs f) (q_type q) with
  | None => (QAttr (q_type q) (q_buf q) CK_UNAVAILABLE_INFORMATION, CKR_ATTRIBUTE_TYPE_INVALID)
  | Some oa =>
    if sensitive && oa_is oa OA_Sensitive then
      (QAttr (q_type q) (q_buf q) CK_UNAVAILABLE_INFORMATION, CKR_ATTRIBUTE_SENSITIVE)
    else
      match get_attr o (q_type q) with
      | None => (QAttr (q_type q) (q_buf q) CK_UNAVAILABLE_INFORMATION, CKR_ATTRIBUTE_TYPE_INVALID)
      | Some a =>
        let n := blen (a_val a) in
        match q_buf q with
        | None => (QAttr (q_type q) None n, CKR_OK)
        | Some b =>
          if q_len q =? CK_UNAVAILABLE_INFORMATION then (q, CKR_TEMPLATE_INCONSISTENT)
          else if q_len q <? n then
            (QAttr (q_type q) (Some b) CK_UNAVAILABLE_INFORMATION, CKR_BUFFER_TOO_SMALL)
          else (QAttr (q_type q) (Some (overwrite b (a_val a))) n, CKR_OK)
        end
      end
  end.

Fixpoint get_loop (f : factory) (o : object) (tmpl : list qattr) (res : N) : list qattr * N :=
  match tmpl with
  | [] => ([], res)
  | q :: r =>
    let '(q', e) := get_one f o q in
    let '(r', e') := get_loop f o r (if res =? CKR_OK then e else res) in
    (q' :: r', e')
  end.

(* struct ObjectFactories: a map from (class, type) to factories, src/object/factory.rs:773-826. *)
Definition factories := list ((N * N) * factory).
Fixpoint get_factory (fs : factories) (k : N * N) : result factory :=
  match fs with
  | [] => Err CKR_ATTRIBUTE_VALUE_INVALID
  | (k', f) :: r => if bool_decide (k' = k) then Ok f else get_factory r k
  end.

(* ObjectFactories::get_object_factory, src/object/factory.rs:877-890. *)
Definition get_object_factory (fs : factories) (o : object) : result factory :=
  let? class := get_ulong o CKA_CLASS in
  let? ty := (if class =? CKO_CERTIFICATE then get_ulong o CKA_CERTIFICATE_TYPE
              else if (class =? CKO_PUBLIC_KEY) || secret_class class then get_ulong o CKA_KEY_TYPE
              else Ok 0) in
  get_factory fs (class, ty).

(* ObjectFactories::get_object_attributes, src/object/factory.rs:922-1010. *)
Definition get_object_attributes (fs : factories) (o : object) (tmpl : list qattr) : list qattr * N :=
  match get_object_factory fs o with
  | Err e => (tmpl, e)
  | Ok f => get_loop f o tmpl CKR_OK
  end.

(* ObjectFactories::check_sensitive, src/object/factory.rs:896-914. *)
Fixpoint check_sensitive_tab (tab : list oattr) (tmpl : list ckattr) : result unit :=
  match tmpl with
  | [] => Ok tt
  | c :: r => match find_oa tab (ca_type c) with
              | None => Err CKR_ATTRIBUTE_TYPE_INVALID
              | Some oa => if oa_is oa OA_Sensitive then Err CKR_ATTRIBUTE_SENSITIVE
                           else check_sensitive_tab tab r
              end
  end.
Definition check_sensitive (fs : factories) (o : object) (tmpl : list ckattr) : result unit :=
  let? f := get_object_factory fs o in
  check_sensitive_tab (f_attrs f) tmpl.

(* ObjectFactories::copy, src/object/factory.rs:1014-1023, and the `copy` of the builtin factories
   (src/object/factory.rs:682-688, 751-757, src/fips/indicators.rs:147-153). *)
Definition factories_copy (uid : bytes) (fs : factories) (o : object) (tmpl : list ckattr) : result object :=
  if negb (is_copyable o) then Err CKR_ACTION_PROHIBITED else
  let? f := get_object_factory fs o in
  match f_kind f with
  | FBuiltin => Err CKR_ACTION_PROHIBITED
  | _ => default_copy uid f o tmpl
  end.

(* ObjectFactories::get_obj_factory_from_key_template, src/object/factory.rs:1027-1041. *)
Definition get_obj_factory_from_key_template (fs : factories) (tmpl : list ckattr) : result factory :=
  let? class := match find_ck tmpl CKA_CLASS with
                | Some c => ck_to_ulong c | None => Err CKR_TEMPLATE_INCONSISTENT end in
  let? kt := match find_ck tmpl CKA_KEY_TYPE with
             | Some c => ck_to_ulong c | None => Err CKR_TEMPLATE_INCONSISTENT end in
  get_factory fs (class, kt).

(* AES key sizes: check_key_len, src/aes.rs:76-81. *)
Definition aes_len_ok (n : N) : bool := (n =? 16) || (n =? 24) || (n =? 32).
Definition aes_check_key_len (n : N) : result unit :=
  if aes_len_ok n then Ok tt else Err CKR_KEY_SIZE_RANGE.

(* SecretKeyFactory::get_key_buffer_len, src/object/key.rs:403-408 with `incomplete`
   (src/object/factory.rs:31-37): a missing attribute becomes CKR_TEMPLATE_INCOMPLETE. *)
Definition get_key_buffer_len (o : object) : result N :=
  match get_attr o CKA_VALUE with
  | None => Err CKR_TEMPLATE_INCOMPLETE
  | Some a => let? v := attr_to_bytes a in Ok (blen v)
  end.
