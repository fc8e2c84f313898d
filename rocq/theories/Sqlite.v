(* The SQLite backend: src/storage/sqlite.rs. *)
From Verif Require Import Base Attr Obj.

(* rusqlite::types::Value, without the kinds this code never writes (Null, Real). *)
Inductive sqlval := SInt (z : Z) | SText (b : bytes) | SBlob (b : bytes).
Global Instance sqlval_eq_dec : EqDecision sqlval.
Proof. solve_decision. Defined.

(* The database file: the table `objects` with columns (id, attr, val) and the constraint UNIQUE(id, attr), as a map
   from (id, attr) to val (src/storage/sqlite.rs:45-47), and the table `meta` keyed by UNIQUE(name, value)
   (src/storage/sqlite.rs:41-43), with the strings name and value replaced by the numbers below.  [d_tables] tells
   whether the tables exist.  Simplification: SQL leaves the order of rows unspecified; here it is that of map_to_list. *)
Record db := Db {
  d_tables : bool;
  d_objs : gmap N (gmap N sqlval);
  d_meta : gmap (N * N) bytes }.

Definition META_TOKEN_INFO : N := 1.
Definition META_USER_FLAGS : N := 2.
Definition META_USER_COUNTER : N := 3.
Definition META_USER_DATA : N := 4.
Definition VAL_LABEL : N := 1.
Definition VAL_SERIAL : N := 2.
Definition VAL_FLAGS : N := 3.
(* SO_ID and USER_ID, src/storage/format.rs:83-84 *)
Definition SO_ID : N := 10.
Definition USER_ID : N := 11.

Definition db_new : db := Db false ∅ ∅.

(* Statements executed on a connection, and transaction control. *)
Inductive stmt :=
| SInsObj (id t : N) (v : sqlval)     (* UPDATE_ATTR, src/storage/sqlite.rs:58 *)
| SDelObj (id : N)                    (* DELETE_OBJ, src/storage/sqlite.rs:59 *)
| SInsMeta (name value : N) (data : bytes) (* store_meta, src/storage/sqlite.rs:228-262 *)
| SDropMeta | SCreateMeta | SDropObj | SCreateObj  (* src/storage/sqlite.rs:40-47 *)
| SBegin | SCommit.

Definition d_rows (d : db) (id : N) : gmap N sqlval := default ∅ (d_objs d !! id).

Definition exec_db (s : stmt) (d : db) : db :=
  match s with
  | SInsObj id t v => Db (d_tables d) (<[id := <[t := v]> (d_rows d id)]> (d_objs d)) (d_meta d)
  | SDelObj id => Db (d_tables d) (delete id (d_objs d)) (d_meta d)
  | SInsMeta n v x => Db (d_tables d) (d_objs d) (<[(n, v) := x]> (d_meta d))
  | SDropMeta => Db (d_tables d) (d_objs d) ∅
  | SCreateMeta => d
  | SDropObj => Db false ∅ (d_meta d)
  | SCreateObj => Db true (d_objs d) (d_meta d)
  | SBegin | SCommit => d
  end.

(* What is on disk, and the pending content of the open transaction if any.  A statement outside a transaction is
   committed at once.  Trusted: SQLite's own atomic commit, that is, a process dying leaves [c_disk]. *)
Record conn := Conn { c_disk : db; c_tx : option db }.
Definition exec1 (c : conn) (s : stmt) : conn :=
  match s, c_tx c with
  | SBegin, _ => Conn (c_disk c) (Some (c_disk c))
  | SCommit, Some w => Conn w None
  | SCommit, None => c
  | _, Some w => Conn (c_disk c) (Some (exec_db s w))
  | _, None => Conn (exec_db s (c_disk c)) None
  end.
Definition exec (l : list stmt) (d : db) : conn := foldl exec1 (Conn d None) l.

(* rusqlite type conversions used below. *)
Definition u32_try (x : N) : result N := if x <? 2 ^ 32 then Ok x else Err CKR_GENERAL_ERROR.

(* SqliteStorage::num_to_val, src/storage/sqlite.rs:352-369. *)
Definition num_to_val (x : N) : result sqlval :=
  if x =? CK_UNAVAILABLE_INFORMATION then Ok (SInt (-1))
  else let? y := u32_try x in Ok (SInt (Z.of_N y)).
(* SqliteStorage::val_to_ulong, src/storage/sqlite.rs:374-381. *)
Definition val_to_ulong (z : Z) : result N :=
  if (z =? -1)%Z then Ok CK_UNAVAILABLE_INFORMATION
  else if (z <? 0)%Z then Err CKR_GENERAL_ERROR else Ok (Z.to_N z).

(* String::from_iter over char::from(u8): one UTF-8 sequence per byte. *)
Definition utf8_of_byte (b : N) : bytes := if b <? 0x80 then [b] else [0xC0 + b / 64; 0x80 + b mod 64].

(* Attribute::to_date_string, src/attribute.rs:433-456. *)
Definition to_date_string (v : bytes) : result bytes :=
  match v with
  | [] => Ok []
  | [y0; y1; y2; y3; m0; m1; d0; d1] =>
    Ok (concat (map utf8_of_byte [y0; y1; y2; y3; 0x2D; m0; m1; 0x2D; d0; d1]))
  | _ => Err CKR_ATTRIBUTE_VALUE_INVALID
  end.

(* string_to_ck_date, src/pkcs11/mod.rs:891-909. *)
Definition string_to_ck_date (s : bytes) : result bytes :=
  match s with
  | [y0; y1; y2; y3; s4; m0; m1; s7; d0; d1] =>
    if negb (s4 =? 0x2D) || negb (s7 =? 0x2D) then Err CKR_ATTRIBUTE_VALUE_INVALID
    else vec_to_date_validate [y0; y1; y2; y3; m0; m1; d0; d1]
  | _ => Err CKR_ATTRIBUTE_VALUE_INVALID
  end.

(* The column value of an attribute: the match of store_object, src/storage/sqlite.rs:294-312.  None: the attribute
   is skipped. *)
Definition to_sql (a : attr) : result (option sqlval) :=
  match a_kind a with
  | KBool => let? b := attr_to_bool a in Ok (Some (SInt (if b : bool then 1 else 0)))
  | KNum => let? x := attr_to_ulong a in let? v := num_to_val x in Ok (Some v)
  | KString => let? s := attr_to_string a in Ok (Some (SText s))
  | KBytes => Ok (Some (SBlob (a_val a)))
  | KUlongArray => if blen (a_val a) mod 8 =? 0 then Ok (Some (SBlob (a_val a))) else Err CKR_ATTRIBUTE_VALUE_INVALID
  | KDate => let? s := to_date_string (a_val a) in Ok (Some (SText s))
  | KDeny | KIgnore => Ok None
  end.

(* add_bool, add_num, add_string, add_byte_array, add_ulong_array, add_date (src/storage/sqlite.rs:72-170) selected by
   AttrType::attr_id_to_attrtype (src/attribute.rs). *)
Definition from_sql (t : N) (v : sqlval) : result attr :=
  match search_by_id t with
  | None => Err CKR_ATTRIBUTE_TYPE_INVALID
  | Some KBool => match v with SInt z => Ok (from_bool t (negb (z =? 0)%Z)) | _ => Err CKR_DEVICE_MEMORY end
  | Some KNum => match v with SInt z => let? x := val_to_ulong z in Ok (from_ulong t x) | _ => Err CKR_DEVICE_MEMORY end
  | Some KString => match v with
                    | SText s => if utf8_valid s then Ok (from_string t s) else Err CKR_DEVICE_MEMORY
                    | _ => Err CKR_DEVICE_MEMORY end
  | Some KBytes => match v with SBlob b => Ok (from_bytes t b) | _ => Err CKR_DEVICE_MEMORY end
  | Some KUlongArray => match v with
                        | SBlob b => if blen b mod 8 =? 0 then Ok (from_ulong_bytevec t b) else Err CKR_DEVICE_MEMORY
                        | _ => Err CKR_DEVICE_MEMORY end
  | Some KDate => match v with
                  | SText [] => Ok (from_date t [])
                  | SText s => let? d := string_to_ck_date s in Ok (from_date t d)
                  | _ => Err CKR_DEVICE_MEMORY end
  | Some (KDeny | KIgnore) => Err CKR_ATTRIBUTE_TYPE_INVALID
  end.

(* One object of rows_to_objects, src/storage/sqlite.rs:175-226. *)
Fixpoint add_rows (o : object) (l : list (N * sqlval)) : result object :=
  match l with
  | [] => Ok o
  | (t, v) :: r => let? a := from_sql t v in let? o' := set_attr o a in add_rows o' r
  end.
Definition rows_to_object (l : list (N * sqlval)) : result object := add_rows (obj_new CK_UNAVAILABLE_INFORMATION) l.

(* rows_to_objects: every object but the last must have received its class. *)
Fixpoint rows_to_objects (l : list (list (N * sqlval))) : result (list object) :=
  match l with
  | [] => Ok []
  | x :: r =>
    let? o := rows_to_object x in
    if match r with [] => false | _ => o_class o =? CK_UNAVAILABLE_INFORMATION end then Err CKR_GENERAL_ERROR
    else let? os := rows_to_objects r in Ok (o :: os)
  end.

(* SELECT id FROM objects WHERE attr = ? AND val = ?  (SEARCH_OBJ_ID): does the object satisfy it. *)
Definition row_match (t : N) (v : sqlval) (rows : gmap N sqlval) : bool := bool_decide (rows !! t = Some v).

Definition ids_with_uid (d : db) (uid : bytes) : list (N * gmap N sqlval) :=
  List.filter (fun p => row_match CKA_UNIQUE_ID (SText uid) (snd p)) (map_to_list (d_objs d)).

Fixpoint all_u32 (l : list N) : result unit :=
  match l with [] => Ok tt | t :: r => let? _ := u32_try t in all_u32 r end.

(* SqliteStorage::fetch_by_uid, src/storage/sqlite.rs:431-464. *)
Definition fetch_by_uid (d : db) (uid : bytes) (attrs : list N) : result object :=
  if negb (d_tables d) then Err CKR_GENERAL_ERROR else
  let? _ := all_u32 attrs in
  let sel rows := match attrs with
                  | [] => map_to_list rows
                  | _ => List.filter (fun p => existsb (N.eqb (fst p)) attrs) (map_to_list rows)
                  end in
  let groups := List.filter (fun l => match l with [] => false | _ => true end)
                            (map (fun p => sel (snd p)) (ids_with_uid d uid)) in
  let? os := rows_to_objects groups in
  match os with
  | [o] => Ok o
  | _ => Err CKR_GENERAL_ERROR
  end.

(* The parameter a template entry is turned into by search, src/storage/sqlite.rs:481-513. *)
Definition ck_to_sql (c : ckattr) : result (N * sqlval) :=
  let? _ := u32_try (ca_type c) in
  match search_by_id (ca_type c) with
  | None => Err CKR_ATTRIBUTE_TYPE_INVALID
  | Some KBool => let? b := ck_to_bool c in Ok (ca_type c, SInt (if b : bool then 1 else 0))
  | Some KNum => let? x := ck_to_ulong c in let? v := num_to_val x in Ok (ca_type c, v)
  | Some KString => let? s := ck_to_string c in Ok (ca_type c, SText s)
  | Some KBytes => Ok (ca_type c, SBlob (ck_to_buf c))
  | Some KUlongArray =>
    if ca_len c =? 0 then Ok (ca_type c, SBlob []) else
    match ca_ptr c with
    | None => Err CKR_ATTRIBUTE_VALUE_INVALID
    | Some b => if blen b mod 8 =? 0 then Ok (ca_type c, SBlob b) else Err CKR_ATTRIBUTE_VALUE_INVALID
    end
  | Some KDate => let? a := from_ck_attr c in let? s := to_date_string (a_val a) in Ok (ca_type c, SText s)
  | Some (KDeny | KIgnore) => Err CKR_ATTRIBUTE_TYPE_INVALID
  end.
Fixpoint ck_params (l : list ckattr) : result (list (N * sqlval)) :=
  match l with
  | [] => Ok []
  | c :: r => let? p := ck_to_sql c in let? ps := ck_params r in Ok (p :: ps)
  end.

(* SqliteStorage::search, src/storage/sqlite.rs:466-527: the INTERSECT of one subquery per template entry. *)
Definition db_search (d : db) (tmpl : list ckattr) : result (list object) :=
  let? ps := ck_params tmpl in
  if negb (d_tables d) then Err CKR_GENERAL_ERROR else
  rows_to_objects
    (map (fun p => map_to_list (snd p))
       (List.filter (fun p => forallb (fun q => row_match (fst q) (snd q) (snd p)) ps) (map_to_list (d_objs d)))).

(* SELECT IFNULL(MAX(id), 0) FROM objects *)
Definition max_id (d : db) : N := foldr (fun p m => N.max (fst p) m) 0 (map_to_list (d_objs d)).

(* The id used for an object: delete_object returns the id of the existing object, else the next free one is taken
   (src/storage/sqlite.rs:279-291, 326-345). *)
Definition old_id (d : db) (uid : bytes) : N :=
  match ids_with_uid d uid with [] => 0 | (i, _) :: _ => i end.
Definition del_stmts (d : db) (uid : bytes) : list stmt :=
  if old_id d uid =? 0 then [] else [SDelObj (old_id d uid)].
Definition new_id (d : db) (uid : bytes) : N :=
  if old_id d uid =? 0 then max_id d + 1 else old_id d uid.

(* The loop of store_object, src/storage/sqlite.rs:292-318. *)
Fixpoint ins_stmts (id : N) (l : list attr) : result (list stmt) :=
  match l with
  | [] => Ok []
  | a :: r =>
    if negb (id <? 2 ^ 31) then Err CKR_GENERAL_ERROR else
    let? _ := u32_try (a_type a) in
    let? v := to_sql a in
    let? rest := ins_stmts id r in
    Ok (match v with Some x => SInsObj id (a_type a) x :: rest | None => rest end)
  end.

(* The statements each writing function of SqliteStorage sends; an Err means the transaction is dropped, that is
   rolled back. *)
(* SqliteStorage::store_obj and store_object, src/storage/sqlite.rs:529-536 and 274-320. *)
Definition store_obj_stmts (d : db) (o : object) : result (list stmt) :=
  let? uid := get_string o CKA_UNIQUE_ID in
  if negb (d_tables d) then Err CKR_DEVICE_MEMORY else
  let? l := ins_stmts (new_id d uid) (o_attrs o) in
  Ok (SBegin :: del_stmts d uid ++ l ++ [SCommit]).
(* SqliteStorage::remove_by_uid, src/storage/sqlite.rs:538-544. *)
Definition remove_stmts (d : db) (uid : bytes) : result (list stmt) :=
  if negb (d_tables d) then Err CKR_DEVICE_MEMORY else
  Ok (SBegin :: del_stmts d uid ++ [SCommit]).
(* SqliteStorage::db_reset, src/storage/sqlite.rs:396-415 (the version row has no reader and is left out). *)
Definition reset_stmts : list stmt := [SBegin; SDropMeta; SCreateMeta; SDropObj; SCreateObj; SCommit].

(* struct StorageTokenInfo, src/storage/mod.rs:21-27; manufacturer and model are constants and left out. *)
Record token_info := TokenInfo { ti_label : bytes; ti_serial : bytes; ti_flags : N }.
Definition pad (n : nat) (s : bytes) : bytes := firstn n s ++ repeat 0x20 (n - length s).
(* copy_sized_string, src/misc.rs:179-197. *)
Definition copy_sized_string (s d : bytes) : bytes :=
  match rev s with
  | [] => d
  | c :: r => let s' := if c =? 0 then rev r else s in
              if (length d <=? length s')%nat then firstn (length d) s
              else s' ++ repeat 0x20 (length d - length s')
  end.
(* StorageTokenInfo::default, src/storage/mod.rs:29-48; the default label is "Kryoptic Soft Token". *)
Definition default_label : bytes := pad 32 [75;114;121;111;112;116;105;99;32;83;111;102;116;32;84;111;107;101;110].
Definition info_default : token_info := TokenInfo default_label (repeat 0x20 16) 0.

Definition stored_flags_mask : N := N.lor CKF_LOGIN_REQUIRED (N.lor CKF_TOKEN_INITIALIZED CKF_WRITE_PROTECTED).
(* SqliteStorage::store_token_info, src/storage/sqlite.rs:576-624. *)
Definition store_info_stmts (i : token_info) : list stmt :=
  [SBegin;
   SInsMeta META_TOKEN_INFO VAL_LABEL (ti_label i);
   SInsMeta META_TOKEN_INFO VAL_SERIAL (ti_serial i);
   SInsMeta META_TOKEN_INFO VAL_FLAGS (le 4 (N.land (ti_flags i) stored_flags_mask));
   SCommit].
(* SqliteStorage::fetch_token_info, src/storage/sqlite.rs:546-574. *)
Definition fetch_info (d : db) : result token_info :=
  if negb (d_tables d) then Err CKR_DEVICE_ERROR else
  let get v := d_meta d !! (META_TOKEN_INFO, v) in
  let? fl := match get VAL_FLAGS with
             | Some b => if blen b =? 4 then Ok (unle b) else Err CKR_GENERAL_ERROR
             | None => Ok 0 end in
  Ok (TokenInfo (match get VAL_LABEL with Some b => copy_sized_string b default_label | None => default_label end)
                (match get VAL_SERIAL with Some b => copy_sized_string b (repeat 0x20 16) | None => repeat 0x20 16 end)
                fl).

(* struct StorageAuthInfo, src/storage/aci.rs:371-381. *)
Record auth_info := AuthInfo { ai_default : bool; ai_data : option bytes; ai_max : N; ai_cur : N }.
Definition MAX_LOGIN_ATTEMPTS : N := 10.
(* StorageAuthInfo::default, src/storage/aci.rs:383-392. *)
Definition auth_default : auth_info := AuthInfo false None MAX_LOGIN_ATTEMPTS 0.
(* StorageAuthInfo::locked, src/storage/aci.rs:405-407. *)
Definition locked (i : auth_info) : bool := ai_max i <=? ai_cur i.

(* SqliteStorage::fetch_user, src/storage/sqlite.rs:626-661. *)
Definition fetch_user (d : db) (u : N) : result auth_info :=
  if negb (d_tables d) then Err CKR_DEVICE_ERROR else
  let get n := d_meta d !! (n, u) in
  let? def := match get META_USER_FLAGS with
              | Some b => if blen b =? 4 then Ok (negb (N.land (unle b) 1 =? 0)) else Err CKR_GENERAL_ERROR
              | None => Ok false end in
  let? cur := match get META_USER_COUNTER with
              | Some b => if blen b =? 4 then Ok (unle b) else Err CKR_GENERAL_ERROR
              | None => Ok 0 end in
  match get META_USER_DATA with
  | None => Err CKR_USER_PIN_NOT_INITIALIZED
  | Some b => Ok (AuthInfo def (Some b) MAX_LOGIN_ATTEMPTS cur)
  end.
(* SqliteStorage::store_user, src/storage/sqlite.rs:663-701. *)
Definition store_user_stmts (u : N) (i : auth_info) : result (list stmt) :=
  let? c := u32_try (ai_cur i) in
  Ok (SBegin :: (if ai_default i then [SInsMeta META_USER_FLAGS u (le 4 1)] else [])
      ++ [SInsMeta META_USER_COUNTER u (le 4 c)]
      ++ match ai_data i with Some b => [SInsMeta META_USER_DATA u b] | None => [] end
      ++ [SCommit]).
