(* The token state and the standard storage layer: src/storage/aci.rs, src/storage/format.rs. *)
From Verif Require Import Base Monad Attr Obj Factory Create Sqlite.

(* Errors the database library can report, mapped to return codes by src/storage/sqlite_common.rs:17-55 and the
   bad_code / bad_storage helpers of src/storage/sqlite.rs:27-34. *)
Inductive ioerr := IoGeneral | IoMemory | IoBusy | IoNotRecognized | IoReadOnly | IoTooBig | IoDevice | IoLock.
Definition ioerr_rv (e : ioerr) : N :=
  match e with
  | IoGeneral => CKR_GENERAL_ERROR | IoMemory => CKR_DEVICE_MEMORY | IoBusy => CKR_TOKEN_RESOURCE_EXCEEDED
  | IoNotRecognized => CKR_TOKEN_NOT_RECOGNIZED | IoReadOnly => CKR_TOKEN_WRITE_PROTECTED
  | IoTooBig => CKR_DATA_LEN_RANGE | IoDevice => CKR_DEVICE_ERROR | IoLock => CKR_CANT_LOCK
  end.

(* The cryptography used by src/storage/aci.rs, abstract:
   p_seal_key id pin ver key rnd: encrypt_key (aci.rs:141-194), PBKDF2 and AES-GCM under the PIN with the user id as
     additional data; rnd stands for the salt and IV drawn;
   p_open_key id pin blob: decrypt_key (aci.rs:204-248);
   p_seal ver key uid rnd data: encrypt_data (aci.rs:258-310), HKDF and AES-GCM under the master key with the object
     uid as context and additional data;
   p_open ver key uid blob: decrypt_data (aci.rs:320-365);
   p_master rnd: the value of a freshly generated master key (aci.rs:446-468);
   p_uuid n: the n-th UUID generated (object/mod.rs:129-139);
   p_mechs: the mechanisms registered by the build, with their flags (src/mechanism.rs:220-225). *)
Record params := Params {
  p_fs : factories;
  p_mechs : list (N * N);
  p_uuid : N -> bytes;
  p_master : N -> bytes;
  p_serial : N -> bytes;
  p_seal_key : N -> bytes -> N -> bytes -> N -> result bytes;
  p_open_key : N -> bytes -> bytes -> option (N * bytes);
  p_seal : N -> bytes -> bytes -> N -> bytes -> result bytes;
  p_open : N -> bytes -> bytes -> bytes -> result bytes }.

(* struct Handles, src/token.rs:34-39. *)
Record handles := Handles { h_map : gmap N bytes; h_next : N }.
(* config::ObjectsDedup, src/config.rs:66-76 *)
Inductive dedup := TrustOnly | TrustAndCertificates | DedupAll.

(* struct Token (src/token.rs:102-118) with its TokenFacilities (90-98), its StdStorageFormat (src/storage/format.rs:166-171)
   and StorageACI (src/storage/aci.rs:416-425).  [t_io] is the list of outcomes of the next database calls (None or end
   of list: the call works; Some e: it fails without effect); [t_fresh] counts the random draws made so far.
   CK_TOKEN_INFO is reduced to flags, label and serial. *)
Record token := Token {
  t_flags : N; t_label : bytes; t_serial : bytes;
  t_handles : handles;
  t_db : db;
  t_key : option bytes; t_ver : N;
  t_sobjs : gmap N object;
  t_logged : N;
  t_filter : option (list (N * N));
  t_dedup : option dedup;
  t_io : list (option ioerr);
  t_fresh : N }.

Definition set_info f l s (t : token) : token :=
  Token f l s (t_handles t) (t_db t) (t_key t) (t_ver t) (t_sobjs t) (t_logged t) (t_filter t) (t_dedup t) (t_io t) (t_fresh t).
Definition set_flags f (t : token) : token := set_info f (t_label t) (t_serial t) t.
Definition set_handles h (t : token) : token :=
  Token (t_flags t) (t_label t) (t_serial t) h (t_db t) (t_key t) (t_ver t) (t_sobjs t) (t_logged t) (t_filter t) (t_dedup t) (t_io t) (t_fresh t).
Definition set_db d (t : token) : token :=
  Token (t_flags t) (t_label t) (t_serial t) (t_handles t) d (t_key t) (t_ver t) (t_sobjs t) (t_logged t) (t_filter t) (t_dedup t) (t_io t) (t_fresh t).
Definition set_key_ver k v (t : token) : token :=
  Token (t_flags t) (t_label t) (t_serial t) (t_handles t) (t_db t) k v (t_sobjs t) (t_logged t) (t_filter t) (t_dedup t) (t_io t) (t_fresh t).
Definition set_sobjs m (t : token) : token :=
  Token (t_flags t) (t_label t) (t_serial t) (t_handles t) (t_db t) (t_key t) (t_ver t) m (t_logged t) (t_filter t) (t_dedup t) (t_io t) (t_fresh t).
Definition set_logged l (t : token) : token :=
  Token (t_flags t) (t_label t) (t_serial t) (t_handles t) (t_db t) (t_key t) (t_ver t) (t_sobjs t) l (t_filter t) (t_dedup t) (t_io t) (t_fresh t).
Definition set_filter f (t : token) : token :=
  Token (t_flags t) (t_label t) (t_serial t) (t_handles t) (t_db t) (t_key t) (t_ver t) (t_sobjs t) (t_logged t) f (t_dedup t) (t_io t) (t_fresh t).
Definition set_dedup d (t : token) : token :=
  Token (t_flags t) (t_label t) (t_serial t) (t_handles t) (t_db t) (t_key t) (t_ver t) (t_sobjs t) (t_logged t) (t_filter t) d (t_io t) (t_fresh t).
Definition set_io i (t : token) : token :=
  Token (t_flags t) (t_label t) (t_serial t) (t_handles t) (t_db t) (t_key t) (t_ver t) (t_sobjs t) (t_logged t) (t_filter t) (t_dedup t) i (t_fresh t).
Definition set_fresh n (t : token) : token :=
  Token (t_flags t) (t_label t) (t_serial t) (t_handles t) (t_db t) (t_key t) (t_ver t) (t_sobjs t) (t_logged t) (t_filter t) (t_dedup t) (t_io t) n.

(* A random draw. *)
Definition draw : M token N := fun t => (set_fresh (t_fresh t + 1) t, Ok (t_fresh t)).

(* Every database call may fail. *)
Definition io : M token unit := fun t =>
  match t_io t with
  | [] => (t, Ok tt)
  | None :: r => (set_io r t, Ok tt)
  | Some e :: r => (set_io r t, Err (ioerr_rv e))
  end.
Definition dbread {A} (f : db -> result A) : M token A :=
  io;;; (fun t => (t, f (t_db t))).
Definition dbwrite (f : db -> result (list stmt)) : M token unit :=
  io;;; (fun t => match f (t_db t) with
                  | Ok l => (set_db (c_disk (exec l (t_db t))) t, Ok tt)
                  | Err e => (t, Err e)
                  end).

(* Handles::new, insert, get, get_by_uid, remove, next: src/token.rs:43-84. *)
Definition handles_new : handles := Handles ∅ 1.
Definition uid_handle (h : handles) (uid : bytes) : option N :=
  match List.filter (fun p => bytes_eqb (snd p) uid) (map_to_list (h_map h)) with
  | [] => None
  | p :: _ => Some (fst p)
  end.
Definition h_insert (h : N) (uid : bytes) : M token unit := fun t =>
  let hs := t_handles t in
  if match h_map hs !! h, uid_handle hs uid with None, None => false | _, _ => true end
  then (t, Err CKR_GENERAL_ERROR)
  else (set_handles (Handles (<[h := uid]> (h_map hs)) (h_next hs)) t, Ok tt).
Definition h_remove (h : N) : M token unit :=
  modify (fun t => set_handles (Handles (delete h (h_map (t_handles t))) (h_next (t_handles t))) t).
Definition h_fresh : M token N := fun t =>
  let hs := t_handles t in
  (set_handles (Handles (h_map hs) (h_next hs + 1)) t, Ok (h_next hs)).
Definition h_get (h : N) : M token (option bytes) := gets (fun t => h_map (t_handles t) !! h).

Section storage.
Context (P : params).

(* get_pin_uid, src/storage/format.rs:87-93. *)
Definition get_pin_uid (u : N) : result N :=
  if u =? CKU_SO then Ok SO_ID else if u =? CKU_USER then Ok USER_ID else Err CKR_GENERAL_ERROR.

(* user_flags, src/storage/format.rs:30-63. *)
Definition user_flags (u : N) (i : auth_info) (flag : N) : N :=
  let remaining := if locked i then 0 else ai_max i - ai_cur i in
  if u =? CKU_SO then
    N.lor (N.lor flag (if remaining =? 0 then CKF_SO_PIN_LOCKED
                       else if remaining =? 1 then CKF_SO_PIN_FINAL_TRY
                       else if (remaining =? 2) || (remaining =? 3) then CKF_SO_PIN_COUNT_LOW else 0))
          (if ai_default i then CKF_SO_PIN_TO_BE_CHANGED else 0)
  else if u =? CKU_USER then
    N.lor (N.lor flag (if remaining =? 0 then CKF_USER_PIN_LOCKED
                       else if remaining =? 1 then CKF_USER_PIN_FINAL_TRY
                       else if (remaining =? 2) || (remaining =? 3) then CKF_USER_PIN_COUNT_LOW else 0))
          (if ai_default i then CKF_USER_PIN_TO_BE_CHANGED else CKF_USER_PIN_INITIALIZED)
  else flag.

(* StdStorageFormat::init_pin_flags, src/storage/format.rs:188-209. *)
Definition init_pin_flags : M token N :=
  let! so := dbread (fun d => fetch_user d SO_ID) in
  let! us := attempt (dbread (fun d => fetch_user d USER_ID)) in
  match us with
  | Ok i => ret (N.lor (user_flags CKU_SO so 0) (user_flags CKU_USER i 0))
  | Err e => if e =? CKR_USER_PIN_NOT_INITIALIZED then ret (user_flags CKU_SO so 0) else fail e
  end.

(* StorageACI::key_to_user_data, src/storage/aci.rs:528-553 (the encrypting variant, the only one SQLite uses:
   src/storage/sqlite.rs:724-727). *)
Definition key_to_user_data (u : N) (pin : bytes) : M token auth_info :=
  let! k := gets t_key in
  match k with
  | None => fail CKR_USER_NOT_LOGGED_IN
  | Some key =>
    let! v := gets t_ver in
    let! r := draw in
    let! blob := lift (p_seal_key P u pin v key r) in
    ret (AuthInfo false (Some blob) MAX_LOGIN_ATTEMPTS 0)
  end.

(* StorageACI::reset, src/storage/aci.rs:446-468. *)
Definition aci_reset : M token unit :=
  let! r := draw in
  modify (fun t => set_key_ver (Some (p_master P r)) (t_ver t + 1) t).

(* StorageACI::authenticate, src/storage/aci.rs:562-610: the new counter state and whether it changed. *)
Definition aci_authenticate (u : N) (i : auth_info) (pin : bytes) (set_key : bool) : M token (auth_info * bool) :=
  if locked i then ret (i, false) else
  match ai_data i with
  | None => fail CKR_GENERAL_ERROR
  | Some blob =>
    match p_open_key P u pin blob with
    | Some (ver, key) =>
      (if set_key then
         if blen key =? 32 then modify (set_key_ver (Some key) ver)
         else modify (fun t => set_key_ver (t_key t) ver t);;; fail CKR_ATTRIBUTE_VALUE_INVALID
       else skip);;;
      ret (AuthInfo (ai_default i) (ai_data i) (ai_max i) 0, negb (ai_cur i =? 0))
    | None => ret (AuthInfo (ai_default i) (ai_data i) (ai_max i) (ai_cur i + 1), true)
    end
  end.

(* StdStorageFormat::default_token_info, src/storage/format.rs:220-237. *)
Definition default_token_info : M token token_info :=
  let! r := draw in
  let i := TokenInfo default_label (p_serial P r) (N.lor CKF_TOKEN_INITIALIZED CKF_LOGIN_REQUIRED) in
  dbwrite (fun _ => Ok (store_info_stmts i));;;
  ret i.

(* StdStorageFormat::open, src/storage/format.rs:242-248. *)
Definition st_open : M token token_info :=
  io;;;
  dbread (fun d => if d_tables d then Ok tt else Err CKR_CRYPTOKI_NOT_INITIALIZED);;;
  let! i := dbread fetch_info in
  let! f := init_pin_flags in
  ret (TokenInfo (ti_label i) (ti_serial i) (N.lor (ti_flags i) f)).

(* StdStorageFormat::set_user_pin, src/storage/format.rs:534-543. *)
Definition set_user_pin (ut : N) (pin : bytes) : M token unit :=
  let! u := lift (get_pin_uid ut) in
  let! i := key_to_user_data u pin in
  dbwrite (fun _ => store_user_stmts u i).

(* StdStorageFormat::reinit, src/storage/format.rs:252-264; default_so_pin, 212-217. *)
Definition st_reinit : M token token_info :=
  dbwrite (fun _ => Ok reset_stmts);;;
  aci_reset;;;
  (let! i := key_to_user_data SO_ID [] in dbwrite (fun _ => store_user_stmts SO_ID i));;;
  let! i := default_token_info in
  let! f := init_pin_flags in
  ret (TokenInfo (ti_label i) (ti_serial i) (N.lor (ti_flags i) f)).

(* CkAttrs::add_missing_ulong, src/attribute.rs:859-868, on the types only. *)
Definition add_missing (l : list N) (t : N) : list N := if existsb (N.eqb t) l then l else l ++ [t].

(* The decryption loop of fetch, src/storage/format.rs:310-322. *)
Fixpoint decrypt_attrs (ver : N) (key : option bytes) (uid : bytes) (ats : list N) (o : object) : result object :=
  match ats with
  | [] => Ok o
  | t :: r =>
    match get_attr o t with
    | None => decrypt_attrs ver key uid r o
    | Some a =>
      let? plain := match key with Some k => p_open P ver k uid (a_val a) | None => Err CKR_GENERAL_ERROR end in
      let? o' := set_attr o (from_bytes t plain) in
      decrypt_attrs ver key uid r o'
    end
  end.

(* StdStorageFormat::fetch, src/storage/format.rs:275-333. *)
Definition st_fetch (h : N) (attrs : list N) : M token object :=
  let! u := h_get h in
  match u with
  | None => fail CKR_OBJECT_HANDLE_INVALID
  | Some uid =>
    let l := match attrs with
             | [] => []
             | _ => foldl add_missing attrs [CKA_CLASS; CKA_KEY_TYPE; CKA_CERTIFICATE_TYPE; CKA_SENSITIVE; CKA_EXTRACTABLE]
             end in
    let! o := dbread (fun d => fetch_by_uid d uid l) in
    let! f := lift (get_object_factory (p_fs P) o) in
    let! k := gets t_key in
    let! v := gets t_ver in
    let! o' := lift (decrypt_attrs v k uid (f_sensitive f) o) in
    ret (set_handle o' h)
  end.

(* StorageACI::encrypt_value, src/storage/aci.rs:478-499. *)
Definition encrypt_value (uid val : bytes) : M token bytes :=
  let! k := gets t_key in
  match k with
  | None => fail CKR_GENERAL_ERROR
  | Some key => let! v := gets t_ver in let! r := draw in lift (p_seal P v key uid r val)
  end.

(* The encryption loop of store, src/storage/format.rs:347-357. *)
Fixpoint encrypt_attrs (uid : bytes) (ats : list N) (o : object) : M token object :=
  match ats with
  | [] => ret o
  | t :: r =>
    match get_attr o t with
    | None => encrypt_attrs uid r o
    | Some a =>
      let! e := encrypt_value uid (a_val a) in
      let! o' := lift (set_attr o (from_bytes t e)) in
      encrypt_attrs uid r o'
    end
  end.

Definition del_attrs (ts : list N) (o : object) : object := foldl del_attr o ts.

(* StdStorageFormat::store, src/storage/format.rs:338-371. *)
Definition st_store (o : object) : M token N :=
  let! f := lift (get_object_factory (p_fs P) o) in
  let! uid := lift (get_string o CKA_UNIQUE_ID) in
  let! o1 := encrypt_attrs uid (f_sensitive f) o in
  let o2 := del_attrs (f_ephemeral f) o1 in
  let! h := (if o_handle o2 =? CK_INVALID_HANDLE then
               let! h := h_fresh in h_insert h uid;;; ret h
             else ret (o_handle o2)) in
  dbwrite (fun d => store_obj_stmts d o2);;;
  ret h.

(* CkAttrs::insert_unique_vec, src/attribute.rs:948-960. *)
Fixpoint insert_unique (tmpl : list ckattr) (t : N) (v : bytes) : list ckattr :=
  match tmpl with
  | [] => [ca t v]
  | c :: r => if ca_type c =? t then ca t v :: r else c :: insert_unique r t v
  end.

(* The encryption loop of update, src/storage/format.rs:393-408. *)
Fixpoint encrypt_tmpl (uid : bytes) (ats : list N) (tmpl : list ckattr) : M token (list ckattr) :=
  match ats with
  | [] => ret tmpl
  | t :: r =>
    match find_ck tmpl t with
    | None => encrypt_tmpl uid r tmpl
    | Some c => let! e := encrypt_value uid (ck_to_buf c) in
                encrypt_tmpl uid r (insert_unique tmpl t e)
    end
  end.

(* StdStorageFormat::update, src/storage/format.rs:376-420. *)
Definition st_update (h : N) (tmpl : list ckattr) : M token unit :=
  let! u := h_get h in
  match u with
  | None => fail CKR_OBJECT_HANDLE_INVALID
  | Some uid =>
    let! o := dbread (fun d => fetch_by_uid d uid []) in
    let! f := lift (get_object_factory (p_fs P) o) in
    let! tm := encrypt_tmpl uid (f_sensitive f) tmpl in
    match apply_template o tm with
    | (_, Err e) => fail e
    | (o', Ok _) => dbwrite (fun d => store_obj_stmts d (del_attrs (f_ephemeral f) o'))
    end
  end.

(* str::parse::<usize>: an optional plus sign and at least one digit, not above the 64 bit maximum. *)
Fixpoint digits (acc : N) (s : bytes) : option N :=
  match s with
  | [] => Some acc
  | c :: r => if ascii_digit c then digits (10 * acc + (c - 0x30)) r else None
  end.
Definition parse_usize (s : bytes) : option N :=
  match (match s with 0x2B :: r => r | _ => s end) with
  | [] => None
  | s' => match digits 0 s' with Some n => if n <? 2 ^ 64 then Some n else None | None => None end
  end.
Definition internal_uid (uid : bytes) : bool :=
  match parse_usize uid with Some n => n <? 10 | None => false end.

(* The loop of StdStorageFormat::search, src/storage/format.rs:434-459. *)
Fixpoint search_handles (tmpl : list ckattr) (l : list object) : M token (list N) :=
  match l with
  | [] => ret []
  | o :: r =>
    if is_sensitive o && negb (is_ok (check_sensitive (p_fs P) o tmpl)) then search_handles tmpl r else
    match get_string o CKA_UNIQUE_ID with
    | Err _ => search_handles tmpl r
    | Ok uid =>
      if internal_uid uid then search_handles tmpl r else
      let! known := gets (fun t => uid_handle (t_handles t) uid) in
      let! h := match known with
                | Some h => ret h
                | None => let! h := h_fresh in h_insert h uid;;; ret h
                end in
      let! hs := search_handles tmpl r in
      ret (h :: hs)
    end
  end.
(* StdStorageFormat::search, src/storage/format.rs:425-461. *)
Definition st_search (tmpl : list ckattr) : M token (list N) :=
  let! os := dbread (fun d => db_search d tmpl) in
  search_handles tmpl os.

(* StdStorageFormat::remove, src/storage/format.rs:464-474. *)
Definition st_remove (h : N) : M token unit :=
  let! u := h_get h in
  match u with
  | None => fail CKR_OBJECT_HANDLE_INVALID
  | Some uid => dbwrite (fun d => remove_stmts d uid)
  end.

(* StdStorageFormat::auth_user, src/storage/format.rs:488-520: the flags and the result. *)
Definition st_auth_user (ut : N) (pin : bytes) (check_only : bool) : M token (N * result unit) :=
  let! u := lift (get_pin_uid ut) in
  let! i := dbread (fun d => fetch_user d u) in
  let! p := aci_authenticate u i pin (negb check_only) in
  let '(i', upd) := p in
  (if upd : bool then let! _ := attempt (dbwrite (fun _ => store_user_stmts u i')) in skip else skip);;;
  if ai_cur i' =? 0 then ret (0, Ok tt)
  else ret (user_flags ut i' 0, Err (if locked i' then CKR_PIN_LOCKED else CKR_PIN_INCORRECT)).

(* StdStorageFormat::unauth_user, src/storage/format.rs:523-528. *)
Definition st_unauth_user (ut : N) : M token unit :=
  let! u := lift (get_pin_uid ut) in
  dbread (fun d => fetch_user d u);;;
  modify (fun t => set_key_ver None (t_ver t) t).
End storage.
