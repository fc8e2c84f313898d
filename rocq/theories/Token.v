(* The token: src/token.rs. *)
From Verif Require Import Base Monad Attr Obj Factory Tables Create Sqlite Storage.

Section token.
Context (P : params).

(* Token::is_initialized, src/token.rs:242-244. *)
Definition tk_initialized (t : token) : bool :=
  N.land (t_flags t) CKF_TOKEN_INITIALIZED =? CKF_TOKEN_INITIALIZED.

(* Token::is_logged_in, src/token.rs:323-330; with KRY_UNSPEC: anybody. *)
Definition logged_in (t : token) : bool := (t_logged t =? CKU_SO) || (t_logged t =? CKU_USER).

(* Token::fill_token_info, src/token.rs:222-228. *)
Definition fill_token_info (i : token_info) : token -> token :=
  set_info (N.lor (ti_flags i) CKF_RNG) (ti_label i) (ti_serial i).

(* Uuid::new_v8 and to_string of the uuid crate: version and variant bits, then lower case hexadecimal in groups of
   4, 2, 2, 2 and 6 bytes. *)
Definition hex_digit (n : N) : N := if n <? 10 then 0x30 + n else 0x57 + n.
Definition hex (b : bytes) : bytes := flat_map (fun x => [hex_digit (x / 16); hex_digit (x mod 16)]) b.
Definition uuid_v8 (b : bytes) : bytes :=
  match b with
  | [b0; b1; b2; b3; b4; b5; b6; b7; b8; b9; b10; b11; b12; b13; b14; b15] =>
    hex [b0; b1; b2; b3] ++ [0x2D] ++ hex [b4; b5] ++ [0x2D] ++ hex [0x80 + b6 mod 16; b7] ++ [0x2D]
    ++ hex [0x80 + b8 mod 64; b9] ++ [0x2D] ++ hex [b10; b11; b12; b13; b14; b15]
  | _ => []
  end.
(* Object::generate_stable_unique, src/object/mod.rs:142-162. *)
Definition stable_uid (class id : N) : bytes :=
  uuid_v8 ([107; 114; 121; 111; 112; 116; 105; 99] ++ be 4 (class mod 2 ^ 32) ++ be 4 (id mod 2 ^ 32)).

(* MechanismFactory::builtin_create, src/object/factory.rs:732-749. *)
Definition builtin_mech (m : N) : result object :=
  let? f := get_factory (p_fs P) (CKO_MECHANISM, 0) in
  let? o := internal_object_create f [ca CKA_MECHANISM_TYPE (le64 m)] 0 OA_RequiredOnCreate in
  Ok (generate_unique (stable_uid CKO_MECHANISM m) o).

(* Token::get_mechanisms and get_mechs_list, src/token.rs:505-528. *)
Definition mechanisms (t : token) : list (N * N) :=
  match t_filter t with Some l => l | None => p_mechs P end.

(* Token::insert_object, src/token.rs:572-594. *)
Definition insert_object (sh : N) (o : object) : M token N :=
  if is_token o then
    let! l := gets logged_in in
    ensure l CKR_USER_NOT_LOGGED_IN;;;
    st_store P o
  else
    let! h := h_fresh in
    let o' := set_session (set_handle o h) sh in
    let! uid := lift (get_string o' CKA_UNIQUE_ID) in
    h_insert h uid;;;
    modify (fun t => set_sobjs (<[h := o']> (t_sobjs t)) t);;;
    ret h.

(* Token::token_internal_objects_init, src/token.rs:182-218, without the fips and profiles features. *)
Fixpoint builtins (l : list (N * N)) : M token unit :=
  match l with
  | [] => skip
  | (m, _) :: r =>
    let! o := lift (builtin_mech m) in
    insert_object CK_INVALID_HANDLE o;;;
    builtins r
  end.
Definition internal_objects_init : M token unit :=
  let! l := gets mechanisms in builtins l.

(* Token::new, src/token.rs:124-177, on a database [d]; [fresh] random draws were made before. *)
Definition token_blank (d : db) (ios : list (option ioerr)) (fresh : N) : token :=
  Token CKF_RNG (repeat 0x20 32) (repeat 0x20 16) handles_new d None 0 ∅ KRY_UNSPEC None None ios fresh.
Definition token_new (d : db) (ios : list (option ioerr)) (fresh : N) : token * result unit :=
  (let! i := attempt (st_open) in
   (match i with
    | Ok i => modify (fill_token_info i)
    | Err e => if e =? CKR_CRYPTOKI_NOT_INITIALIZED then
                 modify (fun t => let t' := fill_token_info info_default t in
                                  set_flags (N.ldiff (t_flags t') CKF_TOKEN_INITIALIZED) t')
               else fail e
    end);;;
   internal_objects_init) (token_blank d ios fresh).

(* Token::update_auth_flags, src/token.rs:333-350. *)
Definition update_auth_flags (ut fl : N) (t : token) : token :=
  if ut =? CKU_USER then
    set_flags (N.lor (N.ldiff (t_flags t)
                 (N.lor CKF_USER_PIN_LOCKED (N.lor CKF_USER_PIN_FINAL_TRY CKF_USER_PIN_COUNT_LOW))) fl) t
  else if ut =? CKU_SO then
    set_flags (N.lor (N.ldiff (t_flags t)
                 (N.lor CKF_SO_PIN_LOCKED (N.lor CKF_SO_PIN_FINAL_TRY CKF_SO_PIN_COUNT_LOW))) fl) t
  else t.

(* Token::auth_user, src/token.rs:357-382. *)
Definition tk_auth_user (ut : N) (pin : bytes) (check_only : bool) : M token unit :=
  ensure ((ut =? CKU_SO) || (ut =? CKU_USER)) CKR_USER_TYPE_INVALID;;;
  let! r := attempt (st_auth_user P ut pin check_only) in
  let '(fl, res) := match r with Ok (fl, res) => (fl, res) | Err e => (0, Err e) end in
  modify (update_auth_flags ut fl);;;
  lift res;;;
  if check_only then skip else modify (set_logged ut).

(* Token::set_pin, src/token.rs:297-321. *)
Definition tk_set_pin (ut : N) (pin old : bytes) : M token unit :=
  let! logged := gets t_logged in
  let! u := (if ut =? CK_UNAVAILABLE_INFORMATION then ret logged
             else if ut =? CKU_USER then ret CKU_USER
             else if ut =? CKU_SO then ret CKU_SO
             else fail CKR_GENERAL_ERROR) in
  (if negb (blen old =? 0) then tk_auth_user u old true else skip);;;
  set_user_pin P u pin;;;
  if u =? CKU_USER then modify (fun t => set_flags (N.lor (t_flags t) CKF_USER_PIN_INITIALIZED) t) else skip.

(* Token::initialize, src/token.rs:250-290. *)
Definition tk_initialize (pin label : bytes) : M token unit :=
  let! init := gets tk_initialized in
  (if init then tk_auth_user CKU_SO pin true else skip);;;
  modify (set_handles handles_new);;;
  modify (set_sobjs ∅);;;
  modify (set_logged KRY_UNSPEC);;;
  let! i := st_reinit P in
  let! r := attempt (tk_set_pin CKU_SO pin []) in
  (match r with Ok _ => skip | Err e => if e =? CKR_USER_TYPE_INVALID then skip else fail e end);;;
  let i' := TokenInfo (copy_sized_string label (ti_label i)) (ti_serial i) (ti_flags i) in
  dbwrite (fun _ => Ok (store_info_stmts i'));;;
  modify (fill_token_info i');;;
  st_unauth_user CKU_SO;;;
  internal_objects_init.

(* Token::login, src/token.rs:390-408: returns the CK_RV. *)
Definition tk_login (ut : N) (pin : bytes) : M token unit :=
  let! logged := gets t_logged in
  if (ut =? CKU_SO) || (ut =? CKU_USER) then
    ensure (negb (ut =? logged)) CKR_USER_ALREADY_LOGGED_IN;;;
    ensure (logged =? KRY_UNSPEC) CKR_USER_ANOTHER_ALREADY_LOGGED_IN;;;
    tk_auth_user ut pin false
  else if ut =? CKU_CONTEXT_SPECIFIC then tk_auth_user logged pin true
  else fail CKR_USER_TYPE_INVALID.

(* Removing a set of session objects from the map and from the handle table. *)
Definition drop_objs (sel : N * object -> bool) (t : token) : token :=
  let hs := map fst (List.filter sel (map_to_list (t_sobjs t))) in
  set_handles (Handles (foldr delete (h_map (t_handles t)) hs) (h_next (t_handles t)))
    (set_sobjs (foldr delete (t_sobjs t) hs) t).
(* Token::clear_private_session_objects, src/token.rs:440-460. *)
Definition clear_private_session_objects : token -> token :=
  drop_objs (fun p => negb (o_session (snd p) =? CK_INVALID_HANDLE) && is_private (snd p)).
(* Token::clear_session_objects and drop_session_objects, src/token.rs:464-485 (the handle of the object is the key it
   is stored under). *)
Definition drop_session_objects (sh : N) : token -> token :=
  drop_objs (fun p => o_session (snd p) =? sh).

(* Token::logout, src/token.rs:414-428. *)
Definition tk_logout : M token unit :=
  let! logged := gets t_logged in
  if logged =? KRY_UNSPEC then fail CKR_USER_NOT_LOGGED_IN
  else if (logged =? CKU_SO) || (logged =? CKU_USER) then
    modify clear_private_session_objects;;;
    modify (set_logged KRY_UNSPEC);;;
    let! r := attempt (st_unauth_user logged) in
    match r with Ok _ => skip | Err _ => fail CKR_GENERAL_ERROR end
  else fail CKR_GENERAL_ERROR.

(* Token::save, src/token.rs:432-434 and SqliteStorage::flush, src/storage/sqlite.rs:427-429. *)
Definition tk_save : M token unit := skip.

(* A session object, or else the stored one. *)
Definition get_or_fetch (h : N) (attrs : list N) : M token object :=
  let! so := gets (fun t => t_sobjs t !! h) in
  match so with Some o => ret o | None => st_fetch P h attrs end.

(* Token::get_object_by_handle, src/token.rs:541-556. *)
Definition get_object_by_handle (h : N) : M token object :=
  let! o := get_or_fetch h [] in
  let! l := gets logged_in in
  ensure (l || negb (is_token o) || negb (is_private o)) CKR_USER_NOT_LOGGED_IN;;;
  ret o.

(* Token::_is_duplicate, src/token.rs:597-608. *)
Definition is_duplicate (tmpl : list ckattr) : M token (option N) :=
  let! r := st_search P tmpl in
  match r with [] => ret None | [h] => ret (Some h) | _ => fail CKR_GENERAL_ERROR end.
(* Token::_is_cert_obj_duplicate, src/token.rs:610-628. *)
Definition is_cert_dup (o : object) : M token (option N) :=
  match get_attr o CKA_ISSUER, get_attr o CKA_SERIAL_NUMBER with
  | Some i, Some s => is_duplicate [ca CKA_CLASS (le64 (o_class o)); ca CKA_ISSUER (a_val i); ca CKA_SERIAL_NUMBER (a_val s)]
  | _, _ => ret None
  end.
(* Token::_is_key_obj_duplicate, src/token.rs:631-649. *)
Definition is_key_dup (o : object) : M token (option N) :=
  match get_attr o CKA_ID, get_attr o CKA_KEY_TYPE with
  | Some i, Some k => is_duplicate [ca CKA_CLASS (le64 (o_class o)); ca CKA_ID (a_val i); ca CKA_KEY_TYPE (a_val k)]
  | _, _ => ret None
  end.

(* CkAttrs::remove_attr, src/attribute.rs:899-910: swap_remove moves the last entry to the hole. *)
Fixpoint swap_remove (l : list ckattr) (t : N) : list ckattr :=
  match l with
  | [] => []
  | c :: r => if ca_type c =? t then match rev r with [] => [] | x :: q => x :: rev q end
              else c :: swap_remove r t
  end.

(* Token::check_dedup, src/token.rs:658-714, with the nssdb feature. *)
Definition check_dedup (o : object) : M token (option N) :=
  let c := o_class o in
  let is_cert := c =? CKO_CERTIFICATE in
  let is_key := (c =? CKO_PUBLIC_KEY) || (c =? CKO_PRIVATE_KEY) || (c =? CKO_SECRET_KEY) in
  let is_trust := (c =? CKO_TRUST) || (c =? CKO_NSS_TRUST) in
  let! d := gets t_dedup in
  match d with
  | Some dd =>
    let! found := match dd with
                  | TrustOnly => if is_trust then is_cert_dup o else ret None
                  | TrustAndCertificates => if is_cert || is_trust then is_cert_dup o else ret None
                  | DedupAll => if is_cert || is_trust then is_cert_dup o
                                else if is_key then is_key_dup o else ret None
                  end in
    match found with
    | Some h =>
      let upd := swap_remove (map (fun a => ca (a_type a) (a_val a)) (o_attrs o)) CKA_UNIQUE_ID in
      st_update P h upd;;;
      ret (Some h)
    | None => ret None
    end
  | None =>
    if is_trust then
      let! found := is_cert_dup o in
      match found with Some _ => fail CKR_ATTRIBUTE_VALUE_INVALID | None => ret None end
    else ret None
  end.

(* A new UUID for an object about to be created. *)
Definition new_uid : M token bytes := let! r := draw in ret (p_uuid P r).

(* Token::create_object, src/token.rs:720-739. *)
Definition create_object (env : keyenv) (sh : N) (tmpl : list ckattr) : M token N :=
  let! uid := new_uid in
  let! o := lift (factories_create env uid (p_fs P) tmpl) in
  let! dup := (if is_token o then
                 let! l := gets logged_in in
                 ensure l CKR_USER_NOT_LOGGED_IN;;;
                 check_dedup o
               else ret None) in
  match dup with
  | Some h => ret h
  | None => insert_object sh o
  end.

(* Token::destroy_object, src/token.rs:745-775. *)
Definition destroy_object (h : N) : M token unit :=
  let! so := gets (fun t => t_sobjs t !! h) in
  (match so with
   | Some o =>
     ensure (is_destroyable o) CKR_ACTION_PROHIBITED;;;
     modify (fun t => set_sobjs (delete h (t_sobjs t)) t)
   | None =>
     let! o := st_fetch P h [CKA_DESTROYABLE] in
     ensure (is_destroyable o) CKR_ACTION_PROHIBITED;;;
     let! _ := attempt (st_remove h) in skip
   end);;;
  h_remove h.

(* Token::get_object_attrs, src/token.rs:781-813.  The template is an in/out argument: it is returned with the CK_RV. *)
Definition get_object_attrs (h : N) (tmpl : list qattr) : M token (list qattr * N) :=
  let! l := gets logged_in in
  let types := map q_type tmpl ++ (if l then [] else [CKA_TOKEN; CKA_PRIVATE]) in
  let! o := get_or_fetch h types in
  ensure (l || negb (is_token o) || negb (is_private o)) CKR_OBJECT_HANDLE_INVALID;;;
  ret (get_object_attributes (p_fs P) o tmpl).

(* Token::set_object_attrs, src/token.rs:821-858. *)
Definition set_object_attrs (h : N) (tmpl : list ckattr) : M token unit :=
  let! so := gets (fun t => t_sobjs t !! h) in
  match so with
  | Some o =>
    let! f := lift (get_object_factory (p_fs P) o) in
    let '(o', r) := set_object_attributes f o tmpl in
    modify (fun t => set_sobjs (<[h := o']> (t_sobjs t)) t);;;
    lift r
  | None =>
    let! l := gets logged_in in
    ensure l CKR_USER_NOT_LOGGED_IN;;;
    let! o := st_fetch P h [CKA_CLASS; CKA_KEY_TYPE; CKA_MODIFIABLE] in
    let! f := lift (get_object_factory (p_fs P) o) in
    ensure (is_modifiable o) CKR_ACTION_PROHIBITED;;;
    lift (check_set_attributes (f_attrs f) tmpl);;;
    st_update P h tmpl
  end.

(* Token::get_object_size, src/token.rs:863-873. *)
Definition get_object_size (h : N) : M token N :=
  let! o := get_or_fetch h [] in ret (rough_size o).

(* Token::copy_object, src/token.rs:880-900. *)
Definition copy_object (sh h : N) (tmpl : list ckattr) : M token N :=
  let! so := gets (fun t => t_sobjs t !! h) in
  let! o := match so with
            | Some o => ret o
            | None => let! o := st_fetch P h [] in
                      let! l := gets logged_in in
                      ensure (l || negb (is_private o)) CKR_USER_NOT_LOGGED_IN;;;
                      ret o
            end in
  let! uid := new_uid in
  let! n := lift (factories_copy uid (p_fs P) o tmpl) in
  insert_object sh n.

(* First loop of Token::search_objects, src/token.rs:917-927. *)
Definition search_session_objects (tmpl : list ckattr) (t : token) : list N :=
  map fst (List.filter (fun p => negb (is_sensitive (snd p) && negb (is_ok (check_sensitive (p_fs P) (snd p) tmpl)))
                            && match_template (snd p) tmpl) (map_to_list (t_sobjs t))).
(* Token::search_objects, src/token.rs:909-941. *)
Definition search_objects (tmpl : list ckattr) : M token (list N) :=
  let! hs := gets (search_session_objects tmpl) in
  let! l := gets logged_in in
  let tm := if l then tmpl else tmpl ++ [ca CKA_PRIVATE [0]] in
  let! st := st_search P tm in
  ret (hs ++ st).
End token.
