(* The NSS database backend: src/storage/nssdb/mod.rs and ci.rs (feature "nssdb").

   Simplifications, for the whole file.
   - An object is named by its table and number, as in the string "NSSID-<table>-<id>" (nss_id_format and nss_id_parse,
     mod.rs:88-116); the table of handles, which is the one of the other backend, is left out.
   - SQLite is a store of rows: a column that does not exist makes the statement fail, in an INSERT the leftmost of two
     equal columns counts, in an UPDATE the rightmost.  Transactions are atomic and input/output does not fail.
   - The ASN.1 encoding is a pair of functions, and only the algorithms written by this code are told apart (PBES2 with
     PBKDF2 and AES-256-CBC, PBMAC1 with PBKDF2 and HMAC-SHA256, key length 32).
   - Poisoned locks and read-only configurations are left out, as is the "fips" code. *)
From Verif Require Export Base Attr Obj Factory Monad Storage NssTable.

(* NSSEncryptedDataInfo, src/storage/nssdb/ci.rs:182-237. *)
Inductive info :=
  | IEnc (salt : bytes) (iter : N) (iv data : bytes)
  | IMac (salt : bytes) (iter : N) (sig : bytes)
  | IOther.

(* What the backend takes from the rest of the module and from its libraries: SHA-1, PBKDF2 (storage/aci.rs:28-62),
   AES-CBC with padding, HMAC-SHA256, the ASN.1 encoder and parser, the random generator, and the object factories. *)
Record nssp := Nssp {
  n_sha1 : bytes -> bytes;
  n_kdf : bytes -> bytes -> N -> bytes;
  n_enc : bytes -> bytes -> bytes -> bytes;
  n_dec : bytes -> bytes -> bytes -> result bytes;
  n_mac : bytes -> bytes -> bytes;
  n_der : info -> bytes;
  n_parse : bytes -> option info;
  n_rnd : N -> N -> bytes;
  n_fs : factories }.

(* A main table: the attribute columns in order (the first column, "id", is left out) and the rows; a column without a
   value is not in the row. *)
Record table := Table { tb_cols : list N; tb_rows : gmap N (gmap N bytes) }.

(* The two databases: nssPublic, nssPrivate and metaData.  The names of metaData are written as triples: (0, 0, 0) for
   "password", (1, id, typ) for "sig_cert_<id>_<typ>" and (2, id, typ) for "sig_key_<id>_<typ>" (mod.rs:830-842). *)
Record ndb := Ndb { n_pub : table; n_prv : table; n_meta : gmap (N * N * N) (bytes * bytes) }.

(* struct NSSStorage, mod.rs:169-183, with KeysWithCaching, ci.rs:59-66; [s_rn] counts the calls of the random
   generator.  A cached key is marked with what it was made for (CKK_AES or CKK_GENERIC_SECRET). *)
Record nss := NssS {
  s_db : ndb;
  s_cols : list N;
  s_key : option bytes;
  s_cache : gmap bytes (bool * bytes);
  s_rn : N }.

Definition set_db (d : ndb) (s : nss) : nss := NssS d (s_cols s) (s_key s) (s_cache s) (s_rn s).
Definition set_keys (k : option bytes) (s : nss) : nss := NssS (s_db s) (s_cols s) k (s_cache s) (s_rn s).
Definition set_cache (c : gmap bytes (bool * bytes)) (s : nss) : nss :=
  NssS (s_db s) (s_cols s) (s_key s) c (s_rn s).

(* NSS_SPECIAL_NULL_VALUE, mod.rs:67; NSS_PIN_MAX and NSS_PIN_SALT_LEN, 73-75; NSS_PASS_CHECK, 156;
   CKP_MAX_IDENTIFIER, 85; NSS_MP_PBE_ITERATION_COUNT, ci.rs:175; MAX_KEY_CACHE_SIZE, ci.rs:25. *)
Definition special_null : bytes := [0xa5; 0; 0x5a].
Definition pin_max : N := 500.
Definition pin_salt_len : N := 20.
Definition pass_check : bytes := [112; 97; 115; 115; 119; 111; 114; 100; 45; 99; 104; 101; 99; 107].
Definition ckp_max : N := 0x8F.
Definition pbe_iterations : N := 10000.
Definition max_cache : nat := 128.

(* get_attr_info and the tests built on it, attrs.rs:371-406. *)
Fixpoint attr_info (l : list (N * nclass)) (t : N) : option nclass :=
  match l with
  | [] => None
  | (t', c) :: r => if t' =? t then Some c else attr_info r t
  end.
Definition info_is (f : nclass -> bool) (t : N) : bool :=
  match attr_info all_attributes t with Some c => f c | None => false end.
Definition ignore_attribute : N -> bool := info_is (fun c => nc_masked c || nc_deprecated c).
Definition is_sensitive_attribute : N -> bool := info_is nc_sensitive.
Definition is_db_attribute : N -> bool := info_is (fun _ => true).
Definition is_skippable_attribute : N -> bool := info_is nc_skippable.
(* ALL_ATTRIBUTES.iter().filter(..), as in mod.rs:1168 *)
Definition attrs_with (f : nclass -> bool) : list N :=
  map fst (List.filter (fun p => f (snd p)) all_attributes).
(* The columns of a new table, new_main_tables, mod.rs:262-266. *)
Definition table_columns : list N := attrs_with (fun c => negb (nc_skippable c) && negb (nc_deprecated c)).

(* num_to_val, mod.rs:136-153; a failing u32::try_from is CKR_GENERAL_ERROR (src/error.rs:217-222). *)
Definition num_to_val (x : N) : result bytes :=
  if x =? CK_UNAVAILABLE_INFORMATION then Ok (be 4 0xFFFFFFFF)
  else if x <? 2 ^ 32 then Ok (be 4 x) else Err CKR_GENERAL_ERROR.

(* cka_parameter_set_fixup, mod.rs:456-490. *)
Definition parameter_set_fixup (b : bytes) : result N :=
  if (blen b =? 4) && (unbe b <? ckp_max) then Ok (unbe b)
  else if (blen b =? 4) && (unle b <? ckp_max) then Ok (unle b)
  else if (blen b =? 8) && (unle b <? ckp_max) then Ok (unle b)
  else if (blen b =? 8) && (unbe b <? ckp_max) then Ok (unbe b)
  else Err CKR_ATTRIBUTE_VALUE_INVALID.

(* The value of one column as an attribute: the body of the loop of rows_to_object, mod.rs:530-578. *)
Definition cell_attr (t : N) (b : bytes) : result attr :=
  match search_by_id t with
  | None => Err CKR_ATTRIBUTE_TYPE_INVALID
  | Some KNum =>
    let? x := (if t =? CKA_PARAMETER_SET then parameter_set_fixup b
               else if blen b =? 4 then Ok (unbe b) else Err CKR_ATTRIBUTE_VALUE_INVALID) in
    Ok (from_ulong t x)
  | Some KIgnore => Ok (Attr t KIgnore [])
  | Some KDeny | Some KUlongArray => Err CKR_ATTRIBUTE_TYPE_INVALID
  | Some k => Ok (Attr t k (if bytes_eqb b special_null then [] else b))
  end.

(* One attribute as the value of a column: store_object, mod.rs:943-954 and store_attributes, 1014-1025. *)
Definition attr_cell (a : attr) : result bytes :=
  match a_val a with
  | [] => Ok special_null
  | _ => match a_kind a with
         | KNum => let? x := attr_to_ulong a in num_to_val x
         | KDeny | KIgnore => Ok special_null
         | _ => Ok (a_val a)
         end
  end.

(* rows_to_object, mod.rs:503-585, of at most one row.  [cells] are the types asked for with the values found; a
   position outside of the row is an error. *)
Fixpoint cells_to_object (cells : list (N * result (option bytes))) (o : object) : result object :=
  match cells with
  | [] => Ok o
  | (t, c) :: r =>
    if ignore_attribute t then cells_to_object r o
    else let? v := c in
         match v with
         | None => cells_to_object r o
         | Some b => let? a := cell_attr t b in
                     let? o' := set_attr o a in
                     cells_to_object r o'
         end
  end.
Definition no_object : object := obj_new CK_UNAVAILABLE_INFORMATION.
Definition row_object (cells : list (N * result (option bytes))) : result object :=
  let? o := cells_to_object cells no_object in
  if o_class o =? CK_UNAVAILABLE_INFORMATION then Err CKR_GENERAL_ERROR else Ok o.

(* The cells of a row: with no list of types, all the columns of the table in their order, under the types remembered
   in self.cols (mod.rs:510-518, 528). *)
Definition star_cells (cols : list N) (tb : table) (row : gmap N bytes) : list (N * result (option bytes)) :=
  imap (fun i t => (t, match tb_cols tb !! i with Some c => Ok (row !! c) | None => Err CKR_GENERAL_ERROR end)) cols.
Definition named_cells (types : list N) (row : gmap N bytes) : list (N * result (option bytes)) :=
  map (fun t => (t, Ok (row !! t))) types.

(* prepare_fetch and fetch_by_nssid, mod.rs:589-651.  The private table is [true]. *)
Definition main_table (prv : bool) (d : ndb) : table := if prv then n_prv d else n_pub d.
Definition fetch_by_nssid (s : nss) (prv : bool) (id : N) (types : list N) : result object :=
  let tb := main_table prv (s_db s) in
  if forallb (fun t => bool_decide (t ∈ tb_cols tb)) types then
    match tb_rows tb !! id with
    | None => Ok no_object
    | Some row => row_object (match types with [] => star_cells (s_cols s) tb row | _ => named_cells types row end)
    end
  else Err CKR_GENERAL_ERROR.

Section Nss.
  Context (C : nssp).

  (* generate_random of the given length. *)
  Definition random (len : N) : M nss bytes :=
    fun s => (NssS (s_db s) (s_cols s) (s_key s) (s_cache s) (s_rn s + 1), Ok (n_rnd C (s_rn s) len)).

  (* get_cached_key, ci.rs:130-146 with LockedKey::get_key, 53-55: nothing while no key is set. *)
  Definition cached (s : nss) (id : bytes) : option (bool * bytes) :=
    match s_key s with Some _ => s_cache s !! id | None => None end.

  (* pop_last of the BTreeMap: the entry with the greatest name. *)
  Fixpoint bytes_leb (a b : bytes) : bool :=
    match a, b with
    | [], _ => true
    | _ :: _, [] => false
    | x :: a', y :: b' => (x <? y) || ((x =? y) && bytes_leb a' b')
    end.
  Definition last_name (c : gmap bytes (bool * bytes)) : option bytes :=
    foldr (fun p m => match m with
                      | Some k => if bytes_leb (fst p) k then Some k else Some (fst p)
                      | None => Some (fst p)
                      end) None (map_to_list c).
  (* set_cached_key, ci.rs:153-164 *)
  Definition cache_add (id : bytes) (k : bool * bytes) (c : gmap bytes (bool * bytes)) : gmap bytes (bool * bytes) :=
    <[id := k]> (if Nat.ltb max_cache (size c)
                 then match last_name c with Some n => delete n c | None => c end else c).
  (* invalidate_cached_key, ci.rs:168-178 *)
  Definition forget (id : bytes) : M nss unit := modify (fun s => set_cache (delete id (s_cache s)) s).

  (* derive_key_internal, ci.rs:322-386; [sg] for KeyOp::Signature. *)
  Definition derive_key (sg : bool) (salt : bytes) (iter : N) : M nss (bool * bytes) :=
    ensure (blen salt =? 32) CKR_GENERAL_ERROR;;;
    let! c := gets (fun s => cached s salt) in
    match c with
    | Some k => ret k
    | None =>
      let! e := gets s_key in
      match e with
      | None => fail CKR_USER_NOT_LOGGED_IN
      | Some key =>
        let k := (sg, n_kdf C key salt iter) in
        modify (fun s => set_cache (cache_add salt k (s_cache s)) s);;;
        ret k
      end
    end.

  (* aes_cbc_decrypt, ci.rs:241-276: an IV of 14 bytes gets back the two bytes that look like a header.  A key that is
     not an AES key is refused (the code of the error is a simplification). *)
  Definition full_iv (iv : bytes) : option bytes :=
    if blen iv =? 14 then Some ([4; 14] ++ iv) else if blen iv =? 16 then Some iv else None.
  Definition aes_cbc_decrypt (k : bool * bytes) (iv data : bytes) : result bytes :=
    match full_iv iv with
    | None => Err CKR_ARGUMENTS_BAD
    | Some v => if fst k then Err CKR_KEY_TYPE_INCONSISTENT else n_dec C (snd k) v data
    end.

  (* decrypt_data, ci.rs:403-440 *)
  Definition decrypt_data (data : bytes) : M nss bytes :=
    match n_parse C data with
    | None => fail CKR_DATA_INVALID
    | Some (IEnc salt iter iv d) =>
      let! k := derive_key false salt iter in
      let r := aes_cbc_decrypt k iv d in
      (match r with Ok _ => skip | Err _ => forget salt end);;;
      lift r
    | Some _ => fail CKR_MECHANISM_INVALID
    end.

  (* encrypt_data, ci.rs:448-506 with aes_cbc_encrypt, 280-311. *)
  Definition encrypt_data (iter : N) (data : bytes) : M nss bytes :=
    let! salt := random 32 in
    let! k := derive_key false salt iter in
    let! iv := random 14 in
    if fst k then forget salt;;; fail CKR_KEY_TYPE_INCONSISTENT
    else ret (n_der C (IEnc salt iter iv (n_enc C (snd k) ([4; 14] ++ iv) data))).

  (* The message of a signature: hmac_sign and hmac_verify, ci.rs:512-536 and 620-642. *)
  Definition mac_text (id typ : N) (v : bytes) : bytes := be 4 id ++ be 4 typ ++ v.
  (* hmac_verify with CKM_SHA256_HMAC_GENERAL (src/hmac.rs:43-53 and 213-230): as many bytes are compared as the
     signature has, one at least and 32 at most. *)
  Definition hmac_verify (k : bool * bytes) (id typ : N) (v sig : bytes) : result unit :=
    if negb (fst k) then Err CKR_KEY_TYPE_INCONSISTENT
    else if (blen sig =? 0) || (32 <? blen sig) then Err CKR_MECHANISM_PARAM_INVALID
    else if bytes_eqb sig (take (length sig) (n_mac C (snd k) (mac_text id typ v))) then Ok tt
    else Err CKR_SIGNATURE_INVALID.

  (* check_signature, ci.rs:544-592 *)
  Definition check_signature (v sig : bytes) (id typ : N) : M nss unit :=
    match n_parse C sig with
    | None => fail CKR_DATA_INVALID
    | Some (IMac salt iter d) =>
      let! k := derive_key true salt iter in
      let r := hmac_verify k id typ v d in
      (match r with Ok _ => skip | Err _ => forget salt end);;;
      lift r
    | Some _ => fail CKR_MECHANISM_INVALID
    end.

  (* make_signature, ci.rs:650-710 *)
  Definition make_signature (v : bytes) (id typ : N) (iter : N) : M nss bytes :=
    let! salt := random 32 in
    let! k := derive_key true salt iter in
    if negb (fst k) then forget salt;;; fail CKR_KEY_TYPE_INCONSISTENT
    else ret (n_der C (IMac salt iter (n_mac C (snd k) (mac_text id typ v)))).

  (* enckey_derive, ci.rs:597-613 *)
  Definition enckey (pin salt : bytes) : bytes := n_sha1 C (salt ++ pin).

  (* The loops over a list of attribute types. *)
  Fixpoint for_types {A} (l : list N) (f : N -> A -> M nss A) (a : A) : M nss A :=
    match l with
    | [] => ret a
    | t :: r => let! a' := f t a in for_types r f a'
    end.

  (* fetch, mod.rs:1118-1219.  [types] are the types of the attributes asked for.  Removing an entry from the list
     keeps the order of the others (swap_remove does not; the order of the attributes is not observable). *)
  Definition add_missing (t : N) (l : list N) : list N := if bool_decide (t ∈ l) then l else l ++ [t].
  Fixpoint remove_first (t : N) (l : list N) : list N :=
    match l with [] => [] | x :: r => if x =? t then r else x :: remove_first t r end.
  Definition query_types (types : list N) : list N :=
    match types with
    | [] => []
    | _ =>
      let l := add_missing CKA_SENSITIVE (add_missing CKA_EXTRACTABLE (add_missing CKA_CERTIFICATE_TYPE
                 (add_missing CKA_KEY_TYPE (add_missing CKA_CLASS types)))) in
      let l := foldl (fun l t => remove_first t l) l (attrs_with nc_skippable) in
      foldl (fun l t => if is_db_attribute t then l else remove_first t l) l types
    end.
  Definition sig_name (prv : bool) (id typ : N) : N * N * N := (if prv then 2 else 1, id, typ).
  Definition open_attr (t : N) (o : object) : M nss object :=
    match get_attr o t with
    | None => ret o
    | Some a => let! plain := decrypt_data (a_val a) in lift (set_attr o (from_bytes t plain))
    end.
  Definition check_attr (prv : bool) (id : N) (t : N) (o : object) : M nss object :=
    match get_attr o t with
    | None => ret o
    | Some a =>
      let! d := gets s_db in
      match n_meta d !! sig_name prv id t with
      | None => fail CKR_OBJECT_HANDLE_INVALID
      | Some (sig, _) => check_signature (a_val a) sig id t;;; ret o
      end
    end.
  (* set_attribute_default, src/object/factory.rs:383-398 *)
  Definition set_attribute_default (f : factory) (t : N) (o : object) : result object :=
    match find_oa (f_attrs f) t with
    | Some x => if has_default x then set_attr o (oa_attr x) else Ok o
    | None => Ok o
    end.
  (* The attributes that are not in the database are added with the default the factory gives (mod.rs:1203-1213). *)
  Definition add_default (types : list N) (t : N) (o : object) : M nss object :=
    let! f := lift (get_object_factory (n_fs C) o) in
    if bool_decide (t ∈ types) then lift (set_attribute_default f t o) else ret o.
  Definition fetch (prv : bool) (id : N) (types : list N) : M nss object :=
    let! o := (fun s => (s, fetch_by_nssid s prv id (query_types types))) in
    let! k := gets s_key in
    let! o := (match k with
               | None => ret o
               | Some _ =>
                 let! o := (if prv then for_types (attrs_with nc_sensitive) open_attr o else ret o) in
                 for_types (attrs_with nc_authenticated) (check_attr prv id) o
               end) in
    for_types (attrs_with nc_skippable) (add_default types) o.

  (* get_next_id, mod.rs:871-912.  The search for a free number starts from 1; [fuel] is the number of numbers
     to try. *)
  Definition max_id (rows : gmap N (gmap N bytes)) : N := foldr N.max 0 (map fst (map_to_list rows)).
  Fixpoint free_id (rows : gmap N (gmap N bytes)) (fuel : nat) (id : N) : result N :=
    match fuel with
    | O => Err CKR_OBJECT_HANDLE_INVALID
    | S n => match rows !! id with
             | None => if 0x3fffffff <? id then Err CKR_OBJECT_HANDLE_INVALID else Ok id
             | Some _ => if id <? 0x3fffffff then free_id rows n (id + 1) else Err CKR_OBJECT_HANDLE_INVALID
             end
    end.
  Definition next_id (rows : gmap N (gmap N bytes)) : result N :=
    if (0 <? max_id rows) && (max_id rows <? 0x3fffffff) then Ok (max_id rows + 1)
    else free_id rows (S (size rows)) 1.

  (* The columns of an INSERT or UPDATE: store_object, mod.rs:930-955 and store_attributes, 1001-1026. *)
  Fixpoint columns (l : list attr) : result (list (N * bytes)) :=
    match l with
    | [] => Ok []
    | a :: r =>
      if is_skippable_attribute (a_type a) then columns r
      else if negb (is_db_attribute (a_type a)) then Err CKR_ATTRIBUTE_TYPE_INVALID
      else let? b := attr_cell a in
           let? k := columns r in
           Ok ((a_type a, b) :: k)
    end.
  Definition known_columns (tb : table) (l : list (N * bytes)) : bool :=
    forallb (fun p => bool_decide (fst p ∈ tb_cols tb)) l.
  (* the leftmost value counts *)
  Definition insert_row (l : list (N * bytes)) : gmap N bytes := foldr (fun p m => <[fst p := snd p]> m) ∅ l.
  (* the rightmost value counts *)
  Definition update_row (l : list (N * bytes)) (row : gmap N bytes) : gmap N bytes :=
    foldl (fun m p => <[fst p := snd p]> m) row l.
  Definition set_rows (prv : bool) (f : gmap N (gmap N bytes) -> gmap N (gmap N bytes)) (d : ndb) : ndb :=
    if prv then Ndb (n_pub d) (Table (tb_cols (n_prv d)) (f (tb_rows (n_prv d)))) (n_meta d)
    else Ndb (Table (tb_cols (n_pub d)) (f (tb_rows (n_pub d)))) (n_prv d) (n_meta d).
  Definition set_meta (f : gmap (N * N * N) (bytes * bytes) -> gmap (N * N * N) (bytes * bytes)) (d : ndb) : ndb :=
    Ndb (n_pub d) (n_prv d) (f (n_meta d)).
  Definition store_object (d : ndb) (prv : bool) (o : object) : result (N * ndb) :=
    let tb := main_table prv d in
    let? id := next_id (tb_rows tb) in
    let? l := columns (o_attrs o) in
    if known_columns tb l then Ok (id, set_rows prv (fun rows => <[id := insert_row l]> rows) d)
    else Err CKR_GENERAL_ERROR.
  Definition store_attributes (d : ndb) (prv : bool) (id : N) (l : list attr) : result ndb :=
    let tb := main_table prv d in
    let? l := columns l in
    match l with
    | [] => Err CKR_GENERAL_ERROR
    | _ => if known_columns tb l then Ok (set_rows prv (alter (update_row l) id) d) else Err CKR_GENERAL_ERROR
    end.

  (* The table an object belongs to: store, mod.rs:1232-1238 *)
  Definition class_table (class : N) : option bool :=
    if (class =? CKO_PRIVATE_KEY) || (class =? CKO_SECRET_KEY) then Some true
    else if (class =? CKO_PUBLIC_KEY) || (class =? CKO_CERTIFICATE) || (class =? CKO_TRUST)
            || (class =? CKO_NSS_TRUST) then Some false
    else None.

  Definition seal_attr (t : N) (o : object) : M nss object :=
    match get_attr o t with
    | None => ret o
    | Some a => let! c := encrypt_data pbe_iterations (a_val a) in lift (set_attr o (from_bytes t c))
    end.
  (* store_signature within the transaction [d], mod.rs:974-984 *)
  Definition sign_value (prv : bool) (id : N) (v : option bytes) (t : N) (d : ndb) : M nss ndb :=
    match v with
    | None => ret d
    | Some b =>
      let! sig := make_signature b id t pbe_iterations in
      ret (set_meta (fun m => <[sig_name prv id t := (sig, [])]> m) d)
    end.
  (* store, mod.rs:1227-1311: the table and number of the new object *)
  Definition store (o : object) : M nss (bool * N) :=
    let! class := lift (get_ulong o CKA_CLASS) in
    match class_table class with
    | None => fail CKR_ATTRIBUTE_VALUE_INVALID
    | Some prv =>
      let! k := gets s_key in
      ensure (match k with Some _ => true | None => false end) CKR_USER_NOT_LOGGED_IN;;;
      let! f := lift (get_object_factory (n_fs C) o) in
      let o := foldl del_attr o (f_ephemeral f) in
      let! o := (if prv then for_types (attrs_with nc_sensitive) seal_attr o else ret o) in
      let! d := gets s_db in
      let! (id, d) := lift (store_object d prv o) in
      let! d := for_types (attrs_with nc_authenticated)
                  (fun t => sign_value prv id (a_val <$> get_attr o t) t) d in
      modify (set_db d);;;
      ret (prv, id)
    end.

  (* insert_unique_vec, src/attribute.rs:948-960 *)
  Fixpoint put_value (l : list ckattr) (t : N) (v : bytes) : list ckattr :=
    match l with
    | [] => [ca t v]
    | c :: r => if ca_type c =? t then ca t v :: r else c :: put_value r t v
    end.
  Fixpoint find_value (l : list ckattr) (t : N) : option bytes :=
    match l with
    | [] => None
    | c :: r => if ca_type c =? t then Some (ck_to_buf c) else find_value r t
    end.
  Definition seal_value (t : N) (l : list ckattr) : M nss (list ckattr) :=
    match find_value l t with
    | None => ret l
    | Some v => let! c := encrypt_data pbe_iterations v in ret (put_value l t c)
    end.
  Fixpoint from_all (l : list ckattr) : result (list attr) :=
    match l with
    | [] => Ok []
    | c :: r => let? a := from_ck_attr c in let? k := from_all r in Ok (a :: k)
    end.
  (* update, mod.rs:1318-1396.  Simplification: the attributes are all converted before any is looked at. *)
  Definition update (prv : bool) (id : N) (tmpl : list ckattr) : M nss unit :=
    let! k := gets s_key in
    ensure (match k with Some _ => true | None => false end) CKR_USER_NOT_LOGGED_IN;;;
    let! l := (if prv then for_types (attrs_with nc_sensitive) seal_value tmpl else ret tmpl) in
    let! d := gets s_db in
    let! attrs := lift (from_all l) in
    let! d := lift (store_attributes d prv id attrs) in
    let! d := for_types (attrs_with nc_authenticated) (fun t => sign_value prv id (find_value l t) t) d in
    modify (set_db d).

  (* fetch_password, mod.rs:818-826 *)
  Definition fetch_password (d : ndb) : result (bytes * bytes) :=
    match n_meta d !! (0, 0, 0) with Some p => Ok p | None => Err CKR_USER_PIN_NOT_INITIALIZED end.

  (* auth_user, mod.rs:1464-1531 *)
  Definition auth_user (ut : N) (pin : bytes) (check_only : bool) : M nss unit :=
    let! d := gets s_db in
    if ut =? CKU_SO then
      match fetch_password d with
      | Ok _ => fail CKR_USER_TYPE_INVALID
      | Err e => if e =? CKR_USER_PIN_NOT_INITIALIZED then skip else fail e
      end
    else if negb (ut =? CKU_USER) then fail CKR_USER_TYPE_INVALID
    else
      let! (salt, data) := lift (fetch_password d) in
      let key := enckey pin salt in
      let! old := gets s_key in
      if bool_decide (old = Some key) then skip
      else
        modify (set_keys (Some key));;;
        let! r := attempt (decrypt_data data) in
        let res := match r with
                     | Ok plain => if bytes_eqb plain pass_check then Ok tt else Err CKR_PIN_INCORRECT
                     | Err e => Err e
                     end in
        match res with
        | Err e => modify (set_keys None);;; fail e
        | Ok _ =>
          if check_only && match old with None => true | Some _ => false end then modify (set_keys None) else skip
        end.

  (* unauth_user, mod.rs:1534-1536 with unset_key, ci.rs:117-122 *)
  Definition unauth_user : M nss unit := modify (set_keys None).

  (* set_user_pin, mod.rs:1544-1591: the keys are replaced by new ones, in which the key of the password entry is
     cached. *)
  Definition set_user_pin (ut : N) (pin : bytes) : M nss unit :=
    ensure (ut =? CKU_USER) CKR_USER_TYPE_INVALID;;;
    ensure (blen pin <=? pin_max) CKR_PIN_LEN_RANGE;;;
    let! salt := random pin_salt_len in
    let! old := gets (fun s => (s_key s, s_cache s)) in
    modify (fun s => set_cache ∅ (set_keys (Some (enckey pin salt)) s));;;
    let! r := attempt (encrypt_data (if blen pin =? 0 then 1 else pbe_iterations) pass_check) in
    match r with
    | Err e => modify (fun s => set_cache (snd old) (set_keys (fst old) s));;; fail e
    | Ok data =>
      modify (set_keys None);;;
      modify (fun s => set_db (set_meta (fun m => <[(0, 0, 0) := (salt, data)]> m) (s_db s)) s)
    end.

  (* check_columns, mod.rs:400-445: missing columns are added, and remembered once more. *)
  Definition missing (tb : table) : list N := List.filter (fun t => negb (bool_decide (t ∈ tb_cols tb))) table_columns.
  Definition check_columns (cols : list N) (tb : table) : list N * table :=
    let cols := match cols with [] => tb_cols tb | _ => cols end in
    (cols ++ missing tb, Table (tb_cols tb ++ missing tb) (tb_rows tb)).
  (* open, mod.rs:1048-1095, of existing databases by a new process *)
  Definition open_db (d : ndb) (rn : N) : nss :=
    let '(cols, pub) := check_columns [] (n_pub d) in
    let '(cols, prv) := check_columns cols (n_prv d) in
    NssS (Ndb pub prv (n_meta d)) cols None ∅ rn.
  (* reinit, mod.rs:1099-1106 with initialize, 324-375 *)
  Definition new_db : ndb := Ndb (Table table_columns ∅) (Table table_columns ∅) ∅.
  Definition reinit : M nss unit :=
    modify (fun s =>
      let '(cols, pub) := check_columns (s_cols s) (n_pub new_db) in
      let '(cols, prv) := check_columns cols (n_prv new_db) in
      NssS (Ndb pub prv ∅) cols None ∅ (s_rn s)).

  (* prepare_search, mod.rs:663-745.  The result: which of the two tables to search (public, private), and the values
     to compare the columns with. *)
  Fixpoint search_tables (l : list ckattr) (pub prv : bool) : result (option (bool * bool)) :=
    match l with
    | [] => Ok (Some (pub, prv))
    | c :: r =>
      let? next := (if ca_type c =? CKA_CLASS then
                      match ca_ptr c with
                      | None => Ok (Some (pub, prv))
                      | Some _ =>
                        let? x := ck_to_ulong c in
                        match class_table x with
                        | Some true => Ok (Some (false, prv))
                        | Some false => Ok (Some (pub, false))
                        | None => Ok None
                        end
                      end
                    else Ok (Some (pub, prv))) in
      match next with
      | None => Ok None
      | Some (pub, prv) =>
        if prv && is_sensitive_attribute (ca_type c) then Err CKR_ATTRIBUTE_SENSITIVE else search_tables r pub prv
      end
    end.
  Definition search_value (c : ckattr) : result bytes :=
    match search_by_id (ca_type c) with
    | None => Err CKR_ATTRIBUTE_TYPE_INVALID
    | Some k =>
      if 2 ^ 32 <=? ca_type c then Err CKR_GENERAL_ERROR
      else if ca_len c =? 0 then Ok special_null
      else match k with
           | KNum => let? x := ck_to_ulong c in num_to_val x
           | _ => Ok (ck_to_buf c)
           end
    end.
  Fixpoint search_values (l : list ckattr) : result (list (N * bytes)) :=
    match l with
    | [] => Ok []
    | c :: r => let? v := search_value c in let? k := search_values r in Ok ((ca_type c, v) :: k)
    end.
  (* search_with_params, mod.rs:749-764; a comparison with NULL does not hold *)
  Definition row_matches (q : list (N * bytes)) (row : gmap N bytes) : bool :=
    forallb (fun p => bool_decide (row !! fst p = Some (snd p))) q.
  Definition search_table (tb : table) (q : list (N * bytes)) : result (list N) :=
    if known_columns tb q
    then Ok (map fst (List.filter (fun p => row_matches q (snd p)) (map_to_list (tb_rows tb))))
    else Err CKR_GENERAL_ERROR.
  (* search_databases, mod.rs:767-796: tables and numbers of the objects found *)
  Definition search (d : ndb) (tmpl : list ckattr) : result (list (bool * N)) :=
    let? t := search_tables tmpl true true in
    match t with
    | None => Ok []
    | Some (pub, prv) =>
      let? q := search_values tmpl in
      let? a := (if pub then search_table (n_pub d) q else Ok []) in
      let? b := (if prv then search_table (n_prv d) q else Ok []) in
      Ok (map (pair false) a ++ map (pair true) b)
    end.
End Nss.

(* The calls an application makes on a token kept in an NSS database, as the token layer passes them to the backend
   (src/token.rs, modelled in Token.v).  [k_logged] is Token::logged (token.rs:141).  Simplifications: objects are named
   by table and number; what the factories check before an object is stored or changed is left out, so the objects and
   templates range over more than an application can send. *)
Record ntok := Ntok { k_nss : nss; k_logged : N }.
Inductive ncall :=
  | NLogin (ut : N) (pin : bytes)
  | NLogout
  | NInitPin (pin : bytes)
  | NSetPin (old new : bytes)
  | NCreate (o : object)
  | NRead (prv : bool) (id : N) (types : list N)
  | NModify (prv : bool) (id : N) (tmpl : list ckattr)
  | NSearch (tmpl : list ckattr)
  | NRestart.
Inductive nout := ODone | OObject (o : object) | ONew (prv : bool) (id : N) | OFound (l : list (bool * N)).

Section Calls.
  Context (C : nssp).
  Definition back {A} (m : M nss A) : M ntok A :=
    fun t => let '(s, r) := m (k_nss t) in (Ntok s (k_logged t), r).
  Definition set_logged (u : N) (t : ntok) : ntok := Ntok (k_nss t) u.
  Definition any_logged (t : ntok) : bool := negb (k_logged t =? KRY_UNSPEC).

  (* Token::login, src/token.rs:390-408 with auth_user, 233-247 *)
  Definition nlogin (ut : N) (pin : bytes) : M ntok unit :=
    let! logged := gets k_logged in
    ensure ((ut =? CKU_SO) || (ut =? CKU_USER)) CKR_USER_TYPE_INVALID;;;
    ensure (negb (ut =? logged)) CKR_USER_ALREADY_LOGGED_IN;;;
    ensure (logged =? KRY_UNSPEC) CKR_USER_ANOTHER_ALREADY_LOGGED_IN;;;
    back (auth_user C ut pin false);;;
    modify (set_logged ut).
  (* Token::logout, src/token.rs:414-428 *)
  Definition nlogout : M ntok unit :=
    let! l := gets any_logged in
    ensure l CKR_USER_NOT_LOGGED_IN;;;
    modify (set_logged KRY_UNSPEC);;;
    back unauth_user.
  (* Token::set_pin, src/token.rs:297-321, from C_SetPIN: set_pin, src/fns/stmgmt.rs:332-395.  A session that is not
     logged in is logged in with the old PIN first, and logged out at the end. *)
  Definition nset_pin (old new : bytes) : M ntok unit :=
    ensure (negb ((blen old =? 0) || (blen new =? 0))) CKR_PIN_INVALID;;;
    let! was := gets any_logged in
    (if was then skip else nlogin CKU_USER old);;;
    let! u := gets k_logged in
    let! r := attempt (back (auth_user C u old true;;; set_user_pin C u new)) in
    (if was then skip else let! _ := attempt nlogout in skip);;;
    lift r.
  (* C_InitPIN: init_pin, src/fns/stmgmt.rs:285-330 *)
  Definition ninit_pin (pin : bytes) : M ntok unit :=
    let! u := gets k_logged in
    ensure (u =? CKU_SO) CKR_USER_NOT_LOGGED_IN;;;
    back (set_user_pin C CKU_USER pin).
  (* Token::insert_object for a token object, src/token.rs:572-594 *)
  Definition ncreate (o : object) : M ntok (bool * N) :=
    let! l := gets any_logged in
    ensure l CKR_USER_NOT_LOGGED_IN;;;
    back (store C o).
  (* Token::get_object_by_handle, src/token.rs:541-556 *)
  Definition nread (prv : bool) (id : N) (types : list N) : M ntok object :=
    let! o := back (fetch C prv id types) in
    let! l := gets any_logged in
    ensure (l || negb (is_token o) || negb (is_private o)) CKR_USER_NOT_LOGGED_IN;;;
    ret o.

  Definition ncall_run (c : ncall) : M ntok nout :=
    match c with
    | NLogin ut pin => nlogin ut pin;;; ret ODone
    | NLogout => nlogout;;; ret ODone
    | NInitPin pin => ninit_pin pin;;; ret ODone
    | NSetPin old new => nset_pin old new;;; ret ODone
    | NCreate o => let! (prv, id) := ncreate o in ret (ONew prv id)
    | NRead prv id types => let! o := nread prv id types in ret (OObject o)
    | NModify prv id tmpl => back (update C prv id tmpl);;; ret ODone
    | NSearch tmpl => let! l := (fun t => (t, search (s_db (k_nss t)) tmpl)) in ret (OFound l)
    | NRestart => fun t => (Ntok (open_db (s_db (k_nss t)) (s_rn (k_nss t))) KRY_UNSPEC, Ok ODone)
    end.
  Fixpoint nrun (t : ntok) (l : list ncall) : ntok :=
    match l with
    | [] => t
    | c :: r => nrun (fst (ncall_run c t)) r
    end.
  Definition started (d : ndb) (rn : N) : ntok := Ntok (open_db d rn) KRY_UNSPEC.
End Calls.
