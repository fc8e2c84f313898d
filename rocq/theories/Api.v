(* The PKCS#11 entry points: src/fns/*.rs. *)
From stdpp Require Import sorting.
From Verif Require Import Base Monad Attr Obj Factory Tables Create Sqlite Storage Token Backend State.

(* What a call writes to the caller's memory. *)
Inductive out :=
| ONone
| OHandle (h : N)
| OHandles (l : list N)
| OLen (n : N)                      (* only the length variable is written *)
| OBuf (b : bytes) (n : N)          (* b written to the output buffer, the length variable set to n *)
| OBufOnly (b : bytes)              (* b written to the output buffer, the length variable untouched *)
| OBufHandle (b : bytes) (n h : N)
| OList (l : list N) (n : N)        (* a list of identifiers and the count variable *)
| OAttrs (l : list qattr)
| OSession (sid st fl : N)
| OToken (fl : N) (label serial : bytes)
| OMech (fl : N).

(* CK_MECHANISM: type and parameter. *)
Definition mech : Type := N * option bytes.

(* config::Slot (src/config.rs:82-120) after parsing: number, database, mechanism list with its deny flag (mech_list,
   177-210), dedup policy; and the outcomes of the first database calls on it. *)
Record slotconf := SlotConf { sc_id : N; sc_disk : N; sc_mechs : option (list N * bool); sc_dedup : option dedup;
                              sc_io : list (option ioerr) }.

Section api.
Context (P : params) (B : backend) (E : N -> keyenv).
Notation world := (world B). Notation session := (session B).

Definition ok (o : out) : M world (N * out) := ret (CKR_OK, o).
(* The call returns rv after having written to memory. *)
Definition failed (rv : N) (o : out) : M world (N * out) := ret (rv, o).
Definition lock := lock B.
Definition tok {A} := @tok B A.

(* A required pointer argument. *)
Definition nonnull {A} (p : option A) : bool := match p with Some _ => true | None => false end.
Definition deref {A} (p : option A) : M world A := match p with Some a => ret a | None => fail RV_NULL_DEREF end.

(* ---- src/fns/general.rs ---- *)

(* Token::set_mech_allow_list and set_mech_deny_list, src/token.rs:490-503, Mechanisms::filter_copy,
   src/mechanism.rs:233-244, as called by Slot::new, src/slot.rs:51-58. *)
Definition apply_filter (f : option (list N * bool)) (t : token) : token :=
  match f with
  | None => t
  | Some (l, deny) =>
    set_filter (Some (List.filter (fun p => if deny : bool then negb (existsb (N.eqb (fst p)) l)
                                            else existsb (N.eqb (fst p)) l) (p_mechs P))) t
  end.

(* The database a configured slot is opened on, as the process left it. *)
Definition disk_of (d : N) (w : world) : disk :=
  match List.filter (fun p => sl_disk (snd p) =? d) (map_to_list (w_slots w)) with
  | (_, sl) :: _ => Disk (t_db (sl_token sl)) (t_fresh (sl_token sl))
  | [] => match w_disks w !! d with Some k => k | None => Disk db_new 0 end
  end.

(* Slot::new, src/slot.rs:36-92. *)
Definition slot_new (c : slotconf) : M world (slot B) :=
  let! k := gets (disk_of (sc_disk c)) in
  match token_new P (k_db k) (sc_io c) (k_fresh k) with
  | (t, Ok _) => ret (Slot (set_dedup (sc_dedup c) (apply_filter (sc_mechs c) t)) ∅ (sc_disk c))
  | (_, Err e) => fail e
  end.

(* The loop of initialize, src/fns/general.rs:60-78, with State::add_slot, src/lib.rs:171-183: true if some
   slot was there already. *)
Fixpoint add_slots (l : list slotconf) (already : bool) : M world bool :=
  match l with
  | [] => ret already
  | c :: r =>
    let! s := slot_new c in
    let! dup := gets (fun w => nonnull (w_slots w !! sc_id c)) in
    if dup then add_slots r true
    else put_slot B (sc_id c) s;;; add_slots r already
  end.
(* initialize, src/fns/general.rs:19-85, from the merged configuration (the merging is in Config.v). *)
Definition c_initialize (l : list slotconf) : M world (N * out) :=
  let! i := gets (initialized B) in
  (if i then skip else modify (fun w => World ∅ ∅ 1 (w_disks w)));;;
  let! already := add_slots l i in
  ensure (negb already) CKR_CRYPTOKI_ALREADY_INITIALIZED;;;
  ok ONone.

(* What is left of the process when it ends. *)
Definition sync (w : world) : gmap N disk :=
  foldr (fun p m => <[sl_disk (snd p) := Disk (t_db (sl_token (snd p))) (t_fresh (sl_token (snd p)))]> m)
    (w_disks w) (map_to_list (w_slots w)).
Definition stop (w : world) : world := World ∅ ∅ 0 (sync w).
(* finalize, src/fns/general.rs:99-107, State::finalize, src/lib.rs:112-131, Slot::finalize, src/slot.rs:236-239:
   saving the token cannot fail with SQLite (Token.tk_save). *)
Definition c_finalize : M world (N * out) :=
  lock;;; modify stop;;; ok ONone.

(* get_info, src/fns/general.rs:122-130, and get_function_list, 155-: only the pointer is checked. *)
Definition c_get_info (p : bool) : M world (N * out) := ensure p CKR_ARGUMENTS_BAD;;; ok ONone.

(* get_interface_list, src/fns/general.rs:187-225: [n] interfaces exist. *)
Definition c_get_interface_list (n : N) (list : bool) (count : option N) : M world (N * out) :=
  ensure (nonnull count) CKR_ARGUMENTS_BAD;;;
  let! c := deref count in
  if negb list then ok (OLen n)
  else ensure (n <=? c) CKR_BUFFER_TOO_SMALL;;; ok (OList (map N.of_nat (seq 0 (N.to_nat n))) n).

(* ---- src/fns/stmgmt.rs ---- *)

Definition slot_ids (w : world) : list N := merge_sort N.le (map fst (map_to_list (w_slots w))).
(* get_slot_list, src/fns/stmgmt.rs:17-50. *)
Definition c_get_slot_list (list : bool) (count : option N) : M world (N * out) :=
  ensure (nonnull count) CKR_ARGUMENTS_BAD;;;
  lock;;;
  let! ids := gets slot_ids in
  let n := N.of_nat (length ids) in
  if negb list then ok (OLen n)
  else
    let! c := deref count in
    ensure (n <=? c) CKR_BUFFER_TOO_SMALL;;;
    ok (OList ids n).

(* get_slot_info, src/fns/stmgmt.rs:72-82. *)
Definition c_get_slot_info (sid : N) (p : bool) : M world (N * out) :=
  ensure p CKR_ARGUMENTS_BAD;;; lock;;; let! _ := get_slot B sid in ok ONone.
(* get_token_info, src/fns/stmgmt.rs:104-117. *)
Definition c_get_token_info (sid : N) (p : bool) : M world (N * out) :=
  ensure p CKR_ARGUMENTS_BAD;;; lock;;;
  let! sl := get_slot B sid in
  let t := sl_token sl in
  ok (OToken (t_flags t) (t_label t) (t_serial t)).

(* get_mechanism_list, src/fns/stmgmt.rs:139-176. *)
Definition c_get_mechanism_list (sid : N) (list : bool) (count : option N) : M world (N * out) :=
  ensure (nonnull count) CKR_ARGUMENTS_BAD;;;
  lock;;;
  token_ready B sid;;;
  let! sl := get_slot B sid in
  let ms := map fst (mechanisms P (sl_token sl)) in
  let n := N.of_nat (length ms) in
  if negb list then ok (OLen n)
  else
    let! c := deref count in
    ensure (n <=? c) CKR_BUFFER_TOO_SMALL;;;
    ok (OList ms n).
(* get_mechanism_info, src/fns/stmgmt.rs:200-218. *)
Definition c_get_mechanism_info (sid m : N) (p : bool) : M world (N * out) :=
  ensure p CKR_ARGUMENTS_BAD;;; lock;;;
  token_ready B sid;;;
  let! fl := mech_flags P B sid m in
  ok (OMech fl).

(* init_token, src/fns/stmgmt.rs:238-281. *)
Definition c_init_token (sid : N) (pin : option bytes) (label : option bytes) : M world (N * out) :=
  lock;;;
  let! sl := get_slot B sid in
  ensure (bool_decide (sl_sessions sl = ∅)) CKR_SESSION_EXISTS;;;
  let p := match pin with Some p => p | None => [] end in
  let l := match label with Some l => l | None => repeat 0x20 32%nat end in
  let! r := attempt (tok sid (tk_initialize P p l)) in
  match r with
  | Ok _ => ok ONone
  | Err e => if (e =? CKR_PIN_LOCKED) || (e =? CKR_PIN_INCORRECT) || (e =? CKR_PIN_INVALID) || (e =? CKR_PIN_EXPIRED)
             then fail e else fail CKR_GENERAL_ERROR
  end.

(* init_pin, src/fns/stmgmt.rs:293-318. *)
Definition c_init_pin (h : N) (pin : option bytes) : M world (N * out) :=
  lock;;;
  let! sid := token_of_session B h in
  let! sl := get_slot B sid in
  ensure (t_logged (sl_token sl) =? CKU_SO) CKR_USER_NOT_LOGGED_IN;;;
  tok sid (tk_set_pin P CKU_USER (match pin with Some p => p | None => [] end) []);;;
  ok ONone.

(* set_pin, src/fns/stmgmt.rs:332-395. *)
Definition c_set_pin (h : N) (old new : option bytes) : M world (N * out) :=
  lock;;;
  let! s := get_session B h in
  ensure (is_writable B s) CKR_SESSION_READ_ONLY;;;
  let o := match old with Some p => p | None => [] end in
  let n := match new with Some p => p | None => [] end in
  ensure (negb ((blen o =? 0) || (blen n =? 0))) CKR_PIN_INVALID;;;
  let! sid := token_of_session B h in
  let! sl := get_slot B sid in
  let was := logged_in (sl_token sl) in
  (if was then skip else tok sid (tk_login P CKU_USER o));;;
  let! r := attempt (tok sid (tk_set_pin P CK_UNAVAILABLE_INFORMATION n o)) in
  (if was then skip else let! _ := attempt (tok sid tk_logout) in skip);;;
  lift r;;;
  ok ONone.

(* ---- src/fns/sessmgmt.rs ---- *)

(* open_session, src/fns/sessmgmt.rs:21-56. *)
Definition c_open_session (sid fl : N) (ph : bool) : M world (N * out) :=
  ensure ph CKR_ARGUMENTS_BAD;;;
  lock;;;
  token_ready B sid;;;
  let! sl := get_slot B sid in
  let t := sl_token sl in
  let! ut := (if t_logged t =? CKU_SO then
                ensure (has_flag fl CKF_RW_SESSION) CKR_SESSION_READ_WRITE_SO_EXISTS;;; ret CKU_SO
              else if t_logged t =? CKU_USER then ret CKU_USER
              else ret CK_UNAVAILABLE_INFORMATION) in
  let! h := new_session B sid ut fl in
  ok (OHandle h).

(* close_session, src/fns/sessmgmt.rs:78-86. *)
Definition c_close_session (h : N) : M world (N * out) :=
  lock;;;
  let! sid := token_of_session B h in
  tok sid (modify (drop_session_objects h));;;
  drop_session B h;;;
  ok ONone.

(* close_all_sessions, src/fns/sessmgmt.rs:101-113. *)
Definition c_close_all_sessions (sid : N) : M world (N * out) :=
  lock;;;
  let! hs := drop_all_sessions_slot B sid in
  token_ready B sid;;;
  tok sid (modify (fun t => foldl (fun t h => drop_session_objects h t) t hs));;;
  let! _ := attempt (tok sid tk_logout) in
  ok ONone.

(* get_session_info, src/fns/sessmgmt.rs:128-145. *)
Definition c_get_session_info (h : N) (p : bool) : M world (N * out) :=
  ensure p CKR_ARGUMENTS_BAD;;; lock;;;
  let! s := get_session B h in
  ok (OSession (s_slot s) (s_state s) (s_flags s)).

(* The operations that can be saved, in the order of src/session.rs:597-604. *)
Definition saveable : list opk := [KMsgEnc; KMsgDec; KEnc; KDec; KDigest; KSign; KVerify; KVerifySig].
(* op_state_size and op_state_save, src/session.rs:247-279. *)
Definition op_size (s : session) (k : opk) : result N :=
  match s_ops s !! k with
  | Some (OpCrypt x) => if be_final B x then Err CKR_OPERATION_NOT_INITIALIZED else be_size B x
  | _ => Err CKR_OPERATION_NOT_INITIALIZED
  end.
Definition op_save (s : session) (k : opk) : result (N * bytes) :=
  match s_ops s !! k with
  | Some (OpCrypt x) =>
    if be_final B x then Err CKR_OPERATION_NOT_INITIALIZED else
    let? _ := be_size B x in
    let? d := be_save B x in
    let? m := be_mech B x in
    Ok (m, d)
  | _ => Err CKR_OPERATION_NOT_INITIALIZED
  end.
(* The op_size! and op_save! loops, src/session.rs:577-612 and 622-658. *)
Fixpoint gather {A} (f : opk -> result A) (l : list opk) (rv : N) (acc : list (opk * A)) : result (list (opk * A)) :=
  match l with
  | [] => if rv =? CKR_OK then Ok (rev acc) else Err rv
  | k :: r =>
    match f k with
    | Ok a => gather f r CKR_OK ((k, a) :: acc)
    | Err e => if e =? CKR_STATE_UNSAVEABLE then gather f r (if rv =? CKR_OK then rv else CKR_STATE_UNSAVEABLE) acc
               else if e =? CKR_OPERATION_NOT_INITIALIZED then gather f r rv acc
               else Err e
    end
  end.
(* get_operation_state, src/fns/sessmgmt.rs:159-199. *)
Definition c_get_operation_state (h : N) (buf : bool) (len : option N) : M world (N * out) :=
  lock;;;
  let! s := get_session B h in
  ensure (nonnull len) CKR_ARGUMENTS_BAD;;;
  if negb buf then
    let! l := lift (gather (op_size s) saveable CKR_OPERATION_NOT_INITIALIZED []) in
    ok (OLen (be_seal_len B (map snd l)))
  else
    let! n := deref len in
    let! sid := token_of_session B h in
    let! l := lift (gather (op_save s) saveable CKR_OPERATION_NOT_INITIALIZED []) in
    let! r := tok sid draw in
    let! d := lift (be_seal B r l) in
    ensure (blen d <=? n) CKR_GENERAL_ERROR;;;
    ok (OBuf d (blen d)).

(* Session::state_restore, src/session.rs:700-774. *)
Definition find_op (st : opstate) (k : opk) : option (N * bytes) :=
  match List.filter (fun p => bool_decide (fst p = k)) st with p :: _ => Some (snd p) | [] => None end.
Definition restore_op (h sid : N) (k : opk) (key : option object) (op : option (N * bytes)) : M world unit :=
  match op with
  | None => skip
  | Some (m, d) =>
    let! o := (if bool_decide (k = KDigest) then
                 match key with Some _ => fail CKR_KEY_NOT_NEEDED | None => ret None end
               else match key with Some o => ret (Some o) | None => fail CKR_KEY_NEEDED end) in
    let! _ := mech_flags P B sid m in
    let! x := lift (be_restore B k m o d) in
    upd_session B h (put_op B k (OpCrypt x))
  end.
Definition state_restore (h sid : N) (blob : bytes) (key : option object) : M world unit :=
  match be_unseal B blob with
  | None => fail CKR_SAVED_STATE_INVALID
  | Some st =>
    ensure (negb (existsb (fun k => nonnull (find_op st k)) [KMsgEnc; KMsgDec; KEnc; KDec])) CKR_GENERAL_ERROR;;;
    restore_op h sid KDigest key (find_op st KDigest);;;
    restore_op h sid KSign key (find_op st KSign);;;
    restore_op h sid KVerify key (find_op st KVerify);;;
    ensure (negb (nonnull (find_op st KVerifySig))) CKR_SAVED_STATE_INVALID
  end.
(* set_operation_state, src/fns/sessmgmt.rs:223-260. *)
Definition c_set_operation_state (h : N) (blob : option bytes) (enc auth : N) : M world (N * out) :=
  ensure (enc =? CK_INVALID_HANDLE) CKR_KEY_NOT_NEEDED;;;
  lock;;;
  let! _ := get_session B h in
  let! b := deref blob in
  let! sid := token_of_session B h in
  let! key := (if auth =? CK_INVALID_HANDLE then ret None
               else let! o := tok sid (get_object_by_handle P auth) in ret (Some o)) in
  state_restore h sid b key;;;
  ok ONone.

(* login, src/fns/sessmgmt.rs:283-350. *)
Definition c_login (h ut : N) (pin : option bytes) : M world (N * out) :=
  lock;;;
  let! s := get_session B h in
  let sid := s_slot s in
  let! sl := get_slot B sid in
  ensure (negb ((ut =? CKU_SO) && has_ro B sl)) CKR_SESSION_READ_ONLY_EXISTS;;;
  let p := match pin with Some p => p | None => [] end in
  token_ready B sid;;;
  (if ut =? CKU_CONTEXT_SPECIFIC then
     match check_login_status B s with
     | Err e => ensure (e =? CKR_USER_NOT_LOGGED_IN) CKR_OPERATION_NOT_INITIALIZED
     | Ok _ => fail CKR_OPERATION_NOT_INITIALIZED
     end
   else skip);;;
  let! r := attempt (tok sid (tk_login P ut p)) in
  if ut =? CKU_CONTEXT_SPECIFIC then
    match r with
    | Ok _ => upd_session B h (set_login B LOk);;; ok ONone
    | Err e =>
      (if e =? CKR_PIN_LOCKED then
         let! _ := attempt (tok sid tk_logout) in
         invalidate_session_states B sid
       else skip);;;
      fail e
    end
  else
    match r with
    | Ok _ =>
      let! c := attempt (change_session_states B sid ut) in
      match c with
      | Ok _ => ok ONone
      | Err e => let! _ := attempt (tok sid tk_logout) in
                 invalidate_session_states B sid;;;
                 fail e
      end
    | Err e => fail e
    end.

(* logout, src/fns/sessmgmt.rs:370-383. *)
Definition c_logout (h : N) : M world (N * out) :=
  lock;;;
  let! s := get_session B h in
  let sid := s_slot s in
  token_ready B sid;;;
  tok sid tk_logout;;;
  invalidate_session_states B sid;;;
  ok ONone.

(* session_cancel, src/fns/sessmgmt.rs:448-498. *)
Definition cancel_if (fl f : N) (k : opk) (s : session) : session :=
  if has_flag fl f then cancel_op B k s else s.
Definition c_session_cancel (h fl : N) : M world (N * out) :=
  lock;;;
  let! _ := get_session B h in
  upd_session B h (fun s =>
    cancel_if fl CKF_VERIFY KVerify (cancel_if fl CKF_SIGN KSign (cancel_if fl CKF_DIGEST KDigest
      (cancel_if fl CKF_DECRYPT KDec (cancel_if fl CKF_ENCRYPT KEnc (cancel_if fl CKF_FIND_OBJECTS KSearch
        (cancel_if fl CKF_MESSAGE_DECRYPT KMsgDec (cancel_if fl CKF_MESSAGE_ENCRYPT KMsgEnc s))))))));;;
  ensure (negb (has_flag fl CKF_MESSAGE_SIGN || has_flag fl CKF_MESSAGE_VERIFY)) CKR_OPERATION_CANCEL_FAILED;;;
  ok ONone.

(* ---- src/fns/objmgmt.rs ---- *)

(* fail_if_cka_token_true, src/fns/mod.rs:31-40. *)
Fixpoint fail_if_token (tmpl : list ckattr) : result unit :=
  match tmpl with
  | [] => Ok tt
  | c :: r => if ca_type c =? CKA_TOKEN then
                let? b := ck_to_bool c in
                if b : bool then Err CKR_SESSION_READ_ONLY else fail_if_token r
              else fail_if_token r
  end.
Definition ro_check (s : session) (tmpl : list ckattr) : M world unit :=
  if is_writable B s then skip else lift (fail_if_token tmpl).

(* A pointer and count describing a template: cnt > 0 && template.is_null(). *)
Definition tmpl_of {A} (t : option (list A)) (cnt : N) : M world (list A) :=
  match t with
  | Some l => ret l
  | None => ensure (cnt =? 0) CKR_ARGUMENTS_BAD;;; ret []
  end.

(* create_object, src/fns/objmgmt.rs:21-62. *)
Definition c_create_object (h : N) (tmpl : option (list ckattr)) (ph : bool) : M world (N * out) :=
  ensure (nonnull tmpl && ph) CKR_ARGUMENTS_BAD;;;
  let! t := deref tmpl in
  lock;;;
  let! s := get_session B h in
  ro_check s t;;;
  let sid := s_slot s in
  token_ready B sid;;;
  let! r := tok sid draw in
  let! o := tok sid (create_object P (E r) h t) in
  ok (OHandle o).

(* copy_object, src/fns/objmgmt.rs:123-165. *)
Definition c_copy_object (h o : N) (tmpl : option (list ckattr)) (cnt : N) (ph : bool) : M world (N * out) :=
  ensure ph CKR_ARGUMENTS_BAD;;;
  lock;;;
  let! s := get_session B h in
  let! t := tmpl_of tmpl cnt in
  ro_check s t;;;
  let sid := s_slot s in
  token_ready B sid;;;
  let! n := tok sid (copy_object P h o t) in
  ok (OHandle n).

(* destroy_object, src/fns/objmgmt.rs:189-207. *)
Definition c_destroy_object (h o : N) : M world (N * out) :=
  lock;;;
  let! s := get_session B h in
  let sid := s_slot s in
  token_ready B sid;;;
  let! ob := tok sid (get_object_by_handle P o) in
  ensure (negb (is_token ob) || is_writable B s) CKR_ACTION_PROHIBITED;;;
  tok sid (destroy_object P o);;;
  ok ONone.

(* get_object_size, src/fns/objmgmt.rs:226-245. *)
Definition c_get_object_size (h o : N) (p : bool) : M world (N * out) :=
  ensure p CKR_ARGUMENTS_BAD;;; lock;;;
  let! sid := token_of_session B h in
  let! n := tok sid (get_object_size P o) in
  ok (OLen n).

(* get_attribute_value, src/fns/objmgmt.rs:266-372, with the default configuration: EC points are not re-encoded. *)
Definition c_get_attribute_value (h o : N) (tmpl : option (list qattr)) (cnt : N) : M world (N * out) :=
  let! t := tmpl_of tmpl cnt in
  lock;;;
  let! sid := token_of_session B h in
  let! r := tok sid (get_object_attrs P o t) in
  failed (snd r) (OAttrs (fst r)).

(* set_attribute_value, src/fns/objmgmt.rs:397-432. *)
Definition c_set_attribute_value (h o : N) (tmpl : option (list ckattr)) (cnt : N) : M world (N * out) :=
  lock;;;
  let! s := get_session B h in
  let sid := s_slot s in
  token_ready B sid;;;
  let! ob := tok sid (get_object_by_handle P o) in
  (if is_token ob then
     let! sl := get_slot B sid in
     ensure (logged_in (sl_token sl)) CKR_USER_NOT_LOGGED_IN;;;
     ensure (is_writable B s) CKR_SESSION_READ_ONLY
   else skip);;;
  let! t := tmpl_of tmpl cnt in
  tok sid (set_object_attrs P o t);;;
  ok ONone.

(* find_objects_init, src/fns/objmgmt.rs:454-477, and Session::new_search_operation, src/session.rs:492-506. *)
Definition c_find_objects_init (h : N) (tmpl : option (list ckattr)) (cnt : N) : M world (N * out) :=
  lock;;;
  let! s := get_session B h in
  let sid := s_slot s in
  token_ready B sid;;;
  let! t := tmpl_of tmpl cnt in
  ensure (negb (op_active B s KSearch)) CKR_OPERATION_ACTIVE;;;
  let! hs := tok sid (search_objects P t) in
  upd_session B h (set_operation B KSearch (OpSearch hs) false);;;
  ok ONone.

(* find_objects, src/fns/objmgmt.rs:499-540, and SessionSearch::results, src/session.rs:33-43. *)
Definition c_find_objects (h : N) (ph : bool) (max : N) (pc : bool) : M world (N * out) :=
  ensure (ph && pc) CKR_ARGUMENTS_BAD;;;
  lock;;;
  let! s := get_session B h in
  let! op := lift (get_operation B s KSearch) in
  match op with
  | OpSearch l =>
    let n := N.to_nat (N.min max (N.of_nat (length l))) in
    upd_session B h (put_op B KSearch (OpSearch (skipn n l)));;;
    ok (OHandles (firstn n l))
  | OpCrypt _ => fail CKR_GENERAL_ERROR
  end.

(* find_objects_final, src/fns/objmgmt.rs:563-567. *)
Definition c_find_objects_final (h : N) : M world (N * out) :=
  lock;;;
  let! _ := get_session B h in
  upd_session B h (cancel_op B KSearch);;;
  ok ONone.

(* ---- operations: src/fns/encryption.rs, signing.rs, digest.rs ---- *)

Definition kind_flag (k : opk) : N :=
  match k with
  | KMsgEnc => CKF_MESSAGE_ENCRYPT | KMsgDec => CKF_MESSAGE_DECRYPT | KEnc => CKF_ENCRYPT | KDec => CKF_DECRYPT
  | KDigest => CKF_DIGEST | KSign => CKF_SIGN | KVerify | KVerifySig => CKF_VERIFY | KSearch => 0
  end.
(* The second argument of set_operation: key.always_auth() in sign_init and decrypt_init, false elsewhere. *)
Definition kind_auth (k : opk) (o : object) : bool :=
  match k with KSign | KDec => always_auth o | _ => false end.

(* sign_init (signing.rs:23-62), verify_init (314-352), verify_signature_init (709-750), encrypt_init
   (encryption.rs:23-63), decrypt_init (303-341), message_encrypt_init (580-620), message_decrypt_init (972-1011):
   one text, with the trait, the flag and the login requirement of the kind.  A null mechanism cancels. *)
Definition op_init (k : opk) (h : N) (m : option mech) (key : N) (sig : option bytes) : M world (N * out) :=
  lock;;;
  let! s := get_session B h in
  match m with
  | None => upd_session B h (cancel_op B k);;; ok ONone
  | Some (mt, param) =>
    ensure (negb (op_active B s k)) CKR_OPERATION_ACTIVE;;;
    let sid := s_slot s in
    token_ready B sid;;;
    let! o := tok sid (get_object_by_handle P key) in
    let rv := check_allowed_mechs mt o in
    ensure (rv =? CKR_OK) rv;;;
    let! fl := mech_flags P B sid mt in
    ensure (has_flag fl (kind_flag k)) CKR_MECHANISM_INVALID;;;
    let! sg := (if bool_decide (k = KVerifySig) then let! x := deref sig in ret (Some x) else ret None) in
    let! r := tok sid draw in
    let! x := lift (be_new B k mt param (Some o) sg r) in
    upd_session B h (set_operation B k (OpCrypt x) (kind_auth k o));;;
    ok ONone
  end.
(* digest_init, src/fns/digest.rs:22-52. *)
Definition c_digest_init (h : N) (m : option mech) : M world (N * out) :=
  lock;;;
  let! s := get_session B h in
  match m with
  | None => upd_session B h (cancel_op B KDigest);;; ok ONone
  | Some (mt, param) =>
    ensure (negb (op_active B s KDigest)) CKR_OPERATION_ACTIVE;;;
    let sid := s_slot s in
    token_ready B sid;;;
    let! fl := mech_flags P B sid mt in
    ensure (has_flag fl CKF_DIGEST) CKR_MECHANISM_INVALID;;;
    let! r := tok sid draw in
    let! x := lift (be_new B KDigest mt param None None r) in
    upd_session B h (set_operation B KDigest (OpCrypt x) false);;;
    ok ONone
  end.

(* The operation of a kind, after the login check. *)
Definition cur_op (h : N) (k : opk) : M world (be_st B) :=
  let! s := get_session B h in
  let! o := lift (get_operation B s k) in
  match o with OpCrypt x => ret x | OpSearch _ => fail CKR_GENERAL_ERROR end.
(* Calling a method of the operation, which may change it also when it fails. *)
Definition run_op (h : N) (k : opk) (c : opcall) (x : be_st B) : M world bytes :=
  let '(x', r) := be_call B c x in
  upd_session B h (put_op B k (OpCrypt x'));;;
  lift r.
Definition len_op (h : N) (k : opk) (n : N) (fin : bool) (x : be_st B) : M world (N * out) :=
  let '(x', r) := be_len B x n fin in
  upd_session B h (put_op B k (OpCrypt x'));;;
  let! l := lift r in
  ok (OLen l).
(* The object update of an operation that has finished, signing.rs:117-123: the operation is read from the
   session again; [w] has been written to the output buffer by then. *)
Definition op_updates (h : N) (k : opk) (w : out) (next : M world (N * out)) : M world (N * out) :=
  let! s := get_session B h in
  match s_ops s !! k with
  | Some (OpCrypt x) =>
    match be_updates B x with
    | None => next
    | Some (oh, attrs) =>
      let sid := s_slot s in
      token_ready B sid;;;
      let! r := attempt (tok sid (set_object_attrs P oh attrs)) in
      match r with Ok _ => next | Err _ => failed CKR_GENERAL_ERROR w end
    end
  | _ => next
  end.

(* sign (signing.rs:82-133) and digest (digest.rs:66-108): out_len, then the one-shot method. *)
Definition c_sign (h : N) (d : option bytes) (buf : bool) (len : option N) : M world (N * out) :=
  ensure (nonnull d && nonnull len) CKR_ARGUMENTS_BAD;;;
  let! data := deref d in let! n := deref len in
  lock;;;
  let! x := cur_op h KSign in
  let! l := lift (be_out_len B x) in
  if negb buf then ok (OLen l) else
  ensure (l <=? n) CKR_BUFFER_TOO_SMALL;;;
  let! r := run_op h KSign (CSingle data l) x in
  op_updates h KSign (OBufOnly r) (ok (OBuf r l)).
(* sign_update, signing.rs:158-193. *)
Definition upd_op (h : N) (k : opk) (data : bytes) : M world unit :=
  let! x := cur_op h k in
  let! _ := run_op h k (CVUpdate data) x in skip.
Definition c_update (k : opk) (h : N) (d : option bytes) : M world (N * out) :=
  ensure (nonnull d) CKR_ARGUMENTS_BAD;;;
  let! data := deref d in
  lock;;;
  let! _ := get_session B h in
  upd_op h k data;;;
  ok ONone.
(* sign_final, signing.rs:215-262. *)
Definition c_sign_final (h : N) (buf : bool) (len : option N) : M world (N * out) :=
  ensure (nonnull len) CKR_ARGUMENTS_BAD;;;
  let! n := deref len in
  lock;;;
  let! x := cur_op h KSign in
  let! l := lift (be_out_len B x) in
  if negb buf then ok (OLen l) else
  ensure (l <=? n) CKR_BUFFER_TOO_SMALL;;;
  let! r := run_op h KSign (CFinal l) x in
  op_updates h KSign (OBufOnly r) (ok (OBuf r l)).
(* verify, signing.rs:372-411. *)
Definition c_verify (h : N) (d sig : option bytes) : M world (N * out) :=
  ensure (nonnull d && nonnull sig) CKR_ARGUMENTS_BAD;;;
  let! data := deref d in let! sg := deref sig in
  lock;;;
  let! x := cur_op h KVerify in
  let! l := lift (be_out_len B x) in
  ensure (blen sg =? l) CKR_SIGNATURE_LEN_RANGE;;;
  let! _ := run_op h KVerify (CVSingle data sg) x in
  op_updates h KVerify ONone (ok ONone).
(* verify_final, signing.rs:490-528. *)
Definition c_verify_final (h : N) (sig : option bytes) : M world (N * out) :=
  ensure (nonnull sig) CKR_ARGUMENTS_BAD;;;
  let! sg := deref sig in
  lock;;;
  let! x := cur_op h KVerify in
  let! l := lift (be_out_len B x) in
  ensure (blen sg =? l) CKR_SIGNATURE_LEN_RANGE;;;
  let! _ := run_op h KVerify (CVFinal sg) x in
  op_updates h KVerify ONone (ok ONone).
(* verify_signature, signing.rs:783-812, and verify_signature_final, 888-914. *)
Definition c_verify_signature (h : N) (d : option bytes) : M world (N * out) :=
  ensure (nonnull d) CKR_ARGUMENTS_BAD;;;
  let! data := deref d in
  lock;;;
  let! x := cur_op h KVerifySig in
  let! _ := run_op h KVerifySig (CVSingle data []) x in
  op_updates h KVerifySig ONone (ok ONone).
Definition c_verify_signature_final (h : N) : M world (N * out) :=
  lock;;;
  let! x := cur_op h KVerifySig in
  let! _ := run_op h KVerifySig (CVFinal []) x in
  op_updates h KVerifySig ONone (ok ONone).

(* digest, digest.rs:66-108: a buffer too small is reported with the length needed. *)
Definition c_digest (h : N) (d : option bytes) (buf : bool) (len : option N) : M world (N * out) :=
  ensure (nonnull d && nonnull len) CKR_ARGUMENTS_BAD;;;
  let! data := deref d in let! n := deref len in
  lock;;;
  let! x := cur_op h KDigest in
  let! l := lift (be_out_len B x) in
  if negb buf then ok (OLen l) else
  if n <? l then failed CKR_BUFFER_TOO_SMALL (OLen l) else
  let! r := run_op h KDigest (CSingle data l) x in
  ok (OBuf r l).
(* digest_final, digest.rs:242-281. *)
Definition c_digest_final (h : N) (buf : bool) (len : option N) : M world (N * out) :=
  ensure (nonnull len) CKR_ARGUMENTS_BAD;;;
  let! n := deref len in
  lock;;;
  let! x := cur_op h KDigest in
  let! l := lift (be_out_len B x) in
  if negb buf then ok (OLen l) else
  if n <? l then failed CKR_BUFFER_TOO_SMALL (OLen l) else
  let! r := run_op h KDigest (CFinal l) x in
  ok (OBuf r l).
(* digest_key, digest.rs:190-226. *)
Definition c_digest_key (h key : N) : M world (N * out) :=
  lock;;;
  let! x := cur_op h KDigest in
  let! s := get_session B h in
  let sid := s_slot s in
  token_ready B sid;;;
  let! o := tok sid (get_object_by_handle P key) in
  let! c := lift (get_ulong o CKA_CLASS) in
  ensure (c =? CKO_SECRET_KEY) CKR_KEY_HANDLE_INVALID;;;
  let! kt := lift (get_ulong o CKA_KEY_TYPE) in
  ensure ((kt =? CKK_GENERIC_SECRET) || (kt =? CKK_AES)) CKR_KEY_INDIGESTIBLE;;;
  let! v := lift (get_bytes o CKA_VALUE) in
  let! _ := run_op h KDigest (CVUpdate v) x in
  ok ONone.

(* encrypt and decrypt, encryption.rs:84-130 and 361-409. *)
Definition c_crypt (k : opk) (h : N) (d : option bytes) (buf : bool) (len : option N) : M world (N * out) :=
  ensure (nonnull d && nonnull len) CKR_ARGUMENTS_BAD;;;
  let! data := deref d in let! n := deref len in
  lock;;;
  let! x := cur_op h k in
  if negb buf then len_op h k (blen data) true x else
  let! r := run_op h k (CSingle data n) x in
  ok (OBuf r (blen r)).
(* internal_encrypt_update and internal_decrypt_update, encryption.rs:159-192 and 438-471. *)
Definition crypt_update (k : opk) (h : N) (data : bytes) (buf : bool) (n : N) : M world (N * out) :=
  let! x := cur_op h k in
  if negb buf then len_op h k (blen data) false x else
  let! r := run_op h k (CUpdate data n) x in
  ok (OBuf r (blen r)).
(* encrypt_update and decrypt_update, encryption.rs:194-215, 473-496. *)
Definition c_crypt_update (k : opk) (h : N) (d : option bytes) (buf : bool) (len : option N) : M world (N * out) :=
  ensure (nonnull d && nonnull len) CKR_ARGUMENTS_BAD;;;
  let! data := deref d in let! n := deref len in
  lock;;;
  let! _ := get_session B h in
  crypt_update k h data buf n.
(* encrypt_final and decrypt_final, encryption.rs:239-283 and 520-562: the pointers are refused only if both are
   null; the length is dereferenced. *)
Definition c_crypt_final (k : opk) (h : N) (buf : bool) (len : option N) : M world (N * out) :=
  ensure (buf || nonnull len) CKR_ARGUMENTS_BAD;;;
  lock;;;
  let! x := cur_op h k in
  let! n := deref len in
  if negb buf then len_op h k 0 true x else
  let! r := run_op h k (CFinal n) x in
  ok (OBuf r (blen r)).

(* encrypt_message and decrypt_message, encryption.rs:637-705 and 1029-1099. *)
Definition c_message (k : opk) (h : N) (param : option bytes) (aad : option bytes) (d : option bytes)
  (buf : bool) (len : option N) : M world (N * out) :=
  ensure (nonnull param && nonnull d && nonnull len) CKR_ARGUMENTS_BAD;;;
  let! pr := deref param in let! data := deref d in let! n := deref len in
  ensure (negb (blen pr =? 0) && negb (blen data =? 0)) CKR_ARGUMENTS_BAD;;;
  lock;;;
  let! x := cur_op h k in
  ensure (negb (be_busy B x)) CKR_OPERATION_ACTIVE;;;
  if negb buf then len_op h k (blen data) false x else
  let! r := run_op h k (CMSingle pr (match aad with Some a => a | None => [] end) data n) x in
  ok (OBuf r (blen r)).
(* encrypt_message_begin and decrypt_message_begin, encryption.rs:753-800 and 1147-1194. *)
Definition c_message_begin (k : opk) (h : N) (param aad : option bytes) : M world (N * out) :=
  ensure (nonnull param) CKR_ARGUMENTS_BAD;;;
  let! pr := deref param in
  ensure (negb (blen pr =? 0)) CKR_ARGUMENTS_BAD;;;
  lock;;;
  let! x := cur_op h k in
  ensure (negb (be_busy B x)) CKR_OPERATION_ACTIVE;;;
  let! s := get_session B h in
  let sid := s_slot s in
  token_ready B sid;;;
  let! m := lift (be_mech B x) in
  let! fl := mech_flags P B sid m in
  ensure (has_flag fl CKF_MULTI_MESSAGE) CKR_MECHANISM_INVALID;;;
  let! _ := run_op h k (CMBegin pr (match aad with Some a => a | None => [] end)) x in
  ok ONone.
(* encrypt_message_next and decrypt_message_next, encryption.rs:828-903 and 1222-1298. *)
Definition c_message_next (k : opk) (h : N) (param d : option bytes) (buf : bool) (len : option N) (fl : N)
  : M world (N * out) :=
  ensure (nonnull param && nonnull d && nonnull len) CKR_ARGUMENTS_BAD;;;
  let! pr := deref param in let! data := deref d in let! n := deref len in
  ensure (negb (blen pr =? 0) && negb (blen data =? 0)) CKR_ARGUMENTS_BAD;;;
  ensure ((fl =? CKF_END_OF_MESSAGE) || (fl =? 0)) CKR_ARGUMENTS_BAD;;;
  let fin := fl =? CKF_END_OF_MESSAGE in
  lock;;;
  let! x := cur_op h k in
  ensure (be_busy B x) CKR_OPERATION_NOT_INITIALIZED;;;
  if negb buf then len_op h k (blen data) fin x else
  let! r := run_op h k (if fin then CMFinal pr data n else CMNext pr data n) x in
  ok (OBuf r (blen r)).
(* message_encrypt_final and message_decrypt_final, encryption.rs:948-953 and 1343-1348. *)
Definition c_message_final (k : opk) (h : N) : M world (N * out) :=
  lock;;;
  let! x := cur_op h k in
  let! _ := run_op h k CMFinalize x in
  ok ONone.

(* The dual functions of dualcrypto.rs:21-51, 81-114, 144-174, 204-237: the cipher first, then the digest, signature
   or verification of the clear text.  When the second step fails the output has been written already. *)
Definition c_dual (k2 k1 : opk) (dec : bool) (h : N) (d : option bytes) (buf : bool) (len : option N)
  : M world (N * out) :=
  ensure (nonnull d && nonnull len) CKR_ARGUMENTS_BAD;;;
  let! data := deref d in let! n := deref len in
  lock;;;
  let! s := get_session B h in
  ensure (op_active B s k2) CKR_OPERATION_NOT_INITIALIZED;;;
  let! r := crypt_update k1 h data buf n in
  if negb buf then ret r else
  match snd r with
  | OBuf b l => let! q := attempt (upd_op h k2 (if dec then b else data)) in
                match q with Ok _ => ok (OBuf b l) | Err e => failed e (OBuf b l) end
  | _ => fail CKR_GENERAL_ERROR
  end.

(* ---- src/fns/keymgmt.rs ---- *)

(* The key type of the secret key generation mechanisms: src/hash.rs:72-182, src/aes.rs:299-319, src/hkdf.rs:42,
   src/object/factory.rs:1093. *)
Definition gen_types : list (N * N) :=
  [(CKM_AES_KEY_GEN, CKK_AES); (CKM_GENERIC_SECRET_KEY_GEN, CKK_GENERIC_SECRET); (CKM_HKDF_KEY_GEN, CKK_HKDF);
   (CKM_SHA_1_KEY_GEN, CKK_SHA_1_HMAC); (CKM_SHA224_KEY_GEN, CKK_SHA224_HMAC); (CKM_SHA256_KEY_GEN, CKK_SHA256_HMAC);
   (CKM_SHA384_KEY_GEN, CKK_SHA384_HMAC); (CKM_SHA512_KEY_GEN, CKK_SHA512_HMAC);
   (CKM_SHA3_224_KEY_GEN, CKK_SHA3_224_HMAC); (CKM_SHA3_256_KEY_GEN, CKK_SHA3_256_HMAC);
   (CKM_SHA3_384_KEY_GEN, CKK_SHA3_384_HMAC); (CKM_SHA3_512_KEY_GEN, CKK_SHA3_512_HMAC);
   (CKM_SHA512_224_KEY_GEN, CKK_SHA512_224_HMAC); (CKM_SHA512_256_KEY_GEN, CKK_SHA512_256_HMAC)].
(* The key type of the key pair generation mechanisms: src/rsa.rs:98, src/ec/*.rs, src/ffdh.rs:57, src/mldsa.rs:106,
   src/mlkem.rs:99, src/slhdsa.rs:119. *)
Definition pair_types : list (N * N) :=
  [(CKM_RSA_PKCS_KEY_PAIR_GEN, CKK_RSA); (CKM_EC_KEY_PAIR_GEN, CKK_EC); (CKM_EC_EDWARDS_KEY_PAIR_GEN, CKK_EC_EDWARDS);
   (CKM_EC_MONTGOMERY_KEY_PAIR_GEN, CKK_EC_MONTGOMERY); (CKM_DH_PKCS_KEY_PAIR_GEN, CKK_DH);
   (CKM_ML_DSA_KEY_PAIR_GEN, CKK_ML_DSA); (CKM_ML_KEM_KEY_PAIR_GEN, CKK_ML_KEM); (CKM_SLH_DSA_KEY_PAIR_GEN, CKK_SLH_DSA)].
Definition lookup_type (l : list (N * N)) (m : N) : option N :=
  match List.filter (fun p => fst p =? m) l with p :: _ => Some (snd p) | [] => None end.

(* Mechanism::generate_key of the mechanism: secret_generate, hotp_generate, or PBKDF2Mechanism::generate_key
   (src/pbkdf2.rs:78-160). *)
Definition gen_key (env : keyenv) (uid : bytes) (mt : N) (param : option bytes) (tmpl : list ckattr) : result object :=
  match lookup_type gen_types mt with
  | Some kt => let? f := get_factory (p_fs P) (CKO_SECRET_KEY, kt) in
               secret_generate env uid f kt mt tmpl
  | None =>
    if mt =? CKM_HOTP_KEY_GEN then
      let? f := get_factory (p_fs P) (CKO_OTP_KEY, CKK_HOTP) in hotp_generate env uid f mt tmpl
    else if mt =? CKM_PKCS5_PBKD2 then
      let? f := get_obj_factory_from_key_template (p_fs P) tmpl in
      let? dkm := be_pbkdf B param tmpl in
      let? o := factory_create env uid f (tmpl ++ [ca CKA_VALUE dkm]) in
      Ok (default_key_attributes o mt)
    else Err CKR_MECHANISM_INVALID
  end.
(* Mechanism::generate_keypair. *)
Definition gen_pair (env : keyenv) (u1 u2 : bytes) (mt : N) (tpub tprv : list ckattr) : result (object * object) :=
  match lookup_type pair_types mt with
  | Some kt => let? f1 := get_factory (p_fs P) (CKO_PUBLIC_KEY, kt) in
               let? f2 := get_factory (p_fs P) (CKO_PRIVATE_KEY, kt) in
               pair_generate env u1 u2 f1 f2 kt mt tpub tprv
  | None => Err CKR_MECHANISM_INVALID
  end.

(* generate_key, src/fns/keymgmt.rs:21-93. *)
Definition c_generate_key (h : N) (m : option mech) (tmpl : option (list ckattr)) (ph : bool) : M world (N * out) :=
  ensure (nonnull m && nonnull tmpl && ph) CKR_ARGUMENTS_BAD;;;
  let! (mt, param) := deref m in let! t := deref tmpl in
  lock;;;
  let! s := get_session B h in
  ro_check s t;;;
  let sid := s_slot s in
  token_ready B sid;;;
  let! fl := mech_flags P B sid mt in
  ensure (has_flag fl CKF_GENERATE) CKR_MECHANISM_INVALID;;;
  let! r := tok sid draw in
  let! uid := tok sid (new_uid P) in
  let! o := lift (gen_key (E r) uid mt param t) in
  let! kh := tok sid (insert_object P h o) in
  ok (OHandle kh).

(* generate_key_pair, src/fns/keymgmt.rs:116-226. *)
Definition c_generate_key_pair (h : N) (m : option mech) (tpub tprv : option (list ckattr)) (p1 p2 : bool)
  : M world (N * out) :=
  ensure (nonnull m && nonnull tpub && nonnull tprv && p1 && p2) CKR_ARGUMENTS_BAD;;;
  let! (mt, _) := deref m in let! t1 := deref tpub in let! t2 := deref tprv in
  lock;;;
  let! s := get_session B h in
  ro_check s t2;;;
  ro_check s t1;;;
  let sid := s_slot s in
  token_ready B sid;;;
  let! fl := mech_flags P B sid mt in
  ensure (has_flag fl CKF_GENERATE_KEY_PAIR) CKR_MECHANISM_INVALID;;;
  let! r := tok sid draw in
  let! u1 := tok sid (new_uid P) in
  let! u2 := tok sid (new_uid P) in
  let! (o1, o2) := lift (gen_pair (E r) u1 u2 mt t1 t2) in
  let! h1 := tok sid (insert_object P h o1) in
  let! r2 := attempt (tok sid (insert_object P h o2)) in
  match r2 with
  | Ok h2 => ok (OHandles [h1; h2])
  | Err e => let! _ := attempt (tok sid (destroy_object P h1)) in fail e
  end.

(* KeyFactory::export_for_wrapping of each factory: the default (src/object/key.rs:199-201), secret keys
   (key.rs:598-600, src/aes.rs:173-175, src/hotp.rs:254-256), RSA (src/rsa.rs:438-463), EC (src/ec/mod.rs:250-301);
   factories that are not key factories: src/object/factory.rs:548-550. *)
Definition export_key (f : factory) (o : object) : result bytes :=
  match f_kind f with
  | FSecret _ | FAes | FHotp => secret_export o
  | FPrivate =>
    match get_ulong o CKA_KEY_TYPE with
    | Ok kt =>
      if kt =? CKK_RSA then let? _ := check_key_ops o CKO_PRIVATE_KEY CKK_RSA CKA_EXTRACTABLE in be_export B o
      else if (kt =? CKK_EC) || (kt =? CKK_EC_EDWARDS) || (kt =? CKK_EC_MONTGOMERY) then
        let? _ := check_key_ops o CKO_PRIVATE_KEY CK_UNAVAILABLE_INFORMATION CKA_EXTRACTABLE in be_export B o
      else Err CKR_FUNCTION_NOT_SUPPORTED
    | Err e => Err e
    end
  | FPublic => Err CKR_FUNCTION_NOT_SUPPORTED
  | _ => Err CKR_GENERAL_ERROR
  end.

(* wrap_key, src/fns/keymgmt.rs:254-340. *)
Definition c_wrap_key (h : N) (m : option mech) (wkey key : N) (buf : bool) (len : option N) : M world (N * out) :=
  ensure (nonnull m && nonnull len) CKR_ARGUMENTS_BAD;;;
  let! (mt, param) := deref m in let! n := deref len in
  lock;;;
  let! s := get_session B h in
  let sid := s_slot s in
  token_ready B sid;;;
  let! o := tok sid (get_object_by_handle P key) in
  let! w := tok sid (get_object_by_handle P wkey) in
  let rv := check_allowed_mechs mt w in
  ensure (rv =? CKR_OK) rv;;;
  let! f := lift (get_object_factory (p_fs P) o) in
  let! fl := mech_flags P B sid mt in
  ensure (has_flag fl CKF_WRAP) CKR_MECHANISM_INVALID;;;
  let! cw := lift (get_bool w CKA_WRAP) in
  ensure cw CKR_WRAPPING_KEY_HANDLE_INVALID;;;
  let! wt := lift (get_bool o CKA_WRAP_WITH_TRUSTED) in
  (if wt : bool then let! tr := lift (get_bool w CKA_TRUSTED) in ensure tr CKR_WRAPPING_KEY_HANDLE_INVALID else skip);;;
  let! data := lift (export_key f o) in
  let! r := tok sid draw in
  let! (b, l) := lift (be_wrap B mt param w data (if buf then n else 0) r) in
  ok (if buf then OBuf b l else OLen l).

(* KeyFactory::import_from_wrapped of each factory. *)
Definition import_key (uid : bytes) (f : factory) (data : bytes) (tmpl : list ckattr) : result object :=
  match f_kind f with
  | FSecret _ | FAes | FHotp => secret_import uid f data tmpl
  | FPrivate =>
    let? kt := tmpl_ulong tmpl CKA_KEY_TYPE in
    if (kt =? CKK_RSA) || (kt =? CKK_EC) || (kt =? CKK_EC_EDWARDS) || (kt =? CKK_EC_MONTGOMERY) then
      let? o := key_unwrap uid f tmpl in
      let? o1 := ensure_ulong o CKA_CLASS CKO_PRIVATE_KEY in
      let? o2 := map_err (ensure_ulong o1 CKA_KEY_TYPE kt) CKR_TEMPLATE_INCONSISTENT in
      let? l := be_parse B kt data o2 in
      Ok (put_material o2 l)
    else Err CKR_FUNCTION_NOT_SUPPORTED
  | FPublic => Err CKR_FUNCTION_NOT_SUPPORTED
  | _ => Err CKR_GENERAL_ERROR
  end.

(* unwrap_key, src/fns/keymgmt.rs:370-470; the CKF_UNWRAP test of the mechanisms, src/aes.rs:355-365,
   src/rsa.rs:771-780. *)
Definition c_unwrap_key (h : N) (m : option mech) (wkey : N) (d : option bytes) (tmpl : option (list ckattr)) (ph : bool)
  : M world (N * out) :=
  ensure (nonnull m && nonnull d && nonnull tmpl && ph) CKR_ARGUMENTS_BAD;;;
  let! (mt, param) := deref m in let! data := deref d in let! t := deref tmpl in
  lock;;;
  let! s := get_session B h in
  ro_check s t;;;
  let sid := s_slot s in
  token_ready B sid;;;
  let! w := tok sid (get_object_by_handle P wkey) in
  let rv := check_allowed_mechs mt w in
  ensure (rv =? CKR_OK) rv;;;
  let! f := lift (get_obj_factory_from_key_template (p_fs P) t) in
  let! fl := mech_flags P B sid mt in
  ensure (has_flag fl CKF_WRAP) CKR_MECHANISM_INVALID;;;
  let! cu := lift (get_bool w CKA_UNWRAP) in
  ensure cu CKR_WRAPPING_KEY_HANDLE_INVALID;;;
  ensure (has_flag fl CKF_UNWRAP) CKR_MECHANISM_INVALID;;;
  let! kd := lift (be_unwrap B mt param w data) in
  let! uid := tok sid (new_uid P) in
  let! o := lift (import_key uid f kd t) in
  let! kh := tok sid (insert_object P h o) in
  ok (OHandle kh).

(* set_attr calls of SimpleKDFOperation::derive for CKM_CONCATENATE_BASE_AND_KEY, src/native/simplekdf.rs:206-241. *)
Definition concat_attrs (tmpl : list ckattr) (base other o : object) : result object :=
  let bas t x := match get_bool x t with Ok b => b | Err _ => false end in
  let sens := is_sensitive base || is_sensitive other in
  let? sens := (if sens then Ok true else match find_ck tmpl CKA_SENSITIVE with Some c => ck_to_bool c | None => Ok false end) in
  let ext := is_extractable base && is_extractable other in
  let? ext := (if ext : bool then match find_ck tmpl CKA_EXTRACTABLE with Some c => ck_to_bool c | None => Ok true end else Ok false) in
  Ok (put_attr (put_attr (put_attr (put_attr o (from_bool CKA_SENSITIVE sens)) (from_bool CKA_EXTRACTABLE ext))
        (from_bool CKA_ALWAYS_SENSITIVE (bas CKA_ALWAYS_SENSITIVE base && bas CKA_ALWAYS_SENSITIVE other)))
        (from_bool CKA_NEVER_EXTRACTABLE (bas CKA_NEVER_EXTRACTABLE base && bas CKA_NEVER_EXTRACTABLE other))).

(* ObjectFactory::create of the factories of secret keys.  The other factories refuse the template of such a derivation: they
   have no CKA_VALUE_LEN, and without it as_secret_key_factory fails (src/ossl/ecdh.rs:157-180, ffdh.rs:175-191). *)
Definition secret_key_create (uid : bytes) (f : factory) (t : list ckattr) : result object :=
  match f_kind f with
  | FSecret n => secret_create uid n f t
  | FAes => aes_create uid f t
  | FHotp => hotp_create uid f t
  | _ => Err CKR_TEMPLATE_INCONSISTENT
  end.

(* The objects Derive::derive builds, from what the backend computed (src/aes.rs:620-661, src/hash.rs:340-404,
   src/native/simplekdf.rs:174-365 and 480-, src/misc.rs common_derive_key_object and common_derive_data_object,
   src/ossl/ecdh.rs:233-239, src/ossl/ffdh.rs:231-237). *)
Definition derived_object (uid : bytes) (key : object) (d : derived) : result object :=
  match d with
  | DKey t dkm => let? f := get_obj_factory_from_key_template (p_fs P) t in
                  let? o := key_derive uid f t key in set_key f o dkm
  | DConcat t other dkm => let? f := get_obj_factory_from_key_template (p_fs P) t in
                           let? o := key_derive uid f t key in
                           let? o1 := concat_attrs t key other o in set_key f o1 dkm
  | DData t dkm => let? f := get_factory (p_fs P) (CKO_DATA, 0) in
                   let? o := default_object_create uid f t in
                   Ok (put_attr o (from_bytes CKA_VALUE dkm))
  | DPub t mat => let? kt := tmpl_ulong t CKA_KEY_TYPE in
                  let? f := get_factory (p_fs P) (CKO_PUBLIC_KEY, kt) in
                  let? o := default_object_create uid f t in
                  let o1 := put_material o mat in
                  Ok (match get_attr key CKA_KEY_GEN_MECHANISM with Some a => put_attr o1 a | None => o1 end)
  | DCreate t mt => let? f := get_obj_factory_from_key_template (p_fs P) t in
                    let? o := secret_key_create uid f t in
                    Ok (default_key_attributes o mt)
  end.
Fixpoint derived_objects (key : object) (l : list derived) : M token (list object) :=
  match l with
  | [] => ret []
  | d :: r => let! uid := new_uid P in
              let! o := lift (derived_object uid key d) in
              let! os := derived_objects key r in
              ret (o :: os)
  end.
Fixpoint get_objects (hs : list N) : M token (list object) :=
  match hs with
  | [] => ret []
  | h :: r => let! o := get_object_by_handle P h in let! os := get_objects r in ret (o :: os)
  end.
(* Inserting the remaining keys; on failure those inserted before are destroyed, keymgmt.rs:687-702, 733-744. *)
Fixpoint destroy_all (hs : list N) : M token unit :=
  match hs with [] => skip | h :: r => let! _ := attempt (destroy_object P h) in destroy_all r end.
Fixpoint insert_all (sh : N) (os : list object) (done : list N) (also : list N) : M token (list N) :=
  match os with
  | [] => ret done
  | o :: r =>
    let! i := attempt (insert_object P sh o) in
    match i with
    | Ok h => insert_all sh r (done ++ [h]) also
    | Err e => destroy_all (done ++ also);;; fail e
    end
  end.

(* derive_key, src/fns/keymgmt.rs:500-769; the special rules for HKDF from a data object (545-577) are part of
   be_derive.  [extra]: ulAdditionalDerivedKeys of the SP800-108 parameters. *)
Definition c_derive_key (h : N) (m : option mech) (base : N) (tmpl : option (list ckattr)) (ph : bool) (extra : N)
  : M world (N * out) :=
  ensure (nonnull m && nonnull tmpl) CKR_ARGUMENTS_BAD;;;
  let! (mt, param) := deref m in let! t := deref tmpl in
  lock;;;
  let! s := get_session B h in
  ro_check s t;;;
  let sid := s_slot s in
  token_ready B sid;;;
  let! key := tok sid (get_object_by_handle P base) in
  (if (mt =? CKM_PUB_KEY_FROM_PRIV_KEY)
      || (((mt =? CKM_HKDF_DERIVE) || (mt =? CKM_HKDF_DATA)) && (o_class key =? CKO_DATA)) then skip
   else let! d := lift (get_bool key CKA_DERIVE) in ensure d CKR_KEY_FUNCTION_NOT_PERMITTED);;;
  let rv := check_allowed_mechs mt key in
  ensure (rv =? CKR_OK) rv;;;
  let! fl := mech_flags P B sid mt in
  ensure (has_flag fl CKF_DERIVE) CKR_MECHANISM_INVALID;;;
  let! others := tok sid (get_objects (be_derive_needs B mt param)) in
  let! r := tok sid draw in
  let! l := lift (be_derive B mt param key others t r) in
  let! os := tok sid (derived_objects key l) in
  if (mt =? CKM_SP800_108_COUNTER_KDF) || (mt =? CKM_SP800_108_FEEDBACK_KDF)
     || (mt =? CKM_SP800_108_DOUBLE_PIPELINE_KDF) then
    match os with
    | [] => fail CKR_GENERAL_ERROR
    | o :: rest =>
      let! kh := tok sid (insert_object P h o) in
      let! hs := (match rest with
                  | [] => ret []
                  | _ =>
                    ensure (negb (mt =? CKM_SP800_108_DOUBLE_PIPELINE_KDF)) CKR_MECHANISM_INVALID;;;
                    ensure (extra =? N.of_nat (length rest)) CKR_GENERAL_ERROR;;;
                    tok sid (insert_all h rest [] [kh])
                  end) in
      ok (OHandles (kh :: hs))
    end
  else if (mt =? CKM_TLS12_KEY_AND_MAC_DERIVE) || (mt =? CKM_TLS12_KEY_SAFE_DERIVE) then
    ensure ((length os =? 2) || (length os =? 4))%nat CKR_GENERAL_ERROR;;;
    let! hs := tok sid (insert_all h os [] []) in
    ok (OHandles hs)
  else
    match os with
    | [o] => let! kh := tok sid (insert_object P h o) in
             ok (if ph then OHandle kh else ONone)
    | _ => fail CKR_GENERAL_ERROR
    end.

(* encapsulate_key, src/fns/keymgmt.rs:806-905; the mechanism's own check, src/mlkem.rs:395-400. *)
Definition c_encapsulate_key (h : N) (m : option mech) (key : N) (tmpl : option (list ckattr)) (buf : bool)
  (len : option N) (ph : bool) : M world (N * out) :=
  ensure (nonnull m && nonnull tmpl && nonnull len && ph) CKR_ARGUMENTS_BAD;;;
  let! (mt, param) := deref m in let! t := deref tmpl in let! n := deref len in
  lock;;;
  let! s := get_session B h in
  ro_check s t;;;
  let sid := s_slot s in
  token_ready B sid;;;
  let! o := tok sid (get_object_by_handle P key) in
  let rv := check_allowed_mechs mt o in
  ensure (rv =? CKR_OK) rv;;;
  let! f := lift (get_obj_factory_from_key_template (p_fs P) t) in
  let! fl := mech_flags P B sid mt in
  ensure (has_flag fl CKF_ENCAPSULATE) CKR_MECHANISM_INVALID;;;
  let! l := lift (be_encap_len B mt o) in
  if negb buf then ok (OLen l) else
  ensure (l <=? n) CKR_BUFFER_TOO_SMALL;;;
  lift (check_key_ops o CKO_PUBLIC_KEY CKK_ML_KEM CKA_ENCAPSULATE);;;
  let! r := tok sid draw in
  let! (kd, ct) := lift (be_encap B mt param o n r) in
  let! uid := tok sid (new_uid P) in
  let! ob := lift (import_key uid f kd t) in
  let! r := attempt (tok sid (insert_object P h ob)) in
  match r with
  | Ok kh => ok (OBufHandle ct (blen ct) kh)
  | Err e => failed e (OBufOnly ct)
  end.
(* decapsulate_key, src/fns/keymgmt.rs:946-1023; src/mlkem.rs:420-429. *)
Definition c_decapsulate_key (h : N) (m : option mech) (key : N) (tmpl : option (list ckattr)) (d : option bytes)
  (ph : bool) : M world (N * out) :=
  ensure (nonnull m && nonnull tmpl && nonnull d && ph) CKR_ARGUMENTS_BAD;;;
  let! (mt, param) := deref m in let! t := deref tmpl in let! data := deref d in
  lock;;;
  let! s := get_session B h in
  ro_check s t;;;
  let sid := s_slot s in
  token_ready B sid;;;
  let! o := tok sid (get_object_by_handle P key) in
  let rv := check_allowed_mechs mt o in
  ensure (rv =? CKR_OK) rv;;;
  let! f := lift (get_obj_factory_from_key_template (p_fs P) t) in
  let! fl := mech_flags P B sid mt in
  ensure (has_flag fl CKF_DECAPSULATE) CKR_MECHANISM_INVALID;;;
  lift (check_key_ops o CKO_PRIVATE_KEY CKK_ML_KEM CKA_DECAPSULATE);;;
  let! kd := lift (be_decap B mt param o data) in
  let! uid := tok sid (new_uid P) in
  let! ob := lift (import_key uid f kd t) in
  let! kh := tok sid (insert_object P h ob) in
  ok (OHandle kh).

(* ---- src/fns/mod.rs ---- *)

(* seed_random, src/fns/mod.rs:43-53: the session is checked, then the seed is read. *)
Definition c_seed_random (h : N) (seed : option bytes) : M world (N * out) :=
  lock;;;
  let! _ := get_session B h in
  let! _ := deref seed in
  ok ONone.
(* generate_random, src/fns/mod.rs:78-89; [r] stands for the state of the generator. *)
Definition c_generate_random (h : N) (buf : bool) (len r : N) : M world (N * out) :=
  lock;;;
  let! _ := get_session B h in
  if buf then ok (OBuf (be_random B r len) len) else fail RV_NULL_DEREF.

(* ---- histories ---- *)

(* The calls an application can make, and two events of the environment: the process dies (Crash), and the outcome of
   the next database calls of a slot is chosen (Disturb). *)
Inductive call :=
| Initialize (l : list slotconf) | Finalize | Crash | Disturb (sid : N) (l : list (option ioerr))
| GetInfo (p : bool) | GetInterfaceList (n : N) (lst : bool) (count : option N)
| GetSlotList (lst : bool) (count : option N) | GetSlotInfo (sid : N) (p : bool) | GetTokenInfo (sid : N) (p : bool)
| GetMechanismList (sid : N) (lst : bool) (count : option N) | GetMechanismInfo (sid m : N) (p : bool)
| InitToken (sid : N) (pin label : option bytes) | InitPIN (h : N) (pin : option bytes)
| SetPIN (h : N) (old new : option bytes)
| OpenSession (sid fl : N) (ph : bool) | CloseSession (h : N) | CloseAllSessions (sid : N)
| GetSessionInfo (h : N) (p : bool) | GetOperationState (h : N) (buf : bool) (len : option N)
| SetOperationState (h : N) (blob : option bytes) (enc auth : N)
| Login (h ut : N) (pin : option bytes) | Logout (h : N) | SessionCancel (h fl : N)
| CreateObject (h : N) (tmpl : option (list ckattr)) (ph : bool)
| CopyObject (h o : N) (tmpl : option (list ckattr)) (cnt : N) (ph : bool)
| DestroyObject (h o : N) | GetObjectSize (h o : N) (p : bool)
| GetAttributeValue (h o : N) (tmpl : option (list qattr)) (cnt : N)
| SetAttributeValue (h o : N) (tmpl : option (list ckattr)) (cnt : N)
| FindObjectsInit (h : N) (tmpl : option (list ckattr)) (cnt : N) | FindObjects (h : N) (ph : bool) (max : N) (pc : bool)
| FindObjectsFinal (h : N)
| OpInit (k : opk) (h : N) (m : option mech) (key : N) (sig : option bytes) | DigestInit (h : N) (m : option mech)
| Sign (h : N) (d : option bytes) (buf : bool) (len : option N)
| SignUpdate (h : N) (d : option bytes) | SignFinal (h : N) (buf : bool) (len : option N)
| Verify (h : N) (d sig : option bytes) | VerifyUpdate (h : N) (d : option bytes) | VerifyFinal (h : N) (sig : option bytes)
| VerifySignature (h : N) (d : option bytes) | VerifySignatureUpdate (h : N) (d : option bytes)
| VerifySignatureFinal (h : N)
| Digest (h : N) (d : option bytes) (buf : bool) (len : option N) | DigestUpdate (h : N) (d : option bytes)
| DigestKey (h key : N) | DigestFinal (h : N) (buf : bool) (len : option N)
| Encrypt (h : N) (d : option bytes) (buf : bool) (len : option N)
| EncryptUpdate (h : N) (d : option bytes) (buf : bool) (len : option N) | EncryptFinal (h : N) (buf : bool) (len : option N)
| Decrypt (h : N) (d : option bytes) (buf : bool) (len : option N)
| DecryptUpdate (h : N) (d : option bytes) (buf : bool) (len : option N) | DecryptFinal (h : N) (buf : bool) (len : option N)
| EncryptMessage (h : N) (param aad d : option bytes) (buf : bool) (len : option N)
| EncryptMessageBegin (h : N) (param aad : option bytes)
| EncryptMessageNext (h : N) (param d : option bytes) (buf : bool) (len : option N) (fl : N) | MessageEncryptFinal (h : N)
| DecryptMessage (h : N) (param aad d : option bytes) (buf : bool) (len : option N)
| DecryptMessageBegin (h : N) (param aad : option bytes)
| DecryptMessageNext (h : N) (param d : option bytes) (buf : bool) (len : option N) (fl : N) | MessageDecryptFinal (h : N)
| DigestEncryptUpdate (h : N) (d : option bytes) (buf : bool) (len : option N)
| DecryptDigestUpdate (h : N) (d : option bytes) (buf : bool) (len : option N)
| SignEncryptUpdate (h : N) (d : option bytes) (buf : bool) (len : option N)
| DecryptVerifyUpdate (h : N) (d : option bytes) (buf : bool) (len : option N)
| GenerateKey (h : N) (m : option mech) (tmpl : option (list ckattr)) (ph : bool)
| GenerateKeyPair (h : N) (m : option mech) (tpub tprv : option (list ckattr)) (p1 p2 : bool)
| WrapKey (h : N) (m : option mech) (wkey key : N) (buf : bool) (len : option N)
| UnwrapKey (h : N) (m : option mech) (wkey : N) (d : option bytes) (tmpl : option (list ckattr)) (ph : bool)
| DeriveKey (h : N) (m : option mech) (base : N) (tmpl : option (list ckattr)) (ph : bool) (extra : N)
| EncapsulateKey (h : N) (m : option mech) (key : N) (tmpl : option (list ckattr)) (buf : bool) (len : option N) (ph : bool)
| DecapsulateKey (h : N) (m : option mech) (key : N) (tmpl : option (list ckattr)) (d : option bytes) (ph : bool)
| SeedRandom (h : N) (seed : option bytes) | GenerateRandom (h : N) (buf : bool) (len r : N).

(* The outcomes of the database calls of a slot are not under the control of the module. *)
Definition disturb (sid : N) (l : list (option ioerr)) (w : world) : world :=
  set_slots B (alter (fun sl => put_token B (set_io l (sl_token sl)) sl) sid (w_slots w)) w.

Definition api (c : call) : M world (N * out) :=
  match c with
  | Initialize l => c_initialize l | Finalize => c_finalize
  | Crash => modify stop;;; ok ONone | Disturb sid l => modify (disturb sid l);;; ok ONone
  | GetInfo p => c_get_info p | GetInterfaceList n l c => c_get_interface_list n l c
  | GetSlotList l c => c_get_slot_list l c | GetSlotInfo s p => c_get_slot_info s p
  | GetTokenInfo s p => c_get_token_info s p | GetMechanismList s l c => c_get_mechanism_list s l c
  | GetMechanismInfo s m p => c_get_mechanism_info s m p
  | InitToken s p l => c_init_token s p l | InitPIN h p => c_init_pin h p | SetPIN h o n => c_set_pin h o n
  | OpenSession s f p => c_open_session s f p | CloseSession h => c_close_session h
  | CloseAllSessions s => c_close_all_sessions s | GetSessionInfo h p => c_get_session_info h p
  | GetOperationState h b l => c_get_operation_state h b l
  | SetOperationState h b e a => c_set_operation_state h b e a
  | Login h u p => c_login h u p | Logout h => c_logout h | SessionCancel h f => c_session_cancel h f
  | CreateObject h t p => c_create_object h t p | CopyObject h o t c p => c_copy_object h o t c p
  | DestroyObject h o => c_destroy_object h o | GetObjectSize h o p => c_get_object_size h o p
  | GetAttributeValue h o t c => c_get_attribute_value h o t c
  | SetAttributeValue h o t c => c_set_attribute_value h o t c
  | FindObjectsInit h t c => c_find_objects_init h t c | FindObjects h p m q => c_find_objects h p m q
  | FindObjectsFinal h => c_find_objects_final h
  | OpInit k h m key sg =>
    match k with
    | KSearch | KDigest => fail CKR_FUNCTION_NOT_SUPPORTED     (* not an entry point *)
    | _ => op_init k h m key sg
    end
  | DigestInit h m => c_digest_init h m
  | Sign h d b l => c_sign h d b l | SignUpdate h d => c_update KSign h d | SignFinal h b l => c_sign_final h b l
  | Verify h d s => c_verify h d s | VerifyUpdate h d => c_update KVerify h d | VerifyFinal h s => c_verify_final h s
  | VerifySignature h d => c_verify_signature h d | VerifySignatureUpdate h d => c_update KVerifySig h d
  | VerifySignatureFinal h => c_verify_signature_final h
  | Digest h d b l => c_digest h d b l | DigestUpdate h d => c_update KDigest h d | DigestKey h k => c_digest_key h k
  | DigestFinal h b l => c_digest_final h b l
  | Encrypt h d b l => c_crypt KEnc h d b l | EncryptUpdate h d b l => c_crypt_update KEnc h d b l
  | EncryptFinal h b l => c_crypt_final KEnc h b l
  | Decrypt h d b l => c_crypt KDec h d b l | DecryptUpdate h d b l => c_crypt_update KDec h d b l
  | DecryptFinal h b l => c_crypt_final KDec h b l
  | EncryptMessage h p a d b l => c_message KMsgEnc h p a d b l | EncryptMessageBegin h p a => c_message_begin KMsgEnc h p a
  | EncryptMessageNext h p d b l f => c_message_next KMsgEnc h p d b l f | MessageEncryptFinal h => c_message_final KMsgEnc h
  | DecryptMessage h p a d b l => c_message KMsgDec h p a d b l | DecryptMessageBegin h p a => c_message_begin KMsgDec h p a
  | DecryptMessageNext h p d b l f => c_message_next KMsgDec h p d b l f | MessageDecryptFinal h => c_message_final KMsgDec h
  | DigestEncryptUpdate h d b l => c_dual KDigest KEnc false h d b l
  | DecryptDigestUpdate h d b l => c_dual KDigest KDec true h d b l
  | SignEncryptUpdate h d b l => c_dual KSign KEnc false h d b l
  | DecryptVerifyUpdate h d b l => c_dual KVerify KDec true h d b l
  | GenerateKey h m t p => c_generate_key h m t p | GenerateKeyPair h m t1 t2 p1 p2 => c_generate_key_pair h m t1 t2 p1 p2
  | WrapKey h m w k b l => c_wrap_key h m w k b l | UnwrapKey h m w d t p => c_unwrap_key h m w d t p
  | DeriveKey h m k t p x => c_derive_key h m k t p x
  | EncapsulateKey h m k t b l p => c_encapsulate_key h m k t b l p
  | DecapsulateKey h m k t d p => c_decapsulate_key h m k t d p
  | SeedRandom h s => c_seed_random h s | GenerateRandom h b l r => c_generate_random h b l r
  end.

(* One call: the new state, the return value and what was written to the caller's memory. *)
Definition step (w : world) (c : call) : world * (N * out) :=
  match api c w with
  | (w', Ok r) => (w', r)
  | (w', Err e) => (w', (e, ONone))
  end.
(* A history and its trace. *)
Fixpoint run (w : world) (cs : list call) : world * list (N * out) :=
  match cs with
  | [] => (w, [])
  | c :: r => let '(w', o) := step w c in let '(w'', os) := run w' r in (w'', o :: os)
  end.
(* The process has not called C_Initialize yet; the databases are arbitrary. *)
Definition init_world (ds : gmap N disk) : world := World ∅ ∅ 0 ds.
End api.
