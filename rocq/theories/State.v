(* Sessions, slots and the module state: src/session.rs, src/slot.rs, src/lib.rs. *)
From Verif Require Import Base Monad Attr Obj Factory Create Sqlite Storage Token Backend.

(* enum OpLoginStatus, src/session.rs:53-62. *)
Inductive login_status := LNotInitialized | LNotRequired | LRequired | LOk.

Section state.
Context (P : params) (B : backend).

(* An active operation: a search (SessionSearch, src/session.rs:23-28) or an operation of the backend. *)
Inductive operation := OpSearch (l : list N) | OpCrypt (x : be_st B).

(* struct Session, src/session.rs:310-321, with CK_SESSION_INFO reduced to slot, state and flags. *)
Record session := Session {
  s_slot : N; s_state : N; s_flags : N;
  s_ops : gmap opk operation;
  s_login : login_status }.

Definition set_state st (s : session) : session := Session (s_slot s) st (s_flags s) (s_ops s) (s_login s).
Definition set_ops m (s : session) : session := Session (s_slot s) (s_state s) (s_flags s) m (s_login s).
Definition set_login l (s : session) : session := Session (s_slot s) (s_state s) (s_flags s) (s_ops s) l.

Definition has_flag (fl f : N) : bool := N.land fl f =? f.

(* Session::new, src/session.rs:325-371. *)
Definition session_new (sid ut fl : N) : result session :=
  check has_flag fl CKF_SERIAL_SESSION else CKR_ARGUMENTS_BAD in
  let rw := has_flag fl CKF_RW_SESSION in
  let? st := (if ut =? CK_UNAVAILABLE_INFORMATION then Ok (if rw then CKS_RW_PUBLIC_SESSION else CKS_RO_PUBLIC_SESSION)
              else if ut =? CKU_USER then Ok (if rw then CKS_RW_USER_FUNCTIONS else CKS_RO_USER_FUNCTIONS)
              else if ut =? CKU_SO then if rw then Ok CKS_RW_USER_FUNCTIONS else Err CKR_OPERATION_NOT_INITIALIZED
              else Err CKR_GENERAL_ERROR) in
  Ok (Session sid st fl ∅ LNotInitialized).

(* Session::change_session_state, src/session.rs:427-479. *)
Definition change_session_state (ut : N) (s : session) : session * N :=
  let st := s_state s in
  if st =? CKS_RO_PUBLIC_SESSION then
    if ut =? CK_UNAVAILABLE_INFORMATION then (s, CKR_OK)
    else if ut =? CKU_USER then (set_state CKS_RO_USER_FUNCTIONS s, CKR_OK)
    else if ut =? CKU_SO then (s, CKR_OPERATION_NOT_INITIALIZED)
    else (s, CKR_USER_TYPE_INVALID)
  else if st =? CKS_RW_PUBLIC_SESSION then
    if ut =? CK_UNAVAILABLE_INFORMATION then (s, CKR_OK)
    else if ut =? CKU_USER then (set_state CKS_RW_USER_FUNCTIONS s, CKR_OK)
    else if ut =? CKU_SO then (set_state CKS_RW_SO_FUNCTIONS s, CKR_OK)
    else (s, CKR_USER_TYPE_INVALID)
  else if st =? CKS_RO_USER_FUNCTIONS then
    if ut =? CK_UNAVAILABLE_INFORMATION then (set_state CKS_RO_PUBLIC_SESSION s, CKR_OK)
    else if ut =? CKU_USER then (s, CKR_OK)
    else if ut =? CKU_SO then (s, CKR_USER_ANOTHER_ALREADY_LOGGED_IN)
    else (s, CKR_USER_TYPE_INVALID)
  else if st =? CKS_RW_USER_FUNCTIONS then
    if ut =? CK_UNAVAILABLE_INFORMATION then (set_state CKS_RW_PUBLIC_SESSION s, CKR_OK)
    else if ut =? CKU_USER then (s, CKR_OK)
    else if ut =? CKU_SO then (s, CKR_USER_ANOTHER_ALREADY_LOGGED_IN)
    else (s, CKR_USER_TYPE_INVALID)
  else if st =? CKS_RW_SO_FUNCTIONS then
    if ut =? CK_UNAVAILABLE_INFORMATION then (set_state CKS_RW_PUBLIC_SESSION s, CKR_OK)
    else if ut =? CKU_USER then (s, CKR_USER_ANOTHER_ALREADY_LOGGED_IN)
    else if ut =? CKU_SO then (s, CKR_OK)
    else (s, CKR_USER_TYPE_INVALID)
  else (s, CKR_GENERAL_ERROR).

(* Session::is_writable, src/session.rs:482-489. *)
Definition is_writable (s : session) : bool :=
  (s_state s =? CKS_RW_PUBLIC_SESSION) || (s_state s =? CKS_RW_USER_FUNCTIONS) || (s_state s =? CKS_RW_SO_FUNCTIONS).

(* finalized of the operation; a search never is (src/session.rs:46-48). *)
Definition op_final (o : operation) : bool := match o with OpSearch _ => false | OpCrypt x => be_final B x end.

(* The ManageOperation functions, src/session.rs:79-116. *)
Definition op_active (s : session) (k : opk) : bool :=
  match s_ops s !! k with Some o => negb (op_final o) | None => false end.
Definition cancel_op (k : opk) (s : session) : session := set_ops (delete k (s_ops s)) s.
Definition get_op (s : session) (k : opk) : result operation :=
  match s_ops s !! k with
  | Some o => if op_final o then Err CKR_OPERATION_NOT_INITIALIZED else Ok o
  | None => Err CKR_OPERATION_NOT_INITIALIZED
  end.
(* Session::check_login_status, src/session.rs:528-537. *)
Definition check_login_status (s : session) : result unit :=
  match s_login s with
  | LNotInitialized => Err CKR_OPERATION_NOT_INITIALIZED
  | LRequired => Err CKR_USER_NOT_LOGGED_IN
  | LNotRequired | LOk => Ok tt
  end.
(* Session::get_operation, src/session.rs:542-547. *)
Definition get_operation (s : session) (k : opk) : result operation :=
  let? _ := check_login_status s in get_op s k.
(* Session::set_operation, src/session.rs:553-566. *)
Definition set_operation (k : opk) (o : operation) (needs : bool) (s : session) : session :=
  set_login (if needs then LRequired else LNotRequired) (set_ops (<[k := o]> (s_ops s)) s).
(* An operation is changed in place. *)
Definition put_op (k : opk) (o : operation) (s : session) : session := set_ops (<[k := o]> (s_ops s)) s.

(* struct Slot, src/slot.rs:21-30; [sl_disk] names the database the token was opened on. *)
Record slot := Slot { sl_token : token; sl_sessions : gmap N session; sl_disk : N }.
Definition put_token t (sl : slot) : slot := Slot t (sl_sessions sl) (sl_disk sl).
Definition put_sessions m (sl : slot) : slot := Slot (sl_token sl) m (sl_disk sl).

(* What survives the process: a database, and the number of random draws made for it so far. *)
Record disk := Disk { k_db : db; k_fresh : N }.

(* struct State, src/lib.rs:84-94, and the databases. *)
Record world := World {
  w_slots : gmap N slot;
  w_smap : gmap N N;
  w_next : N;
  w_disks : gmap N disk }.
Definition set_slots m (w : world) : world := World m (w_smap w) (w_next w) (w_disks w).
Definition set_smap m (w : world) : world := World (w_slots w) m (w_next w) (w_disks w).
Definition set_next n (w : world) : world := World (w_slots w) (w_smap w) n (w_disks w).

(* State::is_initialized, src/lib.rs:133-135; GlobalState::rlock and wlock, 350-372. *)
Definition initialized (w : world) : bool := negb (w_next w =? 0).
Definition lock : M world unit :=
  let! b := gets initialized in ensure b CKR_CRYPTOKI_NOT_INITIALIZED.

(* State::get_slot and get_slot_mut, src/lib.rs:139-158. *)
Definition get_slot (sid : N) : M world slot :=
  let! b := gets initialized in
  ensure b CKR_CRYPTOKI_NOT_INITIALIZED;;;
  let! o := gets (fun w => w_slots w !! sid) in
  match o with Some s => ret s | None => fail CKR_SLOT_ID_INVALID end.
Definition put_slot (sid : N) (s : slot) : M world unit :=
  modify (fun w => set_slots (<[sid := s]> (w_slots w)) w).

(* The sessionmap lookup of State::get_session, get_session_mut, get_token_from_session and drop_session,
   src/lib.rs:189-318. *)
Definition session_slot (h : N) : M world N :=
  let! o := gets (fun w => w_smap w !! h) in
  match o with Some s => ret s | None => fail CKR_SESSION_HANDLE_INVALID end.
(* State::get_session and get_session_mut, src/lib.rs:187-207, with Slot::get_session, src/slot.rs:149-176. *)
Definition get_session (h : N) : M world session :=
  let! sid := session_slot h in
  let! sl := get_slot sid in
  match sl_sessions sl !! h with Some s => ret s | None => fail CKR_SESSION_HANDLE_INVALID end.
(* The session behind a write guard is changed. *)
Definition upd_session (h : N) (f : session -> session) : M world unit :=
  let! sid := session_slot h in
  let! sl := get_slot sid in
  put_slot sid (put_sessions (alter f h (sl_sessions sl)) sl).

(* Running a function of the token in a slot. *)
Definition tok {A} (sid : N) (m : M token A) : M world A :=
  let! sl := get_slot sid in
  let '(t, r) := m (sl_token sl) in
  put_slot sid (put_token t sl);;;
  lift r.
(* Slot::get_token and get_token_mut, src/slot.rs:108-140: State::get_token_from_slot(_mut), src/lib.rs:279-291. *)
Definition token_ready (sid : N) : M world unit :=
  let! sl := get_slot sid in
  ensure (tk_initialized (sl_token sl)) CKR_TOKEN_NOT_INITIALIZED.
(* State::get_token_from_session(_mut), src/lib.rs:300-322: the slot of the token. *)
Definition token_of_session (h : N) : M world N :=
  let! sid := session_slot h in
  token_ready sid;;;
  ret sid.

(* Slot::has_ro_sessions, src/slot.rs:185-193. *)
Definition has_ro (sl : slot) : bool :=
  existsb (fun p => (s_state (snd p) =? CKS_RO_PUBLIC_SESSION) || (s_state (snd p) =? CKS_RO_USER_FUNCTIONS))
    (map_to_list (sl_sessions sl)).
(* Slot::change_session_states, src/slot.rs:197-205: stops at the first session refusing the change. *)
Fixpoint change_states (ut : N) (l : list (N * session)) (m : gmap N session) : gmap N session * result unit :=
  match l with
  | [] => (m, Ok tt)
  | (h, s) :: r =>
    let '(s', rv) := change_session_state ut s in
    let m' := <[h := s']> m in
    if rv =? CKR_OK then change_states ut r m' else (m', Err rv)
  end.
Definition change_session_states (sid ut : N) : M world unit :=
  let! sl := get_slot sid in
  let '(m, r) := change_states ut (map_to_list (sl_sessions sl)) (sl_sessions sl) in
  put_slot sid (put_sessions m sl);;;
  lift r.
(* Slot::invalidate_session_states, src/slot.rs:208-215. *)
Definition invalidate_session_states (sid : N) : M world unit :=
  let! sl := get_slot sid in
  put_slot sid (put_sessions ((fun s => fst (change_session_state CK_UNAVAILABLE_INFORMATION s)) <$> sl_sessions sl) sl).

(* State::new_session, src/lib.rs:209-221. *)
Definition new_session (sid ut fl : N) : M world N :=
  let! h := gets w_next in
  let! sl := get_slot sid in
  let! s := lift (session_new sid ut fl) in
  put_slot sid (put_sessions (<[h := s]> (sl_sessions sl)) sl);;;
  modify (fun w => set_smap (<[h := sid]> (w_smap w)) w);;;
  modify (fun w => set_next (w_next w + 1) w);;;
  ret h.

(* State::drop_session, src/lib.rs:252-265, Slot::drop_session and has_sessions, src/slot.rs:179-181,218-220. *)
Definition drop_session (h : N) : M world unit :=
  let! sid := session_slot h in
  let! sl := get_slot sid in
  put_slot sid (put_sessions (delete h (sl_sessions sl)) sl);;;
  modify (fun w => set_smap (delete h (w_smap w)) w);;;
  let! sl := get_slot sid in
  if bool_decide (sl_sessions sl = ∅) then
    token_ready sid;;;
    let! _ := attempt (tok sid (tk_logout)) in skip
  else skip.

(* State::drop_all_sessions_slot, src/lib.rs:268-277, and Slot::drop_all_sessions, src/slot.rs:224-232. *)
Definition drop_all_sessions_slot (sid : N) : M world (list N) :=
  modify (fun w => set_smap (filter (fun p => p.2 <> sid) (w_smap w)) w);;;
  let! sl := get_slot sid in
  put_slot sid (put_sessions ∅ sl);;;
  ret (map fst (map_to_list (sl_sessions sl))).

(* check_allowed_mechs, src/lib.rs:523-550. *)
Fixpoint mech_listed (n : nat) (m : N) (l : bytes) : bool :=
  match n with
  | O => false
  | S n' => (unle (firstn 8 l) =? m) || mech_listed n' m (skipn 8 l)
  end.
Definition check_allowed_mechs (m : N) (o : object) : N :=
  match get_attr o CKA_ALLOWED_MECHANISMS with
  | None => CKR_OK
  | Some a => if negb (blen (a_val a) mod 8 =? 0) then CKR_GENERAL_ERROR
              else if mech_listed (length (a_val a) / 8) m (a_val a) then CKR_OK else CKR_MECHANISM_INVALID
  end.

(* Mechanisms::get, src/mechanism.rs:254-260, on the list of the token. *)
Definition mech_flags (sid m : N) : M world N :=
  let! sl := get_slot sid in
  match List.filter (fun p => fst p =? m) (mechanisms P (sl_token sl)) with
  | p :: _ => ret (snd p)
  | [] => fail CKR_MECHANISM_INVALID
  end.
End state.

Arguments Session {B}. Arguments OpSearch {B}. Arguments OpCrypt {B}. Arguments Slot {B}. Arguments World {B}.
Arguments s_slot {B}. Arguments s_state {B}. Arguments s_flags {B}. Arguments s_ops {B}. Arguments s_login {B}.
Arguments sl_token {B}. Arguments sl_sessions {B}. Arguments sl_disk {B}.
Arguments w_slots {B}. Arguments w_smap {B}. Arguments w_next {B}. Arguments w_disks {B}.
