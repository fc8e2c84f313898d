(* The locks of the module and the order in which every call takes and releases them. *)
From Verif Require Import Base Monad Attr Obj Factory Create Sqlite Storage Token Backend State Api.

(* CONFIG (src/lib.rs:449-453), STATE (src/lib.rs:384-393), the token of a slot (src/slot.rs:34-50, RwLock<Token>), a session of a slot
   (HashMap of RwLock<Session>, same place), and the connection of the token's database (src/storage/sqlite.rs:67,
   a Mutex: only ever taken as a writer). *)
Inductive lock := LConfig | LState | LToken (s : N) | LSession (s h : N) | LDb (s : N).
Inductive mode := R | W.
Inductive act := Acq (l : lock) (m : mode) | Rel (l : lock).

(* What a call finds out while it runs: the slot of each session, the sessions and slots there are, how many database
   calls are made under the token lock, whether the operation changes its key (updates_object), whether the last
   session is closed, what Token::login returned, and after how many sessions change_session_states failed. *)
Record view := View {
  v_slot : N -> N; v_sessions : N -> list N; v_slots : list N; v_db : nat; v_updates : bool; v_last : bool;
  v_login : N; v_fail : option nat }.

Section scripts.
(* The "fips" feature of the build. *)
Context (fips : bool) (v : view).

Definition with_lock (l : lock) (m : mode) (body : list act) : list act := Acq l m :: body ++ [Rel l].
(* Every method of SqliteStorage locks the connection once: src/storage/sqlite.rs:391-700. *)
Definition db_calls (s : N) : list act := mjoin (replicate (v_db v) (with_lock (LDb s) W [])).
Definition with_token (s : N) (m : mode) : list act := with_lock (LToken s) m (db_calls s).
Definition session_lock (h : N) (m : mode) (body : list act) : list act := with_lock (LSession (v_slot v h) h) m body.

(* The shapes.  A guard bound by `let` is dropped when the function returns. *)
Definition state_only : list act := with_lock LState R [].
Definition token_only (s : N) (m : mode) : list act := with_lock LState R (with_token s m).
Definition session_only (h : N) (m : mode) : list act := with_lock LState R (session_lock h m []).
Definition session_token (h : N) (ms mt : mode) : list act :=
  with_lock LState R (session_lock h ms (with_token (v_slot v h) mt)).
(* sign, verify, ...: the token only if updates_object gives something, src/fns/signing.rs:117-122. *)
Definition session_maybe_token (h : N) : list act :=
  with_lock LState R (session_lock h W (if v_updates v then with_token (v_slot v h) W else [])).
(* Slot::change_session_states and invalidate_session_states, src/slot.rs:197-216, and has_ro_sessions, 185-193: one
   session after the other. *)
Definition each_session (m : mode) (l : list N) (s : N) : list act := mjoin (map (fun h => with_lock (LSession s h) m []) l).
(* generate_key etc. take the session for writing in a fips build, src/fns/keymgmt.rs:33-42. *)
Definition key_mode : mode := if fips then W else R.
(* derive_key, encapsulate_key, decapsulate_key in a fips build release the session and take it again for writing with
   the token still held, src/fns/keymgmt.rs:624-640, 877-890, 1002-1015. *)
Definition key_again (h : N) : list act :=
  let s := v_slot v h in
  if fips then
    with_lock LState R ([Acq (LSession s h) R; Acq (LToken s) W] ++ db_calls s ++ [Rel (LSession s h)] ++
                        session_lock h W [] ++ db_calls s ++ [Rel (LToken s)])
  else session_token h R W.

(* login, src/fns/sessmgmt.rs:289-347. *)
Definition login_acts (h ut : N) : list act :=
  let s := v_slot v h in
  let all := v_sessions v s in
  with_lock LState R (
    session_lock h R [] ++
    (if ut =? CKU_SO then each_session R all s else []) ++
    with_lock (LToken s) W (
      if ut =? CKU_CONTEXT_SPECIFIC then
        session_lock h W [] ++ db_calls s ++
        (if v_login v =? CKR_OK then session_lock h W []
         else if v_login v =? CKR_PIN_LOCKED then db_calls s ++ each_session W all s else [])
      else
        db_calls s ++
        (if v_login v =? CKR_OK then
           match v_fail v with
           | None => each_session W all s
           | Some k => each_session W (take k all) s ++ db_calls s ++ each_session W all s
           end
         else []))).
(* logout, src/fns/sessmgmt.rs:371-386. *)
Definition logout_acts (h : N) : list act :=
  let s := v_slot v h in
  with_lock LState R (session_lock h R [] ++
    with_lock (LToken s) W (db_calls s ++ each_session W (v_sessions v s) s)).

Definition script (c : call) : list act :=
  match c with
  (* src/fns/general.rs:20-80: new slots open their database *)
  | Initialize l => with_lock LConfig W (with_lock LState W (mjoin (map (fun x => db_calls (sc_id x)) l)))
  (* src/fns/general.rs:100-106, src/lib.rs:112-131, src/slot.rs:236-239 *)
  | Finalize => with_lock LConfig W (with_lock LState W (mjoin (map (fun s => with_token s W) (v_slots v))))
  | Crash | Disturb _ _ => []                                     (* not calls of the module *)
  | GetInfo _ | GetInterfaceList _ _ _ => []                      (* src/fns/general.rs:122-225 *)
  | GetSlotList _ _ | GetSlotInfo _ _ => state_only               (* src/fns/stmgmt.rs:26, 82 *)
  | GetTokenInfo s _ => token_only s R                            (* src/fns/stmgmt.rs:113-115 *)
  | GetMechanismList s _ _ | GetMechanismInfo s _ _ => token_only s R   (* src/fns/stmgmt.rs:147, 206 *)
  | InitToken s _ _ => token_only s W                             (* src/fns/stmgmt.rs:244-254 *)
  | InitPIN h _ => token_only (v_slot v h) W                      (* src/fns/stmgmt.rs:298-299 *)
  | SetPIN h _ _ => session_token h R W                           (* src/fns/stmgmt.rs:339-354 *)
  (* src/fns/sessmgmt.rs:31-43 *)
  | OpenSession s _ _ => with_lock LState W (with_token s R)
  (* src/fns/sessmgmt.rs:79-84, src/lib.rs:248-264 *)
  | CloseSession h => let s := v_slot v h in
      with_lock LState W (with_token s W ++ if v_last v then with_token s W else [])
  | CloseAllSessions s => with_lock LState W (with_token s W)     (* src/fns/sessmgmt.rs:102-110 *)
  | GetSessionInfo h _ => session_only h R                        (* src/fns/sessmgmt.rs:134-135 *)
  | GetOperationState h _ _ => session_token h W R                (* src/fns/sessmgmt.rs:164-187 *)
  | SetOperationState h _ _ _ => session_token h W W              (* src/fns/sessmgmt.rs:233-240 *)
  | Login h ut _ => login_acts h ut
  | Logout h => logout_acts h
  | SessionCancel h _ => session_only h W                         (* src/fns/sessmgmt.rs:449-450 *)
  | CreateObject h _ _ => session_token h key_mode W              (* src/fns/objmgmt.rs:31-54 *)
  | CopyObject h _ _ _ _ => session_token h R W                   (* src/fns/objmgmt.rs:133-148 *)
  | DestroyObject h _ => session_token h R W                      (* src/fns/objmgmt.rs:193-196 *)
  | GetObjectSize h _ _ => token_only (v_slot v h) R              (* src/fns/objmgmt.rs:234-235 *)
  (* src/fns/objmgmt.rs:285-309: the configuration is unlocked before the state is locked *)
  | GetAttributeValue h _ _ _ => with_lock LConfig R [] ++ token_only (v_slot v h) W
  | SetAttributeValue h _ _ _ => session_token h R W              (* src/fns/objmgmt.rs:403-406 *)
  | FindObjectsInit h _ _ => session_token h W W                  (* src/fns/objmgmt.rs:459-462 *)
  | FindObjects h _ _ _ | FindObjectsFinal h => session_only h W  (* src/fns/objmgmt.rs:508-509, 564-565 *)
  (* src/fns/encryption.rs:28-38, 308-317, 585-594, 977-986, src/fns/signing.rs:28-38, 319-328, 716-725 *)
  | OpInit k h _ _ _ => match k with KSearch | KDigest => [] (* not an entry point *) | _ => session_token h W W end
  | DigestInit h _ => session_token h W R                         (* src/fns/digest.rs:26-36 *)
  (* src/fns/signing.rs:92-118, 223-246, 382-399, 500-515, 792-801, 880-887 *)
  | Sign h _ _ _ | SignFinal h _ _ | Verify h _ _ | VerifyFinal h _ | VerifySignature h _ | VerifySignatureFinal h =>
      session_maybe_token h
  (* src/fns/signing.rs:186, 463, 847, src/fns/digest.rs:76, 161, 250 *)
  | SignUpdate h _ | VerifyUpdate h _ | VerifySignatureUpdate h _
  | Digest h _ _ _ | DigestUpdate h _ | DigestFinal h _ _ => session_only h W
  | DigestKey h _ => session_token h W W                          (* src/fns/digest.rs:194-198 *)
  (* src/fns/encryption.rs:94, 194, 244, 371, 475, 528, 663, 858, 949, 1057, 1252, 1339 *)
  | Encrypt h _ _ _ | EncryptUpdate h _ _ _ | EncryptFinal h _ _
  | Decrypt h _ _ _ | DecryptUpdate h _ _ _ | DecryptFinal h _ _
  | EncryptMessage h _ _ _ _ _ | EncryptMessageNext h _ _ _ _ _ | MessageEncryptFinal h
  | DecryptMessage h _ _ _ _ _ | DecryptMessageNext h _ _ _ _ _ | MessageDecryptFinal h => session_only h W
  (* src/fns/encryption.rs:767-779, 1161-1173 *)
  | EncryptMessageBegin h _ _ | DecryptMessageBegin h _ _ => session_token h W W
  (* src/fns/dualcrypto.rs:34, 97, 161, 224 *)
  | DigestEncryptUpdate h _ _ _ | DecryptDigestUpdate h _ _ _
  | SignEncryptUpdate h _ _ _ | DecryptVerifyUpdate h _ _ _ => session_only h W
  (* src/fns/keymgmt.rs:32-57, 135-166, 266-280, 388-414 *)
  | GenerateKey h _ _ _ | GenerateKeyPair h _ _ _ _ _ | WrapKey h _ _ _ _ _ | UnwrapKey h _ _ _ _ _ =>
      session_token h key_mode W
  (* src/fns/keymgmt.rs:512-640, 824-890, 964-1015 *)
  | DeriveKey h _ _ _ _ _ | EncapsulateKey h _ _ _ _ _ _ | DecapsulateKey h _ _ _ _ _ => key_again h
  (* src/fns/mod.rs:49, 84: dropped before anything else is done *)
  | SeedRandom h _ | GenerateRandom h _ _ _ => session_only h R
  end.
End scripts.

(* ---- threads ---- *)
(* A thread: the locks it holds, what is left of the call it is in, and the calls after it. *)
Record thread := Thread { t_held : list (lock * mode); t_todo : list act; t_rest : list (list act) }.

Definition conflict (a b : mode) : bool := match a, b with R, R => false | _, _ => true end.
(* std::sync::RwLock: no thread, not even the same one, holds the lock in a conflicting mode. *)
Definition free (ths : list thread) (l : lock) (m : mode) : Prop :=
  forall t m', In t ths -> In (l, m') (t_held t) -> conflict m m' = false.

#[export] Instance lock_eq_dec : EqDecision lock.
Proof. solve_decision. Defined.
Definition release (l : lock) (held : list (lock * mode)) : list (lock * mode) :=
  List.filter (fun p => negb (bool_decide (p.1 = l))) held.

Inductive step (ths : list thread) : list thread -> Prop :=
| step_call i s r :                  (* the next call begins *)
    ths !! i = Some (Thread [] [] (s :: r)) ->
    step ths (<[i := Thread [] s r]> ths)
| step_acq i held l m td r :         (* a lock is taken *)
    ths !! i = Some (Thread held (Acq l m :: td) r) -> free ths l m ->
    step ths (<[i := Thread ((l, m) :: held) td r]> ths)
| step_rel i held l td r :           (* a guard is dropped *)
    ths !! i = Some (Thread held (Rel l :: td) r) ->
    step ths (<[i := Thread (release l held) td r]> ths)
| step_bail i held td r :            (* the call returns early, which drops all its guards *)
    ths !! i = Some (Thread held td r) ->
    step ths (<[i := Thread [] [] r]> ths).
Definition start (prog : list (list (list act))) : list thread := map (Thread [] []) prog.
Definition reached (prog : list (list (list act))) : list thread -> Prop := rtc step (start prog).
