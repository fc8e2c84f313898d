(* Vocabulary of the properties about PINs: which calls check the PIN of a user, how many failed in a row, which PIN was set last. *)
From Verif Require Import Base Monad Attr Obj Factory Create Sqlite Storage Token Backend State Api Spec.

Section spec.
Context (P : params) (B : backend) (E : N -> keyenv).
Notation world := (world B). Notation rv := (rv P B E). Notation after := (after P B E).

(* The database of each slot is named after the slot, so that it is the same one after every restart and no two slots
   share one. *)
Definition steady (c : call) : bool := match c with Initialize l => forallb (fun s => sc_disk s =? sc_id s) l | _ => true end.

(* What is stored for a slot: by the running token, else on disk. *)
Definition db_at (w : world) (sid : N) : db :=
  match w_slots w !! sid with
  | Some sl => t_db (sl_token sl)
  | None => match w_disks w !! sid with Some k => k_db k | None => db_new end
  end.
(* The row of a user, and the number of failures recorded there. *)
Definition user_row (u : N) : N := if u =? CKU_SO then SO_ID else USER_ID.
Definition record_of (w : world) (sid u : N) : result auth_info := fetch_user (db_at w sid) (user_row u).
Definition failures (w : world) (sid u : N) : option N := match record_of w sid u with Ok i => Some (ai_cur i) | Err _ => None end.

(* No failure of the database of the slot is to come. *)
Definition healthy (w : world) (sid : N) : bool :=
  match token_of B w sid with Some t => match t_io t with [] => true | _ => false end | None => true end.

(* The user whose PIN a call checks, and on which slot. *)
Definition is_user (u : N) : bool := (u =? CKU_SO) || (u =? CKU_USER).
Definition attempt_on (w : world) (c : call) : option (N * N) :=
  match c with
  | Login h ut _ =>
    match slot_of B w h with
    | Some sid => let u := if ut =? CKU_CONTEXT_SPECIFIC then default KRY_UNSPEC (logged B w sid) else ut in
                  if is_user u then Some (sid, u) else None
    | None => None
    end
  | SetPIN h _ _ =>
    match slot_of B w h with
    | Some sid => let u := default KRY_UNSPEC (logged B w sid) in Some (sid, if is_user u then u else CKU_USER)
    | None => None
    end
  | InitToken sid _ _ =>
    match token_of B w sid with
    | Some t => if tk_initialized t then Some (sid, CKU_SO) else None
    | None => None
    end
  | _ => None
  end.
(* The PIN it is checked against. *)
Definition pin_given (c : call) : bytes :=
  default [] (match c with Login _ _ p | SetPIN _ p _ | InitToken _ p _ => p | _ => None end).
Definition wrong_pin (r : N) : bool := (r =? CKR_PIN_INCORRECT) || (r =? CKR_PIN_LOCKED).
(* The call was refused before anything was done. *)
Definition refusals : list N :=
  [CKR_CRYPTOKI_NOT_INITIALIZED; CKR_SLOT_ID_INVALID; CKR_SESSION_EXISTS; CKR_SESSION_HANDLE_INVALID; CKR_SESSION_READ_ONLY;
   CKR_TOKEN_NOT_PRESENT; CKR_PIN_INVALID].
(* No other failure answers with one of these codes. *)
Definition told_apart (e : N) : bool :=
  negb (existsb (N.eqb e) (CKR_OK :: CKR_PIN_INCORRECT :: CKR_PIN_LOCKED :: CKR_PIN_EXPIRED :: CKR_USER_ANOTHER_ALREADY_LOGGED_IN :: refusals)).
Definition refused (w : world) (sid : N) (c : call) : bool :=
  let r := rv w c in
  match c with
  | Login _ _ _ => negb (r =? CKR_OK) &&
      negb ((r =? CKR_USER_ANOTHER_ALREADY_LOGGED_IN) && (default CKU_USER (logged B w sid) =? KRY_UNSPEC))
  | _ => existsb (N.eqb r) refusals
  end.

(* C07: how many attempts to authenticate a user failed since the last one that did not, or since the PIN was set: the
   count after a call, from the count before. Attempts made while the database fails count neither way. *)
Definition tally (w : world) (c : call) (sid u n : N) : N :=
  match attempt_on w c with
  | Some (s, v) =>
    if (s =? sid) && (v =? u) then
      if wrong_pin (rv w c) then (if healthy w sid then n + 1 else n)
      else if refused w sid c then n else 0
    else if (s =? sid) && match c with InitToken _ _ _ => true | _ => false end then
      if wrong_pin (rv w c) || refused w sid c then n else 0
    else n
  | None =>
    match c with
    | InitToken s _ _ => if (s =? sid) && negb (refused w sid c) then 0 else n
    | InitPIN h _ => if bool_decide (slot_of B w h = Some sid) && (u =? CKU_USER) && (rv w c =? CKR_OK) then 0 else n
    | _ => n
    end
  end.
Fixpoint tally_run (w : world) (cs : list call) (sid u n : N) : N :=
  match cs with [] => n | c :: r => tally_run (after w c) r sid u (tally w c sid u n) end.
(* The same, counting also the attempts made while the database fails. *)
Definition tally_any (w : world) (c : call) (sid u n : N) : N :=
  if bool_decide (attempt_on w c = Some (sid, u)) && wrong_pin (rv w c) then n + 1 else tally w c sid u n.
Fixpoint tally_any_run (w : world) (cs : list call) (sid u n : N) : N :=
  match cs with [] => n | c :: r => tally_any_run (after w c) r sid u (tally_any w c sid u n) end.

(* C08: the PIN most recently set for a user of a slot; None: none was set, or it is not known which because
   C_InitToken failed half-way. *)
Definition pin_next (w : world) (c : call) (sid u : N) (p : option bytes) : option bytes :=
  match c with
  | InitToken s pin _ =>
    if negb (s =? sid) then p
    else if rv w c =? CKR_OK then (if u =? CKU_SO then Some (default [] pin) else None)
    else if wrong_pin (rv w c) || refused w sid c then p else None
  | InitPIN h pin => if bool_decide (slot_of B w h = Some sid) && (u =? CKU_USER) && (rv w c =? CKR_OK) then Some (default [] pin) else p
  | SetPIN h _ new => if bool_decide (attempt_on w c = Some (sid, u)) && (rv w c =? CKR_OK) then Some (default [] new) else p
  | _ => p
  end.
Fixpoint pin_run (w : world) (cs : list call) (sid u : N) (p : option bytes) : option bytes :=
  match cs with [] => p | c :: r => pin_run (after w c) r sid u (pin_next w c sid u p) end.

(* What is assumed of the sealing of the key of a token under a PIN. *)
Record pin_laws : Prop := PinLaws {
  pl_open : forall u pin v k r b, p_seal_key P u pin v k r = Ok b -> p_open_key P u pin b = Some (v, k);
  pl_other : forall u pin v k r b pin', p_seal_key P u pin v k r = Ok b -> pin' <> pin -> p_open_key P u pin' b = None;
  pl_len : forall n, blen (p_master P n) = 32;
  pl_code : forall u pin v k r e, p_seal_key P u pin v k r = Err e -> told_apart e = true /\ e <> CKR_USER_TYPE_INVALID }.
End spec.
