(* Vocabulary shared by the property statements: histories, open sessions, who is logged in. *)
From Verif Require Import Base Monad Attr Obj Factory Create Sqlite Storage Token Backend State Api.
From Verif Require Export ObjSpec.

Section spec.
Context (P : params) (B : backend) (E : N -> keyenv).
Notation world := (world B). Notation session := (session B).

(* The states an application can bring the module to, over arbitrary databases. *)
Definition reachable (w : world) : Prop := exists ds cs, w = fst (run P B E (init_world B ds) cs).

(* Those it can bring the module to when all databases were created by the module. *)
Definition from_scratch (w : world) : Prop := exists cs, w = fst (run P B E (init_world B ∅) cs).

(* A session is open if the module-wide table has it and its slot has it. *)
Definition session_of (w : world) (h : N) : option session :=
  match w_smap w !! h with
  | Some sid => match w_slots w !! sid with Some sl => sl_sessions sl !! h | None => None end
  | None => None
  end.
Definition is_open (w : world) (h : N) : Prop := session_of w h <> None.

Definition token_of (w : world) (sid : N) : option token := sl_token <$> w_slots w !! sid.
(* CKU_SO, CKU_USER, or KRY_UNSPEC for nobody. *)
Definition logged (w : world) (sid : N) : option N := t_logged <$> token_of w sid.

(* The object a handle names on a slot, and its attributes (see ObjSpec). *)
Definition id_at (w : world) (sid h : N) : option bytes := match token_of w sid with Some t => object_id t h | None => None end.
Definition attr_at (w : world) (sid h ty : N) : option attr := match token_of w sid with Some t => attr_of t h ty | None => None end.
Definition bool_at (w : world) (sid h ty : N) : option bool := match token_of w sid with Some t => bool_of t h ty | None => None end.
Definition owner_at (w : world) (sid h : N) : option N := match token_of w sid with Some t => owner t h | None => None end.
Definition session_object_at (w : world) (sid h : N) : bool := match token_of w sid with Some t => is_session_object t h | None => false end.
(* The slot of an open session. *)
Definition slot_of (w : world) (h : N) : option N := w_smap w !! h.

(* The return value and the output of a call, the state after it. *)
Definition rv (w : world) (c : call) : N := fst (snd (step P B E w c)).
Definition out_of (w : world) (c : call) : out := snd (snd (step P B E w c)).
Definition after (w : world) (c : call) : world := fst (step P B E w c).

(* A call of a session acts on a slot. *)
Definition on_slot (w : world) (s sid : N) : Prop := slot_of w s = Some sid.
(* C41: the calls that may change or destroy the object a handle of a slot names. A call of a session that may change
   only some of the objects says which; C_Sign and the like may advance the counter of a key; C_CreateObject may
   replace an object only on a token set up to detect duplicates. *)
Definition about (w : world) (c : call) (sid h : N) : Prop :=
  match c with
  | Finalize | Crash => True
  | InitToken s _ _ => s = sid
  | SetAttributeValue s o _ _ | DestroyObject s o => on_slot w s sid /\ o = h
  | CloseSession s => owner_at w sid h = Some s
  | CloseAllSessions s => s = sid /\ owner_at w sid h <> None
  | Login s _ _ | Logout s | SetPIN s _ _ => on_slot w s sid /\ owner_at w sid h <> None /\ bool_at w sid h CKA_PRIVATE <> Some false
  | Sign s _ _ _ | SignFinal s _ _ | Verify s _ _ | VerifyFinal s _ | VerifySignature s _ | VerifySignatureFinal s => on_slot w s sid
  | CreateObject s _ _ => on_slot w s sid /\ exists t, token_of w sid = Some t /\ t_dedup t <> None
  | _ => False
  end.
(* Two states agree on the object a handle of a slot names. *)
Definition same_object (w w' : world) (sid h : N) : Prop :=
  id_at w' sid h = id_at w sid h /\ owner_at w' sid h = owner_at w sid h /\ session_object_at w' sid h = session_object_at w sid h /\
  forall ty, attr_at w' sid h ty = attr_at w sid h ty.

(* The calls cannot replace stored objects by equal new ones: the slot is not set up to detect duplicates, or none of
   the calls is C_CreateObject. *)
Definition creates (c : call) : bool := match c with CreateObject _ _ _ => true | _ => false end.
Definition no_replace (w : world) (sid : N) (cs : list call) : Prop :=
  (forall t, token_of w sid = Some t -> t_dedup t = None) \/ existsb creates cs = false.

(* A read-only session is open on the slot. *)
Definition ro_open (w : world) (sid : N) : Prop :=
  exists h s, session_of w h = Some s /\ s_slot s = sid /\ has_flag (s_flags s) CKF_RW_SESSION = false.
(* Nobody is logged in who was not before. *)
Definition nobody_new (w w' : world) : Prop :=
  forall sid, logged w' sid = logged w sid \/ logged w' sid = Some KRY_UNSPEC.

(* C03: the history is free of the two situations in which the code loses track of the states: a session is opened while
   the SO is logged in; C_Logout fails because the database does. *)
Definition regular (w : world) (c : call) : Prop :=
  match c with
  | OpenSession sid _ _ => logged w sid <> Some CKU_SO \/ rv w c <> CKR_OK
  | Logout _ => rv w c <> CKR_GENERAL_ERROR
  | _ => True
  end.
Fixpoint regular_run (w : world) (cs : list call) : Prop :=
  match cs with [] => True | c :: r => regular w c /\ regular_run (after w c) r end.
End spec.

(* The handles returned by the successful C_OpenSession calls of a history, from its calls and its trace. *)
Fixpoint opened (cs : list call) (tr : list (N * out)) : list N :=
  match cs, tr with
  | OpenSession _ _ _ :: cs', (r, OHandle h) :: tr' => if r =? CKR_OK then h :: opened cs' tr' else opened cs' tr'
  | _ :: cs', _ :: tr' => opened cs' tr'
  | _, _ => []
  end.
(* The process is neither ended nor re-initialised. *)
Definition keeps_running (c : call) : bool := match c with Finalize | Crash => false | _ => true end.

(* The process is not ended and the token of the slot not initialised anew. *)
Definition keeps_token (sid : N) (c : call) : bool :=
  match c with Finalize | Crash => false | InitToken s _ _ => negb (s =? sid) | _ => true end.

(* The session argument of the calls that have one. *)
Definition session_of_call (c : call) : option N :=
  match c with
  | InitPIN h _ | SetPIN h _ _ | CloseSession h | GetSessionInfo h _ | GetOperationState h _ _
  | SetOperationState h _ _ _ | Login h _ _ | Logout h | SessionCancel h _ | CreateObject h _ _ | CopyObject h _ _ _ _
  | DestroyObject h _ | GetObjectSize h _ _ | GetAttributeValue h _ _ _ | SetAttributeValue h _ _ _
  | FindObjectsInit h _ _ | FindObjects h _ _ _ | FindObjectsFinal h | DigestInit h _ | Sign h _ _ _ | SignUpdate h _
  | SignFinal h _ _ | Verify h _ _ | VerifyUpdate h _ | VerifyFinal h _ | VerifySignature h _ | VerifySignatureUpdate h _
  | VerifySignatureFinal h | Digest h _ _ _ | DigestUpdate h _ | DigestKey h _ | DigestFinal h _ _ | Encrypt h _ _ _
  | EncryptUpdate h _ _ _ | EncryptFinal h _ _ | Decrypt h _ _ _ | DecryptUpdate h _ _ _ | DecryptFinal h _ _
  | EncryptMessage h _ _ _ _ _ | EncryptMessageBegin h _ _ | EncryptMessageNext h _ _ _ _ _ | MessageEncryptFinal h
  | DecryptMessage h _ _ _ _ _ | DecryptMessageBegin h _ _ | DecryptMessageNext h _ _ _ _ _ | MessageDecryptFinal h
  | DigestEncryptUpdate h _ _ _ | DecryptDigestUpdate h _ _ _ | SignEncryptUpdate h _ _ _ | DecryptVerifyUpdate h _ _ _
  | GenerateKey h _ _ _ | GenerateKeyPair h _ _ _ _ _ | WrapKey h _ _ _ _ _ | UnwrapKey h _ _ _ _ _ | DeriveKey h _ _ _ _ _
  | EncapsulateKey h _ _ _ _ _ _ | DecapsulateKey h _ _ _ _ _ | SeedRandom h _ | GenerateRandom h _ _ _ => Some h
  | OpInit k h _ _ _ => match k with KSearch | KDigest => None | _ => Some h end
  | _ => None
  end.

(* The slot argument of the calls that have one. *)
Definition slot_of_call (c : call) : option N :=
  match c with
  | GetSlotInfo sid _ | GetTokenInfo sid _ | GetMechanismList sid _ _ | GetMechanismInfo sid _ _ | InitToken sid _ _
  | OpenSession sid _ _ | CloseAllSessions sid | Disturb sid _ => Some sid
  | _ => None
  end.

(* PKCS#11: the state of a session, from its mode and the user logged in (KRY_UNSPEC: nobody). *)
Definition expected_state (rw : bool) (user : N) : N :=
  if user =? CKU_SO then CKS_RW_SO_FUNCTIONS
  else if user =? CKU_USER then if rw then CKS_RW_USER_FUNCTIONS else CKS_RO_USER_FUNCTIONS
  else if rw then CKS_RW_PUBLIC_SESSION else CKS_RO_PUBLIC_SESSION.

(* Whether the module is initialised after a history. *)
Fixpoint running (b : bool) (cs : list call) : bool :=
  match cs with
  | [] => b
  | Initialize _ :: r => running true r
  | Finalize :: r | Crash :: r => running false r
  | _ :: r => running b r
  end.
(* The calls that do something before the module is initialised; the two events of the environment are no calls. *)
Definition works_uninitialised (c : call) : bool :=
  match c with Initialize _ | GetInfo _ | GetInterfaceList _ _ _ | Crash | Disturb _ _ => true
  | OpInit KSearch _ _ _ _ | OpInit KDigest _ _ _ _ => true   (* not an entry point *)
  | _ => false end.

(* Some pointer argument of the call is null; for the message calls also: a buffer is empty or a flag unknown. *)
Definition none {A} (p : option A) : bool := match p with Some _ => false | None => true end.
Definition empty (p : option bytes) : bool := match p with Some [] => true | _ => false end.
Definition bad_args (c : call) : bool :=
  match c with
  | GetInfo p | GetSlotInfo _ p | GetTokenInfo _ p | GetMechanismInfo _ _ p | OpenSession _ _ p | GetSessionInfo _ p
  | GetObjectSize _ _ p => negb p
  | GetInterfaceList _ l c | GetSlotList l c | GetMechanismList _ l c | GetOperationState _ l c => negb l || none c
  | InitToken _ p _ => none p
  | InitPIN _ p | Login _ _ p => none p
  | SetPIN _ o n => none o || none n
  | SetOperationState _ b _ _ => none b
  | CreateObject _ t p | CopyObject _ _ t _ p => none t || negb p
  | GetAttributeValue _ _ t _ => none t
  | SetAttributeValue _ _ t _ | FindObjectsInit _ t _ => none t
  | FindObjects _ p _ q => negb p || negb q
  | OpInit k _ m _ sg => none m || match k with KVerifySig => none sg | _ => false end
  | DigestInit _ m => none m
  | Sign _ d b l | Digest _ d b l | Encrypt _ d b l | EncryptUpdate _ d b l | Decrypt _ d b l | DecryptUpdate _ d b l
  | DigestEncryptUpdate _ d b l | DecryptDigestUpdate _ d b l | SignEncryptUpdate _ d b l | DecryptVerifyUpdate _ d b l =>
      none d || negb b || none l
  | SignFinal _ b l | DigestFinal _ b l | EncryptFinal _ b l | DecryptFinal _ b l => negb b || none l
  | SignUpdate _ d | VerifyUpdate _ d | VerifySignature _ d | VerifySignatureUpdate _ d | DigestUpdate _ d => none d
  | Verify _ d s => none d || none s
  | VerifyFinal _ s => none s
  | EncryptMessage _ p a d b l | DecryptMessage _ p a d b l =>
      none p || none a || none d || negb b || none l || empty p || empty d
  | EncryptMessageBegin _ p a | DecryptMessageBegin _ p a => none p || none a || empty p
  | EncryptMessageNext _ p d b l f | DecryptMessageNext _ p d b l f =>
      none p || none d || negb b || none l || empty p || empty d || negb ((f =? CKF_END_OF_MESSAGE) || (f =? 0))
  | GenerateKey _ m t p => none m || none t || negb p
  | GenerateKeyPair _ m t1 t2 p1 p2 => none m || none t1 || none t2 || negb p1 || negb p2
  | WrapKey _ m _ _ b l => none m || negb b || none l
  | UnwrapKey _ m _ d t p => none m || none d || none t || negb p
  | DeriveKey _ m _ t p _ => none m || none t || negb p
  | EncapsulateKey _ m _ t b l p => none m || none t || negb b || none l || negb p
  | DecapsulateKey _ m _ t d p => none m || none t || none d || negb p
  | SeedRandom _ s => none s
  | GenerateRandom _ b _ _ => negb b
  | _ => false
  end.

(* What a list call returns: [l] the identifiers, [lst] the buffer, [count] its size. *)
Definition list_result (l : list N) (lst : bool) (count : N) : N * out :=
  if negb lst then (CKR_OK, OLen (N.of_nat (length l)))
  else if N.of_nat (length l) <=? count then (CKR_OK, OList l (N.of_nat (length l)))
  else (CKR_BUFFER_TOO_SMALL, ONone).

(* C40: the pointers no call of the code checks before it reads through them are not null. *)
Definition ptrs_ok (t : option (list ckattr)) : bool :=
  match t with Some l => forallb (fun c => negb (none (ca_ptr c))) l | None => true end.
Definition unchecked_ok (c : call) : bool :=
  match c with
  | SetOperationState _ b _ _ | SeedRandom _ b => negb (none b)
  | GenerateRandom _ b _ _ => b
  | EncryptFinal _ b l | DecryptFinal _ b l => negb b || negb (none l)
  | OpInit KVerifySig _ m _ sg => none m || negb (none sg)
  | CreateObject _ t _ | CopyObject _ _ t _ _ | SetAttributeValue _ _ t _ | FindObjectsInit _ t _ | GenerateKey _ _ t _
  | UnwrapKey _ _ _ _ t _ | DeriveKey _ _ _ t _ _ | EncapsulateKey _ _ _ t _ _ _ | DecapsulateKey _ _ _ t _ _ => ptrs_ok t
  | GenerateKeyPair _ _ t1 t2 _ _ => ptrs_ok t1 && ptrs_ok t2
  | _ => true
  end.

(* C36: what a call returns while the module is not initialised. *)
Definition off_rv (c : call) (e : N) : Prop :=
  e = CKR_CRYPTOKI_NOT_INITIALIZED \/ (e = CKR_ARGUMENTS_BAD /\ bad_args c = true) \/
  (e = CKR_KEY_NOT_NEEDED /\ exists h b enc a, c = SetOperationState h b enc a /\ enc <> CK_INVALID_HANDLE).
(* The token has no object that belongs to a session. *)
Definition no_sobjs (t : token) : Prop := forall h o, t_sobjs t !! h = Some o -> o_session o = CK_INVALID_HANDLE.

(* C40: a pointer the call cannot do without is null. Not listed: pointers that may be null (a PIN: none is given;
   an output buffer: the length is asked; the mechanism of an init call: the operation is cancelled; the associated
   data of a message; the handle of a derivation that returns its keys elsewhere; a template of no entries), those
   looked at only after the session was looked at, and those never checked ([unchecked_ok]). *)
Definition null_required (c : call) : bool :=
  match c with
  | GetInfo p | GetSlotInfo _ p | GetTokenInfo _ p | GetMechanismInfo _ _ p | OpenSession _ _ p | GetSessionInfo _ p
  | GetObjectSize _ _ p => negb p
  | GetInterfaceList _ _ c | GetSlotList _ c | GetMechanismList _ _ c => none c
  | CreateObject _ t p => none t || negb p
  | CopyObject _ _ _ _ p => negb p
  | GetAttributeValue _ _ t n => none t && negb (n =? 0)
  | FindObjects _ p _ q => negb p || negb q
  | Sign _ d _ l | Digest _ d _ l | Encrypt _ d _ l | EncryptUpdate _ d _ l | Decrypt _ d _ l | DecryptUpdate _ d _ l
  | DigestEncryptUpdate _ d _ l | DecryptDigestUpdate _ d _ l | SignEncryptUpdate _ d _ l | DecryptVerifyUpdate _ d _ l =>
      none d || none l
  | SignFinal _ _ l | DigestFinal _ _ l => none l
  | SignUpdate _ d | VerifyUpdate _ d | VerifySignature _ d | VerifySignatureUpdate _ d | DigestUpdate _ d => none d
  | Verify _ d s => none d || none s
  | VerifyFinal _ s => none s
  | EncryptMessage _ p _ d _ l | DecryptMessage _ p _ d _ l => none p || none d || none l
  | EncryptMessageBegin _ p _ | DecryptMessageBegin _ p _ => none p
  | EncryptMessageNext _ p d _ l _ | DecryptMessageNext _ p d _ l _ => none p || none d || none l
  | GenerateKey _ m t p => none m || none t || negb p
  | GenerateKeyPair _ m t1 t2 p1 p2 => none m || none t1 || none t2 || negb p1 || negb p2
  | WrapKey _ m _ _ _ l => none m || none l
  | UnwrapKey _ m _ d t p => none m || none d || none t || negb p
  | DeriveKey _ m _ t _ _ => none m || none t
  | EncapsulateKey _ m _ t _ l p => none m || none t || none l || negb p
  | DecapsulateKey _ m _ t d p => none m || none t || none d || negb p
  | _ => false
  end.
