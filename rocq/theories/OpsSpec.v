(* C20: operations, the calls that start and continue them. *)
From Verif Require Import Base Attr Obj Sqlite Storage Token Backend State Api ObjSpec Spec.

(* The kind of operation a call starts. *)
Definition starts (c : call) : option opk :=
  match c with
  | FindObjectsInit _ _ _ => Some KSearch
  | DigestInit _ (Some _) => Some KDigest
  | OpInit k _ (Some _) _ _ => match k with KSearch | KDigest => None | _ => Some k end
  | _ => None
  end.
(* The kinds of operation a call continues or finishes. *)
Definition continues (c : call) : list opk :=
  match c with
  | FindObjects _ _ _ _ => [KSearch]
  | Sign _ _ _ _ | SignUpdate _ _ | SignFinal _ _ _ => [KSign]
  | Verify _ _ _ | VerifyUpdate _ _ | VerifyFinal _ _ => [KVerify]
  | VerifySignature _ _ | VerifySignatureUpdate _ _ | VerifySignatureFinal _ => [KVerifySig]
  | Digest _ _ _ _ | DigestUpdate _ _ | DigestKey _ _ | DigestFinal _ _ _ => [KDigest]
  | Encrypt _ _ _ _ | EncryptUpdate _ _ _ _ | EncryptFinal _ _ _ => [KEnc]
  | Decrypt _ _ _ _ | DecryptUpdate _ _ _ _ | DecryptFinal _ _ _ => [KDec]
  | EncryptMessage _ _ _ _ _ _ | EncryptMessageBegin _ _ _ | EncryptMessageNext _ _ _ _ _ _ | MessageEncryptFinal _ => [KMsgEnc]
  | DecryptMessage _ _ _ _ _ _ | DecryptMessageBegin _ _ _ | DecryptMessageNext _ _ _ _ _ _ | MessageDecryptFinal _ => [KMsgDec]
  | DigestEncryptUpdate _ _ _ _ => [KDigest; KEnc] | DecryptDigestUpdate _ _ _ _ => [KDigest; KDec]
  | SignEncryptUpdate _ _ _ _ => [KSign; KEnc] | DecryptVerifyUpdate _ _ _ _ => [KVerify; KDec]
  | _ => []
  end.
(* A pointer the call needs is null; an output buffer may be: that asks for its length.  For the message calls also:
   an input is empty, or the flags are unknown. *)
Definition missing (c : call) : bool :=
  match c with
  | FindObjectsInit _ t n => none t && negb (n =? 0)
  | FindObjects _ p _ q => negb p || negb q
  | Sign _ d _ l | Digest _ d _ l | Encrypt _ d _ l | EncryptUpdate _ d _ l | Decrypt _ d _ l | DecryptUpdate _ d _ l
  | DigestEncryptUpdate _ d _ l | DecryptDigestUpdate _ d _ l | SignEncryptUpdate _ d _ l | DecryptVerifyUpdate _ d _ l => none d || none l
  | SignFinal _ _ l | DigestFinal _ _ l | EncryptFinal _ _ l | DecryptFinal _ _ l => none l
  | SignUpdate _ d | VerifyUpdate _ d | VerifySignature _ d | VerifySignatureUpdate _ d | DigestUpdate _ d => none d
  | Verify _ d s => none d || none s
  | VerifyFinal _ s => none s
  | EncryptMessage _ p _ d _ l | DecryptMessage _ p _ d _ l => none p || none d || none l || empty p || empty d
  | EncryptMessageBegin _ p _ | DecryptMessageBegin _ p _ => none p || empty p
  | EncryptMessageNext _ p d _ l f | DecryptMessageNext _ p d _ l f =>
      none p || none d || none l || empty p || empty d || negb ((f =? CKF_END_OF_MESSAGE) || (f =? 0))
  | _ => false
  end.

(* The flag of C_SessionCancel that names a kind of operation.  None names the verification of a signature given in advance. *)
Definition cancel_flag (k : opk) : option N :=
  match k with
  | KMsgEnc => Some 0x2 | KMsgDec => Some 0x4 | KSearch => Some 0x40 | KEnc => Some 0x100 | KDec => Some 0x200
  | KDigest => Some 0x400 | KSign => Some 0x800 | KVerify => Some 0x2000 | KVerifySig => None
  end.
Definition cancels (fl : N) (k : opk) : bool := match cancel_flag k with Some f => negb (N.land fl f =? 0) | None => false end.

Section spec.
Context (B : backend).
(* The session has an active operation of a kind. *)
Definition active (w : world B) (s : N) (k : opk) : bool := match session_of B w s with Some se => op_active B se k | None => false end.
(* Some operation of the session waits for a login. *)
Definition waiting (w : world B) (s : N) : bool := match session_of B w s with Some se => match s_login se with LRequired => true | _ => false end | None => false end.
(* What a session remembers of its operations. *)
Definition ops_of (w : world B) (s : N) : option (gmap opk (operation B) * login_status) := (fun se => (s_ops se, s_login se)) <$> session_of B w s.
(* The same world, but with other operations in one session. *)
Definition with_ops (s : N) (x : gmap opk (operation B) * login_status) (w : world B) : world B :=
  World ((fun sl => Slot (sl_token sl) (alter (fun se => Session (s_slot se) (s_state se) (s_flags se) (fst x) (snd x)) s (sl_sessions sl)) (sl_disk sl)) <$> w_slots w)
    (w_smap w) (w_next w) (w_disks w).
End spec.
