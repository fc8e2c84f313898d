(* Calls with an output buffer, and what is asked of a mechanism so that such a call can be repeated. *)
From Verif Require Import Base Monad Attr Obj Backend State Api Spec.
From Verif Require Export OpsSpec.

(* The same call with a buffer of n bytes: the session, the kind of operation it is about and the call. *)
Definition with_room (c : call) (n : N) : option (N * opk * call) :=
  match c with
  | Sign h d _ _ => Some (h, KSign, Sign h d true (Some n))
  | SignFinal h _ _ => Some (h, KSign, SignFinal h true (Some n))
  | Digest h d _ _ => Some (h, KDigest, Digest h d true (Some n))
  | DigestFinal h _ _ => Some (h, KDigest, DigestFinal h true (Some n))
  | Encrypt h d _ _ => Some (h, KEnc, Encrypt h d true (Some n))
  | EncryptUpdate h d _ _ => Some (h, KEnc, EncryptUpdate h d true (Some n))
  | EncryptFinal h _ _ => Some (h, KEnc, EncryptFinal h true (Some n))
  | Decrypt h d _ _ => Some (h, KDec, Decrypt h d true (Some n))
  | DecryptUpdate h d _ _ => Some (h, KDec, DecryptUpdate h d true (Some n))
  | DecryptFinal h _ _ => Some (h, KDec, DecryptFinal h true (Some n))
  | EncryptMessage h p a d _ _ => Some (h, KMsgEnc, EncryptMessage h p a d true (Some n))
  | EncryptMessageNext h p d _ _ f => Some (h, KMsgEnc, EncryptMessageNext h p d true (Some n) f)
  | DecryptMessage h p a d _ _ => Some (h, KMsgDec, DecryptMessage h p a d true (Some n))
  | DecryptMessageNext h p d _ _ f => Some (h, KMsgDec, DecryptMessageNext h p d true (Some n) f)
  | DigestEncryptUpdate h d _ _ => Some (h, KEnc, DigestEncryptUpdate h d true (Some n))
  | DecryptDigestUpdate h d _ _ => Some (h, KDec, DecryptDigestUpdate h d true (Some n))
  | SignEncryptUpdate h d _ _ => Some (h, KEnc, SignEncryptUpdate h d true (Some n))
  | DecryptVerifyUpdate h d _ _ => Some (h, KDec, DecryptVerifyUpdate h d true (Some n))
  | _ => None
  end.
(* The call passes a null pointer for the buffer, to ask for the length. *)
Definition asks_length (c : call) : bool :=
  match c with
  | Sign _ _ b _ | SignFinal _ b _ | Digest _ _ b _ | DigestFinal _ b _ | Encrypt _ _ b _ | EncryptUpdate _ _ b _
  | EncryptFinal _ b _ | Decrypt _ _ b _ | DecryptUpdate _ _ b _ | DecryptFinal _ b _ | EncryptMessage _ _ _ _ b _
  | EncryptMessageNext _ _ _ b _ _ | DecryptMessage _ _ _ _ b _ | DecryptMessageNext _ _ _ b _ _
  | DigestEncryptUpdate _ _ b _ | DecryptDigestUpdate _ _ b _ | SignEncryptUpdate _ _ b _ | DecryptVerifyUpdate _ _ b _ => negb b
  | _ => false
  end.

(* What a mechanism must do for its operations to survive these two cases: asking for a length changes nothing, and
   after CKR_BUFFER_TOO_SMALL the same method with another room does what it would have done at first. *)
Definition resize (c : opcall) (n : N) : opcall :=
  match c with
  | CSingle d _ => CSingle d n | CUpdate d _ => CUpdate d n | CFinal _ => CFinal n
  | CMSingle p a d _ => CMSingle p a d n | CMNext p d _ => CMNext p d n | CMFinal p d _ => CMFinal p d n
  | _ => c
  end.
Record retry_law (B : backend) : Prop := {
  rl_len : forall x n fin x' r, be_len B x n fin = (x', r) -> rv_of r = CKR_OK \/ rv_of r = CKR_BUFFER_TOO_SMALL -> x' = x;
  rl_call : forall c x x', be_final B x = false -> be_call B c x = (x', Err CKR_BUFFER_TOO_SMALL) ->
    be_final B x' = false /\ be_busy B x' = be_busy B x /\ be_out_len B x' = be_out_len B x /\
    forall n, be_call B (resize c n) x' = be_call B (resize c n) x;
  (* signatures and digests are only asked for with the room they said they need *)
  rl_out : forall c x x' i, be_out_len B x = Ok i -> (exists d, c = CSingle d i) \/ c = CFinal i ->
    be_call B c x = (x', Err CKR_BUFFER_TOO_SMALL) -> x' = x;
  (* methods without a buffer do not complain about one *)
  rl_update : forall d x x' e, be_call B (CVUpdate d) x = (x', Err e) -> e <> CKR_BUFFER_TOO_SMALL }.
