(* The cryptographic operations behind the mechanism traits of src/mechanism.rs, abstract. *)
From Verif Require Import Base Attr Obj.

(* The members of SessionOperations, src/session.rs:123-133. *)
Inductive opk := KMsgEnc | KMsgDec | KSearch | KEnc | KDec | KDigest | KSign | KVerify | KVerifySig.
Global Instance opk_eq_dec : EqDecision opk.
Proof. solve_decision. Defined.
Definition opk_num (k : opk) : nat :=
  match k with KMsgEnc => 0 | KMsgDec => 1 | KSearch => 2 | KEnc => 3 | KDec => 4 | KDigest => 5 | KSign => 6
             | KVerify => 7 | KVerifySig => 8 end%nat.
Definition opk_of (n : nat) : option opk :=
  match n with
  | 0 => Some KMsgEnc | 1 => Some KMsgDec | 2 => Some KSearch | 3 => Some KEnc | 4 => Some KDec
  | 5 => Some KDigest | 6 => Some KSign | 7 => Some KVerify | 8 => Some KVerifySig | _ => None
  end%nat.
Global Instance opk_countable : Countable opk.
Proof. apply (inj_countable opk_num opk_of). intros []; reflexivity. Defined.

(* The methods of the traits Encryption, Decryption, Sign, Verify, VerifySignature, Digest, MsgEncryption and
   MsgDecryption that process data, src/mechanism.rs:331-434, 447-484, 529-620, 646-798, 812-853.  [n] is the length of the output buffer given by the
   caller.  Simplification: a message parameter is passed by value; what the code writes back to it is part of the
   output bytes. *)
Inductive opcall :=
| CSingle (d : bytes) (n : N) | CUpdate (d : bytes) (n : N) | CFinal (n : N)
| CVSingle (d sig : bytes) | CVUpdate (d : bytes) | CVFinal (sig : bytes)
| CMSingle (param aad d : bytes) (n : N) | CMBegin (param aad : bytes)
| CMNext (param d : bytes) (n : N) | CMFinal (param d : bytes) (n : N) | CMFinalize.

(* What a derivation mechanism produces for one new object (src/native/*.rs, src/ossl/*.rs, Derive::derive):
   the template the object is made from (the caller's, completed by the mechanism) and the derived bytes. *)
Inductive derived :=
| DKey (tmpl : list ckattr) (dkm : bytes)                    (* key_derive, then set_key *)
| DConcat (tmpl : list ckattr) (other : object) (dkm : bytes) (* CKM_CONCATENATE_BASE_AND_KEY *)
| DData (tmpl : list ckattr) (dkm : bytes)                   (* a CKO_DATA object *)
| DPub (tmpl : list ckattr) (mat : list (N * bytes))         (* CKM_PUB_KEY_FROM_PRIV_KEY *)
| DCreate (tmpl : list ckattr) (mech : N).                   (* ECDH and DH: create with the value in the template, then
                                                                default_key_attributes *)

(* One saved operation, src/session.rs:145-148: mechanism and serialized state; the members of
   OperationState (169-186) by operation kind. *)
Definition opstate : Type := list (opk * (N * bytes)).

(* be_new: encryption_new, decryption_new, digest_new, sign_new, verify_new, verify_signature_new, msg_*_op of the
     mechanism, from kind, mechanism, parameter, key, signature (verify_signature_new only) and random draw;
   be_final, be_busy, be_mech: finalized, busy, mechanism (trait MechOperation, src/mechanism.rs:282-329, 636-644);
   be_out_len: digest_len, signature_len;
   be_len: encryption_len, decryption_len, msg_encryption_len, msg_decryption_len: these take &mut self;
   be_call: the methods processing data;
   be_updates: updates_object, the object and attributes to store after the operation;
   be_size, be_save: state_size, state_save; be_restore: digest_restore, sign_restore, verify_restore;
   be_seal, be_unseal: the DER encoding and AES-GCM protection of src/session.rs:660-692, 706-735 under the key of the
     process; be_seal_len: the size that state_size reports for given sizes (573-612);
   be_wrap mech param wkey data n: encrypting exported key material; n is the length of the output buffer,
     0 for a length query; the bytes written and the length reported;
   be_unwrap mech param wkey data;
   be_derive mech param key others tmpl rnd: the derivation;
   be_derive_needs mech param: requires_objects;
   be_encap / be_decap: the key encapsulation;
   be_export: the PKCS#8 encoding of a private key (src/rsa.rs:441-459, src/ec/mod.rs:262-300);
   be_parse ktype data key: its decoding on import (src/rsa.rs:482-537, src/ec/mod.rs:304-380), the attributes to set;
   be_pbkdf param tmpl: the key CKM_PKCS5_PBKD2 computes (src/pbkdf2.rs:84-148);
   be_encap_len: encapsulate_ciphertext_len;
   be_random: generate_random. *)
Record backend := Backend {
  be_st : Type;
  be_new : opk -> N -> option bytes -> option object -> option bytes -> N -> result be_st;
  be_final : be_st -> bool;
  be_busy : be_st -> bool;
  be_mech : be_st -> result N;
  be_out_len : be_st -> result N;
  be_len : be_st -> N -> bool -> be_st * result N;
  be_call : opcall -> be_st -> be_st * result bytes;
  be_updates : be_st -> option (N * list ckattr);
  be_size : be_st -> result N;
  be_save : be_st -> result bytes;
  be_restore : opk -> N -> option object -> bytes -> result be_st;
  be_seal : N -> opstate -> result bytes;
  be_seal_len : list N -> N;
  be_unseal : bytes -> option opstate;
  be_wrap : N -> option bytes -> object -> bytes -> N -> N -> result (bytes * N);
  be_unwrap : N -> option bytes -> object -> bytes -> result bytes;
  be_derive : N -> option bytes -> object -> list object -> list ckattr -> N -> result (list derived);
  be_derive_needs : N -> option bytes -> list N;
  be_encap : N -> option bytes -> object -> N -> N -> result (bytes * bytes);
  be_decap : N -> option bytes -> object -> bytes -> result bytes;
  be_encap_len : N -> object -> result N;
  be_export : object -> result bytes;
  be_parse : N -> bytes -> object -> result (list (N * bytes));
  be_pbkdf : option bytes -> list ckattr -> result bytes;
  be_random : N -> N -> bytes }.
