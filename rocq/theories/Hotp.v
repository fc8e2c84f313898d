(* One-time passwords: src/hotp.rs, with the calls of src/fns/signing.rs on one HOTP key (non-FIPS build).  The key is
   its attributes the operations read; [H] is the hash its value selects (hotp.rs:470-475) and is taken to be the one
   of that length.  The sessions are only their sign and verify operations: slots, logins and locks are those of Api.v.
   Whether the database takes the new counter is an argument of the calls that store it. *)
From Verif Require Export Mac.
From Coq Require Import Arith.
From stdpp Require Import gmap.
Local Open Scope nat_scope.

Section Hotp.
Variable H : hash.

(* CKA_OTP_COUNTER, CKA_OTP_COUNTER_REQUIREMENT, CKA_OTP_LENGTH, CKA_VALUE; CKA_SIGN, CKA_VERIFY and CKA_MODIFIABLE are
   true, as they are by default. *)
Record hkey := HKey { k_ctr : bytes; k_req : N; k_digits : nat; k_val : bytes }.
(* HOTPOperation, hotp.rs:388-398. *)
Record hop := Hop { p_hmac : hmac H; p_ctr : bytes; p_len : nat; p_done : bool; p_update : option bool }.

(* HOTPOperation::new, hotp.rs:400-491; [over] is the CK_OTP_COUNTER of the parameters. *)
Definition hotp_new (k : hkey) (over : option bytes) : result hop :=
  let from_key := (k_ctr k, Some false) in
  let given := match over with
    | Some oc => if ((k_req k =? CK_OTP_PARAM_OPTIONAL) || (k_req k =? CK_OTP_PARAM_MANDATORY))%N then Ok (oc, None) else Ok from_key
    | None => if (k_req k =? CK_OTP_PARAM_MANDATORY)%N then Err CKR_MECHANISM_PARAM_INVALID else Ok from_key
    end in
  match given with
  | Err e => Err e
  | Ok (c, upd) =>
    if negb (length c =? 8) then Err CKR_GENERAL_ERROR else
    if negb (length (k_val k) =? h_size H) then Err CKR_GENERAL_ERROR else
    match hmac_new H (k_val k) (h_size H) with
    | Err e => Err e
    | Ok m => Ok (Hop m c (k_digits k) false upd)
    end
  end.
(* u64::from_be_bytes and to_be_bytes are unbe and be 8; the addition of the release profile wraps around. *)

Definition next_ctr (c : N) : N := ((c + 1) mod 2 ^ 64)%N.
(* format!("{:0width$}"), for a number of no more digits. *)
Fixpoint dec (n : nat) (x : N) : bytes :=
  match n with O => [] | S n => dec n (x / 10)%N ++ [(48 + x mod 10)%N] end.
(* generate_otp, hotp.rs:493-519. *)
Definition generate_otp (m : hmac H) (len : nat) (ctr : bytes) : hmac H * result bytes :=
  match hmac_once H m ctr (h_size H) with
  | (m, Err e) => (m, Err e)
  | (m, Ok mac) =>
    let offset := N.to_nat (N.land (nth (h_size H - 1) mac 0%N) 15) in
    let v := firstn 4 (skipn offset mac) in
    let value := unbe (match v with [] => [] | x :: r => N.land x 127 :: r end) in
    match len with
    | 6 => (m, Ok (dec 6 (value mod 1000000)%N))
    | 7 => (m, Ok (dec 7 (value mod 10000000)%N))
    | 8 => (m, Ok (dec 8 (value mod 100000000)%N))
    | _ => (m, Err CKR_GENERAL_ERROR)
    end
  end.
(* The room of a signature: two structures and the digits, hotp.rs:544-546 and 588-592 (16 and 24 bytes). *)
Definition otp_room (len : nat) : nat := 16 + 24 + len.
(* sign_final, hotp.rs:539-586: what is written is the one-time password. *)
Definition hotp_sign (o : hop) : hop * result bytes :=
  if p_done o then (o, Err CKR_OPERATION_NOT_INITIALIZED) else
  match generate_otp (p_hmac o) (p_len o) (p_ctr o) with
  | (m, Err e) => (Hop m (p_ctr o) (p_len o) true (p_update o), Err e)
  | (m, Ok otp) =>
    match p_update o with
    | Some _ => (Hop m (be 8 (next_ctr (unbe (p_ctr o)))) (p_len o) true (Some true), Ok otp)
    | None => (Hop m (p_ctr o) (p_len o) true None, Ok otp)
    end
  end.
(* The loop of verify_final, hotp.rs:634-651: [n] tries from counter [c] on. *)
Fixpoint hotp_tries (n : nat) (first : bool) (m : hmac H) (len : nat) (c : N) (sig : bytes) : hmac H * result N :=
  match n with
  | O => (m, Err CKR_SIGNATURE_INVALID)
  | S n =>
    match (if first then Ok m else hmac_reset H m) with
    | Err e => (m, Err e)
    | Ok m =>
      match generate_otp m len (be 8 c) with
      | (m, Err e) => (m, Err e)
      | (m, Ok otp) => if bool_decide (sig = otp) then (m, Ok c) else hotp_tries n false m len (next_ctr c) sig
      end
    end
  end.
(* verify_final, hotp.rs:622-652; the counter that matched is returned for the statements. *)
Definition hotp_verify (o : hop) (sig : bytes) : hop * result N :=
  if p_done o then (o, Err CKR_OPERATION_NOT_INITIALIZED) else
  if negb (length sig =? p_len o) then (Hop (p_hmac o) (p_ctr o) (p_len o) true (p_update o), Err CKR_SIGNATURE_LEN_RANGE) else
  match hotp_tries 5 true (p_hmac o) (p_len o) (unbe (p_ctr o)) sig with
  | (m, Err e) => (Hop m (p_ctr o) (p_len o) true (p_update o), Err e)
  | (m, Ok c) =>
    match p_update o with
    | Some _ => (Hop m (be 8 (next_ctr c)) (p_len o) true (Some true), Ok c)
    | None => (Hop m (p_ctr o) (p_len o) true None, Ok c)
    end
  end.
(* updates_object, hotp.rs:594-605 and 658-669. *)
Definition hotp_updates (o : hop) : option bytes :=
  match p_update o with Some true => Some (p_ctr o) | _ => None end.

(* The calls on the key.  A session has one sign and one verify operation: the boolean tells them apart. *)
Inductive hcall :=
  | HInit (s : N) (sign : bool) (over : option bytes)    (* C_SignInit, C_VerifyInit *)
  | HCancel (s : N) (sign : bool)                        (* the same with a null mechanism *)
  | HSign (s : N) (dlen : nat) (room : option nat) (wr : bool)   (* C_Sign; None: no buffer *)
  | HVerify (s : N) (dlen : nat) (sig : bytes) (wr : bool)       (* C_Verify *)
  | HSet (v : bytes).                                    (* C_SetAttributeValue of CKA_OTP_COUNTER *)
Record hst := HSt { hs_key : hkey; hs_ops : gmap (N * bool) hop }.
(* What the application sees of the passwords: the value of a counter given to it, or one of it accepted. *)
Inductive hevent := Gen (c : N) (otp : bytes) | Acc (c : N) (otp : bytes).
Definition set_ctr (k : hkey) (v : bytes) : hkey := HKey v (k_req k) (k_digits k) (k_val k).
(* The update of the object, signing.rs:117-122 and 398-403: the error of the store is CKR_GENERAL_ERROR. *)
Definition stored (k : hkey) (o : hop) (wr : bool) : hkey * N :=
  match hotp_updates o with
  | None => (k, CKR_OK)
  | Some v => if wr then (set_ctr k v, CKR_OK) else (k, CKR_GENERAL_ERROR)
  end.
Definition hstep (st : hst) (c : hcall) : hst * N * list hevent :=
  let k := hs_key st in
  match c with
  | HInit s b over =>                                    (* signing.rs:23-62 and 314-352 *)
    match hs_ops st !! (s, b) with
    | Some (Hop _ _ _ false _) => (st, CKR_OPERATION_ACTIVE, [])
    | _ => match hotp_new k over with
           | Err e => (st, e, [])
           | Ok o => (HSt k (<[(s, b) := o]> (hs_ops st)), CKR_OK, [])
           end
    end
  | HCancel s b => (HSt k (delete (s, b) (hs_ops st)), CKR_OK, [])
  | HSign s dlen room wr =>                              (* signing.rs:82-134 *)
    match hs_ops st !! (s, true) with
    | None => (st, CKR_OPERATION_NOT_INITIALIZED, [])
    | Some o =>
      match room with
      | None => (st, CKR_OK, [])
      | Some n =>
        if n <? otp_room (p_len o) then (st, CKR_BUFFER_TOO_SMALL, []) else
        if negb (dlen =? 0) then (st, CKR_DATA_INVALID, []) else
        let '(o', r) := hotp_sign o in
        let ops := <[(s, true) := o']> (hs_ops st) in
        match r with
        | Err e => (HSt k ops, e, [])
        | Ok otp => let '(k', rv) := stored k o' wr in (HSt k' ops, rv, [Gen (unbe (p_ctr o)) otp])
        end
      end
    end
  | HVerify s dlen sig wr =>                             (* signing.rs:372-411 *)
    match hs_ops st !! (s, false) with
    | None => (st, CKR_OPERATION_NOT_INITIALIZED, [])
    | Some o =>
      if negb (length sig =? p_len o) then (st, CKR_SIGNATURE_LEN_RANGE, []) else
      if negb (dlen =? 0) then (st, CKR_DATA_INVALID, []) else
      let '(o', r) := hotp_verify o sig in
      let ops := <[(s, false) := o']> (hs_ops st) in
      match r with
      | Err e => (HSt k ops, e, [])
      | Ok c => let '(k', rv) := stored k o' wr in (HSt k' ops, rv, if (rv =? CKR_OK)%N then [Acc c sig] else [])
      end
    end
  | HSet v => (HSt (set_ctr k v) (hs_ops st), CKR_OK, [])   (* objmgmt.rs:398-425; the length is not checked *)
  end.
Fixpoint hrun (st : hst) (l : list hcall) : hst * list hevent :=
  match l with
  | [] => (st, [])
  | c :: l => let '(st, _, e) := hstep st c in let '(st, es) := hrun st l in (st, e ++ es)
  end.
End Hotp.
Arguments Hop {H}. Arguments HSt {H}. Arguments p_hmac {H}. Arguments p_ctr {H}. Arguments p_len {H}. Arguments p_done {H}.
Arguments p_update {H}. Arguments hs_key {H}. Arguments hs_ops {H}.
