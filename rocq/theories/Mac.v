(* The digest and MAC operations: src/ossl/hash.rs, src/native/hmac.rs and the AES MACs of src/ossl/aes.rs.  An
   operation is a state with an update and a final function; [pieces] is what a caller gets that calls update for every
   piece and then final, [once] what the one-shot call gives.  The hash function and CMAC themselves (OpenSSL) are a
   record of functions.  Zeroing of memory and the FIPS indicators are not modelled. *)
From Verif Require Export Aes.
From Coq Require Import Arith.
Local Open Scope nat_scope.

(* A digest of OpenSSL: EVP_DigestInit, Update, Final (ossl/src/digest.rs). *)
Record hash := Hash {
  h_st : Type; h_init : h_st; h_upd : h_st -> bytes -> h_st; h_fin : h_st -> bytes;
  h_size : nat; h_block : nat }.
(* What is assumed of it: data may be fed in pieces, the result has its size, which is no more than a block. *)
Definition hash_ok (H : hash) : Prop :=
  (forall s a b, h_upd H (h_upd H s a) b = h_upd H s (a ++ b)) /\
  (forall s, h_upd H s [] = s) /\
  (forall s, length (h_fin H s) = h_size H) /\ h_size H <= h_block H.

Section Ops.
Variable H : hash.

(* HashOperation, ossl/hash.rs:16-25; the mechanism is fixed by [H]. *)
Record dig := Dig { g_st : h_st H; g_final : bool; g_used : bool }.
(* new, hash.rs:30-41; reset, hash.rs:61-66. *)
Definition dig_new : dig := Dig (h_init H) false false.
Definition dig_reset (g : dig) : dig := dig_new.
(* digest, hash.rs:82-96: n is the length of the output buffer. *)
Definition dig_digest (g : dig) (d : bytes) (n : nat) : dig * result bytes :=
  if g_used g || g_final g then (g, Err CKR_OPERATION_NOT_INITIALIZED) else
  if negb (n =? h_size H) then (g, Err CKR_GENERAL_ERROR) else
  let s := h_upd H (g_st g) d in
  let o := h_fin H s in
  let g := Dig s true (g_used g) in
  if negb (length o =? n) then (g, Err CKR_GENERAL_ERROR) else (g, Ok o).
(* digest_update, hash.rs:98-110 (an OpenSSL failure is not modelled). *)
Definition dig_update (g : dig) (d : bytes) : dig * result unit :=
  if g_final g then (g, Err CKR_OPERATION_NOT_INITIALIZED) else
  (Dig (h_upd H (g_st g) d) false true, Ok tt).
(* digest_final, hash.rs:112-125. *)
Definition dig_final (g : dig) (n : nat) : dig * result bytes :=
  if g_final g then (g, Err CKR_OPERATION_NOT_INITIALIZED) else
  if negb (n =? h_size H) then (g, Err CKR_GENERAL_ERROR) else
  let o := h_fin H (g_st g) in
  let g := Dig (g_st g) true (g_used g) in
  if negb (length o =? n) then (g, Err CKR_GENERAL_ERROR) else (g, Ok o).

(* HMACOperation, native/hmac.rs:60-89.  The arrays of 160 bytes are lists cut to the block or hash length, as every
   use of them is. *)
Record hmac := Hmac {
  m_key : bytes; m_out : nat; m_ipad : bytes; m_opad : bytes; m_inner : dig; m_final : bool; m_used : bool }.
Definition xor_with (c : N) (l : bytes) : bytes := map (fun b => N.lxor c b) l.
(* init, hmac.rs:172-194. *)
Definition hmac_init (key : bytes) (out : nat) (inner : dig) : result hmac :=
  let '(inner, st) :=
    if length key <=? h_block H then (inner, Ok key) else dig_digest inner key (h_size H) in
  match st with
  | Err e => Err e
  | Ok k =>
    let state := k ++ repeat 0%N (h_block H - length k) in
    let ip := xor_with 0x36 state in
    let op := xor_with 0x5c state in
    match dig_update (dig_reset inner) ip with
    | (_, Err e) => Err e
    | (inner, Ok _) => Ok (Hmac key out ip op inner false false)
    end
  end.
(* internal and new, hmac.rs:100-142 (without the signature of VerifySignature). *)
Definition hmac_new (key : bytes) (out : nat) : result hmac := hmac_init key out dig_new.
(* reinit, hmac.rs:249-257. *)
Definition hmac_reset (m : hmac) : result hmac := hmac_init (m_key m) (m_out m) (dig_reset (m_inner m)).
(* update, hmac.rs:205-218. *)
Definition hmac_update (m : hmac) (d : bytes) : hmac * result unit :=
  if m_final m then (m, Err CKR_OPERATION_NOT_INITIALIZED) else
  match dig_update (m_inner m) d with
  | (g, Ok _) => (Hmac (m_key m) (m_out m) (m_ipad m) (m_opad m) g false true, Ok tt)
  | (g, Err e) => (Hmac (m_key m) (m_out m) (m_ipad m) (m_opad m) g true true, Err e)
  end.
(* finalize, hmac.rs:221-246; n is the length of the output buffer, taken from the state of 160 bytes (a longer one
   would panic; the maximal output length is that of the hash, hmac.rs of src:213-229). *)
Definition hmac_final (m : hmac) (n : nat) : hmac * result bytes :=
  if m_final m then (m, Err CKR_OPERATION_NOT_INITIALIZED) else
  let ended g := Hmac (m_key m) (m_out m) (m_ipad m) (m_opad m) g true true in
  if negb (n =? m_out m) then (ended (m_inner m), Err CKR_GENERAL_ERROR) else
  match dig_final (m_inner m) (h_size H) with
  | (g, Err e) => (ended g, Err e)
  | (g, Ok st) =>
    match dig_update (dig_reset g) (m_opad m) with
    | (g, Err e) => (ended g, Err e)
    | (g, Ok _) =>
      match dig_update g st with
      | (g, Err e) => (ended g, Err e)
      | (g, Ok _) =>
        match dig_final g (h_size H) with
        | (g, Err e) => (ended g, Err e)
        | (g, Ok st) => (ended g, Ok (firstn n st))
        end
      end
    end
  end.
(* sign and mac, hmac.rs:312-316 and 332-336: begin (197-202), update, finalize. *)
Definition hmac_once (m : hmac) (d : bytes) (n : nat) : hmac * result bytes :=
  if m_used m then (m, Err CKR_OPERATION_NOT_INITIALIZED) else
  match hmac_update m d with
  | (m, Err e) => (m, Err e)
  | (m, Ok _) => hmac_final m n
  end.

(* AesCmacOperation, aes.rs:2505-2595: a MAC context of OpenSSL, here [H] with the key in its initial state. *)
Record cmac := Cmac { k_st : h_st H; k_len : nat; k_final : bool; k_used : bool }.
Definition cmac_new (len : nat) : cmac := Cmac (h_init H) len false false.
(* update, aes.rs:2513-2528. *)
Definition cmac_update (c : cmac) (d : bytes) : cmac * result unit :=
  if k_final c then (c, Err CKR_OPERATION_NOT_INITIALIZED) else
  (Cmac (h_upd H (k_st c) d) (k_len c) false true, Ok tt).
(* finalize, aes.rs:2532-2556. *)
Definition cmac_final (c : cmac) (n : nat) : cmac * result bytes :=
  if k_final c then (c, Err CKR_OPERATION_NOT_INITIALIZED) else
  let o := h_fin H (k_st c) in
  let c := Cmac (k_st c) (k_len c) true true in
  if negb (length o =? 16) then (c, Err CKR_GENERAL_ERROR) else (c, Ok (firstn n o)).
(* sign: begin (aes.rs:2505-2510), update, finalize. *)
Definition cmac_once (c : cmac) (d : bytes) (n : nat) : cmac * result bytes :=
  if k_used c then (c, Err CKR_OPERATION_NOT_INITIALIZED) else
  match cmac_update c d with
  | (c, Err e) => (c, Err e)
  | (c, Ok _) => cmac_final c n
  end.
End Ops.

(* AesMacOperation, aes.rs:2719-2915, over the CBC operation of Aes.v. *)
Section AesMac.
Variable P : prim.
Record amac := Amac {
  c_op : aes P; c_pad : bytes; c_mac : bytes; c_len : nat; c_final : bool; c_used : bool }.
(* init, aes.rs:2750-2802: [P] starts with the key and a zero IV. *)
Definition amac_new (len : nat) : option amac :=
  match aes_new P MCbc true (repeat 0%N 16) [] 0 0 0 with
  | Some a => Some (Amac a [] (repeat 0%N 16) len false false)
  | None => None
  end.
(* One block through encrypt_update, with the check of the output length (aes.rs:2832-2837, 2843-2850, 2879-2883). *)
Definition amac_block (m : amac) (b : bytes) : amac * result unit :=
  match enc_update P (c_op m) b 16 with
  | (a, Err e) => (Amac a (c_pad m) (c_mac m) (c_len m) (c_final m) (c_used m), Err e)
  | (a, Ok o) =>
    if negb (length o =? 16) then (Amac a (c_pad m) (c_mac m) (c_len m) true (c_used m), Err CKR_GENERAL_ERROR)
    else (Amac a (c_pad m) o (c_len m) (c_final m) (c_used m), Ok tt)
  end.
(* The loop over the whole blocks, aes.rs:2841-2853: at least one byte is left for the pad buffer. *)
Fixpoint amac_loop (fuel : nat) (m : amac) (d : bytes) : amac * result bytes :=
  match fuel with
  | O => (m, Ok d)
  | S fuel =>
    if 16 <? length d then
      match amac_block m (firstn 16 d) with
      | (m, Err e) => (m, Err e)
      | (m, Ok _) => amac_loop fuel m (skipn 16 d)
      end
    else (m, Ok d)
  end.
(* update, aes.rs:2813-2859. *)
Definition amac_update (m : amac) (d : bytes) : amac * result unit :=
  if c_final m then (m, Err CKR_OPERATION_NOT_INITIALIZED) else
  let m := Amac (c_op m) (c_pad m) (c_mac m) (c_len m) (c_final m) true in
  if length (c_pad m) + length d <? 16 then
    (Amac (c_op m) (c_pad m ++ d) (c_mac m) (c_len m) (c_final m) true, Ok tt)
  else
    let '(m, r) :=
      if 0 <? length (c_pad m) then
        let cur := 16 - length (c_pad m) in
        match amac_block m (c_pad m ++ firstn cur d) with
        | (m, Err e) => (m, Err e)
        | (m, Ok _) => (m, Ok (skipn cur d))
        end
      else (m, Ok d) in
    match r with
    | Err e => (m, Err e)
    | Ok d =>
      match amac_loop (length d) m d with
      | (m, Err e) => (m, Err e)
      | (m, Ok d) => (Amac (c_op m) d (c_mac m) (c_len m) (c_final m) (c_used m), Ok tt)
      end
    end.
(* finalize, aes.rs:2863-2896. *)
Definition amac_final (m : amac) (n : nat) : amac * result bytes :=
  if negb (c_used m) then (m, Err CKR_OPERATION_NOT_INITIALIZED) else
  if c_final m then (m, Err CKR_OPERATION_NOT_INITIALIZED) else
  let m := Amac (c_op m) (c_pad m) (c_mac m) (c_len m) true (c_used m) in
  if negb (n =? c_len m) then (m, Err CKR_GENERAL_ERROR) else
  if 0 <? length (c_pad m) then
    match amac_block m (c_pad m ++ repeat 0%N (16 - length (c_pad m))) with
    | (m, Err e) => (m, Err e)
    | (m, Ok _) => (m, Ok (firstn n (c_mac m)))
    end
  else (m, Ok (firstn n (c_mac m))).
(* sign, aes.rs:2935-2939: begin (2805-2810), update, finalize. *)
Definition amac_once (m : amac) (d : bytes) (n : nat) : amac * result bytes :=
  if c_used m then (m, Err CKR_OPERATION_NOT_INITIALIZED) else
  match amac_update m d with
  | (m, Err e) => (m, Err e)
  | (m, Ok _) => amac_final m n
  end.
End AesMac.

(* Feeding a list of pieces, then asking for the result. *)
Definition pieces {S : Type} (upd : S -> bytes -> S * result unit) (fin : S -> nat -> S * result bytes)
    (s : S) (l : list bytes) (n : nat) : result bytes :=
  (fix go (s : S) (l : list bytes) : result bytes :=
     match l with
     | [] => snd (fin s n)
     | p :: l => match upd s p with (s, Ok _) => go s l | (_, Err e) => Err e end
     end) s l.
