(* RSA encryption and decryption: src/ossl/rsa.rs with ossl/src/asymcipher.rs, and key wrapping with it. *)
From Verif Require Export Sig.
Local Open Scope N_scope.

(* What OpenSSL does with the key and the padding of the operation.  [e_size]: the size of the modulus as a number, which is what
   a call without buffer answers and what every output buffer must have (EVP_PKEY_encrypt, EVP_PKEY_decrypt of its RSA
   provider). *)
Record encalg := { e_enc : N -> bytes -> option bytes; e_dec : bytes -> option bytes; e_size : N }.
(* src/ossl/rsa.rs:178-209 [parse_enc_params]: the mechanisms; for OAEP the size of the digest (src/hash.rs [hash_size]) *)
Inductive amech := AX509 | APkcs | AOaep (hash : N).
(* src/ossl/rsa.rs:215-234 [RsaPKCSOperation] with an encryption context.  [a_coin]: the random bytes of the padding *)
Record aop := { a_mech : amech; a_max : N; a_len : N; a_final : bool; a_use : bool; a_enc : bool; a_coin : N }.
Definition a_over (o : aop) : aop :=
  {| a_mech := a_mech o; a_max := a_max o; a_len := a_len o; a_final := true; a_use := a_use o; a_enc := a_enc o; a_coin := a_coin o |}.

(* src/ossl/rsa.rs:34-41, src/rsa.rs:20-58: the bounds of the mechanism table, outside FIPS *)
Definition MIN_RSA_BITS : N := 1024.
Definition MAX_RSA_BITS : N := 16384.
(* src/ossl/rsa.rs:245-254 [get_key_size] on the length of CKA_MODULUS *)
Definition get_key_size (modlen : N) : result N :=
  if (modlen * 8 <? MIN_RSA_BITS) || (MAX_RSA_BITS <? modlen * 8) then Err CKR_KEY_SIZE_RANGE else Ok modlen.
(* usize subtraction: stops the process in a build with overflow checks.  In a build without them the number wraps around; it is
   not used by encryption. *)
Definition usub (a b : N) : result N := if a <? b then Err RV_PANIC else Ok (a - b).
(* src/ossl/rsa.rs:258-275 [max_message_len] *)
Definition max_message_len (modlen : N) (m : amech) : result N :=
  match m with
  | AX509 => Ok modlen
  | APkcs => usub modlen 11
  | AOaep h => let? a := usub modlen (2 * h) in usub a 2
  end.
(* src/ossl/rsa.rs:279-318 [encdec_new].  Loading of the key is taken to succeed. *)
Definition encdec_new (m : amech) (modlen : N) (enc : bool) (coin : N) : result aop :=
  let? k := get_key_size modlen in
  let? x := max_message_len k m in
  Ok {| a_mech := m; a_max := x; a_len := k; a_final := false; a_use := false; a_enc := enc; a_coin := coin |}.

Section ENC.
Context (E : encalg).
Definition Aop (A : Type) : Type := M aop A.

(* ossl/src/asymcipher.rs:149-177 [encrypt]; without a buffer the size *)
Definition os_encrypt (d : bytes) (room : option N) (o : aop) : ores (bytes * N) :=
  if negb (a_enc o) then OErr EWrapper
  else match room with
       | None => OOk ([], e_size E)
       | Some n => if n <? e_size E then OErr EOssl
                   else match e_enc E (a_coin o) d with Some c => OOk (c, blen c) | None => OErr EOssl end
       end.
(* ossl/src/asymcipher.rs:181-209 [decrypt] *)
Definition os_decrypt (c : bytes) (room : option N) (o : aop) : ores (bytes * N) :=
  if a_enc o then OErr EWrapper
  else match room with
       | None => OOk ([], e_size E)
       | Some n => if n <? e_size E then OErr EOssl
                   else match e_dec E c with Some d => OOk (d, blen d) | None => OErr EOssl end
       end.
Definition a_raise {A} (r : ores A) : Aop A := match r with OOk a => ret a | OErr e => fail (of_oerr e) end.
(* the two tests at the head, src/ossl/rsa.rs:577-582, 633-638 *)
Definition a_open : Aop unit := let! o := gets id in ensure (negb (a_use o)) NI ;;; ensure (negb (a_final o)) NI.

(* src/ossl/rsa.rs:576-606 [encrypt] into a buffer of [n] bytes: the bytes written and the length answered *)
Definition a_encrypt (d : bytes) (n : N) : Aop (bytes * N) :=
  a_open ;;;
  let! o := gets id in
  let! z := a_raise (os_encrypt d None o) in
  if n =? 0 then ret ([], snd z)
  else
    ensure (snd z <=? n) CKR_BUFFER_TOO_SMALL ;;;
    modify a_over ;;;
    a_raise (os_encrypt d (Some n) o).
(* src/ossl/rsa.rs:608-621 [encrypt_update], [encrypt_final]; 684-697 the same for decryption *)
Definition a_piece : Aop (bytes * N) := modify a_over ;;; fail NI.
(* src/ossl/rsa.rs:623-628 [encryption_len], 699-704 [decryption_len] *)
Definition a_length : Aop N :=
  let! o := gets id in
  match a_mech o with AX509 => fail CKR_GENERAL_ERROR | _ => ret (a_len o) end.
(* src/ossl/rsa.rs:632-682 [decrypt] *)
Definition a_decrypt (c : bytes) (n : N) : Aop (bytes * N) :=
  a_open ;;;
  let! o := gets id in
  let! z := a_raise (os_decrypt c None o) in
  if n =? 0 then ret ([], snd z)
  else
    ensure (negb ((n <? snd z) && (n <? a_len o))) CKR_BUFFER_TOO_SMALL ;;;
    modify a_over ;;;
    let! r := (if n <? snd z
               then let! t := a_raise (os_decrypt c (Some (snd z)) o) in
                    ret (if snd t <=? n then t else ([], snd t))
               else a_raise (os_decrypt c (Some n) o)) in
    ensure (snd r <=? n) CKR_GENERAL_ERROR ;;;
    ret r.

(* C_Encrypt and C_Decrypt, src/fns/encryption.rs:84-119, 361-399, on the operation: [None] for a null buffer, [Some n] for a
   buffer with the given length. *)
Definition c_encrypt (d : bytes) (buf : option N) : Aop (bytes * N) :=
  let! o := gets id in
  ensure (negb (a_final o)) NI ;;;
  match buf with None => let! n := a_length in ret ([], n) | Some n => a_encrypt d n end.
Definition c_decrypt (c : bytes) (buf : option N) : Aop (bytes * N) :=
  let! o := gets id in
  ensure (negb (a_final o)) NI ;;;
  match buf with None => let! n := a_length in ret ([], n) | Some n => a_decrypt c n end.

(* src/ossl/rsa.rs:506-538 [wrap]: key data, length of the output buffer *)
Definition rsa_wrap (m : amech) (modlen : N) (coin : N) (keydata : bytes) (n : N) : result (bytes * N) :=
  let? o := encdec_new m modlen true coin in
  let? needed := snd (a_length o) in
  if n =? 0 then Ok ([], needed)
  else if n <? needed then Err CKR_BUFFER_TOO_SMALL
  else snd (a_encrypt keydata n o).
(* src/ossl/rsa.rs:546-558 [unwrap] *)
Definition rsa_unwrap (m : amech) (modlen : N) (data : bytes) : result bytes :=
  let? o := encdec_new m modlen false 0 in
  let '(o, r) := a_decrypt data 0 o in
  let? z := r in
  let? x := snd (a_decrypt data (snd z) o) in
  (* result.resize(outlen, 0) on the buffer of [snd z] bytes that starts with what was written *)
  Ok (firstn (N.to_nat (snd x)) (fst x ++ repeat 0 (N.to_nat (snd z - blen (fst x))))).
End ENC.
