(* The DER encodings kryoptic writes and reads itself: the two forms of an ECDSA signature, and the PKCS#8 form in which an RSA
   private key is wrapped.  The [asn1] crate that does the tag and length work is not part of /repo; its reading and writing of
   a tag, a length and a SEQUENCE is modelled below from its documentation.  All tags of these structures are one byte long. *)
From Verif Require Export Base Pkcs11.
From Coq Require Import Arith.
Local Open Scope N_scope.

Definition TAG_INTEGER : N := 2.
Definition TAG_OCTETS : N := 4.
Definition TAG_SEQUENCE : N := 48.
(* [explicit(1)] of PrivateKeyInfo, src/kasn1/mod.rs:199-200 *)
Definition TAG_ATTRIBUTES : N := 161.

(* src/kasn1/mod.rs:60-65 (the check at the end of [DerEncBigUint::new]): [asn1::BigUint::new] takes a nonempty string whose
   first bit is clear and that has no superfluous leading zero. *)
Definition biguint_ok (d : bytes) : bool :=
  match d with
  | [] => false
  | [x] => x <? 128
  | x :: y :: _ => (x <? 128) && negb ((x =? 0) && (y <? 128))
  end.
(* src/kasn1/mod.rs:49-54: the loop that passes over leading zeros that do not affect the sign *)
Fixpoint skip_zeros (d : bytes) : bytes :=
  match d with
  | x :: r => match r with
              | y :: _ => if (x =? 0) && (y <? 128) then skip_zeros r else d
              | [] => d
              end
  | [] => []
  end.
(* src/kasn1/mod.rs:37-66 [DerEncBigUint::new].  [de.data[0]] on an empty slice panics.  The test [& 0x80 == 0x80] of a byte is
   written as a comparison. *)
Definition der_uint (d : bytes) : result bytes :=
  match d with
  | [] => Err RV_PANIC
  | x :: _ =>
      let c := if 128 <=? x then 0 :: d else skip_zeros d in
      if biguint_ok c then Ok c else Err CKR_GENERAL_ERROR
  end.
(* src/kasn1/mod.rs:75-84 [as_nopad_bytes] *)
Fixpoint nopad (d : bytes) : bytes :=
  match d with
  | x :: r => if x =? 0 then nopad r else d
  | [] => []
  end.

(* The length bytes the [asn1] crate writes.  A length of 2^32 or more is not produced by any structure here; it is written
   like one of four bytes. *)
Definition der_len (n : N) : bytes :=
  if n <? 128 then [n]
  else if n <? 256 then 129 :: be 1 n
  else if n <? 65536 then 130 :: be 2 n
  else if n <? 16777216 then 131 :: be 3 n
  else 132 :: be 4 n.
(* [asn1::write_single] of a value with that tag and content *)
Definition der_tlv (tag : N) (c : bytes) : bytes := tag :: der_len (blen c) ++ c.

(* Reading a length: one byte, or 0x81 to 0x84 followed by as many bytes, refused when a shorter form would do. *)
Definition read_len (d : bytes) : option (N * bytes) :=
  match d with
  | [] => None
  | x :: r =>
      let long (k : nat) (low : N) :=
        if (length r <? k)%nat then None
        else let n := unbe (firstn k r) in if n <? low then None else Some (n, skipn k r) in
      if x <? 128 then Some (x, r)
      else if x =? 129 then long 1%nat 128
      else if x =? 130 then long 2%nat 256
      else if x =? 131 then long 3%nat 65536
      else if x =? 132 then long 4%nat 16777216
      else None
  end.
(* Reading one value of a given tag: its content and what follows ([asn1::Parser::read_element], [asn1::strip_tlv]) *)
Definition read_tlv (tag : N) (d : bytes) : option (bytes * bytes) :=
  match d with
  | [] => None
  | t :: r =>
      if negb (t =? tag) then None
      else match read_len r with
           | None => None
           | Some (n, r) => if blen r <? n then None else Some (firstn (N.to_nat n) r, skipn (N.to_nat n) r)
           end
  end.
(* A field of type [DerEncBigUint] in a derived reader: src/kasn1/mod.rs:95-107.  The panic passes through. *)
Definition read_uint (e : N) (d : bytes) : result (bytes * bytes) :=
  match read_tlv TAG_INTEGER d with
  | None => Err e
  | Some (c, r) => match der_uint c with
                   | Ok x => Ok (x, r)
                   | Err RV => if is_fault RV then Err RV else Err e
                   end
  end.
Fixpoint read_uints (e : N) (k : nat) (d : bytes) : result (list bytes * bytes) :=
  match k with
  | O => Ok ([], d)
  | S k =>
      let? (x, d) := read_uint e d in
      let? (xs, d) := read_uints e k d in
      Ok (x :: xs, d)
  end.

(* src/ossl/ecdsa.rs:68-90 [slice_to_sig_half]: the half as it is left in a buffer of [n] bytes *)
Definition sig_half (hin : bytes) (n : nat) : result bytes :=
  let h := if (n <? length hin)%nat then nopad hin else hin in
  if (n <? length hin)%nat && ((length h =? 0)%nat || (n <? length h)%nat) then Err CKR_GENERAL_ERROR
  else Ok (repeat 0 (n - length h) ++ h).
(* src/ossl/ecdsa.rs:59-63, 101-112 [ossl_to_pkcs11_signature] with a buffer of [n] bytes *)
Definition sig_of_der (b : bytes) (n : nat) : result bytes :=
  match read_tlv TAG_SEQUENCE b with
  | Some (c, []) =>
      let? (xs, rest) := read_uints CKR_GENERAL_ERROR 2 c in
      match xs, rest with
      | [r; s], [] =>
          let k := (n / 2)%nat in
          let? r := sig_half r k in
          let? s := sig_half s (n - k) in
          Ok (r ++ s)
      | _, _ => Err CKR_GENERAL_ERROR
      end
  | _ => Err CKR_GENERAL_ERROR
  end.
(* src/ossl/ecdsa.rs:119-130 [pkcs11_to_ossl_signature] *)
Definition der_of_sig (sig : bytes) : result bytes :=
  let k := (length sig / 2)%nat in
  let? r := der_uint (firstn k sig) in
  let? s := der_uint (skipn k sig) in
  Ok (der_tlv TAG_SEQUENCE (der_tlv TAG_INTEGER r ++ der_tlv TAG_INTEGER s)).

(* The parts of an RSA private key, in the order of RSAPrivateKey (src/rsa.rs:311-320): modulus, public exponent, private
   exponent, the two primes, the two exponents and the coefficient *)
Definition rsa_parts : Type := list bytes.
Fixpoint der_uints (xs : list bytes) : result bytes :=
  match xs with
  | [] => Ok []
  | x :: xs =>
      let? x := der_uint x in
      let? r := der_uints xs in
      Ok (der_tlv TAG_INTEGER x ++ r)
  end.
(* The version, an [u64] that is 0 *)
Definition der_zero : bytes := der_tlv TAG_INTEGER [0].
(* src/kasn1/pkcs.rs:95-98 [RSA_ALG], written: the object identifier 1.2.840.113549.1.1.1 and a NULL *)
Definition rsa_alg : bytes := [6; 9; 42; 134; 72; 134; 247; 13; 1; 1; 1; 5; 0].
(* src/rsa.rs:324-348 [RSAPrivateKey::new_owned] and the writing of it *)
Definition rsa_key_der (k : rsa_parts) : result bytes :=
  let? c := der_uints k in
  Ok (der_tlv TAG_SEQUENCE (der_zero ++ c)).
(* src/rsa.rs:438-462 [export_for_wrapping] after the check of the key and the reading of the eight attributes, with
   src/kasn1/mod.rs:206-217 [PrivateKeyInfo::new] *)
Definition rsa_export (k : rsa_parts) : result bytes :=
  let? inner := rsa_key_der k in
  Ok (der_tlv TAG_SEQUENCE (der_zero ++ der_tlv TAG_SEQUENCE rsa_alg ++ der_tlv TAG_OCTETS inner)).

(* Reading the [u64] version: minimal, not negative, at most 64 bits.  Any version is accepted. *)
Definition read_u64 (d : bytes) : option (N * bytes) :=
  match read_tlv TAG_INTEGER d with
  | Some (c, r) => if biguint_ok c && (unbe c <? 2 ^ 64) then Some (unbe c, r) else None
  | None => None
  end.
(* src/rsa.rs:300-304: the elements of [other_prime_infos], which are read and not used.  [fuel] bounds their number. *)
Fixpoint read_primes (e : N) (fuel : nat) (d : bytes) : result unit :=
  match fuel, d with
  | _, [] => Ok tt
  | O, _ => Err e
  | S fuel, _ =>
      match read_tlv TAG_SEQUENCE d with
      | None => Err e
      | Some (c, r) =>
          let? (_, rest) := read_uints e 3 c in
          match rest with [] => read_primes e fuel r | _ => Err e end
      end
  end.
(* src/rsa.rs:310-321, the derived reader *)
Definition rsa_key_read (d : bytes) : result rsa_parts :=
  let e := CKR_WRAPPED_KEY_INVALID in
  match read_tlv TAG_SEQUENCE d with
  | Some (c, []) =>
      match read_u64 c with
      | None => Err e
      | Some (_, c) =>
          let? (xs, rest) := read_uints e 8 c in
          match rest with
          | [] => Ok xs
          | _ => match read_tlv TAG_SEQUENCE rest with
                 | Some (o, []) => let? _ := read_primes e (length o) o in Ok xs
                 | _ => Err e
                 end
          end
      end
  | _ => Err e
  end.
(* src/kasn1/mod.rs:193-202 and src/rsa.rs:488-494: the key inside a PrivateKeyInfo for RSA.  The algorithm identifier is
   compared as the bytes it is encoded in (the encoding is unique).  A PrivateKeyInfo with attributes is refused by the model,
   the code reads them and goes on. *)
Definition key_info_read (c : bytes) : result bytes :=
  let e := CKR_WRAPPED_KEY_INVALID in
  match read_u64 c with
  | None => Err e
  | Some (_, c) =>
      match read_tlv TAG_SEQUENCE c with
      | None => Err e
      | Some (alg, c) =>
          match read_tlv TAG_OCTETS c with
          | Some (k, []) => if bytes_eqb alg rsa_alg then Ok k else Err e
          | _ => Err e
          end
      end
  end.
(* src/kasn1/pkcs.rs:308-334 and src/rsa.rs:178-195 [rsa_check_public_key_info]: the encoding of the public key from the
   modulus and public exponent; only whether it fails is modelled *)
Definition public_info (n e : bytes) : result unit :=
  let? _ := der_uint n in
  let? _ := der_uint e in
  Ok tt.
(* src/rsa.rs:470-540 [import_from_wrapped] for a template that says nothing about the parts of the key: the values of the
   eight attributes *)
Definition rsa_import (d : bytes) : result rsa_parts :=
  let e := CKR_WRAPPED_KEY_INVALID in
  match read_tlv TAG_SEQUENCE d with
  | None => Err e
  | Some (c, extra) =>
      if negb (forallb (fun b => b =? 0) extra) then Err e
      else
        let? k := key_info_read c in
        let? xs := rsa_key_read k in
        let ps := map nopad xs in
        let? _ := public_info (nth 0 ps []) (nth 1 ps []) in
        Ok ps
  end.
