(* Signing and verifying with RSA, ECDSA, EdDSA, ML-DSA and SLH-DSA: the operations of src/ossl and the wrapper around OpenSSL's
   signature interface they share.  OpenSSL itself is the record [keyalg]: for one key and one algorithm, the signature of a
   message (it may depend on random coins) and the test of one. *)
From Verif Require Export Monad Der.
From Coq Require Import Arith.
Local Open Scope N_scope.

Record keyalg := {
  k_sign : N -> bytes -> option bytes;    (* coins, message; None when OpenSSL refuses *)
  k_verify : bytes -> bytes -> bool;      (* message, signature in OpenSSL's form *)
  k_size : N }.                           (* the largest signature, in OpenSSL's form *)

(* ossl/src/error.rs: the kinds of error of the wrapper *)
Inductive oerr := EOssl | EWrapper | EBuffer | ENull.
Inductive ores (A : Type) := OOk (a : A) | OErr (e : oerr).
Arguments OOk {A} a. Arguments OErr {A} e.
(* src/error.rs:275-284 *)
Definition of_oerr (e : oerr) : N := match e with EWrapper => CKR_GENERAL_ERROR | _ => CKR_DEVICE_ERROR end.

(* ossl/src/signature.rs:693-714 [OsslSignature], with what OpenSSL keeps: the data it was fed and the signature it was given *)
Record sctx := {
  c_sign : bool;              (* op: SigOp::Sign *)
  c_legacy : bool;            (* legacy_ctx.is_some() *)
  c_updates : bool;           (* supports_updates *)
  c_data : option bytes;      (* data *)
  c_sig : option bytes;       (* signature *)
  c_fed : bytes;              (* in OpenSSL: data of the updates *)
  c_set : option bytes;       (* in OpenSSL: EVP_PKEY_CTX_set_signature *)
  c_coin : N }.
Definition set_data x c := {| c_sign := c_sign c; c_legacy := c_legacy c; c_updates := c_updates c; c_data := x; c_sig := c_sig c; c_fed := c_fed c; c_set := c_set c; c_coin := c_coin c |}.
Definition set_csig x c := {| c_sign := c_sign c; c_legacy := c_legacy c; c_updates := c_updates c; c_data := c_data c; c_sig := x; c_fed := c_fed c; c_set := c_set c; c_coin := c_coin c |}.
Definition set_cfed x c := {| c_sign := c_sign c; c_legacy := c_legacy c; c_updates := c_updates c; c_data := c_data c; c_sig := c_sig c; c_fed := x; c_set := c_set c; c_coin := c_coin c |}.
Definition set_cset x c := {| c_sign := c_sign c; c_legacy := c_legacy c; c_updates := c_updates c; c_data := c_data c; c_sig := c_sig c; c_fed := c_fed c; c_set := x; c_coin := c_coin c |}.

(* ossl/src/signature.rs:682 *)
Definition MAX_BUFFER_LEN : N := 1048576.

Section OPS.
Context (K : keyalg).

(* ossl/src/signature.rs:911-929 [store_data] *)
Definition store_data (d : bytes) (c : sctx) : sctx * ores unit :=
  match c_data c with
  | Some b => if MAX_BUFFER_LEN <? blen b + blen d then (c, OErr EBuffer) else (set_data (Some (b ++ d)) c, OOk tt)
  | None => if MAX_BUFFER_LEN <? blen d then (c, OErr EBuffer) else (set_data (Some d) c, OOk tt)
  end.
(* ossl/src/signature.rs:934-1030 [sign] without a buffer: the size *)
Definition os_size (c : sctx) : ores N := if c_sign c then OOk (k_size K) else OErr EWrapper.
(* the same with a buffer of [room] bytes: what is written to it *)
Definition os_sign (d : bytes) (room : N) (c : sctx) : ores bytes :=
  if negb (c_sign c) then OErr EWrapper
  else if room <? k_size K then OErr EBuffer
  else match k_sign K (c_coin c) d with Some s => OOk s | None => OErr EOssl end.
(* ossl/src/signature.rs:1033-1085 [verify] *)
Definition os_verify (d : bytes) (sig : option bytes) (c : sctx) : ores unit :=
  if c_sign c then OErr EWrapper
  else match (match sig with Some s => Some s | None => c_sig c end) with
       | None => OErr EWrapper
       | Some s => if k_verify K d s then OOk tt else OErr EOssl
       end.
(* ossl/src/signature.rs:1088-1168 [update].  An update inside OpenSSL is taken to succeed. *)
Definition os_update (d : bytes) (c : sctx) : sctx * ores unit :=
  if negb (c_updates c) then store_data d c else (set_cfed (c_fed c ++ d) c, OOk tt).
(* ossl/src/signature.rs:1171-1228 [sign_final] with a buffer of [room] bytes *)
Definition os_sign_final (room : N) (c : sctx) : sctx * ores bytes :=
  if negb (c_sign c) then (c, OErr EWrapper)
  else if negb (c_updates c) then
    match c_data c with
    | Some b => let c := set_data None c in (c, os_sign b room c)
    | None => (c, OErr EWrapper)
    end
  else if room <? k_size K then (c, OErr EOssl)
  else (c, match k_sign K (c_coin c) (c_fed c) with Some s => OOk s | None => OErr EOssl end).
(* ossl/src/signature.rs:1234-1264 [set_signature] *)
Definition os_set_sig (s : bytes) (c : sctx) : sctx * ores unit :=
  if c_sign c then (c, OErr EWrapper)
  else if c_legacy c || negb (c_updates c) then (set_csig (Some s) c, OOk tt)
  else (set_cset (Some s) c, OOk tt).
(* ossl/src/signature.rs:1267-1332 [verify_final] *)
Definition os_verify_final (sig : option bytes) (c : sctx) : sctx * ores unit :=
  if c_sign c then (c, OErr EWrapper)
  else if negb (c_updates c) then
    match c_data c with
    | Some b => let c := set_data None c in (c, os_verify b sig c)
    | None => (c, OErr EWrapper)
    end
  else if c_legacy c then
    match (match sig with Some s => Some s | None => c_sig c end) with
    | None => (c, OErr ENull)
    | Some s => (c, if k_verify K (c_fed c) s then OOk tt else OErr EOssl)
    end
  else
    let c := match sig with Some s => fst (os_set_sig s c) | None => c end in
    (c, match c_set c with
        | Some s => if k_verify K (c_fed c) s then OOk tt else OErr EOssl
        | None => OErr EOssl
        end).

(* The families of mechanisms *)
Inductive scheme :=
| RsaRaw (exact : bool)    (* CKM_RSA_X_509, CKM_RSA_PKCS; exact: CKM_RSA_PKCS_PSS *)
| RsaHash                  (* CKM_*_RSA_PKCS, CKM_*_RSA_PKCS_PSS *)
| EcRaw                    (* CKM_ECDSA *)
| EcHash                   (* CKM_ECDSA_* *)
| Ed                       (* CKM_EDDSA *)
| PqPure                   (* CKM_ML_DSA, CKM_SLH_DSA *)
| PqHashed                 (* CKM_HASH_ML_DSA, CKM_HASH_SLH_DSA: the data is a digest *)
| PqDigest.                (* CKM_HASH_ML_DSA_*, CKM_HASH_SLH_DSA_* *)

(* src/ossl/mldsa.rs:138-150 [MlDsaParams], the parts used here; [q_hash] is the digest of src/hash.rs for that mechanism *)
Record pq := { q_ctx : option bytes; q_mech : N; q_hash : bytes -> bytes }.
(* src/hash.rs:233-241 [hash_size] and the identifiers of src/ossl/mldsa.rs:445-456: the mechanism, the last byte of the object
   identifier 2.16.840.1.101.3.4.2.x (src/kasn1/oid.rs), the size *)
Definition hashes : list (N * (N * N)) :=
  [(CKM_SHA224, (4, 28)); (CKM_SHA256, (1, 32)); (CKM_SHA384, (2, 48)); (CKM_SHA512, (3, 64));
   (CKM_SHA3_224, (7, 28)); (CKM_SHA3_256, (8, 32)); (CKM_SHA3_384, (9, 48)); (CKM_SHA3_512, (10, 64))].
Definition hash_entry (m : N) : option (N * N) := option_map snd (find (fun x => fst x =? m) hashes).
(* src/ossl/mldsa.rs:429-472 [hash_mldsa_m_prime], src/ossl/slhdsa.rs:449-492 *)
Definition m_prime (q : pq) (h : bytes) : result bytes :=
  let ctx := match q_ctx q with Some c => c | None => [] end in
  if 255 <? blen ctx then Err CKR_GENERAL_ERROR
  else match hash_entry (q_mech q) with
       | None => Err CKR_MECHANISM_PARAM_INVALID
       | Some (o, n) =>
           if negb (blen h =? n) then Err CKR_DATA_LEN_RANGE
           else Ok (1 :: blen ctx :: ctx ++ [6; 9; 96; 134; 72; 1; 101; 3; 4; 2; o] ++ h)
       end.

(* The operations RsaPKCSOperation (src/ossl/rsa.rs:215-234), EcdsaOperation (ecdsa.rs:151-162), EddsaOperation
   (eddsa.rs:112-126), MlDsaOperation (mldsa.rs:244-266) and its copy in slhdsa.rs *)
Record sigop := {
  o_scheme : scheme;
  o_len : N;                 (* output_len, params.sigsize *)
  o_max : N;                 (* max_input; hashsize *)
  o_final : bool;
  o_use : bool;
  o_ctx : sctx;
  o_fed : bytes;             (* what the hasher was given *)
  o_sig : option bytes;      (* MlDsaOperation.signature *)
  o_pq : pq }.
Definition set_final o := {| o_scheme := o_scheme o; o_len := o_len o; o_max := o_max o; o_final := true; o_use := o_use o; o_ctx := o_ctx o; o_fed := o_fed o; o_sig := o_sig o; o_pq := o_pq o |}.
Definition set_use o := {| o_scheme := o_scheme o; o_len := o_len o; o_max := o_max o; o_final := o_final o; o_use := true; o_ctx := o_ctx o; o_fed := o_fed o; o_sig := o_sig o; o_pq := o_pq o |}.
Definition set_ctx c o := {| o_scheme := o_scheme o; o_len := o_len o; o_max := o_max o; o_final := o_final o; o_use := o_use o; o_ctx := c; o_fed := o_fed o; o_sig := o_sig o; o_pq := o_pq o |}.
Definition set_ofed x o := {| o_scheme := o_scheme o; o_len := o_len o; o_max := o_max o; o_final := o_final o; o_use := o_use o; o_ctx := o_ctx o; o_fed := x; o_sig := o_sig o; o_pq := o_pq o |}.

Definition Op (A : Type) : Type := M sigop A.
(* a call on the context that changes it; its error passed on by [?] *)
Definition on_ctx {A} (f : sctx -> sctx * ores A) : Op (ores A) := fun o => let '(c, r) := f (o_ctx o) in (set_ctx c o, Ok r).
Definition raise {A} (r : ores A) : Op A := match r with OOk a => ret a | OErr e => fail (of_oerr e) end.
Definition NI := CKR_OPERATION_NOT_INITIALIZED.
(* the two tests at the head of sign and verify_internal: src/ossl/rsa.rs:709-714, ecdsa.rs:287-292, eddsa.rs:256-261,
   mldsa.rs:629-634 *)
Definition unused : Op unit := let! o := gets id in ensure (negb (o_use o)) NI ;;; ensure (negb (o_final o)) NI.
(* those at the head of sign_final and verify_int_final: src/ossl/rsa.rs:783-788, ecdsa.rs:323-328 and so on *)
Definition running : Op unit := let! o := gets id in ensure (o_use o) NI ;;; ensure (negb (o_final o)) NI.

(* src/ossl/rsa.rs:753-780 [sign_update], 861-888 [verify_int_update] *)
Definition rsa_update (d : bytes) : Op unit :=
  let! o := gets id in
  ensure (negb (o_final o)) NI ;;;
  ensure (o_use o || match o_scheme o with RsaRaw _ => false | _ => true end) NI ;;;
  modify set_use ;;;
  let! r := on_ctx (os_update d) in raise r.
(* src/ossl/rsa.rs:782-806 [sign_final] *)
Definition rsa_sign_final (n : N) : Op bytes :=
  running ;;; modify set_final ;;;
  let! r := on_ctx (os_sign_final n) in
  let! s := raise r in
  ensure (blen s =? n) CKR_DEVICE_ERROR ;;; ret s.
(* src/ossl/rsa.rs:708-751 [sign] *)
Definition rsa_sign (d : bytes) (n : N) : Op bytes :=
  unused ;;;
  let! o := gets id in
  match o_scheme o with
  | RsaRaw exact =>
      modify set_final ;;;
      ensure (if exact then blen d =? o_max o else blen d <=? o_max o) CKR_DATA_LEN_RANGE ;;;
      ensure (n =? o_len o) CKR_GENERAL_ERROR ;;;
      let! z := raise (os_size (o_ctx o)) in
      ensure (z =? n) CKR_GENERAL_ERROR ;;;
      raise (os_sign d n (o_ctx o))
  | _ => rsa_update d ;;; rsa_sign_final n
  end.
(* src/ossl/rsa.rs:891-915 [verify_int_final] *)
Definition rsa_verify_final (sig : option bytes) : Op unit :=
  running ;;; modify set_final ;;;
  let! r := on_ctx (os_verify_final sig) in raise r.
(* src/ossl/rsa.rs:816-858 [verify_internal] *)
Definition rsa_verify (d : bytes) (sig : option bytes) : Op unit :=
  unused ;;;
  let! o := gets id in
  match o_scheme o with
  | RsaRaw _ =>
      modify set_final ;;;
      ensure (blen d <=? o_max o) CKR_DATA_LEN_RANGE ;;;
      ensure (match sig with Some s => blen s =? o_len o | None => true end) CKR_SIGNATURE_LEN_RANGE ;;;
      raise (os_verify d sig (o_ctx o))
  | _ => rsa_update d ;;; rsa_verify_final sig
  end.

(* src/ossl/ecdsa.rs:310-320 [sign_update], 383-393 [verify_int_update] *)
Definition ec_update (d : bytes) : Op unit :=
  let! o := gets id in
  (match o_scheme o with EcRaw => modify set_final | _ => skip end) ;;;
  let! o := gets id in
  ensure (negb (o_final o)) NI ;;;
  modify set_use ;;;
  let! r := on_ctx (os_update d) in raise r.
(* src/ossl/ecdsa.rs:322-343 [sign_final] *)
Definition ec_sign_final (n : N) : Op bytes :=
  running ;;; modify set_final ;;;
  let! r := on_ctx (os_sign_final (n + 10)) in
  let! s := raise r in
  ensure (blen s <=? n + 10) CKR_DEVICE_ERROR ;;;
  lift (sig_of_der s (N.to_nat n)).
(* src/ossl/ecdsa.rs:286-308 [sign] *)
Definition ec_sign (d : bytes) (n : N) : Op bytes :=
  unused ;;;
  let! o := gets id in
  match o_scheme o with
  | EcRaw =>
      modify set_final ;;;
      ensure (n =? o_len o) CKR_SIGNATURE_LEN_RANGE ;;;
      let! z := raise (os_size (o_ctx o)) in
      let! s := raise (os_sign d z (o_ctx o)) in
      lift (sig_of_der s (N.to_nat n))
  | _ => ec_update d ;;; ec_sign_final n
  end.
(* the conversion of a signature given, src/ossl/ecdsa.rs:367-376, 406-414 *)
Definition ec_form (sig : option bytes) (o : sigop) : result (option bytes) :=
  match sig with
  | Some s => if negb (blen s =? o_len o) then Err CKR_SIGNATURE_LEN_RANGE else let? b := der_of_sig s in Ok (Some b)
  | None => Ok None
  end.
(* src/ossl/ecdsa.rs:396-418 [verify_int_final] *)
Definition ec_verify_final (sig : option bytes) : Op unit :=
  running ;;; modify set_final ;;;
  let! o := gets id in
  let! s := lift (ec_form sig o) in
  let! r := on_ctx (os_verify_final s) in raise r.
(* src/ossl/ecdsa.rs:353-380 [verify_internal] *)
Definition ec_verify (d : bytes) (sig : option bytes) : Op unit :=
  unused ;;;
  let! o := gets id in
  match o_scheme o with
  | EcRaw =>
      modify set_final ;;;
      let! s := lift (ec_form sig o) in
      raise (os_verify d s (o_ctx o))
  | _ => ec_update d ;;; ec_verify_final sig
  end.

(* src/ossl/eddsa.rs:266-290 [sign_update], 339-363 [verify_int_update] *)
Definition ed_update (d : bytes) : Op unit :=
  let! o := gets id in
  ensure (negb (o_final o)) NI ;;;
  modify set_use ;;;
  let! r := on_ctx (os_update d) in
  match r with
  | OErr EBuffer => fail CKR_TOKEN_RESOURCE_EXCEEDED
  | _ => raise r
  end.
(* src/ossl/eddsa.rs:292-313 [sign_final] *)
Definition ed_sign_final (n : N) : Op bytes :=
  running ;;; modify set_final ;;;
  let! r := on_ctx (os_sign_final n) in
  let! s := raise r in
  ensure (blen s =? n) CKR_DEVICE_ERROR ;;; ret s.
(* src/ossl/eddsa.rs:255-264 [sign] *)
Definition ed_sign (d : bytes) (n : N) : Op bytes := unused ;;; ed_update d ;;; ed_sign_final n.
(* src/ossl/eddsa.rs:367-390 [verify_int_final] *)
Definition ed_verify_final (sig : option bytes) : Op unit :=
  running ;;; modify set_final ;;;
  let! r := on_ctx (os_verify_final sig) in
  match r with OOk _ => skip | OErr _ => fail CKR_SIGNATURE_INVALID end.
(* src/ossl/eddsa.rs:322-335 [verify_internal] *)
Definition ed_verify (d : bytes) (sig : option bytes) : Op unit := unused ;;; ed_update d ;;; ed_verify_final sig.

(* src/ossl/mldsa.rs:656-695 [sign_update], 546-587 [verify_int_update]; the same in slhdsa.rs.  The hasher is the function
   [q_hash] applied to all data at the end. *)
Definition pq_update (d : bytes) : Op unit :=
  let! o := gets id in
  ensure (negb (o_final o)) NI ;;;
  modify set_use ;;;
  match o_scheme o with
  | PqPure =>
      let! r := on_ctx (os_update d) in
      match r with OOk _ => skip | OErr e => modify set_final ;;; fail (of_oerr e) end
  | PqHashed => modify set_final ;;; fail NI
  | PqDigest => modify (fun o => set_ofed (o_fed o ++ d) o)
  | _ => fail CKR_GENERAL_ERROR
  end.
(* src/ossl/mldsa.rs:507-514 [sign_hash] *)
Definition pq_sign_hash (h : bytes) (n : N) : Op bytes :=
  let! o := gets id in
  let! m := lift (m_prime (o_pq o) h) in
  raise (os_sign m n (o_ctx o)).
(* src/ossl/mldsa.rs:491-505 [verify_hash] *)
Definition pq_verify_hash (h : bytes) (sig : option bytes) : Op unit :=
  let! o := gets id in
  let! m := lift (m_prime (o_pq o) h) in
  match (match sig with Some s => Some s | None => o_sig o end) with
  | None => fail CKR_SIGNATURE_LEN_RANGE
  | Some s => raise (os_verify m (Some s) (o_ctx o))
  end.
(* src/ossl/mldsa.rs:697-734 [sign_final] *)
Definition pq_sign_final (n : N) : Op bytes :=
  running ;;; modify set_final ;;;
  let! o := gets id in
  let! s := match o_scheme o with
            | PqPure => let! r := on_ctx (os_sign_final n) in raise r
            | PqDigest => pq_sign_hash (q_hash (o_pq o) (o_fed o)) n
            | _ => fail CKR_GENERAL_ERROR
            end in
  ensure (blen s =? n) CKR_DEVICE_ERROR ;;; ret s.
(* src/ossl/mldsa.rs:628-654 [sign] *)
Definition pq_sign (d : bytes) (n : N) : Op bytes :=
  unused ;;;
  let! o := gets id in
  match o_scheme o with
  | PqHashed =>
      modify set_final ;;;
      ensure (blen d =? o_max o) CKR_DATA_LEN_RANGE ;;;
      let! s := pq_sign_hash d n in
      ensure (blen s =? n) CKR_DEVICE_ERROR ;;; ret s
  | _ => pq_update d ;;; pq_sign_final n
  end.
(* src/ossl/mldsa.rs:590-624 [verify_int_final] *)
Definition pq_verify_final (sig : option bytes) : Op unit :=
  running ;;; modify set_final ;;;
  let! o := gets id in
  match o_scheme o with
  | PqPure => let! r := on_ctx (os_verify_final sig) in raise r
  | PqDigest => pq_verify_hash (q_hash (o_pq o) (o_fed o)) sig
  | _ => fail CKR_GENERAL_ERROR
  end.
(* src/ossl/mldsa.rs:517-543 [verify_internal] *)
Definition pq_verify (d : bytes) (sig : option bytes) : Op unit :=
  unused ;;;
  let! o := gets id in
  match o_scheme o with
  | PqHashed =>
      modify set_final ;;;
      ensure (blen d =? o_max o) CKR_DATA_LEN_RANGE ;;;
      pq_verify_hash d sig
  | _ => pq_update d ;;; pq_verify_final sig
  end.

(* The calls of the traits Sign, Verify and VerifySignature (src/mechanism.rs:529-620, 812-).  A call of Sign has the length of the
   buffer; one of Verify has the signature, one of VerifySignature has none. *)
Inductive scall :=
| SSign (d : bytes) (n : N) | SUpdate (d : bytes) | SFinal (n : N)
| VOne (d : bytes) (sig : option bytes) | VUpdate (d : bytes) | VFinal (sig : option bytes).
Definition no_bytes (m : Op unit) : Op bytes := m ;;; ret [].
Definition call (k : scall) : Op bytes :=
  let! o := gets id in
  match o_scheme o with
  | RsaRaw _ | RsaHash =>
      match k with
      | SSign d n => rsa_sign d n | SUpdate d => no_bytes (rsa_update d) | SFinal n => rsa_sign_final n
      | VOne d s => no_bytes (rsa_verify d s) | VUpdate d => no_bytes (rsa_update d) | VFinal s => no_bytes (rsa_verify_final s)
      end
  | EcRaw | EcHash =>
      match k with
      | SSign d n => ec_sign d n | SUpdate d => no_bytes (ec_update d) | SFinal n => ec_sign_final n
      | VOne d s => no_bytes (ec_verify d s) | VUpdate d => no_bytes (ec_update d) | VFinal s => no_bytes (ec_verify_final s)
      end
  | Ed =>
      match k with
      | SSign d n => ed_sign d n | SUpdate d => no_bytes (ed_update d) | SFinal n => ed_sign_final n
      | VOne d s => no_bytes (ed_verify d s) | VUpdate d => no_bytes (ed_update d) | VFinal s => no_bytes (ed_verify_final s)
      end
  | PqPure | PqHashed | PqDigest =>
      match k with
      | SSign d n => pq_sign d n | SUpdate d => no_bytes (pq_update d) | SFinal n => pq_sign_final n
      | VOne d s => no_bytes (pq_verify d s) | VUpdate d => no_bytes (pq_update d) | VFinal s => no_bytes (pq_verify_final s)
      end
  end.
Fixpoint calls (ks : list scall) (o : sigop) : sigop * list (result bytes) :=
  match ks with
  | [] => (o, [])
  | k :: ks => let '(o, r) := call k o in let '(o, rs) := calls ks o in (o, r :: rs)
  end.

(* ossl/src/signature.rs:724-906 [OsslSignature::new]: what a context starts with.  [legacy]: the OpenSSL version makes this
   algorithm use the older interface (sigalg_uses_legacy_api 134-170); [probe]: the answer of the probe for ML-DSA.  The tables
   124-131 and 172-200 are by family. *)
Definition new_ctx (sc : scheme) (sign legacy probe : bool) (coin : N) : sctx :=
  let oneshot := match sc with RsaRaw _ | EcRaw => true | _ => false end in
  let upd := match sc with RsaHash | EcHash => true | PqPure | PqHashed | PqDigest => probe | _ => false end in
  {| c_sign := sign; c_legacy := negb oneshot && legacy; c_updates := negb oneshot && upd; c_data := None; c_sig := None; c_fed := [];
     c_set := None; c_coin := coin |}.
(* A new operation: [sigver_new] (rsa.rs:340-390, mldsa.rs:292-407), [new_op] (ecdsa.rs:170-205, eddsa.rs:134-172).  The key
   and mechanism parameters are given by the arguments; [sig] is the signature of C_VerifySignatureInit. *)
Definition new_op (sc : scheme) (len max : N) (q : pq) (sign legacy probe : bool) (coin : N) (sig : option bytes) : result sigop :=
  let c := new_ctx sc sign legacy probe coin in
  let mk c s := {| o_scheme := sc; o_len := len; o_max := max; o_final := false; o_use := false; o_ctx := c; o_fed := []; o_sig := s; o_pq := q |} in
  match sig with
  | None => Ok (mk c None)
  | Some s =>
      let keep x := match os_set_sig x c with (c, OOk _) => Ok (mk c None) | (_, OErr e) => Err (of_oerr e) end in
      match sc with
      | RsaRaw _ | RsaHash => if negb (blen s =? len) then Err CKR_SIGNATURE_LEN_RANGE else keep s
      | EcRaw | EcHash => if negb (blen s =? len) then Err CKR_SIGNATURE_LEN_RANGE else let? b := der_of_sig s in keep b
      | Ed => keep s
      | PqPure => if negb (blen s =? len) then Err CKR_SIGNATURE_LEN_RANGE else keep s
      | PqHashed | PqDigest => if negb (blen s =? len) then Err CKR_SIGNATURE_LEN_RANGE else Ok (mk c (Some s))
      end
  end.
End OPS.
