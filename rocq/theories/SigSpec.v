(* What signing and verifying should do, whatever the pieces the data comes in. *)
From Verif Require Export Sig DerSpec.
Local Open Scope N_scope.

Definition ec (sc : scheme) : bool := match sc with EcRaw | EcHash => true | _ => false end.
(* Families that take data in pieces *)
Definition pieces (sc : scheme) : bool := match sc with RsaHash | EcHash | Ed | PqPure | PqDigest => true | _ => false end.
(* Those whose pieces the module keeps itself until the end, up to one MiB *)
Definition kept (sc : scheme) (probe : bool) : bool := match sc with Ed => true | PqPure => negb probe | _ => false end.

(* The digests of FIPS 180-4 and FIPS 202 with the last arc of their object identifier 2.16.840.1.101.3.4.2.x and size *)
Definition sha_info (m : N) : option (N * N) :=
  if m =? CKM_SHA256 then Some (1, 32) else if m =? CKM_SHA384 then Some (2, 48) else if m =? CKM_SHA512 then Some (3, 64)
  else if m =? CKM_SHA224 then Some (4, 28) else if m =? CKM_SHA3_224 then Some (7, 28) else if m =? CKM_SHA3_256 then Some (8, 32)
  else if m =? CKM_SHA3_384 then Some (9, 48) else if m =? CKM_SHA3_512 then Some (10, 64) else None.
Definition context (q : pq) : bytes := match q_ctx q with Some c => c | None => [] end.
Definition oid (q : pq) : bytes := match sha_info (q_mech q) with Some (x, _) => [6; 9; 96; 134; 72; 1; 101; 3; 4; 2; x] | None => [] end.
(* The message the key signs.  For the pre-hash variants: 01, length of the context, context, identifier, digest (FIPS 204
   algorithm 4, FIPS 205 algorithm 23) *)
Definition covered (sc : scheme) (q : pq) (d : bytes) : bytes :=
  match sc with
  | PqHashed => [1; blen (context q)] ++ context q ++ oid q ++ d
  | PqDigest => [1; blen (context q)] ++ context q ++ oid q ++ q_hash q d
  | _ => d
  end.
(* A signature as an application has it, and as OpenSSL has it *)
Definition form (sc : scheme) (n : N) (sig o : bytes) : Prop :=
  if ec sc then exists k r s, n = 2 * N.of_nat k /\ r < 256 ^ N.of_nat k /\ s < 256 ^ N.of_nat k /\ sig = be k r ++ be k s /\ is_sig r s o
  else sig = o.
(* The key accepts that signature of that data. *)
Definition accepts (K : keyalg) (sc : scheme) (q : pq) (n : N) (d sig : bytes) : Prop :=
  exists o, form sc n sig o /\ k_verify K (covered sc q d) o = true.

(* What is taken from OpenSSL: signatures have the size that belongs to the key, and the public key accepts them and refuses those
   of another size. *)
Record suits (K : keyalg) (sc : scheme) (n : N) : Prop := {
  su_verify : forall c m s, k_sign K c m = Some s -> k_verify K m s = true;
  su_len : forall c m s, k_sign K c m = Some s ->
    if ec sc then exists r t, r < 256 ^ (n / 2) /\ t < 256 ^ (n / 2) /\ is_sig r t s else blen s = n;
  su_only : forall m s, k_verify K m s = true -> ec sc = false -> blen s = n;
  su_size : if ec sc then k_size K <= n + 10 else k_size K = n;
  su_field : if ec sc then exists k : nat, n = 2 * N.of_nat k /\ (0 < k <= 120)%nat else True }.
(* The parameters of a pre-hash variant: context of at most 255 bytes, a known digest *)
Definition params_ok (sc : scheme) (q : pq) (max : N) : Prop :=
  match sc with
  | PqHashed | PqDigest => blen (context q) <= 255 /\ exists x, sha_info (q_mech q) = Some (x, max) /\ forall d, blen (q_hash q d) = max
  | _ => True
  end.
(* Data the families without pieces take: raw RSA at most a maximum (PSS: exactly the digest), a digest of its length *)
Definition takes (sc : scheme) (max : N) (d : bytes) : Prop :=
  match sc with RsaRaw true => blen d = max | RsaRaw false => blen d <= max | PqHashed => blen d = max | _ => True end.
