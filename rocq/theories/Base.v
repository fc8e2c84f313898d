(* Result type, bytes and small helpers shared by the whole model. *)
From Coq Require Export NArith ZArith List Bool Lia ZifyBool ZifyNat ZifyN.
From stdpp Require Export base gmap list numbers option.
From Verif Require Export Pkcs11.
Export ListNotations.
Global Open Scope N_scope.

(* A Rust [u8] / Vec<u8>: a list of numbers, each meant to be below 256. *)
Definition bytes := list N.

(* crate::error::Result<T> (src/error.rs:1-284): either a value or the CK_RV the error is mapped to by
   [Error::rv].  Simplification: only the return code of an error is kept. *)
Inductive result (A : Type) : Type :=
| Ok (a : A)
| Err (rv : N).
Arguments Ok {A} a.
Arguments Err {A} rv.

Definition rbind {A B} (r : result A) (f : A -> result B) : result B :=
  match r with Ok a => f a | Err e => Err e end.
(* The Rust `?` operator. *)
Notation "'let?' x ':=' r 'in' k" := (rbind r (fun x => k))
  (at level 200, x pattern, r at level 100, k at level 200, right associativity).
Notation "'check' b 'else' e 'in' k" := (if b then k else Err e)
  (at level 200, b at level 100, e at level 100, k at level 200, right associativity).

Definition is_ok {A} (r : result A) : bool := match r with Ok _ => true | Err _ => false end.
Definition rv_of {A} (r : result A) : N := match r with Ok _ => CKR_OK | Err e => e end.

(* Not CK_RV values (CK_ULONG is below 2^64): outcomes that are undefined behaviour or a panic in Rust. *)
Definition RV_NULL_DEREF : N := 2 ^ 64 + 1.
Definition RV_PANIC : N := 2 ^ 64 + 2.
Definition is_fault (rv : N) : bool := 2 ^ 64 <=? rv.

(* Little endian encoding on n bytes: CK_ULONG::to_ne_bytes on a 64 bit little endian host is [le 8]. *)
Fixpoint le (n : nat) (x : N) : bytes :=
  match n with O => [] | S k => (x mod 256) :: le k (x / 256) end.
Fixpoint unle (b : bytes) : N :=
  match b with [] => 0 | x :: r => x + 256 * unle r end.

Definition le64 (x : N) : bytes := le 8 x.

(* Big endian, used by KDFs and counters. *)
Definition be (n : nat) (x : N) : bytes := rev (le n x).
Definition unbe (b : bytes) : N := unle (rev b).

Definition byteok (b : N) : Prop := b < 256.
Definition bytesok (b : bytes) : Prop := Forall byteok b.

Lemma le_length n x : length (le n x) = n.
Proof. revert x; induction n as [|n IH]; intros x; cbn [le length]; [done|by rewrite IH]. Qed.

Lemma be_length n x : length (be n x) = n.
Proof. unfold be. by rewrite rev_length, le_length. Qed.

Lemma unle_le n x : x < 256 ^ N.of_nat n -> unle (le n x) = x.
Proof.
  revert x; induction n as [|n IH]; intros x H; cbn [le unle].
  - change (256 ^ N.of_nat 0) with 1 in H. lia.
  - rewrite IH.
    + pose proof (N.div_mod x 256). lia.
    + rewrite Nat2N.inj_succ, N.pow_succ_r' in H. apply N.div_lt_upper_bound; lia.
Qed.

Lemma le_bytesok n x : bytesok (le n x).
Proof.
  revert x; induction n as [|n IH]; intros x; cbn [le]; [constructor|].
  constructor; [|apply IH]. unfold byteok. apply N.mod_lt. lia.
Qed.

Lemma le_unle b : bytesok b -> le (length b) (unle b) = b.
Proof.
  induction 1 as [|x l Hx Hl IH]; [done|]. cbn [length unle le]. unfold byteok in Hx.
  assert ((x + 256 * unle l) mod 256 = x) as ->.
  { rewrite N.mul_comm, N.mod_add by lia. by apply N.mod_small. }
  assert ((x + 256 * unle l) / 256 = unle l) as ->.
  { rewrite N.mul_comm, N.div_add by lia. rewrite N.div_small by lia. lia. }
  by rewrite IH.
Qed.

Lemma unle_bound b : bytesok b -> unle b < 256 ^ N.of_nat (length b).
Proof.
  induction 1 as [|x l Hx Hl IH]; cbn [length unle]; [change (256 ^ N.of_nat 0) with 1; lia|].
  unfold byteok in Hx. rewrite Nat2N.inj_succ, N.pow_succ_r'. lia.
Qed.

Lemma unle_le64 x : x < 2 ^ 64 -> unle (le64 x) = x.
Proof. intros H. apply unle_le. exact H. Qed.

Lemma unbe_be n x : x < 256 ^ N.of_nat n -> unbe (be n x) = x.
Proof. intros H. unfold unbe, be. rewrite rev_involutive. by apply unle_le. Qed.

Definition bytes_eqb (a b : bytes) : bool := bool_decide (a = b).

Definition blen (b : bytes) : N := N.of_nat (length b).
