(* What the key derivation functions are to compute, after the documents that define them; only the MAC and the
   digest of the data (ThmMac.v) and the encoding of numbers in bytes (Base.v) come from elsewhere. *)
From Verif Require Export Kdf ThmMac.
From Coq Require Import Arith.
Local Open Scope nat_scope.

(* RFC 8018, 5.2: U_1 = PRF(P, S || INT(i)), U_j = PRF(P, U_{j-1}), and F = U_1 xor ... xor U_c; the key is made of the
   leading bytes of F(1) || F(2) || ... *)
Fixpoint pb_us (f : bytes -> bytes) (x : bytes) (c : nat) : list bytes :=
  match c with O => [] | S c => f x :: pb_us f (f x) c end.
Definition byte_of (l : bytes) (k : nat) : N := nth k l 0%N.
Definition xor_all (h : nat) (l : list bytes) : bytes :=
  map (fun k => fold_right N.lxor 0%N (map (fun u => byte_of u k) l)) (seq 0 h).
Definition pb_block (f : bytes -> bytes) (h : nat) (salt : bytes) (c i : nat) : bytes :=
  xor_all h (pb_us f (salt ++ be 4 (N.of_nat i)) c).
(* Blocks 1 to n of a function of the number of the block. *)
Definition blocks_1 (blk : nat -> bytes) (n : nat) : bytes := concat (map blk (seq 1 n)).

(* SP 800-108: the data given to the PRF for segment i are the fields in the order given: the number of the segment
   (or, in feedback mode, the previous segment and, where asked for, the number), bytes, and the length of what is
   derived, in units of 1/[unit] of a byte. *)
Definition num (little : bool) (bits : nat) (x : N) : bytes := if little then le (bits / 8) x else be (bits / 8) x.
Definition len_field (unit : N) (sizes : list nat) (seg : nat) (f : lformat) : bytes :=
  let total := list_sum (if lf_keys f then sizes else map (fun k => (k + seg - 1) / seg * seg) sizes) in
  num (lf_le f) (lf_bits f) (unit * N.of_nat total)%N.
Definition sp_data (unit : N) (sizes : list nat) (seg : nat) (prev : option bytes) (ps : list sparam) (i : nat) : bytes :=
  concat (map (fun p => match p, prev with
    | SIter c, None => num (cf_le c) (cf_bits c) (N.of_nat i)
    | SIter _, Some v => v
    | SCounter c, _ => num (cf_le c) (cf_bits c) (N.of_nat i)
    | SBytes b, _ => b
    | SLen l, _ => len_field unit sizes seg l
    end) ps).
(* The segments: in counter mode each on its own, in feedback mode from the previous one. *)
Fixpoint sp_segment (f : bytes -> bytes) (unit : N) (sizes : list nat) (seg : nat) (mode : option bytes) (ps : list sparam)
    (i : nat) : bytes :=
  match i with
  | O => match mode with Some iv => iv | None => [] end
  | S k => f (sp_data unit sizes seg
               (match mode with Some _ => Some (sp_segment f unit sizes seg mode ps k) | None => None end) ps i)
  end.
(* Keys of the given sizes cut out of material: each begins where the segments used by the previous one end. *)
Definition cut_from (seg : nat) (stream : bytes) (sizes : list nat) (keys : list bytes) : Prop :=
  map length keys = sizes /\
  exists rests, length rests = length keys /\ Forall (fun r => length r < seg) rests /\
    stream = concat (zip_with app keys rests).

(* RFC 4253, 7.2: K1 = HASH(K || H || X || session_id), K(n+1) = HASH(K || H || K1 || ... || Kn). *)
Fixpoint ssh_stream (h : bytes -> bytes) (key xhash : bytes) (typ : N) (sid : bytes) (n : nat) : bytes :=
  match n with
  | O => []
  | S m => let before := ssh_stream h key xhash typ sid m in
           before ++ h (key ++ xhash ++ match m with O => typ :: sid | _ => before end)
  end.

(* RFC 5246, 5: A(0) = seed, A(i) = HMAC(A(i-1)), P_hash = HMAC(A(1) || seed) || HMAC(A(2) || seed) || ... *)
Fixpoint tls_a (f : bytes -> bytes) (seed : bytes) (i : nat) : bytes :=
  match i with O => seed | S i => f (tls_a f seed i) end.
Definition p_hash (f : bytes -> bytes) (seed : bytes) (n : nat) : bytes := blocks_1 (fun i => f (tls_a f seed i ++ seed)) n.

(* The bits of a key, the most significant bit of the first byte first. *)
Definition bit_at (l : bytes) (k : nat) : bool := N.testbit (nth (k / 8) l 0%N) (N.of_nat (7 - k mod 8)).

(* A MAC operation computes the function [f]: [st s D] is "s has been fed D". *)
Record computes (F : macop) (f : bytes -> bytes) (st : f_st F -> bytes -> Prop) : Prop := {
  cm_pos : 0 < f_len F;
  cm_len : forall d, length (f d) = f_len F;
  cm_new : exists s, f_new F = Ok s /\ st s [] /\ forall d, snd (f_once F s d (f_len F)) = Ok (f d);
  cm_upd : forall s D d, st s D -> exists s', f_upd F s d = (s', Ok tt) /\ st s' (D ++ d);
  cm_fin : forall s D, st s D -> snd (f_fin F s (f_len F)) = Ok (f D) }.
Definition starts_over (F : macop) (st : f_st F -> bytes -> Prop) : Prop :=
  forall s D, st s D -> exists s', f_reset F (fst (f_fin F s (f_len F))) = Ok s' /\ st s' [].
