(* A method taking &mut self and returning Result<A>: the new self is returned also on error. *)
From Verif Require Import Base.

Definition M (S A : Type) : Type := S -> S * result A.

Definition ret {S A} (a : A) : M S A := fun s => (s, Ok a).
Definition fail {S A} (e : N) : M S A := fun s => (s, Err e).
Definition lift {S A} (r : result A) : M S A := fun s => (s, r).
Definition mbind {S A B} (m : M S A) (f : A -> M S B) : M S B :=
  fun s => match m s with
           | (s', Ok a) => f a s'
           | (s', Err e) => (s', Err e)
           end.
(* `match m { Ok(a) => ..., Err(e) => ... }`, `let _ = m`: the error does not abort the function. *)
Definition attempt {S A} (m : M S A) : M S (result A) := fun s => let '(s', r) := m s in (s', Ok r).
Definition gets {S A} (f : S -> A) : M S A := fun s => (s, Ok (f s)).
Definition modify {S} (f : S -> S) : M S unit := fun s => (f s, Ok tt).
Definition skip {S} : M S unit := ret tt.

Notation "'let!' x ':=' m 'in' k" := (mbind m (fun x => k))
  (at level 200, x pattern, m at level 100, k at level 200, right associativity).
Notation "m1 ';;;' m2" := (mbind m1 (fun _ => m2)) (at level 199, right associativity).
(* if !b { return Err(e) } *)
Definition ensure {S} (b : bool) (e : N) : M S unit := if b then ret tt else fail e.
