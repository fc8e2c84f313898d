(* Vocabulary of C23: a call that leaves no new object behind. *)
From Verif Require Import Base Monad Attr Obj Sqlite Storage Token Backend State Api Spec.

Section spec.
Context (B : backend).
Notation world := (world B).
(* Every session object, and every record of the database, was there before. *)
Definition nothing_new (w w' : world) (sid : N) : Prop :=
  forall t', token_of B w' sid = Some t' -> exists t, token_of B w sid = Some t /\
    (forall h o, t_sobjs t' !! h = Some o -> t_sobjs t !! h = Some o) /\ (forall i r, d_objs (t_db t') !! i = Some r -> d_objs (t_db t) !! i = Some r).
(* The database calls to come work. *)
Definition works (w : world) : Prop := forall sid t, token_of B w sid = Some t -> Forall (fun x => x = None) (t_io t).
End spec.
(* The template does not ask for an object that cannot be destroyed. *)
Definition destroyable (l : list ckattr) : Prop := forall c, In c l -> ca_type c = CKA_DESTROYABLE -> ck_to_bool c = Ok true.
(* Database calls of which at most one fails. *)
Definition one_failure (l : list (option ioerr)) : Prop := Nat.le (length (List.filter (fun x => match x with Some _ => true | None => false end) l)) 1.
