(* Reasoning about the state monad. *)
From Verif Require Import Base Monad.

(* Every run of [m] relates the states before and after, whatever the result. *)
Definition rel {S A} (R : S -> S -> Prop) (m : M S A) : Prop := forall s, R s (fst (m s)).
(* Every run from a state in [I] ends in a state in [I]. *)
Definition pres {S A} (I : S -> Prop) (m : M S A) : Prop := forall s, I s -> I (fst (m s)).
(* Weakest precondition. *)
Definition wp {S A} (m : M S A) (s : S) (Q : S -> result A -> Prop) : Prop := Q (fst (m s)) (snd (m s)).

Section rel.
Context {S : Type} (R : S -> S -> Prop) {HR : PreOrder R}.

Lemma rel_bind {A B} (m : M S A) (f : A -> M S B) : rel R m -> (forall a, rel R (f a)) -> rel R (mbind m f).
Proof.
  intros Hm Hf s. unfold mbind. specialize (Hm s). destruct (m s) as [s' [a|e]]; cbn [fst] in *; [|done].
  transitivity s'; [done|apply Hf].
Qed.
Lemma rel_ret {A} (a : A) : rel R (ret a).
Proof. intros s. reflexivity. Qed.
Lemma rel_fail {A} e : rel R (A:=A) (fail e).
Proof. intros s. reflexivity. Qed.
Lemma rel_lift {A} (r : result A) : rel R (lift r).
Proof. intros s. reflexivity. Qed.
Lemma rel_gets {A} (f : S -> A) : rel R (gets f).
Proof. intros s. reflexivity. Qed.
Lemma rel_skip : rel R skip.
Proof. intros s. reflexivity. Qed.
Lemma rel_ensure b e : rel R (ensure b e).
Proof. unfold ensure. destruct b; intros s; reflexivity. Qed.
Lemma rel_attempt {A} (m : M S A) : rel R m -> rel R (attempt m).
Proof. intros Hm s. unfold attempt. specialize (Hm s). destruct (m s); done. Qed.
Lemma rel_modify f : (forall s, R s (f s)) -> rel R (modify f).
Proof. intros Hf s. apply Hf. Qed.
End rel.

Section pres.
Context {S : Type} (I : S -> Prop).
Lemma pres_bind {A B} (m : M S A) (f : A -> M S B) : pres I m -> (forall a, pres I (f a)) -> pres I (mbind m f).
Proof.
  intros Hm Hf s Hs. unfold mbind. specialize (Hm s Hs). destruct (m s) as [s' [a|e]]; cbn [fst] in *; [|done].
  by apply Hf.
Qed.
Lemma pres_ret {A} (a : A) : pres I (ret a).
Proof. by intros s. Qed.
Lemma pres_fail {A} e : pres I (A:=A) (fail e).
Proof. by intros s. Qed.
Lemma pres_lift {A} (r : result A) : pres I (lift r).
Proof. by intros s. Qed.
Lemma pres_gets {A} (f : S -> A) : pres I (gets f).
Proof. by intros s. Qed.
Lemma pres_ensure b e : pres I (ensure b e).
Proof. unfold ensure. destruct b; by intros s. Qed.
Lemma pres_attempt {A} (m : M S A) : pres I m -> pres I (attempt m).
Proof. intros Hm s Hs. unfold attempt. specialize (Hm s Hs). destruct (m s); done. Qed.
Lemma pres_modify f : (forall s, I s -> I (f s)) -> pres I (modify f).
Proof. intros Hf s Hs. by apply Hf. Qed.
End pres.

Lemma rel_mono {S A} (R R' : S -> S -> Prop) (m : M S A) : (forall s s', R s s' -> R' s s') -> rel R m -> rel R' m.
Proof. intros H Hm s. apply H, Hm. Qed.
Lemma rel_pres {S A} (R : S -> S -> Prop) (I : S -> Prop) (m : M S A) :
  rel R m -> (forall s s', R s s' -> I s -> I s') -> pres I m.
Proof. intros Hm HI s Hs. eapply HI; [apply Hm|done]. Qed.

Section wp.
Context {S : Type}.
Lemma wp_bind {A B} (m : M S A) (f : A -> M S B) s Q :
  wp m s (fun s' r => match r with Ok a => wp (f a) s' Q | Err e => Q s' (Err e) end) -> wp (mbind m f) s Q.
Proof. unfold wp, mbind. destruct (m s) as [s' [a|e]]; done. Qed.
Lemma wp_ret {A} (a : A) s (Q : S -> result A -> Prop) : Q s (Ok a) -> wp (ret a) s Q.
Proof. done. Qed.
Lemma wp_fail {A} e s (Q : S -> result A -> Prop) : Q s (Err e) -> wp (fail e) s Q.
Proof. done. Qed.
Lemma wp_lift {A} (r : result A) s (Q : S -> result A -> Prop) : Q s r -> wp (lift r) s Q.
Proof. done. Qed.
Lemma wp_gets {A} (f : S -> A) s (Q : S -> result A -> Prop) : Q s (Ok (f s)) -> wp (gets f) s Q.
Proof. done. Qed.
Lemma wp_skip s (Q : S -> result unit -> Prop) : Q s (Ok tt) -> wp skip s Q.
Proof. done. Qed.
Lemma wp_modify f s (Q : S -> result unit -> Prop) : Q (f s) (Ok tt) -> wp (modify f) s Q.
Proof. done. Qed.
Lemma wp_ensure b e s (Q : S -> result unit -> Prop) :
  (b = true -> Q s (Ok tt)) -> (b = false -> Q s (Err e)) -> wp (ensure b e) s Q.
Proof. unfold ensure. destruct b; intros H1 H2; [by apply H1|by apply H2]. Qed.
Lemma wp_attempt {A} (m : M S A) s Q : wp m s (fun s' r => Q s' (Ok r)) -> wp (attempt m) s Q.
Proof. unfold wp, attempt. destruct (m s); done. Qed.
Lemma wp_mono {A} (m : M S A) s (Q Q' : S -> result A -> Prop) :
  wp m s Q -> (forall s' r, Q s' r -> Q' s' r) -> wp m s Q'.
Proof. unfold wp. auto. Qed.
Lemma wp_any {A} (m : M S A) s (Q : S -> result A -> Prop) : (forall s' r, Q s' r) -> wp m s Q.
Proof. unfold wp. auto. Qed.
Lemma wp_rel {A} R (m : M S A) s (Q : S -> result A -> Prop) : rel R m -> (forall s' r, R s s' -> Q s' r) -> wp m s Q.
Proof. unfold wp, rel. auto. Qed.
End wp.

Lemma wp_pres {S A} (I : S -> Prop) (m : M S A) : (forall s, I s -> wp m s (fun s' _ => I s')) -> pres I m.
Proof. intros H s Hs. by apply H. Qed.

(* Running the monad. *)
Lemma run_bind {S A B} (m : M S A) (f : A -> M S B) s :
  mbind m f s = match m s with (s', Ok a) => f a s' | (s', Err e) => (s', Err e) end.
Proof. done. Qed.

Create HintDb frame discriminated.
#[global] Hint Constants Opaque : frame.
#[global] Hint Variables Opaque : frame.
Ltac rel_tac :=
  repeat first
    [ progress intros
    | solve [auto with frame]
    | lazymatch goal with
      | |- rel _ (mbind _ _) => apply rel_bind; [try apply _| |intros ?]
      | |- rel _ (ret _) => apply rel_ret; apply _
      | |- rel _ (fail _) => apply rel_fail; apply _
      | |- rel _ (lift _) => apply rel_lift; apply _
      | |- rel _ (gets _) => apply rel_gets; apply _
      | |- rel _ skip => apply rel_skip; apply _
      | |- rel _ (ensure _ _) => apply rel_ensure; apply _
      | |- rel _ (attempt _) => apply rel_attempt
      | |- rel _ (let _ := _ in _) => cbv zeta
      | |- rel _ (if ?b then _ else _) => destruct b
      | |- rel _ (match ?x with _ => _ end) => destruct x
      end ].

(* An inversion principle for sequences. *)
Lemma bind_ok {S A B} (m : M S A) (f : A -> M S B) s s' b :
  mbind m f s = (s', Ok b) -> exists a s1, m s = (s1, Ok a) /\ f a s1 = (s', Ok b).
Proof. unfold mbind. destruct (m s) as [s1 [a|e]]; intros H; [eauto|done]. Qed.
Lemma bind_err {S A B} (m : M S A) (f : A -> M S B) s s' e :
  mbind m f s = (s', Err e) -> m s = (s', Err e) \/ exists a s1, m s = (s1, Ok a) /\ f a s1 = (s', Err e).
Proof. unfold mbind. destruct (m s) as [s1 [a|e1]]; intros H; [eauto|]. left. by simplify_eq. Qed.
Lemma ensure_ok {S} b e (s s' : S) u : ensure b e s = (s', Ok u) -> b = true /\ s' = s.
Proof. unfold ensure, ret, fail. destruct b; intros H; simplify_eq; auto. Qed.
Lemma ensure_err {S} b e (s s' : S) e' : ensure b e s = (s', Err e') -> b = false /\ s' = s /\ e' = e.
Proof. unfold ensure, ret, fail. destruct b; intros H; simplify_eq; auto. Qed.
Lemma attempt_ok {S A} (m : M S A) s s' r : attempt m s = (s', Ok r) -> m s = (s', r).
Proof. unfold attempt. destruct (m s). intros. by simplify_eq. Qed.
Lemma attempt_err {S A} (m : M S A) s s' e : attempt m s <> (s', Err e).
Proof. unfold attempt. destruct (m s). discriminate. Qed.
