(* Triples: an invariant kept, a relation between the states before and after, and a postcondition on the value. *)
From Verif Require Import Base Monad Hoare.

Definition hs {S A} (I : S -> Prop) (R : S -> S -> Prop) (m : M S A) (Q : A -> Prop) : Prop :=
  forall s, I s -> I (fst (m s)) /\ R s (fst (m s)) /\ match snd (m s) with Ok a => Q a | Err _ => True end.

Section triple.
Context {S : Type} (I : S -> Prop) (R : S -> S -> Prop) {HR : PreOrder R}.
Lemma hs_bind {A B} (m : M S A) (f : A -> M S B) Q Q' :
  hs I R m Q -> (forall a, Q a -> hs I R (f a) Q') -> hs I R (mbind m f) Q'.
Proof.
  intros Hm Hf s Hs. unfold mbind. destruct (Hm s Hs) as (H1 & H2 & H3). destruct (m s) as [s' [a|e]]; cbn [fst snd] in *; [|done].
  destruct (Hf a H3 s' H1) as (H4 & H5 & H6). split_and!; try done. by etransitivity.
Qed.
Lemma hs_ret {A} (a : A) (Q : A -> Prop) : Q a -> hs I R (ret a) Q.
Proof. intros H s Hs. cbn. split_and!; try done. Qed.
Lemma hs_fail {A} e (Q : A -> Prop) : hs I R (fail e) Q.
Proof. intros s Hs. cbn. split_and!; try done. Qed.
Lemma hs_lift {A} (r : result A) (Q : A -> Prop) : (forall a, r = Ok a -> Q a) -> hs I R (lift r) Q.
Proof. intros H s Hs. cbn. split_and!; try done. destruct r; auto. Qed.
Lemma hs_gets {A} (f : S -> A) (Q : A -> Prop) : (forall s, I s -> Q (f s)) -> hs I R (gets f) Q.
Proof. intros H s Hs. cbn. split_and!; try done. auto. Qed.
Lemma hs_skip (Q : unit -> Prop) : Q tt -> hs I R skip Q.
Proof. intros H s Hs. cbn. split_and!; try done. Qed.
Lemma hs_ensure b e (Q : unit -> Prop) : (b = true -> Q tt) -> hs I R (ensure b e) Q.
Proof. intros H s Hs. unfold ensure. destruct b; cbn; split_and!; try done. auto. Qed.
Lemma hs_attempt {A} (m : M S A) (Q : A -> Prop) (Q' : result A -> Prop) :
  hs I R m Q -> (forall r, match r with Ok a => Q a | Err _ => True end -> Q' r) -> hs I R (attempt m) Q'.
Proof.
  intros Hm HQ s Hs. unfold attempt. destruct (Hm s Hs) as (H1 & H2 & H3). destruct (m s) as [s' r]; cbn [fst snd] in *. split_and!; auto.
Qed.
Lemma hs_modify f (Q : unit -> Prop) : (forall s, I s -> I (f s) /\ R s (f s)) -> Q tt -> hs I R (modify f) Q.
Proof. intros H HQ s Hs. cbn. destruct (H s Hs). done. Qed.
Lemma hs_mono {A} (m : M S A) (Q Q' : A -> Prop) : hs I R m Q -> (forall a, Q a -> Q' a) -> hs I R m Q'.
Proof. intros Hm HQ s Hs. destruct (Hm s Hs) as (H1 & H2 & H3). split_and!; try done. destruct (snd (m s)); auto. Qed.
Lemma hs_any {A} (m : M S A) (Q : A -> Prop) : hs I R m Q -> hs I R m (fun _ => True).
Proof. intros H. by eapply hs_mono. Qed.
End triple.

Create HintDb triple discriminated.
#[global] Hint Constants Opaque : triple.
#[global] Hint Variables Opaque : triple.
(* Applies a known triple, weakening its postcondition. *)
Ltac hs_known := first [solve [eauto with triple nocore] | eapply hs_mono; [solve [eauto with triple nocore]|cbv beta; try done]].
Ltac hs_step :=
  lazymatch goal with
  | |- forall _, _ => intros ?
  | |- hs _ _ (mbind _ _) _ => eapply hs_bind; [apply _| |cbv beta]
  | |- hs _ _ (ret _) _ => apply hs_ret; [apply _|]
  | |- hs _ _ (fail _) _ => apply hs_fail; apply _
  | |- hs _ _ skip _ => apply hs_skip; [apply _|]
  | |- hs _ _ (ensure ?b _) ?Q => first [is_evar Q; apply (hs_ensure _ _ _ _ (fun _ => b = true)); done | apply hs_ensure; [apply _|]]
  | |- hs _ _ (lift ?r) ?Q => first [is_evar Q; apply (hs_lift _ _ r (fun a => r = Ok a)); done | apply hs_lift; [apply _|]]
  | |- hs _ _ (let _ := _ in _) _ => cbv zeta
  | |- hs _ _ (if ?b then _ else _) _ => destruct b eqn:?
  | |- hs _ _ (match ?x with _ => _ end) _ => destruct x eqn:?
  end.
