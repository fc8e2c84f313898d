(* The concrete instance returns only proper error codes. *)
From Verif Require Import Base Monad Attr Obj Factory Tables Create Sqlite Storage Token Backend State Api Toy Spec Errors.

Section toy.
Variable Q : N -> Prop.
Hypothesis HQ : forall e, plain_code e = true -> Q e.
Lemma toy_q e : plain_code e = true -> Q e.
Proof. exact (HQ e). Qed.

Lemma toy_call_ok c x : okerr Q (snd (toy_call c x)).
Proof.
  destruct c; cbn [toy_call]; try (apply toy_q; reflexivity); try exact I.
  - destruct (ty_kind x); try exact I; destruct (_ <? _); try exact I; apply toy_q; reflexivity.
  - destruct (_ <? _); try exact I; apply toy_q; reflexivity.
  - destruct (ty_kind x); exact I.
  - cbn [snd]. destruct (bytes_eqb _ _); try exact I; apply toy_q; reflexivity.
  - cbn [snd]. destruct (bytes_eqb _ _); try exact I; apply toy_q; reflexivity.
Qed.
Lemma toy_open_ok a b c d : okerr Q (p_open toy a b c d).
Proof.
  cbn [p_open toy]. destruct (unblob 5 d) as [l|]; [|apply toy_q; reflexivity].
  do 6 (destruct l as [|? l]; try (apply toy_q; reflexivity)). destruct (_ && _); [exact I|apply toy_q; reflexivity].
Qed.
Lemma toy_wrap_ok a b c d e f : okerr Q (be_wrap toy_be a b c d e f).
Proof. cbn [be_wrap toy_be]. destruct (_ =? _); [exact I|]. destruct (_ <? _); [apply toy_q; reflexivity|exact I]. Qed.
Lemma toy_sane : sane Q toy toy_be toy_env.
Proof.
  split; intros; [exact I|exact I|apply toy_open_ok|exact I|exact I|exact I|exact I|exact I|exact I|..].
  - cbn [be_len toy_be snd]. exact I.
  - apply toy_call_ok.
  - cbn [be_size toy_be]. destruct (ty_kind x); first [exact I|apply toy_q; reflexivity].
  - cbn [be_save toy_be]. destruct (ty_kind x); first [exact I|apply toy_q; reflexivity].
  - exact I.
  - exact I.
  - apply toy_wrap_ok.
  - exact I.
  - cbn [be_derive toy_be]. destruct (_ =? _); [exact I|]. destruct (_ =? _); exact I.
  - exact I.
  - exact I.
  - exact I.
  - cbn [be_export toy_be]. by apply ok_get_bytes.
  - exact I.
  - exact I.
  - destruct H0 as [H0|H0]; [by left|right]. cbn [be_derive toy_be] in H. destruct (_ =? _).
    2:{ destruct (_ =? _); injection H as <-; [|by repeat constructor]. apply List.Forall_cons; [|by apply List.Forall_nil].
        apply List.Forall_app. split; [done|]. by repeat constructor. }
    injection H as <-. apply List.Forall_cons; [done|]. apply List.Forall_cons; [|by apply List.Forall_nil].
    destruct b as [[|x [|? ?]]|]; try done. apply List.Forall_forall. intros y Hy. apply in_map_iff in Hy as (z & <- & Hz). destruct (_ =? _); [done|].
    by apply (proj1 (List.Forall_forall _ _) H0).
  - discriminate H.
Qed.
End toy.
