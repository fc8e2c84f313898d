(* The table of factories has one entry for each class and type, and each factory lists an attribute once. *)
From Verif Require Import Base Monad Attr Obj Factory Tables.

Lemma factories_distinct : base.NoDup (map fst all_factories).
Proof. apply (bool_decide_eq_true_1 _). vm_compute. reflexivity. Qed.
Lemma tables_distinct : forallb (fun x => bool_decide (base.NoDup (map oa_type (f_attrs (snd x))))) all_factories = true.
Proof. vm_compute. reflexivity. Qed.
