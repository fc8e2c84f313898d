(* C38: saved operation states. *)
From Verif Require Import Base Attr Obj Token Backend State Api.

Section spec.
Context (B : backend).
(* What there is to save of an operation: its mechanism and the state the mechanism gives, if it gives one. *)
Definition to_save (s : session B) (k : opk) : option (N * bytes) :=
  match s_ops s !! k with
  | Some (OpCrypt x) => if be_final B x then None else
    match be_size B x, be_save B x, be_mech B x with Ok _, Ok d, Ok m => Some (m, d) | _, _, _ => None end
  | _ => None
  end.
(* The object an operation of this kind is restored with. *)
Definition key_fits (k : opk) (key o : option object) : Prop :=
  match k with KDigest => key = None /\ o = None | _ => exists x, key = Some x /\ o = Some x end.
(* Of a blob nobody but the module can make: what opens has been sealed, and sealed states open to themselves. *)
Record seal_laws : Prop := SealLaws {
  sl_open : forall r l b, be_seal B r l = Ok b -> be_unseal B b = Some l;
  sl_auth : forall b l, be_unseal B b = Some l -> exists r, be_seal B r l = Ok b }.
End spec.
