(* What it means that a key comes through wrapping or encapsulation. *)
From Verif Require Import Base Monad Attr Obj Factory Create Sqlite Storage Backend State Spec ObjSpec PlainSpec ObjCalls.

Section spec.
Context (P : params) (B : backend).
(* The plain value of the key a handle names. *)
Definition key_value (w : world B) (sid h : N) : option bytes :=
  match token_of B w sid with Some t => value_of P t h CKA_VALUE | None => None end.
Definition key_class (w : world B) (sid h : N) : option N := match token_of B w sid with Some t => class_of t h | None => None end.
(* The handle names the key k. *)
Definition names (w : world B) (sid h : N) (k : object) : Prop := exists t, token_of B w sid = Some t /\ seen P t h k.
(* The mechanism undoes with the key k2 what it did with k1: for the wrapping of keys, and for key encapsulation. A length
   of 0 asks for the length of the wrapped key. *)
Definition undoes (mt : N) (pr : option bytes) (k1 k2 : object) : Prop :=
  forall data n r b l, n <> 0 -> be_wrap B mt pr k1 data n r = Ok (b, l) -> be_unwrap B mt pr k2 b = Ok data.
Definition agrees (mt : N) (pr : option bytes) (k1 k2 : object) : Prop :=
  forall n r v c, be_encap B mt pr k1 n r = Ok (v, c) -> be_decap B mt pr k2 c = Ok v.
End spec.
(* The key a template asks for: CKA_VALUE_LEN takes the first bytes for an AES key. *)
Definition asked_for (l : list ckattr) (v : bytes) : bytes :=
  match tmpl_ulong l CKA_KEY_TYPE, find_ck l CKA_VALUE_LEN with
  | Ok kt, Some c => if kt =? CKK_AES then match ck_to_ulong c with Ok n => firstn (N.to_nat n) v | Err _ => v end else v
  | _, _ => v
  end.
