(* What a cipher operation must put out for the whole data, however it is cut into pieces: the specification of the
   modes, independent of the buffering of src/ossl/aes.rs.  [blocks_of] runs the cipher over the whole blocks of the
   data, [run_bytes] over its bytes. *)
From Verif Require Export AesFacts.
From Coq Require Import Arith.
Local Open Scope nat_scope.

Section Spec.
Variable P : prim.

Definition whole (enc : bool) (m : amode) (s : pr_st P) (taglen : nat) (D : bytes) : result bytes :=
  match m with
  | MEcb | MCbc =>
    if length D mod 16 =? 0 then Ok (snd (blocks_of P s D)) else Err CKR_DATA_LEN_RANGE
  | MCtr | MStream => Ok (snd (run_bytes P s D))
  | MCbcPad =>
    if enc then Ok (snd (blocks_of P s (D ++ pad_of D)))
    else match unpad (snd (blocks_of P s D)) with Some d => Ok d | None => Err CKR_ENCRYPTED_DATA_INVALID end
  | MGcm =>
    if enc then
      let '(s1, o) := run_bytes P s D in Ok (o ++ firstn taglen (pr_tag P s1))
    else if length D <? taglen then Err CKR_DATA_LEN_RANGE else
      let c := firstn (length D - taglen) D in
      let t := skipn (length D - taglen) D in
      let '(s1, o) := run_bytes P s c in
      if bytes_eqb t (firstn taglen (pr_tag P s1)) then Ok o else Err CKR_ENCRYPTED_DATA_INVALID
  | _ => Err CKR_GENERAL_ERROR
  end.
(* The modes [whole] speaks about. *)
Definition in_pieces (m : amode) : bool :=
  match m with MEcb | MCbc | MCbcPad | MCtr | MStream | MGcm => true | _ => false end.

(* Two states of the cipher, one encrypting and one decrypting, that undo each other from here on. *)
CoInductive undoes (s s' : pr_st P) : Prop := Undoes {
  un_block : forall b, length b = 16 ->
    undoes (fst (pr_block P s b)) (fst (pr_block P s' (snd (pr_block P s b)))) /\
    snd (pr_block P s' (snd (pr_block P s b))) = b;
  un_byte : forall b,
    undoes (fst (pr_byte P s b)) (fst (pr_byte P s' (snd (pr_byte P s b)))) /\
    snd (pr_byte P s' (snd (pr_byte P s b))) = b;
  un_tag : pr_tag P s' = pr_tag P s /\ length (pr_tag P s) = 16 }.
End Spec.
