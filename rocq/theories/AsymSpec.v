(* What RSA encryption should do. *)
From Verif Require Export Asym SigSpec.
Local Open Scope N_scope.

(* What is taken from OpenSSL: a ciphertext has the size of the modulus and decrypts to what was encrypted; what a decryption
   gives is not longer than the modulus. *)
Record enc_laws (E : encalg) : Prop := {
  en_size : 0 < e_size E;
  en_back : forall c d x, e_enc E c d = Some x -> e_dec E x = Some d /\ blen x = e_size E;
  en_len : forall x d, e_dec E x = Some d -> blen d <= e_size E }.
(* The length of CKA_MODULUS: at least the size of the number, more if it has leading zeros; within the bounds of the mechanism *)
Definition modulus_ok (E : encalg) (modlen : N) : Prop := e_size E <= modlen /\ 128 <= modlen <= 2048.
(* The padding leaves room for a message. *)
Definition padding_ok (m : amech) (modlen : N) : Prop := match m with AOaep h => 2 * h + 2 <= modlen | _ => True end.
Definition padded (m : amech) : bool := match m with AX509 => false | _ => true end.
