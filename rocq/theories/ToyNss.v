(* A small instance of the cryptography of the NSS backend, for examples. *)
From Verif Require Import NssSpec Tables.

Definition toy_dec (k iv c : bytes) : result bytes :=
  let h := blen k :: k ++ iv in
  if bytes_eqb (take (length h) c) h then Ok (drop (length h) c)
  else if Nat.even (length k) then Ok [0] else Err CKR_ENCRYPTED_DATA_INVALID.
Definition toy_der (i : info) : bytes :=
  match i with
  | IEnc s n v d => 1 :: n :: blen s :: s ++ blen v :: v ++ d
  | IMac s n g => 2 :: n :: blen s :: s ++ g
  | IOther => []
  end.
Definition toy_parse (b : bytes) : option info :=
  match b with
  | t :: n :: ls :: r =>
    let s := take (N.to_nat ls) r in
    let q := drop (N.to_nat ls) r in
    if t =? 1 then match q with
                   | lv :: r => Some (IEnc s n (take (N.to_nat lv) r) (drop (N.to_nat lv) r))
                   | [] => None
                   end
    else if t =? 2 then Some (IMac s n q) else None
  | [] => Some IOther
  | _ => None
  end.
Definition toy_nss : nssp := Nssp
  (fun x => 1 :: x) (fun k s i => k ++ s ++ [i]) (fun k iv d => (blen k :: k ++ iv) ++ d) toy_dec
  (fun k m => le 32 (foldr (fun x a => x + 31 * a) 0 (k ++ m)))
  toy_der toy_parse (fun n len => take (N.to_nat len) (n :: repeat 0 (N.to_nat len))) all_factories.

Lemma take_blen (s r : bytes) : take (N.to_nat (blen s)) (s ++ r) = s.
Proof. unfold blen. rewrite Nat2N.id. apply take_app. Qed.
Lemma drop_blen (s r : bytes) : drop (N.to_nat (blen s)) (s ++ r) = r.
Proof. unfold blen. rewrite Nat2N.id. apply drop_app. Qed.
Lemma toy_nss_laws : nss_laws toy_nss.
Proof.
  split.
  - intros [s n v d|s n g|]; cbn [toy_nss n_parse n_der toy_der toy_parse]; [| |done].
    + rewrite take_blen, drop_blen. cbn [N.eqb Pos.eqb]. by rewrite take_blen, drop_blen.
    + rewrite take_blen, drop_blen. done.
  - intros k iv d. cbn [toy_nss n_dec n_enc]. unfold toy_dec. rewrite take_app, drop_app.
    unfold bytes_eqb. by rewrite bool_decide_eq_true_2.
  - intros k k' iv Hn. cbn [toy_nss n_dec n_enc]. unfold toy_dec.
    match goal with |- context [bytes_eqb ?a ?b] => destruct (bytes_eqb a b) eqn:E end.
    + exfalso. apply Hn. apply bool_decide_eq_true in E. cbn [app length take] in E. injection E as E1 E2.
      assert (El : length k = length k') by (unfold blen in E1; lia).
      apply (f_equal (take (length k'))) in E2. rewrite take_app in E2. rewrite <- E2. rewrite take_take, app_length, Nat.min_l by lia.
      rewrite <- !app_assoc. rewrite <- El. by rewrite take_app.
    + destruct (Nat.even (length k')); intros H; discriminate H.
  - intros a b salt iter. cbn [toy_nss n_kdf]. apply app_inv_tail.
  - intros salt p q. cbn [toy_nss n_sha1]. intros H. injection H as H. by apply app_inv_head in H.
  - intros n len. cbn [toy_nss n_rnd]. unfold blen. rewrite take_length. cbn [length]. rewrite repeat_length. lia.
  - intros k m. cbn [toy_nss n_mac]. unfold blen. by rewrite le_length.
  - intros salt iter iv d. cbn [toy_nss n_der toy_der]. discriminate.
  - intros salt iter iv d. cbn [toy_nss n_der toy_der]. discriminate.
Qed.

Lemma toy_no_repeat : no_repeat toy_nss.
Proof. intros n m H. cbn [toy_nss n_rnd] in H. change (N.to_nat 32) with 32%nat in H. cbn [take] in H. by injection H. Qed.

(* A database in which the user PIN 5, 6, 7, 8 was set. *)
Definition toy_pin : bytes := [5; 6; 7; 8].
Definition toy_ndb : ndb := stored (nrun toy_nss (started new_db 0) [NLogin CKU_SO []; NInitPin toy_pin]).
