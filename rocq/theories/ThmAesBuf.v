(* C33 for the AES ciphers: a buffer that is too small costs nothing, but for the modes that count before they look. *)
From Verif Require Export ThmChunks.
From Coq Require Import Arith.
Local Open Scope nat_scope.

Section aesbuf.
Context (P : prim).
Notation aes := (aes P).
(* A function of the operation that can be called again after CKR_BUFFER_TOO_SMALL: the operation is not finished,
   and with any room the function gives the same result and leaves the same operation as if the failed call had not
   been made. *)
Definition can_retry (f : aes -> nat -> aes * result bytes) (a : aes) : Prop :=
  forall room a', f a room = (a', Err CKR_BUFFER_TOO_SMALL) ->
  a_final P a' = false /\ forall n, f a' n = f a n.
(* The modes which look at the room before anything else: CTS marks that it has run, CTR with a limit counts its
   blocks first. *)
Definition looks_first (a : aes) : Prop :=
  match a_mode P a with MCts => False | MCtr => a_max P a = 0%N | _ => True end.

Definition quiet (r : result bytes) : Prop := r <> Err CKR_BUFFER_TOO_SMALL.
Lemma ok_quiet o : quiet (Ok o). Proof. intros [=]. Qed.
Ltac calm := first [apply ok_quiet | intros X; apply (f_equal (fun r => rv_of r)) in X; vm_compute in X; discriminate X].
Lemma rest_quiet a d room out : quiet (snd (feed_rest P a d room out)).
Proof. unfold feed_rest. destruct d as [|b d]; [calm|]. destruct (cx_update P _ _ _) as [[x o]|]; calm. Qed.
Lemma blocks_quiet a d room : quiet (snd (feed_blocks P a d room)).
Proof.
  unfold feed_blocks. destruct (_ && _); [|apply rest_quiet]. destruct (cx_update P _ _ _) as [[x o]|]; [|calm].
  destruct (_ =? _); [apply rest_quiet|calm].
Qed.
Lemma cts_quiet a d room : quiet (snd (feed_cts P a d room)).
Proof.
  unfold feed_cts. destruct (_ <? _); [|apply rest_quiet]. destruct (cx_update P _ _ _) as [[x o]|]; [|calm].
  destruct (negb _); [calm|]. destruct (negb _); calm.
Qed.
Lemma gcm_quiet a d room : quiet (snd (feed_gcm P a d room)).
Proof.
  unfold feed_gcm. destruct (_ <? _).
  - destruct (_ <? _); [destruct (cx_update P _ _ _) as [[x o]|]; calm|].
    destruct (_ <? _); [destruct (cx_update P _ _ _) as [[x o]|]; calm|calm].
  - destruct (_ <? _); [apply rest_quiet|calm].
Qed.
Lemma enc_feed_quiet a d room : quiet (snd (enc_feed P a d room)).
Proof.
  unfold enc_feed. destruct (a_mode P a); try apply rest_quiet; try apply blocks_quiet; try apply cts_quiet.
  destruct (_ <? _); [|apply rest_quiet]. destruct (_ =? _); [|calm]. destruct (cx_update P _ _ _) as [[x o]|]; [|calm].
  destruct (_ =? _); calm.
Qed.
Lemma dec_feed_quiet a d room : quiet (snd (dec_feed P a d room)).
Proof.
  unfold dec_feed. destruct (a_mode P a); try apply rest_quiet; try apply blocks_quiet; try apply cts_quiet; try apply gcm_quiet.
  unfold feed_ccm. destruct (_ <? _).
  - destruct (_ =? _); [|calm]. destruct (cx_update P _ _ _) as [[x o]|]; calm.
  - destruct (_ =? _); [|calm]. destruct (cx_update P _ _ _) as [[x o]|]; calm.
Qed.

(* Asking for a length. *)
Lemma len_same enc a n fin a' l : op_len P enc a n fin = (a', Ok l) -> a' = a.
Proof.
  unfold op_len, enc_len, dec_len, fatal. intros H. destruct enc, (a_mode P a), fin; repeat case_match; congruence.
Qed.
Definition calm_len {A} (r : result A) : Prop := r <> Err CKR_BUFFER_TOO_SMALL.
Lemma enc_len_calm a n : calm_len (snd (enc_len P a n false)).
Proof. unfold enc_len, fatal. destruct (a_mode P a); repeat case_match; intros X; inversion X. Qed.
Lemma enc_check_calm a n l : calm_len (snd (enc_check P a n l)).
Proof. unfold enc_check, fatal. destruct (a_mode P a); repeat case_match; intros X; inversion X. Qed.
Lemma dec_check_calm a n : calm_len (snd (dec_check P a n)).
Proof. unfold dec_check, fatal. destruct (a_mode P a); repeat case_match; intros X; inversion X. Qed.
Lemma dec_need_calm a n : calm_len (snd (dec_need P a n)).
Proof. unfold dec_need, fatal. destruct (a_mode P a); repeat case_match; intros X; inversion X. Qed.
Lemma enc_check_same a n l a' l' : looks_first a -> enc_check P a n l = (a', Ok l') -> a' = a.
Proof.
  unfold looks_first, enc_check, fatal, ctr_count. destruct (a_mode P a) eqn:Em; intros Hm H; try done; try congruence.
  all: repeat case_match; try congruence. lia.
Qed.
Lemma dec_check_same a n a' u : looks_first a -> dec_check P a n = (a', Ok u) -> a' = a.
Proof.
  unfold looks_first, dec_check, fatal. destruct (a_mode P a) eqn:Em; intros Hm H; try done; repeat case_match; congruence.
Qed.
Lemma dec_need_same a n a' l : looks_first a -> dec_need P a n = (a', Ok l) -> a' = a.
Proof.
  unfold looks_first, dec_need, fatal, ctr_count. destruct (a_mode P a) eqn:Em; intros Hm H; try done; repeat case_match; try congruence. lia.
Qed.
Lemma use_use a : a_use P (a_use P a) = a_use P a. Proof. done. Qed.
Lemma update_small enc a d room a' : a_final P a = false -> looks_first a ->
  op_update P enc a d room = (a', Err CKR_BUFFER_TOO_SMALL) -> a' = a_use P a.
Proof.
  intros Hf Hl H. destruct enc; cbn [op_update] in H.
  - unfold enc_update in H. rewrite Hf in H. pose proof (enc_len_calm (a_use P a) (length d)) as C1.
    destruct (enc_len P (a_use P a) (length d) false) as [a1 [l|e]] eqn:E1; [|cbn [snd] in C1; congruence].
    apply (len_same true) in E1 as ->. pose proof (enc_check_calm (a_use P a) (length d) l) as C2.
    destruct (enc_check P (a_use P a) (length d) l) as [a2 [l2|e]] eqn:E2; [|cbn [snd] in C2; congruence].
    apply enc_check_same in E2 as ->; [|done]. destruct (_ <? _); [congruence|].
    pose proof (enc_feed_quiet (a_use P a) d room) as Q. rewrite H in Q. by destruct Q.
  - unfold dec_update in H. rewrite Hf in H. pose proof (dec_check_calm a (length d)) as C1.
    destruct (dec_check P a (length d)) as [a1 [u|e]] eqn:E1; [|cbn [snd] in C1; congruence].
    apply dec_check_same in E1 as ->; [|done]. pose proof (dec_need_calm (a_use P a) (length d)) as C2.
    destruct (dec_need P (a_use P a) (length d)) as [a2 [l|e]] eqn:E2; [|cbn [snd] in C2; congruence].
    apply dec_need_same in E2 as ->; [|done]. destruct (_ <? _); [congruence|].
    pose proof (dec_feed_quiet (a_use P a) d room) as Q. rewrite H in Q. by destruct Q.
Qed.
Lemma dec_check_used a n : looks_first a ->
  dec_check P (a_use P a) n = (a_use P (fst (dec_check P a n)), snd (dec_check P a n)).
Proof.
  unfold looks_first, dec_check, fatal. change (a_mode P (a_use P a)) with (a_mode P a).
  change (a_buf P (a_use P a)) with (a_buf P a). change (a_datalen P (a_use P a)) with (a_datalen P a).
  change (a_taglen P (a_use P a)) with (a_taglen P a).
  destruct (a_mode P a); intros Hm; try done; case_match; done.
Qed.
Lemma update_used enc a d room a' : a_final P a = false -> looks_first a ->
  op_update P enc a d room = (a', Err CKR_BUFFER_TOO_SMALL) ->
  forall n, op_update P enc (a_use P a) d n = op_update P enc a d n.
Proof.
  intros Hf Hl H n. destruct enc; cbn [op_update].
  - unfold enc_update. change (a_final P (a_use P a)) with (a_final P a). by rewrite Hf, use_use.
  - cbn [op_update] in H. unfold dec_update in *. change (a_final P (a_use P a)) with (a_final P a). rewrite Hf in *.
    rewrite dec_check_used by done. pose proof (dec_check_calm a (length d)) as C1.
    destruct (dec_check P a (length d)) as [a1 [u|e]] eqn:E1; [|cbn [snd] in C1; congruence].
    apply dec_check_same in E1 as ->; [|done]. cbn [fst snd]. by rewrite use_use.
Qed.
Lemma final_small enc a room a' :
  op_final P enc a room = (a', Err CKR_BUFFER_TOO_SMALL) -> a' = a /\ enc = true /\
  match a_mode P a with MCcm | MGcm => room < a_taglen P a | MCbcPad => room < 16 | _ => False end.
Proof.
  intros H. destruct enc; cbn [op_final] in H.
  - unfold enc_final, fatal in H. destruct (a_final P a); [discriminate H|]. destruct (negb _); [discriminate H|].
    destruct (a_mode P a); repeat case_match; try discriminate H; injection H as <-; (split; [done|split; [done|]]).
    all: match goal with X : (_ <? _) = true |- _ => by apply Nat.ltb_lt in X end.
  - unfold dec_final in H. destruct (a_final P a); [discriminate H|]. destruct (negb _); [discriminate H|]. exfalso.
    change (a_mode P (a_end P a)) with (a_mode P a) in H.
    destruct (a_mode P a); repeat case_match; discriminate H.
Qed.
(* A one-shot call ends with CKR_BUFFER_TOO_SMALL in its second half only for the modes below. *)
Definition whole_room (enc : bool) (a : aes) : Prop :=
  enc = false \/ match a_mode P a with MCcm | MCbcPad => False | MGcm => x_mode P (a_ctx P a) = MGcm | _ => True end.
Lemma gcm_enc_update a d room a1 o : a_mode P a = MGcm -> x_mode P (a_ctx P a) = MGcm -> a_final P a = false ->
  enc_update P a d room = (a1, Ok o) -> a_taglen P a1 = a_taglen P a /\ length o + a_taglen P a <= room.
Proof.
  intros Hm Hx Hf H. unfold enc_update in H. rewrite Hf in H. unfold enc_len in H. change (a_mode P (a_use P a)) with (a_mode P a) in H.
  rewrite Hm in H. unfold enc_check in H. change (a_mode P (a_use P a)) with (a_mode P a) in H. rewrite Hm in H.
  change (a_taglen P (a_use P a)) with (a_taglen P a) in H.
  destruct (room <? length d + a_taglen P a) eqn:E; [discriminate H|]. apply Nat.ltb_ge in E.
  unfold enc_feed in H. change (a_mode P (a_use P a)) with (a_mode P a) in H. rewrite Hm in H.
  rewrite feed_rest_stream in H; [|by cbn; rewrite Hx|lia].
  injection H as <- <-. split; [done|]. rewrite run_bytes_len. lia.
Qed.

Lemma rest_mode a d room out : a_mode P (fst (feed_rest P a d room out)) = a_mode P a.
Proof. unfold feed_rest. destruct d; [done|]. by destruct (cx_update P _ _ _) as [[x o]|]. Qed.
Lemma enc_feed_mode a d room : a_mode P (fst (enc_feed P a d room)) = a_mode P a.
Proof.
  unfold enc_feed, feed_blocks, feed_cts, fatal. destruct (a_mode P a) eqn:Em; repeat case_match; rewrite ?rest_mode; done.
Qed.
Lemma enc_update_mode a d room : a_mode P (fst (enc_update P a d room)) = a_mode P a.
Proof.
  unfold enc_update. destruct (a_final P a); [done|].
  destruct (enc_len P (a_use P a) (length d) false) as [a1 [l|e]] eqn:E1.
  - apply (len_same true) in E1 as ->. destruct (enc_check P (a_use P a) (length d) l) as [a2 r] eqn:E2.
    assert (a_mode P a2 = a_mode P a) as Hm.
    { unfold enc_check, fatal, ctr_count in E2. change (a_mode P (a_use P a)) with (a_mode P a) in E2.
      destruct (a_mode P a) eqn:Em; repeat case_match; injection E2 as <- <-; simplify_eq; cbn; done. }
    destruct r as [l2|e]; [|done]. destruct (_ <? _); [done|]. by rewrite enc_feed_mode.
  - unfold enc_len, fatal in E1. change (a_mode P (a_use P a)) with (a_mode P a) in E1.
    destruct (a_mode P a) eqn:Em; repeat case_match; simplify_eq; cbn; done.
Qed.
Lemma single_small enc a d room a' : a_final P a = false -> looks_first a -> whole_room enc a ->
  op_single P enc a d room = (a', Err CKR_BUFFER_TOO_SMALL) -> op_update P enc a d room = (a', Err CKR_BUFFER_TOO_SMALL).
Proof.
  intros Hf Hl Hw H. destruct enc; cbn [op_single op_update] in *.
  - unfold enc_single in H. rewrite Hf in H. destruct (enc_update P a d room) as [a1 [o|e]] eqn:E1; [|done].
    destruct (_ <? _) eqn:E2; [discriminate H|]. apply Nat.ltb_ge in E2. exfalso.
    destruct (enc_final P a1 (room - length o)) as [a2 [o2|e]] eqn:E3; [discriminate H|]. injection H as <- ->.
    apply (final_small true) in E3 as (_ & _ & E3). pose proof (enc_update_mode a d room) as Em. rewrite E1 in Em. cbn [fst] in Em.
    rewrite Em in E3. destruct Hw as [Hw|Hw]; [done|]. destruct (a_mode P a) eqn:Ea; try done.
    apply gcm_enc_update in E1 as [E1 ?]; try done. lia.
  - unfold dec_single in H. rewrite Hf in H. destruct (dec_update P a d room) as [a1 [o|e]] eqn:E1; [|done].
    destruct (_ <? _) eqn:E2; [discriminate H|]. exfalso.
    destruct (dec_final P a1 (room - length o)) as [a2 [o2|e]] eqn:E3; [discriminate H|]. injection H as <- ->.
    apply (final_small false) in E3 as (_ & ? & _). done.
Qed.

(* C33 for AES: every mode, every state of the operation, every input and every room.
   Missing: CTS, CTR with a counter limit, and the one-shot encryption of CBC_PAD and CCM; for CTS, CTR and CBC_PAD the
   claim is false, see below. *)
Theorem C33_aes_partial enc (a : aes) :
  (forall n fin a' l, op_len P enc a n fin = (a', Ok l) -> a' = a) /\
  (a_final P a = false -> can_retry (op_final P enc) a) /\
  (a_final P a = false -> looks_first a ->
   (forall d, can_retry (fun a => op_update P enc a d) a) /\
   (whole_room enc a -> forall d, can_retry (fun a => op_single P enc a d) a)).
Proof.
  split; [intros n fin a' l; apply len_same|]. split.
  { intros Hf room a' H. apply final_small in H as [-> _]. done. }
  intros Hf Hl. split.
  - intros d room a' H. pose proof H as H'. apply update_small in H' as ->; try done. split; [done|].
    by apply (update_used enc a d room (a_use P a)).
  - intros Hw d room a' H. apply single_small in H; try done. pose proof H as H'. apply update_small in H' as ->; try done.
    split; [done|]. intros n. pose proof (update_used enc a d room (a_use P a) Hf Hl H n) as Eu.
    destruct enc; cbn [op_single op_update] in *; unfold enc_single, dec_single;
      change (a_final P (a_use P a)) with (a_final P a); by rewrite Hf, Eu.
Qed.
End aesbuf.

(* A case for each mode the theorem covers: with 20 bytes for 48 the call fails, and the second call gives the
   ciphertext. *)
Definition tries (m : amode) (max : N) (tl : nat) (d : bytes) (small : nat) : result bytes * result bytes :=
  match toy_op m true max tl with
  | Some a => let '(a1, r) := op_single toy_prim true a d small in (r, snd (op_single toy_prim true a1 d 100))
  | None => (Err CKR_GENERAL_ERROR, Err CKR_GENERAL_ERROR)
  end.
Example C33_aes_case :
  forallb (fun m => match tries m 0 8 (counted 48) 20, toy_once m true 0 8 (counted 48) with
     | (Err e, Ok c), Ok c' => (e =? CKR_BUFFER_TOO_SMALL)%N && bytes_eqb c c' | _, _ => false end)
    [MEcb; MCbc; MGcm; MCtr; MStream; MKw] = true /\
  (exists a, toy_op MGcm true 0 8 = Some a /\ a_final toy_prim a = false /\ looks_first toy_prim a /\ whole_room toy_prim true a).
Proof.
  split; [vm_compute; reflexivity|]. eexists. split; [reflexivity|]. split; [done|]. split; [done|]. right. done.
Qed.

(* CBC with padding: a buffer for the data but not for the padding makes C_Encrypt fail after it has taken the data
   in; the second call takes it in again and returns, with CKR_OK, a ciphertext which is not that of the data: with
   the same data and a fresh operation the result is another, and here it does not decrypt to the data. *)
Theorem C33_pad_refuted : exists a a' c c',
  toy_op MCbcPad true 0 0 = Some a /\
  op_single toy_prim true a (counted 40) 32 = (a', Err CKR_BUFFER_TOO_SMALL) /\
  a_final toy_prim a' = false /\
  snd (op_single toy_prim true a (counted 40) 100) = Ok c /\
  snd (op_single toy_prim true a' (counted 40) 100) = Ok c' /\ c <> c' /\
  toy_once MCbcPad false 0 0 c = Ok (counted 40) /\
  toy_once MCbcPad false 0 0 c' <> Ok (counted 40).
Proof.
  do 4 eexists. split; [reflexivity|]. split; [vm_compute; reflexivity|]. split; [vm_compute; reflexivity|].
  split; [vm_compute; reflexivity|]. split; [vm_compute; reflexivity|]. split; [intros [=]|].
  split; [vm_compute; reflexivity|]. vm_compute. intros [=].
Qed.
(* CTS: the mark that the one call was made is set before the room is looked at: the second call ends the operation. *)
Theorem C33_cts_refuted : exists a a' c,
  toy_op MCts true 0 0 = Some a /\
  op_single toy_prim true a (counted 40) 39 = (a', Err CKR_BUFFER_TOO_SMALL) /\
  snd (op_single toy_prim true a (counted 40) 100) = Ok c /\
  snd (op_single toy_prim true a' (counted 40) 100) = Err CKR_OPERATION_NOT_INITIALIZED /\
  a_final toy_prim (fst (op_single toy_prim true a' (counted 40) 100)) = true.
Proof.
  do 3 eexists. split; [reflexivity|]. split; [vm_compute; reflexivity|]. split; [vm_compute; reflexivity|].
  split; vm_compute; reflexivity.
Qed.
(* CTR with a limited counter: the blocks of the failed call are counted. *)
Theorem C33_ctr_refuted : exists a a' c,
  toy_op MCtr true 4 0 = Some a /\
  op_single toy_prim true a (counted 40) 39 = (a', Err CKR_BUFFER_TOO_SMALL) /\
  snd (op_single toy_prim true a (counted 40) 100) = Ok c /\
  snd (op_single toy_prim true a' (counted 40) 100) = Err CKR_DATA_LEN_RANGE.
Proof.
  do 3 eexists. split; [reflexivity|]. split; [vm_compute; reflexivity|]. split; vm_compute; reflexivity.
Qed.
