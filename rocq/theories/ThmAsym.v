(* C53: RSA encryption gives back what was encrypted, with buffers of the announced size. *)
From Verif Require Export AsymSpec ThmSig.
Local Open Scope N_scope.

Definition limit (m : amech) (modlen : N) : N := match m with AX509 => modlen | APkcs => modlen - 11 | AOaep h => modlen - 2 * h - 2 end.
Section C53.
Context (E : encalg) (L : enc_laws E) (m : amech) (modlen : N) (Hm : modulus_ok E modlen).
Notation OP enc coin := {| a_mech := m; a_max := limit m modlen; a_len := modlen; a_final := false; a_use := false; a_enc := enc; a_coin := coin |}.

Lemma new_is enc coin : padding_ok m modlen -> encdec_new m modlen enc coin = Ok (OP enc coin).
Proof using Hm.
  destruct Hm as [_ Hb]. intros Hp. unfold encdec_new, get_key_size. change MIN_RSA_BITS with 1024. change MAX_RSA_BITS with 16384.
  replace ((modlen * 8 <? 1024) || (16384 <? modlen * 8)) with false by lia. cbn [rbind]. unfold max_message_len, usub.
  destruct m as [| |h]; cbn [padding_ok] in Hp; [done|by replace (modlen <? 11) with false by lia|].
  replace (modlen <? 2 * h) with false by lia. cbn [rbind]. by replace (modlen - 2 * h <? 2) with false by lia.
Qed.

Lemma enc_is d n coin : e_size E <= n -> a_encrypt E d n (OP true coin)
  = (a_over (OP true coin), match e_enc E coin d with Some x => Ok (x, blen x) | None => Err CKR_DEVICE_ERROR end).
Proof using L.
  intros Hn. pose proof (en_size E L). unfold a_encrypt. cbv [a_open Monad.mbind gets ensure modify ret a_raise os_encrypt id].
  cbn [a_use a_final a_enc negb snd a_coin]. replace (n =? 0) with false by lia. replace (e_size E <=? n) with true by lia. cbv iota beta.
  replace (n <? e_size E) with false by lia. by destruct (e_enc E coin d).
Qed.
Lemma dec_is x n coin : e_size E <= n -> a_decrypt E x n (OP false coin)
  = (a_over (OP false coin), match e_dec E x with Some d => Ok (d, blen d) | None => Err CKR_DEVICE_ERROR end).
Proof using L.
  intros Hn. pose proof (en_size E L). unfold a_decrypt. cbv [a_open Monad.mbind gets ensure modify ret a_raise os_decrypt id].
  cbn [a_use a_final a_enc negb snd a_coin a_len]. replace (n =? 0) with false by lia. replace (n <? e_size E) with false by lia. cbn [andb negb]. cbv iota beta.
  destruct (e_dec E x) as [d|] eqn:D; [|done]. cbn [snd]. pose proof (en_len E L x d D). by replace (blen d <=? n) with true by lia.
Qed.

(* C53.  What is encrypted into a buffer that is large enough is decrypted to what it was. *)
Theorem C53_round coin coin' o o' d n n' x : encdec_new m modlen true coin = Ok o -> encdec_new m modlen false coin' = Ok o' ->
  padding_ok m modlen -> e_enc E coin d = Some x -> e_size E <= n -> e_size E <= n' ->
  snd (c_encrypt E d (Some n) o) = Ok (x, e_size E) /\ snd (c_decrypt E x (Some n') o') = Ok (d, blen d) /\
  a_final (fst (c_encrypt E d (Some n) o)) = true /\ a_final (fst (c_decrypt E x (Some n') o')) = true.
Proof using L Hm.
  intros Eo Eo' Hp He Hn Hn'. rewrite new_is in Eo, Eo' by done. injection Eo as <-. injection Eo' as <-. destruct (en_back E L _ _ _ He) as [Hd Hl].
  cbv [c_encrypt c_decrypt Monad.mbind gets ensure ret id]. cbn [a_final negb]. cbv iota beta. rewrite (enc_is d n coin Hn), (dec_is x n' coin' Hn'), He, Hd, Hl. done.
Qed.
(* C53.  The length answered for a null buffer is enough, and asking for it changes nothing. *)
Theorem C53_length_partial enc coin o d : encdec_new m modlen enc coin = Ok o -> padding_ok m modlen -> padded m = true ->
  c_encrypt E d None o = (o, Ok ([], modlen)) /\ c_decrypt E d None o = (o, Ok ([], modlen)) /\ e_size E <= modlen.
Proof using Hm.
  intros Eo Hp Hd. rewrite new_is in Eo by done. injection Eo as <-. destruct Hm as [Hs _]. destruct m; try discriminate Hd; done.
Qed.
(* C53.  A buffer that is too small, but not empty, is refused, and the operation is as it was. *)
Theorem C53_small_partial coin o o' d n : encdec_new m modlen true coin = Ok o -> encdec_new m modlen false coin = Ok o' -> padding_ok m modlen ->
  0 < n < e_size E -> c_encrypt E d (Some n) o = (o, Err CKR_BUFFER_TOO_SMALL) /\ c_decrypt E d (Some n) o' = (o', Err CKR_BUFFER_TOO_SMALL).
Proof using Hm.
  intros Eo Eo' Hp Hn. rewrite new_is in Eo, Eo' by done. injection Eo as <-. injection Eo' as <-. destruct Hm as [Hs _].
  cbv [c_encrypt c_decrypt a_encrypt a_decrypt a_open Monad.mbind gets ensure modify ret a_raise os_encrypt os_decrypt id].
  cbn [a_use a_final a_enc negb snd a_coin a_len]. replace (n =? 0) with false by lia. replace (e_size E <=? n) with false by lia.
  replace (n <? e_size E) with true by lia. replace (n <? modlen) with true by lia. done.
Qed.
(* C53.  Data that is refused ends the operation. *)
Theorem C53_refused coin o d n : encdec_new m modlen true coin = Ok o -> padding_ok m modlen -> e_enc E coin d = None -> e_size E <= n ->
  c_encrypt E d (Some n) o = (a_over o, Err CKR_DEVICE_ERROR) /\ forall d' b, c_encrypt E d' b (a_over o) = (a_over o, Err CKR_OPERATION_NOT_INITIALIZED).
Proof using L Hm.
  intros Eo Hp He Hn. rewrite new_is in Eo by done. injection Eo as <-.
  cbv [c_encrypt c_decrypt Monad.mbind gets ensure ret id]. cbn [a_final negb]. cbv iota beta. rewrite (enc_is d n coin Hn), He. done.
Qed.
(* C53.  A key wrapped with RSA is unwrapped to the same data. *)
Theorem C53_wrap_partial coin d x : padding_ok m modlen -> padded m = true -> e_enc E coin d = Some x ->
  rsa_wrap E m modlen coin d 0 = Ok ([], modlen) /\ (forall n, modlen <= n -> rsa_wrap E m modlen coin d n = Ok (x, e_size E)) /\ rsa_unwrap E m modlen x = Ok d.
Proof using L Hm.
  intros Hp Hd He. destruct (en_back E L _ _ _ He) as [Hx Hl]. pose proof (en_size E L) as Hz. destruct Hm as [Hs _]. unfold rsa_wrap, rsa_unwrap. rewrite !new_is by done. cbn [rbind].
  assert (La : snd (a_length (OP true coin)) = Ok modlen) by (destruct m; [discriminate Hd|done|done]). rewrite La. cbn [rbind]. split; [done|]. split.
  - intros n Hn. replace (n =? 0) with false by lia. replace (n <? modlen) with false by lia. rewrite enc_is, He, Hl by lia. done.
  - assert (D0 : a_decrypt E x 0 (OP false 0) = (OP false 0, Ok ([], e_size E))) by done.
    rewrite D0. cbn [rbind snd]. rewrite dec_is, Hx by lia. cbn [snd fst rbind]. f_equal.
    replace (N.to_nat (blen d)) with (length d + 0)%nat by (unfold blen; lia). rewrite firstn_app_2. apply app_nil_r.
Qed.
End C53.

(* False: with a buffer of length zero that is not null the answer is CKR_OK with the full length, and nothing is written. *)
Theorem C53_zero_buffer_refuted (E : encalg) (m : amech) (modlen coin : N) o d : modulus_ok E modlen -> padding_ok m modlen -> encdec_new m modlen true coin = Ok o ->
  c_encrypt E d (Some 0) o = (o, Ok ([], e_size E)).
Proof. intros Hm Hp Eo. rewrite (new_is E m modlen Hm) in Eo by done. by injection Eo as <-. Qed.
(* False: the length of an output of CKM_RSA_X_509 cannot be asked for, and it does not wrap. *)
Theorem C53_x509_refuted (E : encalg) (modlen coin : N) o d : modulus_ok E modlen -> encdec_new AX509 modlen true coin = Ok o ->
  snd (c_encrypt E d None o) = Err CKR_GENERAL_ERROR /\ forall n, rsa_wrap E AX509 modlen coin d n = Err CKR_GENERAL_ERROR.
Proof.
  intros Hm Eo. split; [|intros n; unfold rsa_wrap]; rewrite (new_is E AX509 modlen Hm) in * by done; [by injection Eo as <-|done].
Qed.
(* False: a key of 1024 bits with OAEP and SHA-512 stops the process (with overflow checks). *)
Theorem C53_oaep_panic_refuted enc coin : encdec_new (AOaep 64) 128 enc coin = Err RV_PANIC.
Proof. vm_compute. reflexivity. Qed.
(* False: the case of rsa.rs:655-668, a buffer shorter than the modulus in which the message would fit, never gets there. *)
Theorem C53_short_buffer_refuted (E : encalg) (m : amech) (modlen coin : N) o x d n : modulus_ok E modlen -> padding_ok m modlen ->
  encdec_new m modlen false coin = Ok o -> e_dec E x = Some d -> 0 < n -> blen d <= n < e_size E ->
  c_decrypt E x (Some n) o = (o, Err CKR_BUFFER_TOO_SMALL).
Proof.
  intros Hm Hp Eo Hd H0 Hn. pose proof Eo as Eo'. rewrite (new_is E m modlen Hm) in Eo' by done.
  by apply (C53_small_partial E m modlen Hm coin _ o x n (new_is E m modlen Hm true coin Hp) Eo Hp ltac:(lia)).
Qed.
(* False: a modulus given with a leading zero byte, which is accepted, makes a key that never signs. *)
Theorem C53_padded_modulus_refuted (K : keyalg) (n max : N) (q : pq) lg pr coin o d : (forall c m s, k_sign K c m = Some s -> blen s = k_size K) ->
  k_size K < n -> new_op RsaHash n max q true lg pr coin None = Ok o -> is_ok (snd (call K (SSign d n) o)) = false.
Proof.
  intros Hs Hn Eo. rewrite new_plain in Eo. injection Eo as <-.
  destruct (one_is_final K RsaHash n max q lg pr coin true None None None d eq_refl ltac:(discriminate)) as [_ O]. rewrite O.
  cbv [call rsa_sign_final running on_ctx raise lift Monad.mbind gets ensure modify ret skip id]. cbn.
  replace (n <? k_size K) with false by lia. destruct (k_sign K coin d) as [s|] eqn:Es; cbn; [|done].
  apply Hs in Es. by replace (blen s =? n) with false by lia.
Qed.

(* A toy instance: modulus of 130 bytes, the message with its length behind a zero and random bytes *)
Definition toy_enc : encalg := {|
  e_enc := fun c d => if blen d <=? 100 then Some ([0; c mod 256; blen d] ++ d ++ repeat 0 (N.to_nat (127 - blen d))) else None;
  e_dec := fun x => match x with _ :: _ :: l :: r => if (l <=? 100) && (blen r =? 127) then Some (firstn (N.to_nat l) r) else None | _ => None end;
  e_size := 130 |}.
Lemma toy_enc_laws : enc_laws toy_enc.
Proof.
  constructor; cbn [toy_enc e_enc e_dec e_size]; [lia| |].
  - intros c d x H. destruct (blen d <=? 100) eqn:Hd; [|discriminate H].
    match type of H with Some ?a = _ => assert (Hx : x = a) by congruence end. clear H. subst x. cbn [app]. rewrite Hd.
    assert (Lr : length (d ++ repeat 0 (N.to_nat (127 - blen d))) = 127%nat) by (unfold blen in *; rewrite app_length, repeat_length; lia).
    assert (Lb : blen (d ++ repeat 0 (N.to_nat (127 - blen d))) = 127) by (unfold blen at 1; rewrite Lr; done).
    rewrite Lb. cbn [andb N.eqb Pos.eqb]. split.
    + f_equal. replace (N.to_nat (blen d)) with (length d + 0)%nat by (unfold blen; lia). rewrite firstn_app_2. apply app_nil_r.
    + unfold blen in Lb |- *. cbn [length]. lia.
  - intros x d H. destruct x as [|a [|b [|l r]]]; try discriminate H. destruct ((l <=? 100) && (blen r =? 127)) eqn:G; [|discriminate H].
    injection H as <-. unfold blen. rewrite firstn_length. lia.
Qed.
Example C53_case : exists o o' x, encdec_new APkcs 131 true 7 = Ok o /\ encdec_new APkcs 131 false 7 = Ok o' /\ e_enc toy_enc 7 [1; 2; 3] = Some x /\
  snd (c_encrypt toy_enc [1; 2; 3] (Some 131) o) = Ok (x, 130) /\ snd (c_decrypt toy_enc x (Some 131) o') = Ok ([1; 2; 3], 3) /\
  rsa_unwrap toy_enc APkcs 131 x = Ok [1; 2; 3].
Proof. do 3 eexists. split; [reflexivity|]. split; [reflexivity|]. split; [reflexivity|]. split_and!; vm_compute; reflexivity. Qed.
(* C53.  Wrapping into a buffer smaller than the size it announces is refused. *)
Theorem C53_wrap_small (E : encalg) (m : amech) (modlen coin : N) d n : modulus_ok E modlen -> padding_ok m modlen -> padded m = true -> 0 < n < modlen ->
  rsa_wrap E m modlen coin d 0 = Ok ([], modlen) /\ rsa_wrap E m modlen coin d n = Err CKR_BUFFER_TOO_SMALL.
Proof.
  intros Hm Hp Hd Hn. unfold rsa_wrap. rewrite (new_is E m modlen Hm true coin Hp). cbn [rbind]. unfold a_length, Monad.mbind, gets, ret, id. cbn [a_mech].
  destruct m; try discriminate Hd; cbn [snd rbind a_len]; (replace (n =? 0) with false by lia; replace (n <? modlen) with true by lia; split; reflexivity).
Qed.
(* C53.  An operation that gave its result is over: what comes after is refused. *)
Theorem C53_once (E : encalg) (o : aop) x n r y b : n <> 0 -> let o' := fst (c_decrypt E x (Some n) o) in let o'' := fst (c_encrypt E x (Some n) o) in
  (snd (c_decrypt E x (Some n) o) = Ok r -> snd (c_decrypt E y b o') = Err CKR_OPERATION_NOT_INITIALIZED) /\
  (snd (c_encrypt E x (Some n) o) = Ok r -> snd (c_encrypt E y b o'') = Err CKR_OPERATION_NOT_INITIALIZED).
Proof.
  intros Hn. cbv zeta.
  assert (Z : forall o y b, a_final o = true -> snd (c_decrypt E y b o) = Err CKR_OPERATION_NOT_INITIALIZED /\ snd (c_encrypt E y b o) = Err CKR_OPERATION_NOT_INITIALIZED).
  { intros [? ? ? [] ? ? ?] y' b' F; [|discriminate F]. split; reflexivity. }
  split; intros H; apply Z; revert H; unfold c_decrypt, c_encrypt, a_decrypt, a_encrypt; cbv [a_open Monad.mbind gets ensure modify ret a_raise os_decrypt os_encrypt id fail].
  all: destruct o as [? ? len [] [] [] ?]; cbn [a_final a_use a_enc a_len negb snd fst]; replace (n =? 0) with false by lia; try (intros X; discriminate X).
  - destruct (_ && _); cbn [negb snd fst]; [intros X; discriminate X|]. destruct (n <? _); cbn [snd fst].
    + rewrite N.ltb_irrefl. destruct (e_dec E x); cbn [snd fst]; [|intros X; discriminate X]. repeat match goal with |- context [?a <=? ?b] => destruct (a <=? b); cbn [snd fst] end; try (intros X; discriminate X); reflexivity.
    + destruct (e_dec E x); cbn [snd fst]; [|intros X; discriminate X]. destruct (_ <=? _); cbn [snd fst]; [|intros X; discriminate X]. reflexivity.
  - destruct (_ <=? _); cbn [snd fst]; [|intros X; discriminate X]. destruct (_ <? _); cbn [snd fst]; [intros X; discriminate X|]. destruct (e_enc E _ x); cbn [snd fst]; [|intros X; discriminate X]. reflexivity.
Qed.
(* C53.  What a decryption writes fits the buffer, whatever OpenSSL answers, and so does the length it gives. *)
Theorem C53_fits (E : encalg) (o : aop) c n d l : snd (c_decrypt E c (Some n) o) = Ok (d, l) -> n <> 0 -> blen d <= l /\ l <= n.
Proof.
  intros H Hn. unfold c_decrypt, a_decrypt in H. revert H. cbv [a_open Monad.mbind gets ensure modify ret a_raise os_decrypt id fail].
  destruct o as [? ? len [] [] [] ?]; cbn [a_final a_use a_enc a_len negb snd]; try (intros X; discriminate X).
  replace (n =? 0) with false by lia. destruct ((n <? e_size E) && (n <? len)); cbn [negb snd]; [discriminate|].
  destruct (N.ltb_spec n (e_size E)) as [Hz|Hz].
  - destruct (N.ltb_spec (e_size E) (e_size E)); [lia|]. destruct (e_dec E c) as [d'|]; cbn [snd]; [|discriminate].
    destruct (N.leb_spec (blen d') n) as [Hl|Hl]; cbn [snd].
    + destruct (N.leb_spec (blen d') n); cbn [snd]; [|discriminate]. intros H'. injection H' as <- <-. lia.
    + destruct (N.leb_spec (blen d') n); [lia|cbn [snd]; discriminate].
  - destruct (N.ltb_spec n (e_size E)); [lia|]. destruct (e_dec E c) as [d'|]; cbn [snd]; [|discriminate].
    destruct (N.leb_spec (blen d') n); cbn [snd]; [|discriminate]. intros H'. injection H' as <- <-. lia.
Qed.
Example C53_case_modulus : modulus_ok toy_enc 131 /\ padding_ok (AOaep 32) 131. Proof. split; [split; cbn; lia|cbn; lia]. Qed.
