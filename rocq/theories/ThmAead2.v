(* C44 and C45 on concrete messages, and where they fail. *)
From Verif Require Import MsgSpec ThmMsg ThmAead ThmChunks.
From Coq Require Import Arith.
Local Open Scope nat_scope.

Definition gcm_q (iv : bytes) (fixed gen : N) (tag : option bytes) : mparam := Mparam (Some iv) fixed gen 0 128 tag.
Definition no_tag : option bytes := Some (repeat 0%N 16).
Definition one (iv : bytes) (fixed gen : N) (d : bytes) : mcall := MSingle (Some (gcm_q iv fixed gen no_tag)) [1; 2]%N None d (length d).
Definition iv12 : bytes := [9; 8; 7; 6; 5; 4; 3; 2; 1; 0; 255; 254]%N.
Notation enc0 := (msg_init toy_prim MGcm true).
Notation dec0 := (msg_init toy_prim MGcm false).
Definition oks (tr : list (mcall * mout)) : bool := forallb (fun x => match o_res (snd x) with Ok _ => true | Err _ => false end) tr.
Lemma oks_all tr : oks tr = true -> all_ok tr.
Proof.
  unfold oks, all_ok. intros H. apply List.Forall_forall. intros x Hx. rewrite forallb_forall in H. specialize (H x Hx). destruct (o_res (snd x)); [eauto|done].
Qed.

(* Five messages with a counter in the last 20 bits: the counter is 0, 1, 2 ... *)
Example C44_case :
  let l := repeat (one iv12 76 CKG_GENERATE_COUNTER [1; 2; 3]%N) 5 in
  same_bits 20 l /\ oks (snd (mrun toy_prim enc0 l)) = true /\
  issued wants_counter (snd (mrun toy_prim enc0 l)) =
    map (fun n => [9; 8; 7; 6; 5; 4; 3; 2; 1; 0; 0; n]%N) [0; 1; 2; 3; 4]%N.
Proof.
  cbv zeta. split; [|by split; vm_compute].
  intros c q b Hc Hp Hq. apply repeat_spec in Hc as ->. injection Hp as <-. injection Hq as <-.
  split; [|intros _; vm_compute; done]. repeat constructor; done.
Qed.
Example C44_xor_case :
  let l := repeat (one iv12 76 CKG_GENERATE_COUNTER_XOR [1; 2; 3]%N) 3 in
  same_bits 20 l /\ same_base iv12 l /\
  issued wants_xor (snd (mrun toy_prim enc0 l)) = map (fun n => [9; 8; 7; 6; 5; 4; 3; 2; 1; 0; 255; n]%N) [254; 255; 252]%N.
Proof.
  cbv zeta. split; [|split; [|by vm_compute]].
  - intros c q b Hc Hp Hq. apply repeat_spec in Hc as ->. injection Hp as <-. injection Hq as <-.
    split; [|intros _; vm_compute; done]. repeat constructor; done.
  - intros c q Hc Hp _. apply repeat_spec in Hc as ->. by injection Hp as <-.
Qed.

(* Each message uses the buffer as the token left it after the message before. *)
Fixpoint handed_on (iv : bytes) (tr : list (mcall * mout)) : Prop :=
  match tr with
  | [] => True
  | (c, o) :: r => (exists q iv', param_of c = Some q /\ q_iv q = Some iv /\ o_iv o = Some iv' /\ handed_on iv' r)
  end.

(* An application that keeps using its IV buffer, as the calls without XOR allow, gets the first IV again in the fourth
   message: the counter is added to the IV of the message before, 0, 1, 2, 3, and 1 xor 2 xor 3 is 0.
   generate_iv, src/ossl/aes.rs:511-527, with msg_encrypt_new copying the IV to the caller, 1034-1039. *)
Theorem C44_xor_refuted :
  exists l, let tr := snd (mrun toy_prim enc0 l) in
  same_bits 64 l /\ handed_on iv12 tr /\ all_ok tr /\ (forall c, In c l -> exists q, param_of c = Some q /\ wants_xor q = true) /\
  exists i j iv, i <> j /\ issued wants_xor tr !! i = Some iv /\ issued wants_xor tr !! j = Some iv.
Proof.
  set (b n := [9; 8; 7; 6; 5; 4; 3; 2; 1; 0; 255; n]%N).
  exists (map (fun n => one (b n) 32 CKG_GENERATE_COUNTER_XOR [1; 2; 3]%N) [254; 254; 255; 253]%N). cbv zeta.
  split; [|split; [|split; [|split]]].
  - intros c q b' Hc Hp Hq. apply in_map_iff in Hc as (n & <- & Hn). injection Hp as <-. injection Hq as <-.
    split; [|intros _; vm_compute; done]. cbn in Hn. repeat (destruct Hn as [<-|Hn]; [repeat constructor; done|]). done.
  - cbn [map mrun snd handed_on]. vm_compute. repeat (eexists _, _; split; [reflexivity|]; split; [reflexivity|]; split; [reflexivity|]). exact I.
  - apply oks_all. by vm_compute.
  - intros c Hc. apply in_map_iff in Hc as (n & <- & Hn). eexists. split; [reflexivity|]. done.
  - exists 0, 3, (b 254%N). split; [done|]. split; by vm_compute.
Qed.

(* The limit of the counter is worked out in the first message only, so a message that leaves fewer bits can be given
   an IV that an earlier one has had.  generate_iv, src/ossl/aes.rs:478-488. *)
Theorem C44_bits_refuted :
  exists l, let tr := snd (mrun toy_prim enc0 l) in all_ok tr /\
  (forall c, In c l -> exists q, param_of c = Some q /\ wants_counter q = true /\ q_iv q = Some iv12) /\
  exists i j iv, i <> j /\ issued wants_counter tr !! i = Some iv /\ issued wants_counter tr !! j = Some iv.
Proof.
  exists (one iv12 32 CKG_GENERATE_COUNTER [1]%N :: repeat (one iv12 95 CKG_GENERATE_COUNTER [1; 2; 3]%N) 3). cbv zeta. split; [|split].
  - apply oks_all. by vm_compute.
  - intros c [<-|Hc]; [|apply repeat_spec in Hc as ->]; eexists; (split; [reflexivity|]); done.
  - exists 1, 3, [9; 8; 7; 6; 5; 4; 3; 2; 1; 0; 255; 255]%N. split; [done|]. split; by vm_compute.
Qed.

(* ---- C45 ---- *)

(* The cipher used here: the stream cipher of ThmChunks, with a CCM that adds one to each byte. *)
Definition ccm_prim : prim := {|
  pr_st := (bool * N)%type;
  pr_start := fun _ enc _ _ _ _ => Some (enc, 1%N);
  pr_block := fun s b => (s, repeat 0%N 16);
  pr_byte := fun s b => (s, b);
  pr_shot := fun s d => Some ((fst s, fold_left N.add (if fst s then map N.succ d else d) 1%N),
                              if fst s then map N.succ d else map N.pred d);
  pr_tag := fun s => repeat (snd s mod 256)%N 16 |}.
Definition ccm_q (n : N) (tag : option bytes) : mparam := Mparam (Some iv12) 0 CKG_NO_GENERATE n 16 tag.

(* A message in pieces, after another one, encrypted and decrypted again. *)
Definition gcm_msg : list (option mparam * bytes * nat) :=
  [(Some (gcm_q iv12 76 CKG_GENERATE_COUNTER no_tag), [10; 20; 30]%N, 5); (Some (gcm_q iv12 76 CKG_GENERATE_COUNTER no_tag), [40]%N, 1)].
Definition gcm_dec (out tag : bytes) : list mcall :=
  let q := gcm_q [9; 8; 7; 6; 5; 4; 3; 2; 1; 0; 0; 1]%N 0 CKG_NO_GENERATE (Some tag) in
  in_parts q [7]%N None [(Some q, firstn 2 out, 2)] q (skipn 2 out) 9.
Example C45_case :
  let m := fst (mrun toy_prim enc0 [one iv12 76 CKG_GENERATE_COUNTER [1; 2; 3]%N]) in
  let q := gcm_q iv12 76 CKG_GENERATE_COUNTER no_tag in
  let tr := snd (mrun toy_prim m (in_parts q [7]%N None gcm_msg q [50; 60]%N 2)) in
  m_enc toy_prim m = true /\ oks tr = true /\ iv_of tr = Some [9; 8; 7; 6; 5; 4; 3; 2; 1; 0; 0; 1]%N /\
  match tag_of tr with
  | Some tag => let td := snd (mrun toy_prim dec0 (gcm_dec (output tr) tag)) in
                oks td = true /\ output td = [10; 20; 30; 40; 50; 60]%N /\ length (output tr) = 6 /\ output tr <> output td
  | None => False
  end.
Proof. vm_compute. split_and!; done. Qed.
(* The stream cipher of ThmChunks fulfils the law the round trip asks for. *)
Lemma toy_inverse : inverse toy_prim MGcm.
Proof.
  intros iv aad tl dl D o t. unfold aead. cbn [toy_prim pr_start].
  assert (H : forall D k c prev, let r := run_bytes toy_prim (ToySt true prev k c) D in
    run_bytes toy_prim (ToySt false prev k c) (snd r) = (ToySt false (ty_prev (fst r)) (ty_key (fst r)) (ty_ct (fst r)), D)).
  { clear. intros D. induction D as [|x D IH]; intros k c prev; [done|]. cbn [run_bytes toy_prim pr_byte ty_enc ty_prev ty_key ty_ct].
    specialize (IH ((k * 7 + 1) mod 256)%N ((c * 5 + N.lxor x k) mod 256)%N prev). cbv zeta in *.
    destruct (run_bytes toy_prim _ D) as [s1 o1]. cbn [fst snd] in *. cbn [run_bytes toy_prim pr_byte ty_enc ty_prev ty_key ty_ct].
    change (run_bytes toy_prim (ToySt false prev ((k * 7 + 1) mod 256) ((c * 5 + N.lxor x k) mod 256)) o1) with
      (run_bytes toy_prim (ToySt false prev ((k * 7 + 1) mod 256)%N ((c * 5 + N.lxor x k) mod 256)%N) o1). rewrite IH.
    by rewrite N.lxor_assoc, N.lxor_nilpotent, N.lxor_0_r. }
  specialize (H D 3%N 1%N iv). cbv zeta in H. destruct (run_bytes toy_prim (ToySt true iv 3 1) D) as [s1 o1]. cbn [fst snd] in H.
  intros X. injection X as <- <-. rewrite H. done.
Qed.

(* CCM keeps the data of a message that was given in pieces: the next message is the old data with the new appended,
   all calls succeeding.  msg_encrypt_final, src/ossl/aes.rs:2133-2150, never empties the buffer. *)
Theorem C45_ccm_refuted :
  exists l d D, let m := fst (mrun ccm_prim (msg_init ccm_prim MCcm true) l) in
  let c := MSingle (Some (ccm_q (N.of_nat (length D)) no_tag)) [] None d 100 in
  m_used ccm_prim m = false /\ all_ok (snd (mrun ccm_prim (msg_init ccm_prim MCcm true) l)) /\
  (exists n, o_res (snd (mstep ccm_prim m c)) = Ok n) /\ d <> D /\
  exists t, aead ccm_prim MCcm true iv12 [] 16 (length D) D = Some (o_data (snd (mstep ccm_prim m c)), t).
Proof.
  exists (in_parts (ccm_q 3 no_tag) [] None [(Some (ccm_q 3 no_tag), [1; 2]%N, 0)] (ccm_q 3 no_tag) [3]%N 3), [4]%N, [1; 2; 3; 4]%N.
  cbv zeta. split; [by vm_compute|]. split; [apply oks_all; by vm_compute|]. split; [eexists; vm_compute; reflexivity|].
  split; [done|]. eexists. vm_compute. reflexivity.
Qed.
(* ... and if the application states the true length it is refused for ever after. *)
Theorem C45_ccm_second_refuted :
  exists l d, let m := fst (mrun ccm_prim (msg_init ccm_prim MCcm true) l) in
  let c := MSingle (Some (ccm_q (N.of_nat (length d)) no_tag)) [] None d 100 in
  m_used ccm_prim m = false /\ m_final ccm_prim m = false /\ all_ok (snd (mrun ccm_prim (msg_init ccm_prim MCcm true) l)) /\
  o_res (snd (mstep ccm_prim m c)) = Err CKR_DATA_LEN_RANGE /\
  exists n, o_res (snd (mstep ccm_prim (msg_init ccm_prim MCcm true) c)) = Ok n.
Proof.
  exists (in_parts (ccm_q 3 no_tag) [] None [(Some (ccm_q 3 no_tag), [1; 2]%N, 0)] (ccm_q 3 no_tag) [3]%N 3), [4; 5]%N.
  cbv zeta. split; [by vm_compute|]. split; [by vm_compute|]. split; [apply oks_all; by vm_compute|]. split; [by vm_compute|].
  eexists; vm_compute; reflexivity.
Qed.
(* A GCM message with a wrong tag is refused, but its plaintext stays in the caller's buffer.
   msg_decrypt_final, src/ossl/aes.rs:2354-2373: only an impossible case clears it. *)
Theorem C45_plaintext_refuted :
  exists c d, let o := snd (mstep toy_prim dec0 (MSingle (Some (gcm_q iv12 0 CKG_NO_GENERATE no_tag)) [] None c 9)) in
  o_res o = Err CKR_ENCRYPTED_DATA_INVALID /\ o_data o = d /\
  exists t, aead toy_prim MGcm true iv12 [] 16 0 d = Some (c, t) /\ d <> [].
Proof.
  exists (snd (run_bytes toy_prim (ToySt true iv12 3 1) [10; 20; 30]%N)), [10; 20; 30]%N. cbv zeta.
  split; [by vm_compute|]. split; [by vm_compute|]. eexists. split; [vm_compute; reflexivity|done].
Qed.
(* A null tag pointer is written to. *)
Theorem C40_tag_refuted :
  exists d, o_res (snd (mstep toy_prim enc0 (MSingle (Some (gcm_q iv12 0 CKG_NO_GENERATE None)) [] None d 9))) = Err RV_NULL_DEREF.
Proof. exists [1; 2]%N. by vm_compute. Qed.
(* C_EncryptMessage with too small a buffer: the message stays begun, and the call cannot be made again. *)
Theorem C33_message_refuted :
  exists q d, let c room := MSingle (Some q) [] None d room in
  let '(m1, o1) := mstep toy_prim enc0 (c 2) in
  o_res o1 = Err CKR_BUFFER_TOO_SMALL /\ o_res (snd (mstep toy_prim m1 (c 9))) = Err CKR_OPERATION_ACTIVE /\
  o_res (snd (mstep toy_prim m1 MFinish)) = Err CKR_OPERATION_ACTIVE /\
  exists n, o_res (snd (mstep toy_prim enc0 (c 9))) = Ok n.
Proof.
  exists (gcm_q iv12 0 CKG_NO_GENERATE no_tag), [1; 2; 3]%N. cbv zeta. vm_compute. split_and!; try done. by eexists.
Qed.
(* CCM with a nonce of seven bytes, which the mechanism allows, takes no message longer than one byte: 1 << (8 * 8) is
   one.  init_msg_params, src/ossl/aes.rs:766-773. *)
Theorem C45_nonce_refuted :
  exists q, q_iv q = Some (repeat 1%N 7) /\ q_len q = 2%N /\
  forall d room, o_res (snd (mstep ccm_prim (msg_init ccm_prim MCcm true) (MSingle (Some q) [] None d room))) = Err CKR_MECHANISM_PARAM_INVALID.
Proof. exists (Mparam (Some (repeat 1%N 7)) 0 CKG_NO_GENERATE 2 16 no_tag). split; [done|]. split; [done|]. intros d room. reflexivity. Qed.

(* A message that is refused at its beginning leaves the operation as it was: the next one is not affected.  Missing: a
   message for which the IV cannot be made, or whose cipher cannot be started. *)
Theorem C45_refused_partial P m p aad rnd e m' :
  (forall q, p = Some q -> m_enc P m = true -> q_gen q = CKG_NO_GENERATE) ->
  (forall iv t n, pr_start P (m_mode P m) (m_enc P m) iv aad t n <> None) ->
  msg_begin P m p aad rnd = (m', Err e) -> m' = m.
Proof.
  intros Hq Hs E. unfold msg_begin in E. destruct (m_final P m); [by injection E as <- _|]. destruct (m_used P m); [by injection E as <- _|].
  destruct (init_msg P m p aad) as [m2|e2] eqn:Ei; [|by injection E as <- _]. exfalso.
  assert (K : v_gen (m_iv P m2) = CKG_NO_GENERATE /\ m_mode P m2 = m_mode P m /\ m_enc P m2 = m_enc P m).
  { unfold init_msg in Ei. destruct p as [q|]; [|discriminate Ei]. specialize (Hq q eq_refl). unfold new_iv in Ei.
    destruct (m_mode P m) eqn:Em; try discriminate Ei; (destruct (q_iv P q) as [b|] || destruct (q_iv q) as [b|]); try discriminate Ei; cbv zeta in Ei;
      repeat match type of Ei with (if ?x then _ else _) = Ok _ => destruct x; try discriminate Ei end; injection Ei as <-; cbn [m_iv m_mode m_enc];
      (split; [|done]); destruct (m_enc P m); [by rewrite Hq|done|by rewrite Hq|done]. }
  destruct K as (K1 & K2 & K3). cbv zeta in E. cbn [m_mode m_enc m_iv m_aad m_datalen m_taglen m_ctx m_buf] in E. rewrite K1 in E.
  change (CKG_NO_GENERATE =? Msg.CKG_NO_GENERATE)%N with true in E. cbv iota beta in E. cbn [m_mode m_enc m_taglen m_datalen] in E. rewrite ?K2, ?K3 in E.
  specialize (Hs (v_buf (m_iv P m2)) (m_taglen P m2) (m_datalen P m2)).
  match type of E with context [pr_start ?a ?b ?c ?d ?e ?f ?g] => destruct (pr_start a b c d e f g); [|done] end.
  apply pair_equal_spec in E as [_ E]. discriminate E.
Qed.

(* After a message whose IV could not be generated, because the counter has no value left, no other message is taken,
   not even one that brings its own IV: the operation keeps saying that a message is under way.
   msg_encrypt_new, src/ossl/aes.rs:546-590. *)
Theorem C45_stuck_refuted :
  exists l c, let m := fst (mrun toy_prim enc0 l) in
  all_ok (snd (mrun toy_prim enc0 [c])) /\ o_res (snd (mstep toy_prim m c)) = Err CKR_OPERATION_ACTIVE.
Proof.
  exists (repeat (one iv12 95 CKG_GENERATE_COUNTER [1; 2; 3]%N) 3), (one iv12 0 CKG_NO_GENERATE [1]%N). cbv zeta. split.
  - apply oks_all. by vm_compute.
  - by vm_compute.
Qed.
