(* C44: an IV made by the token is never made twice within one message-based encryption. *)
From Verif Require Import MsgSpec MsgFacts.
From Coq Require Import Arith.
Local Open Scope N_scope.

Section Iv.
Variable P : prim.

Definition limit (g : N) : N := if 64 <=? g then 2 ^ 64 - 1 else 2 ^ g.
Lemma limit_le g : limit g <= 2 ^ g /\ limit g < 2 ^ 64 /\ 0 < limit g.
Proof.
  unfold limit. destruct (N.leb_spec 64 g) as [H|H].
  - pose proof (N.pow_le_mono_r 2 64 g ltac:(lia) H). lia.
  - pose proof (N.pow_lt_mono_r 2 g 64 ltac:(lia) H). pose proof (N.pow_nonzero 2 g ltac:(lia)). lia.
Qed.

(* The operation encrypts, and its counter has not passed the limit it works with. *)
Definition iv_inv (g : N) (m : mop P) : Prop :=
  m_enc P m = true /\ (v_count (m_iv P m) = 0 \/ v_max (m_iv P m) = limit g).

Lemma gen_limit_is g v : (v_count v = 0 \/ v_max v = limit g) -> N.of_nat (gen_bits v) = g -> gen_limit v = limit g.
Proof.
  intros Hc Hg. unfold gen_limit, limit. destruct (N.eqb_spec (v_count v) 0) as [E|E]; [|destruct Hc; [done|]].
  - rewrite N.shiftl_1_l, Hg. destruct (Nat.leb_spec 64 (gen_bits v)), (N.leb_spec 64 g); try done; lia.
  - by unfold limit in *.
Qed.

(* What generate_iv does, from the outside. *)
Lemma generate_iv_is g v rnd v' r : generate_iv v rnd = (v', r) -> (v_count v = 0 \/ v_max v = limit g) -> N.of_nat (gen_bits v) = g ->
  (v_max v' = limit g \/ v_count v' = 0) /\ v_count v <= v_count v' /\
  (r = Ok tt -> v_count v < limit g /\ v_count v' = v_count v + 1 /\
    (((v_gen v =? CKG_GENERATE) || (v_gen v =? CKG_GENERATE_COUNTER)) = true -> v_buf v' = gen_counter v) /\
    (v_gen v = CKG_GENERATE_COUNTER_XOR -> v_buf v' = gen_xor v)).
Proof.
  intros E Hc Hg. unfold generate_iv in E. cbv zeta in E. rewrite (gen_limit_is g v Hc Hg) in E. cbn [v_buf v_fixed v_gen v_count v_max] in E.
  destruct (N.leb_spec (limit g) (v_count v)) as [Hl|Hl].
  { injection E as <- <-. cbn [v_buf v_fixed v_gen v_count v_max]. split; [by left|]. split; [lia|]. done. }
  destruct ((v_gen v =? CKG_GENERATE) || (v_gen v =? CKG_GENERATE_COUNTER)) eqn:E1.
  { injection E as <- <-. cbn [v_buf v_fixed v_gen v_count v_max]. split; [by left|]. split; [lia|]. intros _. split; [done|]. split; [done|].
    split; [intros _; done|]. intros X. rewrite X in E1. done. }
  destruct (N.eqb_spec (v_gen v) CKG_GENERATE_COUNTER_XOR) as [E2|E2].
  { injection E as <- <-. cbn [v_buf v_fixed v_gen v_count v_max]. split; [by left|]. split; [lia|]. intros _. split; [done|]. split; [done|]. done. }
  destruct (v_gen v =? CKG_GENERATE_RANDOM); [destruct rnd as [x|]|]; injection E as <- <-; cbn [v_buf v_fixed v_gen v_count v_max];
    (split; [by left|]); (split; [lia|]); done.
Qed.

(* What starting a message does to the IV data. *)
Lemma begin_is g m p aad rnd m' r : iv_inv g m -> msg_begin P m p aad rnd = (m', r) ->
  (forall q b, p = Some q -> q_iv q = Some b -> q_gen q <> CKG_NO_GENERATE -> free_bits q = g) ->
  iv_inv g m' /\ v_count (m_iv P m) <= v_count (m_iv P m') /\
  (forall iv, r = Ok iv -> exists q b, p = Some q /\ q_iv q = Some b /\
    (q_gen q <> CKG_NO_GENERATE -> let v := Ivd b (N.to_nat (q_fixed q)) (q_gen q) (v_count (m_iv P m)) (v_max (m_iv P m)) in
      v_count v < limit g /\ N.of_nat (gen_bits v) = g /\ (0 < gen_bits v)%nat /\ v_count (m_iv P m') = v_count v + 1 /\
      (wants_counter q = true -> iv = gen_counter v) /\ (wants_xor q = true -> iv = gen_xor v))).
Proof.
  intros [He Hc] E Hb. unfold msg_begin in E.
  assert (Hsame : iv_inv g m /\ v_count (m_iv P m) <= v_count (m_iv P m)) by (split; [by split|lia]).
  destruct (m_final P m); [injection E as <- <-; destruct Hsame; done|].
  destruct (m_used P m); [injection E as <- <-; destruct Hsame; done|].
  destruct (init_msg P m p aad) as [m1|e] eqn:Ei; [|injection E as <- <-; destruct Hsame; done].
  destruct p as [q|]; [|discriminate Ei].
  assert (Hi : exists b, q_iv q = Some b /\ m_enc P m1 = true /\ gen_checks q (length b) = true /\
    m_iv P m1 = Ivd b (N.to_nat (q_fixed q)) (q_gen q) (v_count (m_iv P m)) (v_max (m_iv P m))).
  { unfold init_msg, new_iv in Ei. rewrite He in Ei. cbv zeta in Ei. destruct (q_iv q) as [b|]; [|by destruct (m_mode P m); discriminate Ei]. exists b.
    destruct (gen_checks q (length b)) eqn:Eg; cbn [negb andb] in Ei.
    - destruct (m_mode P m); repeat match type of Ei with context [if ?x then _ else _] => destruct x; try discriminate Ei end;
        try discriminate Ei; injection Ei as <-; done.
    - destruct (m_mode P m); repeat match type of Ei with context [if ?x then _ else _] => destruct x; try discriminate Ei end; discriminate Ei. }
  clear Ei. destruct Hi as (b & Hq & He1 & Hg & Hv). cbv zeta in E. cbn [m_iv m_mode m_enc m_aad m_datalen m_taglen m_ctx m_buf] in E.
  rewrite Hv in E. cbn [v_gen] in E. specialize (Hb q b eq_refl Hq).
  set (v := Ivd b (N.to_nat (q_fixed q)) (q_gen q) (v_count (m_iv P m)) (v_max (m_iv P m))) in *.
  destruct (N.eqb_spec (q_gen q) CKG_NO_GENERATE) as [Hn|Hn].
  - assert (Hm : iv_inv g m' /\ v_count (m_iv P m) <= v_count (m_iv P m')).
    { destruct (pr_start P _ _ _ _ _ _); injection E as <- <-; (split; [|cbn; lia]); (split; [done|]); exact Hc. }
    destruct Hm as [Hm1 Hm2]. split; [done|]. split; [done|]. intros iv ->. exists q, b. done.
  - assert (Hbits : N.of_nat (gen_bits v) = g /\ (0 < gen_bits v)%nat).
    { specialize (Hb Hn). unfold free_bits in Hb. rewrite Hq in Hb. unfold gen_bits, v, blen in *. cbn [v_buf v_fixed].
      unfold gen_checks in Hg. assert (q_gen q =? CKG_NO_GENERATE = false) as Hn' by lia. rewrite Hn' in Hg. cbn [negb andb] in Hg. lia. }
    destruct Hbits as [Hb1 Hb2].
    destruct (generate_iv v rnd) as [v' r1] eqn:Eg. destruct (generate_iv_is g v rnd v' r1 Eg Hc Hb1) as (G1 & G2 & G3).
    assert (Hm : m_enc P m' = true /\ m_iv P m' = v' /\ (forall iv, r = Ok iv -> r1 = Ok tt /\ iv = v_buf v')).
    { destruct r1 as [[]|e]; [|injection E as <- <-; done].
      destruct (pr_start P _ _ _ _ _ _); injection E as <- <-; (split; [done|]); (split; [done|]); [|done].
      intros iv X. injection X as <-. done. }
    destruct Hm as (Hm1 & Hm2 & Hm3). rewrite Hm2. split; [split; [done|]; rewrite Hm2; tauto|]. split; [exact G2|].
    intros iv Hr. exists q, b. split; [done|]. split; [done|]. intros _. cbv zeta. destruct (Hm3 iv Hr) as [H1 ->].
    destruct (G3 H1) as (G4 & G5 & G6 & G7). split; [exact G4|]. split; [exact Hb1|]. split; [exact Hb2|].
    split; [exact G5|]. split; [exact G6|]. intros X. apply G7. unfold wants_xor in X. cbn [v_gen v]. apply N.eqb_eq in X. exact X.
Qed.

(* The other calls leave the IV data alone. *)
Ltac keep := repeat match goal with
  | |- context [match ?x with _ => _ end] => destruct x eqn:?; try done
  end.
Lemma check_keeps m p : m_iv P (fst (check_msg P m p)) = m_iv P m /\ m_enc P (fst (check_msg P m p)) = m_enc P m.
Proof. unfold check_msg, m_fatal. keep. Qed.
Lemma next_keeps m p d room : m_iv P (fst (msg_next P m p d room)) = m_iv P m /\ m_enc P (fst (msg_next P m p d room)) = m_enc P m.
Proof.
  unfold msg_next. destruct (m_final P m); [done|]. destruct (negb (m_used P m)); [done|].
  pose proof (check_keeps m p) as [<- <-]. destruct (check_msg P m p) as [m1 [t|e]]; [|done]. cbn [fst].
  unfold m_fatal. keep.
Qed.
Lemma final_keeps m p d room : m_iv P (fst (msg_final P m p d room)) = m_iv P m /\ m_enc P (fst (msg_final P m p d room)) = m_enc P m.
Proof.
  unfold msg_final. destruct (m_enc P m) eqn:He; rewrite <- He.
  - unfold enc_msg_final. destruct (m_final P m); [done|]. destruct (negb (m_used P m)); [done|]. cbv zeta.
    destruct (_ && negb _); [done|]. destruct (_ && (_ <? _)%nat); [done|].
    pose proof (check_keeps m p) as [<- <-]. destruct (check_msg P m p) as [m1 [t|e]]; [|done]. cbn [fst].
    match goal with |- context [let '(m, r) := ?X in _] => assert (HX : m_iv P (fst X) = m_iv P m1 /\ m_enc P (fst X) = m_enc P m1); [|destruct X as [m2 r2]] end.
    + destruct (m_mode P m1); try apply next_keeps. unfold m_fatal. keep.
    + cbn [fst] in HX. destruct HX as [<- <-]. keep.
  - unfold dec_msg_final. destruct (m_final P m); [done|]. destruct (negb (m_used P m)); [done|].
    pose proof (check_keeps m p) as [<- <-]. destruct (check_msg P m p) as [m1 [t|e]]; [|done]. cbn [fst]. cbv zeta.
    destruct (_ && negb _); [done|]. destruct (_ && (_ <? _)%nat); [done|].
    destruct t as [t|]; [|done]. destruct (m_ctx P m1) as [| |x]; try done.
    set (m2 := m_set P m1 _ _). change (m_iv P m1) with (m_iv P m2). change (m_enc P m1) with (m_enc P m2).
    pose proof (next_keeps m2 p d room) as HX.
    destruct (m_mode P m2); try (destruct (msg_next P m2 p d room) as [m3 r3]; cbn [fst] in HX; destruct HX as [<- <-]; destruct r3; [|done]; keep).
    destruct (cx_update P _ _ _) as [[x1 o]|]; done.
Qed.

Lemma step_is g m c m' o : iv_inv g m -> mstep P m c = (m', o) ->
  (forall q b, param_of c = Some q -> q_iv q = Some b -> q_gen q <> CKG_NO_GENERATE -> free_bits q = g) ->
  iv_inv g m' /\ v_count (m_iv P m) <= v_count (m_iv P m') /\
  (forall iv, o_iv o = Some iv -> exists q b, param_of c = Some q /\ q_iv q = Some b /\
    (q_gen q <> CKG_NO_GENERATE -> let v := Ivd b (N.to_nat (q_fixed q)) (q_gen q) (v_count (m_iv P m)) (v_max (m_iv P m)) in
      v_count v < limit g /\ N.of_nat (gen_bits v) = g /\ (0 < gen_bits v)%nat /\ v_count (m_iv P m') = v_count v + 1 /\
      (wants_counter q = true -> iv = gen_counter v) /\ (wants_xor q = true -> iv = gen_xor v))).
Proof.
  intros Hi E Hb. destruct c as [p aad rnd|p d room|p d room|p aad rnd d room|]; cbn [mstep param_of] in *.
  - destruct (msg_begin P m p aad rnd) as [m1 r] eqn:E1. destruct (begin_is g m p aad rnd m1 r Hi E1 Hb) as (B1 & B2 & B3).
    destruct r as [iv|e]; injection E as <- <-; (split; [done|]); (split; [done|]); intros iv' X; [|done].
    injection X as <-. by apply B3.
  - assert (Hk : m_iv P m' = m_iv P m /\ m_enc P m' = m_enc P m /\ o_iv o = None).
    { destruct (negb (m_used P m)); [injection E as <- <-; done|]. pose proof (next_keeps m p d room) as [K1 K2].
      destruct (msg_next P m p d room) as [m1 [x|e]]; injection E as <- <-; done. }
    destruct Hk as (K1 & K2 & K3). unfold iv_inv. rewrite K1, K2, K3. split; [exact Hi|]. split; [lia|]. done.
  - assert (Hk : m_iv P m' = m_iv P m /\ m_enc P m' = m_enc P m /\ o_iv o = None).
    { destruct (negb (m_used P m)); [injection E as <- <-; done|]. pose proof (final_keeps m p d room) as [K1 K2]. rewrite E in K1, K2.
      split; [done|]. split; [done|]. clear -E. revert E. unfold msg_final, enc_msg_final, dec_msg_final, o_err.
      intros E. repeat match type of E with context [match ?x with _ => _ end] => destruct x end; injection E as <- <-; done. }
    destruct Hk as (K1 & K2 & K3). unfold iv_inv. rewrite K1, K2, K3. split; [exact Hi|]. split; [lia|]. done.
  - destruct (m_used P m); [injection E as <- <-; split; [done|]; split; [lia|done]|].
    destruct (msg_begin P m p aad rnd) as [m1 r] eqn:E1. destruct (begin_is g m p aad rnd m1 r Hi E1 Hb) as (B1 & B2 & B3).
    destruct r as [iv|e]; [|injection E as <- <-; done].
    pose proof (final_keeps m1 p d room) as [K1 K2]. destruct (msg_final P m1 p d room) as [m2 o2]. cbn [fst] in K1, K2.
    injection E as <- <-. unfold iv_inv. rewrite K1, K2. split; [exact B1|]. split; [exact B2|]. cbn [o_iv]. intros iv' X. injection X as <-.
    by apply B3.
  - unfold msg_finalize in E. destruct (m_used P m); injection E as <- <-; (split; [exact Hi|]); (split; [cbn; lia|done]).
Qed.

(* Whatever tells the counter from an IV tells the IVs apart. *)
Lemma run_distinct g sel f : (forall q, sel q = true -> q_gen q <> CKG_NO_GENERATE) -> forall l m,
  iv_inv g m -> same_bits g l ->
  (forall c q b n mx iv, In c l -> param_of c = Some q -> q_iv q = Some b -> sel q = true ->
    let v := Ivd b (N.to_nat (q_fixed q)) (q_gen q) n mx in
    n < limit g -> N.of_nat (gen_bits v) = g -> (0 < gen_bits v)%nat ->
    (wants_counter q = true -> iv = gen_counter v) -> (wants_xor q = true -> iv = gen_xor v) -> f iv = n) ->
  base.NoDup (issued sel (snd (mrun P m l))) /\ forall iv, iv ∈ issued sel (snd (mrun P m l)) -> v_count (m_iv P m) <= f iv.
Proof.
  intros Hsel l. induction l as [|c l IH]; intros m Hi Hs Hf; [split; [constructor|intros iv H; by apply elem_of_nil in H]|].
  cbn [mrun]. destruct (mstep P m c) as [m1 o] eqn:E1.
  destruct (step_is g m c m1 o Hi E1) as (S1 & S2 & S3).
  { intros q b Hp Hq. apply (Hs c q b); [by left|done|done]. }
  destruct (IH m1 S1) as [I1 I2].
  { intros c' q b Hc. apply Hs. by right. }
  { intros c' q b n mx iv Hc. apply (Hf c'). by right. }
  destruct (mrun P m1 l) as [m2 tr]. cbn [snd] in *. unfold issued. cbn [omap list_omap]. fold (issued sel tr).
  destruct (param_of c) as [q|] eqn:Hp; [|split; [done|intros iv H; pose proof (I2 iv H); lia]].
  destruct (sel q) eqn:Hq; [|split; [done|intros iv H; pose proof (I2 iv H); lia]].
  destruct (o_iv o) as [iv|] eqn:Ho; [|split; [done|intros iv H; pose proof (I2 iv H); lia]].
  destruct (S3 iv eq_refl) as (q' & b & X & Hb & HS). injection X as <-. cbv zeta in HS.
  destruct (HS (Hsel q Hq)) as (H1 & H2 & H3 & H4 & H5 & H6). cbn [v_count] in *.
  assert (Hfi : f iv = v_count (m_iv P m)).
  { apply (Hf c q b _ (v_max (m_iv P m)) iv); try done. by left. }
  split.
  - constructor; [|done]. intros X. pose proof (I2 iv X). lia.
  - intros iv' X. apply elem_of_cons in X as [->|X]; [lia|]. pose proof (I2 iv' X). lia.
Qed.

Lemma init_inv g mode : iv_inv g (msg_init P mode true).
Proof. split; [done|]. by left. Qed.

(* In one encryption operation, whatever messages it encrypts, completes, fails or abandons, two IVs made with a
   counter differ, as long as every message leaves the token the same number of bits. *)
Theorem C44_counter_partial mode g l :
  same_bits g l -> base.NoDup (issued wants_counter (snd (mrun P (msg_init P mode true) l))).
Proof.
  intros Hs. refine (proj1 (run_distinct g wants_counter (fun iv => unbe iv mod 2 ^ g) _ l _ (init_inv g mode) Hs _)).
  - intros q Hq X. unfold wants_counter in Hq. rewrite X in Hq. done.
  - intros c q b n mx iv Hc Hp Hq Hw v Hn Hg H0 Hi _. rewrite (Hi Hw). destruct (Hs c q b Hc Hp Hq) as [Ho _].
    destruct (limit_le g) as (L1 & L2 & _).
    destruct (gen_counter_val v H0 Ho) as (V & _ & _); [cbn [v_count v]; lia|cbn [v_count v]; rewrite Hg; lia|].
    rewrite V, Hg. cbn [v_count v]. rewrite N.add_comm, N.mod_add by (apply N.pow_nonzero; lia). apply N.mod_small. lia.
Qed.

(* With a counter added by XOR the same holds if the application restores its buffer before every message. *)
Theorem C44_xor_partial mode g base l :
  same_bits g l -> same_base base l -> base.NoDup (issued wants_xor (snd (mrun P (msg_init P mode true) l))).
Proof.
  intros Hs Hbase. refine (proj1 (run_distinct g wants_xor (fun iv => N.lxor (unbe base) (unbe iv)) _ l _ (init_inv g mode) Hs _)).
  - intros q Hq X. unfold wants_xor in Hq. rewrite X in Hq. done.
  - intros c q b n mx iv Hc Hp Hq Hw v Hn Hg H0 _ Hi. rewrite (Hi Hw). destruct (Hs c q b Hc Hp Hq) as [Ho _].
    pose proof (Hbase c q Hc Hp Hw) as Hb. rewrite Hq in Hb. injection Hb as ->.
    destruct (limit_le g) as (L1 & L2 & _).
    destruct (gen_xor_val v H0 Ho) as (V & _); [cbn [v_count v]; lia|cbn [v_count v]; rewrite Hg; lia|].
    rewrite V. cbn [v_count v_buf v]. by rewrite <- N.lxor_assoc, N.lxor_nilpotent, N.lxor_0_l.
Qed.

(* The token changes only the bits left to it. *)
Theorem C44_fixed_bits mode g l c q b o iv :
  same_bits g l -> In (c, o) (snd (mrun P (msg_init P mode true) l)) ->
  param_of c = Some q -> q_iv q = Some b -> wants_counter q = true -> o_iv o = Some iv -> same_top g iv b.
Proof.
  intros Hs. pose proof (init_inv g mode) as Hi. revert Hi Hs. generalize (msg_init P mode true) as m. clear mode.
  induction l as [|c' l IH]; intros m Hi Hs Hin Hp Hq Hw Ho; [done|]. cbn [mrun] in Hin.
  destruct (mstep P m c') as [m1 o'] eqn:E1.
  destruct (step_is g m c' m1 o' Hi E1) as (S1 & S2 & S3).
  { intros q' b' Hp' Hq'. apply (Hs c' q' b'); [by left|done|done]. }
  destruct (mrun P m1 l) as [m2 tr] eqn:Er. cbn [snd] in *. destruct Hin as [X|Hin].
  - injection X as -> ->. destruct (S3 iv Ho) as (q' & b' & X & Hb & HS). rewrite Hp in X. injection X as <-.
    rewrite Hq in Hb. injection Hb as <-. cbv zeta in HS.
    destruct HS as (H1 & H2 & H3 & H4 & H5 & H6); [intros X; unfold wants_counter in Hw; rewrite X in Hw; done|].
    rewrite (H5 Hw). destruct (Hs c q b) as [Hok _]; [by left|done|done|].
    destruct (limit_le g) as (L1 & L2 & _). set (v := Ivd b _ _ _ _) in *.
    destruct (gen_counter_val v H3 Hok) as (V & V2 & _); [lia|rewrite H2; lia|].
    split; [exact V2|]. rewrite V, H2. rewrite N.div_add_l by (apply N.pow_nonzero; lia). rewrite (N.div_small (v_count v)) by lia.
    cbn [v_buf v]. lia.
  - apply (IH m1 S1); try done.
    + intros c0 q0 b0 Hc. apply Hs. by right.
    + by rewrite Er.
Qed.
End Iv.
