(* C39: the counters of one-time passwords. *)
From Verif Require Export Hotp ThmMac KdfFacts Attr Factory Tables.
From Coq Require Import Arith Sorted.
From stdpp Require Import gmap.
Local Open Scope nat_scope.

(* RFC 4226, 5.3: the last 31 bits of the four bytes found at the offset in the last four bits of the MAC, modulo 10^d,
   as d decimal digits. *)
Definition snum (mac : bytes) : N :=
  let off := N.to_nat (byte_of mac (length mac - 1) mod 16) in
  (unbe (firstn 4 (skipn off mac)) mod 2 ^ 31)%N.
Definition digits (d : nat) (x : N) : bytes := map (fun i => (48 + x / 10 ^ N.of_nat (d - 1 - i) mod 10)%N) (seq 0 d).
Definition rfc4226 (mac : bytes -> bytes) (d : nat) (c : N) : bytes :=
  digits d (snum (mac (be 8 c)) mod 10 ^ N.of_nat d)%N.
Definition hash_bytes (H : hash) : Prop := forall s, bytesok (h_fin H s).

Lemma dec_digits d : forall x, dec d x = digits d x.
Proof.
  induction d as [|d IH]; intros x; [done|]. cbn [dec]. rewrite IH. unfold digits. rewrite seq_S, map_app. cbn [map Nat.add].
  f_equal.
  - apply map_ext_in. intros i Hi. apply in_seq in Hi. f_equal. rewrite N.div_div by (try apply N.pow_nonzero; lia).
    f_equal. f_equal. rewrite <- N.pow_succ_r by lia. f_equal. lia.
  - replace (S d - 1 - d) with 0 by lia. change (10 ^ N.of_nat 0)%N with 1%N. by rewrite N.div_1_r.
Qed.
Lemma unbe_top a r : bytesok r -> length r = 3 -> unbe (N.land a 127 :: r) = (unbe (a :: r) mod 2 ^ 31)%N.
Proof.
  intros Hr Hl. unfold unbe. cbn [rev].
  assert (X : forall l x, unle (l ++ [x]) = (unle l + 256 ^ N.of_nat (length l) * x)%N).
  { induction l as [|y l IH]; intros x; cbn [app unle length]; [change (256 ^ N.of_nat 0)%N with 1%N; lia|].
    rewrite IH. rewrite Nat2N.inj_succ, N.pow_succ_r by lia. lia. }
  rewrite !X, rev_length, Hl. change (256 ^ N.of_nat 3)%N with (2 ^ 24)%N.
  assert (Hb : (unle (rev r) < 2 ^ 24)%N).
  { pose proof (unle_bound (rev r)) as B. rewrite rev_length, Hl in B. apply B. by apply Forall_rev. }
  change 127%N with (N.ones 7). rewrite N.land_ones. rewrite (N.div_mod a (2 ^ 7)) at 2 by done.
  replace (unle (rev r) + 2 ^ 24 * (2 ^ 7 * (a / 2 ^ 7) + a mod 2 ^ 7))%N with
    (unle (rev r) + 2 ^ 24 * (a mod 2 ^ 7) + (a / 2 ^ 7) * 2 ^ 31)%N by (change (2 ^ 31)%N with (2 ^ 24 * 2 ^ 7)%N; lia).
  rewrite N.mod_add by done. symmetry. apply N.mod_small. pose proof (N.mod_upper_bound a (2 ^ 7)).
  change (2 ^ 31)%N with (2 ^ 24 * 2 ^ 7)%N. nia.
Qed.

Section facts.
Context (H : hash) (HH : hash_ok H) (HB : hash_bytes H) (HS : 20 <= h_size H) (val : bytes).
Notation mac := (hmac_of H val).
Definition fresh_mac (m : hmac H) : Prop := hmac_new H val (h_size H) = Ok m.
Definition same_key (m : hmac H) : Prop := m_key H m = val /\ m_out H m = h_size H.
Lemma once_is m c : fresh_mac m -> exists m', hmac_once H m c (h_size H) = (m', Ok (mac c)) /\ same_key m'.
Proof using HH HS.
  intros Hm. unfold fresh_mac in Hm. destruct (hmac_new_ok H HH val (h_size H)) as (m0 & E & E0). rewrite E in Hm. apply ok_inj in Hm as <-.
  destruct (hmac_computes H val HH) as [HF _]; [lia|]. destruct (cm_new _ _ _ HF) as (m1 & E1 & _ & E2).
  cbn [hmac_macop f_new] in E1. rewrite E in E1. apply ok_inj in E1 as <-. specialize (E2 c). cbn [hmac_macop f_once f_len] in E2.
  destruct (hmac_once H m0 c (h_size H)) as [m' r] eqn:E3. cbn [snd] in E2. subst r. exists m'. split; [done|].
  assert (X : m0 = hmac_at H val (h_size H) false []) by (rewrite E0; unfold hmac_at; by rewrite app_nil_r).
  unfold hmac_once in E3. rewrite X in E3. change (m_used H (hmac_at H val (h_size H) false [])) with false in E3. cbv iota in E3.
  rewrite hmac_step in E3 by done. pose proof (hmac_fin_key H val (h_size H) true ([] ++ c) HH) as Y. rewrite E3 in Y. exact Y.
Qed.
Lemma reset_is m : same_key m -> exists m', hmac_reset H m = Ok m' /\ fresh_mac m'.
Proof using HH.
  intros [E1 E2]. unfold hmac_reset, fresh_mac. rewrite E1, E2. destruct (hmac_new_ok H HH val (h_size H)) as (m0 & E & _).
  exists m0. unfold hmac_new, dig_reset in *. rewrite E. done.
Qed.
Lemma gen_is m d c : fresh_mac m -> 6 <= d <= 8 -> exists m', same_key m' /\
  generate_otp H m d (be 8 c) = (m', Ok (rfc4226 mac d c)).
Proof using HH HB HS.
  intros Hm Hd. destruct (once_is m (be 8 c) Hm) as (m' & E & Hk). exists m'. split; [done|]. unfold generate_otp. rewrite E. cbv zeta.
  assert (Hlen : length (mac (be 8 c)) = h_size H) by (by apply hmac_len).
  assert (Hbytes : bytesok (mac (be 8 c))) by apply HB.
  set (M := mac (be 8 c)) in *.
  assert (Ev : unbe (match firstn 4 (skipn (N.to_nat (N.land (nth (h_size H - 1) M 0%N) 15)) M) with [] => [] | x :: r => N.land x 127 :: r end) = snum M).
  { unfold snum, byte_of. rewrite Hlen. change 15%N with (N.ones 4). rewrite N.land_ones. change (2 ^ 4)%N with 16%N. cbv zeta.
    set (off := N.to_nat (nth (h_size H - 1)%nat M 0%N mod 16)).
    assert (Ho : off < 16). { subst off. pose proof (N.mod_upper_bound (nth (h_size H - 1) M 0%N) 16). lia. }
    assert (Hl : length (firstn 4 (skipn off M)) = 4) by (rewrite firstn_length, skipn_length; lia).
    assert (Hf : bytesok (firstn 4 (skipn off M))) by (apply Forall_take, Forall_drop, Hbytes).
    destruct (firstn 4 (skipn off M)) as [|x r]; [discriminate Hl|]. cbn [length] in Hl. apply List.Forall_cons_iff in Hf as [_ Hf].
    apply unbe_top; [done|lia]. }
  rewrite Ev. unfold rfc4226. fold M.
  assert (d = 6 \/ d = 7 \/ d = 8) as [-> | [-> | ->]] by lia; rewrite dec_digits; done.
Qed.
Lemma tries_is n d : 6 <= d <= 8 -> forall first m c sig r m', (if first : bool then fresh_mac m else same_key m) -> (c + N.of_nat n < 2 ^ 64)%N ->
  hotp_tries H n first m d c sig = (m', r) ->
  match r with
  | Ok c' => (c <= c' < c + N.of_nat n)%N /\ sig = rfc4226 mac d c' /\ forall x, (c <= x < c')%N -> sig <> rfc4226 mac d x
  | Err e => e = CKR_SIGNATURE_INVALID /\ forall x, (c <= x < c + N.of_nat n)%N -> sig <> rfc4226 mac d x
  end.
Proof using HH HB HS.
  intros Hd. induction n as [|n IH]; intros first m c sig r m' Hm Hc E; cbn [hotp_tries] in E.
  - injection E as <- <-. split; [done|]. intros x Hx. lia.
  - assert (exists m1, (if first then Ok m else hmac_reset H m) = Ok m1 /\ fresh_mac m1) as (m1 & E1 & Hm1).
    { destruct first; [by exists m|by apply reset_is]. }
    rewrite E1 in E. destruct (gen_is m1 d c Hm1 Hd) as (m2 & Hm2 & E2). rewrite E2 in E.
    destruct (bool_decide (sig = rfc4226 mac d c)) eqn:Eb.
    + apply bool_decide_eq_true in Eb. injection E as <- <-. split; [lia|]. split; [done|]. intros x Hx. lia.
    + apply bool_decide_eq_false in Eb. assert (En : next_ctr c = (c + 1)%N) by (unfold next_ctr; apply N.mod_small; lia).
      rewrite En in E. apply IH in E; [|done|lia]. destruct r as [c'|e].
      * destruct E as (X1 & X2 & X3). split; [lia|]. split; [done|]. intros x Hx. destruct (decide (x = c)) as [-> |]; [done|]. apply X3. lia.
      * destruct E as (X1 & X2). split; [done|]. intros x Hx. destruct (decide (x = c)) as [-> |]; [done|]. apply X2. lia.
Qed.
End facts.

(* A history in which no operation with the key is begun while another one is open, no call gives a counter, no call
   sets it, and the database takes every new counter. *)
Definition open_in {H} (st : hst H) : Prop := exists i o, hs_ops st !! i = Some o /\ p_done o = false.
Fixpoint one_by_one {H} (st : hst H) (l : list hcall) : Prop :=
  match l with
  | [] => True
  | c :: l =>
    match c with
    | HInit _ _ over => ~ open_in st /\ over = None
    | HSign _ _ _ wr => wr = true
    | HVerify _ _ _ wr => wr = true
    | HCancel _ _ => True
    | HSet _ => False
    end /\ one_by_one (fst (fst (hstep H st c))) l
  end.
Definition ev_ctr (e : hevent) : N := match e with Gen c _ | Acc c _ => c end.
Definition ev_otp (e : hevent) : bytes := match e with Gen _ v | Acc _ v => v end.

Section run.
Context (H : hash) (HH : hash_ok H) (HB : hash_bytes H) (HS : 20 <= h_size H) (val : bytes) (d : nat) (Hd : 6 <= d <= 8).
(* The key has counter [n]; an open operation has that counter, and there is at most one. *)
Record hinv (st : hst H) (n : N) : Prop := {
  hi_ctr : k_ctr (hs_key st) = be 8 n;
  hi_val : k_val (hs_key st) = val; hi_dig : k_digits (hs_key st) = d;
  hi_op : forall i o, hs_ops st !! i = Some o -> p_done o = false ->
    fresh_mac H val (p_hmac o) /\ p_ctr o = be 8 n /\ p_len o = d /\ p_update o = Some false /\
    forall j o', hs_ops st !! j = Some o' -> p_done o' = false -> j = i }.
Lemma be8 n : (n < 2 ^ 64)%N -> unbe (be 8 n) = n.
Proof using Type. intros Hn. apply unbe_be. exact Hn. Qed.
Lemma hinv_set st n i o k : hinv st n -> p_done o = true ->
  k_ctr k = be 8 n -> k_val k = val -> k_digits k = d -> hinv (HSt k (<[i := o]> (hs_ops st))) n.
Proof using Type.
  intros Hi Hdn K1 K2 K3. constructor; cbn [hs_key hs_ops]; try done. intros j o1 Hj Ho. apply lookup_insert_Some in Hj as [[<- <-]|[Hne Hj]]; [congruence|].
  destruct (hi_op _ _ Hi j o1 Hj Ho) as (X1 & X2 & X3 & X4 & X5). split_and!; try done.
  intros j2 o2 Hj2 Ho2. apply lookup_insert_Some in Hj2 as [[<- <-]|[Hne2 Hj2]]; [congruence|]. by apply (X5 j2 o2).
Qed.
(* When the one open operation ends, any counter will do. *)
Lemma hinv_end st n n' i o0 o k : hinv st n -> hs_ops st !! i = Some o0 -> p_done o0 = false -> p_done o = true ->
  k_ctr k = be 8 n' -> k_val k = val -> k_digits k = d -> hinv (HSt k (<[i := o]> (hs_ops st))) n'.
Proof using Type.
  intros Hi Hi0 Ho0 Hdn K1 K2 K3. constructor; cbn [hs_key hs_ops]; try done. intros j o1 Hj Ho.
  apply lookup_insert_Some in Hj as [[<- <-]|[Hne Hj]]; [congruence|].
  destruct (hi_op _ _ Hi i o0 Hi0 Ho0) as (_ & _ & _ & _ & X5). specialize (X5 j o1 Hj Ho). congruence.
Qed.
Lemma step_inv st n c st' rv es : hinv st n -> (n + 6 < 2 ^ 64)%N -> one_by_one st [c] -> hstep H st c = (st', rv, es) ->
  exists n', hinv st' n' /\ (n <= n' <= n + 5)%N /\
    Forall (fun e => (n <= ev_ctr e < n')%N /\ ev_otp e = rfc4226 (hmac_of H val) d (ev_ctr e)) es /\ length es <= 1.
Proof using HH HB HS Hd.
  intros Hi Hn H1 E. cbn [one_by_one] in H1. destruct H1 as [H1 _].
  assert (Same : es = [] -> st' = st -> exists n', hinv st' n' /\ (n <= n' <= n + 5)%N /\
    Forall (fun e => (n <= ev_ctr e < n')%N /\ ev_otp e = rfc4226 (hmac_of H val) d (ev_ctr e)) es /\ length es <= 1).
  { intros -> ->. exists n. split; [done|]. split; [lia|]. split; [constructor|]. cbn. lia. }
  destruct c as [s b over|s b|s dlen room wr|s dlen sig wr|v]; cbn [hstep] in E; [| | | |destruct H1].
  - destruct H1 as [Hno ->].
    assert (E' : (match hotp_new H (hs_key st) None with Err e => (st, e, []) | Ok o => (HSt (hs_key st) (<[(s, b) := o]> (hs_ops st)), CKR_OK, []) end) = (st', rv, es)).
    { destruct (hs_ops st !! (s, b)) as [[m c0 l0 dn up]|] eqn:Eo; [|done]. destruct dn; [done|]. exfalso. apply Hno. by exists (s, b), (Hop m c0 l0 false up). }
    clear E. rename E' into E. destruct (hotp_new H (hs_key st) None) as [o|e] eqn:En; [|injection E as <- <- <-; by apply Same].
    unfold hotp_new in En. cbv zeta in En. destruct (k_req _ =? _)%N; [discriminate En|]. destruct (negb _); [discriminate En|].
    destruct (negb _); [discriminate En|]. rewrite (hi_val _ _ Hi) in En. destruct (hmac_new H val (h_size H)) as [m|e] eqn:Em; [|discriminate En].
    apply ok_inj in En. injection E as <- <- <-. exists n. split; [|split; [lia|split; [constructor|cbn; lia]]].
    constructor; cbn [hs_key hs_ops]; try apply Hi. intros i o1 Hi1 Ho1. apply lookup_insert_Some in Hi1 as [[<- <-]|[Hne Hi1]].
    + rewrite <- En. cbn [p_hmac p_ctr p_len p_update]. split_and!; try done; try apply Hi.
      intros j o' Hj Ho'. apply lookup_insert_Some in Hj as [[<- _]|[_ Hj]]; [done|]. exfalso. apply Hno. by exists j, o'.
    + exfalso. apply Hno. by exists i, o1.
  - injection E as <- <- <-. exists n. split; [|split; [lia|split; [constructor|cbn; lia]]]. constructor; cbn [hs_key hs_ops]; try apply Hi.
    intros i o Ho Hdn. apply lookup_delete_Some in Ho as [_ Ho]. destruct (hi_op _ _ Hi i o Ho Hdn) as (X1 & X2 & X3 & X4 & X5).
    split_and!; try done. intros j o' Hj. apply lookup_delete_Some in Hj as [_ Hj]. by apply (X5 j o').
  - subst wr. destruct (hs_ops st !! (s, true)) as [o|] eqn:Eo; [|injection E as <- <- <-; by apply Same].
    destruct room as [room|]; [|injection E as <- <- <-; by apply Same].
    destruct (room <? _); [injection E as <- <- <-; by apply Same|]. destruct (negb _); [injection E as <- <- <-; by apply Same|].
    unfold hotp_sign in E. destruct (p_done o) eqn:Edn.
    { injection E as <- <- <-. exists n. split; [|split; [lia|split; [constructor|cbn; lia]]]. apply hinv_set; try done; apply Hi. }
    destruct (hi_op _ _ Hi _ _ Eo Edn) as (X1 & X2 & X3 & X4 & X5). rewrite X2, X3, X4 in E.
    destruct (gen_is H HH HB HS val (p_hmac o) d n X1 Hd) as (m' & _ & Eg). rewrite Eg in E. cbn [stored hotp_updates p_update p_ctr] in E.
    injection E as <- <- <-. rewrite be8 by lia. assert (Enx : next_ctr n = (n + 1)%N) by (unfold next_ctr; apply N.mod_small; lia).
    rewrite Enx. exists (n + 1)%N. split; [|split; [lia|split]].
    + eapply hinv_end; try done; apply Hi.
    + constructor; [|constructor]. cbn [ev_ctr ev_otp]. split; [lia|done].
    + cbn. lia.
  - subst wr. destruct (hs_ops st !! (s, false)) as [o|] eqn:Eo; [|injection E as <- <- <-; by apply Same].
    destruct (negb _) eqn:El; [injection E as <- <- <-; by apply Same|]. destruct (negb (dlen =? 0)); [injection E as <- <- <-; by apply Same|].
    unfold hotp_verify in E. destruct (p_done o) eqn:Edn.
    { injection E as <- <- <-. exists n. split; [|split; [lia|split; [constructor|cbn; lia]]]. apply hinv_set; try done; apply Hi. }
    rewrite El in E. destruct (hi_op _ _ Hi _ _ Eo Edn) as (X1 & X2 & X3 & X4 & X5). rewrite X2, X3, X4 in E. rewrite be8 in E by lia.
    destruct (hotp_tries H 5 true (p_hmac o) d n sig) as [m' r] eqn:Et.
    pose proof (tries_is H HH HB HS val 5 d Hd true (p_hmac o) n sig r m' X1) as Y. specialize (Y ltac:(lia) Et).
    destruct r as [c'|e].
    + destruct Y as (Y1 & Y2 & Y3). assert (Enx : next_ctr c' = (c' + 1)%N) by (unfold next_ctr; apply N.mod_small; lia).
      rewrite Enx in E. cbn [stored hotp_updates p_update p_ctr] in E. change (CKR_OK =? CKR_OK)%N with true in E. injection E as <- <- <-.
      exists (c' + 1)%N. split; [|split; [lia|split]].
      * eapply hinv_end; try done; apply Hi.
      * constructor; [|constructor]. cbn [ev_ctr ev_otp]. split; [lia|done].
      * cbn. lia.
    + injection E as <- <- <-. exists n. split; [|split; [lia|split; [constructor|cbn; lia]]]. apply hinv_set; try done; apply Hi.
Qed.
Lemma run_inv l : forall st n st' es, hinv st n -> (n + 5 * N.of_nat (length l) + 1 < 2 ^ 64)%N -> one_by_one st l -> hrun H st l = (st', es) ->
  StronglySorted (fun a b => (ev_ctr a < ev_ctr b)%N) es /\
  Forall (fun e => (n <= ev_ctr e)%N /\ ev_otp e = rfc4226 (hmac_of H val) d (ev_ctr e)) es.
Proof using HH HB HS Hd.
  induction l as [|c l IH]; intros st n st' es Hi Hn Ho E; cbn [hrun] in E; [injection E as <- <-; split; constructor|].
  destruct (hstep H st c) as [[st1 rv] e1] eqn:E1. destruct (hrun H st1 l) as [st2 es2] eqn:E2. injection E as <- <-.
  destruct Ho as [Ho Hl]. rewrite E1 in Hl. cbn [fst] in Hl.
  destruct (step_inv st n c st1 rv e1 Hi) as (n1 & Hi1 & Hn1 & F1 & L1); [cbn [length] in Hn; lia|by split|done|].
  destruct (IH st1 n1 st2 es2 Hi1) as [S2 F2]; [cbn [length] in Hn; lia|done|done|].
  assert (F2' : Forall (fun e => (n <= ev_ctr e)%N /\ ev_otp e = rfc4226 (hmac_of H val) d (ev_ctr e)) es2).
  { eapply Forall_impl; [exact F2|]. intros e [A B]. split; [lia|done]. }
  destruct e1 as [|e [|]]; [|cbn [app]|cbn in L1; lia].
  - by split.
  - apply List.Forall_cons_iff in F1 as [[A1 A2] _]. split.
    + constructor; [done|]. eapply Forall_impl; [exact F2|]. intros e' [B _]. lia.
    + constructor; [split; [lia|done]|done].
Qed.
End run.

(* C39: in such a history of any length, every value given out or accepted is the RFC 4226 value of a counter above those
   of all the values given out or accepted before, and the first is not below the counter of the key.  So no counter is
   used twice, and an accepted one makes itself and the lower ones unacceptable.  The counter must not reach 2^64.
   Missing: the histories of the refutations below. *)
Theorem C39_partial H : hash_ok H -> hash_bytes H -> 20 <= h_size H ->
  forall (k : hkey) (n : N) (l : list hcall), 6 <= k_digits k <= 8 -> k_ctr k = be 8 n ->
  (n + 5 * N.of_nat (length l) + 1 < 2 ^ 64)%N ->
  let st := HSt k ∅ in
  one_by_one st l ->
  let es := snd (hrun H st l) in
  StronglySorted (fun a b => (ev_ctr a < ev_ctr b)%N) es /\
  Forall (fun e => (n <= ev_ctr e)%N /\ ev_otp e = rfc4226 (hmac_of H (k_val k)) (k_digits k) (ev_ctr e)) es.
Proof.
  intros HH HB HS k n l Hd Hk Hn st Ho es. destruct (hrun H st l) as [st' es'] eqn:E. subst es. cbn [snd].
  apply (run_inv H HH HB HS (k_val k) (k_digits k) Hd l st n st' es'); try done.
Qed.
(* Two passwords generated, one accepted three ahead, which is then refused, and the next generation is past it. *)
Definition toy20 : hash := {| h_st := N; h_init := 7%N; h_upd := fun s x => fold_left (fun s b => (s * 31 + b + 1) mod 65521)%N x s;
  h_fin := fun s => map (fun i => ((s / 7 + s * N.of_nat i) mod 256)%N) (seq 0 20); h_size := 20; h_block := 64 |}.
Lemma toy20_ok : hash_ok toy20 /\ hash_bytes toy20.
Proof.
  split.
  - split; [intros s a b; symmetry; apply fold_left_app|]. split; [done|]. split; [intros s; cbn [toy20 h_fin h_size]; by rewrite map_length, seq_length|]. cbn [toy20 h_size h_block]. lia.
  - intros s. cbn [toy20 h_fin]. apply Forall_forall. intros x Hx. apply elem_of_list_In, in_map_iff in Hx as (i & <- & _). unfold byteok. apply N.mod_upper_bound. done.
Qed.
Definition toy_hkey : hkey := HKey (be 8 5) CK_OTP_PARAM_IGNORED 6 (repeat 3%N 20).
Definition toy_otp (c : N) : bytes := rfc4226 (hmac_of toy20 (repeat 3%N 20)) 6 c.
Definition toy_history : list hcall :=
  [HInit 1 true None; HSign 1 0 (Some 100) true; HInit 2 true None; HSign 2 0 None true; HSign 2 0 (Some 46) true;
   HInit 1 false None; HVerify 1 0 (toy_otp 10) true; HInit 1 false None; HVerify 1 0 (toy_otp 10) true;
   HInit 1 true None; HSign 1 0 (Some 100) true].
Lemma closed_ops H (st : hst H) : forallb (fun x => p_done (snd x)) (map_to_list (hs_ops st)) = true -> ~ open_in st.
Proof.
  intros Hf (i & o & Ho & Hdn). rewrite forallb_forall in Hf. specialize (Hf (i, o)). cbn [snd] in Hf. rewrite Hf in Hdn; [discriminate|].
  apply elem_of_list_In. by apply elem_of_map_to_list.
Qed.
Example C39_case : one_by_one (H := toy20) (HSt toy_hkey ∅) toy_history /\ map ev_ctr (snd (hrun toy20 (HSt toy_hkey ∅) toy_history)) = [5; 6; 10; 11]%N.
Proof.
  split; [|vm_compute; reflexivity]. cbn [toy_history one_by_one]. split_and!; try done; apply closed_ops; vm_compute; reflexivity.
Qed.

(* Two operations begun before either ends use the same counter, whatever the key. *)
Section refuted.
Context (H : hash) (HH : hash_ok H) (HB : hash_bytes H) (HS : 20 <= h_size H).
Context (k : hkey) (n : N) (Hd : 6 <= k_digits k <= 8) (Hk : k_ctr k = be 8 n) (Hn : (n + 1 < 2 ^ 64)%N)
  (Hv : length (k_val k) = h_size H).
Lemma new_is over : k_req k = CK_OTP_PARAM_IGNORED -> exists m, fresh_mac H (k_val k) m /\
  hotp_new H k over = Ok (Hop m (be 8 n) (k_digits k) false (Some false)).
Proof using HH Hk Hv.
  intros Hr. destruct (hmac_new_ok H HH (k_val k) (h_size H)) as (m & E & _). exists m. split; [done|]. unfold hotp_new. cbv zeta.
  rewrite Hr, Hk. change (CK_OTP_PARAM_IGNORED =? CK_OTP_PARAM_MANDATORY)%N with false.
  change (CK_OTP_PARAM_IGNORED =? CK_OTP_PARAM_OPTIONAL)%N with false. cbn [orb].
  destruct over; rewrite be_length, Nat.eqb_refl, Hv, Nat.eqb_refl; cbn [negb]; rewrite E; done.
Qed.
Lemma sign_is m : fresh_mac H (k_val k) m -> exists m', hotp_sign H (Hop m (be 8 n) (k_digits k) false (Some false)) =
  (Hop m' (be 8 (n + 1)) (k_digits k) true (Some true), Ok (rfc4226 (hmac_of H (k_val k)) (k_digits k) n)).
Proof using HH HB HS Hd Hn Hv.
  intros Hm. unfold hotp_sign. cbn [p_done p_hmac p_len p_ctr p_update].
  destruct (gen_is H HH HB HS (k_val k) m (k_digits k) n Hm Hd) as (m' & _ & E). rewrite E. exists m'. rewrite be8 by lia.
  unfold next_ctr. rewrite N.mod_small by lia. done.
Qed.
End refuted.
Theorem C39_sessions_refuted H : hash_ok H -> hash_bytes H -> 20 <= h_size H -> forall k n s1 s2 room,
  6 <= k_digits k <= 8 -> k_ctr k = be 8 n -> (n + 1 < 2 ^ 64)%N -> length (k_val k) = h_size H ->
  k_req k = CK_OTP_PARAM_IGNORED -> s1 <> s2 -> otp_room (k_digits k) <= room ->
  let v := rfc4226 (hmac_of H (k_val k)) (k_digits k) n in
  snd (hrun H (HSt k ∅) [HInit s1 true None; HInit s2 true None; HSign s1 0 (Some room) true; HSign s2 0 (Some room) true]) =
  [Gen n v; Gen n v].
Proof.
  intros HH HB HS k n s1 s2 room Hd Hk Hn Hv Hr Hs Hroom v. destruct (new_is H HH k n Hk Hv None Hr) as (m & Hm & En).
  destruct (sign_is H HH HB HS k n Hd Hn Hv m Hm) as (m' & Es).
  assert (Er : (room <? otp_room (k_digits k)) = false) by (apply Nat.ltb_ge; done).
  cbn [hrun hstep hs_ops hs_key]. rewrite lookup_empty, En. cbn [hs_ops hs_key].
  rewrite lookup_insert_ne, lookup_empty, En by congruence. cbn [hs_ops hs_key].
  rewrite lookup_insert_ne by congruence. rewrite lookup_insert. cbn [p_len]. rewrite Er. cbn [Nat.eqb negb].
  rewrite Es. cbn [stored hotp_updates p_update p_ctr hs_ops hs_key]. rewrite lookup_insert_ne by congruence. rewrite lookup_insert. cbn [p_len]. rewrite Er.
  cbn [Nat.eqb negb]. rewrite Es. cbn [stored hotp_updates p_update p_ctr hs_ops hs_key snd app]. rewrite be8 by lia. done.
Qed.
(* When the database does not take the new counter (it fails or is read-only, the key may not be modified, or nobody is
   logged in), the call fails but its password has been given out, and the next one is the same. *)
Theorem C39_store_refuted H : hash_ok H -> hash_bytes H -> 20 <= h_size H -> forall k n s room,
  6 <= k_digits k <= 8 -> k_ctr k = be 8 n -> (n + 1 < 2 ^ 64)%N -> length (k_val k) = h_size H ->
  k_req k = CK_OTP_PARAM_IGNORED -> otp_room (k_digits k) <= room ->
  let v := rfc4226 (hmac_of H (k_val k)) (k_digits k) n in
  snd (hrun H (HSt k ∅) [HInit s true None; HSign s 0 (Some room) false; HInit s true None; HSign s 0 (Some room) true]) =
  [Gen n v; Gen n v].
Proof.
  intros HH HB HS k n s room Hd Hk Hn Hv Hr Hroom v. destruct (new_is H HH k n Hk Hv None Hr) as (m & Hm & En).
  destruct (sign_is H HH HB HS k n Hd Hn Hv m Hm) as (m' & Es).
  assert (Er : (room <? otp_room (k_digits k)) = false) by (apply Nat.ltb_ge; done).
  cbn [hrun hstep hs_ops hs_key]. rewrite lookup_empty, En. cbn [hs_ops hs_key].
  rewrite lookup_insert. cbn [p_len]. rewrite Er. cbn [Nat.eqb negb].
  rewrite Es. cbn [stored hotp_updates p_update p_ctr hs_ops hs_key]. rewrite lookup_insert. rewrite En. cbn [hs_ops hs_key].
  rewrite lookup_insert. cbn [p_len]. rewrite Er.
  cbn [Nat.eqb negb]. rewrite Es. cbn [stored hotp_updates p_update p_ctr hs_ops hs_key snd app]. rewrite be8 by lia. done.
Qed.
(* The counter can be set back: the factory of the keys lets CKA_OTP_COUNTER be changed, and nothing compares it with
   the old one. *)
Theorem C39_set_refuted H : hash_ok H -> hash_bytes H -> 20 <= h_size H -> forall k n s room,
  6 <= k_digits k <= 8 -> k_ctr k = be 8 n -> (n + 1 < 2 ^ 64)%N -> length (k_val k) = h_size H ->
  k_req k = CK_OTP_PARAM_IGNORED -> otp_room (k_digits k) <= room ->
  let v := rfc4226 (hmac_of H (k_val k)) (k_digits k) n in
  snd (hrun H (HSt k ∅) [HInit s true None; HSign s 0 (Some room) true; HSet (be 8 n); HInit s true None; HSign s 0 (Some room) true]) =
  [Gen n v; Gen n v].
Proof.
  intros HH HB HS k n s room Hd Hk Hn Hv Hr Hroom v. destruct (new_is H HH k n Hk Hv None Hr) as (m & Hm & En).
  destruct (sign_is H HH HB HS k n Hd Hn Hv m Hm) as (m' & Es).
  assert (Er : (room <? otp_room (k_digits k)) = false) by (apply Nat.ltb_ge; done).
  assert (Ek : forall c, set_ctr (set_ctr k c) (be 8 n) = k) by (intros c; destruct k; cbn in *; by rewrite Hk).
  cbn [hrun hstep hs_ops hs_key]. rewrite lookup_empty, En. cbn [hs_ops hs_key].
  rewrite lookup_insert. cbn [p_len]. rewrite Er. cbn [Nat.eqb negb].
  rewrite Es. cbn [stored hotp_updates p_update p_ctr hs_ops hs_key]. rewrite lookup_insert, Ek. rewrite En. cbn [hs_ops hs_key].
  rewrite lookup_insert. cbn [p_len]. rewrite Er.
  cbn [Nat.eqb negb]. rewrite Es. cbn [stored hotp_updates p_update p_ctr hs_ops hs_key snd app]. rewrite be8 by lia. done.
Qed.
Theorem C39_settable_refuted v : check_set_attributes tab_hotp [ca CKA_OTP_COUNTER v] = Ok tt.
Proof. vm_compute. reflexivity. Qed.
(* After 2^64 - 1 the counter is 0 again (with overflow checks the call panics after it has written the password). *)
Theorem C39_wrap_refuted H : hash_ok H -> hash_bytes H -> 20 <= h_size H -> forall k s room,
  6 <= k_digits k <= 8 -> k_ctr k = be 8 (2 ^ 64 - 1) -> length (k_val k) = h_size H ->
  k_req k = CK_OTP_PARAM_IGNORED -> otp_room (k_digits k) <= room ->
  k_ctr (hs_key (fst (hrun H (HSt k ∅) [HInit s true None; HSign s 0 (Some room) true]))) = be 8 0.
Proof.
  intros HH HB HS k s room Hd Hk Hv Hr Hroom. destruct (new_is H HH k _ Hk Hv None Hr) as (m & Hm & En).
  assert (Er : (room <? otp_room (k_digits k)) = false) by (apply Nat.ltb_ge; done).
  destruct (gen_is H HH HB HS (k_val k) m (k_digits k) (2 ^ 64 - 1) Hm Hd) as (m' & _ & Eg).
  cbn [hrun hstep hs_ops hs_key]. rewrite lookup_empty, En. cbn [hs_ops hs_key].
  rewrite lookup_insert. cbn [p_len]. rewrite Er. cbn [Nat.eqb negb].
  unfold hotp_sign. cbn [p_done p_hmac p_len p_ctr p_update]. rewrite Eg. cbn [stored hotp_updates p_update p_ctr fst hs_key set_ctr k_ctr].
  rewrite be8 by lia. reflexivity.
Qed.
