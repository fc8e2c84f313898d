(* C51: signatures do not depend on the pieces the data comes in; what is made is accepted, what is accepted the key accepts.
   C52: when an operation is over. *)
From Verif Require Import MsgFacts.
From Verif Require Export SigSpec ThmDer.
From Coq Require Import Arith.
Local Open Scope N_scope.

Lemma sha_entry m : hash_entry m = sha_info m.
Proof.
  unfold hash_entry, hashes, sha_info. cbn [find fst]. rewrite !(N.eqb_sym m).
  repeat match goal with |- context [?c =? m] => destruct (N.eqb_spec c m) as [<-|]; [vm_compute; reflexivity|] end. reflexivity.
Qed.

Local Opaque sig_of_der der_of_sig hash_entry. Local Arguments MAX_BUFFER_LEN : simpl never. Local Arguments blen : simpl never.
Local Arguments N.ltb : simpl never. Local Arguments N.leb : simpl never. Local Arguments N.eqb : simpl never. Local Arguments N.add : simpl never.
Local Arguments N.mul : simpl never. Local Arguments N.to_nat : simpl never.
(* An operation between its calls: [D] is the data it was given so far, None before the first call. *)
Definition dflt (D : option bytes) : bytes := match D with Some d => d | None => [] end.
Definition upd (sc : scheme) (probe : bool) : bool := match sc with RsaHash | EcHash => true | PqPure | PqHashed | PqDigest => probe | _ => false end.
Definition in_ctx (sc : scheme) : bool := match sc with PqDigest | PqHashed => false | _ => true end.
Definition st (sc : scheme) (n max : N) (q : pq) (sign lg pr : bool) (coin : N) (cs cset os : option bytes) (D : option bytes) : sigop :=
  {| o_scheme := sc; o_len := n; o_max := max; o_final := false; o_use := match D with Some _ => true | None => false end;
     o_ctx := {| c_sign := sign; c_legacy := negb (match sc with RsaRaw _ | EcRaw => true | _ => false end) && lg; c_updates := upd sc pr;
                 c_data := if upd sc pr || negb (in_ctx sc) then None else D; c_sig := cs;
                 c_fed := if upd sc pr && in_ctx sc then dflt D else []; c_set := cset; c_coin := coin |};
     o_fed := if in_ctx sc then [] else dflt D; o_sig := os; o_pq := q |}.

Section SIG.
Context (K : keyalg) (sc : scheme) (n max : N) (q : pq) (lg pr : bool) (coin : N).
Notation ST := (st sc n max q).

Lemma new_plain sign : new_op sc n max q sign lg pr coin None = Ok (ST sign lg pr coin None None None None).
Proof. destruct sc, pr; reflexivity. Qed.

Lemma update_step sign cs cset os D d : pieces sc = true -> (kept sc pr = true -> blen (dflt D ++ d) <= MAX_BUFFER_LEN) ->
  call K (SUpdate d) (ST sign lg pr coin cs cset os D) = (ST sign lg pr coin cs cset os (Some (dflt D ++ d)), Ok []) /\
  call K (VUpdate d) (ST sign lg pr coin cs cset os D) = (ST sign lg pr coin cs cset os (Some (dflt D ++ d)), Ok []).
Proof using Type.
  intros Hp Hk.
  assert (L : kept sc pr = true -> match D with Some b => (MAX_BUFFER_LEN <? blen b + blen d) = false | None => (MAX_BUFFER_LEN <? blen d) = false end).
  { intros Ke. specialize (Hk Ke). destruct D as [b|]; cbn [dflt app] in Hk; unfold blen in *; [rewrite app_length in Hk|]; lia. }
  destruct sc; try discriminate Hp; destruct pr, D as [b|]; cbn [kept negb] in L;
    try (specialize (L eq_refl)); try (split; reflexivity);
    cbv [call no_bytes ed_update pq_update on_ctx os_update store_data Monad.mbind gets ensure modify ret skip id]; cbn; rewrite L; split; reflexivity.
Qed.

(* The signature in the form of OpenSSL *)
Definition conv (sig o : bytes) : Prop := if ec sc then blen sig = n /\ der_of_sig sig = Ok o else sig = o.
Definition vcode : N := match sc with Ed => CKR_SIGNATURE_INVALID | _ => CKR_DEVICE_ERROR end.
Definition vres (D o : bytes) : result bytes := if k_verify K (covered sc q D) o then Ok [] else Err vcode.

Lemma prime_ok d : blen (context q) <= 255 -> (exists x, sha_info (q_mech q) = Some (x, max)) -> blen d = max ->
  m_prime q d = Ok (covered PqHashed q d).
Proof using Type.
  intros Hc (x & Hx) Hd. unfold m_prime, covered, oid. fold (context q). rewrite sha_entry, Hx.
  replace (255 <? blen (context q)) with false by lia. rewrite Hd, N.eqb_refl. reflexivity.
Qed.

Lemma verify_final D sig o : pieces sc = true -> params_ok sc q max -> conv sig o ->
  snd (call K (VFinal (Some sig)) (ST false lg pr coin None None None (Some D))) = vres D o.
Proof using Type.
  intros Hp Hq Hc. unfold conv in Hc. unfold vres, vcode.
  destruct sc; try discriminate Hp; cbn [ec] in Hc;
    [subst o|destruct Hc as [Hl Hd]|subst o|subst o|subst o]; destruct pr, lg.
  all: try (cbv [call no_bytes rsa_verify_final ec_verify_final ed_verify_final pq_verify_final running on_ctx raise lift ec_form Monad.mbind gets ensure modify ret skip id]; cbn).
  all: try (rewrite Hl, N.eqb_refl, Hd; cbn).
  all: try (destruct (k_verify K D _); reflexivity).
  all: destruct Hq as (Q1 & x & Q2 & Q3).
  all: cbv [pq_verify_hash raise lift Monad.mbind gets ensure modify ret skip id]; cbn; rewrite (prime_ok (q_hash q D) Q1 (ex_intro _ x Q2) (Q3 D)); cbn;
    match goal with |- context [k_verify K ?a ?b] => destruct (k_verify K a b) end; reflexivity.
Qed.

(* A single call is the first piece and the end. *)
Lemma one_is_final sign cs cset os D : pieces sc = true -> (kept sc pr = true -> blen D <= MAX_BUFFER_LEN) ->
  (forall s, call K (VOne D s) (ST sign lg pr coin cs cset os None) = call K (VFinal s) (ST sign lg pr coin cs cset os (Some D))) /\
  (forall m, call K (SSign D m) (ST sign lg pr coin cs cset os None) = call K (SFinal m) (ST sign lg pr coin cs cset os (Some D))).
Proof using Type.
  intros Hp Hk.
  assert (L : kept sc pr = true -> (MAX_BUFFER_LEN <? blen D) = false) by (intros Ke; specialize (Hk Ke); lia).
  destruct sc; try discriminate Hp; destruct pr; cbn [kept negb] in L; try (specialize (L eq_refl)); try (split; reflexivity);
    split; intros x; cbv [call no_bytes ed_verify ed_sign pq_sign pq_verify unused ed_update pq_update on_ctx os_update store_data Monad.mbind gets ensure modify ret skip id]; cbn;
    rewrite L; reflexivity.
Qed.

Lemma verify_one D sig o : pieces sc = false -> params_ok sc q max -> takes sc max D -> (ec sc = false -> blen sig = n) -> conv sig o ->
  snd (call K (VOne D (Some sig)) (ST false lg pr coin None None None None)) = vres D o.
Proof using Type.
  intros Hp Hq Ht Hn Hc. unfold conv in Hc. unfold vres, vcode.
  destruct sc as [[]| | | | | | |]; try discriminate Hp; cbn [ec takes] in *;
    [subst o|subst o|destruct Hc as [Hl Hd]|subst o]; first [specialize (Hn eq_refl)|clear Hn].
  all: cbv [call no_bytes rsa_verify ec_verify pq_verify unused raise lift ec_form pq_verify_hash Monad.mbind gets ensure modify ret skip id]; cbn.
  all: try replace (blen D <=? max) with true by lia; try rewrite Hn, N.eqb_refl; try (rewrite Hl, N.eqb_refl, Hd); cbn.
  all: try (destruct (k_verify K D _); reflexivity).
  destruct Hq as (Q1 & x & Q2 & Q3). replace (blen D =? max) with true by lia. cbn.
  rewrite (prime_ok D Q1 (ex_intro _ x Q2) Ht). cbn. match goal with |- context [k_verify K ?a ?b] => destruct (k_verify K a b) end; reflexivity.
Qed.

(* C_VerifySignatureInit *)
Lemma new_given sig o : new_op sc n max q false lg pr coin (Some sig) = Ok o ->
  exists cs cset os b, o = ST false lg pr coin cs cset os None /\ conv sig b /\
    (pieces sc = true -> params_ok sc q max -> forall D, snd (call K (VFinal None) (ST false lg pr coin cs cset os (Some D))) = vres D b) /\
    (pieces sc = false -> params_ok sc q max -> forall D, takes sc max D -> snd (call K (VOne D None) (ST false lg pr coin cs cset os None)) = vres D b).
Proof using Type.
  intros E. unfold conv, vres, vcode.
  assert (X : exists cs cset os b, o = ST false lg pr coin cs cset os None /\ (if ec sc then blen sig = n /\ der_of_sig sig = Ok b else sig = b) /\
    if in_ctx sc then (if upd sc pr && negb (negb (match sc with RsaRaw _ | EcRaw => true | _ => false end) && lg) then cset = Some b else cs = Some b) else os = Some b).
  { unfold new_op in E. destruct sc as [[]| | | | | | |]; cbn [ec]; try (destruct (blen sig =? n) eqn:Ln; cbn [negb] in E; [apply N.eqb_eq in Ln|discriminate E]);
      try (destruct (der_of_sig sig) as [b|] eqn:Db; cbn [rbind] in E; [|discriminate E]);
      destruct pr, lg; cbn in E; injection E as <-; do 4 eexists; (split; [reflexivity|]; split; [first [reflexivity|split; [exact Ln|reflexivity]]|reflexivity]). }
  destruct X as (cs & cset & os & b & -> & C & G). exists cs, cset, os, b. split; [reflexivity|]. split; [exact C|]. clear E C.
  split.
  - intros Hp Hq D. destruct sc; try discriminate Hp; destruct pr, lg; cbn in G; subst cs || subst cset || subst os.
    all: try (cbv [call no_bytes rsa_verify_final ec_verify_final ed_verify_final pq_verify_final running on_ctx raise lift ec_form Monad.mbind gets ensure modify ret skip id]; cbn).
    all: try (destruct (k_verify K D _); reflexivity).
    all: destruct Hq as (Q1 & x & Q2 & Q3).
    all: cbv [pq_verify_hash raise lift Monad.mbind gets ensure modify ret skip id]; cbn; rewrite (prime_ok (q_hash q D) Q1 (ex_intro _ x Q2) (Q3 D)); cbn;
      match goal with |- context [k_verify K ?a ?b] => destruct (k_verify K a b) end; reflexivity.
  - intros Hp Hq D Ht. destruct sc as [[]| | | | | | |]; try discriminate Hp; destruct pr, lg; cbn in G, Ht; subst cs || subst cset || subst os.
    all: cbv [call no_bytes rsa_verify ec_verify pq_verify unused raise lift ec_form pq_verify_hash Monad.mbind gets ensure modify ret skip id]; cbn.
    all: try replace (blen D <=? max) with true by lia; cbn.
    all: try (match goal with |- context [k_verify K ?a ?b] => destruct (k_verify K a b) end; reflexivity).
    all: destruct Hq as (Q1 & x & Q2 & Q3); rewrite Ht, N.eqb_refl; cbn; rewrite (prime_ok D Q1 (ex_intro _ x Q2) Ht); cbn;
      match goal with |- context [k_verify K ?a ?b] => destruct (k_verify K a b) end; reflexivity.
Qed.

(* What signing answers *)
Definition sres (D : bytes) : result bytes :=
  match k_sign K coin (covered sc q D) with
  | Some s => if ec sc then sig_of_der s (N.to_nat n) else Ok s
  | None => Err CKR_DEVICE_ERROR
  end.
Context (Su : suits K sc n).
Lemma field : ec sc = true -> exists k : nat, n = 2 * N.of_nat k /\ (0 < k <= 120)%nat /\ n / 2 = N.of_nat k /\ N.to_nat n = (2 * k)%nat.
Proof using Su.
  intros He. pose proof (su_field _ _ _ Su) as F. rewrite He in F. destruct F as (k & -> & Hk). exists k.
  replace (2 * N.of_nat k / 2) with (N.of_nat k) by (rewrite N.mul_comm, N.div_mul; lia). split_and!; lia.
Qed.
Lemma room c m s : k_sign K c m = Some s -> if ec sc then blen s <= n + 10 /\ exists sig, sig_of_der s (N.to_nat n) = Ok sig /\ form sc n sig s /\ blen sig = n /\ der_of_sig sig = Ok s
  else blen s = n.
Proof using Su.
  intros E. pose proof (su_len _ _ _ Su _ _ _ E) as L. destruct (ec sc) eqn:He; [|exact L].
  destruct (field He) as (k & Hn & Hk & Hd & Ht). destruct L as (r & t & Hr & Ht' & S). rewrite Hd in Hr, Ht'.
  split; [rewrite Hn; apply (C49_room k r t s); (done || lia)|].
  destruct (C49_ecdsa_forms k r t) as (b & B1 & B2 & B3 & B4 & _); [lia|change (2 ^ 28) with 268435456; lia|done|done|].
  rewrite (B2 _ S), Ht. exists (be k r ++ be k t). split; [done|]. split; [|split; [unfold blen; rewrite app_length, !be_length; lia|done]].
  unfold form. rewrite He. exists k, r, t. done.
Qed.
Lemma sign_final D : pieces sc = true -> params_ok sc q max ->
  snd (call K (SFinal n) (ST true lg pr coin None None None (Some D))) = sres D.
Proof using Su.
  intros Hp Hq. pose proof (su_size _ _ _ Su) as Z. unfold sres. pose proof (room coin (covered sc q D)) as R.
  destruct sc; try discriminate Hp; cbn [ec covered] in *.
  5: destruct Hq as (Q1 & x & Q2 & Q3).
  all: destruct pr, lg.
  all: cbv [call rsa_sign_final ec_sign_final ed_sign_final pq_sign_final pq_sign_hash running on_ctx raise lift Monad.mbind gets ensure modify ret skip id]; cbn.
  all: try (rewrite (prime_ok (q_hash q D) Q1 (ex_intro _ x Q2) (Q3 D)); cbn [covered]).
  all: unfold os_sign; cbn; try (rewrite Z; replace (n <? n) with false by lia); try replace (n + 10 <? k_size K) with false by lia.
  all: match goal with |- context [k_sign K ?a ?b] => destruct (k_sign K a b) as [s|] eqn:Es; cbn; [first [specialize (R s eq_refl)|specialize (R s Es)]|reflexivity] end.
  all: try (rewrite R, N.eqb_refl; reflexivity).
  all: destruct R as [R _]; replace (blen s <=? n + 10) with true by lia; reflexivity.
Qed.
Lemma sign_one D : pieces sc = false -> params_ok sc q max -> takes sc max D ->
  snd (call K (SSign D n) (ST true lg pr coin None None None None)) = sres D.
Proof using Su.
  intros Hp Hq Ht. pose proof (su_size _ _ _ Su) as Z. unfold sres. pose proof (room coin (covered sc q D)) as R.
  destruct sc as [[]| | | | | | |]; try discriminate Hp; cbn [ec covered takes] in *.
  4: destruct Hq as (Q1 & x & Q2 & Q3).
  all: cbv [call rsa_sign ec_sign pq_sign pq_sign_hash unused on_ctx raise lift os_size Monad.mbind gets ensure modify ret skip id]; cbn.
  all: try replace (blen D <=? max) with true by lia; try (rewrite Ht, N.eqb_refl); rewrite ?N.eqb_refl; cbn; try rewrite (prime_ok D Q1 (ex_intro _ x Q2) Ht).
  all: unfold os_sign; cbn; try (rewrite Z, N.eqb_refl; cbn); rewrite ?Z, N.ltb_irrefl; cbn [covered].
  all: match goal with |- context [k_sign K ?a ?b] => destruct (k_sign K a b) as [s|] eqn:Es; cbn; [first [specialize (R s eq_refl)|specialize (R s Es)]|reflexivity] end; try reflexivity.
  rewrite R, N.eqb_refl; reflexivity.
Qed.
Lemma conv_form sig o : bytesok sig -> conv sig o <-> form sc n sig o.
Proof using Su.
  intros B. unfold conv, form. destruct (ec sc) eqn:He; [|done]. destruct (field He) as (k & Hn & Hk & Hd & Ht).
  assert (P : N.of_nat k < 2 ^ 28) by (change (2 ^ 28) with 268435456; lia). split.
  - intros [Hl Hder]. assert (L : length sig = (k + k)%nat) by (unfold blen in Hl; lia).
    assert (B1 : bytesok (firstn k sig)) by (apply Forall_take, B). assert (B2 : bytesok (skipn k sig)) by (apply Forall_drop, B).
    assert (L1 : length (firstn k sig) = k) by (rewrite firstn_length; lia). assert (L2 : length (skipn k sig) = k) by (rewrite skipn_length; lia).
    pose proof (unbe_bound _ B1) as U1. pose proof (unbe_bound _ B2) as U2. rewrite L1 in U1. rewrite L2 in U2.
    pose proof (be_unbe _ B1) as V1. pose proof (be_unbe _ B2) as V2. rewrite L1 in V1. rewrite L2 in V2.
    exists k, (unbe (firstn k sig)), (unbe (skipn k sig)). split; [done|]. split; [done|]. split; [done|].
    assert (S : be k (unbe (firstn k sig)) ++ be k (unbe (skipn k sig)) = sig) by (rewrite V1, V2; apply firstn_skipn). split; [done|].
    destruct (C49_ecdsa_forms k _ _ (proj1 Hk) P U1 U2) as (b & S1 & _ & S3 & _). rewrite S in S3. congruence.
  - intros (k' & r & s & Hn' & Hr & Hs & -> & S). assert (k' = k) by lia. subst k'.
    destruct (C49_ecdsa_forms k _ _ (proj1 Hk) P Hr Hs) as (b & S1 & S2 & S3 & _).
    split; [unfold blen; rewrite app_length, !be_length; lia|]. rewrite (S2 _ S). done.
Qed.

Lemma parts_run (v : bool) sign cs cset os parts k : pieces sc = true -> parts <> [] -> (kept sc pr = true -> blen (concat parts) <= MAX_BUFFER_LEN) ->
  snd (calls K (map (if v then VUpdate else SUpdate) parts ++ [k]) (ST sign lg pr coin cs cset os None))
  = map (fun _ => Ok []) parts ++ [snd (call K k (ST sign lg pr coin cs cset os (Some (concat parts))))].
Proof using Type.
  intros Hp Hn Hk.
  assert (G : forall parts D, (kept sc pr = true -> blen (dflt D ++ concat parts) <= MAX_BUFFER_LEN) ->
    snd (calls K (map (if v then VUpdate else SUpdate) parts ++ [k]) (ST sign lg pr coin cs cset os D))
    = map (fun _ => Ok []) parts ++ [snd (call K k (ST sign lg pr coin cs cset os (match parts with [] => D | _ => Some (dflt D ++ concat parts) end)))]).
  { clear parts Hn Hk. induction parts as [|d parts IH]; intros D Hk.
    - cbn [map app calls concat]. by destruct (call K k _).
    - cbn [map app concat]. destruct (update_step sign cs cset os D d Hp) as [U1 U2].
      { intros Ke. specialize (Hk Ke). cbn [concat] in Hk. rewrite app_assoc in Hk. unfold blen in *. rewrite app_length in Hk. lia. }
      specialize (IH (Some (dflt D ++ d))). cbn [dflt] in IH. rewrite <- app_assoc in IH. specialize (IH Hk).
      cbn [calls]. destruct v; [rewrite U2|rewrite U1]; cbn [fst snd]; destruct (calls K _ _) as [o' rs]; cbn [snd] in *; rewrite IH; (destruct parts; [rewrite app_nil_r|]; reflexivity). }
  rewrite (G parts None); [by destruct parts|done].
Qed.
End SIG.

Section C51.
Context (K : keyalg) (sc : scheme) (n max : N) (q : pq).
Context (Su : suits K sc n) (Hq : params_ok sc q max).

(* C51, signing.  However the data is cut into pieces, the signature is the one a single call gives, and is the key's own signature
   of the message. *)
Theorem C51_sign lg pr coin o (parts : list bytes) : new_op sc n max q true lg pr coin None = Ok o ->
  pieces sc = true -> parts <> [] -> (kept sc pr = true -> blen (concat parts) <= 1048576) ->
  exists r, snd (calls K (map SUpdate parts ++ [SFinal n]) o) = map (fun _ => Ok []) parts ++ [r] /\ snd (call K (SSign (concat parts) n) o) = r /\
    match k_sign K coin (covered sc q (concat parts)) with
    | Some s => exists sig, r = Ok sig /\ form sc n sig s /\ blen sig = n
    | None => r = Err CKR_DEVICE_ERROR
    end.
Proof using Su Hq.
  intros E Hp Hn Hk. rewrite new_plain in E. injection E as <-. change 1048576 with MAX_BUFFER_LEN in Hk.
  exists (sres K sc n q coin (concat parts)). split; [|split].
  - rewrite (parts_run K sc n max q lg pr coin false true None None None parts (SFinal n) Hp Hn Hk). by rewrite sign_final.
  - destruct (one_is_final K sc n max q lg pr coin true None None None (concat parts) Hp Hk) as [_ O]. rewrite O. by apply sign_final.
  - unfold sres. destruct (k_sign K coin _) as [s|] eqn:Es; [|done]. pose proof (room K sc n Su _ _ _ Es) as R. unfold form in *. destruct (ec sc).
    + destruct R as (_ & sig & S1 & S2 & S3 & _). exists sig. done.
    + exists s. done.
Qed.
Theorem C51_sign_whole lg pr coin o d : new_op sc n max q true lg pr coin None = Ok o -> pieces sc = false -> takes sc max d ->
  match k_sign K coin (covered sc q d) with
  | Some s => exists sig, snd (call K (SSign d n) o) = Ok sig /\ form sc n sig s /\ blen sig = n
  | None => snd (call K (SSign d n) o) = Err CKR_DEVICE_ERROR
  end.
Proof using Su Hq.
  intros E Hp Ht. rewrite new_plain in E. injection E as <-. rewrite (sign_one K sc n max q lg pr coin Su d Hp Hq Ht). unfold sres.
  destruct (k_sign K coin _) as [s|] eqn:Es; [|done]. pose proof (room K sc n Su _ _ _ Es) as R. unfold form in *. destruct (ec sc).
  - destruct R as (_ & sig & S1 & S2 & S3 & _). exists sig. done.
  - exists s. done.
Qed.

Lemma len_form sig o : form sc n sig o -> ec sc = true -> blen sig = n.
Proof using Type. clear Su Hq. unfold form. intros F He. rewrite He in F. destruct F as (k & r & s & -> & _ & _ & -> & _). unfold blen. rewrite app_length, !be_length. lia. Qed.
Lemma accepts_conv d sig b : bytesok sig -> conv sc n sig b -> is_ok (vres K sc q d b) = true <-> accepts K sc q n d sig.
Proof using Su.
  intros B C. unfold vres, accepts. split.
  - intros H. exists b. destruct (k_verify K _ b) eqn:V; [|discriminate H]. split; [by apply (conv_form K sc n Su sig b B)|done].
  - intros (o & F & V). apply (conv_form K sc n Su sig o B) in F. assert (o = b) as ->; [|by rewrite V].
    unfold conv in *. destruct (ec sc); [destruct F as [_ F], C as [_ C]; congruence|congruence].
Qed.
Lemma conv_ex sig : bytesok sig -> (ec sc = true -> blen sig = n) -> exists b, conv sc n sig b.
Proof using Su.
  intros B L. unfold conv. destruct (ec sc) eqn:He; [|by eauto]. specialize (L eq_refl). destruct (field K sc n Su He) as (k & Hn & Hk & _ & _).
  assert (F : exists o, form sc n sig o).
  { assert (L2 : length sig = (k + k)%nat) by (unfold blen in L; lia).
    assert (B1 : bytesok (firstn k sig)) by (apply Forall_take, B). assert (B2 : bytesok (skipn k sig)) by (apply Forall_drop, B).
    pose proof (unbe_bound _ B1) as U1. pose proof (unbe_bound _ B2) as U2. pose proof (be_unbe _ B1) as V1. pose proof (be_unbe _ B2) as V2.
    replace (length (firstn k sig)) with k in * by (rewrite firstn_length; lia). replace (length (skipn k sig)) with k in * by (rewrite skipn_length; lia).
    destruct (C49_ecdsa_forms k _ _ (proj1 Hk) ltac:(change (2 ^ 28) with 268435456; lia) U1 U2) as (b & S1 & _).
    exists b. unfold form. rewrite He. exists k, (unbe (firstn k sig)), (unbe (skipn k sig)). split_and!; try done. rewrite V1, V2. symmetry. apply firstn_skipn. }
  destruct F as (o & F). apply (conv_form K sc n Su sig o B) in F. unfold conv in F. rewrite He in F. by exists o.
Qed.
Lemma not_accepted d sig : blen sig <> n -> ~ accepts K sc q n d sig.
Proof using Su.
  intros L (o & F & V). destruct (ec sc) eqn:He; [by apply L, (len_form sig o F)|]. unfold form in F. rewrite He in F. subst o. by apply L, (su_only _ _ _ Su _ _ V).
Qed.
Lemma refused_len lg pr coin D sig : ec sc = true -> blen sig <> n -> is_ok (snd (call K (VFinal (Some sig)) (st sc n max q false lg pr coin None None None (Some D)))) = false.
Proof using Type.
  clear Su Hq. intros He L. destruct sc; try discriminate He; cbv [call no_bytes ec_verify_final running on_ctx raise lift ec_form Monad.mbind gets ensure modify ret skip id]; cbn;
    (replace (blen sig =? n) with false by lia; reflexivity).
Qed.
Lemma new_len lg pr coin sig : bytesok sig -> blen sig = n -> exists o, new_op sc n max q false lg pr coin (Some sig) = Ok o.
Proof using Su.
  intros B L. clear Hq. destruct (conv_ex sig B (fun _ => L)) as (b & C). unfold conv in C. unfold new_op. rewrite L, N.eqb_refl. cbn [negb].
  destruct sc; cbn [ec] in C; try (apply proj2 in C; rewrite C; cbn [rbind]); destruct pr, lg; eexists; reflexivity.
Qed.

(* C51, verifying.  Whether a signature is accepted depends on the data, not on its pieces, nor on the way the signature is given:
   with the last call, with the only call, or before the data.  It is accepted if and only if the key accepts it. *)
Theorem C51_verify lg pr coin o (parts : list bytes) sig : new_op sc n max q false lg pr coin None = Ok o -> bytesok sig ->
  pieces sc = true -> parts <> [] -> (kept sc pr = true -> blen (concat parts) <= 1048576) ->
  (exists r, snd (calls K (map VUpdate parts ++ [VFinal (Some sig)]) o) = map (fun _ => Ok []) parts ++ [r] /\ (is_ok r = true <-> accepts K sc q n (concat parts) sig)) /\
  (is_ok (snd (call K (VOne (concat parts) (Some sig)) o)) = true <-> accepts K sc q n (concat parts) sig) /\
  (forall o', new_op sc n max q false lg pr coin (Some sig) = Ok o' ->
    (exists r, snd (calls K (map VUpdate parts ++ [VFinal None]) o') = map (fun _ => Ok []) parts ++ [r] /\ (is_ok r = true <-> accepts K sc q n (concat parts) sig)) /\
    (is_ok (snd (call K (VOne (concat parts) None) o')) = true <-> accepts K sc q n (concat parts) sig)) /\
  (accepts K sc q n (concat parts) sig -> exists o', new_op sc n max q false lg pr coin (Some sig) = Ok o').
Proof using Su Hq.
  intros E B Hp Hn Hk. rewrite new_plain in E. injection E as <-. change 1048576 with MAX_BUFFER_LEN in Hk.
  assert (A : is_ok (snd (call K (VFinal (Some sig)) (st sc n max q false lg pr coin None None None (@Some bytes (concat parts))))) = true <-> accepts K sc q n (concat parts) sig).
  { destruct (decide (blen sig = n \/ ec sc = false)) as [L|L].
    - destruct (conv_ex sig B) as (b & C). { intros He. destruct L as [L|L]; [done|congruence]. }
      rewrite (verify_final K sc n max q lg pr coin (concat parts) sig b Hp Hq C). by apply accepts_conv.
    - assert (L1 : blen sig <> n) by tauto. assert (L2 : ec sc = true) by (destruct (ec sc); tauto).
      rewrite (refused_len lg pr coin (concat parts) sig L2 L1). split; [done|]. intros H. by apply not_accepted in H. }
  split; [|split; [|split]].
  - eexists. split; [apply (parts_run K sc n max q lg pr coin true false None None None parts (VFinal (Some sig)) Hp Hn Hk)|]. exact A.
  - destruct (one_is_final K sc n max q lg pr coin false None None None (concat parts) Hp Hk) as [O _]. rewrite O. exact A.
  - intros o' E. destruct (new_given K sc n max q lg pr coin sig o' E) as (cs & cset & os & b & -> & C & G & _). specialize (G Hp Hq). split.
    + eexists. split; [apply (parts_run K sc n max q lg pr coin true false cs cset os parts (VFinal None) Hp Hn Hk)|]. rewrite G. by apply accepts_conv.
    + destruct (one_is_final K sc n max q lg pr coin false cs cset os (concat parts) Hp Hk) as [O _]. rewrite O, G. by apply accepts_conv.
  - intros Ac. apply new_len; [done|]. destruct (N.eq_dec (blen sig) n) as [|L]; [done|]. by destruct (not_accepted _ _ L Ac).
Qed.
Theorem C51_verify_whole lg pr coin o d sig : new_op sc n max q false lg pr coin None = Ok o -> bytesok sig -> blen sig = n ->
  pieces sc = false -> takes sc max d ->
  (is_ok (snd (call K (VOne d (Some sig)) o)) = true <-> accepts K sc q n d sig) /\
  exists o', new_op sc n max q false lg pr coin (Some sig) = Ok o' /\ (is_ok (snd (call K (VOne d None) o')) = true <-> accepts K sc q n d sig).
Proof using Su Hq.
  intros E B L Hp Ht. rewrite new_plain in E. injection E as <-. destruct (conv_ex sig B (fun _ => L)) as (b & C). split.
  - rewrite (verify_one K sc n max q lg pr coin d sig b Hp Hq Ht (fun _ => L) C). by apply accepts_conv.
  - destruct (new_len lg pr coin sig B L) as (o' & E). exists o'. split; [done|].
    destruct (new_given K sc n max q lg pr coin sig o' E) as (cs & cset & os & b' & -> & C' & _ & G). rewrite (G Hp Hq d Ht). by apply accepts_conv.
Qed.

(* C51.  A signature made from data in any pieces is accepted for the data in any other pieces, in both ways to verify. *)
Theorem C51_round lg pr coin o (parts : list bytes) sig lg' pr' coin' v : new_op sc n max q true lg pr coin None = Ok o ->
  pieces sc = true -> parts <> [] -> (kept sc pr = true -> blen (concat parts) <= 1048576) ->
  snd (calls K (map SUpdate parts ++ [SFinal n]) o) = map (fun _ => Ok []) parts ++ [Ok sig] -> bytesok sig ->
  new_op sc n max q false lg' pr' coin' None = Ok v ->
  forall parts' : list bytes, concat parts' = concat parts -> parts' <> [] -> (kept sc pr' = true -> blen (concat parts) <= 1048576) ->
  (exists x, snd (calls K (map VUpdate parts' ++ [VFinal (Some sig)]) v) = map (fun _ => Ok []) parts' ++ [Ok x]) /\
  (exists x, snd (call K (VOne (concat parts) (Some sig)) v) = Ok x) /\
  exists v' x, new_op sc n max q false lg' pr' coin' (Some sig) = Ok v' /\ snd (calls K (map VUpdate parts' ++ [VFinal None]) v') = map (fun _ => Ok []) parts' ++ [Ok x].
Proof using Su Hq.
  intros E Hp Hn Hk R B Ev parts' Ec Hn' Hk'.
  destruct (C51_sign lg pr coin o parts E Hp Hn Hk) as (r & R1 & _ & R2). rewrite R in R1. apply app_inj_tail in R1 as [_ <-].
  destruct (k_sign K coin _) as [s|] eqn:Es; [|discriminate R2]. destruct R2 as (sig' & X & F & L). injection X as <-.
  assert (Ac : accepts K sc q n (concat parts) sig) by (exists s; split; [done|by apply (su_verify _ _ _ Su _ _ _ Es)]).
  rewrite <- Ec in Hk'. destruct (C51_verify lg' pr' coin' v parts' sig Ev B Hp Hn' Hk') as (V1 & V2 & V3 & V4). rewrite Ec in V1, V2, V3, V4.
  assert (OK : forall r : result bytes, is_ok r = true -> exists x, r = Ok x) by (intros [x|]; [eauto|discriminate]).
  split; [|split].
  - destruct V1 as (r & V0 & V1). apply V1 in Ac. destruct (OK _ Ac) as (x & ->). exists x. exact V0.
  - by apply OK, V2.
  - destruct (V4 Ac) as (v' & N'). destruct (V3 v' N') as ((r & V5 & V6) & _). apply V6 in Ac. destruct (OK _ Ac) as (x & ->). eauto.
Qed.
End C51.

(* C51.  Signing or verifying data in pieces with a digest mechanism agrees with the mechanism that takes the digest. *)
Theorem C51_digest K n max q lg pr coin o lg' pr' coin' o' (parts : list bytes) sig :
  suits K PqDigest n -> suits K PqHashed n -> params_ok PqDigest q max -> bytesok sig -> blen sig = n -> parts <> [] ->
  new_op PqDigest n max q false lg pr coin None = Ok o -> new_op PqHashed n max q false lg' pr' coin' None = Ok o' ->
  exists r, snd (calls K (map VUpdate parts ++ [VFinal (Some sig)]) o) = map (fun _ => Ok []) parts ++ [r] /\
    (is_ok r = true <-> is_ok (snd (call K (VOne (q_hash q (concat parts)) (Some sig)) o')) = true).
Proof.
  intros S1 S2 Hq B L Hn E E'.
  destruct (C51_verify K PqDigest n max q S1 Hq lg pr coin o parts sig E B eq_refl Hn ltac:(discriminate)) as ((r & R & V) & _).
  destruct Hq as (Q1 & x & Q2 & Q3).
  destruct (C51_verify_whole K PqHashed n max q S2 (conj Q1 (ex_intro _ x (conj Q2 Q3))) lg' pr' coin' o' (q_hash q (concat parts)) sig E' B L eq_refl (Q3 _)) as (V' & _).
  exists r. split; [exact R|]. rewrite V, V'. reflexivity.
Qed.

(* C51.  The message that is signed determines the context, the digest mechanism and the digest. *)
Theorem C51_domain q q' max max' h h' : params_ok PqHashed q max -> params_ok PqHashed q' max' ->
  covered PqHashed q h = covered PqHashed q' h' -> context q = context q' /\ q_mech q = q_mech q' /\ h = h'.
Proof.
  intros (_ & x & Q & _) (_ & x' & Q' & _) E. unfold covered in E. cbn [app] in E. injection E as El E.
  assert (L : length (context q) = length (context q')) by (unfold blen in El; lia).
  apply app_inj_1 in E as [Ec E]; [|exact L]. unfold oid in E. rewrite Q, Q' in E. cbn [app] in E. injection E as Ex E. subst x'. split; [done|]. split; [|done].
  clear - Q Q'. unfold sha_info in *.
  repeat match goal with H : (if ?a =? ?b then _ else _) = Some (x, _) |- _ => destruct (N.eqb_spec a b) as [?|_] end;
    try discriminate; try congruence; exfalso; congruence.
Qed.

(* An operation that was finished stays so. *)
Lemma eta_final o : o_final o = true -> set_final o = o.
Proof. destruct o; cbn. by intros ->. Qed.
Theorem C52_finished K k o : o_final o = true -> call K k o = (o, Err CKR_OPERATION_NOT_INITIALIZED).
Proof.
  intros F. pose proof (eta_final o F) as Eta. cbv [call Monad.mbind gets id].
  destruct (o_scheme o) eqn:Sc, k;
    cbv [no_bytes rsa_sign rsa_update rsa_sign_final rsa_verify rsa_verify_final ec_sign ec_update ec_sign_final ec_verify ec_verify_final
         ed_sign ed_update ed_sign_final ed_verify ed_verify_final pq_sign pq_update pq_sign_final pq_verify pq_verify_final unused running
         Monad.mbind gets ensure modify ret skip id]; rewrite ?Sc, ?F, ?Eta, ?F; destruct (o_use o); reflexivity.
Qed.

(* The calls that end an operation do so whatever they answer. *)
Definition keeps {A} (m : Op A) : Prop := forall o, o_final o = true -> o_final (fst (m o)) = true.
Definition ends {A} (m : Op A) : Prop := forall o, o_final (fst (m o)) = true.
Lemma keeps_bind {A B} (m : Op A) (f : A -> Op B) : keeps m -> (forall a, keeps (f a)) -> keeps (let! x := m in f x).
Proof. intros Hm Hf o F. unfold Monad.mbind. specialize (Hm o F). destruct (m o) as [o' [a|e]]; cbn [fst] in *; [by apply Hf|done]. Qed.
Lemma keeps_ret {A} (a : A) : keeps (ret a). Proof. by intros o. Qed.
Lemma keeps_skip : keeps skip. Proof. by intros o. Qed.
Lemma keeps_fail {A} e : keeps (@fail _ A e). Proof. by intros o. Qed.
Lemma keeps_lift {A} (r : result A) : keeps (lift r). Proof. by intros o. Qed.
Lemma keeps_raise {A} (r : ores A) : keeps (raise r). Proof. by destruct r; intros o. Qed.
Lemma keeps_gets {A} (f : sigop -> A) : keeps (gets f). Proof. by intros o. Qed.
Lemma keeps_ensure b e : keeps (ensure b e). Proof. by destruct b; intros o. Qed.
Lemma keeps_ctx {A} (f : sctx -> sctx * ores A) : keeps (on_ctx f). Proof. intros o F. unfold on_ctx. by destruct (f (o_ctx o)). Qed.
Create HintDb keeps.
#[export] Hint Resolve keeps_ret keeps_skip keeps_fail keeps_lift keeps_raise keeps_gets keeps_ensure keeps_ctx : keeps.
Ltac keep := repeat (first [apply keeps_bind; [|intros]|solve [eauto with keeps]|match goal with |- keeps (match ?x with _ => _ end) => destruct x end]).
Lemma ends_modify {B} (f : Op B) : keeps f -> ends (modify set_final ;;; f).
Proof. intros H o. unfold Monad.mbind, modify. by apply H. Qed.
Lemma ends_running {B} (f : Op B) o : o_use o = true -> ends f -> o_final (fst ((running ;;; f) o)) = true.
Proof. intros U H. cbv [running Monad.mbind gets ensure modify ret skip id]. rewrite U. destruct (o_final o) eqn:F; cbn; [exact F|apply H]. Qed.
Lemma ends_no_bytes m o : o_final (fst (no_bytes m o)) = o_final (fst (m o)).
Proof. unfold no_bytes, Monad.mbind. by destruct (m o) as [? []]. Qed.
(* C52.  After the last call the operation is over, whatever the answer. *)
Theorem C52_over K k o : o_use o = true -> match k with SFinal _ | VFinal _ => True | _ => False end -> o_final (fst (call K k o)) = true.
Proof.
  intros U Hk. cbv [call Monad.mbind gets id]. destruct k; try done; destruct (o_scheme o) eqn:Sc; rewrite ?ends_no_bytes;
    unfold rsa_sign_final, rsa_verify_final, ec_sign_final, ec_verify_final, ed_sign_final, ed_verify_final, pq_sign_final, pq_verify_final;
    (apply ends_running; [exact U|]); apply ends_modify; unfold pq_sign_hash, pq_verify_hash; keep.
Qed.

Lemma ends_unused {B} (F : sigop -> Op B) x : o_use x = false -> o_final (fst (F x x)) = true -> o_final (fst ((unused ;;; let! o := gets id in F o) x)) = true.
Proof. intros U H. cbv [unused Monad.mbind gets ensure modify ret skip id]. rewrite U. cbn. destruct (o_final x) eqn:E; cbn; [exact E|exact H]. Qed.
(* C52.  After a single call too, except one on more than one MiB for the mechanisms whose data is kept. *)
Theorem C52_over_single_partial K sc n max q sign lg pr coin sig o k : new_op sc n max q sign lg pr coin sig = Ok o ->
  match k with SSign d _ | VOne d _ => kept sc pr = true -> blen d <= 1048576 | _ => False end -> o_final (fst (call K k o)) = true.
Proof.
  change 1048576 with MAX_BUFFER_LEN. intros E Hk.
  assert (X : exists cs cset os, o = st sc n max q sign lg pr coin cs cset os None).
  { unfold new_op in E. destruct sig as [sig|]; [|injection E as <-; exists None, None, None; destruct sc, pr; reflexivity].
    destruct sc as [[]| | | | | | |]; try (destruct (blen sig =? n); cbn [negb] in E; [|discriminate E]);
      try (destruct (der_of_sig sig) as [b|]; cbn [rbind] in E; [|discriminate E]);
      destruct sign, pr, lg; cbn in E; try discriminate E; injection E as <-; do 3 eexists; reflexivity. }
  destruct X as (cs & cset & os & ->). destruct (pieces sc) eqn:Hp.
  - destruct k as [d m| | |d s| |]; try done; destruct (one_is_final K sc n max q lg pr coin sign cs cset os d Hp Hk) as [O1 O2]; [rewrite O2|rewrite O1]; by apply C52_over.
  - clear E. destruct k as [d m| | |d s| |]; try done; clear Hk; destruct sc; try discriminate Hp; cbv [call Monad.mbind gets id]; cbn [o_scheme st]; rewrite ?ends_no_bytes;
      unfold rsa_sign, rsa_verify, ec_sign, ec_verify, pq_sign, pq_verify;
      (apply ends_unused; [reflexivity|]); cbn [o_scheme st]; apply ends_modify; unfold pq_sign_hash, pq_verify_hash; keep.
Qed.

(* C52 fails for EdDSA: the contract of the traits (src/mechanism.rs:538-544) says that an operation is over when a piece is
   refused.  A piece that would make more than one MiB is refused, the operation goes on, and signs what came before it. *)
Theorem C52_lost_piece K n max q lg pr coin o d1 d2 : new_op Ed n max q true lg pr coin None = Ok o ->
  blen d1 <= 1048576 -> 1048576 < blen d1 + blen d2 ->
  snd (calls K [SUpdate d1; SUpdate d2; SFinal n] o) = [Ok []; Err CKR_TOKEN_RESOURCE_EXCEEDED; snd (call K (SSign d1 n) o)].
Proof.
  intros E H1 H2. rewrite new_plain in E. injection E as <-. change 1048576 with MAX_BUFFER_LEN in *.
  destruct (one_is_final K Ed n max q lg pr coin true None None None d1 eq_refl (fun _ => H1)) as [_ O]. rewrite O.
  assert (U : call K (SUpdate d1) (st Ed n max q true lg pr coin None None None None) = (st Ed n max q true lg pr coin None None None (Some d1), Ok []))
    by (apply (update_step K Ed n max q lg pr coin true None None None None d1 eq_refl (fun _ => H1))).
  assert (R : call K (SUpdate d2) (st Ed n max q true lg pr coin None None None (Some d1)) = (st Ed n max q true lg pr coin None None None (Some d1), Err CKR_TOKEN_RESOURCE_EXCEEDED)).
  { cbv [call no_bytes ed_update on_ctx os_update store_data Monad.mbind gets ensure modify ret skip id]; cbn. replace (MAX_BUFFER_LEN <? blen d1 + blen d2) with true by lia. reflexivity. }
  cbn [calls]. rewrite U. cbv beta iota. rewrite R. cbv beta iota. by destruct (call K (SFinal n) _).
Qed.
(* The pure post-quantum mechanisms end the operation. *)
Theorem C52_piece_ends_partial K n max q lg coin o d1 d2 : new_op PqPure n max q true lg false coin None = Ok o ->
  blen d1 <= 1048576 -> 1048576 < blen d1 + blen d2 ->
  snd (calls K [SUpdate d1; SUpdate d2; SFinal n] o) = [Ok []; Err CKR_DEVICE_ERROR; Err CKR_OPERATION_NOT_INITIALIZED].
Proof.
  intros E H1 H2. rewrite new_plain in E. injection E as <-. change 1048576 with MAX_BUFFER_LEN in *.
  assert (U : call K (SUpdate d1) (st PqPure n max q true lg false coin None None None None) = (st PqPure n max q true lg false coin None None None (Some d1), Ok []))
    by (apply (update_step K PqPure n max q lg false coin true None None None None d1 eq_refl (fun _ => H1))).
  assert (R : exists x, call K (SUpdate d2) (st PqPure n max q true lg false coin None None None (Some d1)) = (x, Err CKR_DEVICE_ERROR) /\ o_final x = true).
  { cbv [call no_bytes pq_update on_ctx os_update store_data Monad.mbind gets ensure modify ret skip id]; cbn. replace (MAX_BUFFER_LEN <? blen d1 + blen d2) with true by lia.
    eexists. split; reflexivity. }
  destruct R as (x & R & Fx). cbn [calls]. rewrite U. cbv beta iota. rewrite R. cbv beta iota. by rewrite (C52_finished K (SFinal n) x Fx).
Qed.

(* A toy key for the cases shown: "signatures" of four bytes, and of two numbers of two bytes each *)
Definition mix (m : bytes) : N := (unbe m * 257 + blen m) mod 65536.
Definition toy_k : keyalg := {| k_sign := fun _ m => Some (be 4 (mix m)); k_verify := fun m s => bytes_eqb s (be 4 (mix m)); k_size := 4 |}.
Definition toy_ec : keyalg := {|
  k_sign := fun c m => match der_of_sig (be 2 (c mod 65536) ++ be 2 (mix m)) with Ok b => Some b | Err _ => None end;
  k_verify := fun m s => match sig_of_der s 4 with Ok x => bytes_eqb (skipn 2 x) (be 2 (mix m)) | Err _ => false end;
  k_size := 14 |}.
Lemma toy_k_suits sc : ec sc = false -> suits toy_k sc 4.
Proof.
  intros He. constructor; rewrite ?He; cbn [toy_k k_sign k_verify k_size].
  - intros c m s [= <-]. by apply bool_decide_eq_true.
  - intros c m s [= <-]. unfold blen. by rewrite be_length.
  - intros m s V _. apply bool_decide_eq_true in V as ->. unfold blen. by rewrite be_length.
  - done.
  - done.
Qed.
Lemma toy_ec_suits sc : ec sc = true -> suits toy_ec sc 4.
Proof.
  intros He.
  assert (F : forall c m s, k_sign toy_ec c m = Some s -> exists r, r < 65536 /\ mix m < 65536 /\ is_sig r (mix m) s /\ sig_of_der s 4 = Ok (be 2 r ++ be 2 (mix m))).
  { intros c m s E. cbn [toy_ec k_sign] in E. assert (R : c mod 65536 < 256 ^ N.of_nat 2) by (change (256 ^ N.of_nat 2) with 65536; by apply N.mod_lt).
    assert (T : mix m < 256 ^ N.of_nat 2) by (change (256 ^ N.of_nat 2) with 65536; by apply N.mod_lt).
    destruct (C49_ecdsa_forms 2 _ _ ltac:(lia) ltac:(reflexivity) R T) as (b & B1 & _ & B3 & B4 & _). rewrite B3 in E. injection E as <-.
    exists (c mod 65536). done. }
  constructor; rewrite ?He.
  - intros c m s E. destruct (F c m s E) as (r & _ & _ & _ & D). cbn [toy_ec k_verify]. rewrite D. apply bool_decide_eq_true.
    rewrite skipn_app, be_length, skipn_all2 by (rewrite be_length; lia). done.
  - intros c m s E. destruct (F c m s E) as (r & R & T & S & _). exists r, (mix m). done.
  - done.
  - done.
  - exists 2%nat. split; [done|lia].
Qed.
Definition toy_q : pq := {| q_ctx := Some [7; 7]; q_mech := CKM_SHA256; q_hash := fun d => be 32 (mix d) |}.
Definition toy_max (sc : scheme) : N := match sc with PqHashed | PqDigest => 32 | _ => 4 end.
Lemma toy_params sc : params_ok sc toy_q (toy_max sc).
Proof. destruct sc; try done; (split; [vm_compute; discriminate|exists 1; split; [reflexivity|intros d; unfold blen; cbn [toy_q q_hash]; by rewrite be_length]]). Qed.
(* For every family: signed in three pieces, verified in two and in one *)
Definition toy_key (sc : scheme) : keyalg := if ec sc then toy_ec else toy_k.
Lemma toy_suits sc : suits (toy_key sc) sc 4.
Proof. unfold toy_key. destruct (ec sc) eqn:He; [by apply toy_ec_suits|by apply toy_k_suits]. Qed.
Definition toy_op sc sign lg pr sig := match new_op sc 4 (toy_max sc) toy_q sign lg pr 70 sig with Ok o => o | Err _ => st sc 0 0 toy_q sign lg pr 0 None None None None end.
Definition toy_round sc lg pr : bool :=
  let r := snd (calls (toy_key sc) (map SUpdate [[1; 2]; []; [3]] ++ [SFinal 4]) (toy_op sc true lg pr None)) in
  match r with
  | [Ok _; Ok _; Ok _; Ok sig] =>
      forallb is_ok (snd (calls (toy_key sc) (map VUpdate [[1]; [2; 3]] ++ [VFinal (Some sig)]) (toy_op sc false lg pr None))) &&
      forallb is_ok (snd (calls (toy_key sc) (map VUpdate [[1]; [2; 3]] ++ [VFinal None]) (toy_op sc false lg pr (Some sig)))) &&
      negb (is_ok (snd (call (toy_key sc) (VOne [1; 2; 4] (Some sig)) (toy_op sc false lg pr None))))
  | _ => false
  end.
Example toy_rounds : forallb (fun sc => forallb (fun lg => forallb (fun pr => toy_round sc lg pr) [true; false]) [true; false]) [RsaHash; EcHash; Ed; PqPure; PqDigest] = true.
Proof. vm_compute. reflexivity. Qed.

(* C52.  A wrong signature is answered by CKR_DEVICE_ERROR, not by CKR_SIGNATURE_INVALID, except with EdDSA. *)
Theorem C52_wrong_code K sc n max q lg pr coin o (parts : list bytes) sig : suits K sc n -> params_ok sc q max ->
  new_op sc n max q false lg pr coin None = Ok o -> bytesok sig -> blen sig = n ->
  pieces sc = true -> parts <> [] -> (kept sc pr = true -> blen (concat parts) <= 1048576) ->
  ~ accepts K sc q n (concat parts) sig ->
  snd (call K (VOne (concat parts) (Some sig)) o) = Err (match sc with Ed => CKR_SIGNATURE_INVALID | _ => CKR_DEVICE_ERROR end).
Proof.
  intros Su Hq E B L Hp Hn Hk Na. rewrite new_plain in E. injection E as <-. change 1048576 with MAX_BUFFER_LEN in Hk.
  destruct (one_is_final K sc n max q lg pr coin false None None None (concat parts) Hp Hk) as [O _]. rewrite O.
  destruct (conv_ex K sc n Su sig B (fun _ => L)) as (b & C). rewrite (verify_final K sc n max q lg pr coin (concat parts) sig b Hp Hq C).
  pose proof (accepts_conv K sc n q Su (concat parts) sig b B C) as A. unfold vres in *. destruct (k_verify K _ b); [|done]. destruct (Na (proj1 A eq_refl)).
Qed.
Theorem C52_wrong_code_refuted : exists sc sig o, suits (toy_key sc) sc 4 /\ new_op sc 4 4 toy_q false false true 70 None = Ok o /\
  ~ accepts (toy_key sc) sc toy_q 4 [1; 2; 3] sig /\ snd (call (toy_key sc) (VOne [1; 2; 3] (Some sig)) o) = Err CKR_DEVICE_ERROR /\ CKR_DEVICE_ERROR <> CKR_SIGNATURE_INVALID.
Proof.
  exists RsaHash, [0; 0; 0; 9]. eexists. split; [apply toy_suits|]. split; [reflexivity|]. split; [|split; [vm_compute; reflexivity|discriminate]].
  intros (o & F & V). cbn in F. subst o. vm_compute in V. discriminate V.
Qed.
Theorem C52_lost_piece_refuted : exists d1 d2 sig o, new_op Ed 4 4 toy_q true false false 70 None = Ok o /\ d2 <> [] /\
  snd (calls toy_k [SUpdate d1; SUpdate d2; SFinal 4] o) = [Ok []; Err CKR_TOKEN_RESOURCE_EXCEEDED; Ok sig] /\ accepts toy_k Ed toy_q 4 d1 sig.
Proof.
  exists [1; 2], (repeat 0 (N.to_nat 1048576)). do 2 eexists. split; [reflexivity|]. split; [|split].
  - replace (N.to_nat 1048576) with (S (N.to_nat 1048575)) by lia. discriminate.
  - rewrite (C52_lost_piece toy_k 4 4 toy_q false false 70 _ _ _ eq_refl); [|vm_compute; discriminate|unfold blen; rewrite repeat_length, N2Nat.id; reflexivity].
    vm_compute. reflexivity.
  - exists (be 4 (mix [1; 2])). split; [reflexivity|]. by apply bool_decide_eq_true.
Qed.
