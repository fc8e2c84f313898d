(* C54: key agreement. *)
From Verif Require Import Base Monad Pkcs11 Attr Obj Factory Create Der DerSpec DerFacts Agree AgreeSpec MsgFacts.
Local Open Scope N_scope.

(* What OpenSSL promises: a secret has the size of the field; the private value of one side with the public value of the other
   gives the same secret both ways. *)
Record group_laws (G : group) : Prop := {
  gl_bits : (g_bits G + 7) / 8 = g_len G;
  gl_len : forall c a p s, g_secret G c a p = Some s -> blen s = g_len G }.
Definition paired (G : group) (a pa b pb : bytes) : Prop := forall c, g_secret G c a pb = g_secret G c b pa.

Lemma destruct_list_last_aux (v : bytes) : v = [] \/ exists v0 x, v = v0 ++ [x].
Proof. induction v as [|x v _] using rev_ind; [by left|right; eauto]. Qed.

Section agree.
Context (G : group) (L : group_laws G).

Lemma blen_firstn n (b : bytes) : n <= blen b -> blen (firstn (N.to_nat n) b) = n.
Proof. intros. unfold blen in *. rewrite firstn_length. lia. Qed.
Lemma os_full s : blen s = g_len G -> os_derive (g_len G) s (raw_max G) = s.
Proof.
  intros H. unfold os_derive, raw_max. rewrite (gl_bits _ L), N.leb_refl, <- H. unfold blen. rewrite Nat2N.id. apply firstn_all.
Qed.
Lemma tail_ok n s : n <= blen s -> is_tail n s (skipn (N.to_nat (blen s - n)) s).
Proof.
  intros H. split; [unfold blen in *; rewrite skipn_length; lia|]. exists (firstn (N.to_nat (blen s - n)) s). by rewrite firstn_skipn.
Qed.
Lemma tail_unique n s v v' : is_tail n s v -> is_tail n s v' -> v = v'.
Proof. intros [H1 [p ->]] [H2 [q H]]. unfold blen in *. apply app_inj_2 in H as [_ ->]; [done|]. lia. Qed.
Lemma kdf_ok k d x : kdf_digest k = Ok d -> kdf_is_x963 k = Ok x -> In (k, (x, d)) kdf_table.
Proof.
  unfold kdf_digest, kdf_is_x963. intros H1 H2.
  destruct ((k =? 2) || (k =? 14)) eqn:E1; [|destruct ((k =? 5) || (k =? 15)) eqn:E2; [|destruct ((k =? 6) || (k =? 16)) eqn:E3; [|destruct ((k =? 7) || (k =? 17)) eqn:E4; [|
  destruct ((k =? 8) || (k =? 18)) eqn:E5; [|destruct ((k =? 10) || (k =? 19)) eqn:E6; [|destruct ((k =? 11) || (k =? 20)) eqn:E7; [|destruct ((k =? 12) || (k =? 21)) eqn:E8; [|
  destruct ((k =? 13) || (k =? 22)) eqn:E9; [|done]]]]]]]]].
  all: match goal with E : (_ =? _) || (_ =? _) = true |- _ => apply orb_true_iff in E as [E|E]; apply N.eqb_eq in E; subst k end.
  all: vm_compute in H1, H2; injection H1 as <-; injection H2 as <-; vm_compute; tauto.
Qed.
Lemma kdf_complete k d x : In (k, (x, d)) kdf_table -> kdf_digest k = Ok d /\ kdf_is_x963 k = Ok x /\ k <> CKD_NULL.
Proof.
  intros H. cbn in H. repeat (destruct H as [H|H]; [injection H as <- <- <-; split; [|split]; [vm_compute; reflexivity..|done]|]). done.
Qed.

(* The point is read the same raw or encoded. *)
Lemma point_ok p b : blen p = 2 * raw_max G + 1 -> blen p < 2 ^ 32 -> spells p b -> ecdh_point G b = Ok p.
Proof.
  intros Hp Hl [->|Hb]; unfold ecdh_point.
  - by rewrite Hp, N.ltb_irrefl.
  - assert (blen p < blen b) as Hlt. { destruct Hb as (l & _ & ->). unfold blen. cbn [length]. rewrite app_length. lia. }
    rewrite <- Hp, (proj2 (N.ltb_lt _ _) Hlt). pose proof (read_tlv_ok 4 p b [] Hl Hb) as R. rewrite app_nil_r in R. unfold TAG_OCTETS. by rewrite R.
Qed.

(* The size of the key to make: the CKA_VALUE_LEN of the template, or what the key type asks for. *)
Definition asked (k : fkind) (max : N) (tmpl : list ckattr) (n : N) : Prop :=
  value_len tmpl = Ok (Some n) \/ value_len tmpl = Ok None /\ recommend k max = Ok n.

Theorem C54_ecdh_value mech kdf p pub shared o priv fs tmpl t' :
  spells p pub -> blen p = 2 * g_len G + 1 -> blen p < 2 ^ 32 ->
  ecdh_new mech kdf (Area pub) shared = Ok o -> snd (ecdh_derive G priv fs tmpl o) = Ok t' ->
  exists f s n v, get_obj_factory_from_key_template fs tmpl = Ok f /\ asked (f_kind f) (g_len G) tmpl n /\
    g_secret G (mech =? CKM_ECDH1_COFACTOR_DERIVE) priv p = Some s /\ t' = tmpl ++ [ca CKA_VALUE v] /\
    (kdf = CKD_NULL -> is_tail n s v) /\
    (kdf <> CKD_NULL -> value_len tmpl = Ok (Some n) /\ exists x d, In (kdf, (x, d)) kdf_table /\
       g_kdf G x d s (match shared with Null 0 => None | Null _ => Some [] | Area b => Some b end) n = Some v).
Proof.
  intros Hs Hp Hl Hn. assert (raw_max G = g_len G) as Hr by apply (gl_bits _ L).
  assert (o = {| h_mech := mech; h_kdf := kdf; h_public := pub; h_shared := match shared with Null 0 => None | Null _ => Some [] | Area b => Some b end; h_final := false |}) as ->.
  { unfold ecdh_new in Hn. destruct (_ && _); [done|]. destruct (_ || _); [done|]. injection Hn as <-. cbn [a_bytes]. f_equal.
    destruct shared as [[|x]|b]; cbn; done. }
  clear Hn. unfold ecdh_derive. cbv [Monad.mbind gets ensure modify lift ret fail id]. cbn [negb h_final h_mech h_kdf h_public h_shared].
  destruct (get_obj_factory_from_key_template fs tmpl) as [f|] eqn:Hf; cbn [snd fst]; [|done].
  unfold ecdh_value. cbn [negb h_final h_mech h_kdf h_public h_shared].
  destruct (ecdh_len G kdf (f_kind f) tmpl) as [n|] eqn:El; cbn [rbind snd]; [|done].
  rewrite (point_ok p pub) by (rewrite ?Hr; done). cbn [rbind].
  destruct (g_secret G _ priv p) as [s|] eqn:Es; cbn [snd]; [|done]. pose proof (gl_len _ L _ _ _ _ Es) as Hs'. rewrite (os_full s Hs').
  assert (asked (f_kind f) (g_len G) tmpl n /\ (kdf <> CKD_NULL -> value_len tmpl = Ok (Some n))) as [Ha Hb].
  { unfold ecdh_len in El. rewrite Hr in El. unfold asked. destruct (value_len tmpl) as [[m|]|]; cbn [rbind] in El; [|..|done].
    - destruct (_ && _); [done|]. injection El as <-. split; [by left|done].
    - destruct (N.eqb_spec kdf CKD_NULL) as [->|]; cbn [negb] in El; [|done]. split; [|done]. right. split; [done|].
      destruct (f_kind f); try done; destruct (recommend _ _); (done || by injection El as <-). }
  destruct (N.eqb_spec kdf CKD_NULL) as [->|Hk].
  - destruct (N.ltb_spec (blen s) n); cbn [snd]; [done|]. intros H1. injection H1 as <-.
    exists f, s, n, (skipn (N.to_nat (blen s - n)) s). split; [done|]. split; [done|]. split; [done|]. split; [done|]. split; [|done]. intros _. by apply tail_ok.
  - destruct (kdf_digest kdf) as [d|] eqn:E1; cbn [rbind snd]; [|done]. destruct (kdf_is_x963 kdf) as [x|] eqn:E2; cbn [rbind snd]; [|done].
    destruct (g_kdf G x d s _ n) as [v|] eqn:Ev; cbn [snd]; [|done]. intros H1. injection H1 as <-.
    exists f, s, n, v. split; [done|]. split; [done|]. split; [done|]. split; [done|]. split; [done|]. intros _. split; [by apply Hb|]. exists x, d. split; [by apply kdf_ok|done].
Qed.

(* Both sides make the same key, or get the same error, each naming the point of the other as it likes. *)
Theorem C54_ecdh_same mech kdf shared pa pb ba bb oa ob a b fs tmpl :
  paired G a pa b pb -> spells pa ba -> spells pb bb -> blen pa = 2 * g_len G + 1 -> blen pb = 2 * g_len G + 1 -> g_len G < 2 ^ 30 ->
  ecdh_new mech kdf (Area bb) shared = Ok oa -> ecdh_new mech kdf (Area ba) shared = Ok ob ->
  snd (ecdh_derive G a fs tmpl oa) = snd (ecdh_derive G b fs tmpl ob).
Proof.
  intros Hc Sa Sb La Lb Hl Ha Hb. assert (raw_max G = g_len G) as Hr by apply (gl_bits _ L).
  change (2 ^ 30) with 1073741824 in Hl. assert (blen pa < 2 ^ 32 /\ blen pb < 2 ^ 32) as [Ka Kb] by (change (2 ^ 32) with 4294967296; lia).
  unfold ecdh_new in Ha, Hb. destruct (_ && _); [discriminate Ha|].
  destruct (a_null (Area bb) || a_empty (Area bb)); [discriminate Ha|]. destruct (a_null (Area ba) || a_empty (Area ba)); [discriminate Hb|].
  injection Ha as <-. injection Hb as <-. unfold ecdh_derive. cbv [Monad.mbind gets ensure modify lift ret fail id]. cbn [negb h_final h_mech h_kdf h_public h_shared].
  destruct (get_obj_factory_from_key_template fs tmpl) as [f|]; cbn [snd fst]; [|done].
  unfold ecdh_value. cbn [negb h_final h_mech h_kdf h_public h_shared a_bytes].
  destruct (ecdh_len G kdf (f_kind f) tmpl) as [n|]; cbn [rbind snd]; [|done].
  rewrite (point_ok pa ba), (point_ok pb bb) by (rewrite ?Hr; done). cbn [rbind]. rewrite (Hc _).
  match goal with |- snd (match ?x with Ok _ => _ | Err _ => _ end) = _ => by destruct x end.
Qed.
(* The key is made whenever it can be. *)
Theorem C54_ecdh_made mech p pub priv fs tmpl f n s :
  spells p pub -> blen p = 2 * g_len G + 1 -> blen p < 2 ^ 32 -> get_obj_factory_from_key_template fs tmpl = Ok f ->
  f_kind f = FAes \/ (exists m, f_kind f = FSecret m) -> asked (f_kind f) (g_len G) tmpl n -> n <= g_len G ->
  g_secret G (mech =? CKM_ECDH1_COFACTOR_DERIVE) priv p = Some s ->
  exists o t', ecdh_new mech CKD_NULL (Area pub) (Null 0) = Ok o /\ snd (ecdh_derive G priv fs tmpl o) = Ok t'.
Proof.
  intros Hs Hp Hl Hf Hk Ha Hn Es. assert (raw_max G = g_len G) as Hr by apply (gl_bits _ L). pose proof (gl_len _ L _ _ _ _ Es) as Hs'.
  assert (blen pub <> 0) as Hz. { destruct Hs as [->|(l & _ & ->)]; [rewrite Hp; lia|unfold blen; cbn [length]; lia]. }
  eexists _, _. split. { unfold ecdh_new. cbn [a_null a_empty negb orb andb N.eqb]. rewrite (proj2 (N.eqb_neq _ _) Hz). cbn. reflexivity. }
  unfold ecdh_derive. cbv [Monad.mbind gets ensure modify lift ret fail id]. cbn [negb h_final h_mech h_kdf h_public h_shared]. rewrite Hf. cbn [snd fst].
  unfold ecdh_value. cbn [negb h_final h_mech h_kdf h_public h_shared].
  assert (ecdh_len G CKD_NULL (f_kind f) tmpl = Ok n) as ->.
  { unfold ecdh_len. rewrite Hr. destruct Ha as [->|[-> Ha]]; cbn [rbind]; change (CKD_NULL =? CKD_NULL) with true; cbn [negb andb].
    - rewrite (proj2 (N.ltb_ge _ _) Hn). done.
    - destruct Hk as [Hk|[m Hk]]; rewrite Hk in Ha |- *; by rewrite Ha. }
  cbn [rbind]. rewrite (point_ok p pub) by (rewrite ?Hr; done). cbn [rbind]. rewrite Es, (os_full s Hs'). unfold CKD_NULL. cbn [N.eqb Pos.eqb].
  rewrite Hs', (proj2 (N.ltb_ge _ _) Hn). cbn [snd]. reflexivity.
Qed.

(* ---- finite field ---- *)
Lemma nopad_full s : hd 0 s <> 0 -> nopad s = s.
Proof. destruct s as [|x s]; [done|]. cbn. intros H. by rewrite (proj2 (N.eqb_neq _ _) H). Qed.
Lemma nopad_le s : (length (nopad s) <= length s)%nat.
Proof. induction s as [|x s IH]; cbn; [lia|]. destruct (_ =? _); cbn; lia. Qed.
Lemma nopad_short s : s <> [] -> hd 0 s = 0 -> (length (nopad s) < length s)%nat.
Proof. destruct s as [|x s]; [done|]. cbn. intros _ ->. cbn. pose proof (nopad_le s). lia. Qed.
Lemma ffdh_len_ok k tmpl n : ffdh_len G k tmpl = Ok n -> asked k (g_len G) tmpl n.
Proof.
  unfold ffdh_len, asked. destruct (value_len tmpl) as [[m|]|]; cbn [rbind]; [|..|done].
  - destruct (_ <? _); [done|]. intros H. injection H as <-. by left.
  - intros H. right. split; [done|]. destruct k; try done; destruct (recommend _ _); (done || by injection H as <-).
Qed.
Lemma ffdh_open public priv fs tmpl t' : ffdh_derive G public priv fs tmpl = Ok t' ->
  exists f s n v, get_obj_factory_from_key_template fs tmpl = Ok f /\ asked (f_kind f) (g_len G) tmpl n /\ g_secret G false priv public = Some s /\
    blen s = g_len G /\ t' = tmpl ++ [ca CKA_VALUE v] /\ v = os_derive (g_len G) (nopad s) n /\ (blen v = n \/ n = g_len G).
Proof.
  unfold ffdh_derive. destruct (_ =? _); [done|]. destruct (get_obj_factory_from_key_template fs tmpl) as [f|] eqn:Hf; cbn [rbind]; [|done].
  unfold ffdh_value. destruct (ffdh_len G (f_kind f) tmpl) as [n|] eqn:El; cbn [rbind]; [|done].
  destruct (g_secret G false priv public) as [s|] eqn:Es; cbn [rbind]; [|done]. intros H.
  exists f, s, n, (os_derive (g_len G) (nopad s) n). split; [done|]. split; [by apply ffdh_len_ok|]. split; [done|]. split; [by eapply (gl_len _ L)|].
  destruct (N.eqb_spec (blen (os_derive (g_len G) (nopad s) n)) n) as [He|He]; cbn [rbind] in H.
  { split; [by injection H as <-|]. split; [done|by left]. }
  destruct (N.eqb_spec n (g_len G)) as [Hn|Hn]; cbn [negb] in H; [|done].
  split; [|split; [done|by right]].
  destruct (f_kind f); try done; destruct (recommend _ _); try done; cbn [rbind] in H; destruct (_ =? _) in H; (done || by injection H as <-).
Qed.
Theorem C54_ffdh_same pa pb a b fs tmpl : paired G a pa b pb -> pa <> [] -> pb <> [] ->
  ffdh_derive G pb a fs tmpl = ffdh_derive G pa b fs tmpl.
Proof.
  intros Hc Ha Hb. unfold ffdh_derive, ffdh_value. rewrite (Hc false). destruct pa, pb; done.
Qed.
(* The value is the end of the secret if the secret does not begin with a zero byte. *)
Theorem C54_ffdh_value_partial public priv fs tmpl t' s : ffdh_derive G public priv fs tmpl = Ok t' ->
  g_secret G false priv public = Some s -> hd 0 s <> 0 ->
  exists f n v, get_obj_factory_from_key_template fs tmpl = Ok f /\ asked (f_kind f) (g_len G) tmpl n /\ t' = tmpl ++ [ca CKA_VALUE v] /\ is_tail n s v.
Proof.
  intros H Es Hh. apply ffdh_open in H as (f & s' & n & v & F1 & F2 & F3 & F4 & F5 & F6 & F7). assert (s' = s) as -> by congruence.
  exists f, n, v. split; [done|]. split; [done|]. split; [done|]. rewrite nopad_full in F6 by done. unfold os_derive in F6.
  destruct (N.leb_spec (g_len G) n) as [Hl|Hl].
  - rewrite firstn_all2 in F6 by (unfold blen in *; lia). subst v. split; [|by exists []]. destruct F7 as [F7|F7]; congruence.
  - cbv zeta in F6. rewrite (proj2 (N.ltb_ge (blen s) n)) in F6 by lia. rewrite <- F4 in F6. rewrite N.sub_diag in F6. cbn [repeat N.to_nat] in F6. rewrite app_nil_r in F6.
    rewrite F6. apply tail_ok. lia.
Qed.
(* Otherwise it is not: whatever secret begins with a zero byte and ends with another, the key is not its end. *)
Lemma last_zeros (b : bytes) k : (0 < k)%nat -> forall m, (m < length b + k)%nat -> List.last (skipn m (b ++ repeat 0 k)) 0 = 0.
Proof.
  intros Hk. induction b as [|x b IH]; intros m Hm; cbn [app length] in *.
  - assert (forall i, List.last (repeat 0 i) 0 = 0) as Hr. { induction i as [|[|i] IHi]; [done|done|exact IHi]. }
    clear Hk. revert m Hm. induction k as [|k IHk]; intros m Hm; [lia|]. destruct m; [apply Hr|]. cbn [repeat skipn]. apply IHk. lia.
  - destruct m as [|m]; [|cbn [skipn]; apply IH; lia]. specialize (IH 0%nat ltac:(lia)). cbn [skipn] in *.
    destruct (b ++ repeat 0 k) eqn:E; [|exact IH]. apply app_eq_nil in E as [_ E]. destruct k; [lia|done].
Qed.
Theorem C54_ffdh_value_refuted public priv fs tmpl t' f s n v : ffdh_derive G public priv fs tmpl = Ok t' ->
  get_obj_factory_from_key_template fs tmpl = Ok f -> asked (f_kind f) (g_len G) tmpl n ->
  g_secret G false priv public = Some s -> s <> [] -> hd 0 s = 0 -> List.last s 0 <> 0 -> 0 < n < g_len G ->
  t' = tmpl ++ [ca CKA_VALUE v] -> ~ is_tail n s v.
Proof.
  intros H Hf Ha Es Hne Hh Hlast Hn Ht [T1 [p T2]].
  apply ffdh_open in H as (f' & s' & n' & v' & F1 & F2 & F3 & F4 & F5 & F6 & F7). assert (s' = s) as -> by congruence. assert (f' = f) as -> by congruence.
  assert (n' = n) as ->. { destruct Ha as [Ha|[Ha Ha']], F2 as [F2|[F2 F2']]; congruence. }
  assert (v' = v) as ->. { rewrite F5 in Ht. apply app_inj_2 in Ht as [_ Ht]; [|done]. by injection Ht as ->. }
  destruct F7 as [F7|F7]; [|lia]. unfold os_derive in F6. rewrite (proj2 (N.leb_gt (g_len G) n)) in F6 by lia. cbv zeta in F6.
  pose proof (nopad_short s Hne Hh) as Hs. unfold blen in F4. set (k := N.to_nat (g_len G - blen (nopad s))) in F6.
  assert (0 < k)%nat as Hk by (unfold k, blen; lia).
  assert (List.last v 0 = 0) as Hz.
  { rewrite F6. apply last_zeros; [done|]. assert (blen v = blen v) as Hv by done. rewrite F6 in Hv at 1. unfold blen in Hv. rewrite skipn_length, app_length, repeat_length in Hv.
    unfold blen in F7. destruct (_ <? _); unfold k, blen in *; lia. }
  apply Hlast. rewrite T2. destruct (destruct_list_last_aux v) as [->|(v0 & x & ->)]; [unfold blen in T1; cbn in T1; lia|].
  rewrite app_assoc. rewrite List.last_last in *. done.
Qed.
(* A key as long as the modulus is the secret without its leading zeros: it is shorter than asked for. *)
Theorem C54_ffdh_full_refuted public priv fs tmpl t' f s : ffdh_derive G public priv fs tmpl = Ok t' ->
  get_obj_factory_from_key_template fs tmpl = Ok f -> asked (f_kind f) (g_len G) tmpl (g_len G) ->
  g_secret G false priv public = Some s -> s <> [] -> hd 0 s = 0 ->
  exists v, t' = tmpl ++ [ca CKA_VALUE v] /\ blen v < g_len G /\ (exists k, s = repeat 0 k ++ v).
Proof.
  intros H Hf Ha Es Hne Hh. apply ffdh_open in H as (f' & s' & n' & v' & F1 & F2 & F3 & F4 & F5 & F6 & F7). assert (s' = s) as -> by congruence. assert (f' = f) as -> by congruence.
  assert (n' = g_len G) as ->. { destruct Ha as [Ha|[Ha Ha']], F2 as [F2|[F2 F2']]; congruence. }
  exists v'. split; [done|]. pose proof (nopad_short s Hne Hh) as Hs. unfold os_derive in F6. rewrite N.leb_refl, firstn_all2 in F6 by (unfold blen in *; lia). subst v'. split; [unfold blen in *; lia|].
  clear. induction s as [|x s [k IH]]; [by exists 0%nat|]. cbn. destruct (N.eqb_spec x 0) as [->|]; [|by exists 0%nat]. exists (S k). cbn [repeat app]. by rewrite IH at 1.
Qed.
End agree.

(* ---- cases ---- *)
From Verif Require Import Tables.
(* Products of numbers of two bytes; a public value has [size] bytes. *)
Definition products (size : N) : group := {|
  g_bits := 15; g_len := 2;
  g_secret c a p := if blen p =? size then Some (be 2 (unbe a * unbe p mod 65536)) else None;
  g_kdf x d s sh n := Some (repeat ((unbe s + d + blen (default [] sh) + (if x then 1 else 0)) mod 256) (N.to_nat n)) |}.
Lemma products_laws size : group_laws (products size).
Proof.
  split; [reflexivity|]. intros c a p s. cbn [g_secret products g_len]. destruct (_ =? _); [|done]. intros H. injection H as <-. reflexivity.
Qed.
Lemma products_paired n x y : paired (products (N.of_nat n)) (be 2 x) (be n (3 * (x mod 65536))) (be 2 y) (be n (3 * (y mod 65536))) \/ (n < 3)%nat.
Proof.
  destruct (Nat.lt_ge_cases n 3) as [|Hn]; [by right|left]. intros c. cbn [g_secret products].
  assert (forall z, blen (be n z) = N.of_nat n) as Hb. { intros z. unfold blen. by rewrite (be_length n z). }
  rewrite !Hb, N.eqb_refl. do 2 f_equal. f_equal.
  assert (forall z, unbe (be 2 z) = z mod 65536) as H2 by (intros; apply (be_mod 2)).
  assert (forall z, z < 196608 -> unbe (be n z) = z) as Hu.
  { intros z Hz. apply unbe_be. change 196608 with (3 * 256 ^ 2) in Hz. apply N.lt_le_trans with (256 ^ N.of_nat 3); [change (256 ^ N.of_nat 3) with 16777216; change (3 * 256 ^ 2) with 196608 in Hz; lia|].
    apply N.pow_le_mono_r; lia. }
  pose proof (N.mod_lt x 65536 ltac:(lia)). pose proof (N.mod_lt y 65536 ltac:(lia)).
  rewrite !H2, !Hu by lia. lia.
Qed.

Definition agree_tmpl (n : option N) : list ckattr :=
  [ca CKA_CLASS (le 8 CKO_SECRET_KEY); ca CKA_KEY_TYPE (le 8 CKK_GENERIC_SECRET)] ++ match n with Some n => [ca CKA_VALUE_LEN (le 8 n)] | None => [] end.
Definition value_of {A} (r : A * result (list ckattr)) : result (option bytes) :=
  let? t := snd r in Ok (match find_ck t CKA_VALUE with Some c => ca_ptr c | None => None end).
Definition run_ecdh (G : group) (priv : bytes) (kdf : N) (pub shared : area) (n : option N) : result (option bytes) :=
  let? o := ecdh_new CKM_ECDH1_DERIVE kdf pub shared in value_of (ecdh_derive G priv all_factories (agree_tmpl n) o).
(* Both sides, with the point raw and encoded, whole and cut, with and without derivation function *)
Example C54_case : let G := products 5 in let pa := be 5 (3 * 1000) in let pb := be 5 (3 * 2001) in
  map (fun n => run_ecdh G (be 2 1000) CKD_NULL (Area pb) (Null 0) n) [None; Some 2; Some 1; Some 3] =
    [Ok (Some (be 2 (3 * 1000 * 2001))); Ok (Some (be 2 (3 * 1000 * 2001))); Ok (Some (be 1 (3 * 1000 * 2001))); Err CKR_TEMPLATE_INCONSISTENT] /\
  run_ecdh G (be 2 2001) CKD_NULL (Area (4 :: 5 :: pa)) (Null 0) (Some 2) = Ok (Some (be 2 (3 * 1000 * 2001))) /\
  run_ecdh G (be 2 2001) 6 (Area pa) (Area [7]) (Some 20) = run_ecdh G (be 2 1000) 6 (Area (4 :: 5 :: pb)) (Area [7]) (Some 20) /\
  is_ok (run_ecdh G (be 2 2001) 6 (Area pa) (Area [7]) (Some 20)) = true /\
  run_ecdh G (be 2 2001) 6 (Area pa) (Area [7]) (Some 20) <> run_ecdh G (be 2 2001) 16 (Area pa) (Area [7]) (Some 20).
Proof. cbv zeta. split; [vm_compute; reflexivity|]. split; [vm_compute; reflexivity|]. split; [vm_compute; reflexivity|]. split; [vm_compute; reflexivity|]. vm_compute. discriminate. Qed.
(* A public value as short as the field, as on X25519 and X448, is not decoded when it is given as an OCTET STRING. *)
Theorem C54_short_point_refuted : exists G p b a tmpl o o' t', group_laws G /\ spells p b /\
  ecdh_new CKM_ECDH1_DERIVE CKD_NULL (Area p) (Null 0) = Ok o /\ ecdh_new CKM_ECDH1_DERIVE CKD_NULL (Area b) (Null 0) = Ok o' /\
  snd (ecdh_derive G a all_factories tmpl o) = Ok t' /\ snd (ecdh_derive G a all_factories tmpl o') = Err CKR_DEVICE_ERROR.
Proof.
  exists (products 2), [0; 9], [4; 2; 0; 9], [0; 7], (agree_tmpl None). do 3 eexists. split; [apply products_laws|].
  split. { right. exists [2]. split; [|reflexivity]. by apply (len_short 2). }
  split; [reflexivity|]. split; [reflexivity|]. split; vm_compute; reflexivity.
Qed.
(* Finite field: a secret of two bytes, and one that begins with a zero byte; of the second not the end 99 but a zero is the
   key of one byte, and the key of two bytes has only one. *)
Definition run_ffdh (a p : N) (n : option N) : result (option bytes) := value_of (tt, ffdh_derive (products 2) (be 2 p) (be 2 a) all_factories (agree_tmpl n)).
Example C54_case_ffdh :
  map (run_ffdh 1000 33) [None; Some 2; Some 1; Some 3] = [Ok (Some [128; 232]); Ok (Some [128; 232]); Ok (Some [232]); Err CKR_TEMPLATE_INCONSISTENT] /\
  map (run_ffdh 3 33) [None; Some 2; Some 1] = [Ok (Some [99]); Ok (Some [99]); Ok (Some [0])] /\
  g_secret (products 2) false (be 2 3) (be 2 33) = Some [0; 99].
Proof. split; [vm_compute; reflexivity|]. split; vm_compute; reflexivity. Qed.
