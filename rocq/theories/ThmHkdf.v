(* C35, HKDF: what is derived is the output of RFC 5869. *)
From Verif Require Export HkdfSpec KdfFacts ThmChunks.
From Verif Require Import Attr.
Local Open Scope N_scope.

Section HKDF.
Context (hm : bytes -> bytes -> bytes) (hs : nat) (kdf : okdf) (Law : kdf_law hm hs kdf).

Lemma stream_len prk info : length (hk_stream hm prk info) = (255 * hs)%nat.
Proof using Law.
  assert (G : forall l a, length (concat (map (hk_t hm prk info) (seq (S a) l))) = (l * hs)%nat).
  { induction l as [|l IH]; intros a; [done|]. cbn [seq map concat]. rewrite app_length, IH. cbn [hk_t]. rewrite (kl_len _ _ _ Law). lia. }
  apply (G 255%nat O).
Qed.

Lemma new_ok p o : hkdf_new p = Ok o -> bbool (hp_extract p) -> bbool (hp_expand p) ->
  hp_size p = Some (h_prflen o) /\ h_over o = false /\ h_stype o = hp_stype p /\ or_empty (h_info o) = info_of p /\
  h_mode o = (if hp_extract p =? CK_TRUE then if hp_expand p =? CK_TRUE then HBoth else HExtract else HExpand) /\
  (hp_extract p = CK_TRUE \/ hp_expand p = CK_TRUE) /\
  (hp_extract p = CK_TRUE -> hp_stype p <> CKF_HKDF_SALT_KEY -> exists s, h_salt o = Some s /\ forall sk, salt_is p (h_prflen o) sk s).
Proof using Type.
  clear. unfold hkdf_new. intros E Bx Be.
  destruct ((hp_extract p =? CK_FALSE) && (hp_expand p =? CK_FALSE)) eqn:Z; cbn [negb] in E; [discriminate E|].
  destruct (negb (hp_extract p =? CK_FALSE) && (0 <? hp_salt_len p) && is_null (hp_salt p)) eqn:Z1; cbn [negb] in E; [discriminate E|].
  destruct (negb (hp_expand p =? CK_FALSE) && (0 <? hp_info_len p) && is_null (hp_info p)) eqn:Z2; cbn [negb] in E; [discriminate E|].
  destruct (hp_size p) as [h|]; [|discriminate E].
  assert (S : exists s i, Ok {| h_over := false;
            h_mode := if hp_extract p =? CK_TRUE then if hp_expand p =? CK_TRUE then HBoth else HExtract else HExpand;
            h_prflen := h; h_stype := hp_stype p; h_salt := s; h_info := i |} = Ok o /\ or_empty i = info_of p /\
            (hp_extract p = CK_TRUE -> hp_stype p <> CKF_HKDF_SALT_KEY -> exists x, s = Some x /\ forall sk, salt_is p h sk x)).
  { match type of E with rbind ?x _ = _ => destruct x as [s|] eqn:Es; cbn [rbind] in E; [|discriminate E] end.
    match type of E with rbind ?x _ = _ => destruct x as [i|] eqn:Ei; cbn [rbind] in E; [|discriminate E] end.
    exists s, i. split; [exact E|]. split.
    - unfold info_of. destruct (N.ltb_spec 0 (hp_info_len p)) as [L|L].
      + destruct (hp_info p) as [b|]; [|discriminate Ei]. injection Ei as <-. done.
      + injection Ei as <-. replace (hp_info_len p) with 0 by lia. cbn. by destruct (hp_info p).
    - intros Hx Hk. unfold salt_is. destruct (N.eqb_spec (hp_stype p) CKF_HKDF_SALT_NULL) as [T|T].
      + destruct (_ || _); [discriminate Es|]. injection Es as <-. eexists. split; [reflexivity|]. intros sk. by left.
      + destruct (N.eqb_spec (hp_stype p) CKF_HKDF_SALT_DATA) as [T'|T'].
        * destruct (hp_salt p) as [b|]; [|by rewrite orb_true_r in Es]. destruct (_ || _); [discriminate Es|]. injection Es as <-. eexists. split; [reflexivity|].
          intros sk. right. left. split; [done|]. by exists b.
        * destruct (N.eqb_spec (hp_stype p) CKF_HKDF_SALT_KEY) as [T2|T2]; [done|]. rewrite Hx in Es. discriminate Es. }
  destruct S as (s & i & S & Hi & Hs). injection S as <-. cbn. split_and!; try done.
  destruct Bx as [Bx|Bx], Be as [Be|Be]; rewrite Bx, Be in *; try (by left); try (by right).
Qed.

(* C35, HKDF.  Whatever is derived is what RFC 5869 says: the pseudorandom key from the salt and the value of the base key, if asked to
   extract; the leading bytes of the expansion of that key, if asked to expand, of no more than 255 times the size of the hash. *)
Theorem C35_hkdf p salt_key key n k : bbool (hp_extract p) -> bbool (hp_expand p) -> hp_size p = Some hs -> hkdf_run kdf p salt_key key n = Ok k ->
  exists v prk, get_bytes key CKA_VALUE = Ok v /\ prk_is hm hs p salt_key v prk /\ okm_is hm hs p prk n k /\ length k = n /\ n <> O.
Proof using Law.
  intros Bx Be Hz E. unfold hkdf_run in E. destruct (hkdf_new p) as [o|] eqn:En; [|discriminate E]. cbn [rbind] in E.
  destruct (new_ok p o En Bx Be) as (N1 & N2 & N3 & N4 & N5 & N6 & N7). assert (Hl : h_prflen o = hs) by congruence.
  assert (R : exists o', snd (hkdf_derive kdf o' key n) = Ok k /\ h_prflen o' = hs /\ h_over o' = false /\ h_mode o' = h_mode o /\ h_info o' = h_info o /\
    (hp_extract p = CK_TRUE -> exists s, h_salt o' = Some s /\ salt_is p hs salt_key s)).
  { rewrite N3 in E. destruct (N.eqb_spec (hp_stype p) CKF_HKDF_SALT_KEY) as [T|T].
    - unfold hkdf_receive in E. destruct (hkdf_verify_key o salt_key 0); [|discriminate E]. cbn [rbind] in E.
      destruct (get_bytes salt_key CKA_VALUE) as [s|] eqn:Es; [|discriminate E]. cbn [rbind] in E. eexists. split; [exact E|]. cbn. split_and!; try done.
      intros _. exists s. split; [done|]. right. by right.
    - cbn [rbind] in E. exists o. split_and!; try done. intros Hx. destruct (N7 Hx T) as (s & S1 & S2). exists s. split; [done|]. rewrite <- Hl. apply S2. }
  destruct R as (o' & R & L & Ov & M & I & S). clear E. unfold hkdf_derive in R. rewrite Ov in R. cbn [snd h_mode h_prflen h_salt h_info h_stype] in R.
  destruct (hkdf_verify_key _ key _); [|discriminate R]. cbn [rbind] in R.
  destruct (_ && _); cbn [negb] in R; [discriminate R|]. rewrite L in R.
  destruct (mode_eqb (h_mode o') HExtract && negb (n =? hs)%nat) eqn:Zn; cbn [negb] in R; [discriminate R|].
  destruct (((n =? 0)%nat || (2 ^ 32 - 1 <? N.of_nat n))) eqn:Z0; cbn [negb] in R; [discriminate R|].
  destruct (get_bytes key CKA_VALUE) as [v|]; [|discriminate R]. cbn [rbind] in R.
  assert (n <> O) by (apply orb_false_elim in Z0 as [Z0 _]; by apply Nat.eqb_neq in Z0).
  rewrite M, N5, I in *. destruct (kdf _ v _ _ n) as [k'|] eqn:Ek; [|discriminate R]. injection R as ->.
  exists v. unfold prk_is, okm_is. destruct (N.eqb_spec (hp_extract p) CK_TRUE) as [Hx|Hx].
  - destruct (S Hx) as (s & Hs & Ss). rewrite Hs in Ek. destruct (hp_expand p =? CK_TRUE).
    + rewrite (kl_both _ _ _ Law) in Ek. destruct (Nat.leb_spec n (255 * hs)) as [Hn|]; [|discriminate Ek]. injection Ek as <-. rewrite N4. cbn [or_empty].
      exists (hm s v). split_and!; try done; [by exists s|]. rewrite firstn_length, stream_len. lia.
    + rewrite (kl_extract _ _ _ Law) in Ek. destruct (Nat.eqb_spec n hs) as [Hn|]; [|discriminate Ek]. injection Ek as <-. cbn [or_empty].
      exists (hm s v). split_and!; try done; [by exists s|]. rewrite (kl_len _ _ _ Law). done.
  - assert (He : hp_expand p = CK_TRUE) by (destruct N6; done). rewrite He. rewrite (kl_expand _ _ _ Law) in Ek.
    destruct (Nat.leb_spec n (255 * hs)) as [Hn|]; [|discriminate Ek]. injection Ek as <-. rewrite N4.
    exists v. split_and!; try done. rewrite firstn_length, stream_len. lia.
Qed.

Lemma hkdf_key_ok o key v l : hkdf_key key v -> hkdf_verify_key o key l = Ok tt.
Proof using Type.
  clear. intros (K1 & K2 & K3 & K4 & K5 & K6). unfold hkdf_verify_key. rewrite K1. change (CKO_SECRET_KEY =? CKO_SECRET_KEY) with true. cbv iota.
  assert (C : check_key_ops key CKO_SECRET_KEY CK_UNAVAILABLE_INFORMATION CKA_DERIVE = Ok tt).
  { unfold check_key_ops. rewrite K1. cbn [rbind]. change (negb (CKO_SECRET_KEY =? CKO_SECRET_KEY)) with false. cbv iota.
    change (negb (CK_UNAVAILABLE_INFORMATION =? CK_UNAVAILABLE_INFORMATION)) with false. cbn [rbind]. by rewrite K3. }
  assert (B : blen v <> 0) by (unfold blen; destruct v; [done|cbn [length]; lia]).
  assert (Z : (match get_ulong key CKA_VALUE_LEN with Ok n => n | Err _ => match get_bytes key CKA_VALUE with Ok v => blen v | Err _ => 0 end end =? 0) = false).
  { rewrite K4. destruct (get_ulong key CKA_VALUE_LEN) as [n|]; [rewrite (K6 n eq_refl)|]; lia. }
  rewrite Z. destruct K2 as [-> | ->]; (change (_ || _) with true; cbv iota; rewrite C; cbn [rbind]; by destruct (0 <? l)%nat).
Qed.

(* C35, HKDF.  It does so for all parameters that are in order, all keys the mechanism is for, and all sizes RFC 5869 allows. *)
Theorem C35_hkdf_total p salt_key key v s n : hparams_ok p hs -> hkdf_key key v -> (hp_stype p = CKF_HKDF_SALT_KEY -> hkdf_key salt_key s) ->
  (if hp_expand p =? CK_TRUE then (0 < n <= 255 * hs)%nat else n = hs) -> (0 < hs <= 64)%nat -> exists k, hkdf_run kdf p salt_key key n = Ok k.
Proof using Law.
  intros (P1 & P2 & P3 & P4 & P5 & P6) Hk Hs Hn Hh. unfold hkdf_run.
  assert (Nw : exists o, hkdf_new p = Ok o).
  { unfold hkdf_new. rewrite P1. replace ((hp_extract p =? CK_FALSE) && (hp_expand p =? CK_FALSE)) with false by (destruct P4 as [-> | ->]; [done|symmetry; apply andb_false_r]). cbn [negb].
    replace (negb (hp_extract p =? CK_FALSE) && (0 <? hp_salt_len p) && is_null (hp_salt p)) with false.
    2: { destruct P5 as [(_ & _ & ->)|[(_ & _ & X)|(_ & [->|X])]]; try (destruct (hp_salt p); [symmetry; apply andb_false_r|done]); cbn [N.ltb N.compare]; symmetry; rewrite andb_false_r; reflexivity. }
    cbn [negb]. replace (negb (hp_expand p =? CK_FALSE) && (0 <? hp_info_len p) && is_null (hp_info p)) with false.
    2: { destruct P6 as [->|X]; [rewrite andb_false_r; reflexivity|destruct (hp_info p); [symmetry; apply andb_false_r|done]]. }
    cbn [negb].
    assert (I : exists i, (if 0 <? hp_info_len p then match hp_info p with None => Err RV_NULL_DEREF | Some b => Ok (Some (mem (Some b) (hp_info_len p))) end else Ok None) = Ok i).
    { destruct (N.ltb_spec 0 (hp_info_len p)) as [L|L]; [|by eexists]. destruct (hp_info p) as [b|]; [by eexists|]. destruct P6; [lia|done]. }
    destruct I as (i & I). destruct P5 as [(T & T1 & T2)|[(T & T1 & T2)|(T & T1)]]; rewrite T.
    - rewrite T1, T2. change (CKF_HKDF_SALT_NULL =? CKF_HKDF_SALT_NULL) with true. cbv iota. cbn [is_null negb orb N.ltb N.compare rbind]. rewrite I. by eexists.
    - change (CKF_HKDF_SALT_DATA =? CKF_HKDF_SALT_NULL) with false. change (CKF_HKDF_SALT_DATA =? CKF_HKDF_SALT_DATA) with true. cbv iota.
      replace ((hp_salt_len p =? 0) || is_null (hp_salt p)) with false by (destruct (hp_salt p); [cbn [is_null]; lia|done]). cbn [rbind]. rewrite I. by eexists.
    - change (CKF_HKDF_SALT_KEY =? CKF_HKDF_SALT_NULL) with false. change (CKF_HKDF_SALT_KEY =? CKF_HKDF_SALT_DATA) with false. change (CKF_HKDF_SALT_KEY =? CKF_HKDF_SALT_KEY) with true. cbv iota.
      cbn [rbind]. rewrite I. by eexists. }
  destruct Nw as (o & Nw). rewrite Nw. cbn [rbind]. destruct (new_ok p o Nw P2 P3) as (N1 & N2 & N3 & N4 & N5 & N6 & N7).
  assert (Hl : h_prflen o = hs) by congruence.
  assert (R : exists o', (if h_stype o =? CKF_HKDF_SALT_KEY then hkdf_receive o salt_key else Ok o) = Ok o' /\ h_prflen o' = hs /\ h_over o' = false /\ h_mode o' = h_mode o /\
    (h_mode o <> HExpand -> is_null (h_salt o') = false)).
  { rewrite N3. destruct (N.eqb_spec (hp_stype p) CKF_HKDF_SALT_KEY) as [T|T].
    - specialize (Hs T). unfold hkdf_receive. rewrite (hkdf_key_ok o salt_key s 0 Hs). cbn [rbind]. destruct Hs as (_ & _ & _ & -> & _).
      eexists. split; [reflexivity|]. cbn. done.
    - exists o. split_and!; try done. intros M. rewrite N5 in M. destruct (N.eqb_spec (hp_extract p) CK_TRUE) as [X|X]; [|done]. by destruct (N7 X T) as (x & -> & _). }
  destruct R as (o' & -> & L & Ov & M & S). cbn [rbind]. unfold hkdf_derive. rewrite Ov. cbn [snd h_mode h_prflen h_salt h_info h_stype].
  rewrite (hkdf_key_ok _ key v _ Hk). cbn [rbind]. rewrite M, L.
  replace (is_null (h_salt o') && negb (mode_eqb (h_mode o) HExpand)) with false.
  2: { destruct (h_mode o) eqn:Mo; cbn [mode_eqb negb]; try (rewrite S by done; done). symmetry. apply andb_false_r. }
  cbn [negb]. rewrite N5.
  assert (Q : (0 < n <= 255 * hs)%nat /\ (mode_eqb (if hp_extract p =? CK_TRUE then if hp_expand p =? CK_TRUE then HBoth else HExtract else HExpand) HExtract = true -> n = hs)).
  { destruct (hp_expand p =? CK_TRUE); [|split; [lia|done]]. split; [done|]. by destruct (hp_extract p =? CK_TRUE). }
  destruct Q as [Qn Qx].
  match goal with |- context [negb (?m && negb (n =? hs)%nat)] => replace (m && negb (n =? hs)%nat) with false end.
  2: { destruct (mode_eqb _ HExtract); [|done]. rewrite (Qx eq_refl), Nat.eqb_refl. done. }
  cbn [negb]. replace ((n =? 0)%nat || (2 ^ 32 - 1 <? N.of_nat n)) with false.
  2: { change (2 ^ 32 - 1) with 4294967295. symmetry. apply orb_false_intro; [apply Nat.eqb_neq|]; lia. }
  cbn [negb]. destruct Hk as (_ & _ & _ & Hv & _). rewrite Hv. cbn [rbind].
  destruct (hp_extract p =? CK_TRUE), (hp_expand p =? CK_TRUE); rewrite ?(kl_both _ _ _ Law), ?(kl_extract _ _ _ Law), ?(kl_expand _ _ _ Law).
  1,3,4: replace (n <=? 255 * hs)%nat with true by (symmetry; apply Nat.leb_le; lia); by eexists.
  rewrite (Qx eq_refl), Nat.eqb_refl. by eexists.
Qed.

(* C35, HKDF.  To extract and to expand in one call is to extract in one call and to expand what it gave in another. *)
Theorem C35_hkdf_steps p q r salt_key key prk_key n k prk : bbool (hp_extract p) -> bbool (hp_expand p) ->
  hp_size p = Some hs -> hp_extract p = CK_TRUE -> hp_expand p = CK_TRUE ->
  hp_size q = Some hs -> hp_extract q = CK_TRUE -> hp_expand q = CK_FALSE -> hp_stype q = hp_stype p -> hp_salt q = hp_salt p -> hp_salt_len q = hp_salt_len p ->
  hp_size r = Some hs -> hp_extract r = CK_FALSE -> hp_expand r = CK_TRUE -> info_of r = info_of p ->
  hkdf_run kdf p salt_key key n = Ok k -> hkdf_run kdf q salt_key key hs = Ok prk ->
  get_bytes prk_key CKA_VALUE = Ok prk -> forall k', hkdf_run kdf r salt_key prk_key n = Ok k' -> k' = k.
Proof using Law.
  intros Bx Be P1 P2 P3 Q1 Q2 Q3 Q4 Q5 Q6 R1 R2 R3 R4 Ep Eq Hv k' Er.
  destruct (C35_hkdf p salt_key key n k Bx Be P1 Ep) as (v & x & V1 & V2 & V3 & _).
  destruct (C35_hkdf q salt_key key hs prk (or_intror Q2) (or_introl Q3) Q1 Eq) as (v' & x' & V1' & V2' & V3' & _).
  destruct (C35_hkdf r salt_key prk_key n k' (or_introl R2) (or_intror R3) R1 Er) as (w & y & W1 & W2 & W3 & _).
  assert (v' = v) by congruence. subst v'. assert (w = prk) by congruence. subst w.
  unfold prk_is, okm_is in *. rewrite P2, P3 in *. rewrite Q2, Q3 in *. rewrite R2, R3 in *.
  change (CK_TRUE =? CK_TRUE) with true in *. change (CK_FALSE =? CK_TRUE) with false in *. cbv iota in *.
  destruct V2 as (s & S & ->), V2' as (s' & S' & ->), V3' as [_ ->], V3 as [_ ->], W3 as [_ ->]. subst y. rewrite R4.
  assert (s' = s) as ->; [|done]. unfold salt_is in S, S'. rewrite Q4, Q5, Q6 in S'.
  destruct S as [[T ->]|[[T (b & B & ->)]|[T G]]], S' as [[T' ->]|[[T' (b' & B' & ->)]|[T' G']]]; try (rewrite T in T'; discriminate T'); congruence.
Qed.
(* C35, HKDF.  A shorter key is the beginning of a longer one. *)
Theorem C35_hkdf_prefix p salt_key key n m k k' : bbool (hp_extract p) -> bbool (hp_expand p) -> hp_size p = Some hs -> (n <= m)%nat ->
  hkdf_run kdf p salt_key key n = Ok k -> hkdf_run kdf p salt_key key m = Ok k' -> k = firstn n k'.
Proof using Law.
  intros Bx Be Hz Hnm E E'.
  destruct (C35_hkdf p salt_key key n k Bx Be Hz E) as (v & x & V1 & V2 & V3 & _). destruct (C35_hkdf p salt_key key m k' Bx Be Hz E') as (v' & x' & V1' & V2' & V3' & V4' & _).
  assert (v' = v) by congruence. subst v'.
  assert (x' = x).
  { unfold prk_is in *. destruct (hp_extract p =? CK_TRUE); [|congruence]. destruct V2 as (s & S & ->), V2' as (s' & S' & ->).
    assert (s' = s) as ->; [|done]. unfold salt_is in S, S'.
    destruct S as [[T ->]|[[T (b & B & ->)]|[T G]]], S' as [[T' ->]|[[T' (b' & B' & ->)]|[T' G']]]; try (rewrite T in T'; discriminate T'); congruence. }
  subst x'. unfold okm_is in *. destruct (hp_expand p =? CK_TRUE).
  - destruct V3 as [_ ->], V3' as [_ ->]. rewrite firstn_firstn. f_equal. lia.
  - destruct V3 as [-> ->], V3' as [-> ->]. symmetry. apply firstn_all2. lia.
Qed.

(* The statement is false when a flag is neither CK_TRUE nor CK_FALSE: it is taken for true where the parameters are checked and for
   false where the mode is chosen.  To extract and not to expand then means to expand and not to extract, whatever the salt. *)
Theorem C35_hkdf_flag_refuted p salt_key key n k : hp_extract p <> CK_TRUE -> hp_extract p <> CK_FALSE -> hp_expand p = CK_FALSE -> hp_size p = Some hs ->
  hp_info_len p = 0 -> hkdf_run kdf p salt_key key n = Ok k -> exists v, get_bytes key CKA_VALUE = Ok v /\ k = firstn n (hk_stream hm v []).
Proof using Law.
  intros Hx Hx0 He Hz Hi E. unfold hkdf_run in E. destruct (hkdf_new p) as [o|] eqn:En; [|discriminate E]. cbn [rbind] in E.
  assert (M : h_mode o = HExpand /\ h_info o = None).
  { unfold hkdf_new in En. rewrite Hz, Hi in En. repeat match type of En with (if ?b then _ else _) = _ => destruct b; [|discriminate En] end.
    match type of En with rbind ?x _ = _ => destruct x as [s|] eqn:Es; cbn [rbind] in En; [|discriminate En] end.
    cbn [N.ltb N.compare rbind] in En. injection En as <-. cbn. replace (hp_extract p =? CK_TRUE) with false by lia. done. }
  assert (R : exists o', snd (hkdf_derive kdf o' key n) = Ok k /\ h_mode o' = HExpand /\ h_info o' = None).
  { destruct (h_stype o =? CKF_HKDF_SALT_KEY).
    - unfold hkdf_receive in E. destruct (hkdf_verify_key o salt_key 0); [|discriminate E]. cbn [rbind] in E.
      destruct (get_bytes salt_key CKA_VALUE) as [s|]; [|discriminate E]. cbn [rbind] in E. eexists. split; [exact E|]. done.
    - exists o. done. }
  destruct R as (o' & R & M' & I'). unfold hkdf_derive in R. destruct (h_over o'); [discriminate R|]. cbn [snd h_mode h_prflen h_salt h_info h_stype] in R.
  destruct (hkdf_verify_key _ key _); [|discriminate R]. cbn [rbind] in R. rewrite M', I' in R. cbn [mode_eqb negb] in R. rewrite andb_false_r in R. cbn [negb andb] in R.
  destruct (((n =? 0)%nat || (2 ^ 32 - 1 <? N.of_nat n))); cbn [negb] in R; [discriminate R|].
  destruct (get_bytes key CKA_VALUE) as [v|]; [|discriminate R]. cbn [rbind] in R. rewrite (kl_expand _ _ _ Law) in R. cbn [or_empty] in R.
  destruct (n <=? 255 * hs)%nat; [|discriminate R]. injection R as <-. by exists v.
Qed.
(* and extracting looks at the info it does not use, without the test for a null pointer. *)
Theorem C35_hkdf_null_refuted p salt_key key n : hp_extract p = CK_TRUE -> hp_expand p = CK_FALSE -> hp_size p = Some hs -> hp_stype p = CKF_HKDF_SALT_NULL ->
  hp_salt p = None -> hp_salt_len p = 0 -> hp_info p = None -> hp_info_len p <> 0 -> hkdf_run kdf p salt_key key n = Err RV_NULL_DEREF.
Proof using Type.
  intros Hx He Hz Ht Hs Hl Hi Hn. unfold hkdf_run, hkdf_new. rewrite Hx, He, Hz, Ht, Hs, Hl, Hi. cbn. replace (0 <? hp_info_len p) with true by lia. reflexivity.
Qed.
End HKDF.

(* The hypotheses are met. *)
Definition toy_hm (k d : bytes) : bytes := be 4 (fold_left (fun a b => (a * 31 + b + 1) mod 4294967296) (k ++ [256] ++ d) 7).
Definition toy_kdf : okdf := fun m v s i n =>
  match m with
  | HExtract => if (n =? 4)%nat then Some (toy_hm (or_empty s) v) else None
  | HExpand => if (n <=? 255 * 4)%nat then Some (firstn n (hk_stream toy_hm v (or_empty i))) else None
  | HBoth => if (n <=? 255 * 4)%nat then Some (firstn n (hk_stream toy_hm (toy_hm (or_empty s) v) (or_empty i))) else None
  end.
Lemma toy_kdf_law : kdf_law toy_hm 4 toy_kdf.
Proof. split; intros; try reflexivity. Qed.
Definition toy_hkey (v : bytes) : object :=
  Obj 0 0 CKO_SECRET_KEY [from_ulong CKA_CLASS CKO_SECRET_KEY; from_ulong CKA_KEY_TYPE CKK_HKDF; from_bool CKA_DERIVE true; from_bytes CKA_VALUE v].
Definition toy_hp (x e : N) (t : N) : hparams :=
  {| hp_extract := x; hp_expand := e; hp_size := Some 4%nat; hp_stype := t; hp_salt := None; hp_salt_len := 0; hp_info := Some [9; 8; 7]; hp_info_len := 2 |}.
Example C35_hkdf_case : exists prk k, hkdf_run toy_kdf (toy_hp 1 1 CKF_HKDF_SALT_KEY) (toy_hkey [5; 6]) (toy_hkey [1; 2; 3]) 10 = Ok k /\ length k = 10%nat /\
  hkdf_run toy_kdf (toy_hp 1 0 CKF_HKDF_SALT_KEY) (toy_hkey [5; 6]) (toy_hkey [1; 2; 3]) 4 = Ok prk /\ length prk = 4%nat /\
  hkdf_run toy_kdf (toy_hp 0 1 CKF_HKDF_SALT_NULL) (toy_hkey []) (toy_hkey prk) 10 = Ok k /\
  hkdf_run toy_kdf (toy_hp 2 0 CKF_HKDF_SALT_KEY) (toy_hkey [5; 6]) (toy_hkey prk) 10 = Ok k.
Proof. do 2 eexists. split; [vm_compute; reflexivity|]. split; [reflexivity|]. split; [vm_compute; reflexivity|]. split_and!; vm_compute; reflexivity. Qed.
Example C35_hkdf_case_ok : hparams_ok (toy_hp 1 1 CKF_HKDF_SALT_KEY) 4 /\ hkdf_key (toy_hkey [1; 2; 3]) [1; 2; 3].
Proof.
  split; unfold hparams_ok, hkdf_key, bbool.
  - split_and!; try (by left); try (by right); try reflexivity. right. right. split; [done|by left].
  - split_and!; try (vm_compute; reflexivity); try done. right. vm_compute. reflexivity.
Qed.
