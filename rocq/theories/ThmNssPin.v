(* C46: which PINs a token kept in an NSS database accepts. *)
From Verif Require Import NssSpec ToyNss.

Section Pin.
  Context (C : nssp) (L : nss_laws C) (p salt ks iv : bytes) (iter : N).
  Context (Hks : blen ks = 32) (Hiv : blen iv = 14).
  Definition entry (d : ndb) : Prop := n_meta d !! (0, 0, 0) =
    Some (salt, n_der C (IEnc ks iter iv (n_enc C (n_kdf C (n_sha1 C (salt ++ p)) ks iter) ([4; 14] ++ iv) pass_check))).
  (* Nobody is logged in, and no key of the password entry is cached but those of wrong PINs. *)
  Definition closed (t : ntok) : Prop :=
    entry (s_db (k_nss t)) /\ s_key (k_nss t) = None /\ k_logged t = KRY_UNSPEC /\
    forall k, s_cache (k_nss t) !! ks = Some k -> exists q, q <> p /\ k = (false, n_kdf C (n_sha1 C (salt ++ q)) ks iter).

  Lemma full_14 : full_iv iv = Some ([4; 14] ++ iv).
  Proof. unfold full_iv. rewrite Hiv. done. Qed.

  Lemma wrong_pin q co s : entry (s_db s) -> s_key s = None -> q <> p ->
    (forall k, s_cache s !! ks = Some k -> exists q, q <> p /\ k = (false, n_kdf C (n_sha1 C (salt ++ q)) ks iter)) ->
    let '(s', r) := auth_user C CKU_USER q co s in
    s_db s' = s_db s /\ s_key s' = None /\ r <> Ok tt /\
    (forall k, s_cache s' !! ks = Some k -> exists q, q <> p /\ k = (false, n_kdf C (n_sha1 C (salt ++ q)) ks iter)).
  Proof.
    intros He Hk Hq Hc. unfold auth_user. cbv [mbind gets]. change (CKU_USER =? CKU_SO) with false. cbv iota.
    change (CKU_USER =? CKU_USER) with true. cbn [negb]. cbv [lift]. unfold fetch_password. rewrite He. cbv beta iota zeta.
    rewrite Hk. rewrite bool_decide_eq_false_2 by done. cbv [modify attempt]. unfold decrypt_data. rewrite (nl_der C L).
    unfold derive_key. cbv [mbind ensure]. rewrite Hks. change (32 =? 32) with true. cbv [ret gets]. cbn [set_keys s_key s_cache cached].
    unfold aes_cbc_decrypt. rewrite full_14.
    assert (Hgo : forall k, (exists q, q <> p /\ k = (false, n_kdf C (n_sha1 C (salt ++ q)) ks iter)) ->
              fst k = false /\ n_dec C (snd k) ([4; 14] ++ iv) (n_enc C (n_kdf C (n_sha1 C (salt ++ p)) ks iter) ([4; 14] ++ iv) pass_check) <> Ok pass_check).
    { intros k (q' & Hq' & ->). split; [done|]. cbn [snd]. apply (nl_wrong C L). intros E. apply Hq'. apply (nl_sha C L salt). by apply (nl_kdf C L) in E. }
    destruct (s_cache s !! ks) as [k|] eqn:Ec.
    - destruct (Hgo k (Hc k eq_refl)) as [E1 E2]. rewrite E1. destruct (n_dec C (snd k) _ _) as [d|e] eqn:Ed.
      + destruct (bytes_eqb d pass_check) eqn:Eb; [apply bool_decide_eq_true in Eb; by subst|].
        cbv [skip ret lift fail forget modify]. cbv beta iota. repeat rewrite Eb. cbn [set_keys s_db s_key s_cache set_cache]. split; [done|]. split; [done|]. split; [done|]. intros k' Hk'. apply Hc. congruence.
      + cbv [skip ret lift fail forget modify]. cbv beta iota. cbn [set_keys s_db s_key s_cache set_cache]. split; [done|]. split; [done|]. split; [done|]. intros k' Hk'. by rewrite lookup_delete in Hk'.
    - destruct (Hgo (false, n_kdf C (enckey C q salt) ks iter)) as [E1 E2]; [by exists q|].
      change (s_key (set_keys (Some (enckey C q salt)) s)) with (Some (enckey C q salt)). cbv [modify]. cbv beta iota. cbn [fst snd] in E2 |- *.
      destruct (n_dec C (n_kdf C (enckey C q salt) ks iter) _ _) as [d|e] eqn:Ed.
      + destruct (bytes_eqb d pass_check) eqn:Eb; [apply bool_decide_eq_true in Eb; by subst|].
        cbv [skip ret lift fail forget modify]. cbv beta iota. repeat rewrite Eb. cbn [set_keys s_db s_key s_cache set_cache]. split; [done|]. split; [done|]. split; [done|]. intros k' Hk'. unfold cache_add in Hk'. rewrite lookup_insert in Hk'.
        injection Hk' as <-. by exists q.
      + cbv [skip ret lift fail forget modify]. cbv beta iota. cbn [set_keys s_db s_key s_cache set_cache]. split; [done|]. split; [done|]. split; [done|]. intros k' Hk'. by rewrite lookup_delete in Hk'.
  Qed.

  (* With the key of the password entry in the cache, the PIN does not matter. *)
  Lemma any_pin q co s : entry (s_db s) -> s_cache s !! ks = Some (false, n_kdf C (n_sha1 C (salt ++ p)) ks iter) ->
    exists key, auth_user C CKU_USER q co s = (set_keys key s, Ok tt) /\ (co = false -> key = Some (enckey C q salt)).
  Proof.
    intros He Hc. unfold auth_user. cbv [mbind gets]. change (CKU_USER =? CKU_SO) with false. cbv iota.
    change (CKU_USER =? CKU_USER) with true. cbn [negb]. cbv [lift]. unfold fetch_password. rewrite He. cbv beta iota zeta.
    destruct (bool_decide (s_key s = Some (enckey C q salt))) eqn:Eo.
    { exists (s_key s). apply bool_decide_eq_true in Eo. split; [by destruct s|]. done. }
    cbv [modify attempt]. unfold decrypt_data. rewrite (nl_der C L).
    unfold derive_key. cbv [mbind ensure]. rewrite Hks. change (32 =? 32) with true. cbv [ret gets]. cbn [set_keys s_key s_cache cached].
    rewrite Hc. unfold aes_cbc_decrypt. rewrite full_14. cbn [fst snd]. rewrite (nl_dec C L). cbv [skip ret lift]. cbv beta iota.
    change (bytes_eqb pass_check pass_check) with true. cbv beta iota.
    destruct (s_key s) as [k0|]; destruct co; cbn [andb]; cbv beta iota; cbn [set_keys s_db s_cols s_key s_cache s_rn]; eexists; split; try reflexivity; intros; try done.
  Qed.
  Lemma right_pin s : entry (s_db s) -> s_key s = None -> s_cache s !! ks = None ->
    exists s', auth_user C CKU_USER p false s = (s', Ok tt) /\ s_db s' = s_db s /\ s_cols s' = s_cols s /\ s_rn s' = s_rn s /\
      s_key s' = Some (enckey C p salt) /\ s_cache s' = cache_add ks (false, n_kdf C (n_sha1 C (salt ++ p)) ks iter) (s_cache s).
  Proof.
    intros He Hk Hc. unfold auth_user. cbv [mbind gets]. change (CKU_USER =? CKU_SO) with false. cbv iota.
    change (CKU_USER =? CKU_USER) with true. cbn [negb]. cbv [lift]. unfold fetch_password. rewrite He. cbv beta iota zeta.
    rewrite Hk. rewrite bool_decide_eq_false_2 by done. cbv [modify attempt]. unfold decrypt_data. rewrite (nl_der C L).
    unfold derive_key. cbv [mbind ensure]. rewrite Hks. change (32 =? 32) with true. cbv [ret gets]. cbn [set_keys s_key s_cache cached].
    rewrite Hc. change (s_key (set_keys (Some (enckey C p salt)) s)) with (Some (enckey C p salt)). cbv [modify]. cbv beta iota.
    unfold aes_cbc_decrypt. rewrite full_14. cbn [fst snd]. change (enckey C p salt) with (n_sha1 C (salt ++ p)). rewrite (nl_dec C L). cbv [skip ret lift]. cbv beta iota.
    change (bytes_eqb pass_check pass_check) with true. cbv beta iota. cbn [andb]. eexists. split; [reflexivity|].
    cbn [set_keys set_cache s_db s_key s_cache]. done.
  Qed.

  (* Reading without a key changes nothing. *)
  Lemma for_types_quiet {A} ts (f : N -> A -> M nss A) : (forall t a s, fst (f t a s) = s) -> forall a s, fst (for_types ts f a s) = s.
  Proof using Type.
    intros Hf. induction ts as [|t ts IH]; intros a s; cbn [for_types]; [done|]. cbv [mbind].
    specialize (Hf t a s). destruct (f t a s) as [s1 [a'|e]]; cbn [fst] in Hf; subst s1; [apply IH|done].
  Qed.
  Lemma fetch_quiet prv id ts s : s_key s = None -> fst (fetch C prv id ts s) = s.
  Proof using Type.
    intros Hk. unfold fetch. cbv [mbind gets]. destruct (fetch_by_nssid s prv id (query_types ts)) as [o|e]; [|done]. cbv beta iota.
    rewrite Hk. cbv [ret]. cbv beta iota. apply for_types_quiet. intros t a s0. unfold add_default. cbv [mbind lift].
    destruct (get_object_factory (n_fs C) a) as [f|e]; [|done]. destruct (bool_decide (t ∈ ts)); [|done]. destruct (set_attribute_default f t a); done.
  Qed.

  (* Opening once more changes nothing. *)
  Lemma missing_none tb : missing (Table (tb_cols tb ++ missing tb) (tb_rows tb)) = [].
  Proof using Type.
    unfold missing at 1. cbn [tb_cols].
    assert (Hin : forall t, In t table_columns -> In t (tb_cols tb ++ missing tb)).
    { intros t Ht. apply in_or_app. destruct (decide (t ∈ tb_cols tb)) as [H|H]; [left; by apply elem_of_list_In|right].
      unfold missing. apply List.filter_In. split; [done|]. by rewrite bool_decide_eq_false_2. }
    induction table_columns as [|t l IH]; [done|]. cbn [List.filter].
    rewrite bool_decide_eq_true_2 by (apply elem_of_list_In, Hin; by left). cbn [negb]. apply IH. intros u Hu. apply Hin. by right.
  Qed.
  Lemma open_again d rn rn' : s_db (open_db (s_db (open_db d rn)) rn') = s_db (open_db d rn).
  Proof using Type.
    unfold open_db, check_columns. cbn [s_db n_pub n_prv n_meta]. rewrite !missing_none, !app_nil_r. done.
  Qed.
  Lemma open_meta d rn : n_meta (s_db (open_db d rn)) = n_meta d.
  Proof using Type. done. Qed.
  Lemma open_key d rn : s_key (open_db d rn) = None.
  Proof using Type. done. Qed.
  Lemma open_cache d rn : s_cache (open_db d rn) = ∅.
  Proof using Type. done. Qed.

  (* What a call can do while only wrong PINs were given. *)
  Lemma closed_step d0 rn c t : s_db (k_nss t) = s_db (open_db d0 rn) -> closed t -> guess p c ->
    let '(t', r) := ncall_run C c t in
    s_db (k_nss t') = s_db (open_db d0 rn) /\ closed t' /\ (needs_user c = true -> is_ok r = false).
  Proof.
    intros Hd Hcl Hg. destruct t as [s u]. cbn [k_nss] in Hd.
    destruct Hcl as (He & Hk & Hu & Hc). cbn [k_nss k_logged] in He, Hk, Hu, Hc. subst u.
    assert (Hsame : closed (Ntok s KRY_UNSPEC)) by done.
    assert (Hlog : forall ut q, q <> p -> let '(t', r) := nlogin C ut q (Ntok s KRY_UNSPEC) in
              s_db (k_nss t') = s_db (open_db d0 rn) /\ closed t' /\ is_ok r = false).
    { intros ut q Hq. unfold nlogin. cbv [mbind gets ensure]. cbn [k_logged].
      destruct ((ut =? CKU_SO) || (ut =? CKU_USER)) eqn:E1; [|done]. cbv [ret fail]. cbv beta iota.
      destruct (negb (ut =? KRY_UNSPEC)) eqn:E2; [|done]. change (KRY_UNSPEC =? KRY_UNSPEC) with true. cbv iota beta.
      unfold back. cbn [k_nss k_logged]. destruct (ut =? CKU_USER) eqn:E3.
      - apply N.eqb_eq in E3. subst ut. pose proof (wrong_pin q false s He Hk Hq Hc) as Hw.
        destruct (auth_user C CKU_USER q false s) as [s' r]. destruct Hw as (W1 & W2 & W3 & W4).
        destruct r as [[]|e]; [done|]. cbn [k_nss]. split; [congruence|]. split; [|done].
        unfold closed. cbn [k_nss k_logged]. split; [by rewrite W1|]. split; [done|]. split; [done|]. done.
      - assert (E4 : (ut =? CKU_SO) = true) by lia. unfold auth_user. rewrite E4. cbv [mbind gets]. unfold fetch_password. rewrite He. cbv [fail]. done. }
    destruct c; cbn [ncall_run guess needs_user] in *.
    - cbv [mbind]. specialize (Hlog ut pin Hg). destruct (nlogin C ut pin (Ntok s KRY_UNSPEC)) as [t' [[]|e]]; destruct Hlog as (X1 & X2 & X3); [done|].
      split; [done|]. by split.
    - cbv [mbind]. unfold nlogout. cbv [mbind gets ensure]. change (any_logged (Ntok s KRY_UNSPEC)) with false. cbv [fail]. done.
    - cbv [mbind]. unfold ninit_pin. cbv [mbind gets ensure]. change (k_logged (Ntok s KRY_UNSPEC) =? CKU_SO) with false. cbv [fail]. done.
    - unfold nset_pin. cbv [mbind gets ensure]. destruct (negb ((blen old =? 0) || (blen new =? 0))); cbv [ret fail]; [|done]. cbv beta iota.
      change (any_logged (Ntok s KRY_UNSPEC)) with false. cbv beta iota. specialize (Hlog CKU_USER old Hg).
      destruct (nlogin C CKU_USER old (Ntok s KRY_UNSPEC)) as [t' [[]|e]]; destruct Hlog as (X1 & X2 & X3); [done|].
      split; [done|]. by split.
    - cbv [mbind]. unfold ncreate. cbv [mbind gets ensure]. change (any_logged (Ntok s KRY_UNSPEC)) with false. cbv [fail]. done.
    - cbv [mbind]. unfold nread, back. cbv [mbind gets]. cbn [k_nss k_logged]. pose proof (fetch_quiet prv id types s Hk) as Hf.
      destruct (fetch C prv id types s) as [s' [o|e]]; cbn [fst] in Hf; subst s'; [|done]. cbv beta iota. cbv [ensure ret fail].
      match goal with |- context [if ?b then _ else _] => destruct b end; done.
    - cbv [mbind]. unfold back. cbn [k_nss k_logged]. unfold update. cbv [mbind gets]. rewrite Hk. cbv [ensure fail]. done.
    - cbv [mbind]. cbn [k_nss]. destruct (search (s_db s) tmpl); done.
    - cbn [k_nss]. rewrite Hd, open_again. split; [done|]. split; [|done]. unfold closed. cbn [k_nss k_logged].
      split; [unfold entry; rewrite !open_meta; unfold entry in He; by rewrite Hd, open_meta in He|]. split; [done|]. split; [done|].
      rewrite open_cache. intros k Hk'. by rewrite lookup_empty in Hk'.
  Qed.
End Pin.

(* A new process with a database whose password entry is the one of the PIN p: as long as p is not given, no login
   succeeds, nothing that needs a user works and nothing stored changes, whatever the number of attempts. *)
Theorem C46_partial (C : nssp) (L : nss_laws C) (d : ndb) (rn : N) (p : bytes) (l : list ncall) :
  opens C p d -> List.Forall (guess p) l ->
  let t := nrun C (started d rn) l in
  stored t = stored (started d rn) /\
  (forall c, guess p c -> needs_user c = true -> is_ok (outcome C t c) = false) /\
  (forall q, is_ok (outcome C t (NLogin CKU_USER q)) = true -> q = p).
Proof.
  intros (salt & ks & iter & iv & Hks & Hiv & Hm) Hl. cbv zeta.
  assert (Hi : forall l t, List.Forall (guess p) l -> s_db (k_nss t) = s_db (open_db d rn) ->
            closed C p salt ks iv iter t ->
            s_db (k_nss (nrun C t l)) = s_db (open_db d rn) /\ closed C p salt ks iv iter (nrun C t l)).
  { clear l Hl. induction l as [|c l IH]; intros t Hl Hd Hc; [done|]. cbn [nrun].
    apply List.Forall_cons_iff in Hl as [Hg Hl].
    pose proof (closed_step C L p salt ks iv iter Hks Hiv d rn c t Hd Hc Hg) as Hs.
    destruct (ncall_run C c t) as [t' r]. destruct Hs as (S1 & S2 & _). cbn [fst]. by apply IH. }
  destruct (Hi l (started d rn)) as [I1 I2]; [done|done| |].
  { split; [exact Hm|]. split; [done|]. split; [done|]. cbn [started k_nss]. intros k Hk. rewrite open_cache, lookup_empty in Hk. done. }
  set (t := nrun C (started d rn) l) in *.
  assert (Ha : forall c, guess p c -> needs_user c = true -> is_ok (outcome C t c) = false).
  { intros c Hg Hn. pose proof (closed_step C L p salt ks iv iter Hks Hiv d rn c t I1 I2 Hg) as Hs. unfold outcome.
    destruct (ncall_run C c t) as [t' r]. destruct Hs as (_ & _ & S3). by apply S3. }
  split; [exact I1|]. split; [exact Ha|].
  intros q Hq. destruct (decide (q = p)) as [->|Hn]; [done|]. rewrite Ha in Hq; done.
Qed.

(* A call that gives no PIN. *)
Definition no_pin (c : ncall) : Prop :=
  match c with NLogin _ _ | NSetPin _ _ => False | _ => True end.
Lemma quiet_step C (L : nss_laws C) p salt ks iv iter (Hks : blen ks = 32) (Hiv : blen iv = 14) d rn c t :
  s_db (k_nss t) = s_db (open_db d rn) -> closed C p salt ks iv iter t -> s_cache (k_nss t) !! ks = None -> no_pin c ->
  s_cache (k_nss (fst (ncall_run C c t))) !! ks = None.
Proof.
  intros Hd (He & Hk & Hu & Hc) Hn Hp. destruct t as [s u]. cbn [k_nss k_logged] in *. subst u.
  destruct c; cbn [ncall_run no_pin] in *; try done.
  - unfold nread, back. cbv [mbind gets]. cbn [k_nss k_logged]. pose proof (fetch_quiet C prv id types s Hk) as Hf.
    destruct (fetch C prv id types s) as [s' [o|e]]; cbn [fst] in Hf; subst s'; [|done]. cbv beta iota. cbv [ensure ret fail].
    match goal with |- context [if ?b then _ else _] => destruct b end; done.
  - cbv [mbind]. unfold back. cbn [k_nss k_logged]. unfold update. cbv [mbind gets]. rewrite Hk. cbv [ensure fail]. done.
  - cbv [mbind]. cbn [k_nss]. destruct (search (s_db s) tmpl); done.
Qed.

(* The right PIN is accepted in a new process, as long as no other was tried before. *)
Theorem C46_right_pin_partial (C : nssp) (L : nss_laws C) (d : ndb) (rn : N) (p : bytes) (l : list ncall) :
  opens C p d -> List.Forall no_pin l ->
  outcome C (nrun C (started d rn) l) (NLogin CKU_USER p) = Ok ODone.
Proof.
  intros (salt & ks & iter & iv & Hks & Hiv & Hm) Hl.
  assert (Hi : forall l t, List.Forall no_pin l -> s_db (k_nss t) = s_db (open_db d rn) ->
            closed C p salt ks iv iter t -> s_cache (k_nss t) !! ks = None ->
            closed C p salt ks iv iter (nrun C t l) /\ s_cache (k_nss (nrun C t l)) !! ks = None).
  { clear l Hl. induction l as [|c l IH]; intros t Hl Hd Hc Hn; [done|]. cbn [nrun].
    apply List.Forall_cons_iff in Hl as [Hp Hl].
    pose proof (quiet_step C L p salt ks iv iter Hks Hiv d rn c t Hd Hc Hn Hp) as Hq.
    assert (Hg : guess p c) by (by destruct c).
    pose proof (closed_step C L p salt ks iv iter Hks Hiv d rn c t Hd Hc Hg) as Hs.
    destruct (ncall_run C c t) as [t' r]. destruct Hs as (S1 & S2 & _). cbn [fst] in *. by apply IH. }
  destruct (Hi l (started d rn)) as [I1 I2]; [done|done| |done|].
  { split; [exact Hm|]. split; [done|]. split; [done|]. cbn [started k_nss]. intros k Hk. rewrite open_cache, lookup_empty in Hk. done. }
  destruct (nrun C (started d rn) l) as [s u]. destruct I1 as (He & Hk & Hu & _). cbn [k_nss k_logged] in *. subst u.
  destruct (right_pin C L p salt ks iv iter Hks Hiv s He Hk I2) as (s' & Hr & _).
  unfold outcome. cbn [ncall_run]. unfold nlogin. cbv [mbind gets ensure ret]. cbn [k_logged].
  change ((CKU_USER =? CKU_SO) || (CKU_USER =? CKU_USER)) with true. change (negb (CKU_USER =? KRY_UNSPEC)) with true.
  change (KRY_UNSPEC =? KRY_UNSPEC) with true. cbv beta iota. unfold back. cbn [k_nss]. rewrite Hr. done.
Qed.

(* What a login with the right PIN in a new process leaves. *)
Lemma login_first C (L : nss_laws C) d rn p : opens C p d ->
  exists salt ks iter iv s, blen ks = 32 /\ blen iv = 14 /\
    ncall_run C (NLogin CKU_USER p) (started d rn) = (Ntok s CKU_USER, Ok ODone) /\
    entry C p salt ks iv iter (s_db s) /\ s_cache s !! ks = Some (false, n_kdf C (n_sha1 C (salt ++ p)) ks iter).
Proof.
  intros (salt & ks & iter & iv & Hks & Hiv & Hm). exists salt, ks, iter, iv.
  destruct (right_pin C L p salt ks iv iter Hks Hiv (open_db d rn)) as (s' & Hr & Hd & _ & _ & _ & Hc); [exact Hm|done|done|].
  exists s'. split; [done|]. split; [done|]. split; [|split; [by rewrite Hd|rewrite Hc; apply lookup_insert]].
  cbn [ncall_run]. unfold nlogin. cbv [mbind gets ensure ret].
  change (k_logged (started d rn)) with KRY_UNSPEC.
  change ((CKU_USER =? CKU_SO) || (CKU_USER =? CKU_USER)) with true. change (negb (CKU_USER =? KRY_UNSPEC)) with true.
  change (KRY_UNSPEC =? KRY_UNSPEC) with true. cbv beta iota. unfold back.
  change (k_nss (started d rn)) with (open_db d rn). rewrite Hr. done.
Qed.
Lemma login_any C (L : nss_laws C) p salt ks iv iter q s : blen ks = 32 -> blen iv = 14 ->
  entry C p salt ks iv iter (s_db s) -> s_cache s !! ks = Some (false, n_kdf C (n_sha1 C (salt ++ p)) ks iter) ->
  outcome C (Ntok s KRY_UNSPEC) (NLogin CKU_USER q) = Ok ODone.
Proof.
  intros Hks Hiv He Hc. destruct (any_pin C L p salt ks iv iter Hks Hiv q false s He Hc) as (key & Hr & _).
  unfold outcome. cbn [ncall_run]. unfold nlogin. cbv [mbind gets ensure ret]. cbn [k_logged].
  change ((CKU_USER =? CKU_SO) || (CKU_USER =? CKU_USER)) with true. change (negb (CKU_USER =? KRY_UNSPEC)) with true.
  change (KRY_UNSPEC =? KRY_UNSPEC) with true. cbv beta iota. unfold back. cbn [k_nss]. rewrite Hr. done.
Qed.

(* Once the user has logged in and out again, every PIN is accepted, whatever the cryptography: the key derived for the
   password entry stays in the cache and is found under the salt alone (ci.rs:117-122 and 330-340). *)
Theorem C46_any_pin_refuted (C : nssp) (L : nss_laws C) (d : ndb) (rn : N) (p q : bytes) :
  opens C p d ->
  outcome C (nrun C (started d rn) [NLogin CKU_USER p; NLogout]) (NLogin CKU_USER q) = Ok ODone.
Proof.
  intros Ho. destruct (login_first C L d rn p Ho) as (salt & ks & iter & iv & s & Hks & Hiv & Hr & He & Hc).
  unfold nrun. rewrite Hr. cbn [fst]. cbn [ncall_run]. unfold nlogout. cbv [mbind gets ensure ret].
  change (any_logged (Ntok s CKU_USER)) with true. cbv iota beta. cbv [modify]. cbv iota beta. unfold back, unauth_user, set_logged. cbv [modify]. cbn [k_nss k_logged fst].
  apply (login_any C L p salt ks iv iter); done.
Qed.

Lemma set_pin_works C (L : nss_laws C) pin s : blen pin <= pin_max ->
  exists s' salt ks iter iv, set_user_pin C CKU_USER pin s = (s', Ok tt) /\ blen ks = 32 /\ blen iv = 14 /\
    (s_cols s' = s_cols s /\ n_pub (s_db s') = n_pub (s_db s) /\ n_prv (s_db s') = n_prv (s_db s) /\ exists n, ks = n_rnd C n 32 /\ n < s_rn s') /\
    entry C pin salt ks iv iter (s_db s') /\ s_cache s' !! ks = Some (false, n_kdf C (n_sha1 C (salt ++ pin)) ks iter).
Proof.
  intros Hlen. unfold set_user_pin. cbv [mbind ensure]. change (CKU_USER =? CKU_USER) with true. cbv [ret]. cbv iota beta.
  destruct (blen pin <=? pin_max) eqn:E; [|lia]. cbv iota beta. cbv [gets random modify attempt].
  cbv iota beta. unfold encrypt_data. cbv [mbind random]. cbv iota beta. unfold derive_key. cbv [mbind ensure].
  cbn [s_db s_cols s_key s_cache s_rn set_cache set_keys]. rewrite (nl_len C L). change (32 =? 32) with true. cbv iota beta. cbv [ret gets cached].
  cbn [s_db s_cols s_key s_cache s_rn set_cache set_keys]. rewrite lookup_empty. cbv [modify]. cbv iota beta.
  cbn [s_db s_cols s_key s_cache s_rn set_cache set_keys fst snd]. cbv iota beta. cbv [ret]. cbv iota beta.
  eexists _, _, _, _, _. split; [reflexivity|]. split; [|split; [|split; [|split]]].
  5: { cbn [s_db s_cols s_key s_cache s_rn set_cache set_keys set_db]. unfold cache_add. rewrite lookup_insert. reflexivity. }
  1, 2: apply (nl_len C L).
  { cbn [s_db s_cols s_key s_cache s_rn set_cache set_keys set_db set_meta n_pub n_prv]. split; [done|]. split; [done|]. split; [done|].
    exists (s_rn s + 1). split; [done|lia]. }
  unfold entry. cbn [s_db s_cols s_key s_cache s_rn set_cache set_keys set_db set_meta n_meta]. rewrite lookup_insert. reflexivity.
Qed.

Lemma set_pin_opens C (L : nss_laws C) ut pin s s' : set_user_pin C ut pin s = (s', Ok tt) -> opens C pin (s_db s').
Proof.
  intros H. destruct (ut =? CKU_USER) eqn:Eu; [|unfold set_user_pin in H; cbv [mbind ensure] in H; rewrite Eu in H; cbv [fail] in H; by apply pair_equal_spec in H as [_ H]].
  apply N.eqb_eq in Eu. subst ut.
  destruct (blen pin <=? pin_max) eqn:El.
  - destruct (set_pin_works C L pin s) as (s2 & salt & ks & iter & iv & Hs & Hks & Hiv & _ & He & _); [lia|].
    rewrite Hs in H. apply pair_equal_spec in H as [<- _]. by exists salt, ks, iter, iv.
  - unfold set_user_pin in H. cbv [mbind ensure] in H. change (CKU_USER =? CKU_USER) with true in H. cbv [ret] in H. cbv iota beta in H.
    rewrite El in H. cbv [fail] in H. by apply pair_equal_spec in H as [_ H].
Qed.
(* The PIN set with C_InitPIN or C_SetPIN is the one a new process accepts. *)
Theorem C46_new_pin (C : nssp) (L : nss_laws C) (t : ntok) (old new : bytes) :
  (outcome C t (NInitPin new) = Ok ODone -> opens C new (stored (fst (ncall_run C (NInitPin new) t)))) /\
  (outcome C t (NSetPin old new) = Ok ODone -> opens C new (stored (fst (ncall_run C (NSetPin old new) t)))).
Proof.
  unfold outcome. destruct t as [s u]. split.
  - cbn [ncall_run]. unfold ninit_pin. cbv [mbind gets ensure ret fail]. cbn [k_logged].
    destruct (u =? CKU_SO); [|intros H; discriminate H]. cbv iota beta. unfold back. cbn [k_nss k_logged].
    destruct (set_user_pin C CKU_USER new s) as [s' [[]|e]] eqn:E; [|intros H; discriminate H]. intros _. cbn [fst].
    unfold stored. cbn [k_nss]. by apply (set_pin_opens C L) in E.
  - cbn [ncall_run]. unfold nset_pin. cbv [mbind gets ensure ret fail].
    destruct (negb ((blen old =? 0) || (blen new =? 0))); [|intros H; discriminate H]. cbv iota beta.
    destruct (any_logged (Ntok s u)).
    + cbv [skip ret]. cbv iota beta. cbv [attempt]. unfold back. cbn [k_nss k_logged]. cbv [mbind].
      destruct (auth_user C u old true s) as [s1 [[]|e]]; [|intros H; discriminate H]. 
      destruct (set_user_pin C u new s1) as [s2 [[]|e]] eqn:E; [|intros H; discriminate H]. intros _.
      cbn [lift fst]. unfold stored. cbn [k_nss]. by apply (set_pin_opens C L) in E.
    + destruct (nlogin C CKU_USER old (Ntok s u)) as [[s1 u1] [[]|e]]; [|intros H; discriminate H]. cbv iota beta.
      cbv [attempt]. unfold back at 1 2. cbn [k_nss k_logged]. cbv [mbind].
      destruct (auth_user C u1 old true s1) as [s2 [[]|e]].
      2: { cbv iota beta. destruct (nlogout (Ntok s2 u1)) as [t2 r2]. cbv [skip ret lift]. cbv iota beta. intros H; discriminate H. }
      destruct (set_user_pin C u1 new s2) as [s3 [[]|e]] eqn:E.
      2: { cbv iota beta. destruct (nlogout (Ntok s3 u1)) as [t2 r2]. cbv [skip ret lift]. cbv iota beta. intros H; discriminate H. }
      intros _. apply (set_pin_opens C L) in E. cbv iota beta. unfold nlogout. cbv [mbind gets ensure ret fail].
      destruct (any_logged (Ntok s3 u1)); exact E.
Qed.

(* Setting a PIN leaves no key in memory: until that PIN is given nothing encrypted in the database can be read. *)
Lemma set_pin_key C ut pin s s' : set_user_pin C ut pin s = (s', Ok tt) -> s_key s' = None.
Proof.
  unfold set_user_pin. cbv [mbind ensure]. destruct (ut =? CKU_USER); [|intros H; by apply pair_equal_spec in H as [_ H]].
  cbv [ret]. cbv iota beta. destruct (blen pin <=? pin_max); [|intros H; by apply pair_equal_spec in H as [_ H]]. cbv iota beta.
  cbv [random gets modify attempt]. cbv iota beta. destruct (encrypt_data C _ _ _) as [s1 [d|e]]; cbv iota beta; intros H; apply pair_equal_spec in H as [H1 H2].
  - by rewrite <- H1.
  - cbv [fail] in H2. discriminate H2.
Qed.
Theorem C46_no_key (C : nssp) (s : nss) (u : N) (new data : bytes) :
  let t := fst (ncall_run C (NInitPin new) (Ntok s u)) in
  outcome C (Ntok s u) (NInitPin new) = Ok ODone -> is_ok (snd (decrypt_data C data (k_nss t))) = false.
Proof.
  cbv zeta. unfold outcome. cbn [ncall_run]. unfold ninit_pin. cbv [mbind gets ensure ret fail]. cbn [k_logged].
  destruct (u =? CKU_SO); [|intros H; discriminate H]. cbv iota beta. unfold back. cbn [k_nss k_logged].
  destruct (set_user_pin C CKU_USER new s) as [s' [[]|e]] eqn:E; [|intros H; discriminate H]. intros _. cbn [fst k_nss].
  apply set_pin_key in E. unfold decrypt_data. destruct (n_parse C data) as [[salt iter iv d| |]|]; try reflexivity.
  unfold derive_key. cbv [mbind ensure ret fail gets cached]. destruct (blen salt =? 32); cbv iota beta; [|reflexivity]. rewrite E. cbv iota beta. rewrite E. reflexivity.
Qed.

(* Right after C_InitPIN every PIN is accepted as well. *)
Theorem C46_init_pin_refuted (C : nssp) (L : nss_laws C) (d : ndb) (rn : N) (so p q : bytes) :
  n_meta d !! (0, 0, 0) = None -> blen p <= 500 ->
  outcome C (nrun C (started d rn) [NLogin CKU_SO so; NInitPin p; NLogout]) (NLogin CKU_USER q) = Ok ODone.
Proof.
  intros Hd Hp. destruct (set_pin_works C L p (open_db d rn)) as (s & salt & ks & iter & iv & Hs & Hks & Hiv & _ & He & Hc); [done|].
  assert (H1 : ncall_run C (NLogin CKU_SO so) (started d rn) = (Ntok (open_db d rn) CKU_SO, Ok ODone)).
  { cbn [ncall_run]. unfold nlogin. cbv [mbind gets ensure ret]. change (k_logged (started d rn)) with KRY_UNSPEC.
    change ((CKU_SO =? CKU_SO) || (CKU_SO =? CKU_USER)) with true. change (negb (CKU_SO =? KRY_UNSPEC)) with true.
    change (KRY_UNSPEC =? KRY_UNSPEC) with true. cbv beta iota. unfold back, auth_user. cbv [mbind gets].
    change (k_nss (started d rn)) with (open_db d rn). unfold fetch_password. rewrite open_meta, Hd. done. }
  unfold nrun. rewrite H1. cbn [fst]. cbn [ncall_run]. unfold ninit_pin at 1. cbv [mbind gets ensure ret]. cbn [k_logged].
  change (CKU_SO =? CKU_SO) with true. cbv iota beta. unfold back at 1. cbn [k_nss k_logged]. rewrite Hs. cbn [fst].
  unfold nlogout. cbv [mbind gets ensure ret].
  change (any_logged (Ntok s CKU_SO)) with true. cbv iota beta. cbv [modify]. cbv iota beta. unfold back, unauth_user, set_logged. cbv [modify]. cbn [k_nss k_logged fst].
  apply (login_any C L p salt ks iv iter); done.
Qed.

(* C_SetPIN of a user who is logged in accepts any old PIN. *)
Theorem C46_old_pin_refuted (C : nssp) (L : nss_laws C) (d : ndb) (rn : N) (p old new : bytes) :
  opens C p d -> old <> [] -> new <> [] -> blen new <= 500 ->
  outcome C (nrun C (started d rn) [NLogin CKU_USER p]) (NSetPin old new) = Ok ODone.
Proof.
  intros Ho H1 H2 H3. destruct (login_first C L d rn p Ho) as (salt & ks & iter & iv & s & Hks & Hiv & Hr & He & Hc).
  unfold nrun. rewrite Hr. cbn [fst]. unfold outcome. cbn [ncall_run]. unfold nset_pin. cbv [mbind gets ensure ret].
  assert (E1 : blen old =? 0 = false) by (destruct old; [done|unfold blen; cbn [length]; lia]).
  assert (E2 : blen new =? 0 = false) by (destruct new; [done|unfold blen; cbn [length]; lia]).
  rewrite E1, E2. cbn [orb negb]. cbv iota beta. change (any_logged (Ntok s CKU_USER)) with true. cbv iota beta. cbv [skip ret]. cbv iota beta.
  cbv [attempt]. unfold back. cbn [k_nss k_logged]. cbv [mbind].
  destruct (any_pin C L p salt ks iv iter Hks Hiv old true s He Hc) as (key & Ha & _). rewrite Ha.
  destruct (set_pin_works C L new (set_keys key s) H3) as (s2 & ? & ? & ? & ? & Hs & _). rewrite Hs. done.
Qed.

(* Examples: a database in which a PIN was set. *)
Lemma toy_opens : opens toy_nss toy_pin toy_ndb.
Proof.
  apply (proj1 (C46_new_pin toy_nss toy_nss_laws (nrun toy_nss (started new_db 0) [NLogin CKU_SO []]) [] toy_pin)).
  vm_compute. reflexivity.
Qed.
Definition toy_guesses : list ncall :=
  [NLogin CKU_USER [1]; NSearch []; NSetPin [1; 2] [3]; NLogin CKU_SO [4]; NRead true 1 []; NRestart; NLogin CKU_USER []].
Example C46_guesses : is_ok (outcome toy_nss (nrun toy_nss (started toy_ndb 7) toy_guesses) (NLogin CKU_USER [5; 6; 7])) = false.
Proof.
  refine (proj1 (proj2 (C46_partial toy_nss toy_nss_laws toy_ndb 7 toy_pin toy_guesses toy_opens _)) _ _ _); [|discriminate|reflexivity].
  repeat constructor; discriminate.
Qed.
Example C46_right : outcome toy_nss (nrun toy_nss (started toy_ndb 7) [NSearch []; NRestart]) (NLogin CKU_USER toy_pin) = Ok ODone.
Proof. apply (C46_right_pin_partial toy_nss toy_nss_laws); [exact toy_opens|repeat constructor]. Qed.
Example C46_bypass : outcome toy_nss (nrun toy_nss (started toy_ndb 7) [NLogin CKU_USER toy_pin; NLogout]) (NLogin CKU_USER [66]) = Ok ODone.
Proof. apply (C46_any_pin_refuted toy_nss toy_nss_laws), toy_opens. Qed.

(* One wrong PIN can shut out the right one until the process ends: the key made from the wrong PIN stays in the cache
   if the decryption with it does not fail (which happens when the padding is right by chance). *)
Theorem C46_locked_out_refuted : exists C d p q, nss_laws C /\ opens C p d /\ q <> p /\
  forall n, outcome C (nrun C (started d 7) (NLogin CKU_USER q :: repeat (NLogin CKU_USER p) n)) (NLogin CKU_USER p) =
    Err CKR_PIN_INCORRECT.
Proof.
  exists toy_nss, toy_ndb, toy_pin, [9; 9]. split; [exact toy_nss_laws|]. split; [exact toy_opens|]. split; [discriminate|].
  assert (H : fst (ncall_run toy_nss (NLogin CKU_USER toy_pin) (nrun toy_nss (started toy_ndb 7) [NLogin CKU_USER [9; 9]])) =
              nrun toy_nss (started toy_ndb 7) [NLogin CKU_USER [9; 9]]) by (vm_compute; reflexivity).
  assert (Ho : outcome toy_nss (nrun toy_nss (started toy_ndb 7) [NLogin CKU_USER [9; 9]]) (NLogin CKU_USER toy_pin) = Err CKR_PIN_INCORRECT)
    by (vm_compute; reflexivity).
  intros n. cbn [nrun] in H, Ho |- *. set (t := fst (ncall_run toy_nss (NLogin CKU_USER [9; 9]) (started toy_ndb 7))) in *.
  clearbody t. induction n as [|n IH]; cbn [repeat nrun]; [exact Ho|]. rewrite H. exact IH.
Qed.
