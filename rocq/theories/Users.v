(* The records of the users in the database: what each authentication function does to them. *)
From Verif Require Import Base Monad Hoare Attr Obj Factory Tables Create Sqlite Storage Token Rows ObjOk ObjNew Triple TokInv TokStep TokWp TokAuth Sessions Backend State Api Spec Errors TokenFrame AuthSpec.

(* ---- reading and writing, with the failures told apart ---- *)
Lemma wp_io' t (Q : token -> result unit -> Prop) : (forall i, (t_io t = [] -> i = []) -> Q (set_io i t) (Ok tt)) ->
  (forall i e, t_io t <> [] -> Q (set_io i t) (Err (ioerr_rv e))) -> wp io t Q.
Proof.
  intros H1 H2. unfold wp, io. destruct (t_io t) as [|[e|] r] eqn:E; cbn [fst snd]; [|by apply H2|by apply H1].
  rewrite <- (set_io_id t), E. by apply H1.
Qed.
Lemma wp_dbread' {A} (f : db -> result A) t (Q : token -> result A -> Prop) :
  (forall i, (t_io t = [] -> i = []) -> Q (set_io i t) (f (t_db t))) -> (forall i e, t_io t <> [] -> Q (set_io i t) (Err (ioerr_rv e))) -> wp (dbread f) t Q.
Proof. intros H1 H2. unfold dbread. apply wp_bind, wp_io'; auto. Qed.
Lemma wp_dbwrite' f t (Q : token -> result unit -> Prop) :
  (forall i l, (t_io t = [] -> i = []) -> f (t_db t) = Ok l -> Q (set_db (c_disk (exec l (t_db t))) (set_io i t)) (Ok tt)) ->
  (forall i e, (t_io t = [] -> i = []) -> f (t_db t) = Err e -> Q (set_io i t) (Err e)) ->
  (forall i e, t_io t <> [] -> Q (set_io i t) (Err (ioerr_rv e))) -> wp (dbwrite f) t Q.
Proof.
  intros H1 H2 H3. unfold dbwrite. apply wp_bind, wp_io'; [|auto]. intros i Hi. unfold wp. cbn [t_db set_io].
  destruct (f (t_db t)) as [l|e] eqn:Hf; cbn [fst snd]; auto.
Qed.

(* ---- the records ---- *)
(* The record of a user is replaced. *)
Definition put_user (d : db) (u : N) (i : auth_info) : db :=
  let m0 := if ai_default i then <[(META_USER_FLAGS, u) := le 4 1]> (d_meta d) else d_meta d in
  let m1 := <[(META_USER_COUNTER, u) := le 4 (ai_cur i)]> m0 in
  Db (d_tables d) (d_objs d) (match ai_data i with Some b => <[(META_USER_DATA, u) := b]> m1 | None => m1 end).
Lemma store_user_ok d u i l : store_user_stmts u i = Ok l -> c_disk (exec l d) = put_user d u i.
Proof.
  unfold store_user_stmts, u32_try. destruct (ai_cur i <? 2 ^ 32); cbn [rbind]; [|done]. intros Hl. injection Hl as <-. unfold put_user.
  destruct (ai_default i), (ai_data i); reflexivity.
Qed.
Lemma store_user_small u i : ai_cur i < 2 ^ 32 -> exists l, store_user_stmts u i = Ok l.
Proof. intros H. unfold store_user_stmts, u32_try. destruct (N.ltb_spec (ai_cur i) (2 ^ 32)); [|lia]. cbn [rbind]. eauto. Qed.
Lemma blen_le n x : blen (le n x) = N.of_nat n.
Proof. unfold blen. revert x. induction n as [|n IH]; intros x; cbn [le length]; [done|]. specialize (IH (x / 256)). lia. Qed.
Lemma unle_le4 x : x < 2 ^ 32 -> unle (le 4 x) = x.
Proof. intros H. rewrite unle_le_mod. change (256 ^ N.of_nat 4) with (2 ^ 32). by apply N.mod_small. Qed.
Lemma fetch_user_data d u i : fetch_user d u = Ok i -> d_tables d = true /\ ai_max i = MAX_LOGIN_ATTEMPTS /\ exists b, ai_data i = Some b /\ d_meta d !! (META_USER_DATA, u) = Some b.
Proof.
  unfold fetch_user. destruct (d_tables d); cbn [negb]; [|done]. intros H. repeat match type of H with rbind ?x _ = _ => destruct x; cbn [rbind] in H; [|done] end.
  destruct (d_meta d !! (META_USER_DATA, u)) as [b|]; [|done]. injection H as <-. cbn. eauto.
Qed.
Lemma unle_small l : Forall (fun x => x < 256) l -> unle l < 256 ^ N.of_nat (length l).
Proof.
  induction 1 as [|x l Hx Hl IH]; cbn [unle length]; [done|]. rewrite Nat2N.inj_succ, N.pow_succ_r'. nia.
Qed.
Lemma fetch_put_same d u i j : ai_cur i < 2 ^ 32 -> fetch_user d u = Ok j -> ai_data i <> None ->
  exists b, fetch_user (put_user d u i) u = Ok (AuthInfo b (ai_data i) MAX_LOGIN_ATTEMPTS (ai_cur i)).
Proof.
  intros Hc Hj Hd. destruct (ai_data i) as [b|] eqn:Hb; [|done]. destruct (fetch_user_data _ _ _ Hj) as (Ht & _).
  unfold fetch_user in *. unfold put_user. cbn [d_tables d_meta]. rewrite Ht in Hj |- *. cbn [negb] in Hj |- *. rewrite Hb.
  assert (forall k, k <> META_USER_DATA -> k <> META_USER_COUNTER -> <[(META_USER_DATA, u):=b]> (<[(META_USER_COUNTER, u):=le 4 (ai_cur i)]>
    (if ai_default i then <[(META_USER_FLAGS, u):=le 4 1]> (d_meta d) else d_meta d)) !! (k, u) = (if ai_default i then <[(META_USER_FLAGS, u):=le 4 1]> (d_meta d) else d_meta d) !! (k, u)) as Hk.
  { intros k K1 K2. rewrite !lookup_insert_ne; congruence. }
  rewrite Hk by done. rewrite (lookup_insert_ne _ (META_USER_DATA, u) (META_USER_COUNTER, u)) by done. rewrite !lookup_insert.
  rewrite blen_le, unle_le4 by done. change (N.of_nat 4 =? 4) with true. cbv iota. cbn [rbind].
  destruct (ai_default i).
  - rewrite lookup_insert. rewrite blen_le. change (N.of_nat 4 =? 4) with true. cbv iota. cbn [rbind]. eauto.
  - destruct (d_meta d !! (META_USER_FLAGS, u)) as [x|]; [destruct (blen x =? 4); cbn [rbind] in Hj |- *; [eauto|done]|cbn [rbind]; eauto].
Qed.
Lemma fetch_put_ne d u i v : v <> u -> fetch_user (put_user d u i) v = fetch_user d v.
Proof.
  intros Hv. unfold fetch_user, put_user. cbn [d_tables d_meta].
  assert (forall k, (match ai_data i with Some b => <[(META_USER_DATA, u):=b]> (<[(META_USER_COUNTER, u):=le 4 (ai_cur i)]>
    (if ai_default i then <[(META_USER_FLAGS, u):=le 4 1]> (d_meta d) else d_meta d)) | None => <[(META_USER_COUNTER, u):=le 4 (ai_cur i)]>
    (if ai_default i then <[(META_USER_FLAGS, u):=le 4 1]> (d_meta d) else d_meta d) end) !! (k, v) = d_meta d !! (k, v)) as Hk.
  { intros k. destruct (ai_data i), (ai_default i); rewrite !lookup_insert_ne; congruence. }
  by rewrite !Hk.
Qed.
Lemma blob_put d u i : d_meta (put_user d u i) !! (META_USER_DATA, u) = match ai_data i with Some b => Some b | None => d_meta d !! (META_USER_DATA, u) end.
Proof.
  unfold put_user. cbn [d_meta]. destruct (ai_data i); [by rewrite lookup_insert|]. rewrite lookup_insert_ne by done. destruct (ai_default i); [by rewrite lookup_insert_ne|done].
Qed.
Lemma blob_put_ne d u i v : v <> u -> d_meta (put_user d u i) !! (META_USER_DATA, v) = d_meta d !! (META_USER_DATA, v).
Proof. intros Hv. unfold put_user. cbn [d_meta]. destruct (ai_data i), (ai_default i); rewrite !lookup_insert_ne; congruence. Qed.

(* ---- the parts of a token that matter here ---- *)
(* Key, version and login are kept; the database may differ in what [f] says. *)
Record kept (t t' : token) (d : db) : Prop := Kept {
  kp_db : t_db t' = d; kp_key : t_key t' = t_key t; kp_ver : t_ver t' = t_ver t; kp_log : t_logged t' = t_logged t;
  kp_init : tk_initialized t' = tk_initialized t; kp_io : t_io t = [] -> t_io t' = [] }.

Section users.
Context (P : params).

(* An attempt of user u (record uid) to authenticate with a PIN; set: the key is kept in memory and the user logged in. *)
Inductive tried (u uid : N) (pin : bytes) (set : bool) (t t' : token) : result unit -> Prop :=
| tried_err e : kept t t' (t_db t) -> (t_io t = [] -> forall i, fetch_user (t_db t) uid <> Ok i) -> told_apart e = true -> tried u uid pin set t t' (Err e)
| tried_key i b v k : fetch_user (t_db t) uid = Ok i -> locked i = false -> ai_data i = Some b -> p_open_key P uid pin b = Some (v, k) -> blen k <> 32 -> set = true ->
    t_db t' = t_db t -> t_key t' = t_key t -> t_logged t' = t_logged t -> tk_initialized t' = tk_initialized t -> (t_io t = [] -> t_io t' = []) ->
    tried u uid pin set t t' (Err CKR_ATTRIBUTE_VALUE_INVALID)
| tried_locked i : fetch_user (t_db t) uid = Ok i -> locked i = true -> kept t t' (t_db t) -> tried u uid pin set t t' (Err CKR_PIN_LOCKED)
| tried_bad i b e : fetch_user (t_db t) uid = Ok i -> locked i = false -> ai_data i = Some b -> p_open_key P uid pin b = None ->
    e = (if MAX_LOGIN_ATTEMPTS <=? ai_cur i + 1 then CKR_PIN_LOCKED else CKR_PIN_INCORRECT) ->
    (t_io t <> [] /\ kept t t' (t_db t) \/ kept t t' (put_user (t_db t) uid (AuthInfo (ai_default i) (ai_data i) (ai_max i) (ai_cur i + 1)))) ->
    tried u uid pin set t t' (Err e)
| tried_good i b v k d : fetch_user (t_db t) uid = Ok i -> locked i = false -> ai_data i = Some b -> p_open_key P uid pin b = Some (v, k) ->
    ((ai_cur i = 0 \/ t_io t <> []) /\ d = t_db t \/ d = put_user (t_db t) uid (AuthInfo (ai_default i) (ai_data i) (ai_max i) 0)) ->
    (if set then blen k = 32 /\ kept (set_logged u (set_key_ver (Some k) v t)) t' d else kept t t' d) ->
    tried u uid pin set t t' (Ok tt).

Lemma auth_init ut fl t : fl = 0 \/ (exists i, fl = user_flags ut i 0) -> tk_initialized (update_auth_flags ut fl t) = tk_initialized t.
Proof. intros Hfl. apply update_auth_flags_init. destruct Hfl as [->|[i ->]]; [done|apply user_flags_bit]. Qed.
Lemma kept_flags t t' d ut fl : fl = 0 \/ (exists i, fl = user_flags ut i 0) -> kept t t' d -> kept t (update_auth_flags ut fl t') d.
Proof.
  intros Hfl [K1 K2 K3 K4 K5 K6]. pose proof (auth_init ut fl t' Hfl) as Hi. split; try (unfold update_auth_flags; repeat case_match; done). by rewrite Hi.
Qed.
Lemma kept_logged t t' d u : kept t t' d -> kept (set_logged u t) (set_logged u t') d.
Proof. intros [K1 K2 K3 K4 K5 K6]. by split. Qed.
Lemma ioerr_pin e : told_apart (ioerr_rv e) = true.
Proof. by destruct e. Qed.
Lemma fetch_err d u e : fetch_user d u = Err e -> told_apart e = true.
Proof.
  unfold fetch_user. destruct (d_tables d); cbn [negb]; [|intros [= <-]; done].
  intros H. repeat match type of H with
    | rbind (match ?o with Some _ => _ | None => _ end) _ = _ => destruct o
    | rbind (if ?b then _ else _) _ = _ => destruct b
    | rbind _ _ = _ => cbn [rbind] in H
    | match ?o with Some _ => _ | None => _ end = _ => destruct o
    end; first [discriminate H|injection H as <-; done].
Qed.
Lemma fetch_cur d u i : fetch_user d u = Ok i -> locked i = false -> ai_cur i + 1 < 2 ^ 32.
Proof. intros H. destruct (fetch_user_data _ _ _ H) as (_ & Hm & _). unfold locked. rewrite Hm. intros Hl. change MAX_LOGIN_ATTEMPTS with 10 in Hl. lia. Qed.

Lemma wp_auth u uid pin set t : get_pin_uid u = Ok uid -> wp (tk_auth_user P u pin (negb set)) t (fun t' r => tried u uid pin set t t' r).
Proof.
  intros Hu. unfold tk_auth_user. apply wp_bind, wp_ensure.
  2: { unfold get_pin_uid in Hu. destruct (u =? CKU_SO); [done|]. destruct (u =? CKU_USER); done. }
  intros Hut. apply wp_bind, wp_attempt. unfold st_auth_user. rewrite Hu. apply wp_bind, wp_lift. apply wp_bind, wp_dbread'.
  2: { intros i e Hio. apply wp_bind, wp_modify, wp_bind, wp_lift. pose proof (ioerr_pin e). apply tried_err; try done. apply kept_flags; [by left|]. by split. }
  intros i Hio. destruct (fetch_user (t_db t) uid) as [ai|e] eqn:Hf.
  2: { apply wp_bind, wp_modify, wp_bind, wp_lift. pose proof (fetch_err _ _ _ Hf). apply tried_err; try done; [|by rewrite Hf]. apply kept_flags; [by left|]. by split. }
  apply wp_bind. unfold aci_authenticate. destruct (locked ai) eqn:Hl.
  { apply wp_ret, wp_bind, wp_skip. rewrite Hl. destruct (ai_cur ai =? 0) eqn:H0.
    { exfalso. destruct (fetch_user_data _ _ _ Hf) as (_ & Hm & _). revert Hl. unfold locked. rewrite Hm. change MAX_LOGIN_ATTEMPTS with 10. lia. }
    apply wp_ret, wp_bind, wp_modify, wp_bind, wp_lift. eapply tried_locked; [done|done|]. apply kept_flags; [by eauto|]. by split. }
  destruct (fetch_user_data _ _ _ Hf) as (_ & Hm & b & Hb & _). rewrite Hb. destruct (p_open_key P uid pin b) as [[v k]|] eqn:Ho.
  - rewrite negb_involutive. destruct set.
    + destruct (blen k =? 32) eqn:Hk.
      * apply wp_bind, wp_modify, wp_ret. cbn [ai_cur]. rewrite N.eqb_refl.
        assert (forall t1 d, t_db t1 = d -> t_key t1 = Some k -> t_ver t1 = v -> t_logged t1 = t_logged t -> t_flags t1 = t_flags t -> (t_io t = [] -> t_io t1 = []) ->
          kept (set_logged u (set_key_ver (Some k) v t)) (set_logged u (update_auth_flags u 0 t1)) d) as Hkept.
        { intros t1 d T1 T2 T3 T4 T5 T6. apply kept_logged. apply kept_flags; [by left|]. split; try done. unfold tk_initialized. cbn. by rewrite T5. }
        destruct (negb (ai_cur ai =? 0)) eqn:H0.
        { apply wp_bind, wp_bind, wp_attempt, wp_dbwrite'.
          - intros i1 l Hi1 Hs. apply wp_skip, wp_ret, wp_bind, wp_modify, wp_bind, wp_lift, wp_modify. eapply (tried_good u uid pin true t _ ai b v k); try done; [by right|].
            split; [lia|]. cbn [t_db set_io set_key_ver]. rewrite (store_user_ok _ _ _ _ Hs). rewrite Hb. apply Hkept; try done. cbn. auto.
          - intros i1 e Hi1. destruct (store_user_small uid (AuthInfo (ai_default ai) (Some b) (ai_max ai) 0)) as [l Hl']; [done|]. by rewrite Hl'.
          - intros i1 e Hi1. apply wp_skip, wp_ret, wp_bind, wp_modify, wp_bind, wp_lift, wp_modify. cbn in Hi1. eapply (tried_good u uid pin true t _ ai b v k); try done.
            + left. split; [|done]. right. intros E. by rewrite Hio in Hi1.
            + split; [lia|]. apply Hkept; try done. cbn. intros E. by rewrite Hio in Hi1. }
        { apply wp_bind, wp_skip, wp_ret, wp_bind, wp_modify, wp_bind, wp_lift, wp_modify. eapply (tried_good u uid pin true t _ ai b v k); try done.
          - left. split; [|done]. left. lia.
          - split; [lia|]. by apply Hkept. }
      * apply wp_bind, wp_bind, wp_modify, wp_fail, wp_bind, wp_modify, wp_bind, wp_lift. eapply (tried_key u uid pin true t _ ai b v k); try done; try lia.
        all: try (unfold update_auth_flags; repeat case_match; done). by rewrite auth_init; [|left].
    + apply wp_bind, wp_skip, wp_ret. cbn [ai_cur]. rewrite N.eqb_refl. destruct (negb (ai_cur ai =? 0)) eqn:H0.
      { apply wp_bind, wp_bind, wp_attempt, wp_dbwrite'.
        - intros i1 l Hi1 Hs. apply wp_skip, wp_ret, wp_bind, wp_modify, wp_bind, wp_lift, wp_skip. eapply (tried_good u uid pin false t _ ai b v k); try done; [by right|].
          apply kept_flags; [by left|]. cbn [t_db set_io]. rewrite (store_user_ok _ _ _ _ Hs), Hb. split; try done. cbn. auto.
        - intros i1 e Hi1. destruct (store_user_small uid (AuthInfo (ai_default ai) (Some b) (ai_max ai) 0)) as [l Hl']; [done|]. by rewrite Hl'.
        - intros i1 e Hi1. apply wp_skip, wp_ret, wp_bind, wp_modify, wp_bind, wp_lift, wp_skip. cbn in Hi1. eapply (tried_good u uid pin false t _ ai b v k); try done.
          + left. split; [|done]. right. intros E. by rewrite Hio in Hi1.
          + apply kept_flags; [by left|]. split; try done. cbn. intros E. by rewrite Hio in Hi1. }
      { apply wp_bind, wp_skip, wp_ret, wp_bind, wp_modify, wp_bind, wp_lift, wp_skip. eapply (tried_good u uid pin false t _ ai b v k); try done.
        - left. split; [|done]. left. lia.
        - apply kept_flags; [by left|]. by split. }
  - apply wp_ret. cbn [ai_cur locked ai_max]. rewrite Hm. destruct (ai_cur ai + 1 =? 0) eqn:Hz; [lia|].
    pose proof (fetch_cur _ _ _ Hf Hl) as Hc.
    apply wp_bind, wp_bind, wp_attempt, wp_dbwrite'.
    + intros i1 l Hi1 Hs. apply wp_skip, wp_ret, wp_bind, wp_modify, wp_bind, wp_lift. eapply (tried_bad u uid pin set t _ ai b); try done. right.
      apply kept_flags; [by eauto|]. cbn [t_db set_io]. rewrite (store_user_ok _ _ _ _ Hs), Hb, Hm. split; try done. cbn. auto.
    + intros i1 e Hi1. destruct (store_user_small uid (AuthInfo (ai_default ai) (Some b) MAX_LOGIN_ATTEMPTS (ai_cur ai + 1))) as [l Hl']; [done|]. by rewrite Hl'.
    + intros i1 e Hi1. apply wp_skip, wp_ret, wp_bind, wp_modify, wp_bind, wp_lift. cbn in Hi1. eapply (tried_bad u uid pin set t _ ai b); try done. left. split.
      * intros E. by rewrite Hio in Hi1.
      * apply kept_flags; [by eauto|]. split; try done. cbn. intros E. by rewrite Hio in Hi1.
Qed.

(* The PIN of a user is set. *)
Inductive pin_set (uid : N) (pin : bytes) (t t' : token) : result unit -> Prop :=
| ps_err e : kept t t' (t_db t) -> t_io t <> [] \/ t_key t = None \/ (exists k r, t_key t = Some k /\ p_seal_key P uid pin (t_ver t) k r = Err e) ->
    (exists x, e = ioerr_rv x) \/ e = CKR_USER_NOT_LOGGED_IN \/ (exists v k r, p_seal_key P uid pin v k r = Err e) -> pin_set uid pin t t' (Err e)
| ps_ok k r b : t_key t = Some k -> p_seal_key P uid pin (t_ver t) k r = Ok b ->
    kept t t' (put_user (t_db t) uid (AuthInfo false (Some b) MAX_LOGIN_ATTEMPTS 0)) -> pin_set uid pin t t' (Ok tt).
Lemma wp_set_pin_rec uid pin t : wp (let! i := key_to_user_data P uid pin in dbwrite (fun _ => store_user_stmts uid i)) t (pin_set uid pin t).
Proof.
  apply wp_bind. unfold key_to_user_data. apply wp_bind, wp_gets. destruct (t_key t) as [k|] eqn:Hk.
  2: { apply wp_fail. apply ps_err; [by split|eauto|eauto]. }
  apply wp_bind, wp_gets, wp_bind, wp_draw, wp_bind, wp_lift. destruct (p_seal_key P uid pin (t_ver t) k (t_fresh t)) as [b|e] eqn:Hs.
  2: { apply ps_err; [by split| |]; right; right; eauto. }
  apply wp_ret, wp_dbwrite'.
  - intros i l Hi Hl. eapply ps_ok; [exact Hk|exact Hs|]. cbn [t_db set_io set_fresh]. rewrite (store_user_ok _ _ _ _ Hl). by split.
  - intros i e Hi. destruct (store_user_small uid (AuthInfo false (Some b) MAX_LOGIN_ATTEMPTS 0)) as [l Hl']; [done|]. by rewrite Hl'.
  - intros i e Hi. apply ps_err; [by split|left; done|eauto].
Qed.
Lemma wp_set_user_pin u uid pin t : get_pin_uid u = Ok uid -> wp (set_user_pin P u pin) t (pin_set uid pin t).
Proof. intros Hu. unfold set_user_pin. apply wp_bind. rewrite Hu. apply wp_lift. apply wp_set_pin_rec. Qed.
Lemma kept_trans t t1 t2 d1 d : kept t t1 d1 -> kept t1 t2 d -> kept t t2 d.
Proof. intros [A1 A2 A3 A4 A5 A6] [B1 B2 B3 B4 B5 B6]. split; try congruence. auto. Qed.
Lemma kept_pinflag t t' d : kept t t' d -> kept t (set_flags (N.lor (t_flags t') CKF_USER_PIN_INITIALIZED) t') d.
Proof.
  intros [A1 A2 A3 A4 A5 A6]. split; try done. rewrite <- A5, !init_bit. cbn. by rewrite N.lor_spec, orb_false_r.
Qed.
Lemma pin_set_flag uid pin t t' (b : bool) r : pin_set uid pin t t' r -> pin_set uid pin t (if b then set_flags (N.lor (t_flags t') CKF_USER_PIN_INITIALIZED) t' else t') r.
Proof. intros H. destruct b; [|done]. destruct H; econstructor; try done; by apply kept_pinflag. Qed.

Definition user_of (ut logged : N) : N := if ut =? CK_UNAVAILABLE_INFORMATION then logged else ut.
(* Token::set_pin for an existing user: nothing is checked if no old PIN is given. *)
Lemma wp_tk_set_pin ut u uid pin old t (Q : token -> result unit -> Prop) :
  u = user_of ut (t_logged t) -> get_pin_uid u = Ok uid ->
  (forall t' r, (old = [] \/ exists t1, tried u uid old false t t1 (Ok tt) /\ pin_set uid pin t1 t' r) -> (old = [] -> pin_set uid pin t t' r) -> Q t' r) ->
  (forall t' e, old <> [] -> tried u uid old false t t' (Err e) -> Q t' (Err e)) ->
  wp (tk_set_pin P ut pin old) t Q.
Proof.
  intros Hu Huid H1 H2. unfold tk_set_pin. apply wp_bind, wp_gets, wp_bind.
  assert (u = CKU_SO \/ u = CKU_USER) as Hu2.
  { revert Huid. unfold get_pin_uid. destruct (N.eqb_spec u CKU_SO); [by left|]. destruct (N.eqb_spec u CKU_USER); [by right|done]. }
  assert (wp (if ut =? CK_UNAVAILABLE_INFORMATION then ret (t_logged t) else if ut =? CKU_USER then ret CKU_USER else if ut =? CKU_SO then ret CKU_SO else fail CKR_GENERAL_ERROR) t
    (fun t' r => t' = t /\ r = Ok u)) as Hw.
  { unfold user_of in Hu. destruct (ut =? CK_UNAVAILABLE_INFORMATION); [by apply wp_ret; subst|]. destruct (N.eqb_spec ut CKU_USER); [apply wp_ret; by subst|].
    destruct (N.eqb_spec ut CKU_SO); [apply wp_ret; by subst|]. exfalso. destruct Hu2; congruence. }
  eapply wp_mono; [exact Hw|]. cbv beta. intros t' r [-> ->]. clear Hw.
  assert (forall t0 (Q0 : token -> result unit -> Prop), (forall t' r, pin_set uid pin t0 t' r -> Q0 t' r) -> wp (set_user_pin P u pin;;; (if u =? CKU_USER then modify (fun t => set_flags (N.lor (t_flags t) CKF_USER_PIN_INITIALIZED) t) else skip)) t0 Q0) as Hset.
  { intros t0 Q0 HQ. apply wp_bind. eapply wp_mono; [by apply wp_set_user_pin|]. cbv beta. intros t' r Hp. destruct r as [[]|e]; [|by apply HQ].
    destruct (u =? CKU_USER); [apply wp_modify|apply wp_skip]; apply HQ; [exact (pin_set_flag _ _ _ _ true _ Hp)|done]. }
  apply wp_bind. destruct old as [|x old].
  - change (negb (blen [] =? 0)) with false. cbv iota. apply wp_skip. apply Hset. intros t' r Hp. apply H1; [by left|done].
  - destruct (negb (blen (x :: old) =? 0)) eqn:Hb; [|exfalso; unfold blen in Hb; cbn in Hb; lia].
    eapply wp_mono; [exact (wp_auth u uid (x :: old) false t Huid)|]. cbv beta. intros t1 r Ht. destruct r as [[]|e]; [|by apply H2].
    apply Hset. intros t' r Hp. apply H1; [|done]. right. eauto.
Qed.
Lemma wp_tk_login ut pin t (Q : token -> result unit -> Prop) :
  (forall t' r uid, (ut = CKU_SO \/ ut = CKU_USER) -> t_logged t = KRY_UNSPEC -> get_pin_uid ut = Ok uid -> tried ut uid pin true t t' r -> Q t' r) ->
  (forall t' r uid, ut = CKU_CONTEXT_SPECIFIC -> get_pin_uid (t_logged t) = Ok uid -> tried (t_logged t) uid pin false t t' r -> Q t' r) ->
  (forall e, e <> CKR_OK -> e <> CKR_PIN_INCORRECT -> e <> CKR_PIN_LOCKED -> (e = CKR_USER_TYPE_INVALID /\ (ut =? CKU_SO) || (ut =? CKU_USER) = false \/ (ut = CKU_SO \/ ut = CKU_USER) /\ t_logged t <> KRY_UNSPEC) -> Q t (Err e)) ->
  wp (tk_login P ut pin) t Q.
Proof.
  intros H1 H2 H3. unfold tk_login. apply wp_bind, wp_gets. destruct ((ut =? CKU_SO) || (ut =? CKU_USER)) eqn:Hu.
  - assert (ut = CKU_SO \/ ut = CKU_USER) as Hu' by (destruct (N.eqb_spec ut CKU_SO), (N.eqb_spec ut CKU_USER); auto; done).
    apply wp_bind, wp_ensure; [|intros; apply H3; try done; right; split; [done|]; destruct Hu' as [-> | ->]; intros E; rewrite E in *; done]. intros Hn.
    apply wp_bind, wp_ensure; [|intros Hx; apply H3; try done; right; split; [done|]; lia]. intros Hl. apply N.eqb_eq in Hl.
    assert (exists uid, get_pin_uid ut = Ok uid) as [uid Hg] by (destruct Hu' as [-> | ->]; eauto).
    eapply wp_mono; [exact (wp_auth ut uid pin true t Hg)|]. cbv beta. intros t' r Ht. by eapply H1.
  - destruct (N.eqb_spec ut CKU_CONTEXT_SPECIFIC) as [->|Hne]; [|apply wp_fail, H3; try done; by left].
    destruct (get_pin_uid (t_logged t)) as [uid|e] eqn:Hg.
    + eapply wp_mono; [exact (wp_auth (t_logged t) uid pin false t Hg)|]. cbv beta. intros t' r Ht. by eapply H2.
    + unfold tk_auth_user. apply wp_bind, wp_ensure; [|intros; apply H3; try done; by left]. revert Hg. unfold get_pin_uid. destruct (t_logged t =? CKU_SO); [done|].
      destruct (t_logged t =? CKU_USER); done.
Qed.
Lemma wp_tk_logout t : wp tk_logout t (fun t' r => t_db t' = t_db t /\ (t_key t' = t_key t \/ t_key t' = None) /\ t_ver t' = t_ver t /\
  (r = Ok tt \/ r <> Ok tt /\ (t_logged t' = t_logged t \/ t_logged t' = KRY_UNSPEC)) /\ (r = Ok tt -> t_logged t' = KRY_UNSPEC)).
Proof.
  unfold tk_logout. apply wp_bind, wp_gets. destruct (t_logged t =? KRY_UNSPEC) eqn:Hl; [apply wp_fail; split_and!; auto; done|].
  destruct ((t_logged t =? CKU_SO) || (t_logged t =? CKU_USER)) eqn:Hu; [|apply wp_fail; split_and!; auto; done].
  apply wp_bind, wp_modify, wp_bind, wp_modify, wp_bind, wp_attempt. unfold st_unauth_user.
  set (t1 := set_logged KRY_UNSPEC (clear_private_session_objects t)). assert (t_db t1 = t_db t /\ t_key t1 = t_key t /\ t_ver t1 = t_ver t /\ t_logged t1 = KRY_UNSPEC) as (E1 & E2 & E3 & E4) by done.
  clearbody t1. apply wp_bind, wp_lift. destruct (get_pin_uid (t_logged t)) as [uid|e]; [|apply wp_fail; split_and!; auto; right; auto].
  apply wp_bind, wp_dbread'.
  - intros i _. destruct (fetch_user (t_db t1) uid); [apply wp_modify, wp_skip|apply wp_fail]; split_and!; cbn; auto; right; auto.
  - intros i e _. apply wp_fail. split_and!; cbn; auto; right; auto.
Qed.

(* ---- C_InitToken ---- *)
(* What does not concern the users: the records, key, version and login are kept. *)
Definition user_meta (k : N) : Prop := k = META_USER_FLAGS \/ k = META_USER_COUNTER \/ k = META_USER_DATA.
Record ukept (t t' : token) : Prop := UKept {
  uk_tables : d_tables (t_db t') = d_tables (t_db t); uk_meta : forall k u, user_meta k -> d_meta (t_db t') !! (k, u) = d_meta (t_db t) !! (k, u);
  uk_key : t_key t' = t_key t; uk_ver : t_ver t' = t_ver t; uk_log : t_logged t' = t_logged t; uk_io : t_io t = [] -> t_io t' = [] }.
Global Instance ukept_pre : PreOrder ukept.
Proof.
  split; [by split|]. intros a b c [A1 A2 A3 A4 A5 A6] [B1 B2 B3 B4 B5 B6]. split; try congruence; [|auto]. intros k u Hk. rewrite B2; auto.
Qed.
Lemma ukept_fetch t t' u : ukept t t' -> fetch_user (t_db t') u = fetch_user (t_db t) u.
Proof. intros [U1 U2 _ _ _ _]. unfold fetch_user. rewrite U1. rewrite !U2 by (unfold user_meta; auto). done. Qed.
Lemma ukept_internal : rel ukept (internal_objects_init P).
Proof.
  apply rel_internal_objects_init; try apply _; try done. intros d t H1 H2. split; try done. cbn. by intros; rewrite H2.
Qed.
Lemma info_meta d i k u : user_meta k -> d_meta (c_disk (exec (store_info_stmts i) d)) !! (k, u) = d_meta d !! (k, u).
Proof. intros Hk. cbn. rewrite !lookup_insert_ne; [done|..]; intros E; injection E as E _; destruct Hk as [-> |[-> | ->]]; discriminate E. Qed.
Lemma ukept_info i t j : (t_io t = [] -> j = []) -> ukept t (set_db (c_disk (exec (store_info_stmts i) (t_db t))) (set_io j t)).
Proof. intros Hj. split; try done. cbn [t_db set_db]. intros k u. apply info_meta. Qed.
Lemma ukept_io t j : (t_io t = [] -> j = []) -> ukept t (set_io j t).
Proof. by split. Qed.
Lemma ukept_store_info i : rel ukept (dbwrite (fun _ => Ok (store_info_stmts i))).
Proof. intros t. apply (wp_dbwrite' _ t (fun t' _ => ukept t t')); intros; [injection H0 as <-; by apply ukept_info|by apply ukept_io|by apply ukept_io]. Qed.
Lemma ukept_dbread {A} (f : db -> result A) : rel ukept (dbread f).
Proof. apply rel_dbread; try apply _. intros. by split. Qed.
Lemma ukept_default_info : rel ukept (default_token_info P).
Proof. unfold default_token_info. pose proof ukept_store_info. assert (rel ukept draw) by (apply rel_draw; by split). rel_tac. Qed.
Lemma ukept_pin_flags : rel ukept init_pin_flags.
Proof. unfold init_pin_flags. pose proof (fun A => @ukept_dbread A). rel_tac. Qed.

Definition started (pin : bytes) (t t1 : token) : Prop :=
  tk_initialized t = true /\ tried CKU_SO SO_ID pin false t t1 (Ok tt) \/ tk_initialized t = false /\ t1 = t.
(* The SO record holds the new key under [p] with no failures counted. *)
Definition so_record (v : N) (k p : bytes) (t : token) : Prop :=
  exists r b, p_seal_key P SO_ID p v k r = Ok b /\ d_meta (t_db t) !! (META_USER_DATA, SO_ID) = Some b /\ exists i, fetch_user (t_db t) SO_ID = Ok i /\ ai_cur i = 0 /\ ai_data i = Some b.
Record wiped (pin : bytes) (t1 t' : token) (r : result unit) : Prop := Wiped {
  wi_tables : d_tables (t_db t') = true;
  wi_user : forall k, user_meta k -> d_meta (t_db t') !! (k, USER_ID) = None;
  wi_flags : d_meta (t_db t') !! (META_USER_FLAGS, SO_ID) = None;
  wi_log : t_logged t' = KRY_UNSPEC;
  wi_key : exists n, t_ver t' = t_ver t1 + 1 /\ (t_key t' = None \/ t_key t' = Some (p_master P n)) /\
             (d_meta (t_db t') !! (META_USER_DATA, SO_ID) = None \/ exists p, so_record (t_ver t1 + 1) (p_master P n) p t') /\
             (r = Ok tt -> so_record (t_ver t1 + 1) (p_master P n) pin t');
  wi_io : t_io t1 = [] -> t_io t' = [] }.
Inductive inited (pin : bytes) (t t' : token) : result unit -> Prop :=
| in_refused e : tk_initialized t = true -> tried CKU_SO SO_ID pin false t t' (Err e) -> inited pin t t' (Err e)
| in_same t1 e : started pin t t1 -> t_db t' = t_db t1 -> t_key t' = t_key t1 -> t_ver t' = t_ver t1 -> t_logged t' = KRY_UNSPEC -> t_io t1 <> [] ->
    plain_code e = true -> inited pin t t' (Err e)
| in_reset t1 r : started pin t t1 -> wiped pin t1 t' r -> okerr (fun e => plain_code e = true) r -> inited pin t t' r.

Context (Hty : forall u pin v k r, p_seal_key P u pin v k r <> Err CKR_USER_TYPE_INVALID).
Context (B : backend) (E : N -> keyenv) (HS : sane (fun e => plain_code e = true) P B E).
Lemma wp_errs {A} Q0 (m : M token A) t (Q : token -> result A -> Prop) : errs Q0 m -> wp m t Q -> wp m t (fun t' r => Q t' r /\ okerr Q0 r).
Proof. intros He Hw. split; [exact Hw|apply He]. Qed.
Definition init_tail (pin label : bytes) (i : token_info) : M token unit :=
  let! r := attempt (tk_set_pin P CKU_SO pin []) in
  (match r with Ok _ => skip | Err e => if e =? CKR_USER_TYPE_INVALID then skip else fail e end);;;
  let i' := TokenInfo (copy_sized_string label (ti_label i)) (ti_serial i) (ti_flags i) in
  dbwrite (fun _ => Ok (store_info_stmts i'));;;
  modify (fill_token_info i');;;
  st_unauth_user CKU_SO;;;
  internal_objects_init P.
Lemma er_set_so pin : errs (fun e => plain_code e = true) (tk_set_pin P CKU_SO pin []).
Proof.
  unfold tk_set_pin. apply errs_bind; [apply errs_gets|intros l]. apply errs_bind; [apply errs_ret|intros u]. change (negb (blen [] =? 0)) with false. cbv iota.
  apply errs_bind; [apply errs_skip|intros _]. apply errs_bind; [by eapply er_set_user_pin|intros _]. destruct (_ =? _); [apply errs_modify|apply errs_skip].
Qed.
Lemma er_init_tail pin label i : errs (fun e => plain_code e = true) (init_tail pin label i).
Proof.
  unfold init_tail. apply errs_attempt; [apply er_set_so|]. intros r Hr. apply errs_bind.
  { destruct r as [[]|e]; [apply errs_skip|]. destruct (_ =? _); [apply errs_skip|by apply errs_fail]. }
  intros _. cbv zeta. apply errs_bind; [by eapply er_dbwrite|intros _]. apply errs_bind; [apply errs_modify|intros _]. apply errs_bind; [by eapply er_unauth|intros _]. by eapply er_internal.
Qed.

(* After the reset: no record of the user, one of the SO or none. *)
Record fresh (v : N) (k : bytes) (t : token) : Prop := Fresh {
  fr_tables : d_tables (t_db t) = true;
  fr_user : forall j, user_meta j -> d_meta (t_db t) !! (j, USER_ID) = None;
  fr_flag : d_meta (t_db t) !! (META_USER_FLAGS, SO_ID) = None;
  fr_log : t_logged t = KRY_UNSPEC;
  fr_ver : t_ver t = v }.
Lemma fresh_ukept v k t t' : ukept t t' -> fresh v k t -> fresh v k t'.
Proof.
  intros [U1 U2 U3 U4 U5 U6] [F1 F2 F3 F4 F5]. split; try congruence; [|rewrite U2 by (unfold user_meta; auto); done]. intros j Hj. rewrite U2; auto.
Qed.
Lemma so_ukept v k p t t' : ukept t t' -> so_record v k p t -> so_record v k p t'.
Proof.
  intros Hu (r & b & H1 & H2 & H3). exists r, b. rewrite (ukept_fetch _ _ _ Hu). split_and!; try done. rewrite (uk_meta _ _ Hu); unfold user_meta; auto.
Qed.
Lemma so_put v k p r b t d : p_seal_key P SO_ID p v k r = Ok b -> d_tables d = true -> d_meta d !! (META_USER_FLAGS, SO_ID) = None ->
  t_db t = put_user d SO_ID (AuthInfo false (Some b) MAX_LOGIN_ATTEMPTS 0) -> so_record v k p t.
Proof.
  intros Hs Ht Hf Hd. exists r, b. rewrite Hd. split; [done|]. rewrite blob_put. cbn [ai_data]. split; [done|].
  eexists. unfold fetch_user, put_user. cbn [d_tables ai_default ai_cur ai_data d_meta]. rewrite Ht. cbn [negb].
  rewrite !(lookup_insert_ne _ (META_USER_DATA, SO_ID)) by done. rewrite (lookup_insert_ne _ (META_USER_COUNTER, SO_ID)) by done. rewrite Hf, !lookup_insert. cbn [rbind].
  rewrite blen_le, unle_le4 by done. change (N.of_nat 4 =? 4) with true. cbv iota. cbn [rbind]. split; [reflexivity|]. done.
Qed.
Lemma fresh_put v k p r b t t' : fresh v k t -> p_seal_key P SO_ID p v k r = Ok b -> kept t t' (put_user (t_db t) SO_ID (AuthInfo false (Some b) MAX_LOGIN_ATTEMPTS 0)) ->
  fresh v k t' /\ so_record v k p t' /\ t_key t' = t_key t.
Proof.
  intros [F1 F2 F3 F4 F5] Hs [K1 K2 K3 K4 K5 K6]. split_and!; [|by eapply so_put|done].
  assert (forall j u, (j, u) <> (META_USER_COUNTER, SO_ID) -> (j, u) <> (META_USER_DATA, SO_ID) -> d_meta (t_db t') !! (j, u) = d_meta (t_db t) !! (j, u)) as Hm.
  { intros j u J1 J2. rewrite K1. unfold put_user. cbn [d_meta ai_default ai_data]. by rewrite !lookup_insert_ne by congruence. }
  split; try congruence; [by rewrite K1| |].
  - intros j Hj. rewrite Hm by (intros X; injection X; intros; discriminate). auto.
  - rewrite Hm by (intros X; injection X; intros; discriminate). done.
Qed.

Lemma init_tail_ok pin label i v k p t : fresh v k t -> t_key t = Some k -> so_record v k p t ->
  wp (init_tail pin label i) t (fun t' r => fresh v k t' /\ (t_key t' = Some k \/ t_key t' = None) /\ (exists p, so_record v k p t') /\ (r = Ok tt -> so_record v k pin t') /\ (t_io t = [] -> t_io t' = [])).
Proof.
  intros Hf Hk Hs. unfold init_tail. apply wp_bind, wp_attempt.
  assert (wp (tk_set_pin P CKU_SO pin []) t (fun t' r => fresh v k t' /\ t_key t' = Some k /\ (exists p, so_record v k p t') /\ (r = Ok tt -> so_record v k pin t') /\ r <> Err CKR_USER_TYPE_INVALID /\ (t_io t = [] -> t_io t' = []))) as H.
  { apply (wp_tk_set_pin CKU_SO CKU_SO SO_ID); try done. intros t' r _ Hp. specialize (Hp eq_refl). destruct Hp as [e Hkp H1 H2|k1 r1 b H1 H2 Hkp].
    - assert (ukept t t') as Hu by (destruct Hkp as [K1 K2 K3 K4 K5 K6]; split; try done; congruence). split_and!; [by eapply fresh_ukept|by rewrite (uk_key _ _ Hu)| |done| |apply Hkp].
      + exists p. by eapply so_ukept.
      + intros X. injection X as ->. destruct H2 as [[x Hx]|[Hx|(v1 & k1 & r1 & Hx)]]; [by destruct x|done|by eapply Hty].
    - assert (k1 = k) as -> by congruence. rewrite (fr_ver _ _ _ Hf) in H2. destruct (fresh_put _ _ _ _ _ _ _ Hf H2 Hkp) as (G1 & G2 & G3). split_and!; eauto; try congruence; apply Hkp. }
  eapply wp_mono; [exact H|]. cbv beta. clear Hf Hk Hs H. intros t1 r (Hf & Hk & (p1 & Hs) & Hr & Hne & Hio). apply wp_bind.
  destruct r as [[]|e]; cbv iota; [|destruct (N.eqb_spec e CKR_USER_TYPE_INVALID); [congruence|]; apply wp_fail; split_and!; eauto; done].
  specialize (Hr eq_refl). apply wp_skip. cbv zeta. clear p1 Hs.
  apply wp_bind, (wp_rel ukept); [apply ukept_store_info|]. intros t2 r2 Hu2. pose proof (so_ukept _ _ _ _ _ Hu2 Hr) as Hs2.
  assert (t_io t = [] -> t_io t2 = []) as Hio2 by (intros X; apply Hu2; auto).
  destruct r2 as [[]|e]; [|split; [by eapply fresh_ukept|]; split; [left; by rewrite (uk_key _ _ Hu2)|]; split; [by eauto|]; by split].
  apply wp_bind, wp_modify. pose proof (fresh_ukept _ _ _ _ Hu2 Hf) as Hf2. assert (t_key t2 = Some k) as Hk2 by by rewrite (uk_key _ _ Hu2). clear Hu2 Hf Hr Hk.
  set (t3 := fill_token_info _ t2). assert (fresh v k t3) as Hf3 by by destruct Hf2. assert (so_record v k pin t3) as Hs3 by done. assert (t_key t3 = Some k) as Hk3 by done.
  assert (t_io t = [] -> t_io t3 = []) as Hio3 by done. clearbody t3. clear Hf2 Hs2 Hk2 Hio2 t2.
  apply wp_bind. unfold st_unauth_user. apply wp_bind, wp_lift. change (get_pin_uid CKU_SO) with (Ok SO_ID). cbv beta iota. apply wp_bind, wp_dbread'.
  2: { intros j e Hj. split; [by destruct Hf3|]. split; [by left|]. split; [by eauto|]. split; [done|]. intros. exfalso. auto. }
  intros j Hj. assert (fresh v k (set_io j t3)) as Hf4 by by destruct Hf3. assert (so_record v k pin (set_io j t3)) as Hs4 by done.
  destruct (fetch_user (t_db t3) SO_ID) as [i4|e4]; [|split; [done|]; split; [by left|]; split; [by eauto|]; split; [done|]; cbn; auto].
  apply wp_modify. apply (wp_rel ukept); [apply ukept_internal|]. intros t5 r5 Hu5. split_and!.
  - eapply fresh_ukept; [exact Hu5|]. by destruct Hf4.
  - right. by rewrite (uk_key _ _ Hu5).
  - exists pin. eapply so_ukept; [exact Hu5|]. exact Hs4.
  - intros _. eapply so_ukept; [exact Hu5|]. exact Hs4.
  - intros X. apply (uk_io _ _ Hu5). cbn. auto.
Qed.

Lemma wp_tk_initialize pin label t : wp (tk_initialize P pin label) t (inited pin t).
Proof.
  unfold tk_initialize. apply wp_bind, wp_gets, wp_bind.
  assert (wp (if tk_initialized t then tk_auth_user P CKU_SO pin true else skip) t
    (fun t' r => match r with Ok _ => started pin t t' | Err e => tk_initialized t = true /\ tried CKU_SO SO_ID pin false t t' (Err e) end)) as H.
  { destruct (tk_initialized t) eqn:Hi.
    - eapply wp_mono; [exact (wp_auth CKU_SO SO_ID pin false t eq_refl)|]. cbv beta. intros t' r Ht. destruct r as [[]|e]; [by left|done].
    - apply wp_skip. by right. }
  eapply wp_mono; [exact H|]. cbv beta. clear H. intros t1 r Hr. destruct r as [[]|e]; [|destruct Hr; by apply in_refused].
  apply wp_bind, wp_modify, wp_bind, wp_modify, wp_bind, wp_modify. fold (init_tail pin label).
  set (t2 := set_logged _ _). assert (t_db t2 = t_db t1 /\ t_key t2 = t_key t1 /\ t_ver t2 = t_ver t1 /\ t_logged t2 = KRY_UNSPEC /\ t_io t2 = t_io t1) as (E1 & E2 & E3 & E4 & E5) by done. clearbody t2.
  apply wp_bind. unfold st_reinit. apply wp_bind, wp_dbwrite'; [|done|].
  2: { intros i e Hi. apply (in_same _ _ _ t1); try done; [congruence|]. by destruct e. }
  intros i l Hi Hl. injection Hl as <-. set (d0 := c_disk _).
  assert (d_tables d0 = true /\ d_meta d0 = ∅) as [D1 D2] by done. clearbody d0.
  unfold aci_reset. apply wp_bind, wp_bind, wp_draw. apply wp_modify.
  set (k := p_master P _). set (v := t_ver (set_fresh _ _) + 1).
  set (t3 := set_key_ver _ _ _). assert (fresh v k t3) as Hf3.
  { split; try done; cbn [t_db set_key_ver set_fresh set_db t3]; [intros; by rewrite D2, lookup_empty|by rewrite D2, lookup_empty]. }
  assert (d_meta (t_db t3) !! (META_USER_DATA, SO_ID) = None) as Hd3 by (change (d_meta d0 !! (META_USER_DATA, SO_ID) = None); by rewrite D2, lookup_empty).
  assert (t_key t3 = Some k) as Hk3 by done. assert (v = t_ver t1 + 1) as Hv by (rewrite <- E3; done).
  assert (t_io t1 = [] -> t_io t3 = []) as Hio3 by (intros X; cbn; apply Hi; congruence).
  assert (exists n, k = p_master P n) as [n Hn] by (eexists; reflexivity). clearbody k v t3. clear dependent t2. clear dependent d0. clear dependent i.
  assert (forall t' (r : result unit), fresh v k t' -> (t_key t' = Some k \/ t_key t' = None) -> (d_meta (t_db t') !! (META_USER_DATA, SO_ID) = None \/ exists p, so_record v k p t') ->
    (r = Ok tt -> so_record v k pin t') -> (t_io t1 = [] -> t_io t' = []) -> okerr (fun e => plain_code e = true) r -> inited pin t t' r) as Hfin.
  { intros t' r [F1 F2 F3 F4 F5] G1 G2 G3 G4 G5. apply (in_reset _ _ _ t1); try done. split; try done. exists n. rewrite <- Hn, <- Hv. split_and!; try done. tauto. }
  apply wp_bind. eapply wp_mono.
  { apply (wp_errs (fun e => plain_code e = true)); [|exact (wp_set_pin_rec SO_ID [] t3)]. apply errs_bind; [by eapply er_key_to_user|intros]. apply (er_dbwrite _ (fun e H => H)). intros d. apply (ok_store_user _ (fun e H => H)). }
  cbv beta. intros t4 r [Hp He]. destruct Hp as [e Hkp _ _|k1 r1 b H1 H2 Hkp].
  { assert (ukept t3 t4) as Hu by (destruct Hkp as [K1 K2 K3 K4 K5 K6]; split; try done; congruence).
    apply Hfin; try done; [by eapply fresh_ukept|left; by rewrite (uk_key _ _ Hu)|left; rewrite (uk_meta _ _ Hu); unfold user_meta; auto|intros X; by apply (uk_io _ _ Hu), Hio3]. }
  assert (k1 = k) as -> by congruence. rewrite (fr_ver _ _ _ Hf3) in H2. destruct (fresh_put _ _ _ _ _ _ _ Hf3 H2 Hkp) as (G1 & G2 & G3).
  assert (t_io t1 = [] -> t_io t4 = []) as Hio4 by (intros X; apply Hkp; auto). assert (t_key t4 = Some k) as Hk4 by congruence. clear dependent t3. clear He.
  assert (forall {A} (m : M token A) t0 (Q : token -> result A -> Prop), errs (fun e => plain_code e = true) m -> rel ukept m -> fresh v k t0 -> so_record v k [] t0 -> t_key t0 = Some k -> (t_io t1 = [] -> t_io t0 = []) ->
    (forall t' a, fresh v k t' -> so_record v k [] t' -> t_key t' = Some k -> (t_io t1 = [] -> t_io t' = []) -> Q t' (Ok a)) -> (forall t' e, inited pin t t' (Err e) -> Q t' (Err e)) -> wp m t0 Q) as Hstep.
  { intros A m t0 Q Hm Hru F1 F2 F3 F4 Q1 Q2. eapply wp_mono; [apply (wp_errs _ _ _ (fun t' _ => ukept t0 t') Hm); apply (wp_rel ukept); [done|]; auto|].
    cbv beta. intros t' r [Hu He]. pose proof (fresh_ukept _ _ _ _ Hu F1). pose proof (so_ukept _ _ _ _ _ Hu F2). assert (t_key t' = Some k) by by rewrite (uk_key _ _ Hu).
    assert (t_io t1 = [] -> t_io t' = []) by (intros X; apply Hu; auto). destruct r as [a|e]; [by apply Q1|]. apply Q2, Hfin; eauto. done. }
  apply wp_bind. eapply Hstep; [by eapply er_default_info|apply ukept_default_info|done..| |by intros]. intros t5 i5 F5 S5 K5 I5.
  apply wp_bind. eapply Hstep; [by eapply er_pin_flags|apply ukept_pin_flags|done..| |by intros]. intros t6 i6 F6 S6 K6 I6. apply wp_ret.
  match goal with |- wp (_ ?i) _ _ => idtac | |- wp ?m _ _ => idtac end.
  eapply wp_mono; [eapply (wp_errs _ (init_tail pin label _) t6); [apply er_init_tail|by eapply init_tail_ok]|]. cbv beta. intros t7 r7 [(G1' & G2' & G3' & G4' & G5') G6']. apply Hfin; auto.
Qed.
End users.
