(* The PIN of each user: every record holds the key of the token under the PIN that was set last. *)
From Verif Require Import Base Monad Hoare Attr Obj Factory Tables Create Sqlite Storage Token Backend State Api
  Rows ObjOk ObjNew Triple TokInv TokStep TokenFrame TokWp TokAuth Spec WorldFrame WorldWp Sessions SessionInv SessionFacts
  Lifecycle ObjWorld ObjView ObjFacts Errors AuthSpec Users AuthFacts AuthInv.

Section tok.
Context (P : params) (HL : pin_laws P).

(* The record of user u: present if its PIN is known, and a sealing of (v, k) under that PIN. *)
Record row_inv (v : N) (k : bytes) (u : N) (p : option bytes) (d : db) : Prop := RowInv {
  ri_flags : d_meta d !! (META_USER_FLAGS, user_row u) = None;
  ri_known : forall p0, p = Some p0 -> exists i, fetch_user d (user_row u) = Ok i;
  ri_sealed : forall b, d_meta d !! (META_USER_DATA, user_row u) = Some b ->
    exists q r, p_seal_key P (user_row u) q v k r = Ok b /\ forall p0, p = Some p0 -> q = p0 }.
Record pins_of (v : N) (k : bytes) (K : N -> option bytes) (a : view) : Prop := PinsOf {
  po_len : blen k = 32;
  po_rows : forall u, is_user u = true -> row_inv v k u (K u) (v_db a);
  po_key : forall k', v_key a = Some k' -> k' = k /\ v_ver a = v /\ d_tables (v_db a) = true }.
Definition pin_inv (K : N -> option bytes) (a : view) : Prop := exists v k, pins_of v k K a.

Lemma pins_weaken v k (K K' : N -> option bytes) a : (forall u, is_user u = true -> K' u = K u \/ K' u = None) -> pins_of v k K a -> pins_of v k K' a.
Proof.
  intros HK [H1 H2 H3]. split; try done. intros u Hu. destruct (H2 u Hu) as [R1 R2 R3]. destruct (HK u Hu) as [-> | ->]; [done|].
  split; [done|done|]. intros b Hb. destruct (R3 b Hb) as (q & r & R4 & _). exists q, r. split; [done|]. intros p0 X. discriminate X.
Qed.
Lemma pins_ext v k (K K' : N -> option bytes) a : (forall u, is_user u = true -> K' u = K u) -> pins_of v k K a -> pins_of v k K' a.
Proof. intros HK. apply pins_weaken. auto. Qed.
Lemma row_same v k u p d d' : (forall j, user_meta j -> d_meta d' !! (j, user_row u) = d_meta d !! (j, user_row u)) -> fetch_user d' (user_row u) = fetch_user d (user_row u) ->
  row_inv v k u p d -> row_inv v k u p d'.
Proof. intros H1 H2 [R1 R2 R3]. split; [rewrite H1; unfold user_meta; auto|by rewrite H2|]. intros b. rewrite H1 by (unfold user_meta; auto). apply R3. Qed.
Lemma pins_tame v k K a b : tame a b -> pins_of v k K a -> pins_of v k K b.
Proof.
  intros Ht [H1 H2 H3]. split; [done| |].
  - intros u Hu. eapply row_same; [|by apply tame_fetch|by apply H2]. intros j Hj. by apply Ht.
  - intros k' Hk. destruct (tm_key _ _ Ht) as [[T1 T2]|T]; [|congruence]. rewrite T1 in Hk. destruct (H3 _ Hk) as (-> & <- & H6). rewrite (tm_tables _ _ Ht). done.
Qed.

(* What opens a record. *)
Lemma opens v k u p d i b pin v' k' : row_inv v k u p d -> fetch_user d (user_row u) = Ok i -> ai_data i = Some b -> p_open_key P (user_row u) pin b = Some (v', k') ->
  v' = v /\ k' = k /\ forall p0, p = Some p0 -> pin = p0.
Proof.
  intros [_ _ R3] Hi Hb Ho. destruct (fetch_user_data _ _ _ Hi) as (_ & _ & b' & Hb' & Hd). assert (b' = b) as -> by congruence. destruct (R3 _ Hd) as (q & r & Hs & Hq).
  destruct (list_eq_dec N.eq_dec pin q) as [->|Hne]; [rewrite (pl_open _ HL _ _ _ _ _ _ Hs) in Ho; injection Ho as <- <-; done|].
  rewrite (pl_other _ HL _ _ _ _ _ _ _ Hs Hne) in Ho. discriminate Ho.
Qed.
Lemma opens_not v k u p0 d i b pin : row_inv v k u (Some p0) d -> fetch_user d (user_row u) = Ok i -> ai_data i = Some b -> p_open_key P (user_row u) pin b = None -> pin <> p0.
Proof.
  intros [_ _ R3] Hi Hb Ho ->. destruct (fetch_user_data _ _ _ Hi) as (_ & _ & b' & Hb' & Hd). assert (b' = b) as -> by congruence. destruct (R3 _ Hd) as (q & r & Hs & Hq).
  rewrite (Hq _ eq_refl) in Hs. rewrite (pl_open _ HL _ _ _ _ _ _ Hs) in Ho. discriminate Ho.
Qed.
Lemma fetch_default d uid i : d_meta d !! (META_USER_FLAGS, uid) = None -> fetch_user d uid = Ok i -> ai_default i = false.
Proof.
  unfold fetch_user. intros ->. destruct (d_tables d); [|done]. cbn [negb rbind]. 
  destruct (d_meta d !! (META_USER_COUNTER, uid)) as [c|]; [destruct (blen c =? 4)|]; cbn [rbind]; try done; destruct (d_meta d !! (META_USER_DATA, uid)); try done; intros X; by injection X as <-.
Qed.
Lemma put_meta d uid i j w : (j = META_USER_FLAGS \/ w <> uid) -> ai_default i = false -> d_meta (put_user d uid i) !! (j, w) = d_meta d !! (j, w).
Proof. intros H Hd. unfold put_user. cbn [d_meta]. rewrite Hd. destruct (ai_data i); rewrite !lookup_insert_ne; try done; intros X; injection X as X1 X2; destruct H as [H|H]; congruence || (subst; discriminate). Qed.
Lemma fetch_new d uid b c : d_tables d = true -> d_meta d !! (META_USER_FLAGS, uid) = None -> c < 2 ^ 32 -> fetch_user (put_user d uid (AuthInfo false (Some b) MAX_LOGIN_ATTEMPTS c)) uid = Ok (AuthInfo false (Some b) MAX_LOGIN_ATTEMPTS c).
Proof.
  intros Ht Hf Hc. unfold fetch_user, put_user. cbn [d_tables ai_default ai_cur ai_data d_meta]. rewrite Ht. cbn [negb].
  rewrite !(lookup_insert_ne _ (META_USER_DATA, uid)) by done. rewrite (lookup_insert_ne _ (META_USER_COUNTER, uid)) by done. rewrite Hf, !lookup_insert. cbn [rbind].
  rewrite blen_le, unle_le4 by done. change (N.of_nat 4 =? 4) with true. cbv iota. cbn [rbind]. done.
Qed.
(* The counter of a record changes. *)
Lemma row_count v k u u' p d i c : is_user u = true -> is_user u' = true -> row_inv v k u p d -> fetch_user d (user_row u') = Ok i -> ai_default i = false -> ai_data i <> None -> c < 2 ^ 32 ->
  row_inv v k u p (put_user d (user_row u') (AuthInfo (ai_default i) (ai_data i) (ai_max i) c)).
Proof.
  intros Hu Hu' R Hi Hd Hda Hc. destruct (decide (u = u')) as [<-|Hne].
  - destruct R as [R1 R2 R3]. split.
    + rewrite put_meta; auto.
    + intros _ _. destruct (fetch_put_same d (user_row u) (AuthInfo (ai_default i) (ai_data i) (ai_max i) c) i) as [x Hx]; eauto.
    + intros b. rewrite blob_put. cbn [ai_data]. destruct (fetch_user_data _ _ _ Hi) as (_ & _ & b' & Hb' & Hd'). rewrite Hb'. intros X. injection X as <-. auto.
  - assert (user_row u <> user_row u') as Hr by (by apply row_ne). eapply row_same; [|by apply fetch_put_ne|done]. intros j _. apply put_meta; auto.
Qed.
Lemma tried_pins v k K u uid pin b t t' r : is_user u = true -> uid = user_row u -> tried P u uid pin b t t' r -> pins_of v k K (tview t) -> pins_of v k K (tview t').
Proof.
  intros Hu -> H Hp. pose proof Hp as [H1 H2 H3].
  destruct H as [e K1|i b' v' k' A1 A2 A3 A4 A5 A6 A7|i A1 A2 Kp|i b' e A1 A2 A3 A4 A5 [[_ Kp]|Kp]|i b' v' k' d A1 A2 A3 A4 A5 A6].
  - eapply pins_tame; [by apply kept_tame|done].
  - exfalso. destruct (opens _ _ _ _ _ _ _ _ _ _ (H2 u Hu) A1 A3 A4) as (_ & -> & _). done.
  - eapply pins_tame; [by apply kept_tame|done].
  - eapply pins_tame; [by apply kept_tame|done].
  - destruct Kp as [K1 K2 K3 _ _ _]. split; [done| |]; cbn [tview v_db v_key v_ver].
    + intros u0 Hu0. rewrite K1. apply row_count; try done; [by apply H2|eapply fetch_default; [apply (H2 u Hu)|done]|congruence|]. by apply fetch_cur in A1.
    + intros k2. rewrite K1, K2, K3. apply H3.
  - assert (forall u0, is_user u0 = true -> row_inv v k u0 (K u0) d) as Hd.
    { intros u0 Hu0. destruct A5 as [[_ ->]| ->]; [by apply H2|]. apply row_count; try done; [by apply H2|eapply fetch_default; [apply (H2 u Hu)|done]|congruence]. }
    assert (d_tables d = d_tables (t_db t)) as Hdt by (by destruct A5 as [[_ ->]| ->]).
    destruct b.
    + destruct A6 as [A6 [K1 K2 K3 _ _ _]]. split; [done| |]; cbn [tview v_db v_key v_ver]; rewrite K1; [done|]. rewrite K2, K3. cbn. intros k2 X. injection X as <-.
      destruct (opens _ _ _ _ _ _ _ _ _ _ (H2 u Hu) A1 A3 A4) as (-> & -> & _). split; [done|]. split; [done|]. rewrite Hdt. apply (fetch_user_data _ _ _ A1).
    + destruct A6 as [K1 K2 K3 _ _ _]. split; [done| |]; cbn [tview v_db v_key v_ver]; rewrite K1; [done|]. rewrite K2, K3. intros k2 X. rewrite Hdt. by apply H3.
Qed.
Lemma tried_pin v k K u pin b t t' r : is_user u = true -> tried P u (user_row u) pin b t t' r -> pins_of v k K (tview t) -> forall p0, K u = Some p0 ->
  (r = Ok tt -> pin = p0) /\ (r = Err CKR_PIN_INCORRECT -> pin <> p0) /\
  (r = Err CKR_PIN_LOCKED -> pin <> p0 \/ exists i, fetch_user (t_db t) (user_row u) = Ok i /\ 10 <= ai_cur i) /\
  (t_io t = [] -> pin = p0 -> forall i, fetch_user (t_db t) (user_row u) = Ok i -> ai_cur i < 10 -> r = Ok tt).
Proof.
  intros Hu H [H1 H2 H3] p0 HK. pose proof (H2 u Hu) as R. rewrite HK in R.
  assert (forall i, fetch_user (t_db t) (user_row u) = Ok i -> locked i = (10 <=? ai_cur i)) as Hlk.
  { intros i Hi. destruct (fetch_user_data _ _ _ Hi) as (_ & Hm & _). unfold locked. by rewrite Hm. }
  destruct H as [e K1 K2 K3|i b' v' k' A1 A2 A3 A4 A5 A6 A7|i A1 A2 Kp|i b' e A1 A2 A3 A4 A5 Kp|i b' v' k' d A1 A2 A3 A4 A5 A6].
  - destruct (ri_known _ _ _ _ _ R p0 eq_refl) as [i Hi]. split_and!; try done.
    + intros X. injection X as ->. discriminate K3.
    + intros X. injection X as ->. discriminate K3.
    + intros Hio _. exfalso. by apply (K2 Hio i).
  - exfalso. destruct (opens _ _ _ _ _ _ _ _ _ _ R A1 A3 A4) as (_ & -> & _). done.
  - split_and!; try done.
    + intros _. right. exists i. split; [done|]. rewrite (Hlk _ A1) in A2. lia.
    + intros _ _ j Hj Hc. assert (j = i) as -> by congruence. rewrite (Hlk _ A1) in A2. lia.
  - pose proof (opens_not _ _ _ _ _ _ _ _ R A1 A3 A4) as Hne. split_and!; try done; auto.
  - destruct (opens _ _ _ _ _ _ _ _ _ _ R A1 A3 A4) as (_ & _ & Hq). specialize (Hq _ eq_refl). split_and!; done.
Qed.

Definition upd (K : N -> option bytes) (u : N) (p : option bytes) (v : N) : option bytes := if v =? u then p else K v.
Lemma pin_set_pins v k K u pin t t' r : is_user u = true -> pin_set P (user_row u) pin t t' r -> pins_of v k K (tview t) ->
  pins_of v k (match r with Ok _ => upd K u (Some pin) | Err _ => K end) (tview t').
Proof.
  intros Hu H Hp. pose proof Hp as [H1 H2 H3]. destruct H as [e Kp _ _|k' r b Hk Hs Kp].
  - eapply pins_tame; [by apply kept_tame|done].
  - destruct (H3 k' Hk) as (-> & Hv & Ht). cbn [tview v_ver v_db] in Hv, Ht. destruct Kp as [K1 K2 K3 _ _ _]. split; [done| |]; cbn [tview v_db v_key v_ver]; rewrite K1.
    + intros u0 Hu0. unfold upd. destruct (N.eqb_spec u0 u) as [->|Hne].
      * split.
        -- rewrite put_meta by auto. apply (H2 u Hu).
        -- intros _ _. rewrite fetch_new; [eauto|done|apply (H2 u Hu)|done].
        -- intros b0. rewrite blob_put. cbn [ai_data]. intros X. injection X as <-. exists pin, r. split; [by rewrite <- Hv|]. intros p0 X. by injection X.
      * assert (user_row u0 <> user_row u) as Hr by (by apply row_ne). eapply row_same; [|by apply fetch_put_ne|by apply H2]. intros j _. apply put_meta; auto.
    + intros k0. rewrite K2, K3. intros X. assert (k0 = k) as -> by congruence. done.
Qed.
Lemma wiped_pins pin t1 t' r : wiped P pin t1 t' r -> pin_inv (fun u => if u =? CKU_SO then match r with Ok _ => Some pin | Err _ => None end else None) (tview t').
Proof.
  intros [W1 W2 W3 W4 (n & N1 & N2 & N3 & N4) W6]. exists (t_ver t1 + 1), (p_master P n). split; [apply (pl_len _ HL)| |].
  - intros u Hu. cbn [tview v_db]. apply user_cases in Hu as [-> | ->].
    + change (CKU_SO =? CKU_SO) with true. cbv iota. split; [done| |].
      * intros p0 X. destruct r as [[]|e]; [|done]. destruct (N4 eq_refl) as (? & ? & _ & _ & i & Hi & _). eauto.
      * intros b Hb. change (user_row CKU_SO) with SO_ID in *. destruct r as [[]|e].
        -- destruct (N4 eq_refl) as (r0 & b0 & Hs & Hb0 & _). assert (b0 = b) as -> by congruence. exists pin, r0. split; [done|]. intros p0 X. by injection X.
        -- destruct N3 as [N3|(p & r0 & b0 & Hs & Hb0 & _)]; [congruence|]. assert (b0 = b) as -> by congruence. exists p, r0. split; [done|]. intros p0 X. discriminate X.
    + change (CKU_USER =? CKU_SO) with false. cbv iota. change (user_row CKU_USER) with USER_ID. split; [apply W2; unfold user_meta; auto|intros p0 X; discriminate X|].
      intros b. change (user_row CKU_USER) with USER_ID. rewrite W2 by (unfold user_meta; auto). intros X. discriminate X.
  - cbn [tview v_key v_ver v_db]. intros k' Hk. rewrite Hk in N2. destruct N2 as [N2|N2]; [done|]. injection N2 as ->. done.
Qed.
End tok.

Section world.
Context (P : params) (B : backend) (E : N -> keyenv) (Hfs : p_fs P = all_factories) (Hutf : forall n, utf8_valid (p_uuid P n) = true).
Context (HL : pin_laws P) (HS : sane (fun e => plain_code e = true) P B E).
Notation world := (world B). Notation winv := (winv B). Notation token_of := (token_of B). Notation after := (after P B E).
Notation rv := (rv P B E). Notation logged := (logged B). Notation slot_of := (slot_of B). Notation attempt_on := (attempt_on B).
Notation view_at := (view_at B). Notation own_disks := (own_disks B). Notation db_at := (db_at B).
Notation pin_next := (pin_next P B E). Notation pin_inv := (pin_inv P).

Lemma inv_ext K K' a : (forall u, is_user u = true -> K' u = K u \/ K' u = None) -> pin_inv K a -> pin_inv K' a.
Proof. intros HK (v & k & H). exists v, k. by eapply pins_weaken. Qed.
Lemma inv_tame K a b : tame a b -> pin_inv K a -> pin_inv K b.
Proof. intros Ht (v & k & H). exists v, k. by eapply pins_tame. Qed.
Lemma inv_tried K u pin b t t' r : is_user u = true -> tried P u (user_row u) pin b t t' r -> pin_inv K (tview t) -> pin_inv K (tview t').
Proof. intros Hu Ht (v & k & H). exists v, k. eapply tried_pins; eauto. Qed.
Lemma inv_set K u pin t t' r : is_user u = true -> pin_set P (user_row u) pin t t' r -> pin_inv K (tview t) -> pin_inv (match r with Ok _ => upd K u (Some pin) | Err _ => K end) (tview t').
Proof. intros Hu Ht (v & k & H). exists v, k. eapply pin_set_pins; eauto. Qed.
Lemma tried_not_ok u uid pin b t t' e : tried P u uid pin b t t' (Err e) -> e <> CKR_OK.
Proof.
  intros H ->. apply tried_rec in H. cbn in H. destruct H as [[H _]|(_ & _ & H)]; discriminate H.
Qed.
Lemma set_not_ok uid pin t t' e : pin_set P uid pin t t' (Err e) -> told_apart e = true.
Proof. intros Hps. inversion Hps as [e' K1 K2 K3|]; subst. destruct K3 as [[x ->]|[->|(v & k & r & K3)]]; [apply ioerr_pin|done|by apply (pl_code _ HL) in K3 as [K3 _]]. Qed.

Lemma pin_step w c sid K : winv w -> own_disks w -> steady c = true -> pin_inv K (view_at w sid) ->
  pin_inv (fun u => pin_next w c sid u (K u)) (view_at (after w c) sid).
Proof.
  intros Hw Ho Hst HK. destruct (user_call c && (sid =? acting B w c)) eqn:Hc.
  2: { assert (forall u, pin_next w c sid u (K u) = K u) as Hsame.
       { intros u. pose proof Hc as Hc'. destruct c; try done.
         - cbn in Hc. unfold acting in Hc. cbn in Hc. cbn. by rewrite N.eqb_sym, Hc.
         - cbn in Hc |- *. rewrite bool_decide_false; [done|]. intros X. unfold acting in Hc. cbn in Hc. unfold Spec.slot_of in X. destruct (w_smap w !! h); cbn in *; [|done]. injection X as X. lia.
         - cbn [AuthSpec.pin_next]. rewrite bool_decide_false; [done|]. intros X. cbn in Hc, X. unfold acting in Hc. cbn in Hc. unfold Spec.slot_of in X. destruct (w_smap w !! h); cbn in *; [|done]. injection X as X. lia. }
       eapply inv_ext; [intros u _; left; apply Hsame|]. eapply inv_tame; [by apply (calm_call P B E Hfs Hutf)|done]. }
  apply andb_prop in Hc as [Hc Hac]. apply N.eqb_eq in Hac. destruct (user_call_cases B w c sid Hc Hac) as [(h & Hh & [Hs|Hs])|(pin & label & ->)].
  - destruct c; try done; cbn in Hh; injection Hh as ->.
    + (* C_InitPIN *)
      destruct (init_pin_at P B E w h pin sid Hw Hs) as (t & t' & T1 & T2 & Heff). rewrite (view_token _ _ _ _ T1) in HK. rewrite (view_token _ _ _ _ T2).
      cbn [AuthSpec.pin_next]. rewrite bool_decide_true by done. cbn [andb]. destruct Heff as [[Hta Hr]|(Hlo & r & Hp & Hr)].
      * apply N.eqb_neq in Hr. rewrite Hr. eapply inv_tame; [done|]. eapply inv_ext; [|exact HK]. intros u _. rewrite andb_false_r. auto.
      * apply (inv_set K CKU_USER) in Hp as Hk; [|done|done]. destruct r as [[]|e]; rewrite Hr.
        -- eapply inv_ext; [|exact Hk]. intros u _. left. unfold upd. change (CKR_OK =? CKR_OK) with true. by rewrite andb_true_r.
        -- apply set_not_ok, apart in Hp as [Hne _]. apply N.eqb_neq in Hne. rewrite Hne. eapply inv_ext; [|exact Hk]. intros u _. rewrite andb_false_r. auto.
    + (* C_SetPIN *)
      destruct (set_pin_at P B E Hutf w h old new sid Hw Hs) as (t & t' & T1 & T2 & Heff). rewrite (view_token _ _ _ _ T1) in HK. rewrite (view_token _ _ _ _ T2).
      set (u' := if is_user (t_logged t) then t_logged t else CKU_USER) in *. assert (is_user u' = true) as Hu' by (unfold u'; by destruct (is_user (t_logged t)) eqn:?).
      assert (attempt_on w (SetPIN h old new) = Some (sid, u')) as Ha. { cbn. rewrite Hs. rewrite (logged_token _ _ _ _ T1). done. }
      unfold AuthSpec.pin_next. rewrite Ha.
      assert (rv w (SetPIN h old new) <> CKR_OK -> pin_inv K (tview t') -> pin_inv (fun u => if bool_decide (Some (sid, u') = Some (sid, u)) && (rv w (SetPIN h old new) =? CKR_OK) then Some (default [] new) else K u) (tview t')) as Hno.
      { intros Hne Hi. apply N.eqb_neq in Hne. rewrite Hne. eapply inv_ext; [|exact Hi]. intros u _. rewrite andb_false_r. auto. }
      destruct Heff as [Hta Hr|b t1 Htr Hta|t1 t2 Htr1 Htr2 Hta|tm t1 t2 res Htm Htr Hps Hta Hr].
      * apply Hno; [|by eapply inv_tame]. intros X. by rewrite X in Hr.
      * apply Hno; [by eapply tried_not_ok|]. eapply inv_tame; [done|]. by eapply inv_tried.
      * apply Hno; [by eapply tried_not_ok|]. eapply inv_tame; [done|]. eapply inv_tried; [done|done|]. by eapply inv_tried.
      * assert (pin_inv K (tview t1)) as Hk1. { eapply inv_tried; [done|exact Htr|]. destruct Htm as [->|Htm]; [done|]. by eapply inv_tried. }
        pose proof (inv_set K u' _ _ _ _ Hu' Hps Hk1) as Hk. destruct res as [[]|e].
        -- rewrite Hr. eapply inv_tame; [done|]. eapply inv_ext; [|exact Hk]. intros u _. left. unfold upd. change (CKR_OK =? CKR_OK) with true. rewrite andb_true_r.
           destruct (N.eqb_spec u u') as [->|Hne]; [by rewrite bool_decide_true|]. rewrite bool_decide_false; [done|congruence].
        -- apply Hno; [|by eapply inv_tame]. rewrite Hr. by apply set_not_ok, apart in Hps as [Hps _].
    + (* C_Login *)
      destruct (login_at P B E Hutf w h ut pin sid Hw Hs) as (t & t' & T1 & T2 & Heff). rewrite (view_token _ _ _ _ T1) in HK. rewrite (view_token _ _ _ _ T2).
      apply (inv_ext K); [cbn; auto|]. destruct Heff as [Hta _ _ _ _|u' b t1 res Hue Hu' Htr Hta Hr]; [by eapply inv_tame|]. eapply inv_tame; [done|]. by eapply inv_tried.
  - destruct (no_session P B E w c h Hc Hh Hs) as [-> Hr]. apply N.eqb_neq in Hr. eapply inv_ext; [|exact HK]. intros u _. left.
    destruct c; try done; cbn [AuthSpec.pin_next]; rewrite Hr, andb_false_r; done.
  - (* C_InitToken *)
    cbn [AuthSpec.pin_next]. rewrite N.eqb_refl. cbn [negb].
    destruct (token_of w sid) as [t|] eqn:T1.
    2: { pose proof (token_steps P B E Hfs Hutf w (InitToken sid pin label) sid Hw eq_refl) as Hk. rewrite T1 in Hk. destruct (token_of (after w _) sid) as [t'|] eqn:T2; [done|].
         destruct (live_step P B E Hfs Hutf w (InitToken sid pin label) eq_refl Hw) as [_ Hd].
         assert (view_at (after w (InitToken sid pin label)) sid = view_at w sid) as ->.
         { unfold Spec.token_of in *. unfold AuthFacts.view_at. destruct (w_slots w !! sid); [done|]. destruct (w_slots (after w _) !! sid); [done|]. unfold disk_db, Spec.after. by rewrite Hd. }
         eapply inv_ext; [|exact HK]. intros u _. assert (rv w (InitToken sid pin label) <> CKR_OK) as Hne.
         { rewrite rv_code. cbn [api]. assert (wp (c_init_token P B sid pin label) w (fun _ r => code r <> CKR_OK)) as Hwp; [|exact Hwp].
           unfold c_init_token. destruct (N.eq_dec (w_next w) 0) as [Hz|Hz]; [eapply wp_bind, wp_eq; [by apply lock_off|]; done|].
           eapply wp_bind, wp_eq; [by apply lock_eq|]. cbv beta iota. apply wp_bind. unfold get_slot. apply wp_bind, wp_gets, wp_bind, wp_ensure; [intros _|done]. apply wp_bind, wp_gets.
           unfold Spec.token_of in T1. destruct (w_slots w !! sid); [done|]. by apply wp_fail. }
         apply N.eqb_neq in Hne. rewrite Hne. destruct (_ || _); auto. }
    destruct (init_token_at P B E (Hty P HL) HS w sid pin label t Hw T1) as (t' & T2 & Heff). rewrite (view_token _ _ _ _ T1) in HK. rewrite (view_token _ _ _ _ T2).
    destruct Heff as [[Hta Hr]|(r & Hin & Hr)].
    + rewrite Hr. change (CKR_SESSION_EXISTS =? CKR_OK) with false. cbv iota. eapply inv_tame; [done|]. eapply inv_ext; [|exact HK]. intros u _. destruct (_ || _); auto.
    + assert (forall t1, started P (default [] pin) t t1 -> pin_inv K (tview t1)) as Hsta.
      { intros t1 [[_ H1]|[_ ->]]; [|done]. by eapply (inv_tried K CKU_SO). }
      assert (forall e, r = Err e -> e <> CKR_OK -> pin_inv K (tview t') -> pin_inv (fun u => if rv w (InitToken sid pin label) =? CKR_OK then if u =? CKU_SO then Some (default [] pin) else None
        else if wrong_pin (rv w (InitToken sid pin label)) || refused P B E w sid (InitToken sid pin label) then K u else None) (tview t')) as Hno.
      { intros e -> Hne Hk. assert (rv w (InitToken sid pin label) <> CKR_OK) as Hne'. { rewrite Hr. unfold init_code. by destruct (pin_code e). }
        apply N.eqb_neq in Hne'. rewrite Hne'. eapply inv_ext; [|exact Hk]. intros u _. destruct (_ || _); auto. }
      inversion Hin as [e Hi Htr|t1 e S1 S2 S3 S4 S5 S6 Hpl|t1 r0 S1 S2 Hok]; subst.
      * eapply Hno; [done|by eapply tried_not_ok|]. by eapply (inv_tried K CKU_SO).
      * eapply Hno; [done|intros ->; discriminate Hpl|]. unfold tview. rewrite S2, S3, S4. by apply Hsta.
      * apply (wiped_pins P HL) in S2. destruct r as [[]|e].
        -- rewrite Hr. change (CKR_OK =? CKR_OK) with true. cbv iota. done.
        -- cbn in Hok. assert (rv w (InitToken sid pin label) = CKR_GENERAL_ERROR) as Hg. { rewrite Hr. unfold init_code. unfold plain_code in Hok. destruct (pin_code e); [lia|done]. }
           rewrite Hg. change (CKR_GENERAL_ERROR =? CKR_OK) with false. cbv iota. unfold refused. rewrite Hg. eapply inv_ext; [|exact S2]. intros u _. right. done.
Qed.
Lemma inv_empty K w sid : (forall u, K u = None) -> view_at w sid = View db_new None 0 -> pin_inv K (view_at w sid).
Proof.
  intros HK ->. exists 0, (p_master P 0). split; [apply (pl_len _ HL)| |done]. intros u _. rewrite HK. by split.
Qed.
Lemma pin_run_inv cs : forall w sid K, winv w -> own_disks w -> forallb steady cs = true -> pin_inv K (view_at w sid) ->
  let w' := fst (run P B E w cs) in pin_inv (fun u => pin_run P B E w cs sid u (K u)) (view_at w' sid).
Proof.
  induction cs as [|c cs IH]; intros w sid K Hw Ho Hst HK; [done|]. cbn [forallb] in Hst. apply andb_prop in Hst as [Hc Hst].
  specialize (IH (after w c) sid _ (after_winv P B E Hfs Hutf w c Hw) (after_own P B E Hfs Hutf w c Hw Ho Hc) Hst (pin_step w c sid K Hw Ho Hc HK)).
  cbn [run pin_run]. unfold Spec.after in *. destruct (step P B E w c) as [w1 o]. cbn [fst] in *. destruct (run P B E w1 cs) as [w2 os]. exact IH.
Qed.
End world.
