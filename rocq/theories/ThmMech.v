(* C22: mechanisms and the lists that restrict them. *)
From Verif Require Import Base Monad Hoare Attr Obj Factory Tables Create Sqlite Storage Token Backend State Api Toy
  ObjSpec TokInv TokStep TokWp TokAuth Spec OpsSpec MechSpec WorldFrame WorldWp Sessions SessionInv SessionFacts ObjWorld ObjFacts ObjCalls AuthFacts ToyFacts ThmObjects ThmOps.

Section mechs.
Context (P : params) (B : backend) (E : N -> keyenv).
Context (Hfs : p_fs P = all_factories) (Hutf : forall n, utf8_valid (p_uuid P n) = true).
Notation world := (world B). Notation after := (after P B E). Notation rv := (rv P B E). Notation out_of := (out_of P B E).
Notation session_of := (session_of B). Notation token_of := (token_of B).

(* The world with another token in a slot: only random numbers have been drawn and database calls made. *)
Definition hushed (w w' : world) : Prop := w' = w \/ exists sid sl t', w_slots w !! sid = Some sl /\ noise (sl_token sl) t' /\ w' = with_slot B sid (put_token B t' sl) w.
Lemma hushed_done w w' : hushed w w' -> nothing_done B w w'.
Proof.
  intros [->|(sid & sl & t' & H1 & H2 & ->)]; [by split|]. split.
  - intros i h. apply idle_same. by apply idle_slot.
  - intros s. unfold Spec.session_of. cbn [with_slot set_slots w_smap w_slots]. destruct (w_smap w !! s) as [i|]; [|done].
    destruct (decide (i = sid)) as [->|Hne]; [by rewrite lookup_insert, H1|by rewrite lookup_insert_ne].
Qed.
Definition refused (w w' : world) (r : result (N * out)) : Prop := hushed w w' /\ exists e, r = Err e.
Lemma refused_call w c : wp (api P B E c) w (refused w) -> out_of w c = ONone /\ nothing_done B w (after w c).
Proof.
  intros H. apply (call_wp P B E c w) in H. destruct H as [H1 [e H2]]. split; [by apply answer_err in H2 as [_ H2]|by apply hushed_done].
Qed.
Lemma here w e : refused w w (Err e).
Proof. split; [by left|eauto]. Qed.
Lemma there w sid sl t' e : w_slots w !! sid = Some sl -> noise (sl_token sl) t' -> refused w (with_slot B sid (put_token B t' sl) w) (Err e).
Proof. intros H1 H2. split; [right; eauto 10|eauto]. Qed.
Lemma noise_mechs t t' : noise t t' -> mechanisms P t' = mechanisms P t.
Proof. by intros (i & n & ->). Qed.
Lemma noise_seen t t' h o : noise t t' -> seen P t' h o -> seen P t h o.
Proof. by intros (i & n & ->). Qed.

(* The mechanism is not one of the slot's. *)
Definition unlisted (w : world) (sid m : N) : Prop := forall t, token_of w sid = Some t -> ~ In m (map fst (mechanisms P t)).
(* The key may not be used with the mechanism. *)
Definition forbidden (w : world) (sid key m : N) : Prop := exists a, attr_at B w sid key CKA_ALLOWED_MECHANISMS = Some a /\ ~ In m (allowed_list (a_val a)).

Lemma listed_in n m v : mech_listed n m v = true -> In m (ulongs n v).
Proof.
  revert v. induction n as [|n IH]; intros v; cbn [mech_listed ulongs]; [done|]. intros H. apply orb_true_iff in H as [H|H]; [left|right; by apply IH].
  apply N.eqb_eq in H. by rewrite <- H.
Qed.
Lemma not_allowed t key m o a : tok_ok t -> seen P t key o -> attr_of t key CKA_ALLOWED_MECHANISMS = Some a -> ~ In m (allowed_list (a_val a)) -> check_allowed_mechs m o <> CKR_OK.
Proof.
  intros Ht Hs Ha Hn. assert (get_attr o CKA_ALLOWED_MECHANISMS = Some a) as Hg.
  { rewrite <- Ha. destruct Hs as [Hs|[Hs Hf]]; [unfold attr_of; by rewrite Hs|]. by apply (fetched_attr P Hfs t key [] o _ KUlongArray). }
  unfold check_allowed_mechs. rewrite Hg. destruct (negb _); [done|]. destruct (mech_listed _ _ _) eqn:Hl; [|done]. exfalso. apply Hn. by apply listed_in.
Qed.

Lemma wp_ses w h sid (Q : world -> result (session B) -> Prop) : winv B w -> slot_of B w h = Some sid ->
  (forall se sl, w_next w <> 0 -> w_slots w !! sid = Some sl -> s_slot se = sid -> Q w (Ok se)) -> (forall e, Q w (Err e)) -> wp (get_session B h) w Q.
Proof.
  intros [_ HI] Hsl H1 H2. apply wp_get_session; [|done]. intros i sl se Hi Hm Hs Hse. unfold Spec.slot_of in Hsl. assert (i = sid) as -> by congruence.
  apply (H1 se sl); [done|done|]. by destruct (so_sessions _ _ _ _ _ (si_slots _ _ HI _ _ Hs) _ _ Hse).
Qed.
Lemma flags_here w sid sl m (Q : world -> result N -> Prop) : w_next w <> 0 -> w_slots w !! sid = Some sl ->
  (forall e, Q w (Err e)) -> (In m (map fst (mechanisms P (sl_token sl))) -> forall fl, Q w (Ok fl)) -> wp (mech_flags P B sid m) w Q.
Proof.
  intros Hi Hs H1 H2. unfold mech_flags. wp_step. wp_step. destruct (List.filter _ _) as [|p r] eqn:Hx; [by wp_step|]. wp_step. apply H2.
  assert (In p (List.filter (fun p : N * N => fst p =? m) (mechanisms P (sl_token sl)))) as Hin by (rewrite Hx; by left).
  apply List.filter_In in Hin as [Hin He]. apply N.eqb_eq in He. subst m. by apply in_map.
Qed.
Lemma flags_there w sid sl t' m (Q : world -> result N -> Prop) : w_next w <> 0 -> noise (sl_token sl) t' ->
  (forall e, Q (with_slot B sid (put_token B t' sl) w) (Err e)) -> (In m (map fst (mechanisms P (sl_token sl))) -> forall fl, Q (with_slot B sid (put_token B t' sl) w) (Ok fl)) ->
  wp (mech_flags P B sid m) (with_slot B sid (put_token B t' sl) w) Q.
Proof.
  intros Hi Hn H1 H2. apply flags_here with (put_token B t' sl); [done|apply with_slot_lookup|done|]. cbn [put_token sl_token]. by rewrite (noise_mechs _ _ Hn).
Qed.
Lemma peek_tok w sid sl h (Q : world -> result object -> Prop) : winv B w -> w_next w <> 0 -> w_slots w !! sid = Some sl ->
  (forall t' o, noise (sl_token sl) t' -> seen P (sl_token sl) h o -> Q (with_slot B sid (put_token B t' sl) w) (Ok o)) ->
  (forall t' e, noise (sl_token sl) t' -> Q (with_slot B sid (put_token B t' sl) w) (Err e)) -> wp (Api.tok B sid (get_object_by_handle P h)) w Q.
Proof.
  intros Hw Hi Hs H1 H2. wp_step. apply wp_peek; [|intros; by apply H1|intros; by apply H2]. eapply token_ok; [done|]. unfold Spec.token_of. by rewrite Hs.
Qed.
Lemma peek_again w sid sl t h (Q : world -> result object -> Prop) : winv B w -> w_next w <> 0 -> w_slots w !! sid = Some sl -> noise (sl_token sl) t ->
  (forall t' o, noise (sl_token sl) t' -> seen P (sl_token sl) h o -> Q (with_slot B sid (put_token B t' sl) w) (Ok o)) ->
  (forall t' e, noise (sl_token sl) t' -> Q (with_slot B sid (put_token B t' sl) w) (Err e)) -> wp (Api.tok B sid (get_object_by_handle P h)) (with_slot B sid (put_token B t sl) w) Q.
Proof.
  intros Hw Hi Hs Hn H1 H2. wp_step. cbn [put_token sl_token]. apply wp_peek.
  - eapply noise_ok; [exact Hn|]. eapply token_ok; [done|]. unfold Spec.token_of. by rewrite Hs.
  - intros t' o Hn' Hse _. rewrite with_slot_twice. apply H1; [by etransitivity|]. by eapply noise_seen.
  - intros t' e Hn'. rewrite with_slot_twice. apply H2. by etransitivity.
Qed.
(* What stands against the call. *)
Definition barred (w : world) (c : call) (sid m : N) : Prop := unlisted w sid m \/ exists key, key_of_call c = Some key /\ forbidden w sid key m.
Lemma barred_refuses w c sid m : from_scratch P B E w -> mech_of_call c = Some m -> slot_in B w c = Some sid -> barred w c sid m -> wp (api P B E c) w (refused w).
Proof.
  intros Hsc Hm Hsl Hbar. pose proof (scratch_winv P B E Hfs Hutf w Hsc) as Hw.
  assert (forall sl, w_slots w !! sid = Some sl -> In m (map fst (mechanisms P (sl_token sl))) ->
    match key_of_call c with Some key => exists o, seen P (sl_token sl) key o /\ check_allowed_mechs m o = CKR_OK | None => True end -> False) as Hcon.
  { intros sl Hs Hin Ho. assert (token_of w sid = Some (sl_token sl)) as Ht by (unfold Spec.token_of; by rewrite Hs).
    destruct Hbar as [Hu|(key & Hk & a & Ha & Hn)]; [by apply (Hu _ Ht)|]. rewrite Hk in Ho. destruct Ho as (o & Ho1 & Ho2). unfold attr_at in Ha. rewrite Ht in Ha.
    eapply not_allowed; [eapply token_ok; eauto|exact Ho1|exact Ha|exact Hn|exact Ho2]. }
  assert (forall h, slot_of_call c = None -> session_of_call c = Some h -> slot_of B w h = Some sid) as Hh by (intros h X1 X2; unfold slot_in in Hsl; by rewrite X1, X2 in Hsl).
  clear Hbar. destruct c; cbn [mech_of_call] in Hm; try discriminate Hm.
  all: unfold slot_in in Hsl; cbn [slot_of_call session_of_call] in Hsl, Hh; cbn [key_of_call] in Hcon.
  all: try (destruct k; try discriminate Hm).
  all: try (destruct m0 as [[? ?]|]; [|discriminate Hm]; injection Hm as <-; cbn [fst] in * ).
  all: try (injection Hm as <-); try (injection Hsl as <-).
  all: cbn [api]; unfold op_init, c_digest_init, c_generate_key, c_generate_key_pair, c_wrap_key, c_unwrap_key, c_derive_key, c_encapsulate_key, c_decapsulate_key, c_get_mechanism_info.
  all: repeat first
    [ match goal with X : Some (_, _) = Some (_, _) |- _ => injection X as <- <- end | lazymatch goal with
      | |- refused _ _ (Err _) => first [apply here | eapply there; eassumption]
      | |- wp (Api.lock _) _ _ => apply wp_lock; [|intros; apply here]; intros ?; cbv beta iota
      | |- wp (get_session _ _) _ _ => eapply wp_ses; [exact Hw|by apply Hh| |intros; apply here]; intros ? ? ? ? ->; cbv beta iota zeta
      | |- wp (ro_check _ _ _) _ _ => apply wp_ro_check; [intros _|intros; apply here]; cbv beta iota
      | |- wp (Api.tok _ _ (get_object_by_handle _ _)) (with_slot _ _ _ _) _ => eapply peek_again; [exact Hw|eassumption|eassumption|eassumption|intros ? ? ? ?|intros ? ? ?]; cbv beta iota zeta
      | |- wp (Api.tok _ _ (get_object_by_handle _ _)) _ _ => eapply peek_tok; [exact Hw|eassumption|eassumption|intros ? ? ? ?|intros ? ? ?]; cbv beta iota zeta
      | |- wp (mech_flags _ _ _ _) (with_slot _ _ _ _) _ => eapply flags_there; [eassumption|eassumption|intros ?|intros ? ?]; cbv beta iota zeta
      | |- wp (mech_flags _ _ _ _) _ _ => eapply flags_here; [eassumption|eassumption|intros ?|intros ? ?]; cbv beta iota zeta
      | H : In _ (map fst _) |- refused _ _ _ => exfalso; eapply Hcon; [eassumption|exact H|]; first [exact I | eexists; split; [eassumption|by apply N.eqb_eq]]
      | H : In _ (map fst _) |- wp _ _ _ => exfalso; eapply Hcon; [eassumption|exact H|]; first [exact I | eexists; split; [eassumption|by apply N.eqb_eq]]
      end | wp_step ].
Qed.

(* No call uses a mechanism that the slot does not list: it gives nothing back, changes no object and no operation. *)
Lemma listed w sid n ms k : out_of w (GetMechanismList sid true n) = OList ms k -> exists t, token_of w sid = Some t /\ ms = map fst (mechanisms P t).
Proof.
  intros H. pose (Q := fun (_ : world) (r : result (N * out)) => forall v, r = Ok (v, OList ms k) -> exists t, token_of w sid = Some t /\ ms = map fst (mechanisms P t)).
  assert (wp (api P B E (GetMechanismList sid true n)) w Q) as Hq.
  { cbn [api]. unfold c_get_mechanism_list. repeat (wp_step; try (intros v; discriminate)). intros v X. injection X as <- <-. exists (sl_token sl). unfold Spec.token_of. match goal with X : w_slots w !! sid = Some sl |- _ => by rewrite X end. }
  apply (call_wp P B E _ w) in Hq. assert (out_of w (GetMechanismList sid true n) <> ONone) as Hn by (rewrite H; discriminate). apply answer_out in Hn as [v Hn]. rewrite H in Hn. by eapply Hq.
Qed.
Theorem C22_unlisted w c sid n ms k m : from_scratch P B E w -> out_of w (GetMechanismList sid true n) = OList ms k -> ~ In m ms ->
  mech_of_call c = Some m -> slot_in B w c = Some sid -> out_of w c = ONone /\ nothing_done B w (after w c).
Proof.
  intros Hsc Hl Hm Hc Hs. apply refused_call, (barred_refuses w c sid m); try done. left. apply listed in Hl as (t & Ht & ->). intros t' Ht'. congruence.
Qed.
(* No call uses a key with a mechanism that its CKA_ALLOWED_MECHANISMS does not have. *)
Theorem C22_allowed_partial w c sid m key a : from_scratch P B E w -> mech_of_call c = Some m -> key_of_call c = Some key -> slot_in B w c = Some sid ->
  attr_at B w sid key CKA_ALLOWED_MECHANISMS = Some a -> ~ In m (allowed_list (a_val a)) -> out_of w c = ONone /\ nothing_done B w (after w c).
Proof.
  intros Hsc Hc Hk Hs Ha Hm. apply refused_call, (barred_refuses w c sid m); try done. right. exists key. split; [done|]. by exists a.
Qed.

(* ---- the list ---- *)
Lemma tsteps_filter K t t' : tsteps P K t t' -> t_filter t' = t_filter t.
Proof.
  induction 1 as [|t t1 t2 (k & _ & H) _ IH]; [done|]. rewrite IH. clear IH. destruct H; try done.
Qed.
Lemma filter_fst (p : N -> bool) (l : list (N * N)) : map fst (List.filter (fun x => p (fst x)) l) = List.filter p (map fst l).
Proof. induction l as [|[x y] l IH]; cbn; [done|]. destruct (p x); cbn; by rewrite IH. Qed.
Lemma filtered c t : t_filter t = None -> map fst (mechanisms P (set_dedup (sc_dedup c) (apply_filter P (sc_mechs c) t))) = offered c (map fst (p_mechs P)).
Proof.
  intros H. unfold offered, apply_filter, mechanisms. destruct (sc_mechs c) as [[l [|]]|]; cbn [set_dedup set_filter t_filter].
  - apply (filter_fst (fun m => negb (existsb (N.eqb m) l))).
  - apply (filter_fst (fun m => existsb (N.eqb m) l)).
  - by rewrite H.
Qed.
Definition told (l : list slotconf) (w0 w : world) : Prop := forall sid t, token_of w sid = Some t ->
  (exists t0, token_of w0 sid = Some t0 /\ mechanisms P t = mechanisms P t0) \/
  (token_of w0 sid = None /\ exists c, List.find (fun c => sc_id c =? sid) l = Some c /\ map fst (mechanisms P t) = offered c (map fst (p_mechs P))).
Lemma told_add l : forall a w, world_ok B w -> told l w (fst (add_slots P B l a w)).
Proof.
  induction l as [|c l IH]; intros a w Hw; cbn [add_slots]; [intros sid t Ht; left; eauto|]. unfold slot_new. rewrite !run_bind. cbv [gets].
  pose proof (token_new_steps P (k_db (disk_of B (sc_disk c) w)) (sc_io c) (k_fresh (disk_of B (sc_disk c) w)) Hfs (disk_of_ok B _ _ Hw)) as [Ht Hst].
  destruct (token_new _ _ _ _) as [t [u|e]]; [|intros sid t' Ht'; left; eauto]. cbn [fst] in Ht, Hst. cbv [ret]. rewrite run_bind. cbv [ret].
  apply tsteps_filter in Hst. cbn [token_blank t_filter] in Hst.
  destruct (w_slots w !! sc_id c) as [sl0|] eqn:Hd; cbn [nonnull].
  - intros sid t' Ht'. destruct (IH true w Hw sid t' Ht') as [H1|[H1 (c' & H2 & H3)]]; [by left|]. right. split; [done|]. exists c'. split; [|done].
    cbn [List.find]. destruct (N.eqb_spec (sc_id c) sid) as [<-|Hne]; [|done]. unfold Spec.token_of in H1. by rewrite Hd in H1.
  - rewrite run_bind. cbv [put_slot modify]. set (w1 := set_slots _ _ _). assert (world_ok B w1) as Hw1.
    { subst w1. apply put_slot_ok; [done|]. cbn. unfold apply_filter. destruct (sc_mechs c) as [[]|]; apply (tok_same t); done || apply Ht. }
    intros sid t' Ht'. destruct (IH a w1 Hw1 sid t' Ht') as [(t0 & H1 & H2)|[H1 (c' & H2 & H3)]].
    + unfold Spec.token_of in H1. subst w1. cbn [set_slots w_slots] in H1. destruct (decide (sid = sc_id c)) as [->|Hne].
      * rewrite lookup_insert in H1. injection H1 as <-. right. unfold Spec.token_of. rewrite Hd. split; [done|]. exists c. cbn [List.find]. rewrite N.eqb_refl.
        split; [done|]. rewrite H2. cbn [sl_token]. by apply filtered.
      * rewrite lookup_insert_ne in H1 by done. left. exists t0. by split.
    + right. unfold Spec.token_of in H1. subst w1. cbn [set_slots w_slots] in H1. destruct (decide (sid = sc_id c)) as [->|Hne]; [by rewrite lookup_insert in H1|].
      rewrite lookup_insert_ne in H1 by done. split; [done|]. exists c'. cbn [List.find]. destruct (N.eqb_spec (sc_id c) sid); [congruence|]. by split.
Qed.
Lemma told_run l cs : forall w0 w, forallb live_call cs = true -> winv B w -> told l w0 w -> told l w0 (fst (run P B E w cs)).
Proof.
  induction cs as [|c cs IH]; intros w0 w Hc Hw Ht; [done|]. cbn [forallb] in Hc. apply andb_true_iff in Hc as [Hc1 Hc2]. cbn [run].
  pose proof (after_winv P B E Hfs Hutf w c Hw) as Hw'. unfold Spec.after in Hw'. pose proof (token_steps P B E Hfs Hutf w c) as Hts. unfold Spec.after in Hts.
  destruct (step P B E w c) as [w' o] eqn:Hs. cbn [fst] in *. specialize (IH w0 w' Hc2 Hw'). destruct (run P B E w' cs) as [w'' os]. cbn [fst] in *. apply IH.
  intros sid t Hsid. specialize (Hts sid Hw Hc1). rewrite Hsid in Hts. destruct (token_of w sid) as [t1|] eqn:Ht1; [|done].
  assert (mechanisms P t = mechanisms P t1) as Hmm. { destruct Hts as [->|[_ Hst]]; [done|]. unfold mechanisms. by rewrite (tsteps_filter _ _ _ Hst). }
  destruct (Ht sid t1 Ht1) as [(t0 & H1 & H2)|[H1 (c' & H2 & H3)]]; rewrite Hmm; [left; exists t0; by rewrite H2|]. right. split; [done|]. by exists c'.
Qed.
(* From the start of the module to its end, whatever is called in between, a slot lists exactly what its configuration leaves
   of the mechanisms of the build. *)
Theorem C22_list w confs cs sid n ms k : from_scratch P B E w -> w_next w = 0 -> forallb live_call cs = true ->
  out_of (fst (run P B E (after w (Initialize confs)) cs)) (GetMechanismList sid true n) = OList ms k ->
  exists conf, List.find (fun c => sc_id c =? sid) confs = Some conf /\ ms = offered conf (map fst (p_mechs P)).
Proof.
  intros Hsc H0 Hcs Ho. pose proof (scratch_winv P B E Hfs Hutf w Hsc) as Hw. apply listed in Ho as (t & Ht & ->).
  pose proof (after_winv P B E Hfs Hutf w (Initialize confs) Hw) as Hw1.
  assert (told confs (World ∅ ∅ 1 (w_disks w)) (after w (Initialize confs))) as Hi.
  { unfold Spec.after. rewrite run_step. cbn [api]. unfold c_initialize. rewrite run_bind. cbv [gets]. unfold initialized. rewrite H0. cbn [N.eqb negb]. rewrite run_bind. cbv [modify]. rewrite run_bind.
    assert (world_ok B (World ∅ ∅ 1 (w_disks w))) as Hx0. { split; cbn; [intros i sl; by rewrite lookup_empty|apply Hw]. }
    pose proof (told_add confs false (World ∅ ∅ 1 (w_disks w))) as Hx. destruct (add_slots P B confs false _) as [w1 [b|e]]; cbn [fst] in Hx |- *.
    - unfold ensure. destruct (negb b); by apply Hx.
    - by apply Hx. }
  destruct (told_run confs cs _ _ Hcs Hw1 Hi sid t Ht) as [(t0 & H1 & _)|[_ (c & H2 & H3)]]; [|by exists c].
  unfold Spec.token_of in H1. cbn [w_slots] in H1. by rewrite lookup_empty in H1.
Qed.
End mechs.

(* ---- concrete cases ---- *)
Definition only_hmac : list ckattr := sign_key ++ [ca CKA_ALLOWED_MECHANISMS (le 8 CKM_SHA256_HMAC)].
Definition not_hmac : list ckattr := sign_key ++ [ca CKA_ALLOWED_MECHANISMS (le 8 CKM_AES_CBC ++ le 8 CKM_AES_KEY_WRAP)].
Definition keys22 : list call := [CreateObject 2 (Some only_hmac) true; CreateObject 2 (Some not_hmac) true].
Definition w22 : world toy_be := fst (toy_run toy_user keys22).
Lemma w22_scratch : from_scratch toy toy_be toy_env w22.
Proof. unfold w22. apply toy_user_scratch. Qed.
Definition use22 (key : N) : call := OpInit KSign 2 (Some hmac) key None.
Example C22_allowed_case : map snd (snd (toy_run toy_user keys22)) = [OHandle 10; OHandle 11] /\ slot_in toy_be w22 (use22 11) = Some 0 /\
  option_map (fun a => allowed_list (a_val a)) (attr_at toy_be w22 0 11 CKA_ALLOWED_MECHANISMS) = Some [CKM_AES_CBC; CKM_AES_KEY_WRAP] /\
  toy_rv w22 (use22 11) = CKR_MECHANISM_INVALID /\ toy_rv w22 (use22 10) = CKR_OK.
Proof. vm_compute. done. Qed.
(* The same token, started with a list that removes two mechanisms. *)
Definition w22d : world toy_be := fst (toy_run toy_user [Finalize; Initialize [SlotConf 0 7 (Some ([CKM_SHA256; CKM_AES_KEY_GEN], true)) None []]; OpenSession 0 RO true]).
Definition denied22 : list N := Eval vm_compute in match toy_out w22d (GetMechanismList 0 true (Some 100)) with OList ms _ => ms | _ => [] end.
Example C22_list_case : toy_out w22d (GetMechanismList 0 true (Some 100)) = OList denied22 (blen denied22) /\ In CKM_SHA256_HMAC denied22 /\ ~ In CKM_SHA256 denied22 /\
  blen denied22 = N.of_nat (length toy_mechs) - 2 /\ toy_rv w22d (DigestInit 1 (Some (CKM_SHA256, None))) = CKR_MECHANISM_INVALID /\ toy_rv w22 (DigestInit 2 (Some (CKM_SHA256, None))) = CKR_OK.
Proof. split_and!; try (vm_compute; reflexivity). - cbv. tauto. - cbv. intros H. repeat destruct H as [H|H]; discriminate || done. Qed.

(* A removed mechanism is still there as an object of class CKO_MECHANISM. *)
Definition find22 : list call := [FindObjectsInit 1 (Some [tulong CKA_CLASS CKO_MECHANISM; tulong CKA_MECHANISM_TYPE CKM_SHA256]) 2; FindObjects 1 true 10 true].
Theorem C22_list_refuted : exists w sid n ms k m s h,
  from_scratch toy toy_be toy_env w /\ toy_out w (GetMechanismList sid true n) = OList ms k /\ ~ In m ms /\
  let w1 := after toy toy_be toy_env w (FindObjectsInit s (Some [tulong CKA_CLASS CKO_MECHANISM; tulong CKA_MECHANISM_TYPE m]) 2) in
  toy_out w1 (FindObjects s true 10 true) = OHandles [h].
Proof.
  exists w22d, 0, (Some 100), denied22, (blen denied22), CKM_SHA256, 1. eexists. split; [unfold w22d; apply toy_user_scratch|]. split; [vm_compute; reflexivity|].
  split; [cbv; intros H; repeat destruct H as [H|H]; discriminate || done|]. cbv zeta. vm_compute. reflexivity.
Qed.

(* C_SetOperationState puts a signature under way with any key that is named, whatever its list. *)
Definition blob22 : bytes := Eval vm_compute in match toy_out (after toy toy_be toy_env w22 (use22 10)) (GetOperationState 2 true (Some 100)) with OBuf b _ => b | _ => [] end.
Theorem C22_restore_refuted : exists w c key a b sig, from_scratch toy toy_be toy_env w /\ mech_of_call c = Some CKM_SHA256_HMAC /\
  attr_at toy_be w 0 key CKA_ALLOWED_MECHANISMS = Some a /\ ~ In CKM_SHA256_HMAC (allowed_list (a_val a)) /\
  let w1 := after toy toy_be toy_env w c in
  toy_out w1 (GetOperationState 2 true (Some 100)) = OBuf b (blen b) /\
  let w2 := after toy toy_be toy_env w1 (SignFinal 2 true (Some 10)) in
  let w3 := after toy toy_be toy_env w2 (SetOperationState 2 (Some b) CK_INVALID_HANDLE key) in
  toy_out w3 (SignFinal 2 true (Some 10)) = OBuf sig 4.
Proof.
  exists w22, (use22 10), 11, (Attr CKA_ALLOWED_MECHANISMS KUlongArray (le 8 CKM_AES_CBC ++ le 8 CKM_AES_KEY_WRAP)), blob22. eexists.
  split; [apply w22_scratch|]. split; [done|]. split; [vm_compute; reflexivity|]. split; [cbv; intros H; repeat destruct H as [H|H]; discriminate || done|].
  cbv zeta. split; vm_compute; reflexivity.
Qed.
(* C_DigestKey feeds a key to a hash that its list does not have. *)
Theorem C22_digest_key_refuted : exists w c key a d, from_scratch toy toy_be toy_env w /\ mech_of_call c = Some CKM_SHA256 /\
  attr_at toy_be w 0 key CKA_ALLOWED_MECHANISMS = Some a /\ ~ In CKM_SHA256 (allowed_list (a_val a)) /\
  let w1 := after toy toy_be toy_env w c in let w2 := after toy toy_be toy_env w1 (DigestKey 2 key) in
  toy_rv w1 (DigestKey 2 key) = CKR_OK /\ toy_out w2 (DigestFinal 2 true (Some 10)) = OBuf d 4.
Proof.
  exists w22, (DigestInit 2 (Some (CKM_SHA256, None))), 11, (Attr CKA_ALLOWED_MECHANISMS KUlongArray (le 8 CKM_AES_CBC ++ le 8 CKM_AES_KEY_WRAP)). eexists.
  split; [apply w22_scratch|]. split; [done|]. split; [vm_compute; reflexivity|]. split; [cbv; intros H; repeat destruct H as [H|H]; discriminate || done|].
  cbv zeta. split; vm_compute; reflexivity.
Qed.
