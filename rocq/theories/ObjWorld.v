(* The object invariant for the whole module, and the elementary steps of the objects in each call. *)
From Verif Require Import Base Monad Hoare Attr Obj Factory Tables Create Sqlite Storage Token Backend State Api
  Rows ObjOk ObjNew Triple TokInv TokStep TokenFrame TokWp TokAuth Spec WorldFrame WorldWp Sessions SessionInv.

(* The steps a call may take on the objects of its slot; handles from n on were given out in the call. *)
(* U h tmpl: what operations may store in an object when they finish. *)
Definition call_kind (U : N -> list ckattr -> Prop) (n : N) (c : call) (k : kind) : Prop :=
  match k with
  | KQuiet LCalm => True
  | KQuiet LLog => match c with
                   | InitToken _ _ _ | InitPIN _ _ | SetPIN _ _ _ | CloseSession _ | CloseAllSessions _ | Login _ _ _ | Logout _ => True
                   | _ => False
                   end
  | KQuiet LAll => match c with InitToken _ _ _ | InitPIN _ _ | SetPIN _ _ _ | Login _ _ _ => True | _ => False end
  | KHandle => match c with
               | InitToken _ _ _ | CreateObject _ _ _ | CopyObject _ _ _ _ _ | FindObjectsInit _ _ _ | GenerateKey _ _ _ _
               | GenerateKeyPair _ _ _ _ _ _ | UnwrapKey _ _ _ _ _ _ | DeriveKey _ _ _ _ _ _
               | EncapsulateKey _ _ _ _ _ _ _ | DecapsulateKey _ _ _ _ _ _ => True
               | _ => False
               end
  | KNew odd _ => match c with
                  | CopyObject _ _ tmpl _ _ => (odd = true -> existsb (fun c => ca_type c =? CKA_CLASS) (default [] tmpl) = true)
                  | CreateObject _ _ _ | GenerateKey _ _ _ _
                  | GenerateKeyPair _ _ _ _ _ _ | UnwrapKey _ _ _ _ _ _ | DeriveKey _ _ _ _ _ _
                  | EncapsulateKey _ _ _ _ _ _ _ | DecapsulateKey _ _ _ _ _ _ => odd = false
                  | _ => False
                  end
  | KSadd odd sh => match c with
                    | InitToken _ _ _ => sh = CK_INVALID_HANDLE /\ odd = false
                    | CopyObject h _ tmpl _ _ => sh = h /\ (odd = true -> existsb (fun c => ca_type c =? CKA_CLASS) (default [] tmpl) = true)
                    | CreateObject h _ _ | GenerateKey h _ _ _
                    | GenerateKeyPair h _ _ _ _ _ | UnwrapKey h _ _ _ _ _ | DeriveKey h _ _ _ _ _
                    | EncapsulateKey h _ _ _ _ _ _ | DecapsulateKey h _ _ _ _ _ => sh = h /\ odd = false
                    | _ => False
                    end
  | KSdel h => match c with
               | DestroyObject _ o => h = o
               | GenerateKeyPair _ _ _ _ _ _ | DeriveKey _ _ _ _ _ _ => n <= h
               | _ => False
               end
  | KHdel h => match c with
               | DestroyObject _ o => h = o
               | GenerateKeyPair _ _ _ _ _ _ | DeriveKey _ _ _ _ _ _ => n <= h
               | _ => False
               end
  | KRemove h _ => match c with
                   | DestroyObject _ o => h = o
                   | GenerateKeyPair _ _ _ _ _ _ | DeriveKey _ _ _ _ _ _ => n <= h
                   | _ => False
                   end
  | KSupd h tmpl => match c with
                    | SetAttributeValue _ o t _ => h = o /\ t = Some tmpl \/ h = o /\ tmpl = []
                    | Sign _ _ _ _ | SignFinal _ _ _ | Verify _ _ _ | VerifyFinal _ _ | VerifySignature _ _
                    | VerifySignatureFinal _ => U h tmpl
                    | _ => False
                    end
  | KUpd h tmpl => match c with
                   | SetAttributeValue _ o t _ => h = o /\ t = Some tmpl \/ h = o /\ tmpl = []
                   | Sign _ _ _ _ | SignFinal _ _ _ | Verify _ _ _ | VerifyFinal _ _ | VerifySignature _ _
                   | VerifySignatureFinal _ => U h tmpl
                   | _ => False
                   end
  | KDedup _ => match c with CreateObject _ _ _ => True | _ => False end
  | KDrop sel => match c with
                 | CloseSession h => sel = private_sel \/ sel = session_sel h
                 | CloseAllSessions _ => sel = private_sel \/ exists h, sel = session_sel h
                 | Login _ _ _ | Logout _ | SetPIN _ _ _ => sel = private_sel
                 | _ => False
                 end
  | KReset => match c with InitToken _ _ _ => True | _ => False end
  end.

Definition op_stores (B : backend) (h : N) (tmpl : list ckattr) : Prop := exists x, be_updates B x = Some (h, tmpl).

Section world.
Context (P : params) (B : backend) (E : N -> keyenv).
Notation call_kind := (call_kind (op_stores B)).
Notation world := (world B). Notation session := (session B). Notation slot := (slot B).
Notation any := (fun _ => True).

(* Every token and every database is in order. *)
Record world_ok (w : world) : Prop := WorldOk {
  wo_slots : forall i sl, w_slots w !! i = Some sl -> tok_ok (sl_token sl);
  wo_disks : forall i d, w_disks w !! i = Some d -> db_ok (k_db d) }.

(* Objects are changed by steps of the given kinds in one slot only. *)
Definition slot_steps (K : kind -> Prop) (sid i : N) (a b : slot) : Prop :=
  sl_disk b = sl_disk a /\ if decide (i = sid) then tsteps P K (sl_token a) (sl_token b) else sl_token b = sl_token a.
Record wsteps (K : kind -> Prop) (sid : N) (a b : world) : Prop := WSteps {
  ws_slots : forall i, option_Forall2 (slot_steps K sid i) (w_slots a !! i) (w_slots b !! i);
  ws_disks : w_disks b = w_disks a }.
Global Instance slot_steps_pre K sid i : PreOrder (slot_steps K sid i).
Proof.
  split; [intros a; split; [done|destruct (decide _); reflexivity]|]. intros a b c [H1 H2] [H3 H4]. split; [congruence|].
  destruct (decide _); [by etransitivity|congruence].
Qed.
Global Instance wsteps_pre K sid : PreOrder (wsteps K sid).
Proof.
  split.
  - intros a. split; [|done]. intros i. destruct (w_slots a !! i); constructor; reflexivity.
  - intros a b c [H1 H2] [H3 H4]. split; [|congruence]. intros i. specialize (H1 i). specialize (H3 i).
    destruct (w_slots a !! i), (w_slots b !! i), (w_slots c !! i); inversion H1; inversion H3; subst; constructor; by etransitivity.
Qed.
(* The slot of the session of the call; sessions know their slot; handles below n0 were given out before. *)
Record ses_ok (h0 : option N) (sid0 n0 : N) (w : world) : Prop := SesOk {
  se_next : forall sl, w_slots w !! sid0 = Some sl -> n0 <= h_next (t_handles (sl_token sl));
  se_map : forall h sid, h0 = Some h -> w_smap w !! h = Some sid -> sid = sid0;
  se_slot : forall i sl h s, w_slots w !! i = Some sl -> sl_sessions sl !! h = Some s -> s_slot s = i }.

Section triples.
Context (h0 : option N) (sid0 n0 : N) (K : kind -> Prop) (Hn0 : K KReset -> n0 = 0).
Notation Iw := (fun w => world_ok w /\ ses_ok h0 sid0 n0 w).
Notation hsw := (hs Iw (wsteps K sid0)).

(* Functions that leave the tokens alone. *)
Definition same_toks (a b : world) : Prop :=
  (forall i, option_Forall2 (fun x y => sl_disk y = sl_disk x /\ sl_token y = sl_token x) (w_slots a !! i) (w_slots b !! i))
  /\ w_disks b = w_disks a.
Lemma same_steps a b : same_toks a b -> wsteps K sid0 a b.
Proof.
  intros [H1 H2]. split; [|done]. intros i. specialize (H1 i). inversion H1 as [x y [E1 E2]|]; constructor. split; [done|].
  rewrite E2. destruct (decide _); reflexivity.
Qed.
Lemma same_ok a b : same_toks a b -> world_ok a -> world_ok b.
Proof.
  intros [H1 H2] Hw. split; [|rewrite H2; apply Hw]. intros i sl Hi. specialize (H1 i). rewrite Hi in H1. inversion H1 as [x y [E1 E2] E3|]. subst.
  rewrite E2. by eapply Hw.
Qed.
Lemma hs_same {A} (m : M world A) (Q : A -> Prop) :
  (forall w, Iw w -> same_toks w (fst (m w))) -> (forall w, ses_ok h0 sid0 n0 w -> ses_ok h0 sid0 n0 (fst (m w))) ->
  (forall w a, Iw w -> snd (m w) = Ok a -> Q a) -> hsw m Q.
Proof.
  intros Hm Hse HQ w [Hw Hs]. split_and!; [|by apply Hse|apply same_steps; by apply Hm|].
  - eapply same_ok; [|done]. by apply Hm.
  - destruct (snd (m w)) eqn:Hr; [|done]. by eapply HQ.
Qed.
Definition keep_slot (a b : session) : Prop := s_slot b = s_slot a.
Global Instance keep_slot_pre : PreOrder keep_slot.
Proof. split; [done|]. unfold keep_slot. intros a b c; congruence. Qed.
Lemma same_of_rel {A} (m : M world A) : rel (world_rel B eq keep_slot) m -> forall w, same_toks w (fst (m w)).
Proof.
  intros Hm w. destruct (Hm w) as [H1 _ _ H2]. split; [|done]. intros i. specialize (H1 i). inversion H1 as [x y [E1 E2 _]|]; constructor. done.
Qed.
Lemma same_next a b : same_toks a b -> ses_ok h0 sid0 n0 a -> forall sl, w_slots b !! sid0 = Some sl -> n0 <= h_next (t_handles (sl_token sl)).
Proof.
  intros [H1 _] Hs sl Hsl. specialize (H1 sid0). rewrite Hsl in H1. inversion H1 as [x y [E1 E2] E3|]. subst. rewrite E2. by eapply Hs.
Qed.
Lemma ses_of_rel {A} (m : M world A) : rel (world_rel B eq keep_slot) m -> forall w, ses_ok h0 sid0 n0 w -> ses_ok h0 sid0 n0 (fst (m w)).
Proof.
  intros Hm w Hs. pose proof (same_next _ _ (same_of_rel m Hm w) Hs) as Hnx. destruct (Hm w) as [H1 H2 _ _]. split; [exact Hnx|rewrite H2; apply Hs|]. intros i sl h s Hi Hh. specialize (H1 i). rewrite Hi in H1.
  inversion H1 as [x y [E1 E2 E3] E4|]. subst. specialize (E3 h). rewrite Hh in E3. inversion E3 as [s1 s2 E5 E6|]. subst. unfold keep_slot in E5.
  rewrite E5. symmetry in E4, E6. by eapply Hs.
Qed.
Lemma hs_frameQ {A} (m : M world A) (Q : A -> Prop) : rel (world_rel B eq keep_slot) m -> (forall w a, Iw w -> snd (m w) = Ok a -> Q a) -> hsw m Q.
Proof. intros Hm HQ. apply hs_same; [intros; by apply same_of_rel|intros w; by apply ses_of_rel|done]. Qed.
Lemma hs_frame {A} (m : M world A) : rel (world_rel B eq keep_slot) m -> hsw m any.
Proof. intros Hm. by apply hs_frameQ. Qed.

Lemma put_token_ses sl t w : w_slots w !! sid0 = Some sl -> ses_ok h0 sid0 n0 w -> n0 <= h_next (t_handles t) ->
  ses_ok h0 sid0 n0 (set_slots B (<[sid0 := put_token B t sl]> (w_slots w)) w).
Proof.
  intros H1 Hs Hn. split; [intros sl'; cbn; rewrite lookup_insert; intros X; by injection X as <-|apply Hs|]. intros i sl' h s Hi Hh. cbn in Hi. destruct (decide (i = sid0)) as [->|Hne].
  - rewrite lookup_insert in Hi. injection Hi as <-. cbn in Hh. exact (se_slot _ _ _ _ Hs _ _ _ _ H1 Hh).
  - rewrite lookup_insert_ne in Hi by done. exact (se_slot _ _ _ _ Hs _ _ _ _ Hi Hh).
Qed.
Definition tb (t : token) : Prop := tok_ok t /\ n0 <= h_next (t_handles t).
Lemma tstep_next k t t' : tstep P k t t' -> k <> KReset -> h_next (t_handles t) <= h_next (t_handles t').
Proof. intros Hs Hk. destruct Hs; try done; cbn; try lia. match goal with H : t_handles _ = _ |- _ => rewrite H end. lia. Qed.
Lemma tsteps_next t t' : tsteps P K t t' -> n0 <= h_next (t_handles t) -> n0 <= h_next (t_handles t').
Proof.
  destruct (decide (n0 = 0)) as [->|Hz]; [lia|].
  induction 1 as [|t t1 t' (k & Hk & H1) _ IH]; [done|]. intros Hle. apply IH. eapply tstep_next in H1; [lia|]. intros ->. auto.
Qed.
Lemma hs_bound {A} (m : M token A) (Q : A -> Prop) : hs tok_ok (tsteps P K) m Q -> hs tb (tsteps P K) m Q.
Proof. intros Hm t [Ht Hn]. destruct (Hm t Ht) as (A1 & A2 & A3). split_and!; [split; [done|by eapply tsteps_next]|done|done]. Qed.
Lemma hs_wtokb {A} sid (m : M token A) (Q : A -> Prop) : hs tb (tsteps P K) m Q -> sid = sid0 -> hsw (Api.tok B sid m) Q.
Proof.
  intros Hm -> w [Hw Hse]. unfold Api.tok, State.tok. rewrite run_bind. destruct (get_slot B sid0 w) as [w1 [sl|e]] eqn:H1.
  - apply get_slot_ok in H1 as (-> & H1 & _). destruct (Hm (sl_token sl)) as ([A1 A1'] & A2 & A3); [split; [by eapply Hw|by eapply Hse]|].
    destruct (m (sl_token sl)) as [t r]. rewrite run_bind. unfold put_slot at 1 2 3 4, modify, lift. cbn [fst snd] in *.
    split_and!; [|by apply put_token_ses| |done].
    + split; [|apply Hw]. intros i sl' Hi. cbn in Hi. destruct (decide (i = sid0)) as [->|Hne].
      * rewrite lookup_insert in Hi. injection Hi as <-. done.
      * rewrite lookup_insert_ne in Hi by done. by eapply Hw.
    + split; [|done]. intros i. cbn. destruct (decide (i = sid0)) as [->|Hne].
      * rewrite H1, lookup_insert. constructor. split; [done|]. by destruct (decide _).
      * rewrite lookup_insert_ne by done. destruct (w_slots w !! i); constructor; reflexivity.
  - apply get_slot_err in H1 as ->. cbn [fst snd]. split_and!; [done|done|reflexivity|done].
Qed.
Lemma hs_wtok {A} sid (m : M token A) (Q : A -> Prop) : hs tok_ok (tsteps P K) m Q -> sid = sid0 -> hsw (Api.tok B sid m) Q.
Proof. intros. apply hs_wtokb; [by apply hs_bound|done]. Qed.
Lemma hs_upd_session h f : (forall s, s_slot (f s) = s_slot s) -> hsw (upd_session B h f) any.
Proof. intros Hf. apply hs_frame. apply rel_upd_session; first [done|apply _]. Qed.
Lemma hs_get_slot sid : hsw (get_slot B sid) any. Proof. apply hs_frame, rel_get_slot; apply _. Qed.
Lemma hs_lock : hsw (Api.lock B) any. Proof. apply hs_frame, rel_lock; apply _. Qed.
Lemma session_slot_run h w : session_slot B h w = (w, match w_smap w !! h with Some s => Ok s | None => Err CKR_SESSION_HANDLE_INVALID end).
Proof. unfold session_slot, mbind, gets. by destruct (w_smap w !! h). Qed.
Lemma hs_session_slot h : hsw (session_slot B h) (fun sid => h0 = Some h -> sid = sid0).
Proof.
  apply hs_frameQ; [apply rel_session_slot; apply _|]. intros w a [_ Hs]. rewrite session_slot_run. cbn [snd].
  destruct (w_smap w !! h) eqn:Hh; [|done]. intros Ha E0. injection Ha as <-. by eapply Hs.
Qed.
Lemma hs_get_session h : hsw (get_session B h) (fun s => h0 = Some h -> s_slot s = sid0).
Proof.
  apply hs_frameQ; [apply rel_get_session; apply _|]. intros w a [_ Hs]. unfold get_session. rewrite run_bind, session_slot_run.
  destruct (w_smap w !! h) as [sid|] eqn:Hh; [|done]. rewrite run_bind. destruct (get_slot B sid w) as [w1 [sl|e]] eqn:H1; [|done].
  apply get_slot_ok in H1 as (-> & H1 & _). destruct (sl_sessions sl !! h) as [s|] eqn:H2; cbv [ret fail]; cbn [snd]; [|done].
  intros Ha E0. injection Ha as <-. rewrite (se_slot _ _ _ _ Hs _ _ _ _ H1 H2). by eapply Hs.
Qed.
Lemma hs_token_ready h : hsw (token_ready B h) any. Proof. apply hs_frame, rel_token_ready; apply _. Qed.
Lemma hs_token_of_session h : hsw (token_of_session B h) (fun sid => h0 = Some h -> sid = sid0).
Proof.
  unfold token_of_session. eapply hs_bind; [apply _|apply hs_session_slot|]. intros sid Hs. eapply hs_bind; [apply _|apply hs_token_ready|].
  intros _ _. by apply hs_ret; [apply _|].
Qed.
Lemma hs_mech_flags sid m : hsw (mech_flags P B sid m) any. Proof. apply hs_frame, rel_mech_flags; apply _. Qed.
Lemma hs_ok o : hsw (Api.ok B o) any. Proof. apply hs_frame, rel_ok; apply _. Qed.
Lemma hs_failed rv o : hsw (Api.failed B rv o) any. Proof. apply hs_frame, rel_failed; apply _. Qed.
Lemma hs_deref {A} (p : option A) : hsw (deref B p) any. Proof. apply hs_frame, rel_deref; apply _. Qed.
Lemma hs_ro_check s t : hsw (ro_check B s t) any. Proof. apply hs_frame, rel_ro_check; apply _. Qed.
Lemma hs_tmpl_of {A} (t : option (list A)) c : hsw (tmpl_of B t c) (fun l => t = Some l \/ l = []).
Proof.
  apply hs_frameQ; [apply rel_tmpl_of; apply _|]. intros w l _. unfold tmpl_of. destruct t; [|destruct (_ =? _)]; cbv [mbind ensure ret fail]; cbn [snd];
    intros; simplify_eq; auto.
Qed.

(* A slot is read and its sessions are replaced. *)
Lemma put_sessions_same sid sl m w : w_slots w !! sid = Some sl -> same_toks w (set_slots B (<[sid := put_sessions B m sl]> (w_slots w)) w).
Proof.
  intros H. split; [|done]. intros i. cbn. destruct (decide (i = sid)) as [->|Hne].
  - rewrite H, lookup_insert. by constructor.
  - rewrite lookup_insert_ne by done. destruct (w_slots w !! i); by constructor.
Qed.
Lemma same_toks_refl w : same_toks w w.
Proof. split; [|done]. intros i. destruct (w_slots w !! i); by constructor. Qed.
Lemma put_sessions_ses sid sl m w : w_slots w !! sid = Some sl -> ses_ok h0 sid0 n0 w -> (forall h s, m !! h = Some s -> s_slot s = sid) ->
  ses_ok h0 sid0 n0 (set_slots B (<[sid := put_sessions B m sl]> (w_slots w)) w).
Proof.
  intros Hsl Hs Hm. split; [eapply same_next; [by apply put_sessions_same|done]|apply Hs|]. intros i sl' h s Hi Hh. cbn in Hi. destruct (decide (i = sid)) as [->|Hne].
  - rewrite lookup_insert in Hi. injection Hi as <-. cbn in Hh. by eapply Hm.
  - rewrite lookup_insert_ne in Hi by done. by eapply Hs.
Qed.
Lemma hs_slot_sessions {A} sid (f : slot -> gmap N session) (k : slot -> M world A) (Q : A -> Prop) : (forall sl, hsw (k sl) Q) ->
  (forall sl h s, (forall h s, sl_sessions sl !! h = Some s -> s_slot s = sid) -> f sl !! h = Some s -> s_slot s = sid) ->
  hsw (let! sl := get_slot B sid in put_slot B sid (put_sessions B (f sl) sl);;; k sl) Q.
Proof.
  intros Hk Hf w [Hw Hse]. rewrite run_bind. destruct (get_slot B sid w) as [w1 [sl|e]] eqn:H1.
  - apply get_slot_ok in H1 as (-> & H1 & _). rewrite run_bind. unfold put_slot, modify.
    pose proof (put_sessions_same sid sl (f sl) w H1) as Hsame. set (w1 := set_slots B _ w) in *.
    assert (Iw w1) as Ho.
    { split; [by eapply same_ok|]. apply put_sessions_ses; [done|done|]. intros h s. apply Hf. intros h' s' Hh'. by eapply Hse. }
    destruct (Hk sl w1 Ho) as ([A1 A1'] & A2 & A3). split_and!; [done|done| |done]. etransitivity; [by apply same_steps|done].
  - apply get_slot_err in H1 as ->. cbn [fst snd]. split_and!; [done|done|reflexivity|done].
Qed.
Lemma hs_mod_smap f : (forall w h sid, h0 = Some h -> f w !! h = Some sid -> w_smap w !! h = Some sid) -> hsw (modify (fun w => set_smap B (f w) w)) any.
Proof.
  intros Hf. apply hs_same; [| |done].
  - intros w _. split; [|done]. intros i. cbn. destruct (w_slots w !! i); constructor; done.
  - intros w [S0 S1 S2]. split; [exact S0| |exact S2]. cbn. intros h sid E0 Hh. eapply S1; [done|]. by eapply Hf.
Qed.
Lemma hs_new_session sid ut fl : h0 = None -> hsw (new_session B sid ut fl) any.
Proof.
  intros H0 w [Hw Hse]. unfold new_session. rewrite run_bind. cbv [gets]. rewrite run_bind.
  destruct (get_slot B sid w) as [w1 [sl|e]] eqn:H1; [|apply get_slot_err in H1 as ->; cbn [fst snd]; split_and!; [done|done|reflexivity|done]].
  apply get_slot_ok in H1 as (-> & H1 & _). rewrite run_bind. cbv [lift]. destruct (session_new _ _ _ _) as [s|] eqn:Hn; [|cbn [fst snd]; split_and!; [done|done|reflexivity|done]].
  cbv [mbind put_slot modify ret]. cbn [fst snd]. pose proof (put_sessions_same sid sl (<[w_next w := s]> (sl_sessions sl)) w H1) as Hsame.
  assert (s_slot s = sid) as Hsid.
  { revert Hn. unfold session_new. destruct (has_flag _ _); [|done]. match goal with |- rbind ?x _ = _ -> _ => destruct x end; cbn [rbind]; [|done]. intros H. by injection H as <-. }
  pose proof (put_sessions_ses sid sl (<[w_next w := s]> (sl_sessions sl)) w H1 Hse) as Hse'.
  assert (forall a b m n, same_toks a b -> same_toks a (set_next B n (set_smap B m b))) as Hx by (intros ? ? ? ? [X1 X2]; split; [exact X1|exact X2]).
  split_and!; [| |apply same_steps; by apply Hx|done].
  - eapply same_ok; [|done]. by apply Hx.
  - split; [eapply same_next; [apply Hx, Hsame|done]|intros h sid' E0; congruence|]. refine (se_slot _ _ _ _ (Hse' _)). intros h s'. destruct (decide (h = w_next w)) as [->|Hne].
    + rewrite lookup_insert. intros Hh. by injection Hh as <-.
    + rewrite lookup_insert_ne by done. by eapply Hse.
Qed.

Context (Hfs : p_fs P = all_factories) (Hutf : forall n, utf8_valid (p_uuid P n) = true).
Context (Kq : K (KQuiet LCalm)).
Lemma hs_run_op h k c x : hsw (run_op B h k c x) any.
Proof. apply hs_frame, rel_run_op; first [done|apply _]. Qed.
Lemma hs_len_op h k n f x : hsw (len_op B h k n f x) any.
Proof. apply hs_frame, rel_len_op; first [done|apply _]. Qed.
Lemma hs_cur_op h k : hsw (cur_op B h k) any.
Proof. apply hs_frame, rel_cur_op; first [done|apply _]. Qed.
Lemma hs_wdraw sid : sid = sid0 -> hsw (Api.tok B sid draw) any.
Proof. intros. apply hs_wtok; [by apply hs_draw|done]. Qed.
Lemma hs_wuid sid : sid = sid0 -> hsw (Api.tok B sid (new_uid P)) (fun u => utf8_valid u = true).
Proof. intros. apply hs_wtok; [by apply hs_new_uid|done]. Qed.
Lemma hs_wget sid h : sid = sid0 -> hsw (Api.tok B sid (get_object_by_handle P h)) obj_ok.
Proof. intros. apply hs_wtok; [by apply hs_get_object_by_handle|done]. Qed.
Lemma hs_insertb sh o : K KHandle -> (forall uid, K (KNew false uid)) -> K (KSadd false sh) -> made o -> hs tb (tsteps P K) (insert_object P sh o) (fun h => n0 <= h).
Proof.
  intros K1 K2 K3 Ho t [Ht Hn]. destruct (hs_bound _ _ (hs_insert_object P Hfs K Kq K1 sh o K2 K3 Ho) t (conj Ht Hn)) as (A1 & A2 & A3). split_and!; try apply A1; [done|].
  destruct (insert_object P sh o t) as [t' [h|e]] eqn:Hi; [|done]. apply insert_object_ret in Hi; [|first [done|by apply made_new]..]. cbn [snd]. by subst.
Qed.
Lemma hs_winsert sid sh o : K KHandle -> (forall uid, K (KNew false uid)) -> K (KSadd false sh) -> made o -> sid = sid0 -> hsw (Api.tok B sid (insert_object P sh o)) (fun h => n0 <= h).
Proof. intros. apply hs_wtokb; [by apply hs_insertb|done]. Qed.
Lemma hs_wdestroy sid h : K (KSdel h) -> (forall uid, K (KRemove h uid)) -> K (KHdel h) -> sid = sid0 -> hsw (Api.tok B sid (destroy_object P h)) any.
Proof. intros. apply hs_wtok; [by apply hs_destroy_object|done]. Qed.
Lemma hs_wset sid h tmpl : K (KSupd h tmpl) -> K (KUpd h tmpl) -> sid = sid0 -> hsw (Api.tok B sid (set_object_attrs P h tmpl)) any.
Proof. intros. apply hs_wtok; [by apply hs_set_object_attrs|done]. Qed.
Lemma hs_wlogout sid : K (KQuiet LLog) -> K (KDrop private_sel) -> sid = sid0 -> hsw (Api.tok B sid tk_logout) any.
Proof. intros. apply hs_wtok; [by apply hs_tk_logout|done]. Qed.
Lemma hs_get_objects l : hs tok_ok (tsteps P K) (get_objects P l) any.
Proof.
  induction l as [|h l IH]; cbn [get_objects]; [by apply hs_ret; [apply _|]|].
  eapply hs_bind; [apply _|eapply hs_any, hs_get_object_by_handle; done|]. intros o _.
  eapply hs_bind; [apply _|exact IH|]. intros os _. by apply hs_ret; [apply _|].
Qed.
Lemma hs_destroy_all l : (forall h, n0 <= h -> K (KSdel h)) -> (forall h uid, n0 <= h -> K (KRemove h uid)) -> (forall h, n0 <= h -> K (KHdel h)) ->
  Forall (fun h => n0 <= h) l -> hs tb (tsteps P K) (destroy_all P l) any.
Proof.
  intros K1 K2 K3 Hl. induction Hl as [|h l Hh Hl IH]; cbn [destroy_all]; [by apply hs_skip; [apply _|]|].
  eapply (hs_bind _ _ _ _ any); [|intros r _; exact IH]. eapply (hs_attempt _ _ _ any); [|done]. apply hs_bound, hs_destroy_object; auto.
Qed.
Lemma hs_insert_all sh l d a : (forall h, n0 <= h -> K (KSdel h)) -> (forall h uid, n0 <= h -> K (KRemove h uid)) -> (forall h, n0 <= h -> K (KHdel h)) ->
  K KHandle -> (forall uid, K (KNew false uid)) -> K (KSadd false sh) -> Forall (fun h => n0 <= h) d -> Forall (fun h => n0 <= h) a -> Forall made l -> hs tb (tsteps P K) (insert_all P sh l d a) any.
Proof.
  intros K1 K2 K3 K4 K5 K6 Hd Ha Hl. revert d Hd. induction Hl as [|o l Ho Hl IH]; intros d Hd; cbn [insert_all]; [by apply hs_ret; [apply _|]|].
  eapply (hs_bind _ _ _ _ (fun r => match r with Ok h => n0 <= h | Err _ => True end)); [eapply (hs_attempt _ _ _ (fun h => n0 <= h)); [|done]; by apply hs_insertb|]. intros [h|e] Hh.
  - apply IH. apply List.Forall_app. split; [done|]. by constructor.
  - eapply (hs_bind _ _ _ _ any); [|intros _ _; apply hs_fail; apply _]. apply hs_destroy_all; [done..|]. apply List.Forall_app. done.
Qed.

(* ---- the objects the key management functions make ---- *)
Lemma factory_good k f : get_factory (p_fs P) k = Ok f -> good_factory f.
Proof. rewrite Hfs. intros H. exact (proj1 (get_factory_good _ _ H)). Qed.
Lemma key_factory_good t f : get_obj_factory_from_key_template (p_fs P) t = Ok f -> good_factory f.
Proof.
  unfold get_obj_factory_from_key_template. intros H. repeat (match goal with H : rbind ?x _ = Ok _ |- _ => destruct x eqn:?; cbn [rbind] in H; [|done] end).
  by eapply factory_good.
Qed.
Lemma gen_key_ok env uid mt pr tmpl o : utf8_valid uid = true -> gen_key P B env uid mt pr tmpl = Ok o -> made o.
Proof.
  intros Hu. unfold gen_key. destruct (lookup_type _ _) as [kt|].
  - destruct (get_factory _ _) as [f|] eqn:Hf; cbn [rbind]; [|done]. apply secret_generate_ok; [done|by eapply factory_good].
  - destruct (_ =? _).
    + destruct (get_factory _ _) as [f|] eqn:Hf; cbn [rbind]; [|done]. apply hotp_generate_ok; [done|by eapply factory_good].
    + destruct (_ =? _); [|done]. destruct (get_obj_factory_from_key_template _ _) as [f|] eqn:Hf; cbn [rbind]; [|done].
      destruct (be_pbkdf _ _ _) as [d|]; cbn [rbind]; [|done]. destruct (factory_create _ _ _ _) as [o1|] eqn:Ho; cbn [rbind]; [|done].
      intros H. injection H as <-. apply default_attributes_ok. eapply factory_create_ok; [exact Hu|by eapply key_factory_good|exact Ho].
Qed.
Lemma gen_pair_ok env u1 u2 mt t1 t2 o1 o2 : utf8_valid u1 = true -> utf8_valid u2 = true ->
  gen_pair P env u1 u2 mt t1 t2 = Ok (o1, o2) -> made o1 /\ made o2.
Proof.
  intros Hu1 Hu2. unfold gen_pair. destruct (lookup_type _ _) as [kt|]; [|done].
  destruct (get_factory _ (CKO_PUBLIC_KEY, _)) as [f1|] eqn:Hf1; cbn [rbind]; [|done].
  destruct (get_factory _ (CKO_PRIVATE_KEY, _)) as [f2|] eqn:Hf2; cbn [rbind]; [|done].
  intros H. pose proof (pair_generate_ok _ _ _ _ _ _ _ _ _ _ Hu1 Hu2 (factory_good _ _ Hf1) (factory_good _ _ Hf2) H). done.
Qed.
Lemma import_key_ok uid f d tmpl o : utf8_valid uid = true -> good_factory f -> import_key B uid f d tmpl = Ok o -> made o.
Proof.
  intros Hu Hf. unfold import_key. destruct (f_kind f); try done; try (by apply secret_import_ok).
  destruct (tmpl_ulong _ _) as [kt|]; cbn [rbind]; [|done]. destruct (_ || _); [|done].
  destruct (key_unwrap _ _ _) as [o0|] eqn:H0; cbn [rbind]; [|done].
  destruct (ensure_ulong o0 _ _) as [o1|] eqn:H1; cbn [rbind]; [|done].
  destruct (map_err _ _) as [o2|] eqn:H2; cbn [rbind]; [|done]. apply map_err_ok in H2.
  destruct (be_parse _ _ _ _) as [l|]; cbn [rbind]; [|done]. intros H. injection H as <-.
  apply put_material_ok. eapply ensure_ulong_ok; [|eapply ensure_ulong_ok; [| |exact H1]|exact H2]; [done|done|]. by eapply key_unwrap_ok.
Qed.
Lemma concat_attrs_ok t b1 b2 o o' : made o -> concat_attrs t b1 b2 o = Ok o' -> made o'.
Proof.
  intros Ho. unfold concat_attrs. match goal with |- rbind ?x _ = _ -> _ => destruct x end; cbn [rbind]; [|done].
  match goal with |- rbind ?x _ = _ -> _ => destruct x end; cbn [rbind]; [|done]. intros H. injection H as <-.
  repeat (apply new_put_bool; [|done]). done.
Qed.
Lemma secret_key_create_eq env uid f t o : secret_key_create uid f t = Ok o -> factory_create env uid f t = Ok o.
Proof. unfold secret_key_create, factory_create. destruct (f_kind f); done. Qed.
Lemma derived_object_ok uid key d o : utf8_valid uid = true -> obj_ok key -> derived_object P uid key d = Ok o -> made o.
Proof.
  intros Hu Hk. destruct d as [t dkm|t other dkm|t dkm|t mat|t mt]; cbn [derived_object].
  - destruct (get_obj_factory_from_key_template _ _) as [f|] eqn:Hf; cbn [rbind]; [|done].
    destruct (key_derive _ _ _ _) as [o1|] eqn:H1; cbn [rbind]; [|done]. apply set_key_ok. eapply key_derive_ok; [exact Hu|by eapply key_factory_good|exact H1].
  - destruct (get_obj_factory_from_key_template _ _) as [f|] eqn:Hf; cbn [rbind]; [|done].
    destruct (key_derive _ _ _ _) as [o1|] eqn:H1; cbn [rbind]; [|done].
    destruct (concat_attrs _ _ _ _) as [o2|] eqn:H2; cbn [rbind]; [|done].
    apply set_key_ok. eapply concat_attrs_ok; [|exact H2]. eapply key_derive_ok; [exact Hu|by eapply key_factory_good|exact H1].
  - destruct (get_factory _ _) as [f|] eqn:Hf; cbn [rbind]; [|done].
    destruct (default_object_create _ _ _) as [o1|] eqn:H1; cbn [rbind]; [|done]. intros H. injection H as <-.
    apply new_put_bytes; [|done]. eapply default_create_ok; [exact Hu|by eapply factory_good|exact H1].
  - destruct (tmpl_ulong _ _) as [kt|]; cbn [rbind]; [|done].
    destruct (get_factory _ _) as [f|] eqn:Hf; cbn [rbind]; [|done].
    destruct (default_object_create _ _ _) as [o1|] eqn:H1; cbn [rbind]; [|done]. intros H. injection H as <-.
    assert (made (put_material o1 mat)) as Ho by (apply put_material_ok; eapply default_create_ok; [exact Hu|by eapply factory_good|exact H1]).
    destruct (get_attr key CKA_KEY_GEN_MECHANISM) as [a|] eqn:Ha; [|done]. apply new_put; [done| |by rewrite (get_type _ _ _ Ha)].
    apply (proj1 (List.Forall_forall _ _) (pre_attrs key (proj1 Hk))). by eapply find_in.
  - destruct (get_obj_factory_from_key_template _ _) as [f|] eqn:Hf; cbn [rbind]; [|done].
    destruct (secret_key_create _ _ _) as [o1|] eqn:H1; cbn [rbind]; [|done]. intros H. injection H as <-.
    apply (secret_key_create_eq (KeyEnv (fun _ _ _ => Err 0) (fun _ _ _ => Err 0) (fun _ => Err 0))) in H1.
    apply default_attributes_ok. eapply factory_create_ok; [exact Hu|by eapply key_factory_good|exact H1].
Qed.
Lemma hs_derived_objects key l : obj_ok key -> hs tok_ok (tsteps P K) (derived_objects P key l) (Forall made).
Proof.
  intros Hk. induction l as [|d l IH]; cbn [derived_objects]; [by apply hs_ret; [apply _|]|].
  eapply hs_bind; [apply _|by apply hs_new_uid|]. intros uid Hu. cbv beta in Hu.
  eapply (hs_bind _ _ _ _ made); [apply hs_lift; [apply _|]; intros o; by apply derived_object_ok|]. intros o Ho.
  eapply hs_bind; [apply _|exact IH|]. intros os Hos. apply hs_ret; [apply _|]. by constructor.
Qed.
End triples.

Context (Hfs : p_fs P = all_factories) (Hutf : forall n, utf8_valid (p_uuid P n) = true).

Section sess.
Context (h0 : option N) (sid0 n0 : N) (K : kind -> Prop) (Hn0 : K KReset -> n0 = 0).
Notation Iw := (fun w => world_ok w /\ ses_ok h0 sid0 n0 w).
Notation hsw := (hs Iw (wsteps K sid0)).
Lemma hs_drop_session h : K (KQuiet LCalm) -> K (KQuiet LLog) -> K (KDrop private_sel) -> h0 = Some h -> hsw (drop_session B h) any.
Proof.
  intros Kq Ka Kd H0. unfold drop_session. eapply hs_bind; [apply _|apply hs_session_slot|]. intros sid Hsid. specialize (Hsid H0). subst sid.
  apply (hs_slot_sessions h0 sid0 n0 K sid0 (fun sl => delete h (sl_sessions sl))); cycle 1.
  { intros sl h' s Hs. destruct (decide (h' = h)) as [->|Hne]; [by rewrite lookup_delete|]. rewrite lookup_delete_ne by done. apply Hs. }
  intros sl.
  eapply (hs_bind _ _ _ _ any); [apply hs_mod_smap; intros w h' sid _; rewrite lookup_delete_Some; tauto|]. intros _ _. eapply (hs_bind _ _ _ _ any); [apply hs_get_slot|]. intros sl' _.
  destruct (bool_decide _); [|apply hs_skip; [apply _|done]]. eapply (hs_bind _ _ _ _ any); [apply hs_token_ready|]. intros _ _.
  eapply (hs_bind _ _ _ _ any); [eapply (hs_attempt _ _ _ any); [|done]; by apply hs_wlogout|]. intros _ _. apply hs_skip; [apply _|done].
Qed.
Lemma hs_drop_all sid : hsw (drop_all_sessions_slot B sid) any.
Proof.
  unfold drop_all_sessions_slot. eapply (hs_bind _ _ _ _ any); [apply hs_mod_smap; intros w h sid' _; rewrite map_filter_lookup_Some; tauto|]. intros _ _.
  apply (hs_slot_sessions h0 sid0 n0 K sid (fun sl => ∅)); cycle 1. { intros sl h s _. by rewrite lookup_empty. } intros sl. apply hs_ret; [apply _|done].
Qed.
Lemma change_states_slot ut sid l m : (forall h s, m !! h = Some s -> s_slot s = sid) -> (forall h s, In (h, s) l -> s_slot s = sid) ->
  forall h s, fst (change_states B ut l m) !! h = Some s -> s_slot s = sid.
Proof.
  revert m. induction l as [|[h s] l IH]; intros m Hm Hl; cbn [change_states]; [exact Hm|].
  assert (s_slot (fst (change_session_state B ut s)) = sid) as Hs.
  { rewrite <- (Hl h s (or_introl eq_refl)). unfold change_session_state. repeat (match goal with |- context [if ?b then _ else _] => destruct b end; try done). }
  destruct (change_session_state B ut s) as [s' rv]. cbn [fst] in Hs.
  assert (forall h0 s0, <[h := s']> m !! h0 = Some s0 -> s_slot s0 = sid) as Hm'.
  { intros h1 s1. destruct (decide (h1 = h)) as [->|Hne]; [rewrite lookup_insert|rewrite lookup_insert_ne by done; apply Hm]. intros Hh. by injection Hh as <-. }
  destruct (rv =? CKR_OK); [|exact Hm']. apply IH; [exact Hm'|]. intros h1 s1 H1. apply (Hl h1 s1). by right.
Qed.
Lemma hs_change_states sid ut : hsw (change_session_states B sid ut) any.
Proof.
  unfold change_session_states. intros w [Hw Hse]. rewrite run_bind.
  destruct (get_slot B sid w) as [w1 [sl|e]] eqn:H1; [|apply get_slot_err in H1 as ->; cbn [fst snd]; split_and!; [done|done|reflexivity|done]].
  apply get_slot_ok in H1 as (-> & H1 & _).
  pose proof (change_states_slot ut sid (map_to_list (sl_sessions sl)) (sl_sessions sl)) as Hc.
  destruct (change_states _ _ _ _) as [m r]. cbv [mbind put_slot modify lift]. cbn [fst snd] in *.
  pose proof (put_sessions_same sid sl m w H1) as Hsame.
  split_and!; [by eapply same_ok| |by apply same_steps|by destruct r]. apply put_sessions_ses; [done|done|]. apply Hc.
  - intros h s Hh. by eapply Hse.
  - intros h s Hh. apply elem_of_list_In, elem_of_map_to_list in Hh. by eapply Hse.
Qed.
Lemma hs_invalidate sid : hsw (invalidate_session_states B sid) any.
Proof.
  unfold invalidate_session_states. intros w [Hw Hse]. rewrite run_bind.
  destruct (get_slot B sid w) as [w1 [sl|e]] eqn:H1; [|apply get_slot_err in H1 as ->; cbn [fst snd]; split_and!; [done|done|reflexivity|done]].
  apply get_slot_ok in H1 as (-> & H1 & _). cbv [put_slot modify]. cbn [fst snd].
  match goal with |- context [put_sessions B ?m sl] => pose proof (put_sessions_same sid sl m w H1) as Hsame end.
  split_and!; [by eapply same_ok| |by apply same_steps|done]. apply put_sessions_ses; [done|done|]. intros h s. rewrite lookup_fmap.
  destruct (sl_sessions sl !! h) as [s0|] eqn:Hh; cbn; [|done]. intros Hs. injection Hs as <-. rewrite <- (se_slot _ _ _ _ Hse _ _ _ _ H1 Hh).
  unfold change_session_state. repeat (match goal with |- context [if ?b then _ else _] => destruct b end; try done).
Qed.
Lemma hs_drop_many l : (forall h, K (KDrop (session_sel h))) -> hs tok_ok (tsteps P K) (modify (fun t => foldl (fun t h => drop_session_objects h t) t l)) any.
Proof.
  intros Kd. apply hs_tok; [done|]. intros t Ht. apply wp_modify. split; [|done]. clear Ht. revert t. induction l as [|h l IH]; intros t; cbn [foldl]; [reflexivity|].
  etransitivity; [|apply IH]. eapply tsteps_one; [apply (Kd h)|]. constructor.
Qed.
Lemma hs_disturb l : K (KQuiet LCalm) -> hsw (modify (disturb B sid0 l)) any.
Proof.
  intros Kq. apply hs_modify; [|done]. intros w [Hw Hse].
  assert (forall t, tok_ok t -> tok_ok (set_io l t)) as Hio by (intros t Ht; by apply (tok_same t); [..|apply Ht|]).
  split; [split; [split; [|apply Hw]|split; [|apply Hse|]]|split; [|done]].
  - intros i sl. cbn. destruct (decide (i = sid0)) as [->|Hne].
    + rewrite lookup_alter. destruct (w_slots w !! sid0) as [sl0|] eqn:Hs; cbn; [|done]. intros Hi. injection Hi as <-. cbn. apply Hio. exact (wo_slots _ Hw _ _ Hs).
    + rewrite lookup_alter_ne by done. apply Hw.
  - intros sl. cbn. rewrite lookup_alter. destruct (w_slots w !! sid0) as [sl0|] eqn:Hs; cbn; [|done]. intros Hi. injection Hi as <-. cbn. exact (se_next _ _ _ _ Hse _ Hs).
  - intros i sl h s. cbn. destruct (decide (i = sid0)) as [->|Hne].
    + rewrite lookup_alter. destruct (w_slots w !! sid0) as [sl0|] eqn:Hs; cbn; [|done]. intros Hi. injection Hi as <-. cbn. exact (se_slot _ _ _ _ Hse _ _ _ _ Hs).
    + rewrite lookup_alter_ne by done. apply Hse.
  - intros i. cbn. destruct (decide (i = sid0)) as [->|Hne].
    + rewrite lookup_alter. destruct (w_slots w !! sid0) as [sl0|]; constructor. split; [done|]. destruct (decide _); [|done]. by apply R_io.
    + rewrite lookup_alter_ne by done. destruct (w_slots w !! i); constructor; reflexivity.
Qed.
End sess.

Ltac k_solve := cbn [ObjWorld.call_kind]; first [exact I|reflexivity|eassumption|solve [intros; reflexivity]|solve [split; reflexivity]|solve [intros; exact I]|solve [intros []]|solve [intros; assumption]|left; reflexivity|right; reflexivity|solve [intros ?; right; eexists; reflexivity]].
Ltac side := first [exact Hfs|exact Hutf|eassumption|k_solve|reflexivity|apply _].
Ltac new_tac := first [eassumption
  |eapply gen_key_ok; [exact Hfs|eassumption|eassumption]
  |match goal with H : gen_pair _ _ _ _ _ _ _ = Ok _ |- _ => eapply gen_pair_ok in H; [|exact Hfs|eassumption|eassumption]; by destruct H end
  |match goal with H : Forall made (_ :: _) |- _ => by inversion H end
  |eapply import_key_ok; [eassumption|eapply key_factory_good; [exact Hfs|eassumption]|eassumption]].
Ltac set_tac := first [solve [auto]|match goal with K : forall h tmpl, op_stores _ h tmpl -> _ |- _ => apply K; eexists; eassumption end|match goal with H : _ \/ _ |- _ => destruct H as [->| ->]; tauto end].
Ltac class_tac := cbn [ObjWorld.call_kind]; match goal with H : _ = Some _ \/ _ = [] |- _ => destruct H as [->| ->]; cbn [default]; intros; try (split; [reflexivity|intros]); first [assumption|discriminate] end.
Ltac bnd := repeat (apply List.Forall_cons; [assumption|]); apply List.Forall_nil.
Ltac use_slot H := first [specialize (H eq_refl)|match type of H with ?P -> _ => match goal with H0 : P |- _ => specialize (H H0) end end].
Ltac subst_slot H := match type of H with ?x = _ => subst x end.
Ltac w_prim m :=
  lazymatch m with
  | upd_session _ _ _ => apply hs_upd_session; intros; cbn; solve [auto]
  | get_slot _ _ => apply hs_get_slot
  | Api.lock _ => apply hs_lock
  | session_slot _ _ => eapply hs_any, hs_session_slot
  | get_session _ _ => eapply hs_any, hs_get_session
  | token_ready _ _ => apply hs_token_ready
  | token_of_session _ _ => eapply hs_any, hs_token_of_session
  | mech_flags _ _ _ _ => apply hs_mech_flags
  | Api.ok _ _ => apply hs_ok
  | Api.failed _ _ _ => apply hs_failed
  | deref _ _ => apply hs_deref
  | ro_check _ _ _ => apply hs_ro_check
  | run_op _ _ _ _ _ => apply hs_run_op
  | len_op _ _ _ _ _ _ => apply hs_len_op
  | cur_op _ _ _ => apply hs_cur_op
  | Api.tok _ _ draw => apply hs_wdraw; side
  | Api.tok _ _ (get_object_by_handle _ _) => eapply hs_any, hs_wget; side
  | Api.tok _ _ (insert_object _ _ _) => eapply hs_any, hs_winsert; [side..|new_tac|side]
  | Api.tok _ _ (destroy_object _ _) => apply hs_wdestroy; side
  | Api.tok _ _ (set_object_attrs _ _ _) => apply hs_wset; [side..|cbn [ObjWorld.call_kind]; set_tac|cbn [ObjWorld.call_kind]; set_tac|side]
  | Api.tok _ _ tk_logout => apply hs_wlogout; side
  | Api.tok _ _ (tk_initialize _ _ _) => apply hs_wtok; [side|apply hs_tk_initialize; side|side]
  | Api.tok _ _ (tk_set_pin _ _ _ _) => apply hs_wtok; [side|apply hs_tk_set_pin; side|side]
  | Api.tok _ _ (tk_login _ _ _) => apply hs_wtok; [side|apply hs_tk_login; side|side]
  | Api.tok _ _ (create_object _ _ _ _) => apply hs_wtok; [side|apply hs_create_object; side|side]
  | Api.tok _ _ (copy_object _ _ _ _) => apply hs_wtok; [side|apply hs_copy_object; first [side|class_tac]|side]
  | Api.tok _ _ (get_object_size _ _) => apply hs_wtok; [side|apply hs_get_object_size; side|side]
  | Api.tok _ _ (get_object_attrs _ _ _) => apply hs_wtok; [side|apply hs_get_object_attrs; side|side]
  | Api.tok _ _ (search_objects _ _) => apply hs_wtok; [side|apply hs_search_objects; side|side]
  | Api.tok _ _ (get_objects _ _) => apply hs_wtok; [side|apply hs_get_objects; side|side]
  | Api.tok _ _ (insert_all _ _ _ _ _) => apply hs_wtokb; [apply hs_insert_all; [side..|bnd|bnd|new_tac]|side]
  | new_session _ _ _ _ => apply hs_new_session; side
  | drop_session _ _ => apply hs_drop_session; side
  | drop_all_sessions_slot _ _ => apply hs_drop_all
  | change_session_states _ _ _ => apply hs_change_states
  | invalidate_session_states _ _ => apply hs_invalidate
  | Api.tok _ _ (modify (drop_session_objects ?x)) => apply hs_wtok; [side|apply (hs_drop P Hfs _ (session_sel x)); side|side]
  | Api.tok _ _ (modify _) => apply hs_wtok; [side|apply hs_drop_many; side|side]
  | lift _ => apply hs_lift; [apply _|done]
  | ret _ => apply hs_ret; [apply _|done]
  | fail _ => apply hs_fail; apply _
  | skip => apply hs_skip; [apply _|done]
  | ensure _ _ => apply hs_ensure; [apply _|done]
  | gets _ => apply hs_gets; [apply _|done]
  | modify (disturb _ _ _) => apply hs_disturb; side
  | attempt _ => eapply (hs_attempt _ _ _ any); [|done]
  end.
Ltac w_step :=
  lazymatch goal with
  | |- hs _ _ (mbind ?m _) _ =>
    lazymatch m with
    | lift ?r => eapply (hs_bind _ _ _ _ (fun a => r = Ok a)); [apply hs_lift; [apply _|done]|cbv beta; intros ? ?]
    | Api.tok _ _ (new_uid _) => eapply hs_bind; [apply _|apply hs_wuid; side|cbv beta; intros ? ?]
    | Api.tok _ _ (get_object_by_handle _ _) => eapply hs_bind; [apply _|apply hs_wget; side|cbv beta; intros ? ?]
    | Api.tok _ _ (derived_objects _ _ _) => eapply hs_bind; [apply _|apply hs_wtok; [side|apply hs_derived_objects; side|side]|cbv beta; intros ? ?]
    | Api.tok _ _ (insert_object _ _ _) => eapply hs_bind; [apply _|apply hs_winsert; [side..|new_tac|side]|cbv beta; intros ? ?]
    | get_session _ _ => eapply hs_bind; [apply _|apply hs_get_session|cbv beta; let H := fresh "Hsid" in intros ? H; use_slot H]
    | session_slot _ _ => eapply hs_bind; [apply _|apply hs_session_slot|cbv beta; let H := fresh "Hsid" in intros ? H; use_slot H; subst_slot H]
    | token_of_session _ _ => eapply hs_bind; [apply _|apply hs_token_of_session|cbv beta; let H := fresh "Hsid" in intros ? H; use_slot H; subst_slot H]
    | tmpl_of _ _ _ => eapply hs_bind; [apply _|apply hs_tmpl_of|cbv beta; intros ? ?]
    | _ => eapply (hs_bind _ _ _ _ any); [|intros ? _]
    end
  | |- hs _ _ (let _ := _ in _) _ => cbv zeta
  | |- hs _ _ (if ?b then _ else _) _ => destruct b
  | |- hs _ _ (match ?x with _ => _ end) _ => destruct x eqn:?
  | |- hs _ _ ?m _ => w_prim m
  end.
Ltac w_tac := repeat w_step.

Notation Iw h0 sid0 n0 := (fun w => world_ok w /\ ses_ok h0 sid0 n0 w).
Lemma hs_op_updates sid0 n0 (K : kind -> Prop) h k w n : (K KReset -> n0 = 0) -> K (KQuiet LCalm) -> (forall h tmpl, op_stores B h tmpl -> K (KSupd h tmpl)) -> (forall h tmpl, op_stores B h tmpl -> K (KUpd h tmpl)) ->
  hs (Iw (Some h) sid0 n0) (wsteps K sid0) n any -> hs (Iw (Some h) sid0 n0) (wsteps K sid0) (op_updates P B h k w n) any.
Proof. intros K0 K1 K2 K3 Hn. unfold op_updates. w_tac; try done. Qed.
Lemma hs_upd_op sid0 n0 (K : kind -> Prop) h k d : (K KReset -> n0 = 0) -> K (KQuiet LCalm) -> hs (Iw (Some h) sid0 n0) (wsteps K sid0) (upd_op B h k d) any.
Proof. intros. unfold upd_op. w_tac. Qed.
Lemma hs_crypt_update sid0 n0 (K : kind -> Prop) k h d b n : (K KReset -> n0 = 0) -> K (KQuiet LCalm) -> hs (Iw (Some h) sid0 n0) (wsteps K sid0) (crypt_update B k h d b n) any.
Proof. intros. unfold crypt_update. w_tac. Qed.
Lemma hs_restore_op sid0 n0 (K : kind -> Prop) h k key op : (K KReset -> n0 = 0) -> K (KQuiet LCalm) -> hs (Iw (Some h) sid0 n0) (wsteps K sid0) (restore_op P B h sid0 k key op) any.
Proof. intros. unfold restore_op. w_tac. Qed.
Lemma hs_state_restore sid0 n0 (K : kind -> Prop) h b key : (K KReset -> n0 = 0) -> K (KQuiet LCalm) -> hs (Iw (Some h) sid0 n0) (wsteps K sid0) (state_restore P B h sid0 b key) any.
Proof. intros. pose proof (hs_restore_op sid0 n0 K). unfold state_restore. w_tac; auto. Qed.

Lemma cancel_slot fl f k s : s_slot (cancel_if B fl f k s) = s_slot s.
Proof. unfold cancel_if. repeat (match goal with |- context [if ?b then _ else _] => destruct b | |- context [match ?b with _ => _ end] => destruct b end; try done). Qed.
Definition live_call (c : call) : bool := match c with Initialize _ | Finalize | Crash => false | _ => true end.
Lemma hs_api c sid0 n0 : live_call c = true -> (call_kind n0 c KReset -> n0 = 0) -> (forall sid, slot_of_call c = Some sid -> sid = sid0) ->
  hs (Iw (session_of_call c) sid0 n0) (wsteps (call_kind n0 c) sid0) (api P B E c) any.
Proof.
  intros Hc Hz Hsl.
  pose proof (hs_upd_op sid0 n0 (call_kind n0 c)) as Xu. pose proof (hs_crypt_update sid0 n0 (call_kind n0 c)) as Xc.
  pose proof (hs_state_restore sid0 n0 (call_kind n0 c)) as Xr. pose proof (hs_op_updates sid0 n0 (call_kind n0 c)) as Xo.
  destruct c; try discriminate Hc; cbn [api];
    lazymatch goal with
    | |- hs _ _ (match ?k with _ => _ end) _ => destruct k
    | _ => idtac
    end; cbn [session_of_call]; cbn [slot_of_call] in Hsl; try specialize (Hsl _ eq_refl); try (subst sid0); cbn [ObjWorld.call_kind] in Hz.
  all: unfold c_get_info, c_get_interface_list, c_get_slot_list, c_get_slot_info, c_get_token_info, c_get_mechanism_list,
    c_get_mechanism_info, c_get_session_info, c_get_operation_state, c_set_operation_state,
    c_create_object, c_copy_object, c_destroy_object, c_get_object_size, c_get_attribute_value, c_set_attribute_value,
    c_find_objects_init, c_find_objects, c_find_objects_final, op_init, c_digest_init, c_sign, c_update, c_sign_final,
    c_verify, c_verify_final, c_verify_signature, c_verify_signature_final, c_digest, c_digest_final, c_digest_key,
    c_crypt, c_crypt_update, c_crypt_final, c_message, c_message_begin, c_message_next, c_message_final, c_dual,
    c_generate_key, c_generate_key_pair, c_wrap_key, c_unwrap_key, c_derive_key, c_encapsulate_key, c_decapsulate_key,
    c_seed_random, c_generate_random, c_init_token, c_init_pin, c_set_pin, c_open_session, c_close_session,
    c_close_all_sessions, c_login, c_logout, c_session_cancel.
  all: w_tac.
  all: try solve [apply Xu; k_solve|apply Xc; k_solve|apply Xr; k_solve].
  all: try (apply Xo; [k_solve..|w_tac]).
  apply hs_upd_session. intros s. rewrite !cancel_slot. done.
Qed.
(* The slot a call acts on. *)
Definition acting (w : world) (c : call) : N :=
  match slot_of_call c with
  | Some sid => sid
  | None => match session_of_call c with Some h => default 0 (w_smap w !! h) | None => 0 end
  end.
(* The first handle the slot has not given out. *)
Definition given (w : world) (c : call) : N :=
  match c with
  | InitToken _ _ _ => 0
  | _ => match w_slots w !! acting w c with Some sl => h_next (t_handles (sl_token sl)) | None => 0 end
  end.
Lemma inv_ses w c : sess_inv B w -> ses_ok (session_of_call c) (acting w c) (given w c) w.
Proof.
  intros HI. split.
  - intros sl Hsl. unfold given. rewrite Hsl. destruct c; lia.
  - intros h sid Hh Hm. unfold acting. rewrite Hh. replace (slot_of_call c) with (@None N) by (by destruct c). by rewrite Hm.
  - intros i sl h s H1 H2. by eapply session_slot_eq.
Qed.
Lemma given_ok w c : call_kind (given w c) c KReset -> given w c = 0.
Proof. by destruct c. Qed.
Lemma acting_ok w c sid : slot_of_call c = Some sid -> sid = acting w c.
Proof. intros H. unfold acting. by rewrite H. Qed.

(* ---- the module is started and stopped ---- *)
Lemma db_new_ok : db_ok db_new.
Proof. split; [apply db_new_wf|]. intros i m. unfold db_new. cbn. by rewrite lookup_empty. Qed.
Lemma disk_of_ok d w : world_ok w -> db_ok (k_db (disk_of B d w)).
Proof.
  intros Hw. unfold disk_of. destruct (List.filter _ _) as [|[i sl] l] eqn:Hf.
  - destruct (w_disks w !! d) as [k|] eqn:Hd; [by apply (wo_disks _ Hw d)|apply db_new_ok].
  - assert (In (i, sl) (List.filter (fun p => sl_disk (snd p) =? d) (map_to_list (w_slots w)))) as Hin by (rewrite Hf; by left).
    apply in_filter in Hin as [Hin _]. apply elem_of_list_In, elem_of_map_to_list in Hin. cbn. apply (wo_slots _ Hw _ _ Hin).
Qed.
Lemma put_slot_ok sid sl w : world_ok w -> tok_ok (sl_token sl) -> world_ok (set_slots B (<[sid := sl]> (w_slots w)) w).
Proof.
  intros Hw Hs. split; [|apply Hw]. intros i sl' Hi. cbn in Hi. destruct (decide (i = sid)) as [->|Hne].
  - rewrite lookup_insert in Hi. by injection Hi as <-.
  - rewrite lookup_insert_ne in Hi by done. by eapply Hw.
Qed.
Lemma add_slots_ok l a w : world_ok w -> world_ok (fst (add_slots P B l a w)).
Proof.
  revert a w. induction l as [|c l IH]; intros a w Hw; cbn [add_slots]; [done|]. unfold slot_new. rewrite !run_bind. cbv [gets].
  pose proof (token_new_ok P (k_db (disk_of B (sc_disk c) w)) (sc_io c) (k_fresh (disk_of B (sc_disk c) w)) Hfs (disk_of_ok _ _ Hw)) as Ht.
  destruct (token_new _ _ _ _) as [t [u|e]]; [|done]. cbn [fst] in Ht. cbv [ret]. rewrite run_bind. cbv [ret].
  destruct (nonnull _); [by apply IH|]. rewrite run_bind. cbv [put_slot modify]. apply IH. apply put_slot_ok; [done|]. cbn.
  unfold apply_filter. destruct (sc_mechs c) as [[]|]; apply (tok_same t); done || apply Ht.
Qed.
Lemma sync_ok w : world_ok w -> forall i d, sync B w !! i = Some d -> db_ok (k_db d).
Proof.
  intros Hw. unfold sync. assert (forall p, In p (map_to_list (w_slots w)) -> tok_ok (sl_token (snd p))) as Hp.
  { intros [i sl] Hin. apply elem_of_list_In, elem_of_map_to_list in Hin. by apply (wo_slots _ Hw i). }
  induction (map_to_list (w_slots w)) as [|p l IH]; cbn [foldr]; [apply Hw|]. intros i d. destruct (decide (i = sl_disk (snd p))) as [->|Hne].
  - rewrite lookup_insert. intros Hi. injection Hi as <-. cbn. apply (Hp p). by left.
  - rewrite lookup_insert_ne by done. apply IH. intros q Hq. apply Hp. by right.
Qed.
Lemma stop_ok w : world_ok w -> world_ok (stop B w).
Proof. intros Hw. split; [intros i sl; cbn; by rewrite lookup_empty|]. by apply sync_ok. Qed.
Lemma run_step w c : fst (step P B E w c) = fst (api P B E c w).
Proof. unfold step. destruct (api P B E c w) as [w' [r|e]]; done. Qed.
Record winv (w : world) : Prop := WInv { wi_ok : world_ok w; wi_inv : sess_inv B w }.
Lemma api_winv c w : winv w -> winv (fst (api P B E c w)).
Proof.
  intros [Hw HI]. split; [|by apply inv_api]. destruct (live_call c) eqn:Hc.
  { apply (hs_api c (acting w c) (given w c) Hc (given_ok w c) (acting_ok w c) w). split; [done|]. by apply inv_ses. }
  destruct c; try discriminate Hc; cbn [api].
  - unfold c_initialize. rewrite run_bind. cbv [gets]. rewrite run_bind.
    assert (world_ok (fst ((if initialized B w then skip else modify (fun w => World ∅ ∅ 1 (w_disks w))) w))) as Hw1.
    { destruct (initialized B w); [done|]. cbn. split; [|apply Hw]. intros i sl. cbn. by rewrite lookup_empty. }
    set (m := if initialized B w then _ else _) in *. replace (snd (m w)) with (Ok tt : result unit) in * by (subst m; by destruct (initialized B w)).
    destruct (m w) as [w1 r]. cbn [fst] in Hw1. destruct r; [|done]. rewrite run_bind.
    pose proof (add_slots_ok l (initialized B w) w1 Hw1) as H2. destruct (add_slots _ _ _ _ _) as [w2 [al|e]]; [|done].
    cbn [fst] in H2. destruct al; done.
  - unfold c_finalize, Api.lock, State.lock. rewrite !run_bind. cbv [gets]. destruct (initialized B w); [|done]. cbn. by apply stop_ok.
  - cbn. by apply stop_ok.
Qed.
Lemma step_winv w c : winv w -> winv (fst (step P B E w c)).
Proof. rewrite run_step. apply api_winv. Qed.
Lemma run_winv cs w : winv w -> winv (fst (run P B E w cs)).
Proof.
  revert w. induction cs as [|c cs IH]; intros w Hw; cbn [run]; [done|]. pose proof (step_winv w c Hw) as H.
  destruct (step P B E w c) as [w1 o]. specialize (IH w1 H). destruct (run P B E w1 cs) as [w2 os]. done.
Qed.
Lemma scratch_winv w : from_scratch P B E w -> winv w.
Proof. intros (cs & ->). apply run_winv. split; [split; intros i x; cbn; by rewrite lookup_empty|apply inv_empty]. Qed.
Lemma live_step w c : live_call c = true -> winv w -> wsteps (call_kind (given w c) c) (acting w c) w (fst (step P B E w c)).
Proof. intros Hc [Hw HI]. rewrite run_step. apply (hs_api c (acting w c) (given w c) Hc (given_ok w c) (acting_ok w c) w). split; [done|]. by apply inv_ses. Qed.
End world.
