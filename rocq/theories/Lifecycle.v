(* The module before C_Initialize and after C_Finalize: facts behind C36, and the list calls of C37. *)
From Verif Require Import Base Monad Hoare Attr Obj Factory Tables Create Sqlite Storage Token Backend State Api
  TokenFrame Spec WorldFrame WorldWp Sessions SessionInv SessionFacts.

Lemma blen_cons_0 (x : N) l : (blen (x :: l) =? 0) = false.
Proof. unfold blen. cbn. lia. Qed.
Ltac off_null :=
  subst; cbn [bad_args];
  repeat match goal with
    | |- context [none ?p] => is_var p; destruct p
    | |- context [empty (Some ?p)] => is_var p; destruct p
    | |- context [negb ?p] => is_var p; destruct p
    | |- context [match ?k with KVerifySig => _ | _ => _ end] => is_var k; destruct k
    end; cbn [none nonnull andb orb negb] in *; first [reflexivity | discriminate | rewrite ?orb_true_r; reflexivity | match goal with H : _ = false |- _ => rewrite H end; reflexivity
    | exfalso; match goal with H : _ = false |- _ => rewrite !blen_cons_0 in H; discriminate H end].
Ltac off_done := unfold refused; (split; [reflexivity|]); eexists; (split; [reflexivity|]); unfold off_rv;
  first [left; reflexivity
        | right; left; split; [reflexivity|]; solve [off_null]
        | right; right; split; [reflexivity|]; eexists _, _, _, _; (split; [reflexivity|]); lia].
Ltac off_step Hz :=
  match goal with
  | H : w_next _ <> 0 |- _ => exfalso; exact (H Hz)
  | |- refused _ _ _ _ _ => first [off_done | null_contra]
  | |- wp (tmpl_of _ ?t _) _ _ => unfold tmpl_of; destruct t
  | |- _ => wp_step
  end.
Ltac off_go Hz := repeat off_step Hz.

Section life.
Context (P : params) (B : backend) (E : N -> keyenv).
Notation world := (world B). Notation session := (session B). Notation slot := (slot B).
Notation INV := (sess_inv B).

Lemma off_api c w : w_next w = 0 -> works_uninitialised c = false -> wp (api P B E c) w (refused B w (off_rv c)).
Proof.
  intros Hz Hc. destruct c; try discriminate Hc; cbn [api].
  all: try (unfold c_finalize, c_get_slot_list, c_get_slot_info, c_get_token_info, c_get_mechanism_list, c_get_mechanism_info,
    c_init_token, c_open_session, c_close_all_sessions, drop_all_sessions_slot,
    c_init_pin, c_set_pin, c_close_session, c_get_session_info, c_get_operation_state,
    c_login, c_logout, c_session_cancel, c_create_object, c_copy_object, c_destroy_object,
    c_get_object_size, c_get_attribute_value, c_set_attribute_value, c_find_objects_init, c_find_objects, c_find_objects_final,
    c_digest_init, c_sign, c_update, c_sign_final, c_verify, c_verify_final, c_verify_signature, c_verify_signature_final,
    c_digest, c_digest_final, c_digest_key, c_crypt, c_crypt_update, c_crypt_final, c_message, c_message_begin, c_message_next,
    c_message_final, c_dual, c_generate_key, c_generate_key_pair, c_wrap_key, c_unwrap_key, c_derive_key, c_encapsulate_key,
    c_decapsulate_key, c_seed_random, c_generate_random, c_set_operation_state, cur_op; off_go Hz; fail).
  destruct k; try discriminate Hc; unfold op_init; off_go Hz.
Qed.
Lemma init_api l w : initialized B (fst (api P B E (Initialize l) w)) = true.
Proof.
  assert (wp (api P B E (Initialize l)) w (fun w' _ => initialized B w' = true)) as H; [|exact H]. cbn [api].
  eapply wp_mono; [apply initialize_spec|]. cbv beta. unfold initialized. intros w' r [H _].
  destruct (N.eqb_spec (w_next w) 0); cbn in H; destruct H as [-> _]; [done|]. destruct (N.eqb_spec (w_next w) 0); done.
Qed.
Lemma initialized_api c w : initialized B (fst (api P B E c w)) =
  match c with Initialize _ => true | Finalize | Crash => false | _ => initialized B w end.
Proof.
  destruct (initialized B w) eqn:Hi.
  - destruct c; try (apply init_api); try (unfold initialized in *;
      match goal with |- context [api P B E ?c] => pose proof (next_mono P B E c w eq_refl) end;
      destruct (N.eqb_spec (w_next w) 0); [done|];
      match goal with |- negb (?a =? 0) = _ => destruct (N.eqb_spec a 0); [lia|done] end).
    + cbn [api]. unfold c_finalize. rewrite run_bind, lock_eq; [done|]. intros Hz. unfold initialized in Hi. by rewrite Hz in Hi.
    + done.
  - assert (w_next w = 0) as Hz by (unfold initialized in Hi; destruct (N.eqb_spec (w_next w) 0); done).
    destruct (works_uninitialised c) eqn:Hc.
    + destruct c; try discriminate Hc; try (apply init_api); cbn [api]; try done.
      * destruct p; exact Hi.
      * unfold c_get_interface_list. destruct count, lst; try exact Hi. cbn. unfold mbind, ensure. destruct (n <=? _); exact Hi.
      * destruct k; try discriminate Hc; exact Hi.
    + pose proof (off_api c w Hz Hc) as [-> _]. rewrite Hi. by destruct c.
Qed.
Lemma initialized_run cs : forall w, initialized B (fst (run P B E w cs)) = running (initialized B w) cs.
Proof.
  induction cs as [|c cs IH]; intros w; [done|]. cbn [run]. pose proof (initialized_api c w) as H.
  rewrite <- (step_fst P B E c w) in H. destruct (step P B E w c) as [w1 o]. cbn [fst] in H. specialize (IH w1).
  destruct (run P B E w1 cs) as [w2 os]. cbn [fst] in *. rewrite IH, H. by destruct c.
Qed.

Definition same_sobjs (t t' : token) : Prop := t_sobjs t' = t_sobjs t.
#[local] Instance same_sobjs_po : PreOrder same_sobjs.
Proof. split; [done|]. intros a b c H1 H2. unfold same_sobjs in *. congruence. Qed.
Lemma no_sobjs_insert o : pres no_sobjs (insert_object P CK_INVALID_HANDLE o).
Proof.
  unfold insert_object. destruct (is_token o).
  - apply rel_pres with same_sobjs; [|intros a b Hab H h x; rewrite Hab; apply H].
    apply rel_bind; [apply _|apply rel_gets; apply _|intros l]. apply rel_bind; [apply _|apply rel_ensure; apply _|intros u].
    apply rel_st_store; try apply _; done.
  - apply wp_pres. intros t Ht. apply wp_bind. unfold h_fresh, wp at 1. cbn [fst snd].
    apply wp_bind, wp_lift. destruct (get_string _ _); [|exact Ht]. apply wp_bind. unfold h_insert, wp at 1.
    set (c := match _ with None => _ | _ => _ end). destruct c; [exact Ht|]. cbn [fst snd].
    apply wp_bind, wp_modify, wp_ret.
    intros h' o'. cbn. destruct (decide (h' = h_next (t_handles t))) as [->|Hne].
    + rewrite lookup_insert. intros ?. by simplify_eq.
    + rewrite lookup_insert_ne by done. apply Ht.
Qed.
Lemma no_sobjs_builtins l : pres no_sobjs (builtins P l).
Proof.
  induction l as [|[m fl] l IH]; cbn [builtins]; [by intros t|]. apply pres_bind; [apply pres_lift|intros o].
  apply pres_bind; [apply no_sobjs_insert|done].
Qed.
Lemma no_sobjs_new d ios fresh : no_sobjs (fst (token_new P d ios fresh)).
Proof.
  assert (no_sobjs (token_blank d ios fresh)) as H0. { intros h o Ho. cbn in Ho. by rewrite lookup_empty in Ho. }
  revert H0. unfold token_new. generalize (token_blank d ios fresh). intros t.
  match goal with |- _ -> no_sobjs (fst (?m t)) => change (no_sobjs t -> no_sobjs (fst (m t))); cut (pres no_sobjs m); [intros H; apply H|] end.
  assert (forall A (m : M token A), rel same_sobjs m -> pres no_sobjs m) as Hsame.
  { intros A m Hm. apply rel_pres with same_sobjs; [done|]. intros a b Hab H h x. rewrite Hab. apply H. }
  apply pres_bind; [|intros i; apply pres_bind].
  - apply pres_attempt, Hsame. unfold st_open, init_pin_flags. 
    pose proof (rel_io same_sobjs ltac:(done)). 
    assert (forall A f, rel same_sobjs (@dbread A f)) by (intros; apply rel_dbread; try apply _; done).
    rel_tac; done.
  - destruct i; [apply Hsame; by intros t'|]. destruct (_ =? _); apply Hsame; by intros t'.
  - intros _. unfold internal_objects_init. apply pres_bind; [apply pres_gets|]. intros l. apply no_sobjs_builtins.
Qed.
Lemma initialize_fresh l w : initialized B w = false -> wp (api P B E (Initialize l)) w (fun w' _ =>
  (forall h, ~ is_open B w' h) /\ (forall sid sl, w_slots w' !! sid = Some sl -> t_logged (sl_token sl) = KRY_UNSPEC /\ no_sobjs (sl_token sl))).
Proof.
  intros Hi. eapply wp_mono; [apply initialize_spec|]. cbv beta. rewrite Hi. intros w' r [[_ Hm] Hs]. split.
  - intros h Ho. apply Ho. unfold session_of. by rewrite Hm, lookup_empty.
  - intros sid sl Hsl. destruct (Hs _ _ Hsl) as [[? _]|(He & c & k & Ht & Hx)]; [done|]. rewrite Hx. split.
    + rewrite <- (token_new_login P (k_db k) (sc_io c) (k_fresh k)). destruct (sc_mechs c) as [[? ?]|]; done.
    + pose proof (no_sobjs_new (k_db k) (sc_io c) (k_fresh k)). destruct (sc_mechs c) as [[? ?]|]; done.
Qed.

(* ---- the two-call convention, C37 ---- *)
Lemma slot_list_step w lst n : w_next w <> 0 ->
  step P B E w (GetSlotList lst (Some n)) = (w, list_result (slot_ids B w) lst n).
Proof.
  intros Hn. unfold step, api, c_get_slot_list. rewrite run_bind. cbn [nonnull ensure]. unfold ensure at 1, ret at 1.
  rewrite run_bind, lock_eq by done. rewrite run_bind. unfold gets. unfold list_result. destruct lst; [|done].
  cbn [negb]. rewrite run_bind. cbn [deref]. unfold ret at 1. rewrite run_bind. unfold ensure, ret, fail, ok.
  destruct (_ <=? n); done.
Qed.
Lemma mech_list_step w sid sl lst n : w_next w <> 0 -> w_slots w !! sid = Some sl -> tk_initialized (sl_token sl) = true ->
  step P B E w (GetMechanismList sid lst (Some n)) = (w, list_result (map fst (mechanisms P (sl_token sl))) lst n).
Proof.
  intros Hn Hs Hi. unfold step, api, c_get_mechanism_list. rewrite run_bind. cbn [nonnull]. unfold ensure at 1, ret at 1.
  rewrite run_bind, lock_eq by done. rewrite run_bind, (token_ready_eq B sid sl) by done.
  rewrite run_bind, (get_slot_eq B sid sl) by done. unfold list_result. destruct lst; [|done].
  cbn [negb]. rewrite run_bind. cbn [deref]. unfold ret at 1. rewrite run_bind. unfold ensure, ret, fail, ok.
  destruct (_ <=? n); done.
Qed.
Lemma interface_list_step w n lst c : 
  step P B E w (GetInterfaceList n lst (Some c)) = (w, list_result (map N.of_nat (seq 0 (N.to_nat n))) lst c).
Proof.
  unfold step, api, c_get_interface_list, list_result. rewrite map_length, seq_length, N2Nat.id. destruct lst; [|done].
  cbn. unfold mbind, ensure. by destruct (n <=? c).
Qed.
Lemma slot_ids_spec w : NoDup (slot_ids B w) /\ forall sid, In sid (slot_ids B w) <-> exists sl, w_slots w !! sid = Some sl.
Proof.
  unfold slot_ids. pose proof (sorting.merge_sort_Permutation N.le (map fst (map_to_list (w_slots w)))) as Hp. split.
  - rewrite Hp. apply NoDup_fst_map_to_list.
  - intros sid. rewrite <- elem_of_list_In, Hp, elem_of_list_In, in_map_iff. split.
    + intros ([i sl] & <- & Hi). exists sl. by apply map_to_list_in.
    + intros [sl Hsl]. exists (sid, sl). split; [done|]. by apply map_to_list_in.
Qed.
End life.
