(* Property C31: merging slot configurations. *)
From Verif Require Import Config.
Local Open Scope string_scope. Local Open Scope list_scope.
Local Open Scope N_scope.

(* ---- specification ---- *)
Definition storage (x : cslot) : option string * option string := (c_dbtype x, c_dbargs x).
Definition numbered (x : cslot) : Prop := c_slot x <> U32_MAX.
(* Every slot has a number that fits, and no two share a number or a storage. *)
Definition distinct (l : list cslot) : Prop :=
  Forall (fun x => c_slot x < U32_MAX) l /\ List.NoDup (map c_slot l) /\ List.NoDup (map storage l).
Definition fits (l : list cslot) : Prop := Forall (fun x => c_slot x <= U32_MAX) l.
Definition unnumbered (l : list cslot) : N := N.of_nat (List.length (List.filter (fun x => c_slot x =? U32_MAX) l)).
(* Numbers are left above the highest one for all the slots that need one. *)
Definition room (l new : list cslot) : Prop :=
  unnumbered new <= U32_MAX /\ forall x, In x (l ++ new) -> numbered x -> c_slot x + unnumbered new < U32_MAX.
(* The slot x of the new configuration is one of the slots of l. *)
Definition present (x : cslot) (l : list cslot) : Prop :=
  exists y, In y l /\ storage y = storage x /\ (numbered x -> c_slot y = c_slot x).

(* ---- proofs ---- *)
Lemma Forall2_r {A B} (R : A -> B -> Prop) l l' y : Forall2 R l l' -> In y l' -> exists x, In x l /\ R x y.
Proof. induction 1 as [|a b l l' H1 H2 IH]; [intros []|]. intros [<-|H]; [exists a; split; [by left|done]|].
  destruct (IH H) as (x & X1 & X2). exists x. split; [by right|done]. Qed.
Lemma Forall2_l {A B} (R : A -> B -> Prop) l l' x : Forall2 R l l' -> In x l -> exists y, In y l' /\ R x y.
Proof. induction 1 as [|a b l l' H1 H2 IH]; [intros []|]. intros [<-|H]; [exists b; split; [by left|done]|].
  destruct (IH H) as (y & X1 & X2). exists y. split; [by right|done]. Qed.
Lemma ostr_eqb_spec a b : ostr_eqb a b = true <-> a = b.
Proof.
  destruct a, b; simpl; try (split; congruence).
  rewrite String.eqb_eq. split; congruence.
Qed.
Lemma same_db_spec s x : same_db s x = true <-> storage s = storage x.
Proof. unfold same_db, storage. rewrite andb_true_iff, !ostr_eqb_spec. split; [intros []; congruence|intros [=]; tauto]. Qed.
Lemma same_db_no s x : same_db s x = false <-> storage s <> storage x.
Proof. rewrite <-same_db_spec. destruct (same_db s x); split; congruence. Qed.

(* The state between the steps: storages all differ, and so do the numbers of the numbered slots. *)
Definition nums (l : list cslot) : list N := List.filter (fun n => negb (n =? U32_MAX)) (map c_slot l).
Definition loose (l : list cslot) : Prop := fits l /\ List.NoDup (nums l) /\ List.NoDup (map storage l).

Lemma in_nums n l : In n (nums l) <-> n <> U32_MAX /\ exists x, In x l /\ c_slot x = n.
Proof.
  unfold nums. rewrite List.filter_In, in_map_iff. split.
  - intros ((x & <- & Hx) & Hn). split; [|eauto]. destruct (N.eqb_spec (c_slot x) U32_MAX); [discriminate|done].
  - intros (Hn & x & Hx & <-). split; [eauto|]. apply N.eqb_neq in Hn. by rewrite Hn.
Qed.

Lemma seek_spec l : forall x b x' f, seek l x b = Ok (x', f) ->
  storage x' = storage x /\ (numbered x -> x' = x) /\
  (f = false -> b = false /\ x' = x /\ (forall s, In s l -> storage s <> storage x) /\
                (numbered x -> forall s, In s l -> c_slot s <> c_slot x)) /\
  (f = true -> b = false -> exists s, In s l /\ storage s = storage x /\ (numbered x -> c_slot s = c_slot x)).
Proof.
  induction l as [|s l IH]; intros x b x' f H.
  - cbn in H. injection H as <- <-. split_and!; try done. intros -> [=].
  - cbn [seek] in H. destruct (N.eqb_spec (c_slot x) U32_MAX) as [E|E].
    + destruct (same_db s x) eqn:D.
      * apply same_db_spec in D. apply IH in H as (A1 & A2 & A3 & A4).
        split; [done|]. split; [intros X; by destruct X|]. split.
        -- intros ->. destruct (A3 eq_refl) as [? _]. discriminate.
        -- intros _ _. exists s. split; [by left|]. split; [done|]. intros X. by destruct X.
      * apply same_db_no in D. apply IH in H as (A1 & A2 & A3 & A4).
        split; [done|]. split; [done|]. split.
        -- intros Hf. destruct (A3 Hf) as (B1 & B2 & B3 & B4). split; [done|]. split; [done|]. split.
           ++ intros u [<-|Hu]; auto.
           ++ intros X. by destruct X.
        -- intros Hf Hb. destruct (A4 Hf Hb) as (u & U1 & U2 & U3). exists u. split; [by right|]. done.
    + destruct (N.eqb_spec (c_slot x) (c_slot s)) as [E'|E']; cbn [negb] in H.
      * destruct (ostr_eqb (c_dbtype s) (c_dbtype x)) eqn:D1; [|discriminate].
        destruct (ostr_eqb (c_dbargs s) (c_dbargs x)) eqn:D2; [|discriminate]. cbn [negb] in H.
        apply ostr_eqb_spec in D1, D2. apply IH in H as (A1 & A2 & A3 & A4).
        split_and!; try done.
        -- intros ->. destruct (A3 eq_refl) as [? _]. discriminate.
        -- intros _ _. exists s. split; [by left|]. unfold storage. rewrite D1, D2. done.
      * destruct (same_db s x) eqn:D; [discriminate|]. apply same_db_no in D.
        apply IH in H as (A1 & A2 & A3 & A4). split_and!; try done.
        -- intros Hf. destruct (A3 Hf) as (B1 & B2 & B3 & B4). split; [done|]. split; [done|]. split.
           ++ intros u [<-|Hu]; auto.
           ++ intros X u [<-|Hu]; auto.
        -- intros Hf Hb. destruct (A4 Hf Hb) as (u & U1 & U2 & U3). exists u. split; [by right|]. done.
Qed.

Lemma NoDup_snoc {A} (l : list A) x : List.NoDup l -> ~ In x l -> List.NoDup (l ++ [x]).
Proof.
  intros H N. apply NoDup_Add with (a := x) (l := l); [|done].
  rewrite <-(app_nil_r l) at 1. apply Add_app.
Qed.

Lemma add_new_spec new : forall run, loose run -> fits new ->
  let p := add_new run new in
  loose (fst p) /\
  (exists ext, fst p = run ++ ext /\ (forall y, In y ext -> In y new)
               /\ unnumbered ext <= unnumbered new) /\
  (snd p = Ok tt -> forall x, In x new -> present x (fst p)).
Proof.
  induction new as [|x new IH]; intros run L Fn; cbn [add_new].
  - cbn. split; [done|]. split.
    + exists []. rewrite app_nil_r. split_and!; done.
    + intros _ x [].
  - apply List.Forall_cons_iff in Fn as [Fx Fn].
    destruct (seek run x false) as [[x' f]|e] eqn:Hs.
    2:{ cbn. split; [done|]. split.
        - exists []. rewrite app_nil_r. split_and!; [done..|]. unfold unnumbered. cbn. lia.
        - intros [=]. }
    apply seek_spec in Hs as (A1 & A2 & A3 & A4).
    assert (Hun : unnumbered new <= unnumbered (x :: new)).
    { unfold unnumbered. cbn [List.filter]. destruct (c_slot x =? U32_MAX); cbn [List.length]; lia. }
    destruct f.
    + destruct (IH run L Fn) as (B1 & (ext & B2 & B3 & B4) & B5). split; [done|]. split.
      * exists ext. split; [done|]. split; [intros y Hy; right; auto|]. lia.
      * intros Hok y [<-|Hy]; [|by apply B5].
        destruct (A4 eq_refl eq_refl) as (s & S1 & S2 & S3). exists s. rewrite B2. split; [|done].
        apply in_or_app. by left.
    + destruct (A3 eq_refl) as (_ & -> & C1 & C2). destruct L as (L1 & L2 & L3).
      destruct (IH (run ++ [x])) as (B1 & (ext & B2 & B3 & B4) & B5); [|done|].
      { split; [|split].
        - apply List.Forall_app. split; [done|]. constructor; [done|constructor].
        - unfold nums. rewrite map_app, filter_app. cbn [map List.filter].
          destruct (N.eqb_spec (c_slot x) U32_MAX) as [E|E]; cbn [negb].
          + by rewrite app_nil_r.
          + apply NoDup_snoc; [done|]. intros Hin. apply in_nums in Hin as (_ & s & S1 & S2). by apply (C2 E s).
        - rewrite map_app. apply NoDup_snoc; [done|]. intros Hin. apply in_map_iff in Hin as (s & S1 & S2).
          by apply (C1 s). }
      split; [done|]. split.
      * exists (x :: ext). split; [by rewrite B2, <-app_assoc|]. split.
        -- intros y [<-|Hy]; [by left|]. right. auto.
        -- unfold unnumbered in *. cbn [List.filter]. destruct (c_slot x =? U32_MAX); cbn [List.length]; lia.
      * intros Hok y [<-|Hy]; [|by apply B5].
        exists x. rewrite B2. split; [|done]. rewrite <-app_assoc. apply in_or_app. right. by left.
Qed.

Lemma next_number_ge l : forall n,
  let m := fold_left (fun n x => if negb (c_slot x =? U32_MAX) then if n <=? c_slot x then c_slot x + 1 else n else n) l n in
  n <= m /\ (forall x, In x l -> numbered x -> c_slot x < m) /\
  (m = n \/ exists x, In x l /\ numbered x /\ m = c_slot x + 1).
Proof.
  induction l as [|s l IH]; intros n; cbn [fold_left].
  - cbn. split; [lia|]. split; [intros x []|by left].
  - set (n' := if negb (c_slot s =? U32_MAX) then if n <=? c_slot s then c_slot s + 1 else n else n).
    destruct (IH n') as (A1 & A2 & A3). unfold numbered in *. cbv zeta in *.
    set (m := fold_left _ l n') in *.
    assert (Hn : n <= n') by (subst n'; destruct (N.eqb_spec (c_slot s) U32_MAX), (N.leb_spec n (c_slot s)); cbn; lia).
    split; [lia|]. split.
    + intros x [<-|Hx] Hnum; [|by apply A2].
      enough (c_slot s < n') by lia. subst n'. apply N.eqb_neq in Hnum. rewrite Hnum. cbn.
      destruct (N.leb_spec n (c_slot s)); lia.
    + destruct A3 as [->|(x & X1 & X2 & X3)].
      * subst n'. destruct (N.eqb_spec (c_slot s) U32_MAX) as [E|E]; cbn; [by left|].
        destruct (N.leb_spec n (c_slot s)); [|by left]. right. exists s. split; [by left|]. done.
      * right. exists x. split; [by right|]. done.
Qed.


(* Numbering from n, when n is above all numbers and enough numbers are left. *)
Lemma give_numbers_spec checks l : forall n,
  fits l -> (forall x, In x l -> numbered x -> c_slot x < n) -> List.NoDup (nums l) -> n + unnumbered l <= U32_MAX ->
  let p := give_numbers checks l n in
  snd p = Ok tt /\ map storage (fst p) = map storage l /\
  Forall2 (fun x y => (numbered x -> y = x) /\ (~ numbered x -> n <= c_slot y < U32_MAX) /\ storage y = storage x)
    l (fst p) /\
  List.NoDup (map c_slot (fst p)).
Proof.
  induction l as [|x l IH]; intros n Hf Hlt Hnd Hroom; cbn [give_numbers].
  - cbn. split_and!; try done; constructor.
  - apply List.Forall_cons_iff in Hf as [Hx Hf].
    assert (Hlt' : forall y, In y l -> numbered y -> c_slot y < n) by (intros y Hy; apply Hlt; by right).
    unfold unnumbered in Hroom. cbn [List.filter] in Hroom.
    destruct (N.eqb_spec (c_slot x) U32_MAX) as [E|E].
    + cbn [List.length] in Hroom.
      destruct (N.eqb_spec n U32_MAX) as [E'|E']; [lia|].
      destruct (IH (n + 1)) as (A1 & A2 & A3 & A4).
      { done. } { intros y Hy Hn. specialize (Hlt' y Hy Hn). lia. }
      { unfold nums in Hnd |- *. cbn [map List.filter] in Hnd. apply N.eqb_eq in E. rewrite E in Hnd. done. }
      { unfold unnumbered. lia. }
      cbn [fst snd]. split; [done|]. split; [cbn; by rewrite A2|]. split.
      * constructor.
        -- split; [intros X; by destruct X|]. split; [|done]. intros _. cbn [with_slot c_slot]. lia.
        -- eapply Forall2_impl; [exact A3|]. intros a b (B1 & B2 & B3). split; [done|]. split; [|done].
           intros X. specialize (B2 X). lia.
      * cbn [map]. constructor; [|done]. cbn [with_slot c_slot]. intros Hin. apply in_map_iff in Hin as (y & Y1 & Y2).
        destruct (Forall2_r _ _ _ _ A3 Y2) as (a & Ha & B1 & B2 & _).
        destruct (N.eq_dec (c_slot a) U32_MAX) as [Ea|Ea].
        -- assert (n + 1 <= c_slot y) by (apply B2; unfold numbered; tauto). lia.
        -- rewrite (B1 Ea) in Y1. specialize (Hlt' a Ha Ea). lia.
    + destruct (IH n) as (A1 & A2 & A3 & A4).
      { done. } { done. }
      { unfold nums in Hnd |- *. cbn [map List.filter] in Hnd. apply N.eqb_neq in E. rewrite E in Hnd. cbn [negb] in Hnd.
        by inversion Hnd. }
      { unfold unnumbered. lia. }
      cbn [fst snd]. split; [done|]. split; [cbn; by rewrite A2|]. split.
      * constructor; [|done]. split; [done|]. split; [|done]. intros X. by destruct X.
      * cbn [map]. constructor; [|done]. intros Hin. apply in_map_iff in Hin as (y & Y1 & Y2).
        destruct (Forall2_r _ _ _ _ A3 Y2) as (a & Ha & B1 & B2 & _).
        destruct (N.eq_dec (c_slot a) U32_MAX) as [Ea|Ea].
        -- assert (n <= c_slot y) by (apply B2; unfold numbered; tauto).
           assert (c_slot x < n) by (apply Hlt; [by left|done]). lia.
        -- rewrite (B1 Ea) in Y1. unfold nums in Hnd. cbn [map List.filter] in Hnd.
           assert (E2 := E). apply N.eqb_neq in E2. rewrite E2 in Hnd. cbn [negb] in Hnd. inversion Hnd as [|? ? Hn _].
           apply Hn. fold (nums l). apply in_nums. split; [done|]. eauto.
Qed.

Lemma distinct_loose l : distinct l -> loose l.
Proof.
  intros (D1 & D2 & D3). split; [|split; [|done]].
  - eapply List.Forall_impl; [|exact D1]. cbn. intros. lia.
  - apply List.NoDup_filter. done.
Qed.

Lemma filter_none {A} (f : A -> bool) l : Forall (fun x => f x = false) l -> List.filter f l = [].
Proof. induction 1 as [|x l E H IH]; [done|]. cbn. by rewrite E. Qed.

Lemma loose_distinct l : loose l -> (forall x, In x l -> numbered x) -> distinct l.
Proof.
  intros (D1 & D2 & D3) Hn. split; [|split; [|done]].
  - apply List.Forall_forall. intros x Hx. eapply List.Forall_forall in D1; [|exact Hx]. specialize (Hn x Hx).
    unfold numbered in Hn. lia.
  - replace (map c_slot l) with (nums l); [done|]. clear D1 D2 D3. unfold nums. induction l as [|x l IH]; [done|]. cbn [map List.filter].
    destruct (N.eqb_spec (c_slot x) U32_MAX) as [E|E]; [by destruct (Hn x); [left|]|]. cbn [negb]. f_equal. apply IH.
    intros y Hy. apply Hn. by right.
Qed.

Lemma Forall2_same_prefix l1 : forall l2 (R : cslot -> cslot -> Prop) l,
  Forall2 R (l1 ++ l2) l -> (forall x y, In x l1 -> R x y -> y = x) -> exists l2', l = l1 ++ l2' /\ Forall2 R l2 l2'.
Proof.
  induction l1 as [|x l1 IH]; intros l2 R l H Hid; cbn in *.
  - exists l. done.
  - inversion H as [|? y ? l' H1 H2]; subst. destruct (IH l2 R l' H2) as (l2' & -> & H3); [auto|].
    exists l2'. rewrite (Hid x y); auto.
Qed.

Lemma fix_spec checks l : loose l -> next_number l + unnumbered l <= U32_MAX ->
  let p := fix_slot_numbers checks l in
  snd p = Ok tt /\ distinct (fst p) /\
  Forall2 (fun x y => storage y = storage x /\ (numbered x -> y = x)) l (fst p).
Proof.
  intros L Hroom. assert (L0 := L). destruct L as (L1 & L2 & L3). unfold fix_slot_numbers.
  destruct (existsb (fun x => c_slot x =? U32_MAX) l) eqn:Ex.
  - destruct (next_number_ge l 0) as (_ & N2 & _).
    destruct (give_numbers_spec checks l (next_number l) L1 N2 L2 Hroom) as (A1 & A2 & A3 & A4). cbv zeta.
    set (p := give_numbers checks l (next_number l)) in *. split; [done|]. split.
    + split; [|split; [done|by rewrite A2]]. apply List.Forall_forall. intros y Hy.
      destruct (Forall2_r _ _ _ _ A3 Hy) as (a & Ha & B1 & B2 & _).
      eapply List.Forall_forall in L1; [|exact Ha]. cbn in L1.
      destruct (N.eq_dec (c_slot a) U32_MAX) as [Ea|Ea].
      * apply B2. unfold numbered. tauto.
      * rewrite (B1 Ea). lia.
    + eapply Forall2_impl; [exact A3|]. intros a b (B1 & _ & B3). done.
  - cbn. split; [done|]. split.
    + apply loose_distinct; [done|]. intros x Hx E. apply N.eqb_eq in E.
      assert (existsb (fun x => c_slot x =? U32_MAX) l = true) by (apply existsb_exists; eauto). congruence.
    + clear. induction l; constructor; done.
Qed.

Lemma unnumbered_app a b : unnumbered (a ++ b) = unnumbered a + unnumbered b.
Proof. unfold unnumbered. rewrite filter_app, app_length. lia. Qed.
Lemma unnumbered_distinct l : distinct l -> unnumbered l = 0.
Proof.
  intros (D & _). unfold unnumbered. rewrite filter_none; [done|]. eapply List.Forall_impl; [|exact D]. cbn.
  intros x Hx. apply N.eqb_neq. lia.
Qed.

(* ---- the property ---- *)

(* When the merge succeeds, the slots that were there are there unchanged and first, every slot of the new
   configuration is there, no two slots share a number or a storage, and no added slot has a number that was in use;
   provided the numbers that are left suffice. *)
Theorem C31_merged_partial : forall checks run new run',
  distinct run -> fits new -> room run new ->
  merge checks run new = (run', Ok tt) ->
  distinct run' /\
  (exists added, run' = run ++ added /\
     forall y, In y added -> ~ In (c_slot y) (map c_slot run) /\ exists x, In x new /\ storage x = storage y /\
                                                          (numbered x -> y = x)) /\
  (forall x, In x new -> present x run').
Proof.
  intros checks run new run' D Fn (R0 & R1) H. unfold merge in H.
  destruct (add_new_spec new run (distinct_loose _ D) Fn) as (A1 & (ext & A2 & A3 & A4) & A5). cbv zeta in A1, A2, A5, H.
  destruct (add_new run new) as [l r]. cbn [fst snd] in *. subst l. destruct r as [[]|]; [|discriminate].
  assert (Hroom : next_number (run ++ ext) + unnumbered (run ++ ext) <= U32_MAX).
  { rewrite unnumbered_app, (unnumbered_distinct run D).
    destruct (next_number_ge (run ++ ext) 0) as (_ & _ & [E|(x & X1 & X2 & X3)]).
    - unfold next_number. rewrite E. lia.
    - assert (In x (run ++ new)).
      { apply in_app_or in X1. apply in_or_app. destruct X1; [by left|]. right. auto. }
      specialize (R1 x H0 X2). unfold next_number. rewrite X3. lia. }
  destruct (fix_spec checks _ A1 Hroom) as (B1 & B2 & B3). rewrite H in B1, B2, B3. cbn [fst snd] in *.
  destruct (Forall2_same_prefix _ _ _ _ B3) as (added & -> & B4).
  { intros x y Hx [_ Hy]. apply Hy. destruct D as (D & _). eapply List.Forall_forall in D; [|exact Hx].
    unfold numbered. cbn in D. lia. }
  split; [done|]. split.
  - exists added. split; [done|]. intros y Hy. split.
    + intros Hin. destruct B2 as (_ & Hnd & _). rewrite map_app in Hnd.
      apply in_map_iff in Hin as (x & X1 & X2). apply in_split in Hy as (l1 & l2 & ->).
      rewrite map_app in Hnd. cbn [map] in Hnd. rewrite app_assoc in Hnd. apply NoDup_remove_2 in Hnd.
      apply Hnd. rewrite <-X1. rewrite <-app_assoc. apply in_or_app. left. by apply in_map.
    + destruct (Forall2_r _ _ _ _ B4 Hy) as (a & Ha & C1 & C2).
      exists a. split; [auto|]. done.
  - intros x Hx. destruct (A5 eq_refl x Hx) as (y & Y1 & Y2 & Y3). destruct (Forall2_l _ _ _ _ B3 Y1) as (z & Z1 & Z2 & Z3). exists z. split; [done|]. split; [congruence|]. intros Hnum. specialize (Y3 Hnum).
    rewrite Z3; [done|]. unfold numbered in *. congruence.
Qed.

(* A merge that is refused keeps the slots that were there, in order and unchanged. *)
Theorem C31_refused : forall checks run new run' e,
  distinct run -> fits new -> merge checks run new = (run', Err e) -> e <> RV_PANIC ->
  exists added, run' = run ++ added /\ (forall y, In y added -> In y new) /\ List.NoDup (map storage run').
Proof.
  intros checks run new run' e D Fn H He. unfold merge in H.
  destruct (add_new_spec new run (distinct_loose _ D) Fn) as (A1 & (ext & A2 & A3 & A4) & A5). cbv zeta in A1, A2, A5, H.
  destruct (add_new run new) as [l r]. cbn [fst snd] in *. subst l. destruct r as [[]|e'].
  - unfold fix_slot_numbers in H. destruct (existsb _ _); [|discriminate].
    exfalso. assert (X : forall l n, snd (give_numbers checks l n) = Err e -> e = RV_PANIC).
    { clear. induction l as [|x l IH]; intros n; cbn [give_numbers]; [intros [=]|].
      destruct (c_slot x =? U32_MAX); [destruct (n =? U32_MAX); [destruct checks|]|]; cbn [snd]; eauto.
      intros X; injection X as <-; done. }
    apply He. eapply X. rewrite H. done.
  - injection H as <- <-. exists ext. split; [done|]. split; [done|]. apply A1.
Qed.

(* ---- every history of calls ---- *)
Lemma give_numbers_loose l : forall n,
  loose l -> (forall x, In x l -> numbered x -> c_slot x < n) -> n <= U32_MAX ->
  let p := give_numbers true l n in
  loose (fst p) /\ map storage (fst p) = map storage l /\
  (forall y, In y (fst p) -> numbered y -> In y l \/ n <= c_slot y).
Proof.
  induction l as [|x l IH]; intros n L Hlt Hn; cbn [give_numbers].
  - cbn. split; [done|]. split; [done|]. intros y [].
  - assert (Hlt' : forall y, In y l -> numbered y -> c_slot y < n) by (intros y Hy; apply Hlt; by right).
    destruct L as (L1 & L2 & L3). assert (L1' := L1). apply List.Forall_cons_iff in L1 as [Hx Hf].
    assert (L3' := L3). cbn [map] in L3. inversion L3 as [|? ? M1 M2]; subst.
    unfold nums in L2. cbn [map List.filter] in L2.
    destruct (N.eqb_spec (c_slot x) U32_MAX) as [E|E]; cbn [negb] in L2.
    + destruct (N.eqb_spec n U32_MAX) as [E'|E'].
      * cbn [fst]. rewrite E', <-E. destruct x as [xa xb xc xd]. cbn [with_slot c_slot c_dbtype c_dbargs c_rest].
        split; [|split; [done|by left]].
        split; [done|]. split; [|done]. unfold nums. cbn [map List.filter c_slot]. cbn [c_slot] in E.
        rewrite E, N.eqb_refl. done.
      * destruct (IH (n + 1)) as (A1 & A2 & A3).
        { done. } { intros y Hy Hnum. specialize (Hlt' y Hy Hnum). lia. } { lia. }
        cbn [fst]. destruct A1 as (B1 & B2 & B3). split; [split; [|split]|split].
        -- constructor; [cbn [with_slot c_slot]; lia|done].
        -- unfold nums. cbn [map List.filter with_slot c_slot]. assert (E2 := E'). apply N.eqb_neq in E2. rewrite E2.
           cbn [negb]. constructor; [|done]. fold (nums (fst (give_numbers true l (n + 1)))).
           intros Hin. apply in_nums in Hin as (_ & y & Y1 & Y2).
           destruct (A3 y Y1) as [Hy|Hy]; [unfold numbered; congruence| |lia].
           specialize (Hlt' y Hy). unfold numbered in Hlt'. rewrite Y2 in Hlt'. specialize (Hlt' E'). lia.
        -- cbn [map]. rewrite A2. done.
        -- cbn [map]. rewrite A2. done.
        -- intros y [<-|Hy] Hnum; [right; cbn [with_slot c_slot]; lia|].
           destruct (A3 y Hy Hnum); [left; by right|right; lia].
    + inversion L2 as [|? ? N1 N2]; subst. destruct (IH n) as (A1 & A2 & A3).
      { done. } { done. } { done. }
      cbn [fst]. destruct A1 as (B1 & B2 & B3). split; [split; [|split]|split].
      -- constructor; done.
      -- unfold nums. cbn [map List.filter]. assert (E2 := E). apply N.eqb_neq in E2. rewrite E2. cbn [negb].
         constructor; [|done]. fold (nums (fst (give_numbers true l n))). intros Hin.
         apply in_nums in Hin as (_ & y & Y1 & Y2). destruct (A3 y Y1) as [Hy|Hy]; [unfold numbered; congruence| |].
         ++ apply N1. apply in_nums. split; [done|]. eauto.
         ++ assert (c_slot x < n) by (apply Hlt; [by left|done]). lia.
      -- cbn [map]. rewrite A2. done.
      -- cbn [map]. by rewrite A2.
      -- intros y [<-|Hy] Hnum; [left; by left|]. destruct (A3 y Hy Hnum); [left; by right|by right].
Qed.

Lemma next_number_le l : fits l -> next_number l <= U32_MAX.
Proof.
  intros Hf. destruct (next_number_ge l 0) as (_ & _ & [E|(x & X1 & X2 & X3)]); unfold next_number.
  - rewrite E. lia.
  - rewrite X3. eapply List.Forall_forall in Hf; [|exact X1]. cbn in Hf. unfold numbered in X2. lia.
Qed.

Lemma fix_loose l : loose l -> loose (fst (fix_slot_numbers true l)).
Proof.
  intros L. unfold fix_slot_numbers. destruct (existsb _ l); [|done].
  apply give_numbers_loose; [done| |apply next_number_le, L].
  destruct (next_number_ge l 0) as (_ & N2 & _). exact N2.
Qed.
Lemma merge_loose run new : loose run -> fits new -> loose (fst (merge true run new)).
Proof.
  intros L Fn. destruct (add_new_spec new run L Fn) as (A1 & _). unfold merge. cbv zeta in *.
  destruct (snd (add_new run new)); [|done]. apply fix_loose. done.
Qed.

Lemma single_loose s : c_slot s <= U32_MAX -> loose [s].
Proof.
  intros H. split; [constructor; [done|constructor]|]. split.
  - unfold nums. cbn [map List.filter]. destruct (c_slot s =? U32_MAX); cbn [negb]; constructor; [intros []|constructor].
  - cbn [map]. constructor; [intros []|constructor].
Qed.
Lemma nil_loose : loose [].
Proof. split; [constructor|]. split; constructor. Qed.
Lemma legacy_loose n : loose (from_legacy n).
Proof.
  unfold from_legacy. destruct (ends_with _ n); [|apply nil_loose]. apply single_loose. cbn [c_slot]. lia.
Qed.

(* Whatever sequence of C_Initialize and C_Finalize calls is made, with whatever arguments, no two slots of the running
   configuration have the same storage, and no two have the same number; for a build with overflow checks and
   configuration files that each list every storage and number once. *)
Theorem C31_history : forall F l,
  (forall name c, F name = Ok c -> fits c /\ List.NoDup (nums c) /\ List.NoDup (map storage c)) ->
  List.NoDup (map storage (conf_run F true l)) /\ List.NoDup (nums (conf_run F true l)).
Proof.
  intros F l HF. cut (loose (conf_run F true l)); [intros (_ & ? & ?); done|].
  unfold conf_run. assert (G : forall run, loose run -> loose (fold_left (conf_step F true) l run)).
  { induction l as [|c l IH]; intros run L; [done|]. cbn [fold_left]. apply IH. clear IH.
    destruct c as [name args|]; cbn [conf_step]; [|apply nil_loose].
    unfold init_config. cbv zeta.
    set (p := match args with None => (run, Ok tt) | Some a => from_init_args F true run a end).
    assert (Lp : loose (fst p)).
    { subst p. destruct args as [a|]; [|done]. unfold from_init_args.
      destruct (conf_from_args F a) as [new|] eqn:Hc; [|done]. apply merge_loose; [done|].
      unfold conf_from_args in Hc. destruct (String.prefix _ a); [|destruct (contains _ a); injection Hc as <-].
      - apply HF in Hc as (? & _). done.
      - constructor; [cbn [c_slot]; lia|constructor].
      - apply legacy_loose. }
    destruct (snd p); [|done]. destruct (fst p) eqn:Ep; [|done].
    unfold default_config. destruct name as [n|]; cbn [rbind]; [|done]. destruct (F n) as [c|] eqn:Hn; cbn [fst].
    - apply HF in Hn. done.
    - apply fix_loose, legacy_loose. }
  apply G, nil_loose.
Qed.

(* ---- exceptions found ---- *)
Definition sql (n : N) (f : string) : cslot := CSlot n (Some "sqlite") (Some f) [].
Definition no_file (_ : string) : result (list cslot) := Err CKR_GENERAL_ERROR.

(* Without overflow checks: with slot 4294967294 in use the next two storages get the number 4294967295, which stands
   for "no number", and 0, which is in use. *)
Theorem C31_limit_refuted : exists run args1 args2,
  distinct run /\
  let p1 := from_init_args no_file false run args1 in
  let p2 := from_init_args no_file false (fst p1) args2 in
  snd p1 = Ok tt /\ map c_slot (fst p1) = [0; 4294967294; 4294967295] /\
  snd p2 = Ok tt /\ map c_slot (fst p2) = [0; 4294967294; 4294967295; 0].
Proof.
  exists [sql 0 "a.sql"; sql 4294967294 "b.sql"], "c.sql", "d.sql". split.
  - split; [repeat constructor|]. split; vm_compute; repeat constructor; cbn; intuition discriminate.
  - cbv zeta. split_and!; vm_compute; reflexivity.
Qed.
(* With overflow checks the call panics. *)
Theorem C31_panic_refuted : exists run args,
  distinct run /\ snd (from_init_args no_file true run args) = Err RV_PANIC.
Proof.
  exists [sql 4294967294 "b.sql"], "c.sql". split; [|vm_compute; reflexivity].
  split; [repeat constructor|]. split; vm_compute; repeat constructor; cbn; intuition discriminate.
Qed.
(* The default configuration file is taken as it is: two slots with one storage, or with one number. *)
Theorem C31_file_refuted : exists F,
  let l := conf_run F true [CInit (Ok "kryoptic.conf") None] in
  map storage l = [(Some "sqlite", Some "a.sql"); (Some "sqlite", Some "a.sql"); (Some "sqlite", Some "b.sql")] /\
  map c_slot l = [0; 1; 1].
Proof. exists (fun _ => Ok [sql 0 "a.sql"; sql 1 "a.sql"; sql 1 "b.sql"]). cbv zeta. split; vm_compute; reflexivity. Qed.
(* A configuration that is refused has been merged in part, and what was merged has not been given a number. *)
Theorem C31_refused_refuted : exists F run args,
  distinct run /\
  let p := from_init_args F true run args in
  snd p = Err CKR_ARGUMENTS_BAD /\ map c_slot (fst p) = [0; 7; 4294967295].
Proof.
  exists (fun _ => Ok [sql 7 "b.sql"; sql 4294967295 "c.sql"; sql 8 "a.sql"]), [sql 0 "a.sql"], "kryoptic_conf=/etc/k.conf".
  split.
  - split; [repeat constructor|]. split; vm_compute; repeat constructor; cbn; intuition discriminate.
  - cbv zeta. split; vm_compute; reflexivity.
Qed.

(* ---- a case ---- *)
Definition run31 : list cslot := [sql 0 "a.sql"; sql 5 "b.sql"].
Definition new31 : list cslot := [sql 5 "b.sql"; sql U32_MAX "c.sql"; sql U32_MAX "a.sql"; sql 3 "d.sql"].
Example C31_case : distinct run31 /\ fits new31 /\ room run31 new31 /\
  merge false run31 new31 = ([sql 0 "a.sql"; sql 5 "b.sql"; sql 6 "c.sql"; sql 3 "d.sql"], Ok tt).
Proof.
  split; [|split; [|split]].
  - split; [repeat constructor|]. split; vm_compute; repeat constructor; cbn; intuition discriminate.
  - repeat constructor; vm_compute; discriminate.
  - split; [vm_compute; discriminate|]. intros x Hx Hn. change (unnumbered new31) with 2. cbn in Hx.
    repeat destruct Hx as [<-|Hx]; try (by destruct Hn); try (vm_compute; reflexivity); done.
  - vm_compute. reflexivity.
Qed.
