(* C51, continued: no sequence of calls makes a verification succeed unless the key accepts the signature for the data that was
   taken; what is refused for its length. *)
From Verif Require Import MsgFacts.
From Verif Require Export ThmSig.
Local Open Scope N_scope.
Local Opaque sig_of_der der_of_sig hash_entry. Local Arguments MAX_BUFFER_LEN : simpl never. Local Arguments blen : simpl never.
Local Arguments N.ltb : simpl never. Local Arguments N.leb : simpl never. Local Arguments N.eqb : simpl never. Local Arguments N.add : simpl never.
Local Arguments N.mul : simpl never. Local Arguments N.to_nat : simpl never.

Definition is_verify (k : scall) : bool := match k with VOne _ _ | VUpdate _ | VFinal _ => true | _ => false end.
(* The pieces that were taken: those of the C_VerifyUpdate calls that answered CKR_OK *)
Fixpoint took (ks : list scall) (rs : list (result bytes)) : bytes :=
  match ks, rs with
  | VUpdate d :: ks, Ok _ :: rs => d ++ took ks rs
  | _ :: ks, _ :: rs => took ks rs
  | _, _ => []
  end.

Definition stu (sc : scheme) (n max : N) (q : pq) (lg pr : bool) (coin : N) (cs cset os : option bytes) (u : bool) (D : option bytes) : sigop :=
  {| o_scheme := sc; o_len := n; o_max := max; o_final := false; o_use := u;
     o_ctx := {| c_sign := false; c_legacy := negb (match sc with RsaRaw _ | EcRaw => true | _ => false end) && lg; c_updates := upd sc pr;
                 c_data := if upd sc pr || negb (in_ctx sc) then None else D; c_sig := cs;
                 c_fed := if upd sc pr && in_ctx sc then dflt D else []; c_set := cset; c_coin := coin |};
     o_fed := if in_ctx sc then [] else dflt D; o_sig := os; o_pq := q |}.

Ltac calls_out := cbv [call no_bytes rsa_update ec_update ed_update pq_update rsa_verify_final ec_verify_final ed_verify_final pq_verify_final
   rsa_verify ec_verify ed_verify pq_verify pq_verify_hash unused running on_ctx os_update os_verify_final os_verify store_data raise lift ec_form Monad.mbind gets ensure modify ret skip id fail]; cbn.

Section SOUND.
Context (K : keyalg) (sc : scheme) (n max : N) (q : pq) (lg pr : bool) (coin : N) (cs cset os : option bytes).
Notation ST := (stu sc n max q lg pr coin cs cset os).

Lemma m_prime_is h m : m_prime q h = Ok m -> m = covered PqHashed q h.
Proof using Type.
  unfold m_prime, covered, oid. fold (context q). rewrite sha_entry. destruct (255 <? _); [discriminate|].
  destruct (sha_info (q_mech q)) as [[x l]|]; [|discriminate]. destruct (negb _); [discriminate|]. intros E. injection E as <-. reflexivity.
Qed.

Lemma upd_step u D d : let '(o, r) := call K (VUpdate d) (ST u D) in
  match r with Ok _ => exists u', o = ST u' (Some (dflt D ++ d)) /\ u' = true | Err _ => o_final o = true \/ exists u', o = ST u' D /\ (u = true -> u' = true) end.
Proof using Type.
  destruct sc as [[]| | | | | | |], pr, u, D as [b|]; calls_out.
  all: repeat match goal with |- context [?a <? ?b] => destruct (a <? b); cbn end.
  all: eauto 6.
Qed.

(* where the signature comes from *)
Definition from (sig : option bytes) (b : bytes) : Prop :=
  match sig with Some s => conv sc n s b | None => cs = Some b \/ cset = Some b \/ os = Some b end.
Lemma final_sound u D sig o x : call K (VFinal sig) (ST u D) = (o, Ok x) -> exists b, from sig b /\ k_verify K (covered sc q (dflt D)) b = true.
Proof using Type.
  intros E. unfold from, conv. revert E.
  destruct sc as [[]| | | | | | |], pr, lg, u, D as [d|], sig as [s|]; calls_out; cbn [ec upd in_ctx covered dflt] in *.
  all: try (intros E; discriminate E).
  all: repeat match goal with |- context [negb (?a =? ?b)] => destruct (N.eqb_spec a b); cbn end; try (intros E; discriminate E).
  all: repeat match goal with |- context [der_of_sig ?a] => destruct (der_of_sig a) eqn:?; cbn end; try (intros E; discriminate E).
  all: repeat match goal with |- context [m_prime q ?a] => let Hm := fresh "Hm" in destruct (m_prime q a) eqn:Hm; cbn; [apply m_prime_is in Hm|] end; try (intros E; discriminate E).
  all: try (destruct cs as [c|] eqn:?; cbn); try (destruct cset as [c'|] eqn:?; cbn); try (destruct os as [c''|] eqn:?; cbn); try (intros E; discriminate E).
  all: try match goal with |- context [k_verify K ?a ?b] => let V := fresh "V" in destruct (k_verify K a b) eqn:V; cbn; [intros _; exists b|intros E; discriminate E] end.
  all: subst; eauto 8.
Qed.

Lemma final_after u D sig : let o := fst (call K (VFinal sig) (ST u D)) in o_final o = true \/ u = false /\ o = ST u D.
Proof using Type.
  cbv zeta. destruct sc as [[]| | | | | | |], pr, lg, u, D as [d|], sig as [s|]; calls_out; cbn [ec upd in_ctx covered dflt] in *; try (by right); left; try reflexivity.
  all: repeat match goal with |- context [negb (?a =? ?b)] => destruct (N.eqb_spec a b); cbn end; try reflexivity.
  all: repeat match goal with |- context [der_of_sig ?a] => destruct (der_of_sig a) eqn:?; cbn end; try reflexivity.
  all: repeat match goal with |- context [m_prime q ?a] => destruct (m_prime q a); cbn end; try reflexivity.
  all: try (destruct cs as [c|] eqn:?; cbn); try (destruct cset as [c'|] eqn:?; cbn); try (destruct os as [c''|] eqn:?; cbn); try reflexivity.
  all: try match goal with |- context [k_verify K ?a ?b] => destruct (k_verify K a b); cbn end; reflexivity.
Qed.
(* one call = a piece and the end, for the families with pieces *)
Lemma one_split d sig o1 r1 : pieces sc = true -> call K (VUpdate d) (ST false None) = (o1, r1) ->
  call K (VOne d sig) (ST false None) = match r1 with Ok _ => call K (VFinal sig) o1 | Err e => (o1, Err e) end.
Proof using Type.
  intros Hp. destruct sc; try discriminate Hp; destruct pr; calls_out.
  all: repeat match goal with |- context [?a <? ?b] => destruct (a <? b); cbn end.
  all: intros E; injection E as <- <-; reflexivity.
Qed.
Lemma one_used D d sig : let '(o, r) := call K (VOne d sig) (ST true D) in is_ok r = false /\ o = ST true D.
Proof using Type. destruct sc as [[]| | | | | | |]; calls_out; split; reflexivity. Qed.
Lemma one_whole d sig : pieces sc = false -> let '(o, r) := call K (VOne d sig) (ST false None) in o_final o = true /\
  (is_ok r = true -> exists b, from sig b /\ k_verify K (covered sc q d) b = true).
Proof using Type.
  intros Hp. unfold from, conv. destruct sc as [[]| | | | | | |]; try discriminate Hp; destruct pr, lg, sig as [s|]; calls_out; cbn [ec upd in_ctx covered dflt] in *.
  all: try match goal with |- context [?a <=? ?b] => destruct (a <=? b); cbn end; try (split; [reflexivity|intros E; discriminate E]).
  all: repeat match goal with |- context [?a =? ?b] => destruct (N.eqb_spec a b); cbn end; try (split; [reflexivity|intros E; discriminate E]).
  all: repeat match goal with |- context [der_of_sig ?a] => destruct (der_of_sig a) eqn:?; cbn end; try (split; [reflexivity|intros E; discriminate E]).
  all: repeat match goal with |- context [m_prime q ?a] => let Hm := fresh "Hm" in destruct (m_prime q a) eqn:Hm; cbn; [apply m_prime_is in Hm|] end; try (split; [reflexivity|intros E; discriminate E]).
  all: try (destruct cs as [c|] eqn:?; cbn); try (destruct os as [c''|] eqn:?; cbn); try (split; [reflexivity|intros E; discriminate E]).
  all: try match goal with |- context [k_verify K ?a ?b] => let V := fresh "V" in destruct (k_verify K a b) eqn:V; cbn; [split; [reflexivity|intros _; exists b]|split; [reflexivity|intros E; discriminate E]] end.
  all: subst; eauto 8.
Qed.

Definition inv (D : bytes) (o : sigop) : Prop := o_final o = true \/ exists u D', o = ST u D' /\ dflt D' = D /\ (u = false -> D' = None).
Lemma over k o : is_verify k = true -> o_final o = true -> let '(o', r) := call K k o in o_final o' = true /\ is_ok r = false.
Proof using Type.
  clear. intros Hk Hf. destruct o as [s ? ? ? u c ? ? ?]. cbn in Hf. subst. destruct k; try discriminate Hk; destruct s, u; calls_out; split; reflexivity.
Qed.
Lemma step k o D : is_verify k = true -> inv D o -> let '(o', r) := call K k o in
  inv (match k, r with VUpdate d, Ok _ => D ++ d | _, _ => D end) o' /\
  (is_ok r = true -> match k with
    | VFinal sig => exists b, from sig b /\ k_verify K (covered sc q D) b = true
    | VOne d sig => exists b, from sig b /\ k_verify K (covered sc q d) b = true
    | _ => True end).
Proof using Type.
  intros Hk [Hf|(u & D' & -> & HD & Hu)].
  { pose proof (over k o Hk Hf) as X. destruct (call K k o) as [o' r]. destruct X as [X Y]. split; [by left|]. rewrite Y. discriminate. }
  destruct k as [| | |d sig|d|sig]; try discriminate Hk.
  - destruct u.
    + pose proof (one_used D' d sig) as X. destruct (call K _ _) as [o' r]. destruct X as [X ->]. split; [right; by exists true, D'|]. rewrite X. discriminate.
    + rewrite (Hu eq_refl) in *. cbn [dflt] in HD. subst D. destruct (pieces sc) eqn:Hp.
      * pose proof (upd_step false None d) as U. destruct (call K (VUpdate d) _) as [o1 r1] eqn:E1.
        rewrite (one_split d sig o1 r1 Hp E1). destruct r1 as [x|e].
        -- destruct U as (u' & -> & ->). cbn [dflt app]. pose proof (final_after true (Some d) sig) as A. destruct (call K (VFinal sig) _) as [o' r] eqn:E2. cbn [fst] in A.
           assert (F : o_final o' = true) by (destruct A as [A|[A _]]; [done|discriminate A]).
           split; [by left|]. intros Ok. destruct r as [x'|]; [|discriminate Ok]. destruct (final_sound _ _ _ _ _ E2) as (b & B). by exists b.
        -- split; [|discriminate]. destruct U as [U|(u' & -> & _)]; [by left|]. right. exists u', None. split; [done|]. split; [done|]. done.
      * pose proof (one_whole d sig Hp) as W. destruct (call K _ _) as [o' r]. destruct W as [W1 W2]. split; [by left|done].
  - pose proof (upd_step u D' d) as U. destruct (call K _ _) as [o' r]. split; [|done]. destruct r as [x|e].
    + destruct U as (u' & -> & ->). right. exists true, (Some (dflt D' ++ d)). cbn [dflt]. rewrite HD. done.
    + destruct U as [U|(u' & -> & U)]; [by left|]. right. exists u', D'. split; [done|]. split; [done|]. intros ->. apply Hu. destruct u; [|done]. by specialize (U eq_refl).
  - pose proof (final_after u D' sig) as A. pose proof (final_sound u D' sig) as S. destruct (call K _ _) as [o' r]. cbn [fst] in A. split.
    + destruct A as [A|[_ ->]]; [by left|]. right. by exists u, D'.
    + intros Ok. destruct r as [x|]; [|discriminate Ok]. rewrite <- HD. by apply (S o' x).
Qed.
Lemma run ks : forall o D, Forall (fun k => is_verify k = true) ks -> inv D o -> let '(o', rs) := calls K ks o in inv (D ++ took ks rs) o'.
Proof using Type.
  induction ks as [|k ks IH]; intros o D Hv I; cbn [calls]; [by rewrite app_nil_r|].
  inversion Hv as [|? ? Hk Hks]; subst. pose proof (step k o D Hk I) as S. destruct (call K k o) as [o1 r]. destruct S as [S _].
  specialize (IH o1 _ Hks S). destruct (calls K ks o1) as [o2 rs]. cbn [took].
  destruct k, r; try discriminate Hk; cbn [took]; rewrite ?app_assoc; exact IH.
Qed.
End SOUND.

Lemma new_from sc n max q lg pr coin sig0 o : new_op sc n max q false lg pr coin sig0 = Ok o ->
  exists cs cset os, o = stu sc n max q lg pr coin cs cset os false None /\
    forall b, cs = Some b \/ cset = Some b \/ os = Some b -> exists s, sig0 = Some s /\ conv sc n s b.
Proof.
  destruct sig0 as [sig|]; intros E.
  - unfold new_op, conv in *. destruct sc as [[]| | | | | | |]; cbn [ec]; try (destruct (N.eqb_spec (blen sig) n) as [Ln|Ln]; cbn [negb] in E; [|discriminate E]);
      try (destruct (der_of_sig sig) as [b|] eqn:Db; cbn [rbind] in E; [|discriminate E]);
      destruct pr, lg; cbn in E; injection E as <-; do 3 eexists; (split; [reflexivity|]).
    all: intros x [X|[X|X]]; try discriminate X; exists sig; split; [reflexivity|]; try split; congruence.
  - exists None, None, None. split; [destruct sc, pr; injection E as <-; reflexivity|]. intros b [X|[X|X]]; discriminate X.
Qed.

Section C51.
Context (K : keyalg) (sc : scheme) (n max : N) (q : pq) (Su : suits K sc n).

(* C51.  Whatever calls were made, refused ones among them: a verification that succeeds had a signature, given with the call or before
   the data, and the key accepts it for the data of that call or for the pieces that were taken, no more and no less. *)
Theorem C51_sound lg pr coin sig0 o ks k : new_op sc n max q false lg pr coin sig0 = Ok o -> Forall (fun k => is_verify k = true) ks ->
  let '(o', rs) := calls K ks o in is_ok (snd (call K k o')) = true ->
  match k with
  | VFinal sig => exists s, (sig = Some s \/ sig = None /\ sig0 = Some s) /\ (bytesok s -> accepts K sc q n (took ks rs) s)
  | VOne d sig => exists s, (sig = Some s \/ sig = None /\ sig0 = Some s) /\ (bytesok s -> accepts K sc q n d s)
  | _ => True
  end.
Proof using Su.
  intros E Hv. destruct (new_from _ _ _ _ _ _ _ _ _ E) as (cs & cset & os & -> & G).
  pose proof (run K sc n max q lg pr coin cs cset os ks _ [] Hv (or_intror (ex_intro _ false (ex_intro _ None (conj eq_refl (conj eq_refl (fun _ => eq_refl))))))) as I.
  destruct (calls K ks _) as [o' rs]. cbn [app] in I.
  assert (F : forall sig D, (exists b, from sc n cs cset os sig b /\ k_verify K (covered sc q D) b = true) ->
    exists s, (sig = Some s \/ sig = None /\ sig0 = Some s) /\ (bytesok s -> accepts K sc q n D s)).
  { intros sig D (b & B & V). destruct sig as [s|]; cbn [from] in B.
    - exists s. split; [by left|]. intros Bs. exists b. split; [by apply (conv_form K sc n Su s b Bs)|done].
    - destruct (G b B) as (s & -> & C). exists s. split; [by right|]. intros Bs. exists b. split; [by apply (conv_form K sc n Su s b Bs)|done]. }
  intros Ok. destruct k as [| | |d sig|d|sig]; try exact Logic.I.
  - pose proof (step K sc n max q lg pr coin cs cset os (VOne d sig) o' _ eq_refl I) as S. destruct (call K _ o') as [o2 r]. cbn [snd] in Ok. destruct S as [_ S]. by apply F, S.
  - pose proof (step K sc n max q lg pr coin cs cset os (VFinal sig) o' _ eq_refl I) as S. destruct (call K _ o') as [o2 r]. cbn [snd] in Ok. destruct S as [_ S]. by apply F, S.
Qed.
End C51.

(* C51.  Data of a length the mechanism does not take is refused, when signing; when verifying, longer data, and for a digest any other
   length.  A signature that does not have the length of the mechanism is refused as such: with raw RSA when it is used, with
   C_VerifySignatureInit in all families but EdDSA. *)
Theorem C51_length K sc n max q lg pr coin o m d : new_op sc n max q true lg pr coin None = Ok o -> pieces sc = false -> ~ takes sc max d ->
  snd (call K (SSign d m) o) = Err CKR_DATA_LEN_RANGE.
Proof.
  intros E Hp Ht. rewrite new_plain in E. injection E as <-. destruct sc as [[]| | | | | | |]; try discriminate Hp; cbn [takes] in Ht; try tauto.
  all: cbv [call rsa_sign pq_sign unused on_ctx raise lift Monad.mbind gets ensure modify ret skip id]; cbn.
  - replace (blen d =? max) with false by lia. reflexivity.
  - replace (blen d <=? max) with false by lia. reflexivity.
  - replace (blen d =? max) with false by lia. reflexivity.
Qed.
Theorem C51_verify_length K sc n max q lg pr coin o d sig : new_op sc n max q false lg pr coin None = Ok o ->
  match sc with RsaRaw _ => max < blen d | PqHashed => blen d <> max | _ => False end ->
  snd (call K (VOne d (Some sig)) o) = Err CKR_DATA_LEN_RANGE.
Proof.
  intros E Ht. rewrite new_plain in E. injection E as <-. destruct sc as [[]| | | | | | |]; try contradiction.
  all: cbv [call no_bytes rsa_verify pq_verify unused on_ctx raise lift Monad.mbind gets ensure modify ret skip id]; cbn.
  1,2: replace (blen d <=? max) with false by lia; reflexivity.
  replace (blen d =? max) with false by lia. reflexivity.
Qed.
Theorem C51_signature_length K sc n max q lg pr coin d sig : blen sig <> n ->
  (forall exact o, sc = RsaRaw exact -> new_op sc n max q false lg pr coin None = Ok o -> blen d <= max -> snd (call K (VOne d (Some sig)) o) = Err CKR_SIGNATURE_LEN_RANGE) /\
  (sc <> Ed -> new_op sc n max q false lg pr coin (Some sig) = Err CKR_SIGNATURE_LEN_RANGE).
Proof.
  intros L. split.
  - intros ex o -> E Hd. rewrite new_plain in E. injection E as <-. cbv [call no_bytes rsa_verify unused on_ctx raise lift Monad.mbind gets ensure modify ret skip id]; cbn.
    replace (blen d <=? max) with true by lia. cbn. replace (blen sig =? n) with false by lia. reflexivity.
  - intros He. unfold new_op. replace (blen sig =? n) with false by lia. destruct sc; try reflexivity. by destruct He.
Qed.

(* The hypotheses of the theorems are met: a refused piece among those taken; lengths that are refused. *)
Example C51_case_sound : let ks := [VUpdate [1; 2]; VUpdate (repeat 0 (N.to_nat 1048576)); VOne [9] (Some [9]); VUpdate [3]] in
  let '(o', rs) := calls toy_k ks (toy_op Ed false false false None) in
  rs = [Ok []; Err CKR_TOKEN_RESOURCE_EXCEEDED; Err CKR_OPERATION_NOT_INITIALIZED; Ok []] /\ took ks rs = [1; 2; 3] /\
  exists sig, k_sign toy_k 70 [1; 2; 3] = Some sig /\ is_ok (snd (call toy_k (VFinal (Some sig)) o')) = true.
Proof. vm_compute. split_and!; try reflexivity. eexists. split; reflexivity. Qed.
Example C51_case_length : ~ takes (RsaRaw true) (toy_max (RsaRaw true)) [1; 2; 3] /\
  snd (call toy_k (SSign [1; 2; 3] 4) (toy_op (RsaRaw true) true false false None)) = Err CKR_DATA_LEN_RANGE /\
  snd (call toy_k (VOne [1; 2; 3; 4; 5] (Some [0; 0; 0; 0])) (toy_op (RsaRaw true) false false false None)) = Err CKR_DATA_LEN_RANGE /\
  snd (call toy_k (VOne [1; 2; 3; 4] (Some [0; 0; 0])) (toy_op (RsaRaw true) false false false None)) = Err CKR_SIGNATURE_LEN_RANGE.
Proof. split_and!; try (vm_compute; reflexivity). vm_compute. discriminate. Qed.
