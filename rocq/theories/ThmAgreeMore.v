(* C54, C35: what key agreement and HKDF refuse. *)
From Verif Require Import Base Pkcs11 Attr Obj Monad Factory Tables Create Der DerSpec DerFacts Agree AgreeSpec ThmAgree Hkdf HkdfSpec ThmHkdf.
Local Open Scope N_scope.

(* Shared data is for the derivation functions: without one there is none, by pointer or by length. *)
Theorem C54_shared_refused mech public shared o : ecdh_new mech CKD_NULL public shared = Ok o <-> shared = Null 0 /\ ecdh_new mech CKD_NULL public (Null 0) = Ok o.
Proof.
  unfold ecdh_new. rewrite N.eqb_refl. split.
  - destruct shared as [n|b]; cbn [a_null a_empty negb orb andb]; [|done]. destruct (N.eqb_spec n 0) as [->|]; done.
  - by intros [-> H].
Qed.
(* More bytes than the secret has are refused. *)
Theorem C54_long_refused (G : group) (L : group_laws G) mech p shared o priv fs tmpl f n :
  get_obj_factory_from_key_template fs tmpl = Ok f -> value_len tmpl = Ok (Some n) -> g_len G < n ->
  (ecdh_new mech CKD_NULL p shared = Ok o -> snd (ecdh_derive G priv fs tmpl o) = Err CKR_TEMPLATE_INCONSISTENT) /\
  (forall public, public <> [] -> ffdh_derive G public priv fs tmpl = Err CKR_TEMPLATE_INCONSISTENT).
Proof.
  intros Hf Hv Hn. assert (raw_max G = g_len G) as Hr by apply (gl_bits _ L). split.
  - unfold ecdh_new. destruct (_ && _); [done|]. destruct (_ || _); [done|]. intros [= <-]. unfold ecdh_derive. cbv [Monad.mbind gets ensure modify lift ret fail id].
    cbn [negb h_final h_mech h_kdf h_public h_shared]. rewrite Hf. unfold ecdh_value. cbn [h_kdf]. unfold ecdh_len. rewrite Hv. cbn [rbind]. rewrite N.eqb_refl, Hr. cbn [andb].
    rewrite (proj2 (N.ltb_lt _ _) Hn). done.
  - intros public Hp. unfold ffdh_derive. destruct public as [|x l]; [done|]. rewrite (proj2 (N.eqb_neq (blen (x :: l)) 0)) by (unfold blen; cbn [length]; lia).
    rewrite Hf. cbn [rbind]. unfold ffdh_value, ffdh_len. rewrite Hv. cbn [rbind]. by rewrite (proj2 (N.ltb_lt _ _) Hn).
Qed.
(* One derivation for one set of parameters, whatever came of it. *)
Theorem C54_once (G : group) o priv fs tmpl priv' fs' tmpl' :
  snd (ecdh_derive G priv' fs' tmpl' (fst (ecdh_derive G priv fs tmpl o))) = Err CKR_OPERATION_NOT_INITIALIZED.
Proof.
  unfold ecdh_derive. cbv [Monad.mbind gets ensure modify lift ret fail id]. destruct (h_final o) eqn:Ho; cbn [negb fst snd]; [by rewrite Ho|].
  destruct (get_obj_factory_from_key_template fs tmpl) as [f|]; cbn [fst snd h_final negb]; [|done]. by destruct (ecdh_value G o priv (f_kind f) tmpl).
Qed.
Theorem C35_hkdf_once kdf o key n key' n' : snd (hkdf_derive kdf (fst (hkdf_derive kdf o key n)) key' n') = Err CKR_OPERATION_NOT_INITIALIZED.
Proof. unfold hkdf_derive. destruct (h_over o) eqn:Ho; cbn [fst]; [by rewrite Ho|]. done. Qed.

(* A curve with secrets of two bytes: three are refused, two are not. *)
Example C54_case_refused : exists o, ecdh_new CKM_ECDH1_DERIVE CKD_NULL (Area [0; 9]) (Null 0) = Ok o /\
  ecdh_new CKM_ECDH1_DERIVE CKD_NULL (Area [0; 9]) (Null 1) = Err CKR_MECHANISM_PARAM_INVALID /\
  is_ok (snd (ecdh_derive (products 2) [0; 7] all_factories (agree_tmpl (Some 2)) o)) = true /\
  snd (ecdh_derive (products 2) [0; 7] all_factories (agree_tmpl (Some 3)) o) = Err CKR_TEMPLATE_INCONSISTENT /\
  ffdh_derive (products 2) [0; 9] [0; 7] all_factories (agree_tmpl (Some 3)) = Err CKR_TEMPLATE_INCONSISTENT.
Proof. eexists. split; [reflexivity|]. split_and!; vm_compute; reflexivity. Qed.
