(* HKDF, src/ossl/hkdf.rs (CKM_HKDF_DERIVE, CKM_HKDF_DATA), from the parameters of the mechanism and the objects to the bytes of the
   key.  The size asked for comes from the template (misc.rs:104-165), by default the size of the hash; the object that carries the
   value is that of be_derive in Api.v.  The computation itself is OpenSSL's: an argument of the model, its law is in HkdfSpec.v.
   Sizes are numbers without bound but for the test of 32 bits. *)
From Verif Require Export Kdf Obj Sig.
Local Open Scope N_scope.

(* CK_HKDF_PARAMS.  A pointer is None when null, else what is in memory there.  [hp_size]: the answer of hmac_size (src/hmac.rs:140-147)
   for the hash mechanism, None for INVALID_HASH_SIZE. *)
Record hparams := { hp_extract : N; hp_expand : N; hp_size : option nat; hp_stype : N; hp_salt : option bytes; hp_salt_len : N;
                    hp_info : option bytes; hp_info_len : N }.
(* HkdfMode, ossl/src/derive.rs:81-85 *)
Inductive hmode := HBoth | HExtract | HExpand.
(* HKDFOperation, hkdf.rs:28-54 *)
Record hop := { h_over : bool; h_mode : hmode; h_prflen : nat; h_stype : N; h_salt : option bytes; h_info : option bytes }.
Definition mode_eqb (a b : hmode) : bool := match a, b with HBoth, HBoth | HExtract, HExtract | HExpand, HExpand => true | _, _ => false end.
Definition is_null {A} (x : option A) : bool := match x with None => true | _ => false end.
Definition mem (p : option bytes) (n : N) : bytes := match p with Some b => firstn (N.to_nat n) b | None => [] end.

(* HKDFOperation::new, hkdf.rs:115-201.  bytes_to_slice (misc.rs:66-75) of a null pointer with a length is undefined. *)
Definition hkdf_new (p : hparams) : result hop :=
  let bad := CKR_MECHANISM_PARAM_INVALID in
  check negb ((hp_extract p =? CK_FALSE) && (hp_expand p =? CK_FALSE)) else bad in
  check negb (negb (hp_extract p =? CK_FALSE) && (0 <? hp_salt_len p) && is_null (hp_salt p)) else bad in
  check negb (negb (hp_expand p =? CK_FALSE) && (0 <? hp_info_len p) && is_null (hp_info p)) else bad in
  match hp_size p with
  | None => Err bad
  | Some hlen =>
      let? salt :=
        (if hp_stype p =? CKF_HKDF_SALT_NULL then
           if (0 <? hp_salt_len p) || negb (is_null (hp_salt p)) then Err bad else Ok (Some (repeat 0 hlen))
         else if hp_stype p =? CKF_HKDF_SALT_DATA then
           if (hp_salt_len p =? 0) || is_null (hp_salt p) then Err bad else Ok (Some (mem (hp_salt p) (hp_salt_len p)))
         else if hp_stype p =? CKF_HKDF_SALT_KEY then Ok None
         else if negb (hp_extract p =? CK_FALSE) then Err bad else Ok None) in
      let? info :=
        (if 0 <? hp_info_len p then
           match hp_info p with None => Err RV_NULL_DEREF | Some b => Ok (Some (mem (Some b) (hp_info_len p))) end
         else Ok None) in
      Ok {| h_over := false;
            h_mode := if hp_extract p =? CK_TRUE then if hp_expand p =? CK_TRUE then HBoth else HExtract else HExpand;
            h_prflen := hlen; h_stype := hp_stype p; h_salt := salt; h_info := info |}
  end.

(* HKDFOperation::verify_key, hkdf.rs:63-109 *)
Definition hkdf_verify_key (o : hop) (key : object) (matchlen : nat) : result unit :=
  let? _ :=
    match get_ulong key CKA_CLASS with
    | Err _ => Err CKR_KEY_HANDLE_INVALID
    | Ok c =>
        if c =? CKO_SECRET_KEY then
          match get_ulong key CKA_KEY_TYPE with
          | Err _ => Err CKR_KEY_TYPE_INCONSISTENT
          | Ok kt => if (kt =? CKK_GENERIC_SECRET) || (kt =? CKK_HKDF)
                     then check_key_ops key CKO_SECRET_KEY CK_UNAVAILABLE_INFORMATION CKA_DERIVE
                     else Err CKR_KEY_TYPE_INCONSISTENT
          end
        else if c =? CKO_DATA then
          if mode_eqb (h_mode o) HExpand || (h_stype o =? CKF_HKDF_SALT_NULL) || is_null (h_salt o)
          then Err CKR_MECHANISM_PARAM_INVALID else Ok tt
        else Err CKR_KEY_HANDLE_INVALID
    end in
  if (0 <? matchlen)%nat then
    let keylen := match get_ulong key CKA_VALUE_LEN with
                  | Ok n => n
                  | Err _ => match get_bytes key CKA_VALUE with Ok v => blen v | Err _ => 0 end
                  end in
    if keylen =? 0 then Err CKR_KEY_SIZE_RANGE else Ok tt
  else Ok tt.

(* receives_objects, hkdf.rs:224-236, with one object *)
Definition hkdf_receive (o : hop) (obj : object) : result hop :=
  let? _ := hkdf_verify_key o obj 0 in
  match get_bytes obj CKA_VALUE with
  | Ok s => Ok {| h_over := h_over o; h_mode := h_mode o; h_prflen := h_prflen o; h_stype := h_stype o; h_salt := Some s; h_info := h_info o |}
  | Err _ => Err CKR_KEY_HANDLE_INVALID
  end.

(* derive, hkdf.rs:245-303, with [keysize] from the template; [kdf] is what HkdfDerive (ossl/src/derive.rs:88-178) has OpenSSL compute
   from mode, key, salt, info and length. *)
Definition okdf := hmode -> bytes -> option bytes -> option bytes -> nat -> option bytes.
Definition hkdf_derive (kdf : okdf) (o : hop) (key : object) (keysize : nat) : hop * result bytes :=
  if h_over o then (o, Err CKR_OPERATION_NOT_INITIALIZED) else
  let o := {| h_over := true; h_mode := h_mode o; h_prflen := h_prflen o; h_stype := h_stype o; h_salt := h_salt o; h_info := h_info o |} in
  (o, let? _ := hkdf_verify_key o key (h_prflen o) in
      check negb (is_null (h_salt o) && negb (mode_eqb (h_mode o) HExpand))
        else (if h_stype o =? CKF_HKDF_SALT_KEY then CKR_GENERAL_ERROR else CKR_MECHANISM_PARAM_INVALID) in
      check negb (mode_eqb (h_mode o) HExtract && negb (keysize =? h_prflen o)%nat) else CKR_TEMPLATE_INCONSISTENT in
      check negb ((keysize =? 0)%nat || (2 ^ 32 - 1 <? N.of_nat keysize)) else CKR_KEY_SIZE_RANGE in
      let? v := get_bytes key CKA_VALUE in
      match kdf (h_mode o) v (h_salt o) (h_info o) keysize with Some k => Ok k | None => Err CKR_DEVICE_ERROR end).

(* What C_DeriveKey does with the operation: it is asked for the handles it needs, given the objects, and run
   (src/fns/keymgmt.rs:595-606, hkdf.rs:216-223). *)
Definition hkdf_run (kdf : okdf) (p : hparams) (salt_key key : object) (keysize : nat) : result bytes :=
  let? o := hkdf_new p in
  let? o := (if h_stype o =? CKF_HKDF_SALT_KEY then hkdf_receive o salt_key else Ok o) in
  snd (hkdf_derive kdf o key keysize).
