(* What a caller can learn of an object: its kind, whether it is protected, and the plain values of its attributes. *)
From Verif Require Import Base Attr Obj Factory Sqlite Storage ObjSpec.

Definition num_of (t : token) (h ty : N) : option N := match attr_of t h ty with Some a => opt (attr_to_ulong a) | None => None end.
(* The class of an object, and its key or certificate type. *)
Definition class_of (t : token) (h : N) : option N := num_of t h CKA_CLASS.
Definition kind_of (t : token) (h : N) : option (N * N) :=
  match class_of t h with
  | Some c =>
    if c =? CKO_CERTIFICATE then pair c <$> num_of t h CKA_CERTIFICATE_TYPE
    else if (c =? CKO_PUBLIC_KEY) || (c =? CKO_PRIVATE_KEY) || (c =? CKO_SECRET_KEY) || (c =? CKO_OTP_KEY) then pair c <$> num_of t h CKA_KEY_TYPE
    else Some (c, 0)
  | None => None
  end.
(* Private, secret and OTP keys are protected if CKA_SENSITIVE is not false or CKA_EXTRACTABLE not true. *)
Definition is_protected (t : token) (h : N) : bool :=
  match class_of t h with
  | Some c => ((c =? CKO_PRIVATE_KEY) || (c =? CKO_SECRET_KEY) || (c =? CKO_OTP_KEY)) &&
      negb (bool_decide (bool_of t h CKA_SENSITIVE = Some false) && bool_decide (bool_of t h CKA_EXTRACTABLE = Some true))
  | None => false
  end.

Section plain.
Variable P : params.
Definition factory_of (t : token) (h : N) : option factory := match kind_of t h with Some k => opt (get_factory (p_fs P) k) | None => None end.
(* The value of an attribute. Token objects keep the attributes flagged as sensitive for their kind sealed under the
   token's key, bound to the identifier of the object. *)
Definition value_of (t : token) (h ty : N) : option bytes :=
  match attr_of t h ty with
  | None => None
  | Some a =>
    if is_session_object t h then Some (a_val a)
    else match factory_of t h, object_id t h with
         | Some f, Some uid =>
           if existsb (N.eqb ty) (f_sensitive f) then match t_key t with Some k => opt (p_open P (t_ver t) k uid (a_val a)) | None => None end
           else Some (a_val a)
         | _, _ => None
         end
  end.
End plain.

(* ---- C_GetAttributeValue ---- *)
(* The attribute types PKCS#11 defines for the kind of the object, and those not to be shown. *)
Definition has_type (P : params) (t : token) (h ty : N) : bool :=
  match factory_of P t h with Some f => match find_oa (f_attrs f) ty with Some _ => true | None => false end | None => false end.
Definition hidden (P : params) (t : token) (h ty : N) : bool :=
  is_protected t h && match factory_of P t h with Some f => match find_oa (f_attrs f) ty with Some oa => oa_is oa OA_Sensitive | None => false end | None => false end.
(* How one entry q of the template is answered: the entry afterwards, and the error it causes if any. v is the value of
   the attribute if the object has it. *)
Inductive reply (hid : bool) (v : option bytes) (q : qattr) : qattr -> N -> Prop :=
| ReplyMissing : hid = false -> v = None -> reply hid v q (QAttr (q_type q) (q_buf q) CK_UNAVAILABLE_INFORMATION) CKR_ATTRIBUTE_TYPE_INVALID
| ReplyHidden : hid = true -> reply hid v q (QAttr (q_type q) (q_buf q) CK_UNAVAILABLE_INFORMATION) CKR_ATTRIBUTE_SENSITIVE
| ReplyLength x : hid = false -> v = Some x -> q_buf q = None -> reply hid v q (QAttr (q_type q) None (blen x)) CKR_OK
| ReplySmall x b : hid = false -> v = Some x -> q_buf q = Some b -> q_len q < blen x ->
    reply hid v q (QAttr (q_type q) (Some b) CK_UNAVAILABLE_INFORMATION) CKR_BUFFER_TOO_SMALL
| ReplyValue x b : hid = false -> v = Some x -> q_buf q = Some b -> blen x <= q_len q -> q_len q <> CK_UNAVAILABLE_INFORMATION ->
    reply hid v q (QAttr (q_type q) (Some (x ++ skipn (length x) b)) (blen x)) CKR_OK
| ReplyBad x b : hid = false -> v = Some x -> q_buf q = Some b -> q_len q = CK_UNAVAILABLE_INFORMATION -> reply hid v q q CKR_TEMPLATE_INCONSISTENT.
Fixpoint first_error (es : list N) : N := match es with [] => CKR_OK | e :: r => if e =? CKR_OK then first_error r else e end.

(* The attributes that hold the secret of a key, by class and key type. *)
Definition secret_attrs (k : N * N) : list N :=
  let '(c, kt) := k in
  if (c =? CKO_SECRET_KEY) || (c =? CKO_OTP_KEY) then [CKA_VALUE]
  else if c =? CKO_PRIVATE_KEY then
    if kt =? CKK_RSA then [CKA_PRIVATE_EXPONENT; CKA_PRIME_1; CKA_PRIME_2; CKA_EXPONENT_1; CKA_EXPONENT_2; CKA_COEFFICIENT]
    else if (kt =? CKK_ML_DSA) || (kt =? CKK_ML_KEM) then [CKA_VALUE; CKA_SEED]
    else [CKA_VALUE]
  else [].
