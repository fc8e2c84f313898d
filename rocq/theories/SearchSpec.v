(* C19: what a search has to find. *)
From Verif Require Import Base Attr Obj Factory Sqlite Storage Token ObjSpec PlainSpec.

(* The value of a template entry is written the way the module writes it: booleans are 0 or 1, dates are not empty. *)
Definition plain_entry (c : ckattr) : Prop := forall x, from_ck_attr c = Ok x -> a_val x = ck_to_buf c.
(* Every entry of the template is an attribute of the object, with that value. *)
Definition matches (t : token) (h : N) (tmpl : list ckattr) : Prop :=
  forall c, In c tmpl -> exists a, attr_of t h (ca_type c) = Some a /\ a_val a = ck_to_buf c.
(* Session objects are visible, token objects if somebody is logged in or they are not private.  Identifiers that read as
   a number below ten are the module's own. *)
Definition visible (t : token) (h : N) : Prop :=
  is_session_object t h = true \/
  (t_logged t = CKU_USER \/ t_logged t = CKU_SO \/ bool_of t h CKA_PRIVATE = Some false) /\
  forall u, object_id t h = Some u -> internal_uid u = false.
(* Keys with CKA_SENSITIVE not false may not be found by asking for their secret attributes, or for attributes their kind
   does not have. *)
Definition sensitive_key (t : token) (h : N) : bool :=
  match class_of t h with
  | Some c => ((c =? CKO_PRIVATE_KEY) || (c =? CKO_SECRET_KEY) || (c =? CKO_OTP_KEY)) && negb (bool_decide (bool_of t h CKA_SENSITIVE = Some false))
  | None => false
  end.
Definition may_ask (P : params) (t : token) (h : N) (tmpl : list ckattr) : Prop :=
  sensitive_key t h = true -> exists f, factory_of P t h = Some f /\
    forall c, In c tmpl -> exists oa, find_oa (f_attrs f) (ca_type c) = Some oa /\ oa_is oa OA_Sensitive = false.
Definition to_find (P : params) (t : token) (tmpl : list ckattr) (h : N) : Prop :=
  object_id t h <> None /\ visible t h /\ may_ask P t h tmpl /\ matches t h tmpl.

(* The state a search has to be started in.  No session object has the identifier of a stored object; session objects
   have one class. *)
Definition ids_apart (t : token) : Prop :=
  forall h u, is_session_object t h = true -> object_id t h = Some u -> rows_of (t_db t) u = None.
Definition one_class (t : token) : Prop :=
  forall h o a, t_sobjs t !! h = Some o -> In a (o_attrs o) -> a_type a = CKA_CLASS -> get_attr o CKA_CLASS = Some a.
(* A stored object without a handle, given one. *)
Definition with_handle (t : token) (u : bytes) (h : N) : token :=
  set_handles (Handles (<[h := u]> (h_map (t_handles t))) (h_next (t_handles t))) t.
(* A search finds hs: each of them once, exactly the objects with a handle that are to be found, and among the stored
   objects none without a handle is to be found. *)
Record finds (P : params) (t : token) (tmpl : list ckattr) (hs : list N) : Prop := Finds {
  fi_once : NoDup hs;
  fi_exact : forall h, In h hs <-> to_find P t tmpl h;
  fi_all : forall u h, rows_of (t_db t) u <> None -> (forall h', object_id t h' <> Some u) -> h_map (t_handles t) !! h = None -> t_sobjs t !! h = None ->
    ~ to_find P (with_handle t u h) tmpl h }.
