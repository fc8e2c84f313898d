(* What can be said about the objects of a token without knowing how they are kept: which object a handle names, its
   attributes, whether it is a session or a token object. *)
From Verif Require Import Base Attr Obj Sqlite Storage.

Definition opt {A} (r : result A) : option A := match r with Ok a => Some a | Err _ => None end.
(* An attribute read from the rows of a record; a record without a class row has the class "unavailable". *)
Definition row_attr (rows : gmap N sqlval) (t : N) : option attr :=
  match rows !! t with
  | Some v => opt (from_sql t v)
  | None => if t =? CKA_CLASS then Some (from_ulong CKA_CLASS CK_UNAVAILABLE_INFORMATION) else None
  end.
(* The record of the object with an identifier. *)
Definition rows_of (d : db) (uid : bytes) : option (gmap N sqlval) :=
  match List.find (fun p => bool_decide (snd p !! CKA_UNIQUE_ID = Some (SText uid))) (map_to_list (d_objs d)) with
  | Some p => Some (snd p)
  | None => None
  end.

(* The identifier (CKA_UNIQUE_ID) of the object a handle names. *)
Definition object_id (t : token) (h : N) : option bytes :=
  match t_sobjs t !! h with
  | Some o => opt (get_string o CKA_UNIQUE_ID)
  | None => match h_map (t_handles t) !! h with
            | Some uid => match rows_of (t_db t) uid with Some _ => Some uid | None => None end
            | None => None
            end
  end.
(* An attribute of the object a handle names; the secret attributes of token objects in their encrypted form. *)
Definition attr_of (t : token) (h ty : N) : option attr :=
  match t_sobjs t !! h with
  | Some o => get_attr o ty
  | None => match h_map (t_handles t) !! h with
            | Some uid => match rows_of (t_db t) uid with Some m => row_attr m ty | None => None end
            | None => None
            end
  end.
(* A boolean attribute; None if the object does not have it or it is no boolean. *)
Definition bool_of (t : token) (h ty : N) : option bool :=
  match attr_of t h ty with Some a => opt (attr_to_bool a) | None => None end.
Definition is_session_object (t : token) (h : N) : bool := match t_sobjs t !! h with Some _ => true | None => false end.
(* The session a session object was created in; none for the module's own objects. *)
Definition owner (t : token) (h : N) : option N :=
  match t_sobjs t !! h with
  | Some o => if o_session o =? CK_INVALID_HANDLE then None else Some (o_session o)
  | None => None
  end.
