(* What C46, C47 and C48 say about a token kept in an NSS database. *)
From Verif Require Export Nss.

(* What is asked of the cryptography: decoding undoes encoding, decryption undoes encryption, no other key turns an
   encrypted password check into the password check, and different PINs and master keys give different keys.  A MAC has 32
   bytes, and no encoding of encrypted data is empty or the three bytes that stand for an empty value. *)
Record nss_laws (C : nssp) : Prop := {
  nl_der : forall i, n_parse C (n_der C i) = Some i;
  nl_dec : forall k iv d, n_dec C k iv (n_enc C k iv d) = Ok d;
  nl_wrong : forall k k' iv, k' <> k -> n_dec C k' iv (n_enc C k iv pass_check) <> Ok pass_check;
  nl_kdf : forall a b salt iter, n_kdf C a salt iter = n_kdf C b salt iter -> a = b;
  nl_sha : forall salt p q, n_sha1 C (salt ++ p) = n_sha1 C (salt ++ q) -> p = q;
  nl_len : forall n len, blen (n_rnd C n len) = len;
  nl_mac : forall k m, blen (n_mac C k m) = 32;
  nl_null : forall salt iter iv d, n_der C (IEnc salt iter iv d) <> special_null;
  nl_some : forall salt iter iv d, n_der C (IEnc salt iter iv d) <> [] }.

(* The password entry of the database is the one a PIN gives: a salt, and the password check encrypted under the key
   that PBKDF2 makes of SHA1(salt, PIN). *)
Definition opens (C : nssp) (pin : bytes) (d : ndb) : Prop :=
  exists salt ks iter iv, blen ks = 32 /\ blen iv = 14 /\
    n_meta d !! (0, 0, 0) =
      Some (salt, n_der C (IEnc ks iter iv (n_enc C (n_kdf C (n_sha1 C (salt ++ pin)) ks iter) ([4; 14] ++ iv) pass_check))).

(* The call does not give this PIN as the current one. *)
Definition guess (pin : bytes) (c : ncall) : Prop :=
  match c with
  | NLogin _ q => q <> pin
  | NSetPin old _ => old <> pin
  | _ => True
  end.
(* The outcome of a call. *)
Definition outcome (C : nssp) (t : ntok) (c : ncall) : result nout := snd (ncall_run C c t).

(* The calls that only work for a user who is logged in, and those that log one in. *)
Definition needs_user (c : ncall) : bool :=
  match c with NLogin _ _ | NLogout | NInitPin _ | NSetPin _ _ | NCreate _ | NModify _ _ _ => true | _ => false end.

(* What is stored in the databases of the token. *)
Definition stored (t : ntok) : ndb := s_db (k_nss t).

(* The random generator does not repeat itself. *)
Definition no_repeat (C : nssp) : Prop := forall n m, n_rnd C n 32 = n_rnd C m 32 -> n = m.

(* The tables have the columns this code makes. *)
Definition complete (s : nss) : Prop :=
  s_cols s = table_columns /\ tb_cols (n_pub (s_db s)) = table_columns /\ tb_cols (n_prv (s_db s)) = table_columns.

(* The attributes that the format can hold: the type has a column that is read, the kind of the value is that of the type,
   numbers fit into 32 bits (parameter sets are below 0x8F), and no value is the three bytes that stand for an empty one. *)
Definition holds (a : attr) : Prop :=
  a_type a ∈ table_columns /\ ignore_attribute (a_type a) = false /\ search_by_id (a_type a) = Some (a_kind a) /\
  match a_kind a with
  | KNum => exists x, a_val a = le64 x /\ x < 2 ^ 32 /\ (a_type a = CKA_PARAMETER_SET -> x < 0x8F)
  | KUlongArray | KDeny | KIgnore => False
  | _ => a_val a <> [0xa5; 0; 0x5a]
  end.
Definition storable (C : nssp) (o : object) : Prop :=
  List.Forall holds (o_attrs o) /\
  forall f a, get_object_factory (n_fs C) o = Ok f -> In a (o_attrs o) -> ~ In (a_type a) (f_ephemeral f).

(* The object is in the second state as it is in the first. *)
Definition same_entry (prv : bool) (id : N) (s s' : nss) : Prop :=
  tb_rows (main_table prv (s_db s')) !! id = tb_rows (main_table prv (s_db s)) !! id /\
  forall t, n_meta (s_db s') !! sig_name prv id t = n_meta (s_db s) !! sig_name prv id t.

(* The user is logged in with the PIN that opens the database, and no key is cached under a random number that is still
   to come. *)
Definition ready (C : nssp) (p : bytes) (t : ntok) : Prop :=
  k_logged t = CKU_USER /\ complete (k_nss t) /\
  (forall n, s_rn (k_nss t) <= n -> s_cache (k_nss t) !! n_rnd C n 32 = None) /\
  exists salt n iter iv, n < s_rn (k_nss t) /\ blen iv = 14 /\
    n_meta (stored t) !! (0, 0, 0) =
      Some (salt, n_der C (IEnc (n_rnd C n 32) iter iv
        (n_enc C (n_kdf C (n_sha1 C (salt ++ p)) (n_rnd C n 32) iter) ([4; 14] ++ iv) pass_check))) /\
    s_key (k_nss t) = Some (n_sha1 C (salt ++ p)) /\
    forall k, s_cache (k_nss t) !! n_rnd C n 32 = Some k -> k = (false, n_kdf C (n_sha1 C (salt ++ p)) (n_rnd C n 32) iter).

(* Objects are created and searched for, the user logs in and out, and the process is restarted. *)
Definition easy (p : bytes) (c : ncall) : Prop :=
  match c with
  | NCreate _ | NSearch _ | NLogout | NRestart => True
  | NLogin ut q => ut = CKU_USER /\ q = p
  | _ => False
  end.

(* The bytes are the encryption of the value under a key that comes from the master key and a salt drawn as one of the
   numbers n0 <= n < n1. *)
Definition sealed_with (C : nssp) (K : bytes) (n0 n1 : N) (v b : bytes) : Prop :=
  exists n iv, n0 <= n < n1 /\ b = n_der C (IEnc (n_rnd C n 32) 10000 iv
    (n_enc C (n_kdf C K (n_rnd C n 32) 10000) ([4; 14] ++ iv) v)).

(* All keys in the cache come from the master key. *)
Definition keys_from (C : nssp) (K : bytes) (s : nss) : Prop :=
  forall salt k, s_cache s !! salt = Some k -> exists sg iter, k = (sg, n_kdf C K salt iter).

(* The database holds a signature of the attribute, made with a key that comes from the master key: a beginning of the MAC
   of the number of the object, the type and the value, of one byte at least. *)
Definition authentic (C : nssp) (K : bytes) (d : ndb) (prv : bool) (id t : N) (v : bytes) : Prop :=
  exists sig x salt iter tag iter', n_meta d !! sig_name prv id t = Some (sig, x) /\ n_parse C sig = Some (IMac salt iter tag) /\
    1 <= blen tag <= 32 /\ tag = take (length tag) (n_mac C (n_kdf C K salt iter') (be 4 id ++ be 4 t ++ v)).
