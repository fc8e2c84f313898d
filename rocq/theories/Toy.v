(* A small concrete instance of everything the theorems quantify over, used in the examples beside them. *)
From Verif Require Import Base Monad Attr Obj Factory Tables Create Sqlite Storage Token Backend State Api.

(* Sealed data: the key material and the plain text behind a length prefix, so that opening with the wrong key fails. *)
Definition blob (l : list bytes) : bytes := concat (map (fun b => blen b :: b) l).
Fixpoint unblob (n : nat) (b : bytes) : option (list bytes) :=
  match n, b with
  | O, [] => Some []
  | S n', k :: r => match unblob n' (skipn (N.to_nat k) r) with Some l => Some (firstn (N.to_nat k) r :: l) | None => None end
  | _, _ => None
  end.

Definition toy_mechs : list (N * N) :=
  [(CKM_AES_KEY_GEN, CKF_GENERATE);
   (CKM_AES_KEY_WRAP, CKF_WRAP .|. CKF_UNWRAP);
   (CKM_SHA256, CKF_DIGEST);
   (CKM_SHA256_HMAC, CKF_SIGN .|. CKF_VERIFY);
   (CKM_AES_CBC, CKF_ENCRYPT .|. CKF_DECRYPT);
   (CKM_EC_KEY_PAIR_GEN, CKF_GENERATE_KEY_PAIR);
   (CKM_ECDH1_DERIVE, CKF_DERIVE);
   (CKM_SP800_108_COUNTER_KDF, CKF_DERIVE);
   (CKM_XOR_BASE_AND_DATA, CKF_DERIVE)].

Definition toy : params := {|
  p_fs := all_factories;
  p_mechs := toy_mechs;
  p_uuid n := 0x75 :: hex (be 8 n);
  p_master n := be 32 (n + 1000);
  p_serial n := be 16 n;
  p_seal_key id pin ver key r := Ok (blob [[id]; pin; [ver]; key; be 8 r]);
  p_open_key id pin b :=
    match unblob 5 b with
    | Some [i; p; v; k; _] => if bytes_eqb i [id] && bytes_eqb p pin then Some (unbe v, k) else None
    | _ => None
    end;
  p_seal ver key uid r d := Ok (blob [[ver]; key; uid; be 8 r; d]);
  p_open ver key uid b :=
    match unblob 5 b with
    | Some [v; k; u; _; d] => if bytes_eqb v [ver] && bytes_eqb k key && bytes_eqb u uid then Ok d
                              else Err CKR_GENERAL_ERROR
    | _ => Err CKR_GENERAL_ERROR
    end |}.

(* An operation: collects its input; the result is the mechanism, the key value and the input. *)
Record toy_st := ToySt { ty_kind : opk; ty_mech : N; ty_key : bytes; ty_data : bytes; ty_final : bool; ty_busy : bool;
                         ty_sig : bytes }.
Definition ty_out (x : toy_st) (d : bytes) : bytes := ty_key x ++ ty_data x ++ d.
Definition ty_end (x : toy_st) : toy_st := ToySt (ty_kind x) (ty_mech x) (ty_key x) (ty_data x) true false (ty_sig x).
Definition ty_add (x : toy_st) (d : bytes) : toy_st :=
  ToySt (ty_kind x) (ty_mech x) (ty_key x) (ty_data x ++ d) false (ty_busy x) (ty_sig x).
Definition ty_sum (b : bytes) : bytes := be 4 (foldl (fun a x => (a * 31 + x) mod 2 ^ 32) 7 b).

Definition toy_call (c : opcall) (x : toy_st) : toy_st * result bytes :=
  match c with
  | CSingle d n => match ty_kind x with
                   | KEnc | KDec => if n <? blen d then (x, Err CKR_BUFFER_TOO_SMALL) else (ty_end x, Ok d)
                   | _ => (ty_end x, Ok (ty_sum (ty_out x d)))
                   end
  | CUpdate d n => if n <? blen d then (x, Err CKR_BUFFER_TOO_SMALL) else (x, Ok d)
  | CFinal n => match ty_kind x with
                | KEnc | KDec => (ty_end x, Ok [])
                | _ => (ty_end x, Ok (ty_sum (ty_out x [])))
                end
  | CVSingle d sig => (ty_end x, if bytes_eqb (ty_sum (ty_out x d)) (match ty_kind x with KVerifySig => ty_sig x | _ => sig end)
                                 then Ok [] else Err CKR_SIGNATURE_INVALID)
  | CVUpdate d => (ty_add x d, Ok [])
  | CVFinal sig => (ty_end x, if bytes_eqb (ty_sum (ty_out x [])) (match ty_kind x with KVerifySig => ty_sig x | _ => sig end)
                              then Ok [] else Err CKR_SIGNATURE_INVALID)
  | _ => (x, Err CKR_FUNCTION_NOT_SUPPORTED)
  end.

Definition toy_val (o : option object) : bytes :=
  match o with Some o => match get_bytes o CKA_VALUE with Ok v => v | Err _ => [] end | None => [] end.

(* A saved state: kind, mechanism and length before the data of each operation. *)
Definition toy_seal (l : opstate) : bytes := concat (map (fun p => N.of_nat (opk_num (fst p)) :: fst (snd p) :: blen (snd (snd p)) :: snd (snd p)) l).
Fixpoint toy_parse (fuel : nat) (b : bytes) : option opstate :=
  match fuel, b with
  | _, [] => Some []
  | S f, k :: m :: n :: r =>
    match opk_of (N.to_nat k), toy_parse f (skipn (N.to_nat n) r) with
    | Some k, Some l => Some ((k, (m, firstn (N.to_nat n) r)) :: l)
    | _, _ => None
    end
  | _, _ => None
  end.

Definition toy_be : backend := {|
  be_st := toy_st;
  be_new k m param key sig rnd := Ok (ToySt k m (toy_val key) [] false false (match sig with Some s => s | None => [] end));
  be_final := ty_final;
  be_busy := ty_busy;
  be_mech x := Ok (ty_mech x);
  be_out_len x := Ok 4;
  be_len x n fin := (x, Ok n);
  be_call := toy_call;
  be_updates x := None;
  be_size x := match ty_kind x with KDigest | KSign => Ok (blen (ty_data x)) | _ => Err CKR_STATE_UNSAVEABLE end;
  be_save x := match ty_kind x with KDigest | KSign => Ok (ty_data x) | _ => Err CKR_STATE_UNSAVEABLE end;
  be_restore k m key d := Ok (ToySt k m (toy_val key) d false false []);
  be_seal r l := Ok (toy_seal l);
  be_seal_len l := foldr (fun n a => 3 + n + a) 0 l;
  be_unseal b := match toy_parse (length b) b with Some l => if bytes_eqb (toy_seal l) b then Some l else None | None => None end;
  be_wrap m p w data n rnd := if (n =? 0) then Ok ([], blen data) else if n <? blen data then Err CKR_BUFFER_TOO_SMALL
                              else Ok (map (fun x => x + 1) data, blen data);
  be_unwrap m p w data := Ok (map (fun x => x - 1) data);
  be_derive m p key others tmpl rnd :=
    if m =? CKM_SP800_108_COUNTER_KDF then
      Ok [DKey tmpl (repeat 1 16);
          DKey (match p with
                | Some [b] => map (fun c => if ca_type c =? CKA_TOKEN then ca CKA_TOKEN [b] else c) tmpl
                | _ => tmpl
                end) (repeat 2 16)]
    else if m =? CKM_ECDH1_DERIVE then Ok [DCreate (tmpl ++ [ca CKA_VALUE (repeat 5 16)]) m]
    else Ok [DKey tmpl (repeat 1 16)];
  be_derive_needs m p := [];
  be_encap m p o n r := Ok (repeat 3 16, repeat 4 8);
  be_decap m p o d := Ok (repeat 3 16);
  be_encap_len m o := Ok 8;
  be_export o := get_bytes o CKA_VALUE;
  be_parse kt d o := Ok [(CKA_VALUE, d)];
  be_pbkdf p t := Ok (repeat 5 16);
  be_random r n := repeat (r mod 256) (N.to_nat n) |}.

Definition toy_env (r : N) : keyenv := {|
  k_import c kt o := Ok [];
  k_pair kt p s := Ok ([(CKA_EC_POINT, be 4 r)], [(CKA_VALUE, be 4 (r + 1))]);
  k_random n := Ok (repeat (r mod 256) (N.to_nat (n mod 1024))) |}.

Notation toy_run := (run toy toy_be toy_env).
Definition toy_start : world toy_be := init_world toy_be ∅.

(* A slot on an empty database, initialised, with the user PIN set and the user logged in on session 3. *)
Definition so_pin : bytes := [1; 2; 3; 4].
Definition user_pin : bytes := [5; 6; 7; 8].
Definition RW : N := CKF_SERIAL_SESSION .|. CKF_RW_SESSION.
Definition RO : N := CKF_SERIAL_SESSION.
Definition setup : list call :=
  [Initialize [SlotConf 0 7 None None []];
   InitToken 0 (Some so_pin) None;
   OpenSession 0 RW true;
   Login 1 CKU_SO (Some so_pin);
   InitPIN 1 (Some user_pin);
   Logout 1;
   CloseSession 1;
   OpenSession 0 RW true;
   OpenSession 0 RO true;
   Login 2 CKU_USER (Some user_pin)].
Definition toy_user : world toy_be := fst (toy_run toy_start setup).
Definition last_out (l : list (N * out)) : N * out := List.last l (0, ONone).

Example setup_works : map fst (snd (toy_run toy_start setup)) = repeat CKR_OK 10.
Proof. vm_compute. reflexivity. Qed.

Definition tbool (t : N) (b : bool) : ckattr := ca t [if b then 1 else 0].
Definition tulong (t n : N) : ckattr := ca t (le64 n).
Definition aes_tmpl (token : bool) : list ckattr :=
  [tulong CKA_CLASS CKO_SECRET_KEY; tulong CKA_KEY_TYPE CKK_AES; tbool CKA_TOKEN token; ca CKA_VALUE (repeat 9 16)].
