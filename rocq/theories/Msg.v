(* Model of the message-based (AEAD) operations of AesOperation, src/ossl/aes.rs:470-560, 730-1110 and 2000-2410, for
   CKM_AES_GCM and CKM_AES_CCM: parsing of the per-message parameters, generation of the IV, and the begin, next and
   final steps of a message in both directions.  The cipher is the abstract [prim] of Aes.v, the key is part of it.
   Simplified: the caller's IV buffer has exactly the length stated beside it; the FIPS indicators and the clearing of
   internal memory are left out; usize and u64 are unbounded except where a comment says otherwise. *)
From Verif Require Export Aes.
Local Open Scope nat_scope.

(* CKG_NO_GENERATE ... CKG_GENERATE_COUNTER_XOR of the PKCS#11 3.0 headers. *)
Definition CKG_NO_GENERATE : N := 0.
Definition CKG_GENERATE : N := 1.
Definition CKG_GENERATE_COUNTER : N := 2.
Definition CKG_GENERATE_RANDOM : N := 3.
Definition CKG_GENERATE_COUNTER_XOR : N := 4.

(* AesIvData, aes.rs:66-78. *)
Record ivd := Ivd { v_buf : bytes; v_fixed : nat; v_gen : N; v_count : N; v_max : N }.
Definition iv_none : ivd := Ivd [] 0 CKG_NO_GENERATE 0 0.

(* XOR of two byte strings, as the zip of aes.rs:516-519 does it: the shorter of the two decides. *)
Fixpoint xor_zip (a b : bytes) : bytes :=
  match a, b with x :: r, y :: s => N.lxor x y :: xor_zip r s | _, _ => a end.

(* generate_iv, aes.rs:476-539.  [rnd] is what get_random_data delivers (None: it fails).  The buffer is not empty and
   genbits is not zero: init_msg_params makes sure of that. *)
Definition gen_bits (v : ivd) : nat := length (v_buf v) * 8 - v_fixed v.
Definition gen_limit (v : ivd) : N :=
  if (v_count v =? 0)%N then
    if 64 <=? gen_bits v then (2 ^ 64 - 1)%N else N.shiftl 1 (N.of_nat (gen_bits v))
  else v_max v.
Definition gen_mask (v : ivd) : N :=
  let b := gen_bits v mod 8 in if b =? 0 then 255%N else (N.shiftl 1 (N.of_nat b) - 1)%N.
Definition gen_bytes (v : ivd) : nat := (gen_bits v + 7) / 8.
(* The arm of CKG_GENERATE and CKG_GENERATE_COUNTER, aes.rs:496-510. *)
Definition gen_counter (v : ivd) : bytes :=
  let buf := v_buf v in
  let i := v_fixed v / 8 in
  let cnt := be 8 (v_count v) in
  let top := N.land (nth i buf 0%N) (255 - gen_mask v) in
  if 8 <? gen_bytes v then
    let c := length buf - 8 in
    firstn i buf ++ [top] ++ repeat 0%N (c - (i + 1)) ++ cnt
  else
    let c := 8 - gen_bytes v in
    firstn i buf ++ [N.lor top (N.land (nth c cnt 0%N) (gen_mask v))] ++ skipn (c + 1) cnt.
(* The arm of CKG_GENERATE_COUNTER_XOR, aes.rs:511-527. *)
Definition gen_xor (v : ivd) : bytes :=
  let buf := v_buf v in
  let i := v_fixed v / 8 in
  let cnt := be 8 (v_count v) in
  if 8 <? gen_bytes v then
    let c := length buf - 8 in firstn c buf ++ xor_zip (skipn c buf) cnt
  else
    let c := 8 - gen_bytes v in
    firstn i buf ++ [N.lxor (nth i buf 0%N) (N.land (nth c cnt 0%N) (gen_mask v))] ++
    xor_zip (skipn (i + 1) buf) (skipn (c + 1) cnt).
(* The arm of CKG_GENERATE_RANDOM, aes.rs:528-533. *)
Definition gen_random (v : ivd) (r : bytes) : bytes :=
  let i := v_fixed v / 8 in
  firstn i (v_buf v) ++ [N.lxor (nth i (v_buf v) 0%N) (N.land (nth 0 r 0%N) (gen_mask v))] ++ skipn 1 r.
Definition generate_iv (v : ivd) (rnd : option bytes) : ivd * result unit :=
  let v := Ivd (v_buf v) (v_fixed v) (v_gen v) (v_count v) (gen_limit v) in
  if (v_max v <=? v_count v)%N then (v, Err CKR_DATA_LEN_RANGE) else
  let next b := (Ivd b (v_fixed v) (v_gen v) (v_count v + 1) (v_max v), Ok tt) in
  if (v_gen v =? CKG_GENERATE)%N || (v_gen v =? CKG_GENERATE_COUNTER)%N then next (gen_counter v) else
  if (v_gen v =? CKG_GENERATE_COUNTER_XOR)%N then next (gen_xor v) else
  if (v_gen v =? CKG_GENERATE_RANDOM)%N then
    match rnd with Some r => next (gen_random v r) | None => (v, Err CKR_DEVICE_ERROR) end
  else (v, Err CKR_GENERAL_ERROR).

Section Msg.
Variable P : prim.

(* CK_GCM_MESSAGE_PARAMS and CK_CCM_MESSAGE_PARAMS: [q_iv] the buffer at pIv or pNonce (None: null), [q_fixed], [q_gen]
   the fixed bits and the generator, [q_len] ulDataLen (CCM), [q_tagn] ulTagBits (GCM) or ulMACLen (CCM), [q_tag] the
   buffer at pTag or pMAC (None: null). *)
Record mparam := Mparam {
  q_iv : option bytes; q_fixed : N; q_gen : N; q_len : N; q_tagn : N; q_tag : option bytes }.

(* The context of the current message: none yet, the one of a message that is complete (OpenSSL takes no more data
   then), or a live one. *)
Inductive mctx := XNone | XDone | XLive (x : evp P).
(* AesOperation as the message functions use it, aes.rs:143-167. *)
Record mop := Mop {
  m_mode : amode; m_enc : bool; m_iv : ivd; m_aad : bytes; m_datalen : nat; m_taglen : nat;
  m_final : bool; m_used : bool; m_ctx : mctx; m_buf : bytes }.
Definition m_end (m : mop) : mop :=
  Mop (m_mode m) (m_enc m) (m_iv m) (m_aad m) (m_datalen m) (m_taglen m) true (m_used m) (m_ctx m) (m_buf m).
Definition m_set (m : mop) (x : mctx) (b : bytes) : mop :=
  Mop (m_mode m) (m_enc m) (m_iv m) (m_aad m) (m_datalen m) (m_taglen m) (m_final m) (m_used m) x b.
Definition m_idle (m : mop) : mop :=
  Mop (m_mode m) (m_enc m) (m_iv m) (m_aad m) (m_datalen m) (m_taglen m) (m_final m) false XDone (m_buf m).
Definition m_fatal {A} (m : mop) (e : N) : mop * result A := (m_end m, Err e).

(* msg_encrypt_init and msg_decrypt_init, aes.rs:978-1000 and 1048-1070. *)
Definition msg_init (mode : amode) (enc : bool) : mop :=
  Mop mode enc iv_none [] 0 0 false false XNone [].

(* init_msg_params, aes.rs:742-895.  A parameter of the wrong size (cast_params, 41-53) is None.  In the comparison of
   ulDataLen with 1 << (8 * l) the shift of a nonce of 7 bytes is by 64 bits, which the release profile reduces modulo
   64 (the debug profile panics). *)
Definition gen_checks (q : mparam) (n : nat) : bool :=
  (q_fixed q <=? N.of_nat n * 8)%N &&
  negb ((q_gen q =? CKG_GENERATE_RANDOM)%N && (N.of_nat n * 8 - q_fixed q <? 64)%N) &&
  negb (negb (q_gen q =? CKG_NO_GENERATE)%N && (N.of_nat n * 8 - q_fixed q =? 0)%N).
Definition new_iv (m : mop) (q : mparam) (b : bytes) : ivd :=
  if m_enc m then Ivd b (N.to_nat (q_fixed q)) (q_gen q) (v_count (m_iv m)) (v_max (m_iv m))
  else Ivd b 0 CKG_NO_GENERATE 0 0.
Definition init_msg (m : mop) (p : option mparam) (aad : bytes) : result mop :=
  match p with
  | None => Err CKR_ARGUMENTS_BAD
  | Some q =>
    let n := match q_iv q with Some b => length b | None => 0 end in
    match m_mode m with
    | MCcm =>
      match q_iv q with
      | None => Err CKR_MECHANISM_PARAM_INVALID
      | Some b =>
        if (n <? 7) || (13 <? n) then Err CKR_MECHANISM_PARAM_INVALID else
        let lim := N.shiftl 1 (N.of_nat ((8 * (15 - n)) mod 64)) in
        if (q_len q =? 0)%N || (lim <? q_len q)%N || (2 ^ 64 - 1 - q_tagn q <? q_len q)%N
        then Err CKR_MECHANISM_PARAM_INVALID else
        if (2 ^ 32 - 2 <? blen aad)%N then Err CKR_ARGUMENTS_BAD else
        if negb (existsb (N.eqb (q_tagn q)) [4; 6; 8; 10; 12; 14; 16]%N) then Err CKR_ARGUMENTS_BAD else
        if m_enc m && negb (gen_checks q n) then Err CKR_ARGUMENTS_BAD else
        Ok (Mop (m_mode m) (m_enc m) (new_iv m q b) aad (N.to_nat (q_len q)) (N.to_nat (q_tagn q))
              (m_final m) (m_used m) (m_ctx m) (m_buf m))
      end
    | MGcm =>
      match q_iv q with
      | None => Err CKR_ARGUMENTS_BAD
      | Some b =>
        if (n =? 0) || (2 ^ 32 - 1 <? N.of_nat n)%N then Err CKR_ARGUMENTS_BAD else
        if (128 <? q_tagn q)%N then Err CKR_ARGUMENTS_BAD else
        if (q_tagn q <? 8)%N then Err CKR_MECHANISM_PARAM_INVALID else
        if (2 ^ 32 - 1 <? blen aad)%N then Err CKR_ARGUMENTS_BAD else
        if m_enc m && negb (gen_checks q n) then Err CKR_ARGUMENTS_BAD else
        Ok (Mop (m_mode m) (m_enc m) (new_iv m q b) aad 0 ((N.to_nat (q_tagn q) + 7) / 8)
              (m_final m) (m_used m) (m_ctx m) (m_buf m))
      end
    | _ => Err CKR_MECHANISM_INVALID
    end
  end.

(* check_msg_params, aes.rs:901-975; the result is the tag buffer. *)
Definition tag_bytes (mode : amode) (n : N) : nat :=
  match mode with MGcm => (N.to_nat n + 7) / 8 | _ => N.to_nat n end.
Definition check_msg (m : mop) (p : option mparam) : mop * result (option bytes) :=
  match m_mode m with
  | MCcm | MGcm =>
    match p with
    | None => (m, Err CKR_ARGUMENTS_BAD)
    | Some q =>
      match q_iv q with
      | None => m_fatal m CKR_ARGUMENTS_BAD
      | Some b =>
        if negb (length (v_buf (m_iv m)) =? length b) then m_fatal m CKR_ARGUMENTS_BAD else
        if m_enc m && negb ((N.of_nat (v_fixed (m_iv m)) =? q_fixed q)%N && (v_gen (m_iv m) =? q_gen q)%N)
        then m_fatal m CKR_ARGUMENTS_BAD else
        if negb (m_taglen m =? tag_bytes (m_mode m) (q_tagn q)) then m_fatal m CKR_ARGUMENTS_BAD else
        (m, Ok (q_tag q))
      end
    end
  | _ => m_fatal m CKR_GENERAL_ERROR
  end.

(* msg_encrypt_new and msg_decrypt_new with cipher_initialize, aes.rs:546-590, 1003-1045 and 1073-1107, called by
   msg_encrypt_begin and msg_decrypt_begin, 2033-2044 and 2223-2234.  A failure after init_msg_params leaves in_use
   set.  The result is the IV as the caller's buffer has it afterwards. *)
Definition msg_begin (m : mop) (p : option mparam) (aad : bytes) (rnd : option bytes) : mop * result bytes :=
  if m_final m then (m, Err CKR_OPERATION_NOT_INITIALIZED) else
  if m_used m then (m, Err CKR_OPERATION_ACTIVE) else
  match init_msg m p aad with
  | Err e => (m, Err e)
  | Ok m =>
    let m := Mop (m_mode m) (m_enc m) (m_iv m) (m_aad m) (m_datalen m) (m_taglen m) false true (m_ctx m) (m_buf m) in
    let '(v, r) := (if (v_gen (m_iv m) =? CKG_NO_GENERATE)%N then (m_iv m, Ok tt) else generate_iv (m_iv m) rnd) in
    let m := Mop (m_mode m) (m_enc m) v (m_aad m) (m_datalen m) (m_taglen m) false true (m_ctx m) (m_buf m) in
    match r with
    | Err e => (m, Err e)
    | Ok _ =>
      match pr_start P (m_mode m) (m_enc m) (v_buf v) aad (m_taglen m) (m_datalen m) with
      | None => (m, Err CKR_DEVICE_ERROR)
      | Some s => (m_set m (XLive (Evp P (m_mode m) (m_enc m) s [] None)) (m_buf m), Ok (v_buf v))
      end
    end
  end.

(* msg_encrypt_next and msg_decrypt_next, aes.rs:2048-2099 and 2238-2289, the same for both directions. *)
Definition msg_next (m : mop) (p : option mparam) (d : bytes) (room : nat) : mop * result bytes :=
  if m_final m then (m, Err CKR_OPERATION_NOT_INITIALIZED) else
  if negb (m_used m) then (m, Err CKR_OPERATION_NOT_INITIALIZED) else
  match check_msg m p with
  | (m, Err e) => (m, Err e)
  | (m, Ok _) =>
    match m_mode m with
    | MCcm =>
      if (1048576 <? N.of_nat (m_datalen m))%N then m_fatal m CKR_DATA_LEN_RANGE else
      if m_datalen m <? length d + length (m_buf m) then m_fatal m CKR_DATA_LEN_RANGE else
      (m_set m (m_ctx m) (m_buf m ++ d), Ok [])
    | _ =>
      if room <? length d then (m, Err CKR_BUFFER_TOO_SMALL) else
      match m_ctx m with
      | XNone => m_fatal m CKR_GENERAL_ERROR
      | XDone => if length d =? 0 then (m, Ok []) else m_fatal m CKR_DEVICE_ERROR
      | XLive x =>
        if length d =? 0 then (m, Ok []) else
        match cx_update P x d room with
        | Some (x, o) => (m_set m (XLive x) (m_buf m), Ok o)
        | None => m_fatal m CKR_DEVICE_ERROR
        end
      end
    end
  end.

(* What a call leaves in the caller's buffers: the IV, the tag, and the output, with the length of the output if the
   call succeeds. *)
Record mout := Mout { o_iv : option bytes; o_tag : option bytes; o_data : bytes; o_res : result nat }.
Definition o_err (d : bytes) (e : N) : mout := Mout None None d (Err e).

(* msg_encrypt_final, aes.rs:2106-2184.  For CCM the buffer is not emptied. *)
Definition enc_msg_final (m : mop) (p : option mparam) (d : bytes) (room : nat) : mop * mout :=
  if m_final m then (m, o_err [] CKR_OPERATION_NOT_INITIALIZED) else
  if negb (m_used m) then (m, o_err [] CKR_OPERATION_NOT_INITIALIZED) else
  let ccm := match m_mode m with MCcm => true | _ => false end in
  if ccm && negb (length d + length (m_buf m) =? m_datalen m) then (m_end m, o_err [] CKR_DATA_LEN_RANGE) else
  if ccm && (room <? m_datalen m) then (m, o_err [] CKR_BUFFER_TOO_SMALL) else
  match check_msg m p with
  | (m, Err e) => (m, o_err [] e)
  | (m, Ok tag) =>
    let '(m, r) :=
      (match m_mode m with
       | MCcm =>
         let b := if length d <? m_datalen m then m_buf m ++ d else m_buf m in
         let c := if length d <? m_datalen m then b else d in
         let m := m_set m (m_ctx m) b in
         match m_ctx m with
         | XNone => m_fatal m CKR_GENERAL_ERROR
         | XDone => m_fatal m CKR_DEVICE_ERROR
         | XLive x => match cx_update P x c room with
                      | Some (x, o) => (m_set m (XLive x) b, Ok o)
                      | None => m_fatal m CKR_DEVICE_ERROR
                      end
         end
       | _ => msg_next m p d room
       end) in
    match r with
    | Err e => (m, o_err [] e)
    | Ok o =>
      match m_ctx m with
      | XNone => (m_end m, o_err o CKR_GENERAL_ERROR)
      | XDone => (m_end m, o_err (repeat 0%N room) CKR_DEVICE_ERROR)
      | XLive x =>
        match cx_final P x room with
        | Some (x, []) =>
          match tag with
          | None => (m, o_err o RV_NULL_DEREF)
          | Some _ => (m_idle m, Mout None (Some (cx_get_tag P x (m_taglen m))) o (Ok (length o)))
          end
        | _ => (m_end m, o_err (repeat 0%N room) CKR_DEVICE_ERROR)
        end
      end
    end
  end.

(* msg_decrypt_final, aes.rs:2296-2388.  CCM checks the tag while the data is processed and writes nothing when it is
   wrong (OpenSSL clears the output); GCM checks it at the end. *)
Definition dec_msg_final (m : mop) (p : option mparam) (d : bytes) (room : nat) : mop * mout :=
  if m_final m then (m, o_err [] CKR_OPERATION_NOT_INITIALIZED) else
  if negb (m_used m) then (m, o_err [] CKR_OPERATION_NOT_INITIALIZED) else
  match check_msg m p with
  | (m, Err e) => (m, o_err [] e)
  | (m, Ok tag) =>
    let ccm := match m_mode m with MCcm => true | _ => false end in
    if ccm && negb (length d + length (m_buf m) =? m_datalen m) then (m_end m, o_err [] CKR_DATA_LEN_RANGE) else
    if ccm && (room <? m_datalen m) then (m, o_err [] CKR_BUFFER_TOO_SMALL) else
    match tag with
    | None => (m, o_err [] RV_NULL_DEREF)
    | Some t =>
      let t := firstn (m_taglen m) t in
      match m_ctx m with
      | XNone => (m_end m, o_err [] CKR_GENERAL_ERROR)
      | XDone => (m_end m, o_err [] CKR_DEVICE_ERROR)
      | XLive x =>
        let m := m_set m (XLive (cx_set_tag P x t)) (m_buf m) in
        match m_mode m with
        | MCcm =>
          let b := if length d <? m_datalen m then m_buf m ++ d else m_buf m in
          let c := if length d <? m_datalen m then b else d in
          match cx_update P (cx_set_tag P x t) c room with
          | Some (x, o) => (m_idle (m_set m (XLive x) b), Mout None None o (Ok (length o)))
          | None => (m_end (m_set m (m_ctx m) b), o_err [] CKR_DEVICE_ERROR)
          end
        | _ =>
          match msg_next m p d room with
          | (m, Err e) => (m, o_err [] e)
          | (m, Ok o) =>
            match m_ctx m with
            | XLive x => match cx_final P x 0 with
                         | Some (x, []) => (m_idle m, Mout None None o (Ok (length o)))
                         | Some _ => (m_end m, o_err (repeat 0%N room) CKR_DEVICE_ERROR)
                         | None => (m_end m, o_err o CKR_ENCRYPTED_DATA_INVALID)
                         end
            | _ => (m_end m, o_err o CKR_GENERAL_ERROR)
            end
          end
        end
      end
    end
  end.
Definition msg_final (m : mop) := if m_enc m then enc_msg_final m else dec_msg_final m.

(* MessageOperation::finalize, aes.rs:2006-2013. *)
Definition msg_finalize (m : mop) : mop * result unit :=
  if m_used m then (m, Err CKR_OPERATION_ACTIVE) else (m_end m, Ok tt).

(* The calls an application makes on the operation, and what they leave behind: C_EncryptMessageBegin,
   C_EncryptMessageNext without and with CKF_END_OF_MESSAGE, C_EncryptMessage, C_MessageEncryptFinal, and the same for
   decryption (src/fns/encryption.rs:637-960 and 1029-1350; msg_encrypt and msg_decrypt, aes.rs:2020-2030 and
   2210-2220).  [MSingle] is refused while a message is being processed (encryption.rs:665-667). *)
Inductive mcall :=
  | MBegin (p : option mparam) (aad : bytes) (rnd : option bytes)
  | MNext (p : option mparam) (d : bytes) (room : nat)
  | MLast (p : option mparam) (d : bytes) (room : nat)
  | MSingle (p : option mparam) (aad : bytes) (rnd : option bytes) (d : bytes) (room : nat)
  | MFinish.
Definition mstep (m : mop) (c : mcall) : mop * mout :=
  match c with
  | MBegin p aad rnd => match msg_begin m p aad rnd with
                        | (m, Ok iv) => (m, Mout (Some iv) None [] (Ok 0))
                        | (m, Err e) => (m, o_err [] e)
                        end
  | MNext p d room => if negb (m_used m) then (m, o_err [] CKR_OPERATION_NOT_INITIALIZED) else
                      match msg_next m p d room with
                      | (m, Ok o) => (m, Mout None None o (Ok (length o)))
                      | (m, Err e) => (m, o_err [] e)
                      end
  | MLast p d room => if negb (m_used m) then (m, o_err [] CKR_OPERATION_NOT_INITIALIZED) else msg_final m p d room
  | MSingle p aad rnd d room =>
    if m_used m then (m, o_err [] CKR_OPERATION_ACTIVE) else
    match msg_begin m p aad rnd with
    | (m, Err e) => (m, o_err [] e)
    | (m, Ok iv) => let '(m, o) := msg_final m p d room in (m, Mout (Some iv) (o_tag o) (o_data o) (o_res o))
    end
  | MFinish => match msg_finalize m with
               | (m, Ok _) => (m, Mout None None [] (Ok 0))
               | (m, Err e) => (m, o_err [] e)
               end
  end.
Fixpoint mrun (m : mop) (l : list mcall) : mop * list (mcall * mout) :=
  match l with
  | [] => (m, [])
  | c :: r => let '(m, o) := mstep m c in let '(m, os) := mrun m r in (m, (c, o) :: os)
  end.
End Msg.
