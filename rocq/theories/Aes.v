(* Model of the AES cipher operations of src/ossl/aes.rs and of the OsslCipher wrapper of ossl/src/cipher.rs.
   The cipher itself is OpenSSL and stays abstract ([prim]); what OpenSSL's EVP layer does around it (buffering of
   partial blocks, PKCS#7 padding, the block held back when decrypting padded data) is written out below, because the
   Rust code depends on it.  Not modelled: the FIPS indicators, the clearing of memory, failures of EVP_CipherUpdate
   other than those stated, the 31 bit limit of the lengths passed to OpenSSL. *)
From Verif Require Export Base.
Local Open Scope nat_scope.

(* The mechanism of the operation (CKM_AES_...).  CFB1, CFB8, CFB128 and OFB, which the code never distinguishes,
   are [MStream]. *)
Inductive amode := MCcm | MGcm | MCtr | MCts | MCbc | MCbcPad | MEcb | MStream | MKw | MKwp.

(* The cipher: a keyed state, started from a mode, a direction, the IV, the additional data, the tag length and the
   data length (CCM).  [pr_block] transforms one block of 16 bytes (ECB, CBC), [pr_byte] one byte (the stream modes
   and GCM), [pr_shot] a whole message (CTS, KW, KWP, CCM), [pr_tag] is the tag of all that has been processed
   (16 bytes, of which a prefix is used). *)
Record prim := Prim {
  pr_st : Type;
  pr_start : amode -> bool -> bytes -> bytes -> nat -> nat -> option pr_st;
  pr_block : pr_st -> bytes -> pr_st * bytes;
  pr_byte : pr_st -> N -> pr_st * N;
  pr_shot : pr_st -> bytes -> option (pr_st * bytes);
  pr_tag : pr_st -> bytes }.

(* What is used of the cipher: a block gives a block. *)
Definition prim_ok (P : prim) : Prop := forall s b, length (snd (pr_block P s b)) = 16.

Section Aes.
Variable P : prim.
Notation st := (pr_st P).

(* [n] blocks of [d], one after the other. *)
Fixpoint run_blocks (n : nat) (s : st) (d : bytes) : st * bytes :=
  match n with
  | O => (s, [])
  | S k => let '(s1, o) := pr_block P s (firstn 16 d) in
           let '(s2, os) := run_blocks k s1 (skipn 16 d) in (s2, o ++ os)
  end.
Fixpoint run_bytes (s : st) (d : bytes) : st * bytes :=
  match d with
  | [] => (s, [])
  | b :: r => let '(s1, o) := pr_byte P s b in
              let '(s2, os) := run_bytes s1 r in (s2, o :: os)
  end.

(* OsslCipher (ossl/src/cipher.rs:270-330) with its EVP_CIPHER_CTX: [x_held] are the bytes EVP keeps back. *)
Record evp := Evp { x_mode : amode; x_enc : bool; x_st : st; x_held : bytes; x_tag : option bytes }.
Definition x_with (x : evp) (s : st) (h : bytes) : evp := Evp (x_mode x) (x_enc x) s h (x_tag x).

(* EVP_CIPHER_CTX_get_block_size as stored in `blocksize` by OsslCipher::new (cipher.rs:331-488; 1 for the AEAD modes). *)
Definition block_size (m : amode) : nat :=
  match m with MCbc | MCbcPad | MEcb | MCts => 16 | MKw | MKwp => 8 | _ => 1 end.
(* buffer_size, ossl/src/cipher.rs:715-729. *)
Definition buffer_size (x : evp) (n : nat) : nat :=
  let b := block_size (x_mode x) in
  if b =? 1 then n else
  if n =? 0 then b else
  let r := n mod b in if r =? 0 then n else n + b - r.

(* EVP_CipherUpdate of OpenSSL (not part of /repo): stream modes transform what they get; block modes transform whole
   blocks and keep the rest; when decrypting padded data the last complete block is kept too; CCM checks the
   tag while it decrypts. *)
Definition evp_update (x : evp) (d : bytes) : option (evp * bytes) :=
  match x_mode x with
  | MGcm | MCtr | MStream => let '(s, o) := run_bytes (x_st x) d in Some (x_with x s (x_held x), o)
  | MCts | MKw | MKwp =>
    match pr_shot P (x_st x) d with Some (s, o) => Some (x_with x s (x_held x), o) | None => None end
  | MCcm =>
    match pr_shot P (x_st x) d with
    | Some (s, o) =>
      if x_enc x then Some (x_with x s (x_held x), o) else
      match x_tag x with
      | Some t => if bytes_eqb t (firstn (length t) (pr_tag P s)) then Some (x_with x s (x_held x), o) else None
      | None => None
      end
    | None => None
    end
  | MCbc | MEcb | MCbcPad =>
    let all := x_held x ++ d in
    let n := length all / 16 in
    let n := (match x_mode x with
              | MCbcPad => if negb (x_enc x) && (length all mod 16 =? 0) then n - 1 else n
              | _ => n end) in
    let '(s, o) := run_blocks n (x_st x) all in Some (x_with x s (skipn (16 * n) all), o)
  end.
(* EVP_CipherFinal_ex: the padding of PKCS#7 for CBC_PAD, the check of the tag for GCM decryption, nothing left over
   for ECB and CBC. *)
Definition pad_of (d : bytes) : bytes := let k := 16 - length d mod 16 in repeat (N.of_nat k) k.
Definition unpad (d : bytes) : option bytes :=
  let k := N.to_nat (List.last d 0%N) in
  if (1 <=? k) && (k <=? 16) && (k <=? length d) &&
     bytes_eqb (skipn (length d - k) d) (repeat (N.of_nat k) k)
  then Some (firstn (length d - k) d) else None.
Definition evp_final (x : evp) : option (evp * bytes) :=
  match x_mode x with
  | MCbc | MEcb => if length (x_held x) =? 0 then Some (x, []) else None
  | MCbcPad =>
    if x_enc x then
      let '(s, o) := pr_block P (x_st x) (x_held x ++ pad_of (x_held x)) in Some (x_with x s [], o)
    else if length (x_held x) =? 16 then
      let '(s, o) := pr_block P (x_st x) (x_held x) in
      match unpad o with Some o => Some (x_with x s [], o) | None => None end
    else None
  | MGcm =>
    if x_enc x then Some (x, []) else
    match x_tag x with
    | Some t => if bytes_eqb t (firstn (length t) (pr_tag P (x_st x))) then Some (x, []) else None
    | None => None
    end
  | _ => Some (x, [])
  end.

(* OsslCipher::update and finalize, ossl/src/cipher.rs:595-623 and 649-669: the room is checked first. *)
Definition cx_update (x : evp) (d : bytes) (room : nat) : option (evp * bytes) :=
  if room <? buffer_size x (length d) then None else evp_update x d.
Definition cx_final (x : evp) (room : nat) : option (evp * bytes) :=
  if room <? buffer_size x 0 then None else evp_final x.
(* set_tag and get_tag, cipher.rs:671-705. *)
Definition cx_set_tag (x : evp) (t : bytes) : evp := Evp (x_mode x) (x_enc x) (x_st x) (x_held x) (Some t).
Definition cx_get_tag (x : evp) (n : nat) : bytes := firstn n (pr_tag P (x_st x)).

(* AesOperation, src/ossl/aes.rs:143-167, with the parts of AesParams (118-132) the functions below read.  The
   context is present from encrypt_new and decrypt_new on. *)
Record aes := Aes {
  a_mode : amode; a_max : N; a_datalen : nat; a_taglen : nat;
  a_final : bool; a_used : bool; a_ctx : evp; a_buf : bytes; a_blocks : N }.
Definition a_end (a : aes) : aes :=
  Aes (a_mode a) (a_max a) (a_datalen a) (a_taglen a) true (a_used a) (a_ctx a) (a_buf a) (a_blocks a).
Definition a_use (a : aes) : aes :=
  Aes (a_mode a) (a_max a) (a_datalen a) (a_taglen a) (a_final a) true (a_ctx a) (a_buf a) (a_blocks a).
Definition a_set (a : aes) (x : evp) (b : bytes) : aes :=
  Aes (a_mode a) (a_max a) (a_datalen a) (a_taglen a) (a_final a) (a_used a) x b (a_blocks a).
Definition a_count (a : aes) (n : N) : aes :=
  Aes (a_mode a) (a_max a) (a_datalen a) (a_taglen a) (a_final a) (a_used a) (a_ctx a) (a_buf a) n.
(* op_err, aes.rs:734-737. *)
Definition fatal {A} (a : aes) (e : N) : aes * result A := (a_end a, Err e).

(* encrypt_new and decrypt_new, aes.rs:597-670, after the parameters are read. *)
Definition aes_new (m : amode) (enc : bool) (iv aad : bytes) (maxb : N) (datalen taglen : nat) : option aes :=
  match pr_start P m enc iv aad taglen datalen with
  | Some s => Some (Aes m maxb datalen taglen false false (Evp m enc s [] None) [] 0)
  | None => None
  end.

(* The number of blocks the counter of CTR may take, from the counter block and the counter bits: init_params,
   aes.rs:284-322. *)
Definition ctr_limit (iv : bytes) (bits : nat) : result N :=
  if bits <? 128 then
    let full := bits / 8 in
    let octets := fold_left N.add (map (fun i => N.shiftl (nth (15 - i) iv 0%N) (N.of_nat (i * 8))) (seq 0 full)) 0%N in
    let part := N.of_nat (bits mod 8) in
    let rest := if (0 <? part)%N then N.shiftl (N.land (nth (15 - full) iv 0%N) part) (N.of_nat (full * 8)) else 0%N in
    let m := (N.shiftl 1 (N.of_nat bits) - 1 - octets - rest)%N in
    if (m =? 0)%N then Err CKR_MECHANISM_PARAM_INVALID else Ok m
  else if 128 <? bits then Err CKR_MECHANISM_PARAM_INVALID else Ok 0%N.

Definition ccm_large (a : aes) : bool := (1048576 <? N.of_nat (a_datalen a))%N.

(* encryption_len, aes.rs:1471-1545. *)
Definition enc_len (a : aes) (n : nat) (fin : bool) : aes * result nat :=
  let b := length (a_buf a) in
  match a_mode a with
  | MCcm => if fin then
              if a_datalen a <? n + b then fatal a CKR_DATA_LEN_RANGE else (a, Ok (b + n + a_taglen a))
            else (a, Ok (a_datalen a + a_taglen a))
  | MGcm => (a, Ok (n + a_taglen a))
  | MCtr | MCts | MStream => (a, Ok n)
  | MCbc | MEcb => if fin then
                     if (b + n) mod 16 =? 0 then (a, Ok (b + n)) else fatal a CKR_DATA_LEN_RANGE
                   else (a, Ok ((b + n) / 16 * 16))
  | MCbcPad => if fin then (a, Ok ((b + n + 16) / 16 * 16)) else (a, Ok ((b + n) / 16 * 16))
  | MKw => if n mod 8 =? 0 then (a, Ok (n + 8)) else fatal a CKR_DATA_LEN_RANGE
  | MKwp => (a, Ok ((n + 15) / 8 * 8))
  end.

(* The blocks an update of CTR asks for (aes.rs:1240-1249 and 1624-1633): true if the limit allows them. *)
Definition ctr_count (a : aes) (n : nat) : aes * bool :=
  if (a_max a =? 0)%N then (a, true) else
  let req := N.of_nat ((n + 15) / 16) in
  if (a_max a <? a_blocks a + req)%N then (a, false) else (a_count a (a_blocks a + req)%N, true).

(* The checks of encrypt_update before the room is looked at, aes.rs:1207-1258; the result is the room needed. *)
Definition enc_check (a : aes) (n l : nat) : aes * result nat :=
  match a_mode a with
  | MCts => if n <? 16 then fatal a CKR_DATA_LEN_RANGE else
            if (a_blocks a =? 0)%N then (a_count a 1, Ok l) else fatal a CKR_OPERATION_NOT_INITIALIZED
  | MCcm => if ccm_large a && negb (n =? a_datalen a) then fatal a CKR_DATA_LEN_RANGE else
            if a_datalen a <? n + length (a_buf a) then fatal a CKR_DATA_LEN_RANGE else
            if n + length (a_buf a) <? a_datalen a then (a, Ok 0) else (a, Ok l)
  | MCtr => let '(a1, b) := ctr_count a n in if b then (a1, Ok l) else fatal a CKR_DATA_LEN_RANGE
  | MKw => if n mod 8 =? 0 then (a, Ok l) else fatal a CKR_DATA_LEN_RANGE
  | _ => (a, Ok l)
  end.

(* The bulk of an update, aes.rs:1345-1354 and 1800-1812: what has not been consumed yet goes to the context. *)
Definition feed_rest (a : aes) (d : bytes) (room : nat) (out : bytes) : aes * result bytes :=
  match d with
  | [] => (a, Ok out)
  | _ => match cx_update (a_ctx a) d (room - length out) with
         | Some (x, o) => (a_set a x (a_buf a), Ok (out ++ o))
         | None => fatal a CKR_DEVICE_ERROR
         end
  end.
(* The whole-block treatment of ECB, CBC and CBC_PAD, aes.rs:1297-1326 and 1752-1781, the same for both directions:
   a block completed from the buffer must come out at once. *)
Definition feed_blocks (a : aes) (d : bytes) (room : nat) : aes * result bytes :=
  let b := a_buf a in
  let keep (a : aes) (d : bytes) (out : bytes) :=
    let t := length d mod 16 in
    let k := length d - t in
    feed_rest (a_set a (a_ctx a) (a_buf a ++ skipn k d)) (firstn k d) room out in
  if (0 <? length b) && (16 <=? length b + length d) then
    let o := 16 - length b in
    match cx_update (a_ctx a) (b ++ firstn o d) room with
    | None => fatal (a_set a (a_ctx a) (b ++ firstn o d)) CKR_DEVICE_ERROR
    | Some (x, out) =>
      if length out =? 16 then keep (a_set a x []) (skipn o d) out
      else fatal (a_set a x (b ++ firstn o d)) CKR_DEVICE_ERROR
    end
  else keep a d [].
(* CTS, aes.rs:1328-1345 and 1782-1799: a short output goes through a buffer of two blocks, and copy_from_slice
   panics unless the caller's buffer has exactly the length of the result. *)
Definition feed_cts (a : aes) (d : bytes) (room : nat) : aes * result bytes :=
  if room <? 32 then
    match cx_update (a_ctx a) d 32 with
    | None => fatal a CKR_DEVICE_ERROR
    | Some (x, o) =>
      if negb (length o =? length d) then fatal (a_set a x (a_buf a)) CKR_DEVICE_ERROR else
      if negb (room =? length o) then (a_set a x (a_buf a), Err RV_PANIC) else
      (a_set a x (a_buf a), Ok o)
    end
  else feed_rest a d room [].

(* encrypt_update, aes.rs:1197-1360. *)
Definition enc_feed (a : aes) (d : bytes) (room : nat) : aes * result bytes :=
  match a_mode a with
  | MCcm =>
    if length d <? a_datalen a then
      let b := a_buf a ++ d in
      if length b =? a_datalen a then
        match cx_update (a_ctx a) b room with
        | None => fatal (a_set a (a_ctx a) b) CKR_DEVICE_ERROR
        | Some (x, o) => if length o =? a_datalen a then (a_set a x [], Ok o)
                         else fatal (a_set a x b) CKR_DEVICE_ERROR
        end
      else (a_set a (a_ctx a) b, Ok [])
    else feed_rest a d room []
  | MEcb | MCbc | MCbcPad => feed_blocks a d room
  | MCts => feed_cts a d room
  | _ => feed_rest a d room []
  end.
Definition enc_update (a : aes) (d : bytes) (room : nat) : aes * result bytes :=
  if a_final a then (a, Err CKR_OPERATION_NOT_INITIALIZED) else
  match enc_len (a_use a) (length d) false with
  | (a, Err e) => (a, Err e)
  | (a, Ok l) =>
    match enc_check a (length d) l with
    | (a, Err e) => (a, Err e)
    | (a, Ok l) => if room <? l then (a, Err CKR_BUFFER_TOO_SMALL) else enc_feed a d room
    end
  end.
(* encrypt_final, aes.rs:1367-1462. *)
Definition enc_final (a : aes) (room : nat) : aes * result bytes :=
  if a_final a then (a, Err CKR_OPERATION_NOT_INITIALIZED) else
  if negb (a_used a) then (a, Err CKR_OPERATION_NOT_INITIALIZED) else
  match a_mode a with
  | MCcm | MGcm =>
    if room <? a_taglen a then (a, Err CKR_BUFFER_TOO_SMALL) else
    match cx_final (a_ctx a) room with
    | None => (a, Err CKR_DEVICE_ERROR)
    | Some (x, o) => if length o =? 0 then (a_end (a_set a x (a_buf a)), Ok (cx_get_tag x (a_taglen a)))
                     else fatal (a_set a x (a_buf a)) CKR_DEVICE_ERROR
    end
  | MCtr => if (0 <? a_max a)%N && (a_max a <=? a_blocks a)%N then fatal a CKR_DATA_LEN_RANGE else (a_end a, Ok [])
  | MEcb | MCbc =>
    if 0 <? length (a_buf a) then fatal a CKR_DATA_LEN_RANGE else
    match cx_final (a_ctx a) 16 with
    | None => fatal a CKR_DEVICE_ERROR
    | Some (x, o) => if length o =? 0 then (a_end (a_set a x []), Ok []) else fatal a CKR_DEVICE_ERROR
    end
  | MCbcPad =>
    if room <? 16 then (a, Err CKR_BUFFER_TOO_SMALL) else
    match (if 0 <? length (a_buf a) then cx_update (a_ctx a) (a_buf a) room else Some (a_ctx a, [])) with
    | None => fatal a CKR_DEVICE_ERROR
    | Some (x, o) =>
      if negb (length o =? 0) then fatal (a_set a x (a_buf a)) CKR_DEVICE_ERROR else
      match cx_final x room with
      | None => fatal (a_set a x (a_buf a)) CKR_DEVICE_ERROR
      | Some (x, o) => if length o =? 16 then (a_end (a_set a x (a_buf a)), Ok o)
                       else fatal (a_set a x (a_buf a)) CKR_DEVICE_ERROR
      end
    end
  | MCts | MStream | MKw | MKwp => (a_end a, Ok [])
  end.
(* encrypt, aes.rs:1184-1193. *)
Definition enc_single (a : aes) (d : bytes) (room : nat) : aes * result bytes :=
  if a_final a then (a, Err CKR_OPERATION_NOT_INITIALIZED) else
  match enc_update a d room with
  | (a, Err e) => (a, Err e)
  | (a, Ok o) =>
    if room <? length o then fatal a CKR_GENERAL_ERROR else
    match enc_final a (room - length o) with
    | (a, Err e) => (a, Err e)
    | (a, Ok o2) => (a, Ok (o ++ o2))
    end
  end.

(* decryption_len, aes.rs:1913-1998. *)
Definition dec_len (a : aes) (n : nat) (fin : bool) : aes * result nat :=
  let b := length (a_buf a) in
  match a_mode a with
  | MGcm => if fin then
              if b + n <? a_taglen a then fatal a CKR_ENCRYPTED_DATA_LEN_RANGE else (a, Ok (b + n - a_taglen a))
            else (a, Ok (if b + n <? a_taglen a then 0 else b + n))
  | MCcm => if fin then
              if a_datalen a + a_taglen a <? b + n then fatal a CKR_ENCRYPTED_DATA_LEN_RANGE
              else (a, Ok (a_datalen a + a_taglen a))
            else if b + n <? a_taglen a then fatal a CKR_ENCRYPTED_DATA_LEN_RANGE else (a, Ok (b + n - a_taglen a))
  | MCtr | MCts | MStream => (a, Ok n)
  | MCbc | MEcb | MCbcPad =>
    if fin then
      if (b + n) mod 16 =? 0 then (a, Ok (b + n)) else fatal a CKR_ENCRYPTED_DATA_LEN_RANGE
    else (a, Ok ((b + n) / 16 * 16))
  | MKw | MKwp => if n mod 8 =? 0 then (a, Ok (if fin then b + n else n / 8 * 8)) else fatal a CKR_ENCRYPTED_DATA_LEN_RANGE
  end.
(* The first checks of decrypt_update, aes.rs:1569-1597. *)
Definition dec_check (a : aes) (n : nat) : aes * result unit :=
  match a_mode a with
  | MCts => if n <? 16 then fatal a CKR_DATA_LEN_RANGE else
            if (a_blocks a =? 0)%N then (a_count a 1, Ok ()) else fatal a CKR_OPERATION_NOT_INITIALIZED
  | MCcm => if a_datalen a + a_taglen a <? n + length (a_buf a) then fatal a CKR_DATA_LEN_RANGE else (a, Ok ())
  | MKw | MKwp => if n mod 8 =? 0 then (a, Ok ()) else fatal a CKR_DATA_LEN_RANGE
  | _ => (a, Ok ())
  end.
(* The room needed by decrypt_update, aes.rs:1600-1650. *)
Definition dec_need (a : aes) (n : nat) : aes * result nat :=
  let b := length (a_buf a) in
  match a_mode a with
  | MCcm => if ccm_large a && negb (n =? a_datalen a + a_taglen a) then fatal a CKR_DATA_LEN_RANGE else
            if a_datalen a + a_taglen a <? n + b then fatal a CKR_DATA_LEN_RANGE else (a, Ok (a_datalen a))
  | MCtr => let '(a1, k) := ctr_count a n in if k then (a1, Ok n) else fatal a CKR_DATA_LEN_RANGE
  | MGcm => (a, Ok (if a_taglen a <? n + b then n + b - a_taglen a else 0))
  | MEcb | MCbc | MCbcPad => (a, Ok ((b + n) / 16 * 16))
  | _ => (a, Ok n)
  end.
(* GCM, aes.rs:1708-1751: the last bytes, as many as the tag has, are kept. *)
Definition feed_gcm (a : aes) (d : bytes) (room : nat) : aes * result bytes :=
  let b := a_buf a in
  let t := a_taglen a in
  if 0 <? length b then
    if t <? length d then
      match cx_update (a_ctx a) b room with
      | None => fatal a CKR_DEVICE_ERROR
      | Some (x, o) =>
        let k := length d - t in
        (* aes.rs:1736: cipher_offset is set to cipher_end in this case too, so that nothing more of [d] is fed *)
        (a_set a x (skipn k d), Ok o)
      end
    else
      let b := b ++ d in
      if t <? length b then
        let k := length b - t in
        match cx_update (a_ctx a) (firstn k b) room with
        | None => fatal (a_set a (a_ctx a) b) CKR_DEVICE_ERROR
        | Some (x, o) => (a_set a x (skipn k b), Ok o)
        end
      else (a_set a (a_ctx a) b, Ok [])
  else if t <? length d then
    let k := length d - t in
    feed_rest (a_set a (a_ctx a) (skipn k d)) (firstn k d) room []
  else (a_set a (a_ctx a) d, Ok []).

(* CCM, aes.rs:1668-1701: the message and its tag are collected first. *)
Definition feed_ccm (a : aes) (d : bytes) (room : nat) : aes * result bytes :=
  let need := a_datalen a + a_taglen a in
  let run (a : aes) (c : bytes) :=
    match cx_update (cx_set_tag (a_ctx a) (skipn (a_datalen a) c)) (firstn (a_datalen a) c) room with
    | None => fatal a CKR_DEVICE_ERROR
    | Some (x, o) => (a_set a x [], Ok o)
    end in
  if length d <? need then
    let b := a_buf a ++ d in
    if length b =? need then run (a_set a (a_ctx a) b) b else (a_set a (a_ctx a) b, Ok [])
  else if length d =? need then run a d else fatal a CKR_DATA_LEN_RANGE.
(* decrypt_update, aes.rs:1564-1818. *)
Definition dec_feed (a : aes) (d : bytes) (room : nat) : aes * result bytes :=
  match a_mode a with
  | MCcm => feed_ccm a d room
  | MGcm => feed_gcm a d room
  | MEcb | MCbc | MCbcPad => feed_blocks a d room
  | MCts => feed_cts a d room
  | _ => feed_rest a d room []
  end.
Definition dec_update (a : aes) (d : bytes) (room : nat) : aes * result bytes :=
  if a_final a then (a, Err CKR_OPERATION_NOT_INITIALIZED) else
  match dec_check a (length d) with
  | (a, Err e) => (a, Err e)
  | (a, Ok _) =>
    match dec_need (a_use a) (length d) with
    | (a, Err e) => (a, Err e)
    | (a, Ok l) => if room <? l then (a, Err CKR_BUFFER_TOO_SMALL) else dec_feed a d room
    end
  end.
(* decrypt_final, aes.rs:1824-1904. *)
Definition dec_final (a : aes) (room : nat) : aes * result bytes :=
  if a_final a then (a, Err CKR_OPERATION_NOT_INITIALIZED) else
  if negb (a_used a) then (a, Err CKR_OPERATION_NOT_INITIALIZED) else
  let a := a_end a in
  match a_mode a with
  | MCcm => if 0 <? length (a_buf a) then (a, Err CKR_DATA_LEN_RANGE) else (a, Ok [])
  | MGcm =>
    if negb (length (a_buf a) =? a_taglen a) then (a, Err CKR_DATA_LEN_RANGE) else
    match cx_final (cx_set_tag (a_ctx a) (a_buf a)) room with
    | None => (a, Err CKR_ENCRYPTED_DATA_INVALID)
    | Some (x, o) => if length o =? 0 then (a_set a x (a_buf a), Ok []) else (a, Err CKR_DEVICE_ERROR)
    end
  | MCtr => if (0 <? a_max a)%N && (a_max a <=? a_blocks a)%N then (a, Err CKR_DATA_LEN_RANGE) else (a, Ok [])
  | MEcb | MCbc =>
    if negb (length (a_buf a) =? 0) then (a, Err CKR_DATA_LEN_RANGE) else
    match cx_final (a_ctx a) 16 with
    | None => (a, Err CKR_ENCRYPTED_DATA_INVALID)
    | Some (x, o) => if length o =? 0 then (a_set a x [], Ok []) else (a, Err CKR_DEVICE_ERROR)
    end
  | MCbcPad =>
    if negb (length (a_buf a) =? 0) then (a, Err CKR_DATA_LEN_RANGE) else
    match cx_final (a_ctx a) room with
    | None => (a, Err CKR_ENCRYPTED_DATA_INVALID)
    | Some (x, o) => (a_set a x [], Ok o)
    end
  | MCts | MStream | MKw | MKwp => (a, Ok [])
  end.
(* decrypt, aes.rs:1551-1560. *)
Definition dec_single (a : aes) (d : bytes) (room : nat) : aes * result bytes :=
  if a_final a then (a, Err CKR_OPERATION_NOT_INITIALIZED) else
  match dec_update a d room with
  | (a, Err e) => (a, Err e)
  | (a, Ok o) =>
    if room <? length o then fatal a CKR_GENERAL_ERROR else
    match dec_final a (room - length o) with
    | (a, Err e) => (a, Err e)
    | (a, Ok o2) => (a, Ok (o ++ o2))
    end
  end.

(* The same operation seen through the functions of the API: encryption.rs:84-130, 159-192, 239-283 for encryption,
   361-409, 438-471, 520-562 for decryption. *)
Definition op_update (enc : bool) := if enc then enc_update else dec_update.
Definition op_final (enc : bool) := if enc then enc_final else dec_final.
Definition op_single (enc : bool) := if enc then enc_single else dec_single.
Definition op_len (enc : bool) := if enc then enc_len else dec_len.

(* C_EncryptUpdate for each piece, with the given room, then C_EncryptFinal: the outputs one after the other, or the
   error of the first call that fails. *)
Fixpoint op_pieces (enc : bool) (a : aes) (l : list (bytes * nat)) (last : nat) : result bytes :=
  match l with
  | [] => snd (op_final enc a last)
  | (d, room) :: r =>
    match op_update enc a d room with
    | (_, Err e) => Err e
    | (a, Ok o) => match op_pieces enc a r last with Ok o2 => Ok (o ++ o2) | Err e => Err e end
    end
  end.
End Aes.
