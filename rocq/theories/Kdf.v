(* The key derivation functions written in Rust: src/native/pbkdf2.rs, sp800_108.rs, sshkdf.rs, tlskdf.rs and
   simplekdf.rs (non-FIPS build).  Only the computation of the key bytes is modelled here: the sizes asked for come
   from the templates, and the objects that carry the values are those of be_derive in Api.v.  The arithmetic on
   lengths (usize) is unbounded.  A slice out of range is RV_PANIC. *)
From Verif Require Export Mac.
From Coq Require Import Arith.
Local Open Scope nat_scope.

(* v[off..off + len(d)].copy_from_slice(d). *)
Definition write_at (v : bytes) (off : nat) (d : bytes) : result bytes :=
  if off + length d <=? length v then Ok (firstn off v ++ d ++ skipn (off + length d) v) else Err RV_PANIC.
(* v[a..b] *)
Definition slice (v : bytes) (a b : nat) : result bytes :=
  if (a <=? b) && (b <=? length v) then Ok (firstn (b - a) (skipn a v)) else Err RV_PANIC.

(* A keyed MAC as the derivations use it: Mechanism::mac_new with the key, then the Mac trait
   (mechanism.rs: mac, mac_update, mac_final, mac_len, reset). *)
Record macop := Macop {
  f_st : Type; f_new : result f_st; f_once : f_st -> bytes -> nat -> f_st * result bytes;
  f_upd : f_st -> bytes -> f_st * result unit; f_fin : f_st -> nat -> f_st * result bytes;
  f_reset : f_st -> result f_st; f_len : nat }.
(* HMAC with the full length of the hash (mac_new, src/hmac.rs, with a CKM_*_HMAC mechanism and no parameter). *)
Definition hmac_macop (H : hash) (key : bytes) : macop := {|
  f_st := hmac H; f_new := hmac_new H key (h_size H); f_once := hmac_once H; f_upd := hmac_update H;
  f_fin := hmac_final H; f_reset := hmac_reset H; f_len := h_size H |}.
(* AES-CMAC with 16 bytes; its reset is the one of the trait, which fails (mechanism.rs:287-289). *)
Definition cmac_macop (H : hash) : macop := {|
  f_st := cmac H; f_new := Ok (cmac_new H 16); f_once := cmac_once H; f_upd := cmac_update H;
  f_fin := cmac_final H; f_reset := fun _ => Err CKR_GENERAL_ERROR; f_len := 16 |}.

Section Kdf.
Variable F : macop.
Notation hlen := (f_len F).

(* prf_fn, pbkdf2.rs:18-35: a new operation for every call; u_out has hlen bytes. *)
Definition prf_fn (d : bytes) : result bytes :=
  match f_new F with Ok s => snd (f_once F s d hlen) | Err e => Err e end.
Definition xor_bytes (a b : bytes) : bytes := map (fun p => N.lxor (fst p) (snd p)) (combine a b).
(* The inner loop, pbkdf2.rs:66-73: t_i and u_in after [iter] rounds.  The swap makes the output the next input. *)
Fixpoint pbkdf2_rounds (iter : nat) (t u : bytes) : result bytes :=
  match iter with
  | O => Ok t
  | S k => match prf_fn u with Ok o => pbkdf2_rounds k (xor_bytes t o) o | Err e => Err e end
  end.
(* The outer loop, pbkdf2.rs:59-82, from block [b] on with [l] blocks to go. *)
Fixpoint pbkdf2_blocks (l b : nat) (salt : bytes) (iter dklen : nat) (dkm : bytes) : result bytes :=
  match l with
  | O => Ok dkm
  | S l =>
    if (2 ^ 32 <=? N.of_nat (b + 1))%N then Err CKR_GENERAL_ERROR else
    match pbkdf2_rounds iter (repeat 0%N hlen) (salt ++ be 4 (N.of_nat (b + 1))) with
    | Err e => Err e
    | Ok t =>
      let at_ := b * hlen in
      let r := if hlen <? dklen - at_ then hlen else dklen - at_ in
      match write_at dkm at_ (firstn r t) with
      | Ok dkm => pbkdf2_blocks l (b + 1) salt iter dklen dkm
      | Err e => Err e
      end
    end
  end.
(* pbkdf2_derive, pbkdf2.rs:38-86, for a PRF with a known length.  The number of iterations is not checked here nor in
   generate_key (src/pbkdf2.rs:76-156). *)
Definition pbkdf2_derive (salt : bytes) (iter dklen : nat) : result bytes :=
  if (2 ^ 32 - 1 <? N.of_nat (dklen / hlen))%N then Err CKR_KEY_SIZE_RANGE else
  pbkdf2_blocks ((dklen + hlen - 1) / hlen) 0 salt iter dklen (repeat 0%N dklen).

(* Sp800CounterFormat, Sp800DKMLengthFormat and Sp800Params, src/sp800_108.rs:75-96; [g_keys]: the method is
   SUM_OF_KEYS. *)
Record cformat := CFormat { cf_defined : bool; cf_le : bool; cf_bits : nat }.
Record lformat := LFormat { lf_keys : bool; lf_le : bool; lf_bits : nat }.
Inductive sparam := SIter (c : cformat) | SCounter (c : cformat) | SBytes (b : bytes) | SLen (f : lformat).
(* The bytes of a number of [n] bytes. *)
Definition num_bytes (little : bool) (n : nat) (x : N) : bytes := if little then le n x else be n x.
(* ctr_update, sp800_108.rs:135-187. *)
Definition ctr_bytes (c : cformat) (ctr : nat) : result bytes :=
  if negb (cf_defined c) then Err CKR_MECHANISM_PARAM_INVALID else
  match cf_bits c with
  | 8 | 16 | 24 | 32 =>
    if (2 ^ N.of_nat (cf_bits c) - 1 <? N.of_nat ctr)%N then Err CKR_MECHANISM_PARAM_INVALID
    else Ok (num_bytes (cf_le c && negb (cf_bits c =? 8)) (cf_bits c / 8) (N.of_nat ctr))
  | _ => Err CKR_MECHANISM_PARAM_INVALID
  end.
(* dkm_update, sp800_108.rs:194-276.  The length is reduced modulo 2^bits - 1; for 40, 48 and 56 bits the slice of
   5, 6 or 7 bytes is taken from the 4 bytes of a u32. *)
Definition len_bytes (f : lformat) (klen slen : nat) : result bytes :=
  let x := N.of_nat (if lf_keys f then klen else slen) in
  match lf_bits f with
  | 8 | 16 | 24 | 32 | 64 =>
    Ok (num_bytes (lf_le f && negb (lf_bits f =? 8)) (lf_bits f / 8) (x mod (2 ^ N.of_nat (lf_bits f) - 1))%N)
  | 40 | 48 | 56 => Err RV_PANIC
  | _ => Err CKR_MECHANISM_PARAM_INVALID
  end.
Definition feed (s : f_st F) (r : result bytes) : f_st F * result unit :=
  match r with Ok d => f_upd F s d | Err e => (s, Err e) end.
(* counter_updates, sp800_108.rs:284-323. *)
Fixpoint counter_updates (ps : list sparam) (s : f_st F) (ctr klen slen : nat) (seen_iter seen_len : bool)
    : f_st F * result unit :=
  match ps with
  | [] => (s, if seen_iter then Ok tt else Err CKR_MECHANISM_PARAM_INVALID)
  | p :: ps =>
    match p with
    | SIter c =>
      if seen_iter then (s, Err CKR_MECHANISM_PARAM_INVALID) else
      match feed s (ctr_bytes c ctr) with
      | (s, Ok _) => counter_updates ps s ctr klen slen true seen_len | (s, Err e) => (s, Err e) end
    | SCounter _ => (s, Err CKR_MECHANISM_PARAM_INVALID)
    | SBytes b =>
      match feed s (Ok b) with
      | (s, Ok _) => counter_updates ps s ctr klen slen seen_iter seen_len | (s, Err e) => (s, Err e) end
    | SLen f =>
      if seen_len then (s, Err CKR_MECHANISM_PARAM_INVALID) else
      match feed s (len_bytes f klen slen) with
      | (s, Ok _) => counter_updates ps s ctr klen slen seen_iter true | (s, Err e) => (s, Err e) end
    end
  end.
(* feedback_updates, sp800_108.rs:331-379. *)
Fixpoint feedback_updates (ps : list sparam) (s : f_st F) (iv : bytes) (ctr klen slen : nat)
    (seen_iter seen_ctr seen_len : bool) : f_st F * result unit :=
  match ps with
  | [] => (s, if seen_iter then Ok tt else Err CKR_MECHANISM_PARAM_INVALID)
  | p :: ps =>
    match p with
    | SIter c =>
      if seen_iter then (s, Err CKR_MECHANISM_PARAM_INVALID) else
      if cf_defined c then (s, Err CKR_MECHANISM_PARAM_INVALID) else
      match feed s (Ok iv) with
      | (s, Ok _) => feedback_updates ps s iv ctr klen slen true seen_ctr seen_len | (s, Err e) => (s, Err e) end
    | SCounter c =>
      if seen_ctr then (s, Err CKR_MECHANISM_PARAM_INVALID) else
      match feed s (ctr_bytes c ctr) with
      | (s, Ok _) => feedback_updates ps s iv ctr klen slen seen_iter true seen_len | (s, Err e) => (s, Err e) end
    | SBytes b =>
      match feed s (Ok b) with
      | (s, Ok _) => feedback_updates ps s iv ctr klen slen seen_iter seen_ctr seen_len | (s, Err e) => (s, Err e) end
    | SLen f =>
      if seen_len then (s, Err CKR_MECHANISM_PARAM_INVALID) else
      match feed s (len_bytes f klen slen) with
      | (s, Ok _) => feedback_updates ps s iv ctr klen slen seen_iter seen_ctr true | (s, Err e) => (s, Err e) end
    end
  end.
(* key_to_segment_size, sp800_108.rs:126-128. *)
Definition seg_size (key : nat) : nat := (key + hlen - 1) / hlen * hlen.
(* The segments, sp800_108.rs:464-503: [n] more from number [ctr] on; a new operation for each; None as IV: counter
   mode.  The first operation is the one made before the templates are read. *)
Fixpoint sp800_segments (n ctr : nat) (mode : option bytes) (ps : list sparam) (klen slen : nat) (dkm : bytes)
    : result bytes :=
  match n with
  | O => Ok dkm
  | S n =>
    match f_new F with
    | Err e => Err e
    | Ok s =>
      let cursor := ctr * hlen in
      match (match mode with
             | None => counter_updates ps s (ctr + 1) klen slen false false
             | Some iv0 =>
               match (if ctr =? 0 then Ok iv0 else slice dkm (cursor - hlen) cursor) with
               | Ok iv => feedback_updates ps s iv (ctr + 1) klen slen false false false
               | Err e => (s, Err e)
               end
             end) with
      | (s, Err e) => Err e
      | (s, Ok _) =>
        match snd (f_fin F s hlen) with
        | Err e => Err e
        | Ok o => match write_at dkm cursor o with
                  | Ok dkm => sp800_segments n (ctr + 1) mode ps klen slen dkm | Err e => Err e end
        end
      end
    end
  end.
(* The keys cut out of the material, sp800_108.rs:505-517. *)
Fixpoint cut_keys (sizes : list nat) (cursor : nat) (dkm : bytes) : result (list bytes) :=
  match sizes with
  | [] => Ok []
  | k :: r => match slice dkm cursor (cursor + k) with
              | Err e => Err e
              | Ok v => match cut_keys r (cursor + seg_size k) dkm with Ok l => Ok (v :: l) | Err e => Err e end
              end
  end.
(* derive, sp800_108.rs:393-519, from the sizes (CKA_VALUE_LEN) of the keys asked for on. *)
Definition sp800_derive (mode : option bytes) (ps : list sparam) (sizes : list nat) : result (list bytes) :=
  if existsb (fun k => (k =? 0) || (2 ^ 32 - 1 <? N.of_nat k)%N) sizes then Err CKR_KEY_SIZE_RANGE else
  let klen := list_sum sizes in
  let slen := list_sum (map seg_size sizes) in
  match sp800_segments (slen / hlen) 0 mode ps klen slen (repeat 0%N slen) with
  | Ok dkm => cut_keys sizes 0 dkm
  | Err e => Err e
  end.

(* TLSPRF::finish, tlskdf.rs:99-134: the loop of 112-131, [n] bounds the rounds; [ax] is A(x). *)
Fixpoint tls_loop (n : nat) (s : f_st F) (ax seed : bytes) (reqlen outlen : nat) (out : bytes) : result bytes :=
  if reqlen <=? outlen then Ok out else
  match n with
  | O => Ok out
  | S n =>
    match f_reset F s with
    | Err e => Err e
    | Ok s =>
      match f_upd F s ax with
      | (_, Err e) => Err e
      | (s, Ok _) =>
        match f_upd F s seed with
        | (_, Err e) => Err e
        | (s, Ok _) =>
          match f_fin F s hlen with
          | (_, Err e) => Err e
          | (s, Ok o) =>
            match write_at out outlen o with
            | Err e => Err e
            | Ok out =>
              let outlen := outlen + hlen in
              if outlen <? reqlen then
                match f_reset F s with
                | Err e => Err e
                | Ok s =>
                  match f_upd F s ax with
                  | (_, Err e) => Err e
                  | (s, Ok _) =>
                    match f_fin F s hlen with
                    | (_, Err e) => Err e
                    | (s, Ok ax) => tls_loop n s ax seed reqlen outlen out
                    end
                  end
                end
              else tls_loop n s ax seed reqlen outlen out
            end
          end
        end
      end
    end
  end.
(* Vec::resize with zeroes. *)
Definition resize_to (n : nat) (v : bytes) : bytes := firstn n v ++ repeat 0%N (n - length v).
Definition tls_prf (seed : bytes) (reqlen : nat) : result bytes :=
  match f_new F with
  | Err e => Err e
  | Ok s =>
    match f_upd F s seed with
    | (_, Err e) => Err e
    | (s, Ok _) =>
      match f_fin F s hlen with
      | (_, Err e) => Err e
      | (s, Ok ax) =>
        match tls_loop reqlen s ax seed reqlen 0 (repeat 0%N ((reqlen + hlen - 1) / hlen * hlen)) with
        | Ok out => Ok (resize_to reqlen out)
        | Err e => Err e
        end
      end
    end
  end.
(* tls_prf_seed, tlskdf.rs:570-590. *)
Definition tls_seed (label client server context : bytes) (cli_first : bool) : bytes :=
  label ++ (if cli_first then client ++ server else server ++ client) ++ context.
(* derive_mac_key, tlskdf.rs:736-832: the MAC keys, the keys and the IVs of client and server, the lengths in bytes
   (a key length of 0 has been replaced by 48 before, 373-377).  Where the length is 0 there is no key and no IV. *)
Definition tls_keys (label client server : bytes) (maclen keylen ivlen : nat) : result (list bytes) :=
  match tls_prf (tls_seed label client server [] false) (2 * (maclen + keylen + ivlen)) with
  | Err e => Err e
  | Ok dkm =>
    let take i n := slice dkm i (i + n) in
    let two i n (k : nat -> list bytes -> result (list bytes)) acc :=
      if 0 <? n then
        match take i n with
        | Err e => Err e
        | Ok a => match take (i + n) n with Err e => Err e | Ok b => k (i + n + n) (acc ++ [a; b]) end
        end
      else k i acc in
    two 0 maclen (fun i acc => two i keylen (fun i acc => two i ivlen (fun i acc => Ok acc) acc) acc) []
  end.
End Kdf.

(* SSHKDFOperation::derive, sshkdf.rs:118-156: the segments from number [ctr] on, the digest operation of Mac.v. *)
Section Ssh.
Variable H : hash.
Definition ssh_first (g : dig H) (ctr : nat) : dig H := if ctr =? 0 then g else dig_reset H g.
Fixpoint ssh_segments (n ctr : nat) (g : dig H) (key xhash : bytes) (typ : N) (sid : bytes) (value_len curlen : nat)
    (dkm : bytes) : result bytes :=
  match n with
  | O => Ok dkm
  | S n =>
    let len := if value_len <? curlen + h_size H then value_len - curlen else h_size H in
    let g := ssh_first g ctr in
    match dig_update H g key with
    | (_, Err e) => Err e
    | (g, Ok _) =>
      match dig_update H g xhash with
      | (_, Err e) => Err e
      | (g, Ok _) =>
        match (if ctr =? 0 then
                 match dig_update H g [typ] with (g, Ok _) => dig_update H g sid | (g, Err e) => (g, Err e) end
               else match slice dkm 0 curlen with Ok d => dig_update H g d | Err e => (g, Err e) end) with
        | (_, Err e) => Err e
        | (g, Ok _) =>
          match dig_final H g (h_size H) with
          | (_, Err e) => Err e
          | (g, Ok o) =>
            match write_at dkm curlen (firstn len o) with
            | Ok dkm => ssh_segments n (ctr + 1) g key xhash typ sid value_len (curlen + len) dkm
            | Err e => Err e
            end
          end
        end
      end
    end
  end.
Definition ssh_derive (key xhash : bytes) (typ : N) (sid : bytes) (value_len : nat) : result bytes :=
  if (value_len =? 0) || (2 ^ 32 - 1 <? N.of_nat value_len)%N then Err CKR_TEMPLATE_INCONSISTENT else
  ssh_segments ((value_len + h_size H - 1) / h_size H) 0 (dig_new H) key xhash typ sid value_len 0 (repeat 0%N value_len).
End Ssh.

(* SimpleKDFOperation::derive, simplekdf.rs:177-366, from the values of the keys on; [keylen] is the length asked for
   or recommended (271-283). *)
Inductive simple := ConcatKey (v : bytes) | ConcatData (d : bytes) | DataConcat (d : bytes) | XorData (d : bytes)
  | Extract (bit_offset : N).
(* 254-262. *)
Definition simple_out (m : simple) (base : bytes) : nat :=
  match m with
  | ConcatKey d | ConcatData d | DataConcat d => length base + length d
  | XorData d => Nat.min (length base) (length d)
  | Extract _ => length base
  end.
(* The bytes of CKM_EXTRACT_KEY_FROM_KEY, 340-358.  The shift of a u8 by 8 - bit_shift places: when bit_shift is 0 the
   shift by 8 panics if overflow is checked; without the check (the release profile, modelled here) the count is taken
   modulo 8, and nothing is shifted. *)
Definition shr8 (x : N) (n : nat) : N := N.shiftr x (N.of_nat (n mod 8)).
Definition shl8 (x : N) (n : nat) : N := (N.shiftl x (N.of_nat n) mod 256)%N.
Definition extract_byte (base : bytes) (off i : nat) : N :=
  let shift := off mod 8 in
  let first := (off - shift) / 8 in
  N.lor (shl8 (nth ((first + i) mod length base) base 0%N) shift)
        (shr8 (nth ((first + i + 1) mod length base) base 0%N) (8 - shift)).
Definition simple_derive (m : simple) (base : bytes) (keylen : nat) : result bytes :=
  match m with
  | Extract off =>
    (* 285-295: the offset in bytes is compared with the number of bits *)
    if (length base * 8 <? keylen * 8) || (N.of_nat (length base * 8) <? (off + 7) / 8)%N then Err CKR_TEMPLATE_INCONSISTENT
    else if (length base =? 0) && (0 <? keylen) then Err RV_PANIC
    else Ok (map (extract_byte base (N.to_nat off)) (seq 0 keylen))
  | ConcatKey d | ConcatData d =>
    if simple_out m base <? keylen then Err CKR_TEMPLATE_INCONSISTENT else Ok (resize_to keylen (base ++ d))
  | DataConcat d =>
    if simple_out m base <? keylen then Err CKR_TEMPLATE_INCONSISTENT else Ok (resize_to keylen (d ++ base))
  | XorData d =>
    if simple_out m base <? keylen then Err CKR_TEMPLATE_INCONSISTENT
    else Ok (resize_to keylen (xor_bytes d base ++ skipn (length base) d))
  end.
