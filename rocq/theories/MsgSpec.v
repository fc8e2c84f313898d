(* What an application sees of the IVs of message-based encryption, and what it has to do for the promise to hold. *)
From Verif Require Export Msg.
Local Open Scope N_scope.

(* The parameter of a call that starts a message. *)
Definition param_of (c : mcall) : option mparam :=
  match c with MBegin p _ _ => p | MSingle p _ _ _ _ => p | _ => None end.
(* The IVs that the calls whose parameter satisfies [sel] have put in the caller's buffer, in order. *)
Definition issued (sel : mparam -> bool) (tr : list (mcall * mout)) : list bytes :=
  omap (fun '(c, o) => match param_of c with Some q => if sel q then o_iv o else None | None => None end) tr.
(* The application asks for a counter in the generated bits (CKG_GENERATE is one too), or for a counter added by XOR. *)
Definition wants_counter (q : mparam) : bool := (q_gen q =? CKG_GENERATE) || (q_gen q =? CKG_GENERATE_COUNTER).
Definition wants_xor (q : mparam) : bool := q_gen q =? CKG_GENERATE_COUNTER_XOR.

(* The number of bits of the IV left to the token. *)
Definition free_bits (q : mparam) : N := match q_iv q with Some b => 8 * blen b - q_fixed q | None => 0 end.
(* Every message for which the token makes the IV leaves it [g] bits; buffers hold bytes. *)
Definition same_bits (g : N) (l : list mcall) : Prop :=
  forall c q b, In c l -> param_of c = Some q -> q_iv q = Some b ->
  bytesok b /\ (q_gen q <> CKG_NO_GENERATE -> free_bits q = g).
(* The application passes the same buffer contents every time it asks for a counter added by XOR. *)
Definition same_base (base : bytes) (l : list mcall) : Prop :=
  forall c q, In c l -> param_of c = Some q -> wants_xor q = true -> q_iv q = Some base.

(* The first [n - g] bits of two IVs of [n] bits agree. *)
Definition same_top (g : N) (iv base : bytes) : Prop := length iv = length base /\ unbe iv / 2 ^ g = unbe base / 2 ^ g.

(* An authenticated cipher applied to a whole message: the output and the tag. *)
Definition aead (P : prim) (mode : amode) (enc : bool) (iv aad : bytes) (taglen datalen : nat) (D : bytes) : option (bytes * bytes) :=
  match pr_start P mode enc iv aad taglen datalen with
  | None => None
  | Some s =>
    match mode with
    | MCcm => match pr_shot P s D with Some (s1, o) => Some (o, pr_tag P s1) | None => None end
    | _ => let '(s1, o) := run_bytes P s D in Some (o, pr_tag P s1)
    end
  end.
(* The length of the tag and of the data that the parameter states (GCM gives the tag in bits, and no data length). *)
Definition tag_len (mode : amode) (q : mparam) : nat :=
  match mode with MCcm => N.to_nat (q_tagn q) | _ => N.to_nat ((q_tagn q + 7) / 8) end.
Definition data_len (mode : amode) (q : mparam) : nat := match mode with MCcm => N.to_nat (q_len q) | _ => 0 end.
(* A message in pieces: its start, the pieces but the last, the last.  The parameter is passed with every call. *)
Definition in_parts (p : mparam) (aad : bytes) (rnd : option bytes) (ds : list (option mparam * bytes * nat))
  (p' : mparam) (d : bytes) (room : nat) : list mcall :=
  MBegin (Some p) aad rnd :: map (fun '(q, x, n) => MNext q x n) ds ++ [MLast (Some p') d room].
(* The whole data of a message in pieces, and the whole output. *)
Definition data_of (ds : list (option mparam * bytes * nat)) (d : bytes) : bytes := concat (map (fun '(_, x, _) => x) ds) ++ d.
Definition output (tr : list (mcall * mout)) : bytes := concat (map (fun x => o_data (snd x)) tr).
Definition all_ok (tr : list (mcall * mout)) : Prop := Forall (fun x => exists n, o_res (snd x) = Ok n) tr.
(* What the first call put in the IV buffer, and the last in the tag buffer. *)
Definition iv_of (tr : list (mcall * mout)) : option bytes := match tr with x :: _ => o_iv (snd x) | [] => None end.
Definition tag_of (tr : list (mcall * mout)) : option bytes := match rev tr with x :: _ => o_tag (snd x) | [] => None end.
