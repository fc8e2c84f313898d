(* The slot configuration (src/config.rs): reading the argument of C_Initialize and merging it into the running
   configuration. *)
From Coq Require Export String.
From Verif Require Export Base.
Local Open Scope string_scope. Local Open Scope list_scope.
Local Open Scope N_scope.

Definition U32_MAX : N := 4294967295.

(* config::Slot, src/config.rs:99-129.  The fields that name neither the slot nor its storage (description,
   manufacturer, mechanisms, objects_dedup) are kept in one list of strings: merging only moves them around. *)
Record cslot := CSlot { c_slot : N; c_dbtype : option string; c_dbargs : option string; c_rest : list string }.

(* Option::as_deref and ==, as used in src/config.rs:507-508. *)
Definition ostr_eqb (a b : option string) : bool :=
  match a, b with
  | None, None => true
  | Some x, Some y => String.eqb x y
  | _, _ => false
  end.
(* The test "same dbtype and same dbargs", src/config.rs:507-508 and 517-518. *)
Definition same_db (s x : cslot) : bool := ostr_eqb (c_dbtype s) (c_dbtype x) && ostr_eqb (c_dbargs s) (c_dbargs x).

(* Slot::new, src/config.rs:135-148: the number u32::MAX stands for "no number". *)
Definition new_slot : cslot := CSlot U32_MAX None None [].
Definition with_slot (x : cslot) (n : N) : cslot := CSlot n (c_dbtype x) (c_dbargs x) (c_rest x).

(* str::ends_with, str::contains: Coq's [String.prefix] is str::starts_with. *)
Fixpoint ends_with (suf s : string) : bool :=
  String.eqb suf s || match s with EmptyString => false | String _ r => ends_with suf r end.
Fixpoint contains (sub s : string) : bool :=
  String.prefix sub s || match s with EmptyString => false | String _ r => contains sub r end.
Fixpoint str_drop (n : nat) (s : string) : string :=
  match n, s with O, _ => s | _, EmptyString => EmptyString | S k, String _ r => str_drop k r end.

Section config.
(* What reading a configuration file gives: Config::from_file, src/config.rs:347-351 (the toml parser is not
   modelled); [checks]: the crate is compiled with overflow checks (they are on in the dev profile and off in
   release). *)
Context (F : string -> result (list cslot)) (checks : bool).

(* Config::from_legacy_conf_string, src/config.rs:358-375. *)
Definition from_legacy (name : string) : list cslot :=
  if ends_with ".sql" name then [CSlot U32_MAX (Some "sqlite") (Some name) []] else [].
(* Config::from_nss_init_args, src/config.rs:455-475. *)
Definition from_nss (args : string) : list cslot := [CSlot U32_MAX (Some "nssdb") (Some args) ["All"]].
(* Config::conf_from_args, src/config.rs:479-493: splitn(2, '=') at the first '=', which is the one of the prefix. *)
Definition conf_from_args (args : string) : result (list cslot) :=
  if String.prefix "kryoptic_conf=" args then F (str_drop 14 args)
  else if contains "configDir=" args then Ok (from_nss args)
  else Ok (from_legacy args).

(* The first loop of fix_slot_numbers, src/config.rs:388-396.  slot + 1 cannot overflow since slot <> u32::MAX. *)
Definition next_number (l : list cslot) : N :=
  fold_left (fun n x => if negb (c_slot x =? U32_MAX) then if n <=? c_slot x then c_slot x + 1 else n else n) l 0.
(* The second loop, src/config.rs:397-404: the addition overflows when slotnum is u32::MAX.  The list is changed in
   place, so it comes with the outcome. *)
Fixpoint give_numbers (l : list cslot) (n : N) : list cslot * result unit :=
  match l with
  | [] => ([], Ok tt)
  | x :: r =>
      if c_slot x =? U32_MAX then
        if n =? U32_MAX then
          if checks then (with_slot x n :: r, Err RV_PANIC)
          else let p := give_numbers r 0 in (with_slot x n :: fst p, snd p)
        else let p := give_numbers r (n + 1) in (with_slot x n :: fst p, snd p)
      else let p := give_numbers r n in (x :: fst p, snd p)
  end.
(* Config::fix_slot_numbers, src/config.rs:380-405. *)
Definition fix_slot_numbers (l : list cslot) : list cslot * result unit :=
  if existsb (fun x => c_slot x =? U32_MAX) l then give_numbers l (next_number l) else (l, Ok tt).

(* The inner loop of from_init_args, src/config.rs:502-532, for the new slot x: whether it is already there. *)
Fixpoint seek (l : list cslot) (x : cslot) (found : bool) : result (cslot * bool) :=
  match l with
  | [] => Ok (x, found)
  | s :: r =>
      if c_slot x =? U32_MAX then
        if same_db s x then seek r (with_slot x (c_slot s)) true else seek r x found
      else if negb (c_slot x =? c_slot s) then
        if same_db s x then Err CKR_ARGUMENTS_BAD else seek r x found
      else if negb (ostr_eqb (c_dbtype s) (c_dbtype x)) then Err CKR_ARGUMENTS_BAD
      else if negb (ostr_eqb (c_dbargs s) (c_dbargs x)) then Err CKR_ARGUMENTS_BAD
      else seek r x true
  end.
(* The outer loop, src/config.rs:500-536: slots are added in place, also when a later one is refused. *)
Fixpoint add_new (run new : list cslot) : list cslot * result unit :=
  match new with
  | [] => (run, Ok tt)
  | x :: r =>
      match seek run x false with
      | Err e => (run, Err e)
      | Ok (x', found) => add_new (if found then run else run ++ [x']) r
      end
  end.
(* Config::from_init_args, src/config.rs:497-539. *)
Definition merge (run new : list cslot) : list cslot * result unit :=
  let p := add_new run new in
  match snd p with
  | Err e => (fst p, Err e)
  | Ok _ => fix_slot_numbers (fst p)
  end.
Definition from_init_args (run : list cslot) (args : string) : list cslot * result unit :=
  match conf_from_args args with
  | Err e => (run, Err e)
  | Ok new => merge run new
  end.

(* Config::default_config, src/config.rs:409-426; [name] is the outcome of find_conf, 309-339 (environment and
   directories, not modelled).  The legacy fallback only ever makes one slot, so numbering it cannot overflow. *)
Definition default_config (name : result string) : result (list cslot) :=
  let? n := name in
  match F n with
  | Ok c => Ok c
  | Err _ => Ok (fst (fix_slot_numbers (from_legacy n)))
  end.

(* The configuration part of initialize, src/fns/general.rs:20-47: args is the string behind pReserved, if any. *)
Definition init_config (name : result string) (args : option string) (run : list cslot) :
  list cslot * result unit :=
  let p := match args with None => (run, Ok tt) | Some a => from_init_args run a end in
  match snd p with
  | Err e => (fst p, Err e)
  | Ok _ =>
      match fst p with
      | [] => match default_config name with
              | Ok c => (c, Ok tt)
              | Err _ => (fst p, Err CKR_TOKEN_NOT_PRESENT)
              end
      | _ => (fst p, Ok tt)
      end
  end.

(* The calls that touch the running configuration: C_Initialize, and C_Finalize which empties it
   (src/fns/general.rs:100-101).  The environment override of the point encoding (general.rs:49) is left out. *)
Inductive ccall := CInit (name : result string) (args : option string) | CFinalize.
Definition conf_step (run : list cslot) (c : ccall) : list cslot :=
  match c with
  | CInit name args => fst (init_config name args run)
  | CFinalize => []
  end.
Definition conf_run (l : list ccall) : list cslot := fold_left conf_step l [].
End config.
