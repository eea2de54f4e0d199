(** * Specification: address lookups, call graphs, unstrip output. *)
From Verif Require Import Base Types UtilsSpec RpmSpec LookupModel.
Open Scope nat_scope.

(** The first element with a property. *)
Definition first_with {A} (P : A -> Prop) (l : list A) (x : A) : Prop :=
  exists before after, l = before ++ x :: after /\ P x /\ Forall (fun y => ~ P y) before.
Definition finds {A} (P : A -> Prop) (l : list A) (r : option A) : Prop :=
  match r with Some x => first_with P l x | None => Forall (fun y => ~ P y) l end.
Definition uint64 (z : Z) : Prop := (0 <= z < 18446744073709551616)%Z.

(** ** Call targets *)
(** A hexadecimal number as scanf reads it: sign, 0x, digits; a negative one is taken modulo 2^64,
    one that does not fit as 2^64-1. *)
Notation hexadecimal := (numeral hexadecimal_digit 16).
Definition hex_number (text : str) (z : Z) : Prop :=
  exists sign prefix digits n, text = sign ++ prefix ++ digits /\
    (sign = [] \/ sign = L "+" \/ sign = L "-") /\ (prefix = [] \/ prefix = L "0x" \/ prefix = L "0X") /\ hexadecimal digits n /\
    ((18446744073709551615 < n)%N /\ z = 18446744073709551615%Z \/
     (n <= 18446744073709551615)%N /\ sign <> L "-" /\ z = Z.of_N n \/
     (n <= 18446744073709551615)%N /\ sign = L "-" /\ z = ((- Z.of_N n) mod 18446744073709551616)%Z).
(** "call... <address>": a call instruction with an address and nothing else. *)
Definition call_target (instruction : str) (z : Z) : Prop :=
  exists rest blank number blank', instruction = (L "call" ++ rest) ++ blank ++ number ++ blank' /\
    Forall (fun c => ~ space_char c) rest /\ blank <> [] /\ Forall space_char blank /\ Forall space_char blank' /\ hex_number number z.
Definition has_target (instructions : list str) (z : Z) : Prop := exists i, In i instructions /\ call_target i z.
(** The list of callees: every target once, then a zero. *)
Definition callee_list (instructions : list str) (callees : list Z) : Prop :=
  exists l, callees = l ++ [0%Z] /\ NoDup l /\ forall z, In z l <-> has_target instructions z.
(** All calls have different targets. *)
Definition distinct_targets (instructions : list str) : Prop :=
  forall a i b j c z, instructions = a ++ i :: b ++ j :: c -> call_target i z -> ~ call_target j z.

(** ** Call graphs *)
Section Program.
Variable instructions : Z -> Z -> option (list str).
Variable eh_frame : list elf_fde.
(** A function: an unwind entry starts there and its code can be disassembled. *)
Definition starts_at (a : Z) (f : elf_fde) : Prop := a = ((fde_start_address f + fde_exec_base f) mod 18446744073709551616)%Z.
Definition is_function (a : Z) (ins : list str) : Prop :=
  exists f, first_with (starts_at a) eh_frame f /\ instructions a (fde_length f) = Some ins.
Definition a_function (a : Z) : Prop := exists ins, is_function a ins.
(** [a] calls [b]; a call to address 0 hides the calls after it. *)
Definition calls (a b : Z) : Prop :=
  exists ins before i after, is_function a ins /\ ins = before ++ i :: after /\ call_target i b /\ b <> 0%Z /\ ~ has_target before 0.
(** Functions reached from [s] through functions that are not to be avoided. *)
Inductive reaches (avoid : Z -> Prop) (s : Z) : Z -> Prop :=
| reach_start : a_function s -> ~ avoid s -> reaches avoid s s
| reach_call a b : reaches avoid s a -> calls a b -> a_function b -> ~ avoid b -> reaches avoid s b.
Definition in_graph (g : list callgraph_entry) (a : Z) : Prop := exists e, In e g /\ cg_address e = a.
Definition entry_ok (e : callgraph_entry) : Prop := exists ins, is_function (cg_address e) ins /\ callee_list ins (cg_callees e).
(** Plain calls and plain reachability, without regard to calls to address 0. *)
Definition plain_calls (a b : Z) : Prop := exists ins, is_function a ins /\ has_target ins b.
Inductive reachable (s : Z) : Z -> Prop :=
| reachable_start : a_function s -> reachable s s
| reachable_call a b : reachable s a -> plain_calls a b -> a_function b -> reachable s b.
End Program.

(** ** Unstrip output *)
Definition word (s : str) : Prop := s <> [] /\ Forall (fun c => ~ space_char c) s.
(** "0xSTART+0xSIZE BUILDID[@ADDR] FILE DEBUGFILE MODULE", and anything after a blank. *)
Definition unstrip_line (e : unstrip_entry) (line : str) : Prop :=
  exists start n size m address debug rest,
    line = L "0x" ++ start ++ L "+0x" ++ size ++ [sp] ++ un_build_id e ++ address ++ [sp] ++ un_file_name e ++ [sp] ++ debug ++ [sp] ++ un_mod_name e ++ rest /\
    hexadecimal start n /\ (n < 18446744073709551616)%N /\ un_start e = Z.of_N n /\
    hexadecimal size m /\ (m < 18446744073709551616)%N /\ un_length e = Z.of_N m /\
    Forall (fun c => hexadecimal_digit c <> None) (un_build_id e) /\ (forall c r, address = c :: r -> hexadecimal_digit c = None) /\
    word (un_build_id e ++ address) /\ word (un_file_name e) /\ word debug /\ word (un_mod_name e) /\
    (forall c r, rest = c :: r -> space_char c) /\ ~ In nl rest.
Definition other_line (line : str) : Prop := ~ In nl line /\ forall r, line <> L "0x" ++ r.
Inductive unstrip_output : str -> list unstrip_entry -> Prop :=
| uo_end : unstrip_output [] []
| uo_last e line : unstrip_line e line -> unstrip_output line [e]
| uo_last_other line : other_line line -> unstrip_output line []
| uo_entry e line text es : unstrip_line e line -> unstrip_output text es -> unstrip_output (line ++ nl :: text) (e :: es)
| uo_other line text es : other_line line -> unstrip_output text es -> unstrip_output (line ++ nl :: text) es.
