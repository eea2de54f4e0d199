(** * Address lookups (lib/gdb_sharedlib.c, lib/unstrip.c, lib/elves.c), call graphs (lib/callgraph.c,
      lib/disasm.c), unstrip output (lib/unstrip.c) and the conversion of gdb stacktraces to core
      stacktraces (lib/core_stacktrace.c). *)
From Verif Require Import Base Types UtilsModel.
Open Scope nat_scope.

(* Arithmetic on uint64_t. *)
Definition w64 (z : Z) : Z := (z mod two64)%Z.

(** ** Lookups *)
(* lib/gdb_sharedlib.c:103-121 sr_gdb_sharedlib_find_address *)
Fixpoint sharedlib_loop (libs : list gdb_sharedlib) (address : Z) : option gdb_sharedlib :=
  match libs with
  | [] => None
  | l :: r => if (gl_from l <=? address)%Z && (address <=? gl_to l)%Z then Some l else sharedlib_loop r address
  end.
Definition sr_gdb_sharedlib_find_address (libs : list gdb_sharedlib) (address : Z) : option gdb_sharedlib :=
  if (address =? ulong_max)%Z then None else sharedlib_loop libs address.
(* lib/unstrip.h:37-45 struct sr_unstrip_entry *)
Record unstrip_entry := mk_unstrip { un_start : Z; un_length : Z; un_build_id : str; un_file_name : str; un_mod_name : str }.
(* lib/unstrip.c:100-114 sr_unstrip_find_address *)
Fixpoint sr_unstrip_find_address (entries : list unstrip_entry) (address : Z) : option unstrip_entry :=
  match entries with
  | [] => None
  | e :: r => if (un_start e <=? address)%Z && (address <? w64 (un_start e + un_length e))%Z then Some e else sr_unstrip_find_address r address
  end.
(* lib/elves.h:56-74 struct sr_elf_fde *)
Record elf_fde := mk_fde { fde_exec_base : Z; fde_start_address : Z; fde_length : Z }.
(* lib/elves.c:793-810 sr_elf_find_fde_for_offset *)
Fixpoint sr_elf_find_fde_for_offset (eh_frame : list elf_fde) (offset : Z) : option elf_fde :=
  match eh_frame with
  | [] => None
  | f :: r => if (fde_start_address f <=? offset)%Z && (offset <? w64 (fde_start_address f + fde_length f))%Z then Some f
              else sr_elf_find_fde_for_offset r offset
  end.
(* lib/elves.c:812-829 sr_elf_find_fde_for_address *)
Fixpoint sr_elf_find_fde_for_address (eh_frame : list elf_fde) (address : Z) : option elf_fde :=
  match eh_frame with
  | [] => None
  | f :: r => if (w64 (fde_start_address f + fde_exec_base f) <=? address)%Z
                 && (address <? w64 (fde_start_address f + fde_exec_base f + fde_length f))%Z then Some f
              else sr_elf_find_fde_for_address r address
  end.
(* lib/elves.c:831-845 sr_elf_find_fde_for_start_address *)
Fixpoint sr_elf_find_fde_for_start_address (eh_frame : list elf_fde) (start : Z) : option elf_fde :=
  match eh_frame with
  | [] => None
  | f :: r => if (start =? w64 (fde_start_address f + fde_exec_base f))%Z then Some f else sr_elf_find_fde_for_start_address r start
  end.

(** ** sscanf *)
(* libc sscanf "%lx" (and strtoul in base 16): white space, sign, optional 0x, digits; values that do
   not fit are cut to 2^64-1.  As the C standard has it, "0x" without a digit does not match (glibc
   reads it as 0).  None: no match. *)
Definition is_hex (c : ascii) : bool := mem c hexdigits.
Definition scan_hex (s : str) : option (Z * str) :=
  let s := sr_skip_whitespace s in
  let '(neg, s) := match s with
                   | c :: r => if Ascii.eqb c "-" then (true, r) else if Ascii.eqb c "+" then (false, r) else (false, s)
                   | [] => (false, s)
                   end in
  let s := if starts_with (L "0x") s || starts_with (L "0X") s then skipn 2 s else s in
  match span is_hex s with
  | ([], _) => None
  | (d, rest) =>
    let v := fold_left (fun a c => a * 16 + Z.of_N (digit_val c))%Z d 0%Z in
    Some (if (ulong_max <? v)%Z then ulong_max else if neg then w64 (- v) else v, rest)
  end.

(** ** Instructions *)
(* lib/disasm.c:76-93 sr_disasm_instruction_is_one_of.  The character after a mnemonic (line 84) is
   its terminator, so the second condition always holds. *)
Definition sr_disasm_instruction_is_one_of (instruction : str) (mnemonics : list str) : bool :=
  existsb (fun m => starts_with m instruction) mnemonics.
(* lib/disasm.c:95-111 sr_disasm_instruction_present *)
Definition sr_disasm_instruction_present (instructions mnemonics : list str) : bool :=
  existsb (fun i => sr_disasm_instruction_is_one_of i mnemonics) instructions.
(* lib/disasm.c:113-138 sr_disasm_instruction_parse_single_address_operand; None is false *)
Definition sr_disasm_instruction_parse_single_address_operand (instruction : str) : option Z :=
  let p := sr_skip_whitespace (sr_skip_non_whitespace instruction) in
  match scan_hex p with
  | None => None
  | Some (addr, p) => match sr_skip_whitespace p with [] => Some addr | _ => None end
  end.
(* lib/disasm.c:143-144 call_mnems *)
Definition call_mnems : list str := [L "call"; L "callb"; L "callw"; L "calll"; L "callq"].
Definition call_operand (i : str) : option Z :=
  if sr_disasm_instruction_is_one_of i call_mnems then sr_disasm_instruction_parse_single_address_operand i else None.
(* lib/disasm.c:146-160 the upper bound on the number of calls *)
Fixpoint count_calls (instructions : list str) : nat :=
  match instructions with
  | [] => 0
  | i :: r => (match call_operand i with Some _ => 1 | None => 0 end) + count_calls r
  end.
(* lib/disasm.c:164-191 filling the array *)
Fixpoint fill_calls (instructions : list str) (result : list Z) : list Z :=
  match instructions with
  | [] => result
  | i :: r =>
    match call_operand i with
    | Some address => if existsb (Z.eqb address) result then fill_calls r result else fill_calls r (result ++ [address])
    | None => fill_calls r result
    end
  end.
(* lib/disasm.c:140-195 sr_disasm_get_callee_addresses: the array with its terminator.  The block has
   8 * size + 1 bytes (line 163); [slack] is the number of bytes the allocator gives beyond a
   request.  Writing outside of the block is UB. *)
Definition sr_disasm_get_callee_addresses (slack : nat) (instructions : list str) : res (list Z) :=
  let size := count_calls instructions in
  let result := fill_calls instructions [] ++ [0%Z] in
  if Nat.leb (8 * length result) (8 * size + 1 + slack) then Ok result else UB.

(** ** Call graphs *)
(* lib/callgraph.h:52-71 struct sr_callgraph; [callees] with the terminator *)
Record callgraph_entry := mk_cg { cg_address : Z; cg_callees : list Z }.
(* lib/callgraph.c:158-171 sr_callgraph_find *)
Fixpoint sr_callgraph_find (g : list callgraph_entry) (address : Z) : option callgraph_entry :=
  match g with
  | [] => None
  | e :: r => if (cg_address e =? address)%Z then Some e else sr_callgraph_find r address
  end.
Section Disassembler.
(* The disassembler (sr_disasm_get_function_instructions: libopcodes, or always NULL in a build
   without it): the instructions of the code at an address of a given length, None for NULL. *)
Variable instructions : Z -> Z -> option (list str).
Variable slack : nat.
Variable eh_frame : list elf_fde.
(* lib/callgraph.c:27-68 sr_callgraph_compute; Fail is NULL after an error.  (The start address is used without the
   executable's base here.) *)
Fixpoint callgraph_compute_loop (fdes : list elf_fde) (g : list callgraph_entry) : res (list callgraph_entry) :=
  match fdes with
  | [] => Ok g
  | f :: r =>
    match instructions (fde_start_address f) (fde_length f) with
    | None => Fail
    | Some ins =>
      do callees <- sr_disasm_get_callee_addresses slack ins;
      callgraph_compute_loop r (g ++ [mk_cg (fde_start_address f) callees])
    end
  end.
Definition sr_callgraph_compute : res (list callgraph_entry) := callgraph_compute_loop eh_frame [].
(* lib/callgraph.c:121-140 the loop over the callees; it stops at the first zero.  [extend] is the
   recursive call; reading past the array is UB.  A failed call leaves the graph as it was. *)
Fixpoint callees_loop (extend : list callgraph_entry -> Z -> res (list callgraph_entry)) (callees : list Z) (g : list callgraph_entry) :
  res (list callgraph_entry) :=
  match callees with
  | [] => UB
  | c :: r =>
    if (c =? 0)%Z then Ok g
    else match extend g c with
         | Ok g' => callees_loop extend r g'
         | Fail => callees_loop extend r g
         | UB => UB
         end
  end.
(* lib/callgraph.c:70-143 sr_callgraph_extend; Fail is NULL (with the graph unchanged).  Running out
   of fuel is UB; C51_extend excludes it. *)
Fixpoint callgraph_extend (fuel : nat) (g : list callgraph_entry) (start : Z) : res (list callgraph_entry) :=
  match fuel with
  | 0 => UB
  | S fuel =>
    match sr_callgraph_find g start with
    | Some _ => Ok g
    | None =>
      match sr_elf_find_fde_for_start_address eh_frame start with
      | None => Fail
      | Some fde =>
        let address := w64 (fde_exec_base fde + fde_start_address fde) in
        match instructions address (fde_length fde) with
        | None => Fail
        | Some ins =>
          do callees <- sr_disasm_get_callee_addresses slack ins;
          callees_loop (callgraph_extend fuel) callees (g ++ [mk_cg address callees])
        end
      end
    end
  end.
Definition sr_callgraph_extend (g : list callgraph_entry) (start : Z) : res (list callgraph_entry) :=
  callgraph_extend (S (length eh_frame)) g start.
End Disassembler.

(** ** Unstrip output *)
(* libc sscanf "0x%lx+0x%lx %n" at lib/unstrip.c:42-43; None: less than two conversions *)
Definition scan_range (line : str) : option (Z * Z * str) :=
  if starts_with (L "0x") line then
    match scan_hex (skipn 2 line) with
    | Some (start, s) =>
      if starts_with (L "+0x") s then
        match scan_hex (skipn 3 s) with
        | Some (length, s) => Some (start, length, sr_skip_whitespace s)
        | None => None
        end
      else None
    | None => None
    end
  else None.
(* lib/unstrip.c:93-94 eat_line *)
Fixpoint eat_line (s : str) : str :=
  match s with
  | [] => []
  | c :: r => if Ascii.eqb c nl then r else eat_line r
  end.
(* lib/unstrip.c:51-76 the fields after the range; the rest starts after the module name *)
Definition unstrip_fields (start length : Z) (line : str) : unstrip_entry * str :=
  let '(build_id, line) := span is_hex line in
  let line := sr_skip_whitespace (sr_skip_non_whitespace line) in
  let '(file_name, line) := span (fun c => negb (is_space c)) line in
  let line := sr_skip_whitespace line in
  let line := sr_skip_whitespace (sr_skip_non_whitespace line) in
  let '(mod_name, line) := span (fun c => negb (is_space c)) line in
  (mk_unstrip start length build_id file_name mod_name, line).
(* lib/unstrip.c:28-98 sr_unstrip_parse.  Running out of fuel is UB; C59_total excludes it. *)
Fixpoint unstrip_loop (fuel : nat) (line : str) : res (list unstrip_entry) :=
  match line with
  | [] => Ok []
  | _ =>
    match fuel with
    | 0 => UB
    | S fuel =>
      match scan_range line with
      | None => unstrip_loop fuel (eat_line line)
      | Some (start, length, line) =>
        let '(entry, line) := unstrip_fields start length line in
        do r <- unstrip_loop fuel (eat_line line); Ok (entry :: r)
      end
    end
  end.
Definition sr_unstrip_parse (text : str) : res (list unstrip_entry) := unstrip_loop (length text) text.

(** ** From gdb to core stacktraces *)
(* lib/core_stacktrace.c:346-364 one frame *)
Definition core_frame_of_gdb (unstrip : list unstrip_entry) (f : gdb_frame) : core_frame :=
  let address := gf_address f in
  let fn := match gf_function_name f with
            | Some n => if str_eqb n (L "??") then None else Some n
            | None => None
            end in
  match sr_unstrip_find_address unstrip address with
  | Some e => mk_core_frame address (Some (un_build_id e)) (w64 (address - un_start e)) fn (Some (un_file_name e)) None true
  | None => mk_core_frame address None ulong_max fn None None true
  end.
(* lib/core_stacktrace.c:341-367 the frames of a thread.  Line 344 moves to the next frame before the
   current one is used; past the last frame the pointer is NULL and line 347 reads through it: UB. *)
Fixpoint core_frames_of_gdb (unstrip : list unstrip_entry) (frames : list gdb_frame) : res (list core_frame) :=
  match frames with
  | [] => Ok []
  | _ :: next =>
    match next with
    | [] => UB
    | f :: _ => do r <- core_frames_of_gdb unstrip next; Ok (core_frame_of_gdb unstrip f :: r)
    end
  end.
(* lib/core_stacktrace.c:336-374 the threads *)
Fixpoint core_threads_of_gdb (unstrip : list unstrip_entry) (threads : list gdb_thread) : res (list core_thread) :=
  match threads with
  | [] => Ok []
  | t :: r =>
    do frames <- core_frames_of_gdb unstrip (gt_frames t);
    do r <- core_threads_of_gdb unstrip r;
    Ok (mk_core_thread frames :: r)
  end.
(* lib/core_stacktrace.c:302-379 sr_core_stacktrace_create, after parsing: [gdb] is the result of
   sr_gdb_stacktrace_parse, None for NULL; Fail is NULL *)
Definition sr_core_stacktrace_create (gdb : option gdb_stacktrace) (unstrip_text : str) : res core_stacktrace :=
  match gdb with
  | None => Fail
  | Some gdb =>
    do unstrip <- sr_unstrip_parse unstrip_text;
    match unstrip with
    | [] => Fail
    | _ =>
      do threads <- core_threads_of_gdb unstrip (gs_threads gdb);
      Ok (mk_core_stacktrace 0 None None threads false)
    end
  end.
