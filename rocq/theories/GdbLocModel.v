(** * Where and why a gdb text is refused (the location in lib/gdb_frame.c, lib/gdb_thread.c, lib/gdb_stacktrace.c).

      The parsers of GdbParseModel.v, with the location they leave out.  Simplifications as in LocParseModel.v. *)
From Verif Require Import Base Types UtilsModel ParseModel GdbParseModel LocParseModel.
Open Scope nat_scope.

(** local_input - *input *)
Definition chars (s r : str) : Z := Z.of_nat (length s - length r).
(** sr_location_add of another location *)
Definition add_location (l m : location) : location := sr_location_add l (line m) (column m).

(* lib/gdb_frame.c:684-690, lib/gdb_frame.c:703-709, lib/gdb_frame.c:754-760, lib/gdb_frame.c:774-781 *)
Definition no_space {A} (l : location) : outcome A := Refused (says l (L "Space or newline expected after function name.")).
(* lib/gdb_frame.c:598-800 sr_gdb_frame_parse_function_name; the columns of the parts of a name are added at once *)
Definition gdb_name_loc (s : str) (l : location) : outcome (str * option str * str) :=
  match sr_parse_string (L "??") s with
  | Some (name, r) => Took (name, None, r) (right l 2)
  | None =>
    and_then (match sr_parse_char_limited (L "~*._" ++ sr_alnum) s with
              | Some (first, r) => if Ascii.eqb first "o" then Took ([], s) l else Took ([first], r) (right l 1)
              | None =>
                match sr_gdb_frame_parse_function_name_braces s with
                | Ok (namechunk, r) => Took (namechunk, r) (right l (chars s r))
                | Fail => Refused (says l (L "Expected function name."))
                | UB => Broken
                end
              end) (fun '(buf0, s) l =>
    look (w, r) <- name_loop (S (length s)) at_top s;
    let l := right l (chars s r) in
    let buf0 := buf0 ++ w in
    match sr_parse_char_limited sr_space r with
    | None => no_space l
    | Some (space, s) =>
      and_then (let '(n, r) := sr_skip_string (L "const") s in
                if 0 <? n then
                  let l := right (sr_location_eat_char l space) (Z.of_nat n) in
                  match sr_parse_char_limited sr_space r with
                  | None => no_space l
                  | Some (space', r) => Took (buf0 ++ space :: L "const", space', r) l
                  end
                else Took (buf0, space, s) l) (fun '(buf0, space, s) l =>
      and_then (match sr_gdb_frame_parse_function_name_chunk false s with
                | UB => Broken
                | Fail => Took (None, space, s) l
                | Ok (namechunk, r) =>
                  let l := right (sr_location_eat_char l space) (chars s r) in
                  look (w, q) <- name_loop (S (length r)) at_top r;
                  let l := right l (chars r q) in
                  match sr_parse_char_limited sr_space q with
                  | None => no_space l
                  | Some (space, q) => Took (Some (namechunk ++ w), space, q) l
                  end
                end) (fun '(buf1, space, s) l =>
      and_then (let '(n, r) := sr_skip_string (L "const") s in
                if 0 <? n then
                  let l := right (sr_location_eat_char l space) (Z.of_nat n) in
                  match r with
                  | [] => Took (space :: L "const", []) l
                  | c :: _ => if mem c sr_space then Took (space :: L "const", r) l else no_space l
                  end
                else Took ([], space :: s) l) (fun '(suffix, s) l =>
      match buf1 with
      | Some buf1 => Took (buf1 ++ suffix, Some buf0, s) l
      | None => Took (buf0 ++ suffix, None, s) l
      end)))
    end)
  end.
(* lib/gdb_frame.c:802-856 the loop of sr_gdb_frame_skip_function_args *)
Fixpoint args_loop_loc (depth : nat) (string escape : bool) (s : str) (l : location) : nat * bool * bool * str * location :=
  match s with
  | [] => (depth, string, escape, [], l)
  | c :: r =>
    let '(depth, string) := if negb escape && starts_with (L "(truncated)") s then (0, false) else (depth, string) in
    let eaten := sr_location_eat_char l c in
    if string then
      if escape then args_loop_loc depth string false r eaten
      else if Ascii.eqb c "\" then args_loop_loc depth string true r eaten
      else if Ascii.eqb c dquote then args_loop_loc depth false escape r eaten
      else args_loop_loc depth string escape r eaten
    else if Ascii.eqb c dquote then args_loop_loc depth true escape r eaten
    else if Ascii.eqb c "(" then args_loop_loc (S depth) string escape r eaten
    else if Ascii.eqb c ")" then
      if 0 <? depth then args_loop_loc (depth - 1) string escape r eaten else (depth, string, escape, s, l)
    else args_loop_loc depth string escape r eaten
  end.
(* lib/gdb_frame.c:802-873 sr_gdb_frame_skip_function_args *)
Definition gdb_args_loc (s : str) (l : location) : outcome str :=
  let '(b, s) := sr_skip_char "(" s in
  if negb b then Refused (says l (L "Expected '(' to start function argument list.")) else
  let l := right l 1 in
  match s with
  | [] => Broken
  | _ =>
    let '(depth, string, escape, s, l) := args_loop_loc 0 false false s l in
    if negb (depth =? 0) || string || escape then Refused (says l (L "Unbalanced function parameter list.")) else
    let '(b, s) := sr_skip_char ")" s in
    if b then Took s (right l 1) else Refused (says l (L "Expected ')' to close the function parameter list."))
  end.
(* lib/gdb_frame.c:875-920 sr_gdb_frame_parse_function_call *)
Definition gdb_call_loc (s : str) (l : location) : outcome (str * option str * str) :=
  and_then (gdb_name_loc s l) (fun '(name, type, s) l =>
  let '(n, (ln, col), s) := sr_skip_char_span_location s [sp; nl] in
  if n =? 0 then Refused (says l (L "Expected a space or newline after the function name.")) else
  let l := sr_location_add l ln col in
  and_then (gdb_args_loc s l) (fun s l => Took (name, type, s) l)).
(* lib/gdb_frame.c:922-1009 sr_gdb_frame_parse_address_in_function *)
Definition gdb_address_loc (s : str) (l : location) : Z * outcome (str * option str * str) :=
  match sr_parse_hexadecimal_0xuint64 s with
  | None => (ulong_max, gdb_call_loc s l)
  | Some (address, digits, s) =>
    let l := right l (Z.of_nat digits) in
    (Z.of_N address,
     let '(n, s) := sr_skip_char_sequence sp s in
     let l := right l (Z.of_nat n) in
     if n =? 0 then Refused (says l (L "Space expected after memory address.")) else
     let '(n, s) := sr_skip_string (L "in") s in
     let l := right l (Z.of_nat n) in
     if n =? 0 then Refused (says l (L "Keyword ""in"" expected after memory address.")) else
     let '(n, s) := sr_skip_char_sequence sp s in
     let l := right l (Z.of_nat n) in
     if n =? 0 then Refused (says l (L "Space expected after 'in'.")) else
     and_then (let '(n, r) := sr_skip_string (L "vtable") s in
               let l := right l (Z.of_nat n) in
               if 0 <? n then
                 let '(n, r) := sr_skip_char_sequence sp r in
                 let l := right l (Z.of_nat n) in
                 if n =? 0 then Refused (says l (L "Space expected after 'vtable'.")) else
                 let '(n, r) := sr_skip_string (L "for") r in
                 let l := right l (Z.of_nat n) in
                 if n =? 0 then Refused (says l (L "Keyword ""for"" expected.")) else
                 let '(n, r) := sr_skip_char_sequence sp r in
                 let l := right l (Z.of_nat n) in
                 if n =? 0 then Refused (says l (L "Space expected after 'for'.")) else Took r l
               else Took s l) (fun s l =>
     gdb_call_loc s l))
  end.
(* lib/gdb_frame.c:1011-1084 sr_gdb_frame_parse_file_location *)
Definition gdb_file_loc (s : str) (l : location) : outcome (option str * Z * str) :=
  let '(n, (ln, col), s) := sr_skip_char_span_location s [sp; nl] in
  if n =? 0 then Refused (says l (L "Expected a space or a newline.")) else
  let l := sr_location_add l ln col in
  let '(n, r) := sr_skip_string (L "at") s in
  let '(n, s) := if n =? 0 then sr_skip_string (L "from") s else (n, r) in
  if n =? 0 then Refused (says l (L "Expected 'at' or 'from'.")) else
  let l := right l (Z.of_nat n) in
  let '(n, s) := sr_skip_char_sequence sp s in
  let l := right l (Z.of_nat n) in
  if n =? 0 then Refused (says l (L "Expected a space before file location.")) else
  match sr_parse_char_span (sr_alnum ++ L "_/\+.-") s with
  | None => Refused (says l (L "Expected a file name."))
  | Some (file_name, s) =>
    let l := right l (Z.of_nat (length file_name)) in
    let file := if is_shared_object file_name then None else Some file_name in
    let '(b, s) := sr_skip_char ":" s in
    if b then
      let l := right l 1 in
      match sr_parse_uint32 s with
      | None => Refused (says l (L "Expected a line number."))
      | Some (line, digits, s) => Took (file, Z.of_N line, s) (right l (Z.of_nat digits))
      end
    else Took (file, 4294967295%Z, s) l
  end.
(* lib/gdb_frame.c:1086-1177 sr_gdb_frame_parse_header; what the inner parsers say is lost *)
Definition gdb_header_loc (s : str) (l : location) : outcome (gdb_frame * str) :=
  match sr_gdb_frame_parse_frame_start s with
  | None => Refused (says l (L "Frame start sequence expected."))
  | Some (number, r) =>
    let l := right l (chars s r) in
    let s := r in
    let '(address, call) := gdb_address_loc s sr_location_init in
    match call with
    | Broken => Broken
    | Took (name, type, s) inner =>
      let l := add_location l inner in
      match gdb_file_loc s sr_location_init with
      | Took (file, line, s) inner => Took (mk_gdb_frame (Some name) type number file line false address None, s) (add_location l inner)
      | Refused _ => Took (mk_gdb_frame (Some name) type number None 4294967295 false address None, s) l
      | Broken => Broken
      end
    | Refused _ =>
      match gdb_call_loc s sr_location_init with
      | Broken => Broken
      | Took (name, type, s) inner =>
        let l := add_location l inner in
        match gdb_file_loc s sr_location_init with
        | Took (file, line, s) inner => Took (mk_gdb_frame (Some name) type number file line false address None, s) (add_location l inner)
        | Refused _ => Refused (says l (L "Function call in the frame header misses mandatory ""at file.c:xy"" section"))
        | Broken => Broken
        end
      | Refused _ =>
        let '(n, s) := sr_skip_string (L "<signal handler called>") s in
        if 0 <? n then Took (mk_gdb_frame None None number None 4294967295 true address None, s) (right l (Z.of_nat n))
        else Refused (says l (L "Frame header variant not recognized."))
      end
    end
  end.
(* lib/gdb_frame.c:301-320 findfirstabnul *)
Fixpoint findfirstabnul_loc (s a b : str) (l : location) : str * location :=
  match s with
  | [] => ([], l)
  | c :: r => if starts_with a s then (s, l) else if starts_with b s then (s, l) else findfirstabnul_loc r a b (sr_location_eat_char l c)
  end.
(* lib/gdb_frame.c:322-346 sr_gdb_frame_parse *)
Definition gdb_frame_loc (s : str) (l : location) : outcome (gdb_frame * str) :=
  and_then (gdb_header_loc s l) (fun '(header, _) l =>
  let '(s, l) := findfirstabnul_loc s (nl :: L "#") (nl :: L "Thread") l in
  match s with
  | [] => Took (header, []) l
  | c :: r => Took (header, r) (sr_location_eat_char l c)
  end).
(* lib/gdb_thread.c:437-456 sr_gdb_thread_parse_lwp and the columns added for it *)
Definition lwp_loc (tid : Z) (s : str) (l : location) : Z * str * location :=
  let '(tid, r) := lwp_or tid s in (tid, r, right l (chars s r)).
(* lib/gdb_thread.c:308-405 the header of sr_gdb_thread_parse *)
Definition thread_header_loc (s : str) (l : location) : outcome (Z * Z * str) :=
  let '(n, r) := sr_skip_string (L "Thread") s in
  let l := right l (Z.of_nat n) in
  if n =? 0 then Took (0%Z, gt_tid gdb_thread_new, s) l else
  let '(n, s) := sr_skip_char_sequence sp r in
  let l := right l (Z.of_nat n) in
  if n =? 0 then Refused (says l (L "Space expected after the ""Thread"" keyword.")) else
  match sr_parse_uint32 s with
  | None => Refused (says l (L "Thread number expected."))
  | Some (number, digits, s) =>
    let l := right l (Z.of_nat digits) in
    let '(n, s) := sr_skip_char_sequence sp s in
    let l := right l (Z.of_nat n) in
    if n =? 0 then Refused (says l (L "Space expected after the thread number.")) else
    let '(tid, s, l) := lwp_loc (gt_tid gdb_thread_new) s l in
    and_then
      (let '(n, r) := sr_skip_string (L "(Thread ") s in
       let l := right l (Z.of_nat n) in
       if n =? 0 then Took (tid, s) l else
       let '(n, q) := sr_skip_hexadecimal_0xuint r in
       let '(n, s) := if n =? 0 then sr_skip_uint r else (n, q) in
       let l := right l (Z.of_nat n) in
       if n =? 0 then Refused (says l (L "The thread identification number expected.")) else
       let '(n, s) := sr_skip_char_sequence sp s in
       let l := right l (Z.of_nat n) in
       let '(tid, s, l) := lwp_loc tid s l in
       let '(b, s) := sr_skip_char ")" s in
       if b then Took (tid, s) l else Refused (says l (L "Closing parenthesis for Thread expected."))) (fun '(tid, s) l =>
    let '(n, s) := sr_skip_string (L ":" ++ [nl]) s in
    if n =? 0 then Refused (says l (L "Expected a colon followed by a newline ':\n'.")) else Took (Z.of_N number, tid, s) (sr_location_add l 2 0))
  end.
(* lib/gdb_thread.c:308-424 the loop over the frames of sr_gdb_thread_parse; frame_location is not reset between them *)
Fixpoint gdb_frames_loc (fuel : nat) (s : str) (frame_location l : location) : outcome (list gdb_frame * str * location) :=
  match fuel with
  | O => Broken
  | S fuel =>
    match gdb_frame_loc s frame_location with
    | Broken => Broken
    | Refused frame_location => Took ([], s, frame_location) l
    | Took (f, s) frame_location =>
      and_then (gdb_frames_loc fuel s frame_location (add_location l frame_location)) (fun '(fs, s, frame_location) l => Took (f :: fs, s, frame_location) l)
    end
  end.
(* lib/gdb_thread.c:308-435 sr_gdb_thread_parse *)
Definition gdb_thread_loc (s : str) (l : location) : outcome (gdb_thread * str) :=
  and_then (thread_header_loc s l) (fun '(number, tid, s) l =>
  and_then (gdb_frames_loc (S (length s)) s sr_location_init l) (fun '(frames, s, frame_location) l =>
  match frames with
  | [] => Refused (mk_location (line l) (column l) (message frame_location))
  | _ => Took (mk_gdb_thread number tid frames, s) l
  end)).
(* lib/gdb_stacktrace.c:483-514 an entry, and its line and column *)
Definition entry_loc (s word : str) : res (option (str * Z)) :=
  match sr_strstr_location s (nl :: word) with
  | UB => UB
  | Fail => Ok None
  | Ok (t, (ln, _)) => Ok (Some (tl t, (ln + 1)%Z))
  end.
(* lib/gdb_stacktrace.c:483-561 sr_gdb_stacktrace_parse_header *)
Definition gdb_trace_header_loc (s : str) (l : location) : outcome (option gdb_frame * str) :=
  look first_thread <- entry_loc s (L "Thread ");
  look first_frame <- entry_loc s (L "#");
  let frame (f : str) (ln : Z) := and_then (gdb_frame_loc f (sr_location_add l ln 0)) (fun '(f, s) l => Took (Some f, s) l) in
  match first_thread with
  | Some (thread, ln) =>
    match first_frame with
    | Some (f, fln) => if length thread <? length f then frame f fln else Took (None, thread) (sr_location_add l ln 0)
    | None => Took (None, thread) (sr_location_add l ln 0)
    end
  | None =>
    match first_frame with
    | Some (f, fln) => frame f fln
    | None => Refused (says l (L "No frame and no thread found."))
    end
  end.
(* lib/gdb_stacktrace.c:441-472 the loop over the threads of sr_gdb_stacktrace_parse *)
Fixpoint gdb_threads_loc (fuel : nat) (s : str) (l : location) : outcome (list gdb_thread * str) :=
  match fuel with
  | O => Broken
  | S fuel =>
    match gdb_thread_loc s l with
    | Broken => Broken
    | Refused l => Took ([], s) l
    | Took (t, s) l => and_then (gdb_threads_loc fuel s l) (fun '(ts, s) l => Took (t :: ts, s) l)
    end
  end.
(* lib/gdb_stacktrace.c:441-481 sr_gdb_stacktrace_parse without the shared libraries *)
Definition gdb_trace_loc (s : str) (l : location) : outcome (option gdb_frame * list gdb_thread * str) :=
  and_then (gdb_trace_header_loc s l) (fun '(crash, s) l =>
  and_then (gdb_threads_loc (S (length s)) s l) (fun '(threads, s) l =>
  match threads with
  | [] => Refused l
  | _ => Took (crash, threads, s) l
  end)).
