(** * Parser of gdb stack traces: lib/gdb_frame.c 292-1177, lib/gdb_thread.c 308-462, lib/gdb_stacktrace.c 441-561.
    Locations are left out.  A parser that fails leaves its input alone. *)
From Verif Require Import Base Types UtilsModel.
From Verif Require KoopsModel.
Open Scope nat_scope.

(* include/utils.h:41-46 SR_alnum, SR_space *)
Definition sr_alnum : str := L "abcdefghijklmnopqrstuvwxyzABCDEFGHIJKLMNOPQRSTUVWXYZ0123456789".
Definition sr_space : str := [sp; tab; ascii_of_nat 13; nl; ascii_of_nat 11; ascii_of_nat 12].

(* lib/gdb_frame.c:348-372 sr_gdb_frame_parse_frame_start *)
Definition sr_gdb_frame_parse_frame_start (s : str) : option (Z * str) :=
  let '(b, s) := sr_skip_char "#" s in
  if negb b then None else
  match sr_parse_uint32 s with
  | None => None
  | Some (number, _, s) =>
    let '(n, s) := sr_skip_char_sequence sp s in
    if n =? 0 then None else Some (Z.of_N number, s)
  end.

(* lib/gdb_frame.c:392-410 the words of sr_gdb_frame_parseadd_operator, in their order *)
Definition operator_words : list str := [
  L ">>="; L ">>"; L ">="; L ">";
  L "<<="; L "<<"; L "<="; L "<";
  L "->*"; L "->"; L "-";
  L "=="; L "=";
  L "&&"; L "&="; L "&";
  L "||"; L "|="; L "|";
  L "++"; L "+="; L "+";
  L "--"; L "-="; L "-";
  L "/="; L "/";
  L "*="; L "*";
  L "%="; L "%";
  L "!="; L "!";
  L "~";
  L "()";
  L "[]";
  L ",";
  L "^="; L "^";
  L " new[]"; L " new";
  L " delete[]"; L " delete"].
(* lib/gdb_frame.c:382-390 the macro OP *)
Fixpoint first_word (words : list str) (s : str) : option (str * str) :=
  match words with
  | [] => None
  | w :: words =>
    let '(n, r) := sr_skip_string w s in
    if 0 <? n then Some (w, r) else first_word words s
  end.
(* lib/gdb_frame.c:374-415 sr_gdb_frame_parseadd_operator; the added text is returned *)
Definition sr_gdb_frame_parseadd_operator (s : str) : option (str * str) :=
  let '(n, s) := sr_skip_string (L "operator") s in
  if n =? 0 then None else
  match first_word operator_words s with
  | None => None
  | Some (w, r) => Some (L "operator" ++ w, r)
  end.

(* lib/gdb_frame.c:417 FUNCTION_NAME_CHARS *)
Definition function_name_chars : str := sr_alnum ++ L "@.:=!*+-[]~&/%^|,_".
(* lib/gdb_frame.c:419-453 the loop of sr_gdb_frame_parse_function_name_chunk; it returns what it adds to buf.
   At the terminator, strchr finds the terminator of the character set: the terminator is added and the
   loop goes on behind it. *)
Fixpoint chunk_loop (fuel : nat) (space_allowed : bool) (s : str) : res (str * str) :=
  match fuel with
  | O => UB (* the fuel is enough: theorem chunk_exact *)
  | S fuel =>
    match s with
    | [] => Ok ([], s)
    | _ =>
      let '(buf, s) :=
        match sr_gdb_frame_parseadd_operator s with
        | None => ([], s)
        | Some (op, r) =>
          let '(b, r') := sr_skip_char sp r in
          if b then
            let '(b, _) := sr_skip_char "(" r' in
            if b then (op, r) else (op ++ [sp], r')
          else (op, r)
        end in
      match s with
      | [] => UB
      | c :: r =>
        if mem c function_name_chars || (space_allowed && Ascii.eqb c sp) then
          do (w, r) <- chunk_loop fuel space_allowed r; Ok (buf ++ c :: w, r)
        else Ok (buf, s)
      end
    end
  end.
(* lib/gdb_frame.c:419-465 sr_gdb_frame_parse_function_name_chunk *)
Definition sr_gdb_frame_parse_function_name_chunk (space_allowed : bool) (s : str) : res (str * str) :=
  do (buf, r) <- chunk_loop (S (length s)) space_allowed s;
  match buf with [] => Fail | _ => Ok (buf, r) end.

(* lib/gdb_frame.c:481-500 the loop of sr_gdb_frame_parse_function_name_template_args; depth is an int, it
   does not overflow below 2^31 brackets *)
Fixpoint with_loop (depth : nat) (s : str) : str * str :=
  match s with
  | [] => ([], [])
  | c :: r =>
    if Ascii.eqb c "[" then let '(w, t) := with_loop (S depth) r in (c :: w, t)
    else if Ascii.eqb c "]" then
      if depth =? 1 then ([], s) else let '(w, t) := with_loop (depth - 1) r in (c :: w, t)
    else let '(w, t) := with_loop depth r in (c :: w, t)
  end.
(* lib/gdb_frame.c:481-514 sr_gdb_frame_parse_function_name_template_args *)
Definition sr_gdb_frame_parse_function_name_template_args (s : str) : res (str * str) :=
  let '(n, s) := sr_skip_string (L " [with ") s in
  if n =? 0 then Fail else
  let '(w, s) := with_loop 1 s in
  let '(b, s) := sr_skip_char "]" s in
  if b then Ok (L " [with " ++ w ++ L "]", s) else Fail.

(** [a || b] of parsers *)
Definition or_else {A} (a b : res A) : res A := match a with Fail => b | _ => a end.
(** Where a loop over name parts stands: outside of all brackets, in "(...)", in "<...>". *)
Inductive place := at_top | in_braces | in_template.
(* lib/gdb_frame.c:517-538 the loop of sr_gdb_frame_parse_function_name_braces, 561-584 that of
   sr_gdb_frame_parse_function_name_template, 655-682 and 728-751 those of sr_gdb_frame_parse_function_name.
   The loops return what they add to their buffer. *)
Fixpoint name_loop (fuel : nat) (p : place) (s : str) : res (str * str) :=
  match fuel with
  | O => UB (* the fuel is enough: theorem name_loop_cases *)
  | S fuel =>
    let bracket (q : place) (opening closing : ascii) (s : str) :=
      let '(b, s) := sr_skip_char opening s in
      if negb b then Fail else
      do (w, s) <- name_loop fuel q s;
      let '(b, s) := sr_skip_char closing s in
      if b then Ok (opening :: w ++ [closing], s) else Fail in
    match
      or_else (match p with in_template => sr_gdb_frame_parse_function_name_template_args s | _ => Fail end)
      (or_else (sr_gdb_frame_parse_function_name_chunk (match p with at_top => false | _ => true end) s)
      (or_else (bracket in_braces "("%char ")"%char s) (bracket in_template "<"%char ">"%char s)))
    with
    | UB => UB
    | Fail => Ok ([], s)
    | Ok (namechunk, s) => do (w, s) <- name_loop fuel p s; Ok (namechunk ++ w, s)
    end
  end.
(* lib/gdb_frame.c:516-550 sr_gdb_frame_parse_function_name_braces, 552-596
   sr_gdb_frame_parse_function_name_template *)
Definition bracketed (q : place) (opening closing : ascii) (s : str) : res (str * str) :=
  let '(b, s) := sr_skip_char opening s in
  if negb b then Fail else
  do (w, s) <- name_loop (S (length s)) q s;
  let '(b, s) := sr_skip_char closing s in
  if b then Ok (opening :: w ++ [closing], s) else Fail.
Definition sr_gdb_frame_parse_function_name_braces := bracketed in_braces "(" ")".
Definition sr_gdb_frame_parse_function_name_template := bracketed in_template "<" ">".

(* lib/gdb_frame.c:598-800 sr_gdb_frame_parse_function_name: name, type, rest.  At 774 sr_skip_char_limited
   steps over the terminator; 785 steps back, nothing is read in between. *)
Definition sr_gdb_frame_parse_function_name (s : str) : res (str * option str * str) :=
  match sr_parse_string (L "??") s with
  | Some (name, r) => Ok (name, None, r)
  | None =>
    do (buf0, s) <- match sr_parse_char_limited (L "~*._" ++ sr_alnum) s with
                    | Some (first, r) => if Ascii.eqb first "o" then Ok ([], s) else Ok ([first], r)
                    | None => sr_gdb_frame_parse_function_name_braces s
                    end;
    do (w, s) <- name_loop (S (length s)) at_top s;
    let buf0 := buf0 ++ w in
    match sr_parse_char_limited sr_space s with
    | None => Fail
    | Some (space, s) =>
      do (buf0, space, s) <-
        (let '(n, r) := sr_skip_string (L "const") s in
         if 0 <? n then
           match sr_parse_char_limited sr_space r with
           | None => Fail
           | Some (space', r) => Ok (buf0 ++ space :: L "const", space', r)
           end
         else Ok (buf0, space, s));
      do (buf1, space, s) <-
        match sr_gdb_frame_parse_function_name_chunk false s with
        | UB => UB
        | Fail => Ok (None, space, s)
        | Ok (namechunk, s) =>
          do (w, s) <- name_loop (S (length s)) at_top s;
          match sr_parse_char_limited sr_space s with
          | None => Fail
          | Some (space, s) => Ok (Some (namechunk ++ w), space, s)
          end
        end;
      do (suffix, s) <-
        (let '(n, r) := sr_skip_string (L "const") s in
         if 0 <? n then
           match r with
           | [] => Ok (space :: L "const", [])
           | c :: _ => if mem c sr_space then Ok (space :: L "const", r) else Fail
           end
         else Ok ([], space :: s));
      match buf1 with
      | Some buf1 => Ok (buf1 ++ suffix, Some buf0, s)
      | None => Ok (buf0 ++ suffix, None, s)
      end
    end
  end.

(* lib/gdb_frame.c:802-856 the loop of sr_gdb_frame_skip_function_args, from the test of its condition
   *)
Fixpoint args_loop (depth : nat) (string escape : bool) (s : str) : nat * bool * bool * str :=
  match s with
  | [] => (depth, string, escape, [])
  | c :: r =>
    let '(depth, string) := if negb escape && starts_with (L "(truncated)") s then (0, false) else (depth, string) in
    if string then
      if escape then args_loop depth string false r
      else if Ascii.eqb c "\" then args_loop depth string true r
      else if Ascii.eqb c dquote then args_loop depth false escape r
      else args_loop depth string escape r
    else if Ascii.eqb c dquote then args_loop depth true escape r
    else if Ascii.eqb c "(" then args_loop (S depth) string escape r
    else if Ascii.eqb c ")" then
      if 0 <? depth then args_loop (depth - 1) string escape r else (depth, string, escape, s)
    else args_loop depth string escape r
  end.
(* lib/gdb_frame.c:802-873 sr_gdb_frame_skip_function_args; the first turn of the loop does not look for the
   terminator *)
Definition sr_gdb_frame_skip_function_args (s : str) : res str :=
  let '(b, s) := sr_skip_char "(" s in
  if negb b then Fail else
  match s with
  | [] => UB
  | _ =>
    let '(depth, string, escape, s) := args_loop 0 false false s in
    if negb (depth =? 0) || string || escape then Fail else
    let '(b, s) := sr_skip_char ")" s in
    if b then Ok s else Fail
  end.

(* lib/gdb_frame.c:875-920 sr_gdb_frame_parse_function_call *)
Definition sr_gdb_frame_parse_function_call (s : str) : res (str * option str * str) :=
  do (name, type, s) <- sr_gdb_frame_parse_function_name s;
  let '(n, s) := sr_skip_char_span [sp; nl] s in
  if n =? 0 then Fail else
  do s <- sr_gdb_frame_skip_function_args s;
  Ok (name, type, s).

(* lib/gdb_frame.c:922-1009 sr_gdb_frame_parse_address_in_function; the address is written in any case *)
Definition sr_gdb_frame_parse_address_in_function (s : str) : Z * res (str * option str * str) :=
  match sr_parse_hexadecimal_0xuint64 s with
  | None => (ulong_max, sr_gdb_frame_parse_function_call s)
  | Some (address, _, s) =>
    (Z.of_N address,
     let '(n, s) := sr_skip_char_sequence sp s in
     if n =? 0 then Fail else
     let '(n, s) := sr_skip_string (L "in") s in
     if n =? 0 then Fail else
     let '(n, s) := sr_skip_char_sequence sp s in
     if n =? 0 then Fail else
     do s <-
       (let '(n, r) := sr_skip_string (L "vtable") s in
        if 0 <? n then
          let '(n, r) := sr_skip_char_sequence sp r in
          if n =? 0 then Fail else
          let '(n, r) := sr_skip_string (L "for") r in
          if n =? 0 then Fail else
          let '(n, r) := sr_skip_char_sequence sp r in
          if n =? 0 then Fail else Ok r
        else Ok s);
     sr_gdb_frame_parse_function_call s)
  end.

(* lib/gdb_frame.c:1011-1064 the test for a shared object in sr_gdb_frame_parse_file_location *)
Definition is_shared_object (file_name : str) : bool :=
  match KoopsModel.strstr (L "/lib") file_name with
  | None => false
  | Some tmp =>
    match KoopsModel.strstr (L ".so.") tmp with Some _ => true | None => str_eqb (skipn (length tmp - 3) tmp) (L ".so") end
  end.
(* lib/gdb_frame.c:1011-1084 sr_gdb_frame_parse_file_location *)
Definition sr_gdb_frame_parse_file_location (s : str) : option (option str * Z * str) :=
  let '(n, s) := sr_skip_char_span [sp; nl] s in
  if n =? 0 then None else
  let '(n, r) := sr_skip_string (L "at") s in
  let '(n, s) := if n =? 0 then sr_skip_string (L "from") s else (n, r) in
  if n =? 0 then None else
  let '(n, s) := sr_skip_char_sequence sp s in
  if n =? 0 then None else
  match sr_parse_char_span (sr_alnum ++ L "_/\+.-") s with
  | None => None
  | Some (file_name, s) =>
    let file := if is_shared_object file_name then None else Some file_name in
    let '(b, s) := sr_skip_char ":" s in
    if b then
      match sr_parse_uint32 s with
      | None => None
      | Some (line, _, s) => Some (file, Z.of_N line, s)
      end
    else Some (file, 4294967295%Z, s)
  end.

(* lib/gdb_frame.c:1086-1177 sr_gdb_frame_parse_header *)
Definition sr_gdb_frame_parse_header (s : str) : res (gdb_frame * str) :=
  match sr_gdb_frame_parse_frame_start s with
  | None => Fail
  | Some (number, s) =>
    let '(address, call) := sr_gdb_frame_parse_address_in_function s in
    match call with
    | UB => UB
    | Ok (name, type, s) =>
      match sr_gdb_frame_parse_file_location s with
      | Some (file, line, s) => Ok (mk_gdb_frame (Some name) type number file line false address None, s)
      | None => Ok (mk_gdb_frame (Some name) type number None 4294967295 false address None, s)
      end
    | Fail =>
      match sr_gdb_frame_parse_function_call s with
      | UB => UB
      | Ok (name, type, s) =>
        match sr_gdb_frame_parse_file_location s with
        | Some (file, line, s) => Ok (mk_gdb_frame (Some name) type number file line false address None, s)
        | None => Fail
        end
      | Fail =>
        let '(n, s) := sr_skip_string (L "<signal handler called>") s in
        if 0 <? n then Ok (mk_gdb_frame None None number None 4294967295 true address None, s) else Fail
      end
    end
  end.

(* lib/gdb_frame.c:301-320 findfirstabnul *)
Fixpoint findfirstabnul (s a b : str) : str :=
  match s with
  | [] => []
  | _ :: r => if starts_with a s then s else if starts_with b s then s else findfirstabnul r a b
  end.
(* lib/gdb_frame.c:322-346 sr_gdb_frame_parse; the search starts at the beginning of the frame *)
Definition sr_gdb_frame_parse (s : str) : res (gdb_frame * str) :=
  do (header, _) <- sr_gdb_frame_parse_header s;
  let s := findfirstabnul s (nl :: L "#") (nl :: L "Thread") in
  match s with
  | [] => Ok (header, [])
  | _ :: r => Ok (header, r)
  end.

(* lib/gdb_thread.c:437-456 sr_gdb_thread_parse_lwp *)
Definition sr_gdb_thread_parse_lwp (s : str) : option (Z * str) :=
  let '(n, s) := sr_skip_string (L "(LWP ") s in
  if n =? 0 then None else
  match sr_parse_uint32 s with
  | None => None
  | Some (value, _, s) =>
    let '(b, s) := sr_skip_char ")" s in
    if b then Some (Z.of_N value, s) else None
  end.
Definition lwp_or (tid : Z) (s : str) : Z * str :=
  match sr_gdb_thread_parse_lwp s with Some x => x | None => (tid, s) end.
(* lib/gdb_thread.c:308-405 the header of sr_gdb_thread_parse: number, tid *)
Definition thread_header (s : str) : option (Z * Z * str) :=
  let '(n, r) := sr_skip_string (L "Thread") s in
  if n =? 0 then Some (0%Z, gt_tid gdb_thread_new, s) else
  let '(n, s) := sr_skip_char_sequence sp r in
  if n =? 0 then None else
  match sr_parse_uint32 s with
  | None => None
  | Some (number, _, s) =>
    let '(n, s) := sr_skip_char_sequence sp s in
    if n =? 0 then None else
    let '(tid, s) := lwp_or (gt_tid gdb_thread_new) s in
    match
      (let '(n, r) := sr_skip_string (L "(Thread ") s in
       if n =? 0 then Some (tid, s) else
       let '(n, q) := sr_skip_hexadecimal_0xuint r in
       let '(n, s) := if n =? 0 then sr_skip_uint r else (n, q) in
       if n =? 0 then None else
       let '(_, s) := sr_skip_char_sequence sp s in
       let '(tid, s) := lwp_or tid s in
       let '(b, s) := sr_skip_char ")" s in
       if b then Some (tid, s) else None)
    with
    | None => None
    | Some (tid, s) =>
      let '(n, s) := sr_skip_string (L ":" ++ [nl]) s in
      if n =? 0 then None else Some (Z.of_N number, tid, s)
    end
  end.
(* lib/gdb_thread.c:308-424 the loop over the frames of sr_gdb_thread_parse *)
Fixpoint frames_loop (fuel : nat) (s : str) : res (list gdb_frame * str) :=
  match fuel with
  | O => UB (* the fuel is enough: theorem frames_cases *)
  | S fuel =>
    match sr_gdb_frame_parse s with
    | UB => UB
    | Fail => Ok ([], s)
    | Ok (f, s) => do (fs, s) <- frames_loop fuel s; Ok (f :: fs, s)
    end
  end.
(* lib/gdb_thread.c:308-435 sr_gdb_thread_parse *)
Definition sr_gdb_thread_parse (s : str) : res (gdb_thread * str) :=
  match thread_header s with
  | None => Fail
  | Some (number, tid, s) =>
    do (frames, s) <- frames_loop (S (length s)) s;
    match frames with
    | [] => Fail
    | _ => Ok (mk_gdb_thread number tid frames, s)
    end
  end.

(* lib/gdb_stacktrace.c:483-561 sr_gdb_stacktrace_parse_header; the pointers are compared by what follows
   them *)
Definition after_newline (found : res (str * (Z * Z))) : res (option str) :=
  match found with
  | UB => UB
  | Fail => Ok None
  | Ok (s, _) => Ok (Some (tl s))
  end.
Definition sr_gdb_stacktrace_parse_header (s : str) : res (option gdb_frame * str) :=
  do first_thread <- after_newline (sr_strstr_location s (nl :: L "Thread "));
  do first_frame <- after_newline (sr_strstr_location s (nl :: L "#"));
  let frame (s : str) := do (f, s) <- sr_gdb_frame_parse s; Ok (Some f, s) in
  match first_thread with
  | Some thread =>
    match first_frame with
    | Some f => if length thread <? length f then frame f else Ok (None, thread)
    | None => Ok (None, thread)
    end
  | None =>
    match first_frame with
    | Some f => frame f
    | None => Fail
    end
  end.
(* lib/gdb_stacktrace.c:441-472 the loop over the threads of sr_gdb_stacktrace_parse *)
Fixpoint threads_loop (fuel : nat) (s : str) : res (list gdb_thread * str) :=
  match fuel with
  | O => UB (* the fuel is enough: theorem threads_cases *)
  | S fuel =>
    match sr_gdb_thread_parse s with
    | UB => UB
    | Fail => Ok ([], s)
    | Ok (t, s) => do (ts, s) <- threads_loop fuel s; Ok (t :: ts, s)
    end
  end.
(* lib/gdb_stacktrace.c:441-481 sr_gdb_stacktrace_parse without the shared libraries *)
Definition sr_gdb_stacktrace_parse_threads (s : str) : res (option gdb_frame * list gdb_thread * str) :=
  do (crash, s) <- sr_gdb_stacktrace_parse_header s;
  do (threads, s) <- threads_loop (S (length s)) s;
  match threads with
  | [] => Fail
  | _ => Ok (crash, threads, s)
  end.
