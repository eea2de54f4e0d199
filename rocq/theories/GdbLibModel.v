(** * Shared libraries of a gdb stack trace, and the whole stack trace parser. *)
From Verif Require Import Base Types UtilsModel RpmModel LookupModel GdbParseModel.
Open Scope nat_scope.

(* lib/gdb_sharedlib.c:135-158: the title of the section from one place on; None is "continue" *)
Definition section_title (s : str) : option str :=
  if starts_with (L "From") s then
    let t := snd (span is_space (skipn 4 s)) in
    if starts_with (L "To") t then
      let t := snd (span is_space (skipn 2 t)) in
      if starts_with (L "Syms Read") t then
        let t := snd (span is_space (skipn 9 t)) in
        if starts_with (L "Shared Object Library" ++ [nl]) t then Some (skipn 22 t) else None
      else None
    else None
  else None.
(* lib/gdb_sharedlib.c:123-163 find_sharedlib_section_start.  The strstr loop visits the places where
   "From" stands in order; here every place is visited, with the test of the character before it
   (true also at the beginning of the input). *)
Fixpoint find_section (line_start : bool) (s : str) : option str :=
  match (if line_start then section_title s else None) with
  | Some r => Some r
  | None => match s with [] => None | c :: r => find_section (Ascii.eqb c nl) r end
  end.
Definition find_sharedlib_section_start (input : str) : option str := find_section true input.

(* lib/gdb_sharedlib.c:180-197: the addresses.  sscanf with "%Lx %Lx" is two times LookupModel.scan_hex,
   which skips white space first.  None is "break". *)
Definition address_skipped (c : ascii) : bool := is_hex c || is_space c || Ascii.eqb c "x".
Definition library_addresses (s : str) : option (Z * Z * str) :=
  if is_space (cur s) then Some (ulong_max, ulong_max, snd (span is_space s))
  else
    match scan_hex s with
    | Some (from, t) =>
      match scan_hex t with
      | Some (to, _) => Some (from, to, snd (span address_skipped s))
      | None => None
      end
    | None => None
    end.
(* lib/gdb_sharedlib.c:199-217: 0 SYMS_OK, 1 SYMS_WRONG, 2 SYMS_NOT_FOUND (include/gdb/sharedlib.h); None is "break" *)
Definition library_symbols (s : str) : option (Z * str) :=
  if starts_with (L "Yes (*)") s then Some (2%Z, skipn 7 s)
  else if starts_with (L "Yes") s then Some (0%Z, skipn 3 s)
  else if starts_with (L "No") s then Some (1%Z, skipn 2 s)
  else None.
(* lib/gdb_sharedlib.c:176-243: one turn of the loop up to the end of the name; None is "break" *)
Definition library_line (s : str) : option (gdb_sharedlib * str) :=
  match library_addresses s with
  | None => None
  | Some (from, to, s) =>
    match library_symbols s with
    | None => None
    | Some (symbols, s) =>
      let '(name, s) := span (fun c => negb (Ascii.eqb c nl)) (snd (span is_space s)) in
      Some (mk_gdb_sharedlib from to symbols (Some name), s)
    end
  end.
(* lib/gdb_sharedlib.c:176-247: the loop.  Line 246 steps over the newline; at the end of the input it
   steps behind the terminator, where the next turn reads. *)
Fixpoint libraries_loop (fuel : nat) (s : str) : res (list gdb_sharedlib) :=
  match fuel with
  | O => UB (* the fuel is enough: theorem libraries_cases *)
  | S fuel =>
    match library_line s with
    | None => Ok []
    | Some (l, []) => UB
    | Some (l, _ :: s) => do ls <- libraries_loop fuel s; Ok (l :: ls)
    end
  end.
(* lib/gdb_sharedlib.c:165-250 sr_gdb_sharedlib_parse; NULL is [] *)
Definition sr_gdb_sharedlib_parse (input : str) : res (list gdb_sharedlib) :=
  match find_sharedlib_section_start input with
  | None => Ok []
  | Some s => libraries_loop (S (length s)) s
  end.

(* lib/gdb_stacktrace.c:441-482 sr_gdb_stacktrace_parse (the location is not modelled), with
   lib/gdb_stacktrace.c:86-94 sr_gdb_stacktrace_init *)
Definition sr_gdb_stacktrace_parse (input : str) : res (gdb_stacktrace * str) :=
  do libs <- sr_gdb_sharedlib_parse input;
  do (crash, threads, rest) <- sr_gdb_stacktrace_parse_threads input;
  Ok (mk_gdb_stacktrace threads crash libs 4294967295, rest).
