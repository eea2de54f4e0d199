(** * The Ruby binding (ruby/lib/satyr.rb).

      Ruby objects stand for C structures they own and that are released when the object is collected.  A C structure
      with everything it owns is one block of memory (that it is, is the subject of C52, C57 and C68); a block that
      has been freed is not used again for another structure.  The only pointer from one block into another is the
      crash thread of a copied core stack trace (C52).  Simplifications: strings passed to C have no NUL bytes (the ffi
      library refuses them) and numbers are in the range of int;
      set_encoding (lines 6-9) does not change the bytes of a string; what the garbage collector collects, and when, is
      part of the history. *)
From Verif Require Import Base Types UtilsModel JsonSpec JsonModel JsonTypesModel ReportModel CrashModel SystemModel TextModel AbrtModel JsonMsgModel.
Open Scope nat_scope.

Section Binding.
Variable tokener : str -> option json.      (* json_tokener_parse_verbose *)
Variable message : str -> str.              (* json_tokener_error_desc of the error, for a text that is not JSON *)
Variable sha1 : str -> str.
Variables package_name package_version : str.

(** ** The library *)
(* lib/report.c:450-472 sr_report_from_json_text with its message (JsonMsgModel.v) *)
Definition report_from_text (text : str) : res (option report * option str) :=
  result (of_text tokener message (report_of package_name package_version) text).
Definition type_of (s : stacktrace) : nat :=
  match s with
  | SCore _ => REPORT_CORE | SPython _ => REPORT_PYTHON | SKoops _ => REPORT_KERNELOOPS | SJava _ => REPORT_JAVA
  | SGdb _ => REPORT_GDB | SRuby _ => REPORT_RUBY | SJs _ => REPORT_JAVASCRIPT
  end.

(** ** Memory *)
(** A report, the stack trace of which is in another block it owns; a stack trace, with the block its crash_thread
    member points into when it is not NULL; a thread. *)
Inductive block := Gone | BReport (r : report) (trace : option nat) | BTrace (s : stacktrace) (home : nat) | BThread (t : thread).
Definition set (a : nat) (b : block) (m : list block) : list block := firstn a m ++ b :: skipn (S a) m.
Definition freed (m : list block) (a : nat) : res (list block) :=
  match nth_error m a with None | Some Gone => UB | Some _ => Ok (set a Gone m) end.
(* lib/report.c:450-472 sr_report_from_json_text: the structures it makes; their addresses *)
Definition place_report (m : list block) (r : report) : list block * nat :=
  match rep_stacktrace r with
  | None => (m ++ [BReport r None], length m)
  | Some s => (m ++ [BTrace s (length m); BReport r (Some (length m))], S (length m))
  end.
(* lib/generic_stacktrace.c:172-179 sr_stacktrace_free *)
Definition sr_stacktrace_free (m : list block) (a : nat) : res (list block) :=
  match nth_error m a with Some (BTrace _ _) => freed m a | _ => UB end.
(* lib/report.c:74-95 sr_report_free *)
Definition sr_report_free (m : list block) (a : nat) : res (list block) :=
  match nth_error m a with
  | Some (BReport _ trace) => do m <- (match trace with Some t => sr_stacktrace_free m t | None => Ok m end); freed m a
  | _ => UB
  end.
(* lib/generic_thread.c:185-192 sr_thread_free *)
Definition sr_thread_free (m : list block) (a : nat) : res (list block) :=
  match nth_error m a with Some (BThread _) => freed m a | _ => UB end.
(* lib/core_stacktrace.c:109-121 sr_core_stacktrace_dup, lib/python_stacktrace.c:114-127, lib/koops_stacktrace.c:142-163,
   lib/java_stacktrace.c:97-107, lib/gdb_stacktrace.c:122-136; [type] is the one the function is for.  The pointer to
   the crash thread is copied. *)
Definition stacktrace_dup (type : nat) (m : list block) (a : nat) : res (list block * nat) :=
  match nth_error m a with
  | Some (BTrace s home) => if Nat.eqb (type_of s) type then Ok (m ++ [BTrace s home], length m) else UB
  | _ => UB
  end.
(* lib/generic_stacktrace.c:153-157 sr_stacktrace_find_crash_thread: the block the thread is in, and which thread of it *)
Definition crash_thread_at (a : nat) (s : stacktrace) (home : nat) : option (nat * nat) :=
  match s with
  | SCore c => match cs_crash_thread c with Some i => Some (home, i) | None => option_map (pair a) (sr_core_stacktrace_find_crash_thread c) end
  | SJava v => option_map (pair a) (sr_java_find_crash_thread v)
  | SGdb g => option_map (pair a) (sr_gdb_stacktrace_find_crash_thread g)
  | _ => Some (a, 0)
  end.
(* lib/generic_thread.c:208-212 sr_thread_dup *)
Definition sr_thread_dup (m : list block) (b i : nat) : res (list block * nat) :=
  match nth_error m b with
  | Some (BTrace s _) =>
    match nth_error (sr_stacktrace_threads s) i with Some t => Ok (m ++ [BThread t], length m) | None => UB end
  | _ => UB
  end.

(** ** Ruby objects *)
Inductive object := RbReport (a : nat) | RbTrace (a : nat) | RbThread (a : nat) | Collected.
Record machine := mk_machine { memory : list block; objects : list object }.
Definition start : machine := mk_machine [] [].
(** The options of duphash that are given. *)
Record options := mk_options { opt_frames : option Z; opt_flags : option N; opt_prefix : option str }.
(** What the program does, and the collector. *)
Inductive op := New (json : str) | GetStacktrace (o : nat) | FindCrashThread (o : nat) | Duphash (o : nat) (opts : options) | Collect (o : nat).
(** A new object, nil, an exception SatyrError, a string, or nothing; [NoObject]: the program holds no such object. *)
Inductive answer := Object (o : nat) | Nil | Raised (m : str) | Text (s : str) | Done | NoObject.
Definition new_object (m : list block) (os : list object) (x : object) : res (machine * answer) :=
  Ok (mk_machine m (os ++ [x]), Object (length os)).

(* ruby/lib/satyr.rb:88-105 Report#initialize; when there is a message the report is not used further *)
Definition report_new (st : machine) (json : str) : res (machine * answer) :=
  do (r, error_msg) <- report_from_text json;
  let '(m, pointer) := match r with None => (memory st, None) | Some r => let '(m, a) := place_report (memory st) r in (m, Some a) end in
  match error_msg with
  | Some message => Ok (mk_machine m (objects st), Raised (L "Failed to parse JSON: " ++ message))
  | None =>
    match pointer with
    | None => Ok (mk_machine m (objects st), Raised (L "Failed to create stacktrace"))
    | Some a => new_object m (objects st) (RbReport a)
    end
  end.
(* ruby/lib/satyr.rb:17-22 enum :report_type, and lines 114-127: the types that have a symbol and a branch *)
Definition ruby_types : list nat := [REPORT_CORE; REPORT_PYTHON; REPORT_KERNELOOPS; REPORT_JAVA; REPORT_GDB].
(* ruby/lib/satyr.rb:107-132 Report#stacktrace *)
Definition report_stacktrace (st : machine) (a : nat) : res (machine * answer) :=
  match nth_error (memory st) a with
  | Some (BReport r trace) =>
    match trace with
    | None => Ok (st, Nil)
    | Some t =>
      if existsb (Nat.eqb (rep_type r)) ruby_types then
        do (m, dup) <- stacktrace_dup (rep_type r) (memory st) t;
        new_object m (objects st) (RbTrace dup)
      else Ok (st, Raised (L "Invalid report type"))
    end
  | _ => UB
  end.
(* ruby/lib/satyr.rb:147-154 Stacktrace#find_crash_thread *)
Definition stacktrace_find_crash_thread (st : machine) (a : nat) : res (machine * answer) :=
  match nth_error (memory st) a with
  | Some (BTrace s home) =>
    match crash_thread_at a s home with
    | None => Ok (st, Raised (L "Could not find crash thread"))
    | Some (b, i) => do (m, dup) <- sr_thread_dup (memory st) b i; new_object m (objects st) (RbThread dup)
    end
  | _ => UB
  end.
(* ruby/lib/satyr.rb:173-181 Thread#duphash; line 24: normal is 1 *)
Definition thread_duphash (st : machine) (a : nat) (opts : options) : res (machine * answer) :=
  let given {A} (x : option A) (default : A) := match x with Some v => v | None => default end in
  match nth_error (memory st) a with
  | Some (BThread t) =>
    do h <- sr_thread_get_duphash sha1 t (given (opt_frames opts) 0%Z) (Some (given (opt_prefix opts) [])) (given (opt_flags opts) 1%N);
    Ok (st, match h with None => Raised (L "Failed to compute duphash") | Some h => Text h end)
  | _ => UB
  end.
(* ruby/lib/satyr.rb:58-60, 66-68, 74-76 release *)
Definition release (m : list block) (x : object) : res (list block) :=
  match x with
  | RbReport a => sr_report_free m a
  | RbTrace a => sr_stacktrace_free m a
  | RbThread a => sr_thread_free m a
  | Collected => Ok m
  end.
Definition set_object (o : nat) (x : object) (os : list object) : list object := firstn o os ++ x :: skipn (S o) os.
Definition step (st : machine) (e : op) : res (machine * answer) :=
  match e with
  | New json => report_new st json
  | GetStacktrace o => match nth_error (objects st) o with Some (RbReport a) => report_stacktrace st a | _ => Ok (st, NoObject) end
  | FindCrashThread o => match nth_error (objects st) o with Some (RbTrace a) => stacktrace_find_crash_thread st a | _ => Ok (st, NoObject) end
  | Duphash o opts => match nth_error (objects st) o with Some (RbThread a) => thread_duphash st a opts | _ => Ok (st, NoObject) end
  | Collect o =>
    match nth_error (objects st) o with
    | None | Some Collected => Ok (st, NoObject)
    | Some x => do m <- release (memory st) x; Ok (mk_machine m (set_object o Collected (objects st)), Done)
    end
  end.
Fixpoint run (st : machine) (h : list op) : res (machine * list answer) :=
  match h with
  | [] => Ok (st, [])
  | e :: h => do (st, x) <- step st e; do (st, xs) <- run st h; Ok (st, x :: xs)
  end.
End Binding.

(** ** Structures as ffi and the C compiler lay them out *)
Inductive ctype := UInt32 | Enum | Pointer | Bool.
(** Offsets of members: each at the next multiple of its alignment. *)
Fixpoint offsets (size align : ctype -> nat) (from : nat) (l : list ctype) : list nat :=
  match l with
  | [] => []
  | t :: l => let at_ := ((from + align t - 1) / align t) * align t in at_ :: offsets size align (at_ + size t) l
  end.
(* ruby/lib/satyr.rb:46-56 ReportStruct: version, type, reporter_name, reporter_version, user_root, user_local,
   operating_system, component_name, rpm_packages, stacktrace *)
Definition ruby_layout : list (string * ctype) :=
  [("version", UInt32); ("type", Enum); ("reporter_name", Pointer); ("reporter_version", Pointer); ("user_root", Bool);
   ("user_local", Bool); ("operating_system", Pointer); ("component_name", Pointer); ("rpm_packages", Pointer); ("stacktrace", Pointer)]%string.
(* include/report.h:46-68 struct sr_report *)
Definition c_layout : list (string * ctype) :=
  [("version", UInt32); ("type", Enum); ("reporter_name", Pointer); ("reporter_version", Pointer); ("user_root", Bool);
   ("user_local", Bool); ("operating_system", Pointer); ("component_name", Pointer); ("rpm_packages", Pointer); ("stacktrace", Pointer);
   ("auth_entries", Pointer); ("serial", UInt32)]%string.
