(** * What the command line program prints, writes and returns. *)
From Verif Require Import Base Types UtilsModel UtilsSpec JsonSpec JsonTypesModel RpmModel RpmSpec SystemModel SystemSpec TextModel NormTables NormSpec UnwindModel FileModel FileSpec
  CliModel.
Open Scope nat_scope.

(** ** Outcomes *)
(** Everything went well: [out] is printed, nothing is said. *)
Definition prints (out : str) : outcome := mk_outcome out [] 0 [].
(** A refusal: something is said, nothing is printed and no file is touched. *)
Definition says (text : str) : outcome := mk_outcome [] [Line text] 1 [].
Definition explains (prefix : str) : outcome := mk_outcome [] [Explained prefix] 1 [].
(** A wrong invocation: how to use the program is printed on the standard output. *)
Definition line (text : str) : str := text ++ [nl].
Definition hint (name : str) : str :=
  line (L "Usage: " ++ name ++ L " COMMAND [OPTION...]") ++ line (L "Try `" ++ name ++ L " --help' or `" ++ name ++ L " --usage' for more information.").
Definition misused (name : str) (err : list said) : outcome := mk_outcome (hint name) err 1 [].
(** A file was written, or tried to be. *)
Definition wrote (file : str) (states : list disk) : outcome := mk_outcome [] [] 0 [(file, states)].
Definition not_written (file : str) (states : list disk) (prefix : str) : outcome := mk_outcome [] [Explained prefix] 1 [(file, states)].

(** ** The name of the program: the last component of the path it is called by *)
Definition called (path name : str) : Prop :=
  path = [] /\ name = L "." \/
  path <> [] /\ Forall (eq "/"%char) path /\ name = L "/" \/
  exists dir slashes, path = dir ++ name ++ slashes /\ name <> [] /\ ~ In "/"%char name /\ Forall (eq "/"%char) slashes /\
    (dir = [] \/ exists d, dir = d ++ L "/").

(** ** The file of "debug normalize" *)
(** A frame with the name of a function and of a library; nothing else is known of it. *)
Definition named_frame (function library : str) (f : gdb_frame) : Prop :=
  gf_function_name f = Some function /\ gf_library_name f = Some library /\ gf_source_file f = Some [] /\
  gf_function_type f = None /\ gf_number f = 0%Z /\ gf_source_line f = 4294967295%Z /\ gf_signal_handler_called f = false /\
  gf_address f = 18446744073709551615%Z.
(** A line holds a function's name, a space and the name of a library; the last one may lack its end or the library.
    What is between two spaces may go over several lines, see C73_swallow_refuted. *)
Inductive listing : str -> list gdb_frame -> Prop :=
| listing_end : listing [] []
| listing_bare function f : function <> [] -> ~ In " "%char function -> named_frame function [] f -> listing function [f]
| listing_last function library f : ~ In " "%char function -> ~ In nl library -> named_frame function (L " " ++ library) f ->
    listing (function ++ L " " ++ library) [f]
| listing_line function library f rest frames : ~ In " "%char function -> ~ In nl library -> named_frame function (L " " ++ library) f ->
    listing rest frames -> listing (function ++ L " " ++ library ++ [nl] ++ rest) (f :: frames).
(** Well-formed files: one line for a pair of names. *)
Definition proper (p : str * str) : Prop := ~ In " "%char (fst p) /\ ~ In nl (fst p) /\ ~ In nl (snd p).
Definition file_of_names (l : list (str * str)) : str := concat (map (fun p => line (fst p ++ L " " ++ snd p)) l).
(** The text of a thread: the names of its functions, each indented by two spaces, and an empty line. *)
Definition thread_text (names : list str) : str := line (L "Thread") ++ concat (map (fun n => line (L "  " ++ n)) names) ++ [nl].

(** ** Numbers as arguments *)
(** The int an unsigned long becomes. *)
Definition becomes_int (v : N) (z : Z) : Prop := (-2147483648 <= z < 2147483648)%Z /\ exists k, Z.of_N v = (z + k * 4294967296)%Z.
(** The number strtoul finds in a text it reads completely: nothing at all is 0, too big is the maximum, and a minus sign
    is taken modulo 2^64. *)
Definition argument (text : str) (v : N) : Prop :=
  text = [] /\ v = 0%N \/
  exists blank sign digits n, text = blank ++ sign ++ digits /\ Forall space_char blank /\ decimal digits n /\ (v < 18446744073709551616)%N /\
    ((18446744073709551616 <= n)%N /\ (sign = [] \/ sign = L "+" \/ sign = L "-") /\ v = 18446744073709551615%N \/
     (n < 18446744073709551616)%N /\ ((sign = [] \/ sign = L "+") /\ v = n \/ sign = L "-" /\ exists k, (v + n = k * 18446744073709551616)%N)).
(** What normalization does to these names: it drops a known prefix, *)
Definition shortened (n m : str) : Prop :=
  (exists p q r, dropped_prefix p q /\ n = p ++ r /\ m = q ++ r) \/ prefix_free (Some n) /\ m = n.
(** and writes neighbouring equal names once, except "??". *)
Inductive collapsed : list str -> list str -> Prop :=
| collapsed_nil : collapsed [] []
| collapsed_one x : collapsed [x] [x]
| collapsed_same x l m : x <> L "??" -> collapsed (x :: l) m -> collapsed (x :: x :: l) m
| collapsed_other x y l m : x <> y \/ x = L "??" -> collapsed (y :: l) m -> collapsed (x :: y :: l) (x :: m).
(** Names that are removed whatever the source file is (the tables of normalization have the empty text as a file name). *)
Definition removed_everywhere (n : str) : Prop :=
  exists files, (In (n, files) removable_table \/ In (n, files) above_table) /\ In [] files.

(** ** Texts *)
Definition lines (l : list str) : str := concat (map line l).
Definition help_text (name : str) : str := lines
  [L "Usage: " ++ name ++ L " COMMAND [OPTION...]"; name ++ L " -- Automatic problem management with anonymous reports"; [];
   L "The following commands are available:";
   L "   abrt-print-report-from-dir   Create report from an ABRT directory";
   L "   abrt-report-dir              Create report from an ABRT directory and";
   L "                                send it to a server";
   L "   abrt-create-core-stacktrace  Create core stacktrace from an ABRT directory";
   L "   debug                        Commands for debugging and development support"].
Definition usage_text (name : str) : str := lines (map (fun s => L "Usage: " ++ name ++ s)
  [L " --version"; L " abrt-print-report-from-dir DIR [OPTION...]"; L " abrt-report-dir DIR URL [OPTION...]";
   L " abrt-create-core-stacktrace DIR [OPTION...]"; L " debug COMMAND [OPTION...]"]).
