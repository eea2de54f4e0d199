(** * What a list of functions and libraries looks like. *)
From Verif Require Import Base Types JavaParseSpec.
Open Scope nat_scope.

(** A line is a function name; what follows its last space, if that is not its first byte, is the library. *)
Definition fun_line (line name : str) (lib : option str) : Prop :=
  (line = name /\ ~ In sp (tl line) /\ lib = None) \/
  (exists q, line = name ++ sp :: q /\ name <> [] /\ ~ In sp q /\ optional q lib).
(** Lines end with a newline that is not their first byte; an unfinished last line does not count. *)
Inductive funs : str -> list (str * option str) -> Prop :=
| funs_end s : ~ In nl (tl s) -> funs s []
| funs_line line rest name lib l : line <> [] -> ~ In nl (tl line) -> fun_line line name lib -> funs rest l ->
  funs (line ++ nl :: rest) ((name, lib) :: l).
(** The frames have a name, a number and maybe a library, and nothing else. *)
Fixpoint numbered (i : Z) (l : list (str * option str)) : list gdb_frame :=
  match l with
  | [] => []
  | (name, lib) :: l => mk_gdb_frame (Some name) None i None 4294967295 false ulong_max lib :: numbered (i + 1) l
  end.
(** The names and libraries of the frames that have a name. *)
Definition named (t : gdb_thread) : list (str * option str) :=
  flat_map (fun f => match gf_function_name f with Some name => [(name, gf_library_name f)] | None => [] end) (gt_frames t).
(** Names that come back from a list. *)
Definition plain_name (s : str) : Prop := s <> [] /\ ~ In sp s /\ ~ In nl s.
Definition listable (e : str * option str) : Prop :=
  fst e <> [] /\ ~ In nl (fst e) /\ match snd e with None => ~ In sp (fst e) | Some lib => plain_name lib end.
