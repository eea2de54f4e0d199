(** * Function and library lists of a gdb or Java thread (lib/gdb_thread.c, lib/java_thread.c). *)
From Verif Require Import Base Types JavaParseModel.
Open Scope nat_scope.

(** strchr(s, c) of the C library for c other than the terminator: the text from the first c on *)
Fixpoint strchr (c : ascii) (s : str) : option str :=
  match s with
  | [] => None
  | x :: r => if Ascii.eqb x c then Some s else strchr c r
  end.

(* lib/gdb_thread.c:480-484 the loop that looks for the last space before [next]; pointers into the one
   text are compared by what is left of it *)
Fixpoint last_space (fuel : nat) (c libname next : str) : res str :=
  match fuel with
  | O => Fail
  | S fuel =>
    do c1 <- advance c;
    match strchr sp c1 with
    | None => Ok libname
    | Some c' => if length c' <? length next then Ok libname else last_space fuel c' c' next
    end
  end.
(* lib/gdb_thread.c:473-496 the loop of sr_gdb_thread_parse_funs; [number++] on the largest int is undefined *)
Fixpoint parse_funs_loop (fuel : nat) (number : Z) (input : str) : res (list gdb_frame) :=
  match fuel with
  | O => Fail
  | S fuel =>
    if at_end input then Ok [] else
    do after <- advance input;
    match strchr nl after with
    | None => Ok []
    | Some next =>
      do libname <- last_space (S (length input)) input next next;
      let library := if length next + 1 <? length libname
                     then Some (firstn (length libname - length next - 1) (skipn 1 libname)) else None in
      let frame := mk_gdb_frame (Some (between input libname)) None number None 4294967295 false ulong_max library in
      do input <- advance next;
      if (number =? 2147483647)%Z then UB else
      do frames <- parse_funs_loop fuel (number + 1) input;
      Ok (frame :: frames)
    end
  end.
(* lib/gdb_thread.c:464-498 sr_gdb_thread_parse_funs; a null [input] is the empty thread *)
Definition sr_gdb_thread_parse_funs (input : option str) : res gdb_thread :=
  match input with
  | None => Ok gdb_thread_new
  | Some input =>
    do frames <- parse_funs_loop (S (length input)) 0 input;
    Ok (mk_gdb_thread (gt_number gdb_thread_new) (gt_tid gdb_thread_new) frames)
  end.

(* lib/gdb_thread.c:501-522 sr_gdb_thread_format_funs *)
Definition format_fun (f : gdb_frame) : str :=
  match gf_function_name f with
  | None => []
  | Some name => name ++ match gf_library_name f with Some lib => L " " ++ lib | None => [] end ++ [nl]
  end.
Definition sr_gdb_thread_format_funs (t : gdb_thread) : str := concat (map format_fun (gt_frames t)).
