(** * Normalization of gdb, core and kernel oops stacks (lib/normalize.c, lib/koops_stacktrace.c).

    The frames of a thread are a list; removing a frame by pointer is removing it by position
    (the list editing functions themselves are verified over explicit memory in P_Heap.v).
    Strings are C strings; NULL is [None]. *)
From Verif Require Import Base Types UtilsModel CmpModel JsonModel NormTables.

(* C library strstr != NULL *)
Fixpoint strstr (hay needle : str) : bool :=
  starts_with needle hay || match hay with [] => false | _ :: r => strstr r needle end.

(* lib/normalize.c:32-64 call_match; a NULL source file never matches *)
Definition file_match (source_file : option str) (files : list str) : bool :=
  match source_file with
  | None => false
  | Some s => existsb (fun f => strstr s f) files
  end.
Definition call_match (function_name source_file : option str) (expected : str) (files : list str) : bool :=
  match function_name with
  | None => false
  | Some f => if str_eqb f expected then file_match source_file files else false
  end.
Definition any_call (table : list (str * list str)) (function_name source_file : option str) : bool :=
  existsb (fun r => call_match function_name source_file (fst r) (snd r)) table.
(* lib/normalize.c:66-104 *)
Definition is_removable_glibc_with_above (fn sf : option str) : bool := any_call above_table fn sf.

(* lib/normalize.c:106-146 find_new_function_name_glibc; the macro tests seven variants per function *)
Definition arch_variants (func : str) : list (str * list str) :=
  map (fun suffix => (L "__" ++ func ++ suffix, [func; L "/sysdeps/"; L "libc.so"]))
      [L "_sse2"; L "_sse2_bsf"; L "_ssse3"; L "_ssse3_rep"; L "_ssse3_back"; L "_sse42"]
  ++ [(L "__" ++ func ++ L "_ia32", [func; L "/sysdeps"; L "libc.so"])].
Definition find_new_function_name_glibc (fn sf : option str) : option str :=
  find (fun func => any_call (arch_variants func) fn sf) arch_functions.

(* lib/normalize.c:148-166 remove_func_prefix *)
Definition remove_func_prefix (fn : option str) (prefix : str) (num : nat) : option str :=
  match fn with
  | None => None
  | Some f =>
    if starts_with prefix f then
      let num := if Nat.ltb (length f) num then length f else num in
      Some (skipn num f)
    else Some f
  end.
(* lib/normalize.c:185-216 sr_gdb_frame_is_removable *)
Definition in_word_set (name : str) : option (str * list str) :=
  find (fun r => str_eqb (fst r) name) removable_table.
Definition sr_gdb_frame_is_removable (fn sf : option str) : bool :=
  match fn, sf with
  | Some f, Some _ =>
    match in_word_set f with
    | None => false
    | Some r => file_match sf (snd r)
    end
  | _, _ => false
  end.

(** ** List steps shared by the gdb and the core version (both functions have the same loops) *)
Section Steps.
Context {F : Type}.
(* lib/normalize.c:633-647 sr_glibc_thread_find_exit_frame, lib/core_thread.c:167-181
   sr_core_thread_find_exit_frame: the last one wins.  The frame is identified by its position. *)
Fixpoint find_exit_frame (exit : F -> bool) (i : nat) (l : list F) (result : option nat) : option nat :=
  match l with
  | [] => result
  | f :: r => find_exit_frame exit (S i) r (if exit f then Some i else result)
  end.
(* lib/normalize.c:235-244, 362-374: remove everything above the exit frame and the frame itself *)
Definition cut_exit (exit : F -> bool) (l : list F) : list F :=
  match find_exit_frame exit 0 l None with
  | None => l
  | Some i => tl (skipn i l)
  end.
(* lib/normalize.c:275-299, 406-431: [kept] are the frames before the current one still in the thread *)
Fixpoint sweep (removable above : F -> bool) (kept l : list F) : list F :=
  match l with
  | [] => kept
  | f :: r =>
    let kept := if above f then [] else kept in
    if removable f || above f then sweep removable above kept r
    else sweep removable above (kept ++ [f]) r
  end.
(* lib/normalize.c:312-318, 453-459 *)
Definition drop_first (edge : F -> bool) (l : list F) : list F :=
  match l with
  | f :: r => if edge f then r else l
  | [] => []
  end.
(* lib/normalize.c:330-339, 471-479 *)
Fixpoint drop_last (edge : F -> bool) (l : list F) : list F :=
  match l with
  | [] => []
  | [f] => if edge f then [] else [f]
  | f :: r => f :: drop_last edge r
  end.
(* lib/normalize.c:341-356, 481-500 *)
Fixpoint merge_from (same : F -> F -> bool) (prev : F) (l : list F) : list F :=
  match l with
  | [] => []
  | f :: r => if same prev f then merge_from same prev r else f :: merge_from same f r
  end.
Definition merge_recursive (same : F -> F -> bool) (l : list F) : list F :=
  match l with
  | [] => []
  | f :: r => f :: merge_from same f r
  end.
End Steps.

(** ** gdb *)
(* lib/gdb_frame.c:134-165 sr_gdb_frame_calls_func *)
Definition sr_gdb_frame_calls_func (f : gdb_frame) (name : str) (files : list str) : bool :=
  match gf_function_name f with
  | None => false
  | Some n => if str_eqb n name then file_match (gf_source_file f) files else false
  end.
(* lib/normalize.c:168-183 sr_gdb_is_exit_frame *)
Definition sr_gdb_is_exit_frame (f : gdb_frame) : bool :=
  existsb (fun r => sr_gdb_frame_calls_func f (fst r) (snd r)) gdb_exit_table.
Definition gdb_with_name (f : gdb_frame) (n : option str) : gdb_frame :=
  mk_gdb_frame n (gf_function_type f) (gf_number f) (gf_source_file f) (gf_source_line f)
    (gf_signal_handler_called f) (gf_address f) (gf_library_name f).
(* the four calls of lib/normalize.c:222-228 (and 381-387 for core) *)
Definition remove_prefixes (n : option str) : option str :=
  let n := remove_func_prefix n (L "IA__gdk") (length (L "IA__")) in
  let n := remove_func_prefix n (L "IA__g_") (length (L "IA__")) in
  let n := remove_func_prefix n (L "IA__gtk") (length (L "IA__")) in
  remove_func_prefix n (L "__GI_") (length (L "__GI_")).
(* lib/normalize.c:218-230 sr_normalize_gdb_frame *)
Definition sr_normalize_gdb_frame (f : gdb_frame) : gdb_frame :=
  match gf_source_file f with
  | None => f
  | Some _ => gdb_with_name f (remove_prefixes (gf_function_name f))
  end.
(* lib/normalize.c:258-271 *)
Definition gdb_rename (f : gdb_frame) : gdb_frame :=
  match find_new_function_name_glibc (gf_function_name f) (gf_source_file f) with
  | None => f
  | Some n => gdb_with_name f (Some n)
  end.
Definition gdb_removable (f : gdb_frame) : bool :=
  sr_gdb_frame_is_removable (gf_function_name f) (gf_source_file f).
Definition gdb_removable_with_above (f : gdb_frame) : bool :=
  is_removable_glibc_with_above (gf_function_name f) (gf_source_file f) || sr_gdb_is_exit_frame f.
Definition unknown : str := L "??".
(* lib/normalize.c:312-316 *)
Definition gdb_null_frame (f : gdb_frame) : bool :=
  (gf_address f =? 0)%Z &&
  match gf_function_name f with None => false | Some n => str_eqb n unknown end.
(* lib/normalize.c:346-348 *)
Definition gdb_same_call (prev cur : gdb_frame) : bool :=
  negb (g_strcmp0 (gf_function_name prev) (Some unknown) =? 0)%Z &&
  (g_strcmp0 (gf_function_name prev) (gf_function_name cur) =? 0)%Z.
(* lib/normalize.c:232-357 sr_normalize_gdb_thread *)
Definition sr_normalize_gdb_frames (l : list gdb_frame) : list gdb_frame :=
  let l := cut_exit sr_gdb_is_exit_frame l in
  let l := map sr_normalize_gdb_frame l in
  let l := map gdb_rename l in
  let l := sweep gdb_removable gdb_removable_with_above [] l in
  let l := drop_first gdb_null_frame l in
  let l := drop_last gdb_null_frame l in
  merge_recursive gdb_same_call l.
Definition sr_normalize_gdb_thread (t : gdb_thread) : gdb_thread :=
  mk_gdb_thread (gt_number t) (gt_tid t) (sr_normalize_gdb_frames (gt_frames t)).

(* lib/normalize.c:616-631 sr_gdb_normalize_optimize_thread *)
Fixpoint optimize_frames (l : list gdb_frame) : list gdb_frame :=
  match l with
  | [] => []
  | f :: r =>
    match gf_function_name f with
    | Some n => if str_eqb n (L "main") then optimize_frames r else f :: optimize_frames r
    | None => f :: optimize_frames r
    end
  end.
Definition sr_gdb_normalize_optimize_thread (t : gdb_thread) : gdb_thread :=
  mk_gdb_thread (gt_number t) (gt_tid t) (optimize_frames (gt_frames t)).

(** ** core *)
(* lib/core_frame.c:122-156 sr_core_frame_calls_func: no file names given means any file *)
Definition sr_core_frame_calls_func (f : core_frame) (name : str) (files : list str) : bool :=
  match cf_function_name f with
  | None => false
  | Some n =>
    if str_eqb n name then
      file_match (cf_file_name f) files || match files with [] => true | _ => false end
    else false
  end.
(* lib/core_thread.c:151-165 sr_core_thread_is_exit_frame *)
Definition sr_core_thread_is_exit_frame (f : core_frame) : bool :=
  existsb (fun r => sr_core_frame_calls_func f (fst r) (snd r)) core_exit_table.
Definition core_with (f : core_frame) (name file : option str) : core_frame :=
  mk_core_frame (cf_address f) (cf_build_id f) (cf_build_id_offset f) name file (cf_fingerprint f) (cf_fingerprint_hashed f).
(* lib/normalize.c:380-390 *)
Definition core_prefix (f : core_frame) : core_frame := core_with f (remove_prefixes (cf_function_name f)) (cf_file_name f).
(* lib/normalize.c:392-406 *)
Definition core_rename (f : core_frame) : core_frame :=
  match find_new_function_name_glibc (cf_function_name f) (cf_file_name f) with
  | None => f
  | Some n => core_with f (Some n) (cf_file_name f)
  end.
Definition core_removable (f : core_frame) : bool :=
  sr_gdb_frame_is_removable (cf_function_name f) (cf_file_name f).
Definition core_removable_with_above (f : core_frame) : bool :=
  is_removable_glibc_with_above (cf_function_name f) (cf_file_name f) || sr_core_thread_is_exit_frame f.
(* lib/normalize.c:436-443 *)
Definition core_anonymize (f : core_frame) : core_frame := core_with f (cf_function_name f) (anonymize_path (cf_file_name f)).
(* lib/normalize.c:456-458 *)
Definition core_null_frame (f : core_frame) : bool :=
  (cf_address f =? 0)%Z && match cf_function_name f with None => true | Some _ => false end.
(* lib/normalize.c:486-488 *)
Definition core_same_call (prev cur : core_frame) : bool :=
  match cf_function_name prev with
  | None => false
  | Some _ => (g_strcmp0 (cf_function_name prev) (cf_function_name cur) =? 0)%Z
  end.
(* lib/normalize.c:359-503 sr_normalize_core_thread *)
Definition sr_normalize_core_frames (l : list core_frame) : list core_frame :=
  let l := cut_exit sr_core_thread_is_exit_frame l in
  let l := map core_prefix l in
  let l := map core_rename l in
  let l := sweep core_removable core_removable_with_above [] l in
  let l := map core_anonymize l in
  let l := drop_first core_null_frame l in
  let l := drop_last core_null_frame l in
  merge_recursive core_same_call l.
Definition sr_normalize_core_thread (t : core_thread) : core_thread :=
  mk_core_thread (sr_normalize_core_frames (ct_frames t)).

(** ** Kernel oops *)
(* glibc bsearch (bits/stdlib-bsearch.h) with lib/utils.c:82-86 sr_ptrstrcmp *)
Fixpoint bsearch_loop (fuel : nat) (key : option str) (base : list str) (l u : nat) : res bool :=
  match fuel with
  | O => UB
  | S fuel =>
    if Nat.ltb l u then
      let idx := Nat.div (l + u) 2 in
      match nth_error base idx with
      | None => UB
      | Some p =>
        let c := g_strcmp0 key (Some p) in
        if (c <? 0)%Z then bsearch_loop fuel key base l idx
        else if (c >? 0)%Z then bsearch_loop fuel key base (S idx) u
        else Ok true
      end
    else Ok false
  end.
Definition bsearch (key : option str) (base : list str) : res bool :=
  bsearch_loop (S (length base)) key base 0 (length base).
(* lib/koops_stacktrace.c:826-837 *)
Definition koops_cut_suffix (f : koops_frame) : koops_frame :=
  match kf_function_name f with
  | None => f
  | Some n =>
    match strchrnul n "." with
    | (_, []) => f
    | (before, _) =>
      mk_koops_frame (kf_address f) (kf_reliable f) (Some before) (kf_function_offset f) (kf_function_length f)
        (kf_module_name f) (kf_from_address f) (kf_from_function_name f) (kf_from_function_offset f)
        (kf_from_function_length f) (kf_from_module_name f) (kf_special_stack f)
    end
  end.
(* lib/koops_stacktrace.c:857-878 *)
Fixpoint koops_remove (l : list koops_frame) : res (list koops_frame) :=
  match l with
  | [] => Ok []
  | f :: r =>
    do in_blacklist <- bsearch (kf_function_name f) koops_blacklist;
    do r <- koops_remove r;
    match kf_module_name f with
    | None => if in_blacklist then Ok r else Ok (f :: r)
    | Some _ => Ok (f :: r)
    end
  end.
(* lib/koops_stacktrace.c:820-879 sr_normalize_koops_stacktrace *)
Definition sr_normalize_koops_frames (l : list koops_frame) : res (list koops_frame) :=
  koops_remove (map koops_cut_suffix l).

(** ** Unknown functions of two threads
    The two threads are different objects (the callers in lib/distance.c and lib/gdb_thread.c compare
    distinct threads).  Frames are addressed by position. *)
Definition is_unknown (f : gdb_frame) : bool := (g_strcmp0 (gf_function_name f) (Some unknown) =? 0)%Z.
(* !(a->library_name && b->library_name && strcmp(...)) *)
Definition libs_compatible (a b : gdb_frame) : bool :=
  match gf_library_name a, gf_library_name b with
  | Some x, Some y => (strcmp x y =? 0)%Z
  | _, _ => true
  end.
(* lib/normalize.c:534-548 next_functions_similar; the arguments are frame1->next and frame2->next *)
Definition next_functions_similar (n1 n2 : option gdb_frame) : bool :=
  match n1, n2 with
  | None, None => true
  | Some a, Some b =>
    (g_strcmp0 (gf_function_name a) (gf_function_name b) =? 0)%Z && negb (is_unknown a) && libs_compatible a b
  | _, _ => false
  end.
Definition unknown_name (i : nat) : option str := Some (L "__unknown_function_" ++ print_N (N.of_nat i)).
(* replacing the name of the frame at position [p] *)
Definition rename_at (p i : nat) (l : list gdb_frame) : list gdb_frame :=
  match nth_error l p with
  | None => l
  | Some f => firstn p l ++ gdb_with_name f (unknown_name i) :: skipn (S p) l
  end.
(* lib/normalize.c:567-571 *)
Definition first_pair (l1 l2 : list gdb_frame) : bool :=
  match nth_error l1 0, nth_error l2 0 with
  | Some f1, Some f2 =>
    is_unknown f1 && is_unknown f2 && libs_compatible f1 f2 && next_functions_similar (nth_error l1 1) (nth_error l2 1)
  | _, _ => false
  end.
(* lib/normalize.c:592-600, curr_frame1 at position p, curr_frame2 at position q, both at least 1 *)
Definition later_pair (l1 l2 : list gdb_frame) (p q : nat) : bool :=
  match nth_error l1 p, nth_error l2 q, nth_error l1 (p - 1), nth_error l2 (q - 1) with
  | Some f1, Some f2, Some prev1, Some prev2 =>
    is_unknown f2 && libs_compatible f1 f2 && negb (is_unknown prev2) &&
    next_functions_similar (nth_error l1 (S p)) (nth_error l2 (S q)) &&
    (g_strcmp0 (gf_function_name prev1) (gf_function_name prev2) =? 0)%Z && libs_compatible prev1 prev2
  | _, _, _, _ => false
  end.
(* lib/normalize.c:586-613; [i] is the int counter, which a list that fits in memory cannot overflow *)
Fixpoint pair_loop (ps : list nat) (l1 l2 : list gdb_frame) (i : nat) : list gdb_frame * list gdb_frame :=
  match ps with
  | [] => (l1, l2)
  | p :: ps =>
    match nth_error l1 p with
    | Some f1 =>
      if is_unknown f1 then
        match find (later_pair l1 l2 p) (seq 1 (length l2 - 1)) with
        | Some q => pair_loop ps (rename_at p i l1) (rename_at q i l2) (S i)
        | None => pair_loop ps l1 l2 i
        end
      else pair_loop ps l1 l2 i
    | None => pair_loop ps l1 l2 i
    end
  end.
(* lib/normalize.c:550-614 sr_normalize_gdb_paired_unknown_function_names *)
Definition sr_normalize_gdb_paired_unknown_function_names (l1 l2 : list gdb_frame) : list gdb_frame * list gdb_frame :=
  match l1, l2 with
  | [], _ | _, [] => (l1, l2)
  | _, _ =>
    if first_pair l1 l2 then pair_loop (seq 1 (length l1 - 1)) (rename_at 0 0 l1) (rename_at 0 0 l2) 1
    else pair_loop (seq 1 (length l1 - 1)) l1 l2 0
  end.

(** ** Optimised thread *)
(* lib/gdb_sharedlib.c:104-121 sr_gdb_sharedlib_find_address *)
Definition sr_gdb_sharedlib_find_address (libs : list gdb_sharedlib) (address : Z) : option gdb_sharedlib :=
  if (address =? ulong_max)%Z then None
  else find (fun l => (gl_from l <=? address)%Z && (address <=? gl_to l)%Z) libs.
(* C library strrchr(s, '/') + 1, or s *)
Definition after_last_slash (s : str) : str := rev (fst (span (fun c => negb (Ascii.eqb c "/")) (rev s))).
(* s up to and including the first ".so", or all of s *)
Fixpoint upto_so (s : str) : str :=
  if starts_with (L ".so") s then L ".so"
  else match s with [] => [] | c :: r => c :: upto_so r end.
(* lib/gdb_thread.c:524-553 sr_gdb_thread_set_libnames; strrchr on a NULL soname is undefined *)
Fixpoint sr_gdb_thread_set_libnames (libs : list gdb_sharedlib) (l : list gdb_frame) : res (list gdb_frame) :=
  match l with
  | [] => Ok []
  | f :: r =>
    do f <- match sr_gdb_sharedlib_find_address libs (gf_address f) with
            | None => Ok f
            | Some lib =>
              match gl_soname lib with
              | None => UB
              | Some soname =>
                Ok (mk_gdb_frame (gf_function_name f) (gf_function_type f) (gf_number f) (gf_source_file f)
                      (gf_source_line f) (gf_signal_handler_called f) (gf_address f)
                      (Some (upto_so (after_last_slash soname))))
              end
            end;
    do r <- sr_gdb_thread_set_libnames libs r;
    Ok (f :: r)
  end.
(* lib/gdb_thread.c:556-582 sr_gdb_thread_get_optimized; [libs] empty is a NULL list *)
Definition sr_gdb_thread_get_optimized (t : gdb_thread) (libs : list gdb_sharedlib) (max_frames : Z) : res gdb_thread :=
  do l <- match libs with [] => Ok (gt_frames t) | _ => sr_gdb_thread_set_libnames libs (gt_frames t) end;
  let l := sr_normalize_gdb_frames l in
  let l := optimize_frames l in
  let l := filter (fun f => match gf_function_name f with None => false | Some _ => true end) l in
  let l := if (0 <? max_frames)%Z then firstn (Z.to_nat max_frames) l else l in
  Ok (mk_gdb_thread (gt_number t) (gt_tid t) l).
