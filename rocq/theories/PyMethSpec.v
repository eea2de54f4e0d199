(** * What the methods that only some Python types have shall do. *)
From Coq Require Import QArith.
From Verif Require Import Base Types NormModel NormSpec CrashSpec TextModel HeapModel HeapSpec PyModel PySpec PyAttrModel PyAttrSpec PyBaseModel PyBaseSpec.
Open Scope nat_scope.

(** The frames of a kernel oops, normalized: names are cut at the first dot, then the frames of the kernel proper whose
    name is in the list are left out (C25). *)
Definition normalized_koops (fs gs : list koops_frame) : Prop := exists ms, Forall2 cut_name fs ms /\ kept (fun f => ~ koops_boring f) ms gs.
Definition with_frames (s : koops_stacktrace) (fs : list koops_frame) : koops_stacktrace :=
  mk_koops_stacktrace (ks_version s) (ks_taint s) (ks_modules s) (ks_raw_oops s) fs (ks_reason s).
(** The object of a kernel oops that [m] variables refer to, with a list of frames that [ml] refer to. *)
Definition py_koops (os : objects) (h : heap) (r l : ref) (m ml : nat) (items : list ref) (n : option addr) (e : entry) (es : list entry) (s : koops_stacktrace) : Prop :=
  object os r m (PyStruct KKoopsStack (e_addr e) [Some l]) /\ 0 < m /\ object os l ml (PyList items) /\ 0 < ml /\
  Forall2 (fun r e => alive os r (PyStruct KKoopsFrame (e_addr e) [])) items es /\ unlinked_thread h KKoopsStack KKoopsFrame n e es /\
  separate (e_foot e) /\ is_thread KKoopsStack (e_val e) (TKoops s).
(** One reference to a list was given up: it has one less, or, if that was the last, it is gone, and so is one reference to
    each of its items. *)
Definition gave_up (os os' : objects) (l : ref) (ml : nat) (items : list ref) : Prop :=
  (ml = 1 -> nth_error os' l = Some None /\ lost_one os os' items) /\
  (1 < ml -> object os' l (ml - 1) (PyList items) /\ Forall (fun r => nth_error os' r = nth_error os r) items).

(** The names of the taint flags, in the documentation's order, and the members they stand for. *)
Definition flag_names : list str :=
  [L "module_proprietary"; L "forced_module"; L "smp_unsafe"; L "forced_removal"; L "mce"; L "page_release"; L "userspace"; L "died_recently";
   L "acpi_overridden"; L "warning"; L "staging_driver"; L "firmware_workaround"; L "module_out_of_tree"; L "unsigned_module"; L "soft_lockup"; L "live_patched"].
(** A gdb frame calls the function [name]; in a file whose name contains [file]. *)
Definition calls (f : gdb_frame) (name : str) : Prop := gf_function_name f = Some name.
Definition calls_in (f : gdb_frame) (name file : str) : Prop := calls f name /\ exists s, gf_source_file f = Some s /\ infix file s.
(** One line for each frame that has a function name. *)
Definition gdb_line (f : gdb_frame) (s : str) : Prop :=
  match gf_function_name f, gf_library_name f with
  | Some n, Some l => s = n ++ L " " ++ l ++ [nl]
  | Some n, None => s = n ++ [nl]
  | None, _ => s = []
  end.
Definition java_line (f : java_frame) (s : str) : Prop := match vf_name f with Some n => s = n ++ [nl] | None => s = [] end.
Definition thread_lines (t : thread) (out : str) : Prop :=
  match t with
  | TGdb t => exists ls, Forall2 gdb_line (gt_frames t) ls /\ out = concat ls
  | TJava t => exists ls, Forall2 java_line (vt_frames t) ls /\ out = concat ls
  | _ => False
  end.
(** How many frames a gdb or java thread has, and how many of them are fully known (C29). *)
Definition thread_known (t : thread) (ok all : Z) : Prop :=
  match t with
  | TGdb t => counted gdb_known (gt_frames t) ok /\ all = Z.of_nat (length (gt_frames t))
  | TJava t => counted java_known (vt_frames t) ok /\ all = Z.of_nat (length (vt_frames t))
  | _ => False
  end.
Definition thread_proportion (t : thread) (q : Q) : Prop :=
  match t with
  | TGdb t => proportion gdb_known (gt_frames t) 1 q
  | TJava t => proportion java_known (vt_frames t) 1 q
  | _ => False
  end.
