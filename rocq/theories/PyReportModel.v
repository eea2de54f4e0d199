(** * Reports in Python.

    The attributes of a report object are packages, operating_system and stacktrace, in this order (PyModel.v); the other
    attributes are in PyAttrModel.v, except auth.  The interpreter's None is an object like any other. *)
From Verif Require Import Base UtilsModel SystemModel HeapModel HeapListModel PyModel PyAttrModel.
Open Scope nat_scope.

Section Reports.
Variable none : ref.    (* Py_None *)

Definition set_os (h : heap) (r : addr) (p : option addr) : res heap :=
  do c <- get h r;
  match c with
  | CObj KReport scal strs [_; packages; stacktrace; auth] arr raw next =>
    set_cell h r (CObj KReport scal strs [p; packages; stacktrace; auth] arr raw next)
  | _ => UB
  end.
Definition set_stacktrace (h : heap) (r : addr) (p : option addr) : res heap :=
  do c <- get h r;
  match c with
  | CObj KReport scal strs [os; packages; _; auth] arr raw next =>
    set_cell h r (CObj KReport scal strs [os; packages; p; auth] arr raw next)
  | _ => UB
  end.
(* the cases of the two switch statements, python/py_report.c:271-296 and 338-363; None: default *)
Definition stacktrace_type (type : Z) : option kind :=
  match type with
  | 1%Z => Some KCoreStack
  | 4%Z => Some KJavaStack
  | 2%Z => Some KPythonStack
  | 3%Z => Some KKoopsStack
  | 6%Z => Some KRubyStack
  | _ => None
  end.
(* python/py_report.c:217-238 stacktrace_prepare: both branches store the wrapped structure.  It is not linked again. *)
Definition stacktrace_prepare (st : state) (c : addr) (r : ref) (k : kind) : res (state * bool) :=
  do ok <- has_type st r k;
  if ok then do s <- wrapped st r; do h <- set_stacktrace (mem st) c (Some s); Ok (with_mem st h, true)
  else Ok (st, false).
(* python/py_report.c:240-300 report_prepare_subobjects.  An attribute that was deleted is read through NULL. *)
Definition os_prepare (st : state) (c : addr) (os : option ref) : res (state * bool) :=
  match os with
  | None => UB
  | Some o =>
    if Nat.eqb o none then do h <- set_os (mem st) c None; Ok (with_mem st h, true)
    else
      do ok <- has_type st o KOs;
      if ok then do a <- wrapped st o; do h <- set_os (mem st) c (Some a); Ok (with_mem st h, true)
      else Ok (st, false)
  end.
Definition trace_prepare (st : state) (c : addr) (stacktrace : option ref) : res (state * bool) :=
  match stacktrace with
  | None => do type <- load_scalar (mem st) c (L "report_type") TEnum;
            match stacktrace_type type with
            | Some _ => UB
            | None => do h <- set_stacktrace (mem st) c None; Ok (with_mem st h, true)
            end
  | Some s =>
    if Nat.eqb s none then do h <- set_stacktrace (mem st) c None; Ok (with_mem st h, true)
    else
      do type <- load_scalar (mem st) c (L "report_type") TEnum;
      match stacktrace_type type with
      | Some k => stacktrace_prepare st c s k
      | None => do h <- set_stacktrace (mem st) c None; Ok (with_mem st h, true)
      end
  end.
Definition report_prepare (st : state) (r : ref) : res (state * bool) :=
  do (st, ok) <- rpms_prepare st r;
  if ok then
    do (_, b) <- obj st r;
    match b with
    | PyStruct KReport c [_; os; stacktrace] =>
      do (st, ok) <- os_prepare st c os;
      if ok then trace_prepare st c stacktrace else Ok (st, false)
    | _ => UB
    end
  else Ok (st, false).
(* python/py_report.c:493-507 sr_py_report_to_json; [print] is sr_report_to_json.  None: an exception *)
Definition py_to_json (print : heap -> addr -> res str) (st : state) (r : ref) : res (state * option (list Z)) :=
  do (st, ok) <- report_prepare st r;
  if ok then
    do c <- wrapped st r;
    do text <- print (mem st) c;
    Ok (st, from_utf8 text)
  else Ok (st, None).

(* python/py_core_stacktrace.c:115-133 core_stacktrace_to_python_obj, python/py_java_stacktrace.c:77-95,
   python/py_python_stacktrace.c:98-115, python/py_koops_stacktrace.c:155-172, python/py_ruby_stacktrace.c:93-110.
   Simplification: the object is created after its list, not before. *)
Definition stack_to_python (st : state) (k : kind) (s : addr) : res (state * ref) :=
  do (st, l) <- match frame_kind k with Some fk => frames_to_python st fk s | None => threads_to_python st k s end;
  Ok (new_obj st (PyStruct k s [Some l])).
(* python/py_report.c:302-376 report_to_python_obj.  Simplification: the report object is created after the others. *)
Definition report_to_python (st : state) (c : addr) : res (state * ref) :=
  do x <- get (mem st) c;
  match x with
  | CObj KReport _ _ [os; packages; stacktrace; _] _ _ _ =>
    do (st, o) <- match os with
                  | Some a => Ok (new_obj st (PyStruct KOs a []))
                  | None => do st <- incref st none; Ok (st, none)
                  end;
    do (st, l) <- wrap_list KRpm st packages;
    do (st, s) <- match stacktrace with
                  | Some a =>
                    do type <- load_scalar (mem st) c (L "report_type") TEnum;
                    match stacktrace_type type with
                    | Some k => stack_to_python st k a
                    | None => do st <- incref st none; Ok (st, none)
                    end
                  | None => do st <- incref st none; Ok (st, none)
                  end;
    Ok (new_obj st (PyStruct KReport c [Some l; Some o; Some s]))
  | _ => UB
  end.
(* python/py_report.c:379-406 sr_py_report_new without an argument; lib/report.c:49-74 sr_report_new, sr_report_init,
   lib/operating_system.c:29-47 sr_operating_system_new, sr_operating_system_init.
   Simplification: the reporter's name and version, which are literals, are left out. *)
Definition py_report_new (st : state) : res (state * ref) :=
  let '(h, c) := alloc (mem st) (CObj KReport [2; 0; 0; 1; 0]%Z [None] [None; None; None; None] None [] None) in
  let '(h, o) := alloc h (CObj KOs [0]%Z [None; None; None; None; None; None] [] None [] None) in
  do h <- set_os h c (Some o);
  report_to_python (with_mem st h) c.
End Reports.

(** ** auth and str *)
(* A dictionary: its keys in the order of their first insertion.  PyDict_SetItemString *)
Definition dict := list (list Z * list Z).
Fixpoint text_eqb (a b : list Z) : bool :=
  match a, b with
  | [], [] => true
  | x :: a, y :: b => Z.eqb x y && text_eqb a b
  | _, _ => false
  end.
Fixpoint dict_set (d : dict) (key val : list Z) : dict :=
  match d with
  | [] => [(key, val)]
  | (k, v) :: d => if text_eqb k key then (k, val) :: d else (k, v) :: dict_set d key val
  end.
(* python/py_report.c:509-527 sr_py_report_get_auth.  A NULL key or value is read.  None: an exception, the text is not UTF-8 *)
Fixpoint auth_loop (fuel : nat) (h : heap) (ae : option addr) (auth : dict) : res (option dict) :=
  match ae with
  | None => Ok (Some auth)
  | Some a =>
    match fuel with
    | O => UB
    | S fuel =>
      do x <- get h a;
      match x with
      | CObj KAuth _ [value; key] _ _ _ next =>
        do v <- match value with None => UB | Some v => get_str h v end;
        match from_utf8 v with
        | None => Ok None
        | Some v =>
          do k <- match key with None => UB | Some k => get_str h k end;
          match from_utf8 k with
          | None => Ok None
          | Some k => auth_loop fuel h next (dict_set auth k v)
          end
        end
      | _ => UB
      end
    end
  end.
Definition py_get_auth (h : heap) (c : addr) : res (option dict) :=
  do x <- get h c;
  match x with
  | CObj KReport _ _ [_; _; _; auth] _ _ _ => auth_loop (length h) h auth []
  | _ => UB
  end.
(* python/py_report.c:431-448 sr_py_report_str; None: an exception *)
Definition py_report_str (h : heap) (c : addr) : res (option (list Z)) :=
  do type <- load_scalar h c (L "report_type") TEnum;
  do x <- get h c;
  match x with
  | CObj KReport _ [component] _ _ _ _ =>
    do t <- match component with None => Ok [] | Some a => do s <- get_str h a; Ok (L ", component: " ++ s) end;
    Ok (from_utf8 (L "Report, type: " ++ sr_report_type_to_string (Z.to_nat type) ++ t))
  | _ => UB
  end.
