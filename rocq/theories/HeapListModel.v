(** * Lists in memory: joining, counting, choosing, sorting and merging; freeing packages and reports.

    The memory of HeapModel.v.  A loop over a list gets as much fuel as there are cells; a list that never ends
    exhausts it and is [UB]. *)
From Verif Require Import Base Types CmpModel RpmModel HeapModel.
Open Scope nat_scope.

(** ** Joining and counting *)
(* "while (p->next) p = p->next;" *)
Fixpoint last_from (fuel : nat) (h : heap) (a : addr) : res addr :=
  match fuel with
  | O => UB
  | S fuel => do n <- next_of h a; match n with None => Ok a | Some b => last_from fuel h b end
  end.
(* lib/core_frame.c:227-240 sr_core_frame_append; the other append functions are the same code for their type:
   lib/core_thread.c:136-149, lib/gdb_frame.c:250-263, lib/gdb_thread.c:148-161, lib/gdb_sharedlib.c:74-87,
   lib/java_frame.c:197-210, lib/java_thread.c:140-153, lib/js_frame.c:171-184, lib/koops_frame.c:215-228,
   lib/python_frame.c:189-202, lib/ruby_frame.c:176-189, lib/rpm.c:145-158 *)
Definition list_append (h : heap) (dest item : option addr) : res (heap * option addr) :=
  match dest with
  | None => Ok (h, item)
  | Some d =>
    do l <- last_from (length h) h d;
    do h <- set_next h l item;
    Ok (h, dest)
  end.
(* lib/koops_frame.c:230-239 sr_koops_frame_prepend *)
Definition koops_frame_prepend (h : heap) (dest item : option addr) : res (heap * option addr) :=
  match dest with
  | None => Ok (h, item)
  | Some _ =>
    match item with
    | None => UB
    | Some i => do h <- set_next h i dest; Ok (h, item)
    end
  end.
(* lib/rpm.c:160-172 sr_rpm_package_count, lib/gdb_sharedlib.c:89-101 sr_gdb_sharedlib_count and, from the first
   thread, lib/core_stacktrace.c:123-135 and lib/gdb_stacktrace.c:138-149 get_thread_count *)
Definition list_count (h : heap) (p : option addr) : res nat := count_from (length h) h p.
(* lib/core_stacktrace.c:123-135 sr_core_stacktrace_get_thread_count, lib/gdb_stacktrace.c:138-149
   sr_gdb_stacktrace_get_thread_count *)
Definition get_thread_count (h : heap) (s : addr) : res nat :=
  do c <- get h s;
  match c with
  | CObj KCoreStack _ _ [threads] _ _ _ | CObj KGdbStack _ _ [_; threads; _] _ _ _ => list_count h threads
  | _ => UB
  end.

(** ** Choosing one thread *)
Definition gdb_threads (h : heap) (s : addr) : res (option addr) :=
  do c <- get h s;
  match c with
  | CObj KGdbStack _ _ [_; threads; _] _ _ _ => Ok threads
  | _ => UB
  end.
Definition set_gdb_threads (h : heap) (s : addr) (p : option addr) : res heap :=
  do c <- get h s;
  match c with
  | CObj KGdbStack scal strs [crash; _; libs] arr raw next => set_cell h s (CObj KGdbStack scal strs [crash; p; libs] arr raw next)
  | _ => UB
  end.
(* lib/gdb_stacktrace.c:155-161 *)
Fixpoint except_loop (fuel : nat) (h : heap) (s : addr) (thread : addr) : res heap :=
  do p <- gdb_threads h s;
  match p with
  | None => Ok h
  | Some d =>
    match fuel with
    | O => UB
    | S fuel =>
      do n <- next_of h d;
      do h <- set_gdb_threads h s n;
      do h <- (if Nat.eqb d thread then Ok h else sr_free KGdbThread h d);
      except_loop fuel h s thread
    end
  end.
(* lib/gdb_stacktrace.c:151-165 sr_gdb_stacktrace_remove_threads_except_one *)
Definition remove_threads_except_one (h : heap) (s : addr) (thread : option addr) : res heap :=
  match thread with
  | None => UB
  | Some t =>
    do h <- except_loop (length h) h s t;
    do h <- set_next h t None;
    set_gdb_threads h s (Some t)
  end.

(** ** Packages *)
(* lib/rpm.c:806-818 sr_rpm_consistency_free *)
Fixpoint consistency_free (fuel : nat) (h : heap) (p : option addr) (recursive : bool) : res heap :=
  match p with
  | None => Ok h
  | Some a =>
    match fuel with
    | O => UB
    | S fuel =>
      do c <- get h a;
      match c with
      | CObj KConsistency _ [path] _ _ _ next =>
        do h <- g_free_opt h path;
        do h <- (if recursive then consistency_free fuel h next true else Ok h);
        g_free h a
      | _ => UB
      end
    end
  end.
(* lib/rpm.c:53-69 sr_rpm_package_free *)
Fixpoint package_free (fuel : nat) (h : heap) (p : option addr) (recursive : bool) : res heap :=
  match p with
  | None => Ok h
  | Some a =>
    match fuel with
    | O => UB
    | S fuel =>
      do c <- get h a;
      match c with
      | CObj KRpm _ [name; version; release; architecture] [consistency] _ _ next =>
        do h <- g_free_opt h name;
        do h <- g_free_opt h version;
        do h <- g_free_opt h release;
        do h <- g_free_opt h architecture;
        do h <- consistency_free (length h) h consistency true;
        do h <- (if recursive then package_free fuel h next true else Ok h);
        g_free h a
      | _ => UB
      end
    end
  end.
Definition sr_rpm_package_free (h : heap) (p : option addr) (recursive : bool) : res heap := package_free (length h) h p recursive.

Definition get_opt (h : heap) (p : option addr) : res (option str) :=
  match p with None => Ok None | Some a => do s <- get_str h a; Ok (Some s) end.
(* The members the functions below read through a pointer to a package: everything but the consistency records *)
Definition package_at (h : heap) (a : addr) : res rpm_package :=
  do c <- get h a;
  match c with
  | CObj KRpm [epoch; install_time; role] [name; version; release; architecture] _ _ _ _ =>
    do name <- get_opt h name;
    do version <- get_opt h version;
    do release <- get_opt h release;
    do architecture <- get_opt h architecture;
    Ok (mk_rpm_package name epoch version release architecture install_time (if (role =? 0)%Z then ROLE_UNKNOWN else ROLE_AFFECTED) [])
  | _ => UB
  end.

(** *** Sorting *)
(* lib/rpm.c:180-188: the array of pointers *)
Fixpoint nodes (fuel : nat) (h : heap) (p : option addr) : res (list addr) :=
  match p with
  | None => Ok []
  | Some a =>
    match fuel with
    | O => UB
    | S fuel => do n <- next_of h a; do r <- nodes fuel h n; Ok (a :: r)
    end
  end.
(* lib/rpm.c:138-143 cmp_nevra_qsort_wrapper; 0 stands for reading outside a package, which no pointer of the array does *)
Definition cmp_nevra_qsort_wrapper (h : heap) (a b : addr) : Z :=
  match package_at h a, package_at h b with
  | Ok p, Ok q => rpm_cmp_nevra p q
  | _, _ => 0%Z
  end.
(* lib/rpm.c:193-200 *)
Fixpoint relink (h : heap) (array : list addr) : res heap :=
  match array with
  | [] => Ok h
  | a :: r => do h <- set_next h a (match r with [] => None | b :: _ => Some b end); relink h r
  end.
(* lib/rpm.c:174-206 sr_rpm_package_sort; the first element of an empty array is read (line 203) *)
Definition package_sort (qsort : (addr -> addr -> Z) -> list addr -> list addr) (h : heap) (p : option addr) : res (heap * option addr) :=
  do array <- nodes (length h) h p;
  let array := qsort (cmp_nevra_qsort_wrapper h) array in
  do h <- relink h array;
  match array with
  | [] => UB
  | a :: _ => Ok (h, Some a)
  end.

(** *** Merging neighbours *)
(* lib/rpm.c:208-241 package_merge; the tests are those of the function on values *)
Definition package_merge_at (h : heap) (a b : addr) : res (heap * option addr) :=
  do p <- package_at h a;
  do q <- package_at h b;
  match package_merge p q with
  | None => Ok (h, None)
  | Some _ =>
    do c <- get h a;
    do d <- get h b;
    match c, d with
    | CObj KRpm [epoch; time1; role1] [name; version; release; architecture1] _ _ _ _,
      CObj KRpm [_; time2; role2] [_; _; _; architecture2] _ _ _ _ =>
      let '(h, m) := alloc h (CObj KRpm [0; 0; 0]%Z [None; None; None; None] [None] None [] None) in
      do (h, name) <- g_strdup h name;
      do (h, version) <- g_strdup h version;
      do (h, release) <- g_strdup h release;
      do (h, architecture) <- g_strdup h (match architecture1 with Some _ => architecture1 | None => architecture2 end);
      do h <- set_cell h m (CObj KRpm [epoch; if (time1 =? 0)%Z then time2 else time1; if (role1 =? 0)%Z then role2 else role1]%Z
                              [name; version; release; architecture] [None] None [] None);
      Ok (h, Some m)
    | _, _ => UB
    end
  end.
(* lib/rpm.c:243-278 sr_rpm_package_uniq *)
Fixpoint uniq_loop (fuel : nat) (h : heap) (packages prev loop : option addr) : res (heap * option addr) :=
  match loop with
  | None => Ok (h, packages)
  | Some a =>
    do n <- next_of h a;
    match n with
    | None => Ok (h, packages)
    | Some b =>
      match fuel with
      | O => UB
      | S fuel =>
        do (h, merged) <- package_merge_at h a b;
        match merged with
        | Some m =>
          do (h, packages) <- match prev with
                              | Some q => do h <- set_next h q (Some m); Ok (h, packages)
                              | None => Ok (h, Some m)
                              end;
          do n <- next_of h b;
          do h <- set_next h m n;
          do h <- sr_rpm_package_free h (Some b) false;
          do h <- sr_rpm_package_free h (Some a) false;
          uniq_loop fuel h packages prev (Some m)
        | None => uniq_loop fuel h packages loop n
        end
      end
    end
  end.
Definition package_uniq (h : heap) (packages : option addr) : res (heap * option addr) := uniq_loop (length h) h packages None packages.

(** ** Reports *)
(* lib/operating_system.c:50-63 sr_operating_system_free *)
Definition operating_system_free (h : heap) (p : option addr) : res heap :=
  match p with
  | None => Ok h
  | Some a =>
    do c <- get h a;
    match c with
    | CObj KOs _ strs _ _ _ _ => do h <- free_strs h (str_ops KOs) strs; g_free h a
    | _ => UB
    end
  end.
(* lib/report.c:82-92 the custom entries *)
Fixpoint auth_free (fuel : nat) (h : heap) (iter : option addr) : res heap :=
  match iter with
  | None => Ok h
  | Some a =>
    match fuel with
    | O => UB
    | S fuel =>
      do c <- get h a;
      match c with
      | CObj KAuth _ [value; key] _ _ _ tmp =>
        do h <- g_free_opt h value;
        do h <- g_free_opt h key;
        do h <- g_free h a;
        auth_free fuel h tmp
      | _ => UB
      end
    end
  end.
(* lib/generic_stacktrace.c:172-179 sr_stacktrace_free: by the stack trace's own type *)
Definition stacktrace_free (h : heap) (p : option addr) : res heap :=
  match p with
  | None => Ok h
  | Some a => do k <- kind_at h a; sr_free k h a
  end.
(* lib/report.c:74-95 sr_report_free.  The reporter's name and version are borrowed pointers. *)
Definition sr_report_free (h : heap) (r : addr) : res heap :=
  do c <- get h r;
  match c with
  | CObj KReport _ [component] [os; packages; stacktrace; auth] _ _ _ =>
    do h <- g_free_opt h component;
    do h <- operating_system_free h os;
    do h <- sr_rpm_package_free h packages true;
    do h <- stacktrace_free h stacktrace;
    do h <- auth_free (length h) h auth;
    g_free h r
  | _ => UB
  end.
(* lib/report.c:97-110 sr_report_add_auth; NULL keys and values are kept *)
Definition sr_report_add_auth (h : heap) (r : addr) (key value : option addr) : res heap :=
  let '(h, e) := alloc h (CObj KAuth [] [None; None] [] None [] None) in
  do (h, key) <- g_strdup h key;
  do (h, value) <- g_strdup h value;
  do c <- get h r;
  match c with
  | CObj KReport scal strs [os; packages; stacktrace; auth] arr raw next =>
    do h <- set_cell h e (CObj KAuth [] [value; key] [] None [] auth);
    set_cell h r (CObj KReport scal strs [os; packages; stacktrace; Some e] arr raw next)
  | _ => UB
  end.
