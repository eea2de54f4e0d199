(** * What lists, packages and reports in memory are. *)
From Coq Require Import Sorting.Sorted.
From Verif Require Import Base Types CmpSpec HeapModel HeapSpec.
Open Scope nat_scope.

(** The cell of the last entry, the only one that joining may change. *)
Definition end_of (l : list entry) : list addr := match rev l with [] => [] | e :: _ => [e_addr e] end.

(** A gdb stack trace at [s]: its crash frame, threads and libraries. *)
Definition gdb_stack_is (h : heap) (s : addr) (scal : list Z) (crash threads libs : list entry) : Prop :=
  exists pc pt pl raw n, nth_error h s = Some (CObj KGdbStack scal [] [pc; pt; pl] None raw n) /\
    own_list h KGdbFrame pc crash /\ length crash <= 1 /\ own_list h KGdbThread pt threads /\ own_list h KGdbLib pl libs /\
    separate (s :: foot crash ++ foot threads ++ foot libs).

(** The package and the consistency record a value in memory stands for. *)
Definition flag (z : Z) : bool := negb (z =? 0)%Z.
Inductive is_consistency : value -> rpm_consistency -> Prop :=
| is_consistency_intro path a b c d e f g i j :
    is_consistency (Val [a; b; c; d; e; f; g; i; j] [path] None [])
      (mk_rpm_consistency path (flag a) (flag b) (flag c) (flag d) (flag e) (flag f) (flag g) (flag i) (flag j)).
Inductive is_package : value -> rpm_package -> Prop :=
| is_package_intro epoch time role name version release architecture vs cs :
    Forall2 is_consistency vs cs ->
    is_package (Val [epoch; time; role] [name; version; release; architecture] None [vs])
      (mk_rpm_package name epoch version release architecture time (if (role =? 0)%Z then ROLE_UNKNOWN else ROLE_AFFECTED) cs).
Definition packages_are (l : list entry) (ps : list rpm_package) : Prop := Forall2 (fun e p => is_package (e_val e) p) l ps.

(** What the C standard says of qsort, for an array of any type (RpmSpec.v: of packages). *)
Definition sorts_array {A} (qsort : (A -> A -> Z) -> list A -> list A) : Prop :=
  forall (ok : A -> Prop) eqv cmp l, orders ok eqv cmp -> Forall ok l ->
    Permutation l (qsort cmp l) /\ StronglySorted (fun x y => (cmp x y <= 0)%Z) (qsort cmp l).

(** A report at [r]: the name of its component, its operating system, packages, stack trace and custom entries, each of
    which may be missing, and the cells it owns.  The reporter's name and version are not among them. *)
Definition no_array (e : entry) : Prop := match e_val e with Val _ _ None _ => True | _ => False end.
Definition stack_kind (k : kind) : Prop :=
  In k [KCoreStack; KPythonStack; KKoopsStack; KJavaStack; KGdbStack; KRubyStack; KJsStack].
Definition report_is (h : heap) (r : addr) (component : option str) (os packages stacktrace auth : list entry) (cells : list addr) : Prop :=
  exists scal pc po pp ps pa raw n fc k,
    nth_error h r = Some (CObj KReport scal [pc] [po; pp; ps; pa] None raw n) /\
    own_strs h [pc] [component] fc /\
    own_list h KOs po os /\ length os <= 1 /\ Forall no_array os /\
    own_list h KRpm pp packages /\ (exists l, packages_are packages l) /\
    stack_kind k /\ own_list h k ps stacktrace /\ length stacktrace <= 1 /\
    own_list h KAuth pa auth /\ Forall no_array auth /\
    cells = r :: fc ++ foot os ++ foot packages ++ foot stacktrace ++ foot auth.
