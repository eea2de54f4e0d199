(** * What it means for memory to hold a structure.

    Independent of the functions: a value is a tree of scalars, strings and lists of values;
    [own] says that an address holds exactly that tree and lists every cell it occupies (its
    footprint). *)
From Verif Require Import Base HeapModel.

Inductive value :=
  Val (scal : list Z) (strs : list (option str)) (arr : option (list str)) (kids : list (list value)).

(** An entry of a linked list: where it is, what it is, which cells it occupies. *)
Definition entry := (addr * value * list addr)%type.
Definition e_addr (e : entry) : addr := fst (fst e).
Definition e_val (e : entry) : value := snd (fst e).
Definition e_foot (e : entry) : list addr := snd e.
Definition foot (l : list entry) : list addr := concat (map e_foot l).

Inductive own_strs (h : heap) : list (option addr) -> list (option str) -> list addr -> Prop :=
| os_nil : own_strs h [] [] []
| os_null ps ss f : own_strs h ps ss f -> own_strs h (None :: ps) (None :: ss) f
| os_str a s ps ss f : nth_error h a = Some (CStr s) -> own_strs h ps ss f ->
    own_strs h (Some a :: ps) (Some s :: ss) (a :: f).

Inductive own_arr (h : heap) : option addr -> option (list str) -> list addr -> Prop :=
| oa_null : own_arr h None None []
| oa_arr a items ss : nth_error h a = Some (CArr items) ->
    Forall2 (fun i s => nth_error h i = Some (CStr s)) items ss ->
    own_arr h (Some a) (Some ss) (a :: items).

(** [own h k a n e]: the structure of type [k] at [a], whose next pointer is [n], is [e].
    [own_list h k p l]: following next pointers from [p] gives the entries [l].
    Members that hold one structure rather than a list hold at most one. *)
Inductive own (h : heap) : kind -> option addr -> entry -> Prop :=
| own_obj k a scal ps ss fs ks vss fk arr sarr fa raw n :
    nth_error h a = Some (CObj k scal ps ks arr raw n) ->
    length ps = length (str_ops k) ->
    own_strs h ps ss fs ->
    own_arr h arr sarr fa ->
    own_kids h (kid_ops k) ks vss fk ->
    own h k n (a, Val scal ss sarr vss, a :: fs ++ fa ++ fk)
with own_kids (h : heap) : list (kind * bool) -> list (option addr) -> list (list value) -> list addr -> Prop :=
| ok_nil : own_kids h [] [] [] []
| ok_cons k sib ops p ps l vss f :
    own_list h k p l -> (sib = false -> length l <= 1) ->
    own_kids h ops ps vss f ->
    own_kids h ((k, sib) :: ops) (p :: ps) (map e_val l :: vss) (foot l ++ f)
with own_list (h : heap) : kind -> option addr -> list entry -> Prop :=
| ol_nil k : own_list h k None []
| ol_cons k n e l : own h k n e -> own_list h k n l -> own_list h k (Some (e_addr e)) (e :: l).

(** The structures do not overlap. *)
Definition separate (l : list addr) : Prop := NoDup l.
Definition disjoint (a b : list addr) : Prop := forall x, In x a -> ~ In x b.
(** Memory is the same at the given cells / outside them. *)
Definition same_on (l : list addr) (h h' : heap) : Prop := forall x, In x l -> nth_error h' x = nth_error h x.
Definition same_outside (l : list addr) (h h' : heap) : Prop := forall x, ~ In x l -> nth_error h' x = nth_error h x.
Definition freed (h : heap) (x : addr) : Prop := nth_error h x = Some CFree.

(** The thread at [t] has the frames [l]; [c] is everything else stored in the thread's own cell. *)
Definition thread_is (h : heap) (t : addr) (rest : option addr -> cell) (fk : kind) (l : list entry) : Prop :=
  exists p k scal strs kids arr raw next,
    rest = (fun p => CObj k scal strs (p :: kids) arr raw next) /\ frame_kind k = Some fk /\
    nth_error h t = Some (rest p) /\ own_list h fk p l /\ separate (t :: foot l).

(** A thread cut down to its first [n] frames: everything else is unchanged. *)
Definition truncated (n : nat) (v w : value) : Prop :=
  exists scal strs arr frames, v = Val scal strs arr [frames] /\ w = Val scal strs arr [firstn n frames].

(** The members of each structure, from the headers in include/: the strings it owns and the
    structures it owns (name, type, whether the member is a whole list). *)
Definition string_members (k : kind) : list str :=
  match k with
  | KCoreFrame => [L "build_id"; L "function_name"; L "file_name"; L "fingerprint"]
  | KPythonFrame => [L "file_name"; L "function_name"; L "line_contents"]
  | KKoopsFrame => [L "function_name"; L "module_name"; L "from_function_name"; L "from_module_name"; L "special_stack"]
  | KJavaFrame => [L "name"; L "file_name"; L "class_path"; L "message"]
  | KGdbFrame => [L "function_name"; L "function_type"; L "source_file"; L "library_name"]
  | KRubyFrame => [L "file_name"; L "function_name"]
  | KJsFrame => [L "file_name"; L "function_name"]
  | KCoreThread => [] | KJavaThread => [L "name"] | KGdbThread => []
  | KGdbLib => [L "soname"] | KCoreStack => [L "executable"]
  | KPythonStack => [L "exception_name"] | KKoopsStack => [L "version"; L "raw_oops"; L "reason"]
  | KJavaStack => [] | KGdbStack => [] | KRubyStack => [L "exception_name"] | KJsStack => [L "exception_name"]
  | KRpm => [L "name"; L "version"; L "release"; L "architecture"]
  | KConsistency => [L "path"]
  | KOs => [L "name"; L "version"; L "architecture"; L "cpe"; L "desktop"; L "variant"]
  | KAuth => [L "value"; L "key"]
  | KReport => []
  end.
Definition list_members (k : kind) : list (str * kind * bool) :=
  match k with
  | KCoreThread => [(L "frames", KCoreFrame, true)] | KJavaThread => [(L "frames", KJavaFrame, true)]
  | KGdbThread => [(L "frames", KGdbFrame, true)] | KCoreStack => [(L "threads", KCoreThread, true)]
  | KPythonStack => [(L "frames", KPythonFrame, true)] | KKoopsStack => [(L "frames", KKoopsFrame, true)]
  | KJavaStack => [(L "threads", KJavaThread, true)] | KRubyStack => [(L "frames", KRubyFrame, true)]
  | KJsStack => [(L "frames", KJsFrame, true)]
  | KGdbStack => [(L "crash", KGdbFrame, false); (L "threads", KGdbThread, true); (L "libs", KGdbLib, true)]
  | KRpm => [(L "consistency", KConsistency, true)]
  | _ => []
  end.
