(** * What a report object in Python holds. *)
From Verif Require Import Base HeapModel HeapSpec PyModel PySpec PyAttrSpec.
Open Scope nat_scope.

(** The types of reports whose stack traces Python knows. *)
Definition traced (type : Z) (k : kind) : Prop :=
  In (type, k) [(1%Z, KCoreStack); (2%Z, KPythonStack); (3%Z, KKoopsStack); (4%Z, KJavaStack); (6%Z, KRubyStack)].
Definition untraced (type : Z) : Prop := forall k, ~ traced type k.
(** An attribute that is None or wraps one structure. *)
Definition part (os : objects) (none r : ref) (k : kind) (es : list entry) : Prop :=
  r = none /\ es = [] \/ r <> none /\ exists e at_, es = [e] /\ alive os r (PyStruct k (e_addr e) at_).

(** A report in memory with its numbers, the name of its component, its operating system, packages, stack trace and
    custom entries, and the cells of all of them. *)
Definition report_with (h : heap) (c : addr) (scal : list Z) (component : option str) (oss pks : list entry) (sk : kind) (sts auth : list entry)
    (cells : list addr) : Prop :=
  exists pc po pp ps pa raw n fc,
    nth_error h c = Some (CObj KReport scal [pc] [po; pp; ps; pa] None raw n) /\ own_strs h [pc] [component] fc /\
    own_list h KOs po oss /\ length oss <= 1 /\ own_list h KRpm pp pks /\ own_list h sk ps sts /\ length sts <= 1 /\ own_list h KAuth pa auth /\
    cells = c :: fc ++ foot oss ++ foot pks ++ foot sts ++ foot auth.
(** The same, but the report may point to other parts; one without packages must not point to any. *)
Definition unlinked_report (h : heap) (c : addr) (scal : list Z) (component : option str) (oss pks : list entry) (sk : kind) (sts auth : list entry)
    (cells : list addr) : Prop :=
  exists pc po pp ps pa raw n fc,
    nth_error h c = Some (CObj KReport scal [pc] [po; pp; ps; pa] None raw n) /\ own_strs h [pc] [component] fc /\
    Forall (own h KOs None) oss /\ length oss <= 1 /\ Forall (fun e => exists m, own h KRpm m e) pks /\ (pks = [] -> pp = None) /\
    Forall (own h sk None) sts /\ length sts <= 1 /\ own_list h KAuth pa auth /\
    cells = c :: fc ++ foot oss ++ foot pks ++ foot sts ++ foot auth.
(** The stacktrace attribute of a report of a type: what the report is to have; a report whose stack traces Python does not
    know is to have none. *)
Definition trace_part (os : objects) (none rs : ref) (type : Z) (sk : kind) (sts : list entry) : Prop :=
  traced type sk /\ part os none rs sk sts \/ untraced type /\ sts = [].
(** A new stack trace object, with its own list of frames or threads. *)
Definition stack_object (m : nat) (os : objects) (h : heap) (r : ref) (k : kind) (e : entry) : Prop :=
  m <= r /\ exists l, object os r 1 (PyStruct k (e_addr e) [Some l]) /\
    ((exists fk items es, frame_kind k = Some fk /\ new_list m os l fk items es /\ unlinked_thread h k fk None e es) \/
     (exists tk fk ts, thread_type k = Some tk /\ frame_kind tk = Some fk /\ new_threads m os l tk fk ts /\ unlinked_stack h k None e ts)).

(** The attributes of a new report object: None, or a new object. *)
Definition stack_part (m : nat) (os : objects) (h : heap) (none r : ref) (k : kind) (es : list entry) : Prop :=
  r = none /\ es = [] \/ exists e, es = [e] /\ stack_object m os h r k e.
Definition os_part (m : nat) (os : objects) (none r : ref) (es : list entry) : Prop :=
  r = none /\ es = [] \/ m <= r /\ exists e, es = [e] /\ object os r 1 (PyStruct KOs (e_addr e) []).
(** The objects are those of before except that None has [j] more references. *)
Definition grown_but (none : ref) (j : nat) (os os' : objects) : Prop :=
  length os <= length os' /\ (forall x, x < length os -> x <> none -> nth_error os' x = nth_error os x) /\
  forall n b, object os none n b -> object os' none (j + n) b.

(** The dictionary made of a sequence of pairs: the last one with a key counts. *)
Definition last_with (pairs : list (list Z * list Z)) (key val : list Z) : Prop :=
  exists before after, pairs = before ++ (key, val) :: after /\ ~ In key (map fst after).
Definition dict_of (pairs d : list (list Z * list Z)) : Prop :=
  NoDup (map fst d) /\ forall key val, In (key, val) d <-> last_with pairs key val.
(** The two texts of a custom entry. *)
Definition entry_texts (e : entry) (key val : str) : Prop := exists scal kids, e_val e = Val scal [Some val; Some key] None kids.
(** The two texts of a custom entry, decoded: key and value. *)
Definition decoded (e : entry) (p : list Z * list Z) : Prop := exists k v, entry_texts e k v /\ utf8 (fst p) k /\ utf8 (snd p) v.

(** What str() calls the types of reports. *)
Definition type_words : list string := ["invalid"; "core"; "python"; "kerneloops"; "java"; "gdb"; "ruby"; "javascript"]%string.
