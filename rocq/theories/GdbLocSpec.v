(** * Where and why a gdb text is refused.

      Every place is told as the end of a text [u] that is counted: its line is 1 and a line for every newline in [u], its column is
      the length of what follows the last of them (pos_of).  An exact place is the end of a prefix of the input. *)
From Verif Require Import Base Types UtilsSpec ParseSpec KoopsSpec GdbParseSpec.
Open Scope nat_scope.

(** Counting [u] from a line and a column. *)
Definition counts_to (ln col : Z) (u : str) (ln' col' : Z) : Prop :=
  exists a b, pos_of u a b /\ ((a = 1 /\ ln' = ln /\ col' = col + b) \/ (1 < a /\ ln' = ln + a - 1 /\ col' = b))%Z.

(** ** Frames *)
(** The names of functions are counted as one line. *)
Definition flat (v : str) : str := map (fun c => if Ascii.eqb c nl then sp else c) v.
(** [name_counts s u r]: the name before [r] is counted as [u]; the white character after it is not. *)
Definition name_counts (s u r : str) : Prop :=
  (s = L "??" ++ r /\ u = L "??") \/
  (~ begins (L "??") s /\
   exists v c t added c1 t1, s = v ++ c :: t /\ first_name v (c :: t) /\ white c /\ const_suffix c t added c1 t1 /\
    ((no_second t1 /\ u = flat v ++ added /\ r = c1 :: t1) \/
     (exists w c2 t2, t1 = w ++ c2 :: t2 /\ second_name w (c2 :: t2) /\ white c2 /\
        ((~ begins (L "const") t2 /\ u = flat v ++ added ++ c1 :: flat w /\ r = c2 :: t2) \/
         (t2 = L "const" ++ r /\ match r with [] => True | c3 :: _ => white c3 end /\ u = flat v ++ added ++ c1 :: flat w ++ c2 :: L "const"))))).
(** The arguments are counted as they are. *)
Definition call_counts (s u r : str) : Prop :=
  exists v t w x, name_counts s v t /\ t = w ++ r /\ spaces_nl t (L "(" ++ x) /\ args 0 false x r /\ u = v ++ w.
Definition located_counts (s u r : str) : Prop :=
  (exists n t a v, address_in s n t /\ s = a ++ t /\ call_counts t v r /\ u = a ++ v) \/ ((forall n t, ~ hex_0x s n t) /\ call_counts s u r).
Definition not_located (s : str) : Prop := (forall a name type r, ~ located_call s a name type r) /\ ~ located_call_off s.
Definition no_file (s : str) : Prop := forall f m q, ~ file_location s f m q.
(** The header of the frame is counted as [u]. *)
Definition header_counts (s u : str) : Prop :=
  exists p n t, s = p ++ t /\ frame_start s n t /\
    ((exists v r, located_counts t v r /\ ((exists f m q w, file_location r f m q /\ r = w ++ q /\ u = p ++ v ++ w) \/ (no_file r /\ u = p ++ v))) \/
     (not_located t /\ exists v r f m q w, call_counts t v r /\ file_location r f m q /\ r = w ++ q /\ u = p ++ v ++ w) \/
     (not_located t /\ begins (L "<signal handler called>") t /\ u = p ++ L "<signal handler called>")).
(** Why [s] does not start with the header of a frame, and where. *)
Inductive frame_wrong : str -> str -> str -> Prop :=
| fw_start s : (forall n t, ~ frame_start s n t) -> frame_wrong (L "Frame start sequence expected.") s []
| fw_misses s p n t v r : s = p ++ t -> frame_start s n t -> not_located t -> call_counts t v r -> no_file r ->
    frame_wrong (L "Function call in the frame header misses mandatory ""at file.c:xy"" section") s (p ++ v)
| fw_variant s p n t : s = p ++ t -> frame_start s n t -> not_located t -> (forall name type r, ~ function_call t name type r) -> ~ function_call_off t ->
    ~ begins (L "<signal handler called>") t -> frame_wrong (L "Frame header variant not recognized.") s p.

(** ** Threads *)
(** [t] follows "Thread 1 " and maybe "(LWP 2)". *)
Definition title_start (s : str) (tid : Z) (t : str) : Prop :=
  exists n t1 t2 t3 t4, s = L "Thread" ++ t1 /\ spaces_to t1 t2 /\ decimal t2 n t3 /\ spaces_to t3 t4 /\ maybe_lwp no_tid t4 tid t.
(** [t] follows "Thread 1 (Thread 0x1f (LWP 2)". *)
Definition title_paren (s t : str) : Prop :=
  exists tid1 tid t6 t7 t8, title_start s tid1 (L "(Thread " ++ t6) /\ identification t6 t7 /\ (spaces_to t7 t8 \/ (~ begins [sp] t7 /\ t8 = t7)) /\ maybe_lwp tid1 t8 tid t.
(** Why [s] does not start with the title of a thread.  The closing parenthesis is not counted. *)
Inductive title_wrong : str -> str -> str -> Prop :=
| tw_space t : ~ begins [sp] t -> title_wrong (L "Space expected after the ""Thread"" keyword.") (L "Thread" ++ t) (L "Thread")
| tw_number u t1 t2 : L "Thread" ++ t1 = u ++ t2 -> spaces_to t1 t2 -> (forall n r, ~ decimal t2 n r) -> title_wrong (L "Thread number expected.") (L "Thread" ++ t1) u
| tw_after u n t1 t2 t3 : L "Thread" ++ t1 = u ++ t3 -> spaces_to t1 t2 -> decimal t2 n t3 -> ~ begins [sp] t3 ->
    title_wrong (L "Space expected after the thread number.") (L "Thread" ++ t1) u
| tw_id u s tid t : s = u ++ t -> title_start s tid (L "(Thread " ++ t) -> (forall r, ~ identification t r) -> title_wrong (L "The thread identification number expected.") s u
| tw_paren u s t : s = u ++ t -> title_paren s t -> ~ begins (L ")") t -> title_wrong (L "Closing parenthesis for Thread expected.") s u
| tw_colon u s tid t : s = u ++ t -> title_start s tid t -> ~ begins (L "(Thread ") t -> ~ begins (L ":" ++ [nl]) t ->
    title_wrong (L "Expected a colon followed by a newline ':\n'.") s u
| tw_paren_colon u s t : s = u ++ L ")" ++ t -> title_paren s (L ")" ++ t) -> ~ begins (L ":" ++ [nl]) t ->
    title_wrong (L "Expected a colon followed by a newline ':\n'.") s u.
(** The frames of a thread: each is counted together with all those above it. *)
Inductive frames_counts : str -> str -> str -> Prop :=
| fc_end above s : (forall f r, ~ gdb_frame_text s f r) -> frames_counts above s []
| fc_more above s f r h c v : gdb_frame_text s f r -> header_counts s h -> s = c ++ r -> frames_counts (above ++ h ++ c) r v -> frames_counts above s ((above ++ h ++ c) ++ v).
(** A thread without a frame is refused where its frames would start. *)
Inductive thread_wrong : str -> str -> str -> Prop :=
| hw_title why s u : title_wrong why s u -> thread_wrong why s u
| hw_frame why s number tid u q v : thread_start s number tid q -> s = u ++ q -> frame_wrong why q v -> thread_wrong why s u.

(** ** Stack traces *)
(** The first frame, or the first thread.  A crash frame is counted once for its header and once more for all of it. *)
Inductive trace_wrong : str -> str -> str -> Prop :=
| gw_none s : no_entry (L "#") s -> no_entry (L "Thread ") s -> trace_wrong (L "No frame and no thread found.") s []
| gw_crash why s p t v : s = p ++ t -> crash_frame_at s t -> frame_wrong why t v -> trace_wrong why s (p ++ v)
| gw_threads why s p t v : s = p ++ t -> threads_at s t -> thread_wrong why t v -> trace_wrong why s (p ++ v)
| gw_after why s p t f h c r v : s = p ++ t -> crash_frame_at s t -> gdb_frame_text t f r -> t = c ++ r -> header_counts t h -> thread_wrong why r v ->
    trace_wrong why s (p ++ h ++ c ++ v).
