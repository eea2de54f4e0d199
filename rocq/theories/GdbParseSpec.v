(** * What a gdb stack trace looks like. *)
From Verif Require Import Base Types UtilsSpec ParseSpec KoopsSpec.
Open Scope nat_scope.

(** ** Characters and words *)
Definition alnum_char (c : ascii) : Prop := (97 <= code c <= 122)%N \/ (65 <= code c <= 90)%N \/ (48 <= code c <= 57)%N.
(** The characters of function names; in brackets also spaces. *)
Definition name_char (space : bool) (c : ascii) : Prop := alnum_char c \/ In c (L "@.:=!*+-[]~&/%^|,_") \/ (space = true /\ c = sp).
Definition white (c : ascii) : Prop := In c [sp; tab; nl; ascii_of_nat 11; ascii_of_nat 12; ascii_of_nat 13].
(** [r] follows one or more spaces. *)
Definition spaces_to (s r : str) : Prop := exists n, s = repeat sp (S n) ++ r /\ ~ begins [sp] r.
(** [r] follows one or more spaces and newlines. *)
Definition spaces_nl (s r : str) : Prop :=
  exists ws, s = ws ++ r /\ ws <> [] /\ Forall (fun c => c = sp \/ c = nl) ws /\ ~ begins [sp] r /\ ~ begins [nl] r.
Definition decimal (s : str) (v : N) (r : str) : Prop := exists ds, s = ds ++ r /\ number32 ds v /\ ~ starts_with_digit r.

(** ** Function names *)
(** The operators of C++; "--" and "-=" are seen as "-" and a character of a name. *)
Definition cpp_operators : list str := [
  L ">>="; L ">>"; L ">="; L ">"; L "<<="; L "<<"; L "<="; L "<"; L "->*"; L "->"; L "-"; L "=="; L "="; L "&&"; L "&="; L "&";
  L "||"; L "|="; L "|"; L "++"; L "+="; L "+"; L "/="; L "/"; L "*="; L "*"; L "%="; L "%"; L "!="; L "!"; L "~"; L "()"; L "[]"; L ",";
  L "^="; L "^"; L " new[]"; L " new"; L " delete[]"; L " delete"].
(** The longest operator that [s] starts with. *)
Definition operator_at (s o : str) : Prop := In o cpp_operators /\ begins o s /\ forall o', In o' cpp_operators -> begins o' s -> length o' <= length o.
(** "operator+" followed by [u]; a space after it is part of the name unless a parenthesis follows. *)
Definition operator_name (v u : str) : Prop :=
  exists o g, v = L "operator" ++ o ++ g /\ operator_at (o ++ g ++ u) o /\
    ((g = [sp] /\ ~ begins (L "(") u) \/ (g = [] /\ (~ begins [sp] u \/ begins (L " (") u))).
Definition no_operator (s : str) : Prop := forall v u, s = v ++ u -> ~ operator_name v u.
(** [v] is all that can be read of a name without brackets before [r]. *)
Inductive run (space : bool) : str -> str -> Prop :=
| run_stop r : match r with [] => True | c :: _ => ~ name_char space c end -> run space [] r
| run_char c v r : no_operator (c :: v ++ r) -> name_char space c -> run space v r -> run space (c :: v) r
| run_op o c v r : operator_name o (c :: v ++ r) -> name_char space c -> run space v r -> run space (o ++ c :: v) r
| run_op_stop o c r : operator_name o (c :: r) -> ~ name_char space c -> run space o (c :: r).
(** The text ends with the name of an operator. *)
Inductive run_off (space : bool) : str -> Prop :=
| off_here o : operator_name o [] -> run_off space o
| off_char c s : no_operator (c :: s) -> name_char space c -> run_off space s -> run_off space (c :: s)
| off_op o c s : operator_name o (c :: s) -> name_char space c -> run_off space s -> run_off space (o ++ c :: s).
Inductive balanced : str -> Prop :=
| bal_nil : balanced []
| bal_char c s : c <> "["%char -> c <> "]"%char -> balanced s -> balanced (c :: s)
| bal_brackets s t : balanced s -> balanced t -> balanced (L "[" ++ s ++ L "]" ++ t).
(** " [with T = int]" *)
Definition with_args (v : str) : Prop := exists w, v = L " [with " ++ w ++ L "]" /\ balanced w.
Definition no_args (s : str) : Prop := forall v u, with_args v -> s <> v ++ u.
(** Parts of a name in front of [r]: runs, "(...)" and "<...>".  In brackets spaces are allowed, in angle brackets also arguments. *)
Inductive parts : bool -> bool -> str -> str -> Prop :=
| p_end space args r : parts space args [] r
| p_args v w r : with_args v -> parts true true w r -> parts true true (v ++ w) r
| p_run (space args : bool) v w r : v <> [] -> run space v (w ++ r) -> (args = true -> no_args (v ++ w ++ r)) -> parts space args w r -> parts space args (v ++ w) r
| p_braces space args v w r : parts true false v (L ")" ++ w ++ r) -> parts space args w r -> parts space args (L "(" ++ v ++ L ")" ++ w) r
| p_template space args v w r : parts true true v (L ">" ++ w ++ r) -> parts space args w r -> parts space args (L "<" ++ v ++ L ">" ++ w) r.
Inductive parts_off : bool -> bool -> str -> Prop :=
| po_args v s : with_args v -> parts_off true true s -> parts_off true true (v ++ s)
| po_run (space args : bool) v s : v <> [] -> run space v s -> (args = true -> no_args (v ++ s)) -> parts_off space args s -> parts_off space args (v ++ s)
| po_here (space args : bool) s : run_off space s -> (args = true -> no_args s) -> parts_off space args s
| po_braces space args v s : parts true false v (L ")" ++ s) -> parts_off space args s -> parts_off space args (L "(" ++ v ++ L ")" ++ s)
| po_in_braces space args s : parts_off true false s -> parts_off space args (L "(" ++ s)
| po_template space args v s : parts true true v (L ">" ++ s) -> parts_off space args s -> parts_off space args (L "<" ++ v ++ L ">" ++ s)
| po_in_template space args s : parts_off true true s -> parts_off space args (L "<" ++ s).
(** The first name: one character of the list and parts, or parts from the start. *)
Definition start_char (c : ascii) : Prop := (In c (L "~*._") \/ alnum_char c) /\ c <> "o"%char.
Definition first_name (v r : str) : Prop :=
  (exists c w, v = c :: w /\ start_char c /\ parts false false w r) \/ ((begins (L "o") v \/ begins (L "(") v) /\ parts false false v r).
Definition first_off (s : str) : Prop :=
  (exists c t, s = c :: t /\ start_char c /\ parts_off false false t) \/ ((begins (L "o") s \/ begins (L "(") s) /\ parts_off false false s).
(** "const" after the first name: what it adds, and the character and text that follow. *)
Definition const_suffix (c : ascii) (s : str) (added : str) (c' : ascii) (r : str) : Prop :=
  (s = L "const" ++ c' :: r /\ white c' /\ added = c :: L "const") \/ (~ begins (L "const") s /\ added = [] /\ c' = c /\ r = s).
(** The text goes on with a second name. *)
Definition second_name (v r : str) : Prop := v <> [] /\ ~ begins (L "(") v /\ ~ begins (L "<") v /\ parts false false v r.
Definition no_second (s : str) : Prop := match s with [] => True | c :: _ => ~ name_char false c end.
(** "name", "name const", "type name", "type const name const", "??": name, type, and the text from the space after it. *)
Definition function_name (s name : str) (type : option str) (r : str) : Prop :=
  (s = L "??" ++ r /\ name = L "??" /\ type = None) \/
  (~ begins (L "??") s /\
   exists v c t added c1 t1, s = v ++ c :: t /\ first_name v (c :: t) /\ white c /\ const_suffix c t added c1 t1 /\
    ((no_second t1 /\ name = v ++ added /\ type = None /\ r = c1 :: t1) \/
     (exists w c2 t2, t1 = w ++ c2 :: t2 /\ second_name w (c2 :: t2) /\ white c2 /\ type = Some (v ++ added) /\
        ((~ begins (L "const") t2 /\ name = w /\ r = c2 :: t2) \/
         (t2 = L "const" ++ r /\ match r with [] => True | c3 :: _ => white c3 end /\ name = w ++ c2 :: L "const"))))).
Definition function_name_off (s : str) : Prop :=
  ~ begins (L "??") s /\
  (first_off s \/
   exists v c t added c1 t1, s = v ++ c :: t /\ first_name v (c :: t) /\ white c /\ const_suffix c t added c1 t1 /\
     ~ begins (L "(") t1 /\ ~ begins (L "<") t1 /\ parts_off false false t1).

(** ** Calls *)
(** [args depth string s r]: [s] is the rest of an argument list, inside of [depth] more parentheses and maybe
    inside of a string.  The word "(truncated)" closes everything but the list itself. *)
Inductive args : nat -> bool -> str -> str -> Prop :=
| a_end r : args 0 false (L ")" ++ r) r
| a_truncated depth string s r : args 0 false s r -> args depth string (L "(truncated)" ++ s) r
| a_open depth s r : ~ begins (L "(truncated)") (L "(" ++ s) -> args (S depth) false s r -> args depth false (L "(" ++ s) r
| a_close depth s r : args depth false s r -> args (S depth) false (L ")" ++ s) r
| a_quote depth s r : args depth true s r -> args depth false (dquote :: s) r
| a_char depth c s r : ~ In c (dquote :: L "()") -> args depth false s r -> args depth false (c :: s) r
| a_unquote depth s r : args depth false s r -> args depth true (dquote :: s) r
| a_escape depth c s r : args depth true s r -> args depth true (L "\" ++ c :: s) r
| a_text depth c s r : ~ In c (dquote :: L "\") -> ~ begins (L "(truncated)") (c :: s) -> args depth true s r -> args depth true (c :: s) r.
Definition function_call (s name : str) (type : option str) (r : str) : Prop :=
  exists t u, function_name s name type t /\ spaces_nl t (L "(" ++ u) /\ args 0 false u r.
(** The text ends with the parenthesis that opens the arguments, or with the name of an operator. *)
Definition function_call_off (s : str) : Prop :=
  function_name_off s \/ exists name type t, function_name s name type t /\ spaces_nl t (L "(").

(** ** Frames *)
Definition address_in (s : str) (a : N) (r : str) : Prop :=
  exists t1 t2 t3, hex_0x s a t1 /\ spaces_to t1 (L "in" ++ t2) /\ spaces_to t2 t3 /\
    ((~ begins (L "vtable") t3 /\ r = t3) \/
     (exists t4 t5, t3 = L "vtable" ++ t4 /\ spaces_to t4 (L "for" ++ t5) /\ spaces_to t5 r)).
Definition no_address : Z := 18446744073709551615.
Definition no_line : Z := 4294967295.
(** "0x1f in name (args)" or "name (args)" *)
Definition located_call (s : str) (a : Z) (name : str) (type : option str) (r : str) : Prop :=
  (exists n t, address_in s n t /\ function_call t name type r /\ a = Z.of_N n) \/
  ((forall n t, ~ hex_0x s n t) /\ function_call s name type r /\ a = no_address).
Definition located_call_off (s : str) : Prop :=
  (exists n t, address_in s n t /\ function_call_off t) \/ ((forall n t, ~ hex_0x s n t) /\ function_call_off s).
(** A shared object is no source file. *)
Definition shared_object (file : str) : Prop :=
  exists pre t, first_split (fun u => begins (L "/lib") u) file pre t /\ ((exists a b, t = a ++ L ".so." ++ b) \/ exists a, t = a ++ L ".so").
Definition file_char (c : ascii) : Prop := alnum_char c \/ In c (L "_/\+.-").
Definition file_location (s : str) (file : option str) (line : Z) (r : str) : Prop :=
  exists t1 t2 t3 name t4, spaces_nl s t1 /\ (t1 = L "at" ++ t2 \/ t1 = L "from" ++ t2) /\ spaces_to t2 t3 /\
    t3 = name ++ t4 /\ name <> [] /\ Forall file_char name /\ match t4 with [] => True | c :: _ => ~ file_char c end /\
    ((shared_object name /\ file = None) \/ (~ shared_object name /\ file = Some name)) /\
    ((exists n t5, t4 = L ":" ++ t5 /\ decimal t5 n r /\ line = Z.of_N n) \/ (~ begins (L ":") t4 /\ line = no_line /\ r = t4)).
Definition frame_start (s : str) (n : N) (r : str) : Prop := exists t1 t2, s = L "#" ++ t1 /\ decimal t1 n t2 /\ spaces_to t2 r.
(** The address of the frame if nothing of what follows it is recognised. *)
Definition address_read (s : str) (a : Z) : Prop :=
  (exists n t, hex_0x s n t /\ a = Z.of_N n) \/ ((forall n t, ~ hex_0x s n t) /\ a = no_address).
Definition frame_header (s : str) (f : gdb_frame) (r : str) : Prop :=
  exists n t, frame_start s n t /\
    ((exists a name type u file line, located_call t a name type u /\
        (file_location u file line r \/ ((forall g m q, ~ file_location u g m q) /\ file = None /\ line = no_line /\ r = u)) /\
        f = mk_gdb_frame (Some name) type (Z.of_N n) file line false a None) \/
     ((forall a name type u, ~ located_call t a name type u) /\ ~ located_call_off t /\
      exists a, address_read t a /\
        ((exists name type u file line, function_call t name type u /\ file_location u file line r /\
            f = mk_gdb_frame (Some name) type (Z.of_N n) file line false a None) \/
         (t = L "<signal handler called>" ++ r /\ f = mk_gdb_frame None None (Z.of_N n) None no_line true a None)))).
Definition frame_header_off (s : str) : Prop := exists n t, frame_start s n t /\
  (located_call_off t \/ ((forall a name type u, ~ located_call t a name type u) /\ function_call_off t)).
(** The next frame or thread starts after the first newline in front of "#" or "Thread". *)
Definition next_entry (s r : str) : Prop :=
  (exists pre, first_split (fun t => begins (nl :: L "#") t \/ begins (nl :: L "Thread") t) s pre (nl :: r)) \/
  ((forall pre t, s = pre ++ t -> ~ begins (nl :: L "#") t /\ ~ begins (nl :: L "Thread") t) /\ r = []).
Definition gdb_frame_text (s : str) (f : gdb_frame) (r : str) : Prop := (exists q, frame_header s f q) /\ next_entry s r.

(** ** Threads *)
Definition lwp (s : str) (n : N) (r : str) : Prop := exists t, s = L "(LWP " ++ t /\ decimal t n (L ")" ++ r).
Definition maybe_lwp (tid : Z) (s : str) (tid' : Z) (r : str) : Prop :=
  (exists n, lwp s n r /\ tid' = Z.of_N n) \/ ((forall n q, ~ lwp s n q) /\ tid' = tid /\ r = s).
Definition no_tid : Z := 4294967295.
(** All the digits that a thread identification starts with. *)
Definition identification (s r : str) : Prop :=
  (exists ds, s = L "0x" ++ ds ++ r /\ ds <> [] /\ Forall (fun c => hexadecimal_digit c <> None) ds /\ ~ starts_with_hex r) \/
  (exists ds, s = ds ++ r /\ ds <> [] /\ Forall (fun c => decimal_digit c <> None) ds /\ ~ starts_with_digit r /\
     forall es q, s = L "0x" ++ es ++ q -> es <> [] -> ~ Forall (fun c => hexadecimal_digit c <> None) es).
(** "Thread 1 (LWP 2):", "Thread 1 (Thread 0x1f (LWP 2)):" *)
Definition thread_title (s : str) (number tid : Z) (r : str) : Prop :=
  exists n t1 t2 t3 t4 tid1 t5, s = L "Thread" ++ t1 /\ spaces_to t1 t2 /\ decimal t2 n t3 /\ number = Z.of_N n /\ spaces_to t3 t4 /\ maybe_lwp no_tid t4 tid1 t5 /\
    ((~ begins (L "(Thread ") t5 /\ tid = tid1 /\ t5 = L ":" ++ nl :: r) \/
     (exists t6 t7 t8, t5 = L "(Thread " ++ t6 /\ identification t6 t7 /\ (spaces_to t7 t8 \/ (~ begins [sp] t7 /\ t8 = t7)) /\ maybe_lwp tid1 t8 tid (L "):" ++ nl :: r))).
Inductive frames_text : str -> list gdb_frame -> str -> Prop :=
| ft_end s : (forall f r, ~ gdb_frame_text s f r) -> ~ frame_header_off s -> frames_text s [] s
| ft_more s f r fs q : gdb_frame_text s f r -> frames_text r fs q -> frames_text s (f :: fs) q.
Inductive frames_off : str -> Prop :=
| fo_here s : frame_header_off s -> frames_off s
| fo_more s f r : gdb_frame_text s f r -> frames_off r -> frames_off s.
(** Frames without a title are a thread with number 0. *)
Definition thread_start (s : str) (number tid : Z) (r : str) : Prop :=
  (begins (L "Thread") s /\ thread_title s number tid r) \/ (~ begins (L "Thread") s /\ number = 0%Z /\ tid = no_tid /\ r = s).
Definition thread_text (s : str) (t : gdb_thread) (r : str) : Prop :=
  exists number tid q fs, thread_start s number tid q /\ frames_text q fs r /\ fs <> [] /\ t = mk_gdb_thread number tid fs.
Definition thread_off (s : str) : Prop := exists number tid q, thread_start s number tid q /\ frames_off q.

(** ** Stack traces *)
Inductive threads_text : str -> list gdb_thread -> str -> Prop :=
| tt_end s : (forall t r, ~ thread_text s t r) -> ~ thread_off s -> threads_text s [] s
| tt_more s t r ts q : thread_text s t r -> threads_text r ts q -> threads_text s (t :: ts) q.
Inductive threads_off : str -> Prop :=
| to_here s : thread_off s -> threads_off s
| to_more s t r : thread_text s t r -> threads_off r -> threads_off s.
(** [r] follows the first newline in front of the word. *)
Definition first_entry (word s r : str) : Prop := exists pre, first_split (fun t => begins (nl :: word) t) s pre (nl :: r).
Definition no_entry (word s : str) : Prop := forall r, ~ first_entry word s r.
(** Threads follow; a frame before them is the one that crashed. *)
Definition crash_frame_at (s t : str) : Prop := first_entry (L "#") s t /\ forall u, first_entry (L "Thread ") s u -> length u < length t.
Definition threads_at (s t : str) : Prop := first_entry (L "Thread ") s t /\ forall u, first_entry (L "#") s u -> length u <= length t.
Definition trace_start (s : str) (crash : option gdb_frame) (r : str) : Prop :=
  (exists t f, crash_frame_at s t /\ gdb_frame_text t f r /\ crash = Some f) \/ (threads_at s r /\ crash = None).
Definition trace_text (s : str) (crash : option gdb_frame) (ts : list gdb_thread) (r : str) : Prop :=
  exists q, trace_start s crash q /\ threads_text q ts r /\ ts <> [].
Definition trace_off (s : str) : Prop :=
  (exists t, crash_frame_at s t /\ frame_header_off t) \/ (exists crash q, trace_start s crash q /\ threads_off q).

(** ** Usual stack traces *)
(** An identifier; the parser takes "vtable" and "operator" for words of their own. *)
Definition function_word (name : str) : Prop :=
  name <> [] /\ Forall (fun c => alnum_char c \/ c = "_"%char) name /\ ~ starts_with_digit name /\ ~ begins (L "vtable") name /\
  forall a b, name <> a ++ L "operator" ++ b.
Definition address_word (a : option str) : str := match a with Some ds => L "0x" ++ ds ++ L " in " | None => [] end.
(** "#1  0x1f in name (args) at file:2" *)
Definition frame_line (ns : str) (a : option str) (name arguments file ls : str) : str :=
  L "#" ++ ns ++ L "  " ++ address_word a ++ name ++ L " (" ++ arguments ++ L ") at " ++ file ++ L ":" ++ ls.
Definition address_value (a : option str) (v : Z) : Prop :=
  match a with Some ds => exists n, hexadecimal64 ds n /\ v = Z.of_N n | None => v = no_address end.
Definition frame_line_of (line : str) (f : gdb_frame) : Prop :=
  exists ns n a v name arguments file ls l, line = frame_line ns a name arguments file ls /\ number32 ns n /\ address_value a v /\ function_word name /\
    without (dquote :: nl :: L "()") arguments /\ file <> [] /\ Forall file_char file /\ ~ shared_object file /\ number32 ls l /\
    f = mk_gdb_frame (Some name) None (Z.of_N n) (Some file) (Z.of_N l) false v None.
(** "Thread 1 (Thread 0x1f (LWP 2)):" *)
Definition title_line (ns ids ts : str) : str := L "Thread " ++ ns ++ L " (Thread 0x" ++ ids ++ L " (LWP " ++ ts ++ L ")):".
(** An empty line, the title, the frames *)
Definition thread_block (text : str) (t : gdb_thread) : Prop :=
  exists ns n ids ts tid lines frames, text = nl :: title_line ns ids ts ++ nl :: concat (map (fun l => l ++ [nl]) lines) /\
    number32 ns n /\ ids <> [] /\ Forall (fun c => hexadecimal_digit c <> None) ids /\ number32 ts tid /\
    lines <> [] /\ Forall2 frame_line_of lines frames /\ t = mk_gdb_thread (Z.of_N n) (Z.of_N tid) frames.
(** Nothing that looks like a frame or a thread on the lines that follow. *)
Definition quiet (s : str) : Prop := forall pre t, s = pre ++ t -> ~ begins (nl :: L "#") t /\ ~ begins (nl :: L "Thread") t.
(** One line of any text, maybe the frame that crashed on a line of its own, threads, other lines *)
Definition usual_trace (text : str) (crash : option gdb_frame) (threads : list gdb_thread) : Prop :=
  exists pre first blocks rest, text = pre ++ first ++ concat blocks ++ rest /\ ~ In nl pre /\ blocks <> [] /\ Forall2 thread_block blocks threads /\ quiet (nl :: rest) /\
    ((first = [] /\ crash = None) \/ exists line f, first = nl :: line ++ [nl] /\ frame_line_of line f /\ crash = Some f).
