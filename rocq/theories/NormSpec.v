(** * Specification vocabulary for normalization, independent of the functions. *)
From Verif Require Import Base Types NormTables.
From Coq Require Import Relations.

(** [subseq a b]: [a] is [b] with some elements left out, in the same order. *)
Inductive subseq {A} : list A -> list A -> Prop :=
| sub_nil : subseq [] []
| sub_keep x a b : subseq a b -> subseq (x :: a) (x :: b)
| sub_skip x a b : subseq a b -> subseq a (x :: b).
(** [infix p s]: [p] occurs somewhere in [s]. *)
Definition infix (p s : str) : Prop := exists a b, s = a ++ p ++ b.
(** The function is in the table and its source file contains one of the patterns listed there. *)
Definition listed (table : list (str * list str)) (fn file : option str) : Prop :=
  exists n files p s, In (n, files) table /\ fn = Some n /\ file = Some s /\ In p files /\ infix p s.
(** As [listed], but an entry without patterns stands for any file, known or not. *)
Definition listed_any (table : list (str * list str)) (fn file : option str) : Prop :=
  listed table fn file \/ exists n, In (n, []) table /\ fn = Some n.

(** Instruction-set variants of libc functions, and the files they come from. *)
Definition arch_suffixes : list str :=
  [L "_sse2"; L "_sse2_bsf"; L "_ssse3"; L "_ssse3_rep"; L "_ssse3_back"; L "_sse42"; L "_ia32"].
Definition arch_file (func file : str) : Prop := infix func file \/ infix (L "/sysdeps/") file \/ infix (L "libc.so") file.
(** One way of making a function name canonical. *)
Inductive simplifies : str -> str -> Prop :=
| s_gdk r : simplifies (L "IA__gdk" ++ r) (L "gdk" ++ r)
| s_g r : simplifies (L "IA__g_" ++ r) (L "g_" ++ r)
| s_gtk r : simplifies (L "IA__gtk" ++ r) (L "gtk" ++ r)
| s_gi r : simplifies (L "__GI_" ++ r) r
| s_arch func suffix : In func arch_functions ->
    In suffix arch_suffixes ->
    simplifies (L "__" ++ func ++ suffix) func.
(** A prefix and what remains of it. *)
Inductive dropped_prefix : str -> str -> Prop :=
| d_gdk : dropped_prefix (L "IA__gdk") (L "gdk")
| d_g : dropped_prefix (L "IA__g_") (L "g_")
| d_gtk : dropped_prefix (L "IA__gtk") (L "gtk")
| d_gi : dropped_prefix (L "__GI_") [].
Definition canonical_name : option str -> option str -> Prop :=
  fun a b => match a, b with
             | None, None => True
             | Some x, Some y => clos_refl_trans str simplifies x y
             | _, _ => False
             end.
Definition prefix_free (n : option str) : Prop :=
  forall s r, n = Some s -> s <> L "IA__gdk" ++ r /\ s <> L "IA__g_" ++ r /\ s <> L "IA__gtk" ++ r /\ s <> L "__GI_" ++ r.

Definition gdb_canonical (f g : gdb_frame) : Prop :=
  canonical_name (gf_function_name f) (gf_function_name g) /\
  gf_function_type g = gf_function_type f /\ gf_number g = gf_number f /\ gf_source_file g = gf_source_file f /\
  gf_source_line g = gf_source_line f /\ gf_signal_handler_called g = gf_signal_handler_called f /\
  gf_address g = gf_address f /\ gf_library_name g = gf_library_name f.
Definition gdb_exit (f : gdb_frame) : Prop := listed gdb_exit_table (gf_function_name f) (gf_source_file f).
Definition gdb_boring (f : gdb_frame) : Prop :=
  listed removable_table (gf_function_name f) (gf_source_file f) \/
  listed above_table (gf_function_name f) (gf_source_file f) \/ gdb_exit f.
Definition gdb_null (f : gdb_frame) : Prop := gf_address f = 0%Z /\ gf_function_name f = Some (L "??").

Definition gdb_recursive (a b : gdb_frame) : Prop :=
  gf_function_name a = gf_function_name b /\ gf_function_name a <> Some (L "??").
Definition gdb_named (f : gdb_frame) (n : str) : gdb_frame :=
  mk_gdb_frame (Some n) (gf_function_type f) (gf_number f) (gf_source_file f) (gf_source_line f)
    (gf_signal_handler_called f) (gf_address f) (gf_library_name f).
Definition core_recursive (a b : core_frame) : Prop := cf_function_name a = cf_function_name b /\ cf_function_name a <> None.
Definition core_named (f : core_frame) (n : str) : core_frame :=
  mk_core_frame (cf_address f) (cf_build_id f) (cf_build_id_offset f) (Some n) (cf_file_name f) (cf_fingerprint f) (cf_fingerprint_hashed f).
(** [file] may have been anonymised. *)
Definition same_or_anonymized (f g : option str) : Prop :=
  g = f \/ exists user rest, ~ In "/"%char user /\
    f = Some (L "/home/" ++ user ++ "/"%char :: rest) /\ g = Some (L "/home/anonymized/" ++ rest).
Definition core_canonical (f g : core_frame) : Prop :=
  canonical_name (cf_function_name f) (cf_function_name g) /\
  same_or_anonymized (cf_file_name f) (cf_file_name g) /\
  cf_address g = cf_address f /\ cf_build_id g = cf_build_id f /\ cf_build_id_offset g = cf_build_id_offset f /\
  cf_fingerprint g = cf_fingerprint f /\ cf_fingerprint_hashed g = cf_fingerprint_hashed f.
Definition core_exit (f : core_frame) : Prop := listed_any core_exit_table (cf_function_name f) (cf_file_name f).
Definition core_boring (f : core_frame) : Prop :=
  listed removable_table (cf_function_name f) (cf_file_name f) \/
  listed above_table (cf_function_name f) (cf_file_name f) \/ core_exit f.
Definition core_null (f : core_frame) : Prop := cf_address f = 0%Z /\ cf_function_name f = None.

(** No path still leads into somebody's home directory. *)
Definition anonymous (file : option str) : Prop :=
  forall user rest, ~ In "/"%char user -> file = Some (L "/home/" ++ user ++ "/"%char :: rest) -> user = L "anonymized".

(** Ends of a list. *)
Definition ends_not {A} (P : A -> Prop) (l : list A) : Prop :=
  (forall x r, l = x :: r -> ~ P x) /\ (forall r x, l = r ++ [x] -> ~ P x).
(** No two neighbours are related. *)
Definition no_neighbours {A} (R : A -> A -> Prop) (l : list A) : Prop :=
  forall l1 a b l2, l = l1 ++ a :: b :: l2 -> ~ R a b.

(** No simplification applies to the name. *)
Definition simple_name (n : option str) : Prop := forall s m, n = Some s -> ~ simplifies s m.

(** Kernel oops: a name up to its first dot; frames without a module whose name is in the list. *)
Definition cut_name (f g : koops_frame) : Prop :=
  (exists rest before, kf_function_name f = Some (before ++ rest) /\ kf_function_name g = Some before /\
     ~ In "."%char before /\ (rest = [] \/ exists r, rest = "."%char :: r) \/
   kf_function_name f = None /\ kf_function_name g = None) /\
  kf_address g = kf_address f /\ kf_reliable g = kf_reliable f /\ kf_function_offset g = kf_function_offset f /\
  kf_function_length g = kf_function_length f /\ kf_module_name g = kf_module_name f /\
  kf_from_address g = kf_from_address f /\ kf_from_function_name g = kf_from_function_name f /\
  kf_from_function_offset g = kf_from_function_offset f /\ kf_from_function_length g = kf_from_function_length f /\
  kf_from_module_name g = kf_from_module_name f /\ kf_special_stack g = kf_special_stack f.
Definition koops_boring (f : koops_frame) : Prop :=
  kf_module_name f = None /\ exists n, kf_function_name f = Some n /\ In n koops_blacklist.
(** [kept P a b]: [b] is exactly the elements of [a] that satisfy [P], in order. *)
Inductive kept {A} (P : A -> Prop) : list A -> list A -> Prop :=
| kept_nil : kept P [] []
| kept_yes x a b : P x -> kept P a b -> kept P (x :: a) (x :: b)
| kept_no x a b : ~ P x -> kept P a b -> kept P (x :: a) b.
(** Strictly increasing in strcmp order. *)
Fixpoint byte_less (a b : str) : Prop :=
  match a, b with
  | _, [] => False
  | [], _ :: _ => True
  | x :: a, y :: b => (code x < code y)%N \/ x = y /\ byte_less a b
  end.
Definition increasing (l : list str) : Prop := forall l1 a b l2, l = l1 ++ a :: b :: l2 -> byte_less a b.

(** Pairing of unknown functions. *)
Definition is_anon (f : gdb_frame) : Prop := gf_function_name f = Some (L "??").
Definition libs_agree (a b : gdb_frame) : Prop :=
  forall x y, gf_library_name a = Some x -> gf_library_name b = Some y -> x = y.
(** [a] and [b] are known under the same name and not from different libraries. *)
Definition same_known (a b : gdb_frame) : Prop :=
  gf_function_name a = gf_function_name b /\ ~ is_anon a /\ libs_agree a b.
Definition both {A} (R : A -> A -> Prop) (a b : option A) : Prop :=
  match a, b with None, None => True | Some x, Some y => R x y | _, _ => False end.
(** The neighbours of position [p] in [l1] and of [q] in [l2] are the same known functions. *)
Definition same_surroundings (l1 l2 : list gdb_frame) (p q : nat) : Prop :=
  both same_known (nth_error l1 (S p)) (nth_error l2 (S q)) /\
  match p, q with
  | O, O => True
  | S p', S q' => both same_known (nth_error l1 p') (nth_error l2 q')
  | _, _ => False
  end.
(** Only the function name differs. *)
Definition same_but_name (f g : gdb_frame) : Prop :=
  gf_function_type g = gf_function_type f /\ gf_number g = gf_number f /\ gf_source_file g = gf_source_file f /\
  gf_source_line g = gf_source_line f /\ gf_signal_handler_called g = gf_signal_handler_called f /\
  gf_address g = gf_address f /\ gf_library_name g = gf_library_name f.
(** What pairing did: [ps] lists the pairs of positions in the order of their numbers. *)
Record pairing (name : nat -> option str) (l1 l2 l1' l2' : list gdb_frame) (ps : list (nat * nat)) : Prop := {
  pairing_lengths : length l1' = length l1 /\ length l2' = length l2;
  pairing_distinct : NoDup (map fst ps) /\ NoDup (map snd ps);
  pairing_named : forall k p q, nth_error ps k = Some (p, q) -> exists f g f' g',
    nth_error l1 p = Some f /\ nth_error l2 q = Some g /\ nth_error l1' p = Some f' /\ nth_error l2' q = Some g' /\
    is_anon f /\ is_anon g /\ libs_agree f g /\ same_but_name f f' /\ same_but_name g g' /\
    gf_function_name f' = name k /\ gf_function_name g' = name k;
  pairing_others : (forall p, ~ In p (map fst ps) -> nth_error l1' p = nth_error l1 p) /\
                   (forall q, ~ In q (map snd ps) -> nth_error l2' q = nth_error l2 q);
  pairing_known : forall p q, In (p, q) ps -> same_surroundings l1' l2' p q }.

(** Pairs the function ought to consider: unknown on both sides, same known neighbours. *)
Definition eligible (l1 l2 : list gdb_frame) (p q : nat) : Prop := exists f g, nth_error l1 p = Some f /\ nth_error l2 q = Some g /\
  is_anon f /\ is_anon g /\ libs_agree f g /\ same_surroundings l1 l2 p q.

(** Library names.  UINT64_MAX is an unknown address. *)
Definition covers (l : gdb_sharedlib) (a : Z) : Prop := (gl_from l <= a <= gl_to l)%Z /\ a <> ulong_max.
Definition first_covering (libs : list gdb_sharedlib) (a : Z) (l : gdb_sharedlib) : Prop :=
  exists l1 l2, libs = l1 ++ l :: l2 /\ covers l a /\ forall x, In x l1 -> ~ covers x a.
(** [b] is the last component of [s], cut after its first ".so". *)
Definition base_name (s b : str) : Prop :=
  exists dir rest, s = dir ++ b ++ rest /\ ~ In "/"%char (b ++ rest) /\ (dir = [] \/ exists d, dir = d ++ ["/"%char]) /\
    ((exists h, b = h ++ L ".so" /\ ~ infix (L ".so") (h ++ L ".s")) \/ rest = [] /\ ~ infix (L ".so") b).
Definition labelled (libs : list gdb_sharedlib) (f g : gdb_frame) : Prop :=
  ((forall l, In l libs -> ~ covers l (gf_address f)) /\ gf_library_name g = gf_library_name f \/
   exists l s b, first_covering libs (gf_address f) l /\ gl_soname l = Some s /\ gf_library_name g = Some b /\ base_name s b) /\
  gf_function_name g = gf_function_name f /\ gf_function_type g = gf_function_type f /\ gf_number g = gf_number f /\
  gf_source_file g = gf_source_file f /\ gf_source_line g = gf_source_line f /\
  gf_signal_handler_called g = gf_signal_handler_called f /\ gf_address g = gf_address f.
