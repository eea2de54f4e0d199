(** * Specification: report types, operating system names, problem directories. *)
From Verif Require Import Base Types UtilsSpec NormSpec RpmSpec SystemModel.
Open Scope nat_scope.

(** ** Report types *)
Definition type_names : list (nat * str) :=
  [(1, L "core"); (2, L "python"); (3, L "kerneloops"); (4, L "java"); (5, L "gdb"); (6, L "ruby"); (7, L "javascript")].
(** abrt's problem types start with one of these words. *)
Definition abrt_words : list (nat * str) := [(1, L "CCpp"); (2, L "Python"); (3, L "Kerneloops"); (4, L "Java"); (6, L "Ruby")].
Definition abrt_type (s : str) (t : nat) : Prop :=
  (exists word rest, In (t, word) abrt_words /\ s = word ++ rest) \/
  (t = 0 /\ forall u word rest, In (u, word) abrt_words -> s <> word ++ rest).

(** ** Operating systems *)
Definition upper : str := L "ABCDEFGHIJKLMNOPQRSTUVWXYZ".
Definition lower : str := L "abcdefghijklmnopqrstuvwxyz".
Definition lower_case (c d : ascii) : Prop :=
  (exists i, nth_error upper i = Some c /\ nth_error lower i = Some d) \/ (~ In c upper /\ d = c).
Definition same_letter (c d : ascii) : Prop := exists e, lower_case c e /\ lower_case d e.
(** The first occurrence of a word. *)
Definition first_at (word text before after : str) : Prop :=
  text = before ++ word ++ after /\ forall a b, text = a ++ word ++ b -> length before <= length a.
Definition is_rhel (text : str) : Prop :=
  exists p rest, text = p ++ rest /\ Forall2 same_letter (L "Red Hat Enterprise Linux") p.
Definition dotted_number (c : ascii) : Prop := decimal_digit c <> None \/ c = "."%char.
Definition system_release (text name version : str) : Prop :=
  exists before after number rest, first_at (L " release ") text before after /\
    (is_rhel text /\ name = L "rhel" \/ ~ is_rhel text /\ before <> [] /\ Forall2 lower_case before name) /\
    max_run dotted_number after number rest /\ version = match number with [] => after | _ => number end.

(** os-release keys: the last or the first value of a key. *)
Definition last_of (key : str) (ps : list (str * str)) (old new : option str) : Prop :=
  (new = old /\ forall v, ~ In (key, v) ps) \/
  (exists a v b, ps = a ++ (key, v) :: b /\ new = Some v /\ forall w, ~ In (key, w) b).
Definition first_of (key : str) (ps : list (str * str)) (new : option str) : Prop :=
  (new = None /\ forall v, ~ In (key, v) ps) \/
  (exists a v b, ps = a ++ (key, v) :: b /\ new = Some v /\ forall w, ~ In (key, w) a).
Definition is_rawhide (ps : list (str * str)) : Prop := exists v, In (L "VERSION", v) ps /\ infix (L "(Rawhide)") v.
Definition described (ps : list (str * str)) (os os' : operating_system) : Prop :=
  last_of (L "ID") ps (os_name os) (os_name os') /\
  (is_rawhide ps /\ os_version os' = Some (L "rawhide") \/
   ~ is_rawhide ps /\ (os_version os <> None /\ os_version os' = os_version os \/
                       os_version os = None /\ first_of (L "VERSION_ID") ps (os_version os'))) /\
  last_of (L "CPE_NAME") ps (os_cpe os) (os_cpe os') /\
  last_of (L "VARIANT_ID") ps (os_variant os) (os_variant os') /\
  os_architecture os' = os_architecture os /\ os_uptime os' = os_uptime os /\ os_desktop os' = os_desktop os.

(** ** Problem directories *)
(** A whole number with leading white space and a sign. *)
Definition whole_number (text : str) (z : Z) : Prop :=
  exists blank sign digits n, text = blank ++ sign ++ digits /\ Forall space_char blank /\ decimal digits n /\
    ((sign = [] \/ sign = L "+") /\ z = Z.of_N n \/ sign = L "-" /\ z = (- Z.of_N n)%Z).
(** The value of an environment variable listed one per line: only the first place where the text
    "KEY=" occurs counts, and only if a line starts there. *)
Definition variable (key text value : str) : Prop :=
  exists before after rest, first_at (key ++ L "=") text before after /\ (before = [] \/ exists b, before = b ++ [nl]) /\
    after = value ++ rest /\ ~ In nl value /\ (rest = [] \/ exists r, rest = nl :: r).
Definition first_line (text line : str) : Prop :=
  ~ In nl line /\ (text = line \/ exists rest, text = line ++ nl :: rest).
(** The last component of a path. *)
Definition base_name (path base : str) : Prop :=
  ~ In "/"%char base /\ (path = base \/ exists dir, path = dir ++ L "/" ++ base).
(** A number at the start of a text, as strtoul reads it. *)
Definition leading_number (text : str) (n : N) : Prop :=
  exists blank sign digits junk, text = blank ++ sign ++ digits ++ junk /\ Forall space_char blank /\ (sign = [] \/ sign = L "+") /\
    decimal digits n /\ (forall c r, junk = c :: r -> decimal_digit c = None).
(** The package of the crashed program, described by the pkg_* files. *)
Definition affected_package (d : directory) (p : rpm_package) : Prop :=
  exists epoch name version release architecture n v r a,
    d (L "pkg_epoch") = Contents epoch /\ d (L "pkg_name") = Contents name /\ d (L "pkg_version") = Contents version /\
    d (L "pkg_release") = Contents release /\ d (L "pkg_arch") = Contents architecture /\
    first_line name n /\ first_line version v /\ first_line release r /\ first_line architecture a /\
    rp_name p = Some n /\ rp_version p = Some v /\ rp_release p = Some r /\ rp_architecture p = Some a /\
    (forall k, leading_number epoch k -> (k < 4294967296)%N -> rp_epoch p = Z.of_N k) /\
    rp_role p = ROLE_AFFECTED /\ rp_install_time p = 0%Z.
(** The packages named by the files of a directory. *)
Definition crashed_package (d : directory) (l : list rpm_package) : Prop :=
  (d (L "package") = Missing /\ l = []) \/ (d (L "package") <> Missing /\ exists p, l = [p] /\ affected_package d p).
Definition listed_packages (d : directory) (l : list rpm_package) : Prop :=
  (exists text ls, d (L "dso_list") = Contents text /\ lines text ls /\ dso_lines ls l) \/
  ((forall text, d (L "dso_list") <> Contents text) /\ l = []).
Definition interpreter_package (d : directory) (l : list rpm_package) : Prop :=
  (exists text name n version release architecture, d (L "interpreter") = Contents text /\ is_nevra text name n version release architecture /\
     l = [mk_rpm_package (Some name) (Z.of_N n) (Some version) (Some release) (Some architecture) 0 ROLE_UNKNOWN []]) \/
  ((forall text name n version release architecture, d (L "interpreter") = Contents text -> ~ is_nevra text name n version release architecture) /\ l = []).
(** All five pkg_* files are readable and the epoch is not 2^64-1 or more. *)
Definition crashed_readable (d : directory) : Prop :=
  Forall (fun f => exists text, d f = Contents text) [L "pkg_epoch"; L "pkg_name"; L "pkg_version"; L "pkg_release"; L "pkg_arch"].
(** Name and version are known from os-release, or from the older release file. *)
Definition os_known (d : directory) : Prop :=
  (exists text ls ps os, d (L "os_info") = Contents text /\ lines_of text ls /\ os_lines ls ps /\ described ps os_new os /\
     os_name os <> None /\ os_version os <> None) \/
  (exists text name version, d (L "os_release") = Contents text /\ system_release text name version).
