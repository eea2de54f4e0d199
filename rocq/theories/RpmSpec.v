(** * Specification: package names, package lists, dso_list lines. *)
From Verif Require Import Base Types UtilsSpec CmpSpec.
From Coq Require Import Sorted.
Open Scope nat_scope.

(** ** name-version-release *)
Definition is_nvr (text name version release : str) : Prop :=
  text = name ++ L "-" ++ version ++ L "-" ++ release /\
  name <> [] /\ version <> [] /\ ~ In "-"%char version /\ ~ In "-"%char release.

(** Decimal numerals ([numeral], UtilsSpec.v) and the white space of isspace. *)
Notation decimal := (numeral decimal_digit 10).
Definition space_char (c : ascii) : Prop := In c [" "; "009"; "010"; "011"; "012"; "013"]%char.
(** An epoch as strtoul reads it: leading white space and one sign are skipped, then digits to the
    end; the value fits 32 bits. *)
Definition is_epoch (s : str) (n : N) : Prop :=
  exists blank sign digits, s = blank ++ sign ++ digits /\ Forall space_char blank /\ (sign = [] \/ sign = L "+") /\
    decimal digits n /\ (n < 4294967296)%N.
(** name-[epoch:]version-release.architecture; [epoch] is the text before the colon, if any. *)
Definition nevra_shape (text name : str) (epoch : option str) (version release architecture : str) : Prop :=
  text = name ++ L "-" ++ match epoch with Some e => e ++ L ":" | None => [] end ++ version ++ L "-" ++ release ++ L "." ++ architecture /\
  name <> [] /\ version <> [] /\ release <> [] /\
  match epoch with
  | Some e => e <> [] /\ ~ In "-"%char e /\ ~ In ":"%char e
  | None => ~ In ":"%char version
  end /\
  ~ In "-"%char version /\ ~ In "-"%char release /\ ~ In "-"%char architecture /\ ~ In "."%char architecture.
Definition epoch_value (epoch : option str) (n : N) : Prop :=
  match epoch with Some e => is_epoch e n | None => n = 0%N end.
Definition is_nevra (text name : str) (n : N) (version release architecture : str) : Prop :=
  exists epoch, nevra_shape text name epoch version release architecture /\ epoch_value epoch n.
(** A text of the right shape whose epoch is not a 32-bit number. *)
Definition bad_epoch (text : str) : Prop :=
  exists name e version release architecture,
    nevra_shape text name (Some e) version release architecture /\ ~ exists n, is_epoch e n.

(** ** Sorting *)
(** What the C standard says of qsort: for a comparison that orders the elements, the result holds
    the same elements in ascending order. *)
Definition sorts (qsort : (rpm_package -> rpm_package -> Z) -> list rpm_package -> list rpm_package) : Prop :=
  forall (ok : rpm_package -> Prop) eqv cmp l, orders ok eqv cmp -> Forall ok l ->
    Permutation l (qsort cmp l) /\ StronglySorted (fun x y => (cmp x y <= 0)%Z) (qsort cmp l).

(** ** Merging *)
Definition same_nevr (p q : rpm_package) : Prop :=
  rp_name p = rp_name q /\ rp_version p = rp_version q /\ rp_release p = rp_release q /\ rp_epoch p = rp_epoch q.
(** Two records of the same package: the architecture may be missing in one of them. *)
Definition same_package (p q : rpm_package) : Prop :=
  same_nevr p q /\ (rp_architecture p = None \/ rp_architecture q = None \/ rp_architecture p = rp_architecture q).
(** [v] is the first value of the list that is known, or the unknown value. *)
Definition first_known {A B} (get : A -> B) (unknown : B) (l : list A) (v : B) : Prop :=
  (v = unknown /\ Forall (fun a => get a = unknown) l) \/
  (v <> unknown /\ exists before a after, l = before ++ a :: after /\ get a = v /\ Forall (fun b => get b = unknown) before).
(** [m] stands for the records [group]. *)
Definition merged (group : list rpm_package) (m : rpm_package) : Prop :=
  group = [m] \/
  (2 <= length group /\
   Forall (fun p => same_nevr m p) group /\
   Forall (fun p => rp_architecture p = None \/ rp_architecture p = rp_architecture m) group /\
   first_known rp_architecture None group (rp_architecture m) /\
   first_known rp_install_time 0%Z group (rp_install_time m) /\
   first_known rp_role ROLE_UNKNOWN group (rp_role m) /\
   rp_consistency m = []).

(** ** dso_list *)
(** The lines of a text that end with a newline. *)
Inductive lines : str -> list str -> Prop :=
| lines_last s : ~ In nl s -> lines s []
| lines_more l s r : ~ In nl l -> lines s r -> lines (l ++ nl :: s) (l :: r).
(** "<library> <nevra> ... <time>": the second word is a NEVRA of at least two characters, the last
    word starts with a number (below 2^64-1), the install time. *)
Definition dso_line (line : str) (p : rpm_package) : Prop :=
  exists library text middle digits junk name n version release architecture time,
    line = library ++ [sp] ++ text ++ [sp] ++ middle ++ digits ++ junk /\
    ~ In sp library /\ ~ In sp text /\ ~ In sp (digits ++ junk) /\
    (middle = [] \/ exists m, middle = m ++ [sp]) /\
    2 <= length text /\ is_nevra text name n version release architecture /\
    decimal digits time /\ (time < 18446744073709551615)%N /\
    (forall c r, junk = c :: r -> decimal_digit c = None) /\
    p = mk_rpm_package (Some name) (Z.of_N n) (Some version) (Some release) (Some architecture) (Z.of_N time) ROLE_UNKNOWN [].
(** Line by line: the package of a well-formed line, nothing for another one. *)
Inductive dso_lines : list str -> list rpm_package -> Prop :=
| dso_none : dso_lines [] []
| dso_good l p r ps : dso_line l p -> dso_lines r ps -> dso_lines (l :: r) (p :: ps)
| dso_bad l r ps : (forall p, ~ dso_line l p) -> dso_lines r ps -> dso_lines (l :: r) ps.
(** The second word of some line (the text between its first space and the next space, wherever that
    is) is a NEVRA with a bad epoch. *)
Definition hazard (text : str) : Prop :=
  exists before library word after, text = before ++ library ++ sp :: word ++ sp :: after /\
    (before = [] \/ exists b, before = b ++ [nl]) /\ ~ In nl library /\ ~ In sp library /\ ~ In sp word /\ bad_epoch word.
