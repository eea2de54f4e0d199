(** * Report types (lib/report.c, lib/abrt.c), operating system names (lib/operating_system.c) and the
      files of a problem directory (lib/abrt.c). *)
From Verif Require Import Base Types UtilsModel CmpModel RpmModel.
Open Scope nat_scope.

(** ** Report types *)
(* include/report_type.h:32-45 enum sr_report_type *)
Definition REPORT_INVALID := 0.
Definition REPORT_CORE := 1.
Definition REPORT_PYTHON := 2.
Definition REPORT_KERNELOOPS := 3.
Definition REPORT_JAVA := 4.
Definition REPORT_GDB := 5.
Definition REPORT_RUBY := 6.
Definition REPORT_JAVASCRIPT := 7.
(* lib/report.c:36-47 report_types, without the final NULL (never reached: the loops stop before it) *)
Definition report_types : list str :=
  [L "invalid"; L "core"; L "python"; L "kerneloops"; L "java"; L "gdb"; L "ruby"; L "javascript"].
(* lib/report.c:293-303 sr_report_type_from_string; [str] None is NULL *)
Fixpoint from_string_loop (i : nat) (table : list str) (s : option str) : nat :=
  match table with
  | [] => REPORT_INVALID
  | t :: r => if (g_strcmp0 (Some t) s =? 0)%Z then i else from_string_loop (S i) r s
  end.
Definition sr_report_type_from_string (s : option str) : nat := from_string_loop 0 report_types s.
(* lib/report.c:305-312 sr_report_type_to_string.  The enumeration is unsigned. *)
Definition sr_report_type_to_string (t : nat) : str :=
  match nth_error report_types t with
  | None => L "invalid"
  | Some s => s
  end.
(* lib/abrt.c:847-862 sr_abrt_type_from_type; strncmp with the length of the literal tests a prefix *)
Definition sr_abrt_type_from_type (type : str) : nat :=
  if starts_with (L "CCpp") type then REPORT_CORE
  else if starts_with (L "Python") type then REPORT_PYTHON
  else if starts_with (L "Kerneloops") type then REPORT_KERNELOOPS
  else if starts_with (L "Java") type then REPORT_JAVA
  else if starts_with (L "Ruby") type then REPORT_RUBY
  else REPORT_INVALID.

(** ** Operating systems *)
(* include/operating_system.h:36-61 struct sr_operating_system *)
Record operating_system := mk_os {
  os_name : option str; os_version : option str; os_architecture : option str; os_cpe : option str;
  os_uptime : Z; os_desktop : option str; os_variant : option str }.
(* lib/operating_system.c:38-48 sr_operating_system_init *)
Definition os_new : operating_system := mk_os None None None None 0 None None.

(* libc strstr: the text before the first occurrence and the text after it *)
Fixpoint strstr (hay needle : str) : option (str * str) :=
  if starts_with needle hay then Some ([], skipn (length needle) hay)
  else match hay with
       | [] => None
       | c :: r => match strstr r needle with Some (a, b) => Some (c :: a, b) | None => None end
       end.
(* libc tolower in the "C" locale *)
Definition tolower (c : ascii) : ascii :=
  if (65 <=? code c)%N && (code c <=? 90)%N then ascii_of_N (code c + 32) else c.
(* libc strncasecmp(prefix, s, strlen(prefix)) == 0 *)
Fixpoint starts_with_nocase (prefix s : str) : bool :=
  match prefix, s with
  | [], _ => true
  | _, [] => false
  | x :: p, y :: r => Ascii.eqb (tolower x) (tolower y) && starts_with_nocase p r
  end.
(* lib/operating_system.c:156-199 sr_operating_system_parse_etc_system_release.  The result and the
   values stored through the two pointers (None: nothing stored). *)
Definition sr_operating_system_parse_etc_system_release (text : str) : bool * option str * option str :=
  match strstr text (L " release ") with
  | None => (false, None, None)
  | Some (before, version_begin) =>
    let name := if starts_with_nocase (L "Red Hat Enterprise Linux") text then Some (L "rhel")
                else match before with [] => None | _ => Some (map tolower before) end in
    match name with
    | None => (false, Some [], None)
    | Some name =>
      let '(version, _) := span (fun c => is_digit c || Ascii.eqb c ".") version_begin in
      (true, Some name, Some (match version with [] => version_begin | _ => version end))
    end
  end.
(* lib/operating_system.c:201-234 os_release_callback *)
Definition os_release_callback (os : operating_system) (kv : str * str) : operating_system :=
  let '(key, value) := kv in
  if str_eqb key (L "ID") then
    mk_os (Some value) (os_version os) (os_architecture os) (os_cpe os) (os_uptime os) (os_desktop os) (os_variant os)
  else if str_eqb key (L "VERSION_ID") then
    match os_version os with
    | None => mk_os (os_name os) (Some value) (os_architecture os) (os_cpe os) (os_uptime os) (os_desktop os) (os_variant os)
    | Some _ => os
    end
  else if str_eqb key (L "VERSION") && match strstr value (L "(Rawhide)") with Some _ => true | None => false end then
    mk_os (os_name os) (Some (L "rawhide")) (os_architecture os) (os_cpe os) (os_uptime os) (os_desktop os) (os_variant os)
  else if str_eqb key (L "CPE_NAME") then
    mk_os (os_name os) (os_version os) (os_architecture os) (Some value) (os_uptime os) (os_desktop os) (os_variant os)
  else if str_eqb key (L "VARIANT_ID") then
    mk_os (os_name os) (os_version os) (os_architecture os) (os_cpe os) (os_uptime os) (os_desktop os) (Some value)
  else os.
(* lib/operating_system.c:236-243 sr_operating_system_parse_etc_os_release *)
Definition sr_operating_system_parse_etc_os_release (text : str) (os : operating_system) : res (bool * operating_system) :=
  do pairs <- sr_parse_os_release text;
  let os := fold_left os_release_callback pairs os in
  Ok (match os_name os, os_version os with Some _, Some _ => true | _, _ => false end, os).

(** ** Problem directories *)
(* A directory: for each file name, nothing, a file that cannot be read, or the contents up to the
   first NUL byte. *)
Inductive file := Missing | Unreadable | Contents (s : str).
Definition directory := str -> file.
(* lib/abrt.c:44-52 file_contents *)
Definition file_contents (d : directory) (name : str) : option str :=
  match d name with Contents s => Some s | _ => None end.
(* lib/abrt.c:392-404 file_exist *)
Definition file_exist (d : directory) (name : str) : bool :=
  match d name with Missing => false | _ => true end.
(* lib/abrt.c:406-410 is_packaged *)
Definition is_packaged (d : directory) : bool := file_exist d (L "package").
(* lib/abrt.c:285-291 strip_newline *)
Definition strip_newline (s : str) : str := fst (strchrnul s nl).
(* strtoul without endptr: 0 when there is no number *)
Definition strtoul_value (s : str) : N := match strtoul10 s with Some (v, _, _) => v | None => 0%N end.
(* lib/abrt.c:293-336 rpm_pkg_from_dir on a new package; Fail is the NULL return *)
Definition rpm_pkg_from_dir (d : directory) : res rpm_package :=
  match file_contents d (L "pkg_epoch") with
  | None => Fail
  | Some epoch_str =>
    let epoch := strtoul_value epoch_str in
    if (epoch =? u64max)%N then Fail
    else
      match file_contents d (L "pkg_name"), file_contents d (L "pkg_version"), file_contents d (L "pkg_release"), file_contents d (L "pkg_arch") with
      | Some name, Some version, Some release, Some architecture =>
        Ok (mk_rpm_package (Some (strip_newline name)) (Z.of_N (epoch mod 4294967296)) (Some (strip_newline version))
              (Some (strip_newline release)) (Some (strip_newline architecture)) 0 ROLE_AFFECTED [])
      | _, _, _, _ => Fail
      end
  end.
(* lib/abrt.c:338-362 rpm_dso_list_from_dir; a list, empty for NULL *)
Definition rpm_dso_list_from_dir (qsort : (rpm_package -> rpm_package -> Z) -> list rpm_package -> list rpm_package)
           (packages : list rpm_package) (d : directory) : res (list rpm_package) :=
  match file_contents d (L "dso_list") with
  | None => Ok packages
  | Some text =>
    do dso <- sr_abrt_parse_dso_list text;
    match dso with
    | [] => Ok packages
    | _ => do sorted <- sr_rpm_package_sort qsort (packages ++ dso); Ok (sr_rpm_package_uniq sorted)
    end
  end.
(* lib/abrt.c:364-390 rpm_interpreter_from_dir.  After a bad epoch line 386 frees the dangling parts again. *)
Definition rpm_interpreter_from_dir (packages : list rpm_package) (d : directory) : res (list rpm_package) :=
  match file_contents d (L "interpreter") with
  | None => Ok packages
  | Some text =>
    match sr_rpm_package_parse_nevra text with
    | Accepted name epoch version release architecture =>
      Ok (packages ++ [mk_rpm_package (Some name) (Z.of_N epoch) (Some version) (Some release) (Some architecture) 0 ROLE_UNKNOWN []])
    | Rejected => Ok packages
    | Dangling => UB
    end
  end.
(* lib/abrt.c:412-437 sr_abrt_rpm_packages_from_dir, called with an empty list; Fail is a negative return *)
Definition sr_abrt_rpm_packages_from_dir qsort (d : directory) : res (list rpm_package) :=
  do packages <- (if is_packaged d then do p <- rpm_pkg_from_dir d; Ok [p] else Ok []);
  do packages <- (if file_exist d (L "dso_list")
                  then do ps <- rpm_dso_list_from_dir qsort packages d; match ps with [] => Fail | _ => Ok ps end
                  else Ok packages);
  if file_exist d (L "interpreter") then rpm_interpreter_from_dir packages d else Ok packages.
(* lib/abrt.c:439-468 desktop_from_dir *)
Definition desktop_from_dir (d : directory) : option str :=
  match file_contents d (L "environ") with
  | None => None
  | Some text =>
    match strstr text (L "DESKTOP_SESSION=") with
    | None => None
    | Some (before, after) =>
      if match rev before with [] => true | c :: _ => Ascii.eqb c nl end then Some (fst (strchrnul after nl)) else None
    end
  end.
(* libc strtol in base 10: value, out of range, rest (the whole text when there are no digits) *)
Definition strtol10 (s : str) : Z * bool * str :=
  let t := snd (span is_space s) in
  let '(neg, t) := match t with
                   | c :: r => if Ascii.eqb c "-" then (true, r) else if Ascii.eqb c "+" then (false, r) else (false, t)
                   | [] => (false, t)
                   end in
  match span is_digit t with
  | ([], _) => (0%Z, false, s)
  | (d, rest) =>
    let v := fold_left (fun a c => a * 10 + Z.of_N (digit_val c))%Z d 0%Z in
    if neg then if (9223372036854775808 <? v)%Z then ((-9223372036854775808)%Z, true, rest) else ((- v)%Z, false, rest)
    else if (9223372036854775807 <? v)%Z then (9223372036854775807%Z, true, rest) else (v, false, rest)
  end.
(* lib/abrt.c:470-514 occurrences_from_dir.  [errno] tells whether errno is zero, ERANGE or anything
   else before the call of strtol; strtol sets it to ERANGE when out of range and leaves it alone
   otherwise. *)
Inductive errno := NoError | RangeError | OtherError.
Definition occurrences_from_dir (e : errno) (d : directory) : option Z :=
  match file_contents d (L "count") with
  | None => None
  | Some text =>
    let '(count, range, rest) := strtol10 text in
    let e := if range then RangeError else e in
    if match e with RangeError => (count =? 9223372036854775807)%Z || (count =? -9223372036854775808)%Z | _ => false end
       || match e with NoError => false | _ => (count =? 0)%Z end then None
    else if Nat.eqb (length rest) (length text) then None
    else match rest with
         | _ :: _ => None
         | [] => if (count <? 0)%Z || (4294967295 <? count)%Z then None else Some count
         end
  end.
(* lib/abrt.c:516-544 get_component *)
Definition get_component (d : directory) : option str :=
  if is_packaged d then file_contents d (L "component")
  else if file_exist d (L "executable") then
    match file_contents d (L "executable") with
    | None => None
    | Some e => Some (match strrchr e "/" with Some i => skipn (i + 1) e | None => e end ++ L "-unpackaged")
    end
  else None.
(* lib/abrt.c:546-593 sr_abrt_operating_system_from_dir *)
Definition sr_abrt_operating_system_from_dir (d : directory) : res operating_system :=
  do r <- match file_contents d (L "os_info") with
          | Some text => sr_operating_system_parse_etc_os_release text os_new
          | None => Ok (false, os_new)
          end;
  let '(success, os) := r in
  let '(success, os) :=
    if success then (true, os)
    else match file_contents d (L "os_release") with
         | None => (false, os)
         | Some text =>
           let '(success, name, version) := sr_operating_system_parse_etc_system_release text in
           (success, mk_os (match name with Some n => Some n | None => os_name os end)
                           (match version with Some v => Some v | None => os_version os end)
                           (os_architecture os) (os_cpe os) (os_uptime os) (os_desktop os) (os_variant os))
         end in
  if success then
    match file_contents d (L "architecture") with
    | None => Fail
    | Some a => Ok (mk_os (os_name os) (os_version os) (Some a) (os_cpe os) (os_uptime os) (desktop_from_dir d) (os_variant os))
    end
  else Fail.
