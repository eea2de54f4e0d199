(** * Properties C55, C56, C58: report types, operating system names, problem directories. *)
From Verif Require Import Base Types UtilsModel UtilsSpec JsonModel CmpModel CmpSpec RpmModel RpmSpec RpmProofs4 SystemModel SystemSpec SystemProofs SystemProofs2.
Open Scope nat_scope.

(** C55.  The name of every type, "invalid" (0) included, maps back to the type. *)
Theorem C55_roundtrip : forall t, t < 8 -> sr_report_type_from_string (Some (sr_report_type_to_string t)) = t.
Proof. exact type_roundtrip. Qed.
(** A name maps to the type it names, any other text and NULL to "invalid". *)
Theorem C55_from_string : forall s t, sr_report_type_from_string s = t <->
  (exists name, In (t, name) type_names /\ s = Some name) \/ (t = 0 /\ forall u name, In (u, name) type_names -> s <> Some name).
Proof. exact type_from. Qed.
Theorem C55_to_string : forall t name, In (t, name) type_names -> sr_report_type_to_string t = name.
Proof.
  intros t name H. cbn [In type_names] in H.
  repeat (destruct H as [H|H]; [injection H as Ht Hn; subst; reflexivity|]). contradiction.
Qed.
(** abrt problem types: the type is that of the word the text starts with. *)
Theorem C55_abrt : forall s, abrt_type s (sr_abrt_type_from_type s).
Proof. exact abrt_ok. Qed.
Theorem C55_abrt_unique : forall s t u, abrt_type s t -> abrt_type s u -> t = u.
Proof. exact abrt_unique. Qed.
(** No abrt type is taken for JavaScript, and "JavaScript" is taken for Java. *)
Theorem C55_javascript_refuted : (forall s, sr_abrt_type_from_type s <> sr_report_type_from_string (Some (L "javascript"))) /\
  sr_abrt_type_from_type (L "JavaScript") = sr_report_type_from_string (Some (L "java")).
Proof. split; [intros s; exact (abrt_never_js s)|vm_compute; reflexivity]. Qed.
Example C55_case : map sr_abrt_type_from_type [L "CCpp"; L "Python3"; L "Kerneloops"; L "Java"; L "Ruby"; L "vmcore"] = [1; 2; 3; 4; 6; 0].
Proof. vm_compute. reflexivity. Qed.
Example C55_case_names : map sr_report_type_to_string (seq 0 8) =
  [L "invalid"; L "core"; L "python"; L "kerneloops"; L "java"; L "gdb"; L "ruby"; L "javascript"].
Proof. vm_compute. reflexivity. Qed.

(** C56.  The release file is accepted exactly when it has the documented form, and the results are
    the lower-cased name (or "rhel") and the number. *)
Theorem C56_system_release : forall text name version,
  sr_operating_system_parse_etc_system_release text = (true, Some name, Some version) <-> system_release text name version.
Proof.
  intros text name version. split; [|apply release_accepts]. intros H. pose proof (release_correct text) as K. now rewrite H in K.
Qed.
Theorem C56_rejected : forall text, (forall name version, ~ system_release text name version) ->
  exists name, sr_operating_system_parse_etc_system_release text = (false, name, None).
Proof.
  intros text H. pose proof (release_correct text) as K.
  destruct (sr_operating_system_parse_etc_system_release text) as [[[|] [n|]] [v|]]; try contradiction; [elim (H _ _ K)|eauto|eauto].
Qed.
Theorem C56_unique : forall text n v n' v', system_release text n v -> system_release text n' v' -> n = n' /\ v = v'.
Proof. exact release_unique. Qed.
(** os-release: name from ID, version from the first VERSION_ID, "rawhide" when VERSION says so; the
    result is true exactly when both are known. *)
Theorem C56_os_release : forall text os, exists ls ps ok os', lines_of text ls /\ os_lines ls ps /\
  sr_operating_system_parse_etc_os_release text os = Ok (ok, os') /\ described ps os os' /\
  (ok = true <-> os_name os' <> None /\ os_version os' <> None).
Proof. exact os_release_described. Qed.
Example C56_case_rhel : sr_operating_system_parse_etc_system_release (L "Red Hat Enterprise Linux Server release 6.4 (Santiago)") =
  (true, Some (L "rhel"), Some (L "6.4")).
Proof. vm_compute. reflexivity. Qed.
Example C56_case_fedora : sr_operating_system_parse_etc_system_release (L "Fedora release 20 (Heisenbug)") = (true, Some (L "fedora"), Some (L "20")).
Proof. vm_compute. reflexivity. Qed.
Example C56_case_words : sr_operating_system_parse_etc_system_release (L "Fedora release Rawhide") = (true, Some (L "fedora"), Some (L "Rawhide")).
Proof. vm_compute. reflexivity. Qed.
Example C56_case_rejected : sr_operating_system_parse_etc_system_release (L "Fedora 20") = (false, None, None).
Proof. vm_compute. reflexivity. Qed.
Example C56_case_os_release :
  sr_operating_system_parse_etc_os_release (L "NAME=Fedora" ++ [nl] ++ L "ID=fedora" ++ [nl] ++ L "VERSION_ID=20" ++ [nl] ++ L "VERSION_ID=21" ++ [nl]) os_new =
  Ok (true, mk_os (Some (L "fedora")) (Some (L "20")) None None (os_uptime os_new) None None).
Proof. vm_compute. reflexivity. Qed.

(** C58.  The packages of a problem directory: the package of the crashed program, the packages listed
    in dso_list merged with it, and the interpreter's package. *)
Theorem C58_packages : forall qsort d ps, sr_abrt_rpm_packages_from_dir qsort d = Ok ps ->
  exists crashed listed interpreter main,
    crashed_package d crashed /\ listed_packages d listed /\ interpreter_package d interpreter /\
    ps = main ++ interpreter /\
    (listed = [] /\ main = crashed \/
     listed <> [] /\ exists sorted, sr_rpm_package_sort qsort (crashed ++ listed) = Ok sorted /\ main = sr_rpm_package_uniq sorted).
Proof. exact packages_ok. Qed.
(** Merging loses no package, and the affected package stays marked (epochs below 2^31). *)
Theorem C58_packages_kept : forall qsort l sorted p, sorts qsort -> Forall (fun p => small (rp_epoch p)) l ->
  sr_rpm_package_sort qsort l = Ok sorted -> In p l ->
  exists m, In m (sr_rpm_package_uniq sorted) /\ same_nevr m p /\ (rp_architecture p = None \/ rp_architecture p = rp_architecture m) /\
    (rp_role p = ROLE_AFFECTED -> rp_role m = ROLE_AFFECTED) /\ (rp_install_time p <> 0%Z -> rp_install_time m <> 0%Z).
Proof. exact packages_kept. Qed.
(** The package of the crashed program is found when its five files can be read. *)
Theorem C58_crashed_readable : forall d epoch n, crashed_readable d -> d (L "pkg_epoch") = Contents epoch -> leading_number epoch n ->
  (n < 18446744073709551615)%N -> exists p, rpm_pkg_from_dir d = Ok p.
Proof. exact pkg_from_dir_total. Qed.
(** Reading fails only for an unreadable package file or epoch, or a dso_list with no package when the
    program is not packaged. *)
Theorem C58_packages_fail : forall qsort d, (forall cmp l, length (qsort cmp l) = length l) -> sr_abrt_rpm_packages_from_dir qsort d = Fail ->
  (d (L "package") <> Missing /\
    (~ crashed_readable d \/ exists text, d (L "pkg_epoch") = Contents text /\ forall n, leading_number text n -> (18446744073709551615 <= n)%N)) \/
  (d (L "package") = Missing /\ d (L "dso_list") <> Missing /\ listed_packages d []).
Proof. exact packages_fail'. Qed.
(** It is memory-safe unless a package name has a bad epoch (C47). *)
Theorem C58_packages_defined : forall qsort d,
  (forall text, d (L "dso_list") = Contents text -> ~ hazard text) ->
  (forall text, d (L "interpreter") = Contents text -> ~ bad_epoch text) ->
  sr_abrt_rpm_packages_from_dir qsort d <> UB.
Proof. exact packages_defined. Qed.
Theorem C58_interpreter_refuted : exists d, forall qsort, sr_abrt_rpm_packages_from_dir qsort d = UB.
Proof. exists (fun f => if str_eqb f (L "interpreter") then Contents (L "python-x:2-1.noarch") else Missing). intros qsort. reflexivity. Qed.
(** "No package is listed twice" is false: the interpreter's package is not merged with the others. *)
Definition C58_dir (f : str) : file :=
  if str_eqb f (L "package") then Contents (L "x")
  else if str_eqb f (L "pkg_epoch") then Contents (L "1" ++ [nl])
  else if str_eqb f (L "pkg_name") then Contents (L "python" ++ [nl])
  else if str_eqb f (L "pkg_version") then Contents (L "2")
  else if str_eqb f (L "pkg_release") then Contents (L "3")
  else if str_eqb f (L "pkg_arch") then Contents (L "noarch" ++ [nl])
  else if str_eqb f (L "dso_list") then Contents (L "/lib/a python-1:2-3.noarch (Fedora) 77" ++ [nl] ++ L "/lib/b glibc-2-5.x86_64 (Fedora) 78" ++ [nl])
  else if str_eqb f (L "interpreter") then Contents (L "python-1:2-3.noarch")
  else Missing.
Theorem C58_duplicate_refuted : exists d p q r, sr_abrt_rpm_packages_from_dir isort d = Ok [r; p; q] /\ same_package p q /\ sorts isort.
Proof. exists C58_dir. do 3 eexists. split; [vm_compute; reflexivity|]. split; [repeat split; auto|exact isort_sorts]. Qed.
Example C58_case : exists p q, sr_abrt_rpm_packages_from_dir isort C58_dir = Ok
  [mk_rpm_package (Some (L "glibc")) 0 (Some (L "2")) (Some (L "5")) (Some (L "x86_64")) 78 ROLE_UNKNOWN []; p; q] /\
  rp_role p = ROLE_AFFECTED /\ rp_install_time p = 77%Z /\ rp_epoch p = 1%Z.
Proof. do 2 eexists. split; [vm_compute; reflexivity|auto]. Qed.
Example C58_case_readable : crashed_readable C58_dir /\ leading_number (L "1" ++ [nl]) 1.
Proof.
  split; [repeat constructor; eexists; reflexivity|]. exists [], [], (L "1"), [nl]. split; [reflexivity|]. split; [constructor|]. split; [now left|]. split.
  - exact (print_N_decimal 1).
  - intros c r E. injection E as <- _. reflexivity.
Qed.
(** Desktop: the variable's value, when the first occurrence of "DESKTOP_SESSION=" starts a line. *)
Theorem C58_desktop : forall d v, desktop_from_dir d = Some v <-> exists text, d (L "environ") = Contents text /\ variable (L "DESKTOP_SESSION") text v.
Proof. exact desktop_iff. Qed.
(** "The variable is found whenever some line sets it" is false. *)
Theorem C58_desktop_refuted : exists d text, d (L "environ") = Contents (L "XDESKTOP_SESSION=a" ++ [nl] ++ L "DESKTOP_SESSION=b" ++ text) /\ desktop_from_dir d = None.
Proof. exists (fun _ => Contents (L "XDESKTOP_SESSION=a" ++ [nl] ++ L "DESKTOP_SESSION=b")), []. split; vm_compute; reflexivity. Qed.
Example C58_case_desktop : desktop_from_dir (fun _ => Contents (L "A=1" ++ [nl] ++ L "DESKTOP_SESSION=gnome" ++ [nl] ++ L "B=2")) = Some (L "gnome").
Proof. vm_compute. reflexivity. Qed.
(** Occurrences: a whole number of 32 bits; 0 only if errno happens to be 0. *)
Theorem C58_occurrences : forall e d z, occurrences_from_dir e d = Some z <->
  exists text, d (L "count") = Contents text /\ whole_number text z /\ (0 <= z < 4294967296)%Z /\ (z = 0%Z -> e = NoError).
Proof. exact occurrences_iff. Qed.
Theorem C58_occurrences_refuted : exists d, d (L "count") = Contents (L "0") /\ occurrences_from_dir OtherError d = None /\ occurrences_from_dir NoError d = Some 0%Z.
Proof. exists (fun _ => Contents (L "0")). repeat split. Qed.
Example C58_case_occurrences : map (fun t => occurrences_from_dir OtherError (fun _ => Contents (L t))) ["12"; " +4294967295"; "4294967296"; "-1"; "1 "; ""]%string =
  [Some 12; Some 4294967295; None; None; None; None]%Z.
Proof. vm_compute. reflexivity. Qed.
(** Component: the file for a packaged program, else the program's file name with "-unpackaged". *)
Theorem C58_component : forall d,
  match get_component d with
  | Some c => d (L "package") <> Missing /\ d (L "component") = Contents c \/
              d (L "package") = Missing /\ exists path base, d (L "executable") = Contents path /\ base_name path base /\ c = base ++ L "-unpackaged"
  | None => d (L "package") <> Missing /\ (forall c, d (L "component") <> Contents c) \/
            d (L "package") = Missing /\ (forall c, d (L "executable") <> Contents c)
  end.
Proof. exact component_ok. Qed.
Example C58_case_component : get_component (fun f => if str_eqb f (L "executable") then Contents (L "/usr/bin/will_abort") else Missing) = Some (L "will_abort-unpackaged").
Proof. vm_compute. reflexivity. Qed.
(** Operating system: name and version from os_info, else from os_release; the architecture is
    required; nothing else makes reading fail. *)
Theorem C58_os : forall d os, sr_abrt_operating_system_from_dir d = Ok os ->
  d (L "architecture") = match os_architecture os with Some a => Contents a | None => Missing end /\ os_architecture os <> None /\
  os_desktop os = desktop_from_dir d /\
  os_name os <> None /\ os_version os <> None /\
  exists os1, (match d (L "os_info") with
               | Contents text => exists ls ps, lines_of text ls /\ os_lines ls ps /\ described ps os_new os1
               | _ => os1 = os_new
               end) /\ os_cpe os = os_cpe os1 /\ os_variant os = os_variant os1 /\
    (os_name os1 <> None /\ os_version os1 <> None /\ os_name os = os_name os1 /\ os_version os = os_version os1 \/
     (os_name os1 = None \/ os_version os1 = None) /\
     exists text name version, d (L "os_release") = Contents text /\ system_release text name version /\ os_name os = Some name /\ os_version os = Some version).
Proof. exact os_from_dir_ok. Qed.
Theorem C58_os_accepts : forall d, (exists os, sr_abrt_operating_system_from_dir d = Ok os) <-> (exists a, d (L "architecture") = Contents a) /\ os_known d.
Proof. exact os_from_dir_total. Qed.
Theorem C58_os_defined : forall d, sr_abrt_operating_system_from_dir d <> UB.
Proof. exact os_from_dir_defined. Qed.
Example C58_case_os : exists os, sr_abrt_operating_system_from_dir (fun f =>
    if str_eqb f (L "os_info") then Contents (L "ID=fedora" ++ [nl] ++ L "CPE_NAME=cpe")
    else if str_eqb f (L "os_release") then Contents (L "Fedora release 20 (Heisenbug)")
    else if str_eqb f (L "architecture") then Contents (L "x86_64") else Missing) = Ok os /\
  os_name os = Some (L "fedora") /\ os_version os = Some (L "20") /\ os_architecture os = Some (L "x86_64") /\ os_cpe os = Some (L "cpe").
Proof. eexists. split; [vm_compute; reflexivity|auto]. Qed.

Print Assumptions C55_roundtrip.
Print Assumptions C55_from_string.
Print Assumptions C55_to_string.
Print Assumptions C55_abrt.
Print Assumptions C55_abrt_unique.
Print Assumptions C55_javascript_refuted.
Print Assumptions C56_system_release.
Print Assumptions C56_rejected.
Print Assumptions C56_unique.
Print Assumptions C56_os_release.
Print Assumptions C58_packages.
Print Assumptions C58_packages_kept.
Print Assumptions C58_crashed_readable.
Print Assumptions C58_packages_fail.
Print Assumptions C58_packages_defined.
Print Assumptions C58_interpreter_refuted.
Print Assumptions C58_duplicate_refuted.
Print Assumptions C58_desktop.
Print Assumptions C58_desktop_refuted.
Print Assumptions C58_occurrences.
Print Assumptions C58_occurrences_refuted.
Print Assumptions C58_component.
Print Assumptions C58_os.
Print Assumptions C58_os_accepts.
Print Assumptions C58_os_defined.
