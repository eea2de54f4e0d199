(** * Properties of reports, packages and operating systems in JSON, and of reasons (C37, C38, C60). *)
From Verif Require Import Base Types JsonSpec JsonModel JsonProofs JsonScan JsonTypesModel JsonTypesSpec JsonReaders TextModel SystemModel ReportModel ReportSpec.
From Verif Require Import ReportProofs ReportProofs2 ReportProofs3 ReportProofs4 ReportProofs5 ReportProofs6.
Open Scope Z_scope.

(** C37.  The JSON of an operating system is well-formed exactly if its strings can be carried by JSON,
    and brings back everything but the CPE. *)
Theorem C37_os_wellformed : forall os, u64 (os_uptime os) -> valid_json (sr_operating_system_to_json os) <-> os_safe os.
Proof. intros os [H _]. exact (os_valid_iff os H). Qed.
Theorem C37_os_value : forall os, u64 (os_uptime os) -> os_safe os -> json_text (os_value os) (sr_operating_system_to_json os).
Proof. intros os [H _] Hs. apply jval_text. exact (os_jval os Hs H). Qed.
Theorem C37_os_back : forall os, u64 (os_uptime os) -> os_safe os ->
  survives (sr_operating_system_to_json os) sr_operating_system_from_json (os_as_read os).
Proof. exact os_survives. Qed.
Theorem C37_os_roundtrip : forall os, os_ok os -> survives (sr_operating_system_to_json os) sr_operating_system_from_json os.
Proof.
  intros os H. rewrite <- (os_ok_id os H) at 2. destruct H as (Hs & Hu & _). apply os_survives; [unfold u64, two64; lia|exact Hs].
Qed.
Theorem C37_os_reader : forall v os, sr_operating_system_from_json v = Ok os <-> reads_os v os.
Proof. exact os_reads. Qed.
Theorem C37_os_reader_total : forall v, sr_operating_system_from_json v <> UB.
Proof. exact os_not_UB. Qed.
Definition C37_os := mk_os (Some (L "fedora")) (Some (L "39 ""Thirty Nine""")) (Some (L "x86_64")) None 86400 (Some (L "gnome")) None.
Example C37_os_case : os_ok C37_os /\ exists v, json_text v (sr_operating_system_to_json C37_os) /\ sr_operating_system_from_json v = Ok C37_os.
Proof.
  assert (H : os_ok C37_os) by (split; [repeat split; cbn [opt_safe os_name os_version os_architecture os_desktop C37_os]; try exact Logic.I; apply safe_lit; reflexivity|split; [cbn; lia|reflexivity]]).
  split; [exact H|]. destruct (C37_os_roundtrip _ H) as [(v & Hv) Hr]. eauto.
Qed.
(** The CPE is written and lost. *)
Theorem C37_cpe_refuted : exists os, os_safe os /\ os_uptime os = 0 /\ ~ survives (sr_operating_system_to_json os) sr_operating_system_from_json os.
Proof.
  exists (mk_os (Some (L "fedora")) None None (Some (L "cpe:/o:fedoraproject:fedora:39")) 0 None None).
  assert (Hs : os_safe (mk_os (Some (L "fedora")) None None (Some (L "cpe:/o:fedoraproject:fedora:39")) 0 None None))
    by (repeat split; cbn [opt_safe os_name os_version os_architecture os_desktop os_cpe os_variant]; try exact Logic.I; apply safe_lit; reflexivity).
  split; [exact Hs|]. split; [reflexivity|]. intros H. assert (U : u64 0) by (unfold u64, two64; lia).
  pose proof (os_survives (mk_os (Some (L "fedora")) None None (Some (L "cpe:/o:fedoraproject:fedora:39")) 0 None None) U Hs) as H'.
  pose proof (survives_fun _ _ _ _ H H') as E. discriminate E.
Qed.

(** The JSON of a list of packages is well-formed exactly if the list is not empty and its strings can be
    carried by JSON; it brings back everything but the consistency. *)
Theorem C37_packages_wellformed : forall l, Forall package_range l ->
  valid_json (rpm_packages_to_json l) <-> l <> [] /\ Forall package_safe l.
Proof. exact packages_valid_iff. Qed.
Theorem C37_packages_value : forall l, l <> [] -> Forall package_safe l -> Forall package_range l ->
  json_text (JArr (map package_value l)) (rpm_packages_to_json l).
Proof. intros l H1 H2 H3. apply jval_text. exact (packages_jval l H1 H2 H3). Qed.
Theorem C37_packages_back : forall l, l <> [] -> Forall package_safe l -> Forall package_range l ->
  survives (rpm_packages_to_json l) rpm_packages_from_json (map package_as_read l).
Proof. exact packages_survive. Qed.
Theorem C37_packages_roundtrip : forall l, l <> [] -> Forall package_ok l -> survives (rpm_packages_to_json l) rpm_packages_from_json l.
Proof. exact packages_ok_survive. Qed.
Theorem C37_packages_reader : forall v l, rpm_packages_from_json v = Ok l <-> exists vs, v = JArr vs /\ Forall2 reads_package vs l.
Proof. exact packages_reads. Qed.
Theorem C37_packages_reader_total : forall v, rpm_packages_from_json v <> UB.
Proof. exact packages_not_UB. Qed.
Definition C37_packages :=
  [mk_rpm_package (Some (L "coreutils")) 1 (Some (L "9.3")) (Some (L "4.fc39")) (Some (L "x86_64")) 1700000000 ROLE_AFFECTED [];
   mk_rpm_package (Some (L "glibc")) 0 (Some (L "2.38")) (Some (L "7.fc39")) None 0 ROLE_UNKNOWN []].
Example C37_packages_case : C37_packages <> [] /\ Forall package_ok C37_packages.
Proof.
  split; [discriminate|]. repeat constructor; cbn; try lia; try exact Logic.I; try (apply safe_lit; reflexivity).
Qed.
(** The consistency of the files is lost. *)
Theorem C37_consistency_refuted : exists p, package_safe p /\ package_range p /\ ~ survives (rpm_packages_to_json [p]) rpm_packages_from_json [p].
Proof.
  set (p := mk_rpm_package (Some (L "a")) 0 None None None 0 ROLE_UNKNOWN [mk_rpm_consistency None true false false false false false false false false]).
  assert (Hs : package_safe p) by (repeat split; cbn; try exact Logic.I; apply safe_lit; reflexivity).
  assert (Hr : package_range p) by (split; split; cbn; unfold two32, two64; lia).
  exists p. split; [exact Hs|]. split; [exact Hr|]. intros H.
  assert (H' : survives (rpm_packages_to_json [p]) rpm_packages_from_json (map package_as_read [p]))
    by (apply packages_survive; [discriminate|constructor; [exact Hs|constructor]|constructor; [exact Hr|constructor]]).
  pose proof (survives_fun _ _ _ _ H H') as E. discriminate E.
Qed.
(** Reading a single package reports success for a value that is no package, and gives NULL. *)
Theorem C37_single_refuted : exists v, (forall p, ~ reads_package v p) /\ rpm_package_from_json v = Ok None.
Proof. exists (JArr []). split; [intros p (o & E & _); discriminate E|reflexivity]. Qed.

(** C60.  The reason. *)
Theorem C60_reason : forall s t, sr_stacktrace_get_reason s = Ok (Some t) <-> reason_defined s /\ reason_says s t.
Proof. exact reason_iff. Qed.
Theorem C60_undefined : forall s, sr_stacktrace_get_reason s = UB <-> ~ reason_defined s.
Proof. exact reason_UB_iff. Qed.
Theorem C60_always : forall s, reason_defined s -> (forall g, s <> SGdb g) -> exists t, sr_stacktrace_get_reason s = Ok (Some t).
Proof. intros s H G. destruct (reason_exists s G H) as (t & E & _). eauto. Qed.
Definition C60_java := SJava (mk_java_stacktrace [mk_java_thread (Some (L "main"))
  [mk_java_frame (Some (L "java.lang.Error")) None 0 None false true None;
   mk_java_frame (Some (L "org.Outer")) None 0 None false true None;
   mk_java_frame (Some (L "Main.main")) (Some (L "Main.java")) 12 None false false None]]).
Example C60_case : reason_defined C60_java /\
  sr_stacktrace_get_reason C60_java = Ok (Some (L "Exception java.lang.Error occurred in Main.java:12")).
Proof. split; [exact Logic.I|vm_compute; reflexivity]. Qed.
(** The reason is "the same after writing and reading the stack trace" is false for kernel oopses, whose
    text of the reason is not written. *)
Theorem C60_koops_refuted : exists s t, valid_json (koops_stacktrace_to_json s) /\
  (forall v, json_text v (koops_stacktrace_to_json s) -> koops_stacktrace_from_json v = Ok t) /\
  sr_stacktrace_get_reason (SKoops s) <> sr_stacktrace_get_reason (SKoops t).
Proof.
  set (s := mk_koops_stacktrace (Some (L "5.14")) no_taint None None [] (Some (L "BUG: unable to handle page fault"))).
  exists s, (koops_as_read s).
  assert (H : survives (koops_stacktrace_to_json s) koops_stacktrace_from_json (koops_as_read s)).
  { apply JsonRoundtrip2.koops_survives; [split; [reflexivity|constructor]| |exact Logic.I].
    split; [apply safe_lit; reflexivity|]. split; [exact Logic.I|]. split; [exact Logic.I|constructor]. }
  split; [apply H|]. split; [apply H|]. vm_compute. discriminate.
Qed.

(** C38.  When a report can be written: the reporter is set, the stack trace is not one of gdb, and
    its reason is defined. *)
Theorem C38_defined : forall r, (exists t, sr_report_to_json r = Ok t) <->
  rep_reporter_name r <> None /\ rep_reporter_version r <> None /\ (forall g, rep_stacktrace r <> Some (SGdb g)) /\
  exists reason, report_reason r reason.
Proof. exact report_defined_iff. Qed.
Theorem C38_defined_or_UB : forall r, sr_report_to_json r <> Fail.
Proof. exact report_not_Fail. Qed.
(** The text is the JSON of all parts. *)
Theorem C38_value : forall r reason members, plain_reporter r -> report_range r -> report_reason r reason -> report_safe r -> json_safe reason ->
  match rep_stacktrace r with None => members = [] | Some s => stacktrace_written s members end ->
  exists t, sr_report_to_json r = Ok t /\ json_text (report_value r reason members) t.
Proof. exact report_value_ok. Qed.
(** It is well-formed exactly if every string can be carried by JSON and the stack trace's own text is
    well-formed and not "{}". *)
Theorem C38_wellformed : forall r reason t, plain_reporter r -> report_range r -> report_reason r reason -> sr_report_to_json r = Ok t ->
  valid_json t <->
  report_safe r /\ json_safe reason /\
  (forall s u, rep_stacktrace r = Some s -> sr_stacktrace_to_json s = Some u -> valid_json u /\ u <> L "{}").
Proof. exact report_valid_iff. Qed.
(** Whenever the text is well-formed, reading it gives the report without what is listed in
    [report_as_read]. *)
Theorem C38_back : forall package_name package_version r reason t,
  plain_reporter r -> report_range r -> report_consistent r -> report_reason r reason -> sr_report_to_json r = Ok t -> valid_json t ->
  survives t (sr_report_from_json package_name package_version) (report_as_read r).
Proof. exact report_survives. Qed.
Theorem C38_roundtrip : forall package_name package_version r, report_ok r ->
  exists t, sr_report_to_json r = Ok t /\ survives t (sr_report_from_json package_name package_version) r.
Proof. exact report_ok_roundtrip. Qed.
(** What any JSON value is read as. *)
Theorem C38_reader : forall package_name package_version v r, modules_readable v ->
  sr_report_from_json package_name package_version v = Ok r <-> reads_report package_name package_version v r.
Proof. exact report_reads. Qed.
Theorem C38_reader_total : forall package_name package_version v, modules_readable v -> sr_report_from_json package_name package_version v <> UB.
Proof. exact report_read_not_UB. Qed.
Definition C38_json := JObj [(L "reporter", JObj [(L "name", JStr (L "abrt"))]); (L "user", JObj [(L "root", JBool true)]);
  (L "auth", JObj [(L "k", JStr (L "a")); (L "n", JInt 3); (L "m", JStr (L "b")); (L "k", JStr (L "c"))]);
  (L "problem", JObj [(L "type", JStr (L "python")); (L "serial", JInt 7); (L "exception_name", JInt 1)])].
Example C38_reader_case : modules_readable C38_json /\ sr_report_from_json (L "satyr") (L "0.43") C38_json =
  Ok (mk_report 2 2 (Some (L "abrt")) (Some (L "0.43")) true true None None [] None [(L "k", L "c"); (L "m", L "b")] 7).
Proof.
  split; [|reflexivity]. intros o po l E1 E2 E3. injection E1 as <-. vm_compute in E2. injection E2 as <-. vm_compute in E3. discriminate.
Qed.
Theorem C38_auth : forall l r, rep_auth (fold_left (fun r e => sr_report_add_auth r (fst e) (snd e)) l r) = rev l ++ rep_auth r.
Proof. exact add_auth_order. Qed.

Definition C38_report := mk_report 2 2 (Some (L "satyr")) (Some (L "0.43")) false true (Some C37_os) (Some (L "python3")) C37_packages
  (Some (SPython (mk_python_stacktrace (Some (L "ZeroDivisionError"))
     [mk_python_frame false (Some (L "/usr/bin/x")) 7 false (Some (L "f")) (Some (L "a = 1/0"));
      mk_python_frame false (Some (L "/usr/bin/x")) 12 true (Some (L "module")) None])))
  [(L "hostname", L "localhost"); (L "token", L "a""b")] 3.
Example C38_case : report_ok C38_report.
Proof.
  split; [cbn; lia|]. split; [cbn; lia|]. split; [exists (L "satyr"), (L "0.43"); repeat split; plain_lit|]. split; [reflexivity|].
  split; [reflexivity|]. split; [intros os E; injection E as <-; apply C37_os_case|]. split; [apply safe_lit; reflexivity|].
  split; [apply C37_packages_case|]. split; [repeat (apply Forall_cons; [split; cbn [fst snd]; apply safe_lit; reflexivity|]); constructor|].
  split; [repeat constructor; cbn; intuition discriminate|].
  eexists. split; [reflexivity|]. split; [reflexivity|]. split.
  - split; [|left; discriminate]. split; [apply safe_lit; reflexivity|].
    repeat (apply Forall_cons; [split; [cbn; lia|]; split; [intros (H & _); discriminate H|];
      split; [split; [|split]; cbn [opt_safe pf_file_name pf_function_name pf_line_contents]; try exact Logic.I; apply safe_lit; reflexivity|split; discriminate]|]).
    constructor.
  - intros l f E. destruct l as [|a [|b l]]; [discriminate E|injection E as _ <-; discriminate|destruct l; discriminate E].
Qed.
(** The flags of the user are lost. *)
Theorem C38_user_refuted : exists r t, sr_report_to_json r = Ok t /\ valid_json t /\ plain_reporter r /\ report_consistent r /\
  forall pn pv v, json_text v t -> exists r', sr_report_from_json pn pv v = Ok r' /\ rep_user_root r = true /\ rep_user_root r' = false.
Proof. exact user_lost. Qed.
(** The stack trace of a JavaScript report is lost. *)
Theorem C38_javascript_refuted : exists r t s, sr_report_to_json r = Ok t /\ valid_json t /\ rep_stacktrace r = Some s /\
  forall pn pv v, json_text v t -> exists r', sr_report_from_json pn pv v = Ok r' /\ rep_stacktrace r' = None.
Proof. exact javascript_lost. Qed.
(** The name of the reporter is not escaped. *)
Theorem C38_reporter_refuted : exists r t, report_safe r /\ (exists n, rep_reporter_name r = Some n /\ json_safe n) /\
  sr_report_to_json r = Ok t /\ ~ valid_json t.
Proof. exact reporter_unescaped. Qed.
(** A Python, Ruby or JavaScript stack trace with nothing in it makes the report malformed. *)
Theorem C38_empty_refuted : exists r t, plain_reporter r /\ report_safe r /\ report_range r /\
  rep_stacktrace r = Some (SPython (mk_python_stacktrace None [])) /\ sr_report_to_json r = Ok t /\ ~ valid_json t.
Proof. exact empty_malformed. Qed.
Print Assumptions C37_os_wellformed.
Print Assumptions C37_os_value.
Print Assumptions C37_os_back.
Print Assumptions C37_os_roundtrip.
Print Assumptions C37_os_reader.
Print Assumptions C37_os_reader_total.
Print Assumptions C37_cpe_refuted.
Print Assumptions C37_packages_wellformed.
Print Assumptions C37_packages_value.
Print Assumptions C37_packages_back.
Print Assumptions C37_packages_roundtrip.
Print Assumptions C37_packages_reader.
Print Assumptions C37_packages_reader_total.
Print Assumptions C37_consistency_refuted.
Print Assumptions C37_single_refuted.
Print Assumptions C60_reason.
Print Assumptions C60_undefined.
Print Assumptions C60_always.
Print Assumptions C60_koops_refuted.
Print Assumptions C38_defined.
Print Assumptions C38_defined_or_UB.
Print Assumptions C38_value.
Print Assumptions C38_wellformed.
Print Assumptions C38_back.
Print Assumptions C38_roundtrip.
Print Assumptions C38_reader.
Print Assumptions C38_reader_total.
Print Assumptions C38_auth.
Print Assumptions C38_user_refuted.
Print Assumptions C38_javascript_refuted.
Print Assumptions C38_reporter_refuted.
Print Assumptions C38_empty_refuted.
