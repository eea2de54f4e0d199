(** * Proofs: the commands. *)
From Verif Require Import Base Types CmpSpec UtilsModel UtilsSpec UtilsProofs JsonSpec JsonTypesModel RpmModel RpmSpec RpmProofs4 SystemModel SystemSpec ReportModel ReportSpec ReportProofs5
  JsonProofs PyParseModel PyParseSpec RubyParseModel JavaParseModel JsParseModel KoopsModel GdbParseModel TextModel NormModel NormSpec NormProofs UnwindModel UnwindProofs FileModel FileSpec AbrtModel AbrtSpec AbrtProofs AbrtProofs2 AbrtProofs3
  CliModel CliSpec CliProofs.
Open Scope nat_scope.

Section Program.
Variable tokener : str -> option json.
Variable qsort : (rpm_package -> rpm_package -> Z) -> list rpm_package -> list rpm_package.
Variable sha1 : str -> str.
Variable addrmodule : Z -> option module.
Variable cxa_demangle : str -> option str.
Variable realpath : str -> option str.
Variables package_name package_version : str.
Variable m : machine.
Notation run := (main tokener qsort sha1 addrmodule cxa_demangle realpath package_name package_version m).

Lemma hint_ok name : short_usage name = hint name.
Proof. unfold short_usage, usage_line, hint, line. rewrite <- !app_assoc. reflexivity. Qed.
Lemma no_command path name : called path name -> run [path] = Ok (misused name []).
Proof. intros H. apply called_iff in H. cbn [main]. unfold short_usage_and_exit, misused. now rewrite hint_ok, H. Qed.
Lemma unknown_command path name command args : called path name ->
  ~ In command [L "--help"; L "--usage"; L "--version"; L "abrt-print-report-from-dir"; L "abrt-report-dir"; L "abrt-create-core-stacktrace"; L "debug"] ->
  run (path :: command :: args) = Ok (misused name [Line (L "Unknown command.")]).
Proof.
  intros H N. apply called_iff in H. unfold main. rewrite H.
  repeat match goal with |- context [str_eqb command ?s] =>
    rewrite (proj2 (str_eqb_neq command s)) by (intros ->; apply N; repeat (first [now left | right])) end.
  unfold short_usage_and_exit, misused. now rewrite hint_ok.
Qed.
Lemma unknown_sub path name sub args : called path name -> ~ In sub [L "normalize"; L "duphash"; L "unwind-from-hook"] ->
  run (path :: L "debug" :: sub :: args) = Ok (misused name [Line (L "Unknown debug subcommand.")]).
Proof.
  intros H N. apply called_iff in H. change (run (path :: L "debug" :: sub :: args)) with (debug tokener sha1 m (basename path) (sub :: args)). rewrite H.
  unfold debug.
  repeat match goal with |- context [str_eqb sub ?s] =>
    rewrite (proj2 (str_eqb_neq sub s)) by (intros ->; apply N; repeat (first [now left | right])) end.
  unfold short_usage_and_exit, misused. now rewrite hint_ok.
Qed.
Lemma missing path name : called path name ->
  run [path; L "abrt-print-report-from-dir"] = Ok (misused name [Line (L "Missing ABRT problem directory path.")]) /\
  run [path; L "abrt-create-core-stacktrace"] = Ok (misused name [Line (L "Missing ABRT problem directory path.")]) /\
  run [path; L "debug"] = Ok (misused name [Line (L "Missing debug command.")]) /\
  run [path; L "debug"; L "normalize"] = Ok (misused name [Line (L "Missing file name.")]) /\
  run [path; L "debug"; L "duphash"] = Ok (misused name [Line (L "Usage: " ++ name ++ L " debug duphash TYPE FILE [COMPONENT]")]) /\
  forall type, run [path; L "debug"; L "duphash"; type] = Ok (misused name [Line (L "Usage: " ++ name ++ L " debug duphash TYPE FILE [COMPONENT]")]).
Proof.
  intros H. apply called_iff in H. unfold misused. rewrite <- hint_ok, <- H. repeat split; reflexivity.
Qed.

Lemma texts path name more : called path name ->
  run (path :: L "--help" :: more) = Ok (prints (help_text name)) /\ run (path :: L "--usage" :: more) = Ok (prints (usage_text name)) /\
  run (path :: L "--version" :: more) = Ok (prints (line (L "Satyr version " ++ package_version))).
Proof.
  intros H. apply called_iff in H. rewrite <- H. unfold prints. split; [|split].
  - change (run (path :: L "--help" :: more)) with (success (help (basename path))). unfold success, help, usage_line, help_text, lines, line.
    cbn [map concat]. rewrite <- !app_assoc. reflexivity.
  - change (run (path :: L "--usage" :: more)) with (success (usage (basename path))). unfold success, usage, usage_text, lines, line.
    cbn [map concat]. rewrite <- !app_assoc. reflexivity.
  - change (run (path :: L "--version" :: more)) with (success (version package_version)). unfold success, version, line. now rewrite <- !app_assoc.
Qed.

(** ** Reports *)
Notation report_of := (describes tokener qsort (m_errno m) package_name package_version).
Notation from_dir d := (sr_abrt_report_from_dir tokener qsort (m_errno m) package_name package_version d).
Lemma run_print path dir more : run (path :: L "abrt-print-report-from-dir" :: dir :: more) =
  match sr_abrt_print_report_from_dir tokener qsort (m_errno m) package_name package_version (m_dir m dir) with
  | Ok text => Ok (prints text)
  | Fail => if snd (from_dir (m_dir m dir)) then Ok (explains []) else UB
  | UB => UB
  end.
Proof. reflexivity. Qed.
Lemma print_ok path dir more r : report_of (m_dir m dir) r ->
  exists t, sr_report_to_json r = Ok t /\ run (path :: L "abrt-print-report-from-dir" :: dir :: more) = Ok (prints (t ++ [nl])).
Proof.
  intros H. destruct (report_prints _ _ _ _ _ _ r H) as [t E]. exists t. split; [exact E|]. rewrite run_print.
  apply report_iff in H. unfold sr_abrt_print_report_from_dir. rewrite H. cbn [bind]. now rewrite E.
Qed.
Lemma print_fails path dir more o : (forall r, ~ report_of (m_dir m dir) r) ->
  run (path :: L "abrt-print-report-from-dir" :: dir :: more) = Ok o -> o = explains [].
Proof.
  intros N. rewrite run_print. unfold sr_abrt_print_report_from_dir. destruct (fst (from_dir (m_dir m dir))) as [r| |] eqn:E.
  - exfalso. apply (N r). now apply report_iff.
  - cbn [bind]. destruct (snd _); congruence.
  - discriminate.
Qed.
Lemma print_defined path dir more : (forall cmp l, length (qsort cmp l) = length l) ->
  (forall text, m_dir m dir (L "dso_list") = Contents text -> ~ hazard text) ->
  (forall text, m_dir m dir (L "interpreter") = Contents text -> ~ bad_epoch text) ->
  (forall t text r, m_dir m dir (L "type") = Contents t -> abrt_type t 2 -> m_dir m dir (L "backtrace") = Contents text -> py_start text r -> ~ py_runs_out r) ->
  ~ (m_dir m dir (L "package") = Missing /\ (exists text, m_dir m dir (L "dso_list") = Contents text) /\ listed_packages (m_dir m dir) []) ->
  run (path :: L "abrt-print-report-from-dir" :: dir :: more) <> UB.
Proof.
  intros Q H1 H2 H3 H4. rewrite run_print.
  assert (D := from_dir_defined tokener qsort (m_errno m) package_name package_version (m_dir m dir) H1 H2 H3).
  unfold sr_abrt_print_report_from_dir. destruct (from_dir (m_dir m dir)) as [x b] eqn:E. cbn [fst snd] in *. destruct x as [r| |]; cbn [bind].
  - assert (R : report_of (m_dir m dir) r) by (apply report_iff; now rewrite E).
    destruct (report_prints _ _ _ _ _ _ r R) as [t ->]. discriminate.
  - destruct b; [discriminate|]. elim H4. eapply no_message; [exact Q|exact E].
  - congruence.
Qed.

(** ** Core stack traces *)
Notation made_from dir s := (made addrmodule cxa_demangle (m_dump m dir) realpath (m_dir m dir) None s).
Definition core_file (dir : str) : str := dir ++ L "/core_backtrace".
Lemma run_create path dir more : run (path :: L "abrt-create-core-stacktrace" :: dir :: more) =
  do (states, ok) <- create_core_stacktrace addrmodule cxa_demangle (m_dump m dir) realpath (m_writing m (core_file dir)) (m_dir m dir) (m_disk m (core_file dir)) None;
  Ok (if ok then wrote (core_file dir) states else not_written (core_file dir) states []).
Proof. reflexivity. Qed.
Lemma create_run path dir more states : run (path :: L "abrt-create-core-stacktrace" :: dir :: more) = Ok (wrote (core_file dir) states) <->
  exists s t, made_from dir s /\ filled s t /\ sr_string_to_file (m_writing m (core_file dir)) (m_disk m (core_file dir)) (file_text t) = (states, true).
Proof.
  rewrite run_create. split.
  - destruct (create_core_stacktrace _ _ _ _ _ _ _ _) as [[st ok]| |] eqn:E; try discriminate. cbn [bind]. destruct ok; [|discriminate].
    intros H. injection H as ->. apply create_iff in E as (s & M & W). exists s, (fulfill_missing_values s).
    split; [exact M|]. split; [apply fulfill_ok|exact W].
  - intros (s & t & M & F & W). apply filled_iff in F. subst t.
    assert (E : create_core_stacktrace addrmodule cxa_demangle (m_dump m dir) realpath (m_writing m (core_file dir)) (m_dir m dir) (m_disk m (core_file dir)) None = Ok (states, true)).
    { apply create_iff. eauto. }
    rewrite E. reflexivity.
Qed.
Lemma create_total path dir more : exists states, run (path :: L "abrt-create-core-stacktrace" :: dir :: more) = Ok (wrote (core_file dir) states) \/
  run (path :: L "abrt-create-core-stacktrace" :: dir :: more) = Ok (not_written (core_file dir) states []).
Proof.
  rewrite run_create. unfold create_core_stacktrace. destruct (file_contents (m_dir m dir) (L "executable")) as [e|].
  2:{ eexists. right. reflexivity. }
  assert (D := coredump_not_ub addrmodule cxa_demangle (m_dump m dir) (Some e)).
  destruct (sr_parse_coredump _ _ _ _) as [s| |]; [|eexists; right; reflexivity|congruence].
  destruct (sr_string_to_file _ _ _) as [states ok]. exists states. destruct ok; [left|right]; reflexivity.
Qed.
Lemma create_run_states path dir more o file states st : run (path :: L "abrt-create-core-stacktrace" :: dir :: more) = Ok o ->
  In (file, states) (o_files o) -> In st states -> file = core_file dir /\
  (st = m_disk m (core_file dir) \/ exists s t part, made_from dir s /\ filled s t /\ st = Some part /\ leading part (file_text t)).
Proof.
  rewrite run_create. destruct (create_core_stacktrace _ _ _ _ _ _ _ _) as [[x ok]| |] eqn:E; try discriminate. cbn [bind].
  intros H K J. assert (X : file = core_file dir /\ states = x).
  { destruct ok; injection H as <-; cbn [o_files wrote not_written In] in K; destruct K as [K|[]]; injection K as <- <-; auto. }
  destruct X as [-> ->]. split; [reflexivity|].
  destruct (create_states _ _ _ _ _ _ _ _ _ _ _ E J) as [G|(s & part & M & Ep & P)]; [now left|].
  right. exists s, (fulfill_missing_values s), part. split; [exact M|]. split; [apply fulfill_ok|auto].
Qed.
End Program.
