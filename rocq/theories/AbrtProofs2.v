From Verif Require Import Base Types CmpModel CmpSpec RpmProofs4 UtilsModel UtilsSpec UtilsProofs JsonSpec JsonModel JsonProofs JsonTypesModel JsonTypesSpec JsonReaders JsonRoundtrip JsonRoundtrip2 JsonRoundtrip3 TextModel
  RpmModel RpmSpec SystemModel SystemSpec SystemProofs SystemProofs2 ReportModel ReportSpec ReportProofs2 ReportProofs4
  ParseSpec PyParseModel PyParseSpec RubyParseModel RubyParseSpec JavaParseSpec KoopsModel KoopsSpec
  GdbLibModel UnwindModel UnwindProofs FileModel FileSpec FileProofs AbrtModel AbrtSpec AbrtProofs.
Open Scope nat_scope.

(** ** Reports *)
Lemma abrt_type_iff s t : sr_abrt_type_from_type s = t <-> abrt_type s t.
Proof. split; [intros <-; apply abrt_ok|]. intros H. exact (abrt_unique _ _ _ (abrt_ok s) H). Qed.
Lemma base_unique p b b' : base_name p b -> base_name p b' -> b = b'.
Proof.
  assert (G : forall (a r x y : list ascii) (c : ascii), a ++ c :: r = x ++ c :: y -> ~ In c r -> ~ In c y -> r = y).
  { intros a. induction a as [|z a IH]; intros r x y c E R Y; destruct x as [|w x]; cbn in E.
    - now injection E.
    - injection E as _ E. subst r. elim R. apply in_app_iff. right. now left.
    - injection E as _ E. subst y. elim Y. apply in_app_iff. right. now left.
    - injection E as _ E. eauto. }
  assert (I1 : forall dir (x : str), In "/"%char (dir ++ L "/" ++ x)) by (intros; rewrite in_app_iff; right; now left).
  intros [N [E|[dir E]]] [N' [E'|[dir' E']]].
  - congruence.
  - elim N. rewrite <- E, E'. apply I1.
  - elim N'. rewrite <- E', E. apply I1.
  - rewrite E in E'. exact (G _ _ _ _ _ E' N N').
Qed.
Lemma component_unique d c c' : component_of d c -> component_of d c' -> c = c'.
Proof.
  destruct c as [c|], c' as [c'|]; cbn [component_of]; intros [[P H]|[P H]] [[P' H']|[P' H']]; try congruence; try (exfalso; congruence).
  - destruct H as (p & b & E & B & ->), H' as (p' & b' & E' & B' & ->). rewrite E in E'. injection E' as <-. now rewrite (base_unique _ _ _ B B').
  - destruct H as (p & b & E & _). elim (H' _ E).
  - destruct H' as (p & b & E & _). elim (H _ E).
Qed.
Lemma component_iff d c : get_component d = c <-> component_of d c.
Proof.
  assert (G : component_of d (get_component d)) by (pose proof (component_ok d) as H; destruct (get_component d); exact H).
  split; [intros <-; exact G|]. intros H. exact (component_unique _ _ _ G H).
Qed.
Section Report.
Variable tokener : str -> option json.
Variable qsort : (rpm_package -> rpm_package -> Z) -> list rpm_package -> list rpm_package.
Variable e : errno.
Variables package_name package_version : str.
Notation from_dir := (sr_abrt_report_from_dir tokener qsort e package_name package_version).
Lemma report_iff d r : fst (from_dir d) = Ok r <-> describes tokener qsort e package_name package_version d r.
Proof.
  unfold sr_abrt_report_from_dir, describes. destruct (file_contents d (L "type")) as [t|] eqn:T; cbn [fst].
  2:{ split; [discriminate|]. intros ((t & H & _) & _). apply contents_iff in H. congruence. }
  apply contents_iff in T.
  destruct (sr_abrt_operating_system_from_dir d) as [os| |] eqn:O; cbn [fst].
  2,3: split; [discriminate|]; intros (_ & (os & H & _) & _); congruence.
  destruct (sr_abrt_rpm_packages_from_dir qsort d) as [ps| |] eqn:P; cbn [fst].
  2,3: split; [discriminate|]; intros (_ & _ & _ & H & _); congruence.
  destruct (occurrences_from_dir e d) as [n|] eqn:N; cbn [fst].
  2:{ split; [discriminate|]. intros (_ & _ & _ & _ & H & _). apply occurrences_iff in H. congruence. }
  destruct (stacktrace_from_dir tokener (sr_abrt_type_from_type t) d) as [st| |] eqn:S1; cbn [fst].
  2,3: split; [discriminate|]; intros ((t' & H & K) & _ & _ & _ & _ & G & _); rewrite T in H; injection H as <-;
       apply abrt_type_iff in K; rewrite <- K in G; apply trace_iff in G; congruence.
  split.
  - intros H. injection H as <-. cbn. split; [exists t; split; [exact T|apply abrt_type_iff; reflexivity]|].
    split; [eauto|]. split; [apply component_iff; reflexivity|]. split; [reflexivity|]. split; [now apply occurrences_iff|].
    split; [now apply trace_iff|]. repeat split.
  - intros ((t' & H & K) & (os' & Ho & Ho') & Hc & Hp & Hn & Hs & H1 & H2 & H3 & H4 & H5 & H6). rewrite T in H. injection H as <-.
    apply abrt_type_iff in K. apply component_iff in Hc. apply occurrences_iff in Hn. rewrite <- K in Hs. apply trace_iff in Hs.
    destruct r. cbn in *. assert (os' = os) by congruence. assert (rep_serial = n) by congruence. assert (rep_stacktrace = st) by congruence.
    assert (rep_packages = ps) by congruence. subst. reflexivity.
Qed.
Lemma report_unique d r r' : describes tokener qsort e package_name package_version d r -> describes tokener qsort e package_name package_version d r' -> r = r'.
Proof. intros H K. apply report_iff in H, K. congruence. Qed.
Lemma from_dir_defined d :
  (forall text, d (L "dso_list") = Contents text -> ~ hazard text) ->
  (forall text, d (L "interpreter") = Contents text -> ~ bad_epoch text) ->
  (forall t text r, d (L "type") = Contents t -> abrt_type t 2 -> d (L "backtrace") = Contents text -> py_start text r -> ~ py_runs_out r) ->
  fst (from_dir d) <> UB.
Proof.
  intros H1 H2 H3. unfold sr_abrt_report_from_dir. destruct (file_contents d (L "type")) as [t|] eqn:T; cbn [fst]; [|discriminate].
  apply contents_iff in T. pose proof (os_from_dir_defined d) as O. destruct (sr_abrt_operating_system_from_dir d); cbn [fst]; try congruence.
  pose proof (packages_defined qsort d H1 H2) as P. destruct (sr_abrt_rpm_packages_from_dir qsort d); cbn [fst]; try congruence.
  destruct (occurrences_from_dir e d); cbn [fst]; [|discriminate].
  assert (G : stacktrace_from_dir tokener (sr_abrt_type_from_type t) d <> UB).
  { apply trace_not_UB. intros text r E. apply (H3 t text r T). now apply abrt_type_iff. }
  destruct (stacktrace_from_dir tokener (sr_abrt_type_from_type t) d); cbn [fst]; congruence.
Qed.

(** ** Messages *)
Lemma unreadable_iff d n : unreadable d n = true <-> forall s, d n <> Contents s.
Proof. unfold unreadable, file_contents. destruct (d n); split; try congruence; try discriminate. intros H. elim (H s eq_refl). Qed.
Lemma unreadable_false d n : unreadable d n = false <-> exists s, d n = Contents s.
Proof. unfold unreadable, file_contents. destruct (d n); split; try discriminate; eauto; intros [x H]; discriminate. Qed.
Lemma exist_iff d n : file_exist d n = true <-> d n <> Missing.
Proof. unfold file_exist. destruct (d n); split; congruence. Qed.
Lemma no_message d : (forall cmp l, length (qsort cmp l) = length l) -> from_dir d = (Fail, false) ->
  d (L "package") = Missing /\ (exists text, d (L "dso_list") = Contents text) /\ listed_packages d [].
Proof.
  intros Q. unfold sr_abrt_report_from_dir. destruct (file_contents d (L "type")) as [t|] eqn:T; [|discriminate].
  destruct (sr_abrt_operating_system_from_dir d); try discriminate.
  destruct (sr_abrt_rpm_packages_from_dir qsort d) as [ps| |] eqn:P; try discriminate.
  - destruct (occurrences_from_dir e d); [|discriminate]. destruct (stacktrace_from_dir tokener (sr_abrt_type_from_type t) d); discriminate.
  - intros H. injection H as H. apply orb_false_iff in H as [H Hp]. apply orb_false_iff in H as [Ho Hc].
    unfold packages_message in Hp. apply orb_false_iff in Hp as [Hp Hi]. apply orb_false_iff in Hp as [Hp Hd].
    apply packages_fail in P as [[A B]|[(A & B & C)|(sorted & l & _ & A & B & ->)]].
    + exfalso. unfold is_packaged in Hp. apply exist_iff in A. rewrite A in Hp. cbn [andb] in Hp.
      apply orb_false_iff in Hp as [Hp H5]. apply orb_false_iff in Hp as [Hp H4]. apply orb_false_iff in Hp as [Hp H3].
      apply orb_false_iff in Hp as [Hp H2]. apply orb_false_iff in Hp as [H0 H1]. apply unreadable_false in H0, H1, H2, H3, H4.
      destruct H0 as [x0 H0], H1 as [x1 H1], H2 as [x2 H2], H3 as [x3 H3], H4 as [x4 H4]. apply contents_iff in H0, H1, H2, H3, H4.
      unfold rpm_pkg_from_dir in B. rewrite H0 in B, H5. rewrite H5, H1, H2, H3, H4 in B. discriminate.
    + split; [exact A|]. split; [|exact C]. apply exist_iff in B. rewrite B in Hd. cbn [andb] in Hd. now apply unreadable_false in Hd.
    + exfalso. destruct l as [|p l]; [congruence|]. unfold sr_rpm_package_sort in B. injection B as B. pose proof (Q rpm_cmp_nevra (p :: l)) as X. rewrite B in X. discriminate.
Qed.
Lemma ok_message d r m : from_dir d = (Ok r, m) ->
  m = true <-> (forall s, d (L "os_info") <> Contents s) \/ (forall s, d (L "environ") <> Contents s) \/
    (d (L "package") <> Missing /\ forall s, d (L "component") <> Contents s) \/ (d (L "package") = Missing /\ d (L "executable") = Unreadable) \/
    d (L "dso_list") = Unreadable \/ d (L "interpreter") = Unreadable.
Proof.
  unfold sr_abrt_report_from_dir. destruct (file_contents d (L "type")) as [t|] eqn:T; [|discriminate].
  destruct (sr_abrt_operating_system_from_dir d); try discriminate.
  destruct (sr_abrt_rpm_packages_from_dir qsort d) as [ps| |] eqn:P; try discriminate.
  destruct (occurrences_from_dir e d); [|discriminate]. destruct (stacktrace_from_dir tokener (sr_abrt_type_from_type t) d); try discriminate.
  intros H. injection H as _ <-. rewrite !orb_true_iff. unfold os_message. rewrite orb_true_iff, !unreadable_iff.
  assert (U : forall n, file_exist d n && unreadable d n = true <-> d n = Unreadable).
  { intros n. unfold file_exist, unreadable, file_contents. destruct (d n); cbn; split; congruence. }
  unfold component_message, packages_message. rewrite !orb_true_iff, !U.
  assert (Pk : is_packaged d && (unreadable d (L "pkg_epoch") || unreadable d (L "pkg_name") || unreadable d (L "pkg_version") ||
                     unreadable d (L "pkg_release") || unreadable d (L "pkg_arch") ||
                     match file_contents d (L "pkg_epoch") with Some t => (strtoul_value t =? u64max)%N | None => true end) = false).
  { unfold sr_abrt_rpm_packages_from_dir in P. destruct (is_packaged d); [|reflexivity]. cbn [andb].
    unfold rpm_pkg_from_dir, unreadable in *. destruct (file_contents d (L "pkg_epoch")) as [x|]; [|discriminate].
    destruct (strtoul_value x =? u64max)%N; [discriminate|].
    destruct (file_contents d (L "pkg_name")); [|discriminate]. destruct (file_contents d (L "pkg_version")); [|discriminate].
    destruct (file_contents d (L "pkg_release")); [|discriminate]. destruct (file_contents d (L "pkg_arch")); [reflexivity|discriminate]. }
  rewrite Pk.
  assert (C : (if is_packaged d then unreadable d (L "component") else file_exist d (L "executable") && unreadable d (L "executable")) = true <->
    (d (L "package") <> Missing /\ forall s, d (L "component") <> Contents s) \/ (d (L "package") = Missing /\ d (L "executable") = Unreadable)).
  { unfold is_packaged, file_exist at 1. destruct (d (L "package")); rewrite ?U, ?unreadable_iff; intuition congruence. }
  rewrite C. intuition congruence.
Qed.

(** ** Printing *)
Lemma py_frames_named s fs rest : py_frames_text s fs rest -> Forall (fun f => pf_file_name f <> None) fs.
Proof.
  induction 1 as [|s r f q fs rest Hp Hf Hr IH]; constructor; [|exact IH].
  destruct Hf as (? & ? & ? & ? & ? & ? & ? & ? & _ & _ & _ & _ & _ & _ & E & _). congruence.
Qed.
Lemma trace_reason d type st : holds_trace tokener d type (Some st) -> reason_defined st /\ (forall g, st <> SGdb g) /\ stacktrace_type st = type.
Proof.
  destruct st as [s|s|s|s|s|s|s]; cbn [holds_trace reason_defined stacktrace_type]; try contradiction.
  - intros [-> _]. repeat split; discriminate.
  - intros (-> & text & rest & _ & (r & fs & class & after & _ & Hf & _ & _ & _ & _ & _ & ->)). split; [|split; [discriminate|reflexivity]].
    intros l f E. cbn in E. apply py_frames_named in Hf. rewrite Forall_forall in Hf. apply Hf. apply in_rev. rewrite E. apply in_app_iff. right. now left.
  - intros [-> _]. repeat split; discriminate.
  - intros [-> _]. repeat split; discriminate.
  - intros (-> & text & _ & (f & after & message & class & rest & fs & Hf & _ & _ & _ & _ & _ & _ & _ & ->)). split; [|split; [discriminate|reflexivity]].
    intros g l E. cbn in E. injection E as <- _. destruct Hf as (? & ? & ? & ? & ? & ? & ? & _ & _ & _ & _ & _ & _ & E & _). congruence.
Qed.
Lemma abrt_types t ty : abrt_type t ty -> In ty [0; 1; 2; 3; 4; 6].
Proof.
  intros H. apply abrt_type_iff in H. subst. unfold sr_abrt_type_from_type.
  repeat match goal with |- context [starts_with ?a ?b] => destruct (starts_with a b) end; cbn; tauto.
Qed.
Lemma report_prints d r : describes tokener qsort e package_name package_version d r -> exists t, sr_report_to_json r = Ok t.
Proof.
  intros ((t & _ & Ht) & _ & _ & _ & _ & Hs & _ & Hn & Hv & _). apply report_defined_iff. rewrite Hn, Hv.
  split; [discriminate|]. split; [discriminate|]. apply abrt_types in Ht. split.
  - intros g E. rewrite E in Hs. exact Hs.
  - unfold report_reason. destruct (rep_stacktrace r) as [st|] eqn:E.
    + destruct (trace_reason _ _ _ Hs) as (Hd & Hg & Hty). destruct (reason_exists st Hg Hd) as (reason & _ & Hr).
      destruct (existsb (Nat.eqb (rep_type r)) [1; 2; 3; 4; 6; 7]); eauto.
    + cbn [holds_trace] in Hs. cbn [In] in Ht. assert (rep_type r = 0) as -> by (cbn [In] in Hs; intuition congruence). cbn. eauto.
Qed.
End Report.
