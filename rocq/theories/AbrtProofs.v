From Verif Require Import Base Types UtilsModel UtilsSpec UtilsProofs JsonSpec JsonModel JsonProofs JsonTypesModel JsonTypesSpec JsonReaders JsonRoundtrip3 TextModel
  RpmModel RpmSpec SystemModel SystemSpec SystemProofs SystemProofs2 ReportModel ReportSpec ReportProofs2 ReportProofs4
  ParseSpec ParseProofs PyParseModel PyParseSpec PyParseProofs RubyParseModel RubyParseSpec RubyParseProofs
  JavaParseModel JavaParseSpec JavaParseProofs JavaParseProofs2 KoopsModel KoopsSpec KoopsProofs4 P_Koops
  GdbParseModel GdbLibModel UnwindModel UnwindProofs FileModel FileSpec FileProofs AbrtModel AbrtSpec.
Open Scope nat_scope.

(** ** No JSON text holds a NUL byte *)
Lemma nul_free_ws w : ws w -> ~ In nul w.
Proof. intros H K. apply (proj1 (Forall_forall _ _) H) in K. destruct K as [K|[K|[K|K]]]; discriminate. Qed.
Lemma nul_free_chars s b : jchars s b -> ~ In nul b.
Proof. intros H K. apply jchars_no_control in H. apply (proj1 (Forall_forall _ _) H) in K. cbn in K. lia. Qed.
Lemma nul_free_int z t : jint z t -> ~ In nul t.
Proof.
  assert (D : forall z t, jdigits z t -> ~ In nul t).
  { intros z' t' H K. apply jdigits_all in H as [H _]. apply (proj1 (Forall_forall _ _) H) in K. now apply K. }
  intros [[H _]|(t' & -> & H & _)]; [exact (D _ _ H)|]. intros [K|K]; [discriminate|exact (D _ _ H K)].
Qed.
Lemma nul_free_json :
  (forall v t, jval v t -> ~ In nul t) /\ (forall l t, jelems l t -> ~ In nul t) /\ (forall l t, jmembers l t -> ~ In nul t).
Proof.
  apply json_mutind; intros;
    repeat match goal with
           | H : ws _ |- _ => apply nul_free_ws in H
           | H : jchars _ _ |- _ => apply nul_free_chars in H
           | H : jint _ _ |- _ => apply nul_free_int in H
           end; try assumption;
    cbn [In L list_ascii_of_string]; rewrite ?in_app_iff; cbn [In]; rewrite ?in_app_iff; cbn [In]; rewrite ?in_app_iff; cbn [In]; rewrite ?in_app_iff; cbn [In];
    intros K; repeat (destruct K as [K|K]; [try discriminate; try contradiction|]); try discriminate; try contradiction; tauto.
Qed.
Lemma json_text_nul_free v t : json_text v t -> ~ In nul t.
Proof.
  intros (w1 & t' & w2 & H1 & H & H2 & ->). apply nul_free_ws in H1, H2. apply (proj1 nul_free_json) in H. rewrite !in_app_iff. tauto.
Qed.

(** ** JSON texts *)
Lemma survives_nl {A} t (read : json -> res A) x : survives t read x -> survives (t ++ [nl]) read x.
Proof.
  intros [[v Hv] H]. assert (W : ws [nl]) by (constructor; [|constructor]; unfold ws_char; auto).
  pose proof (json_text_ws_after _ _ _ W Hv) as Hv'. split; [exists v; exact Hv'|]. intros v' H'. rewrite (json_text_unique _ _ _ H' Hv'). auto.
Qed.
Lemma from_text_survives {A} tokener t (read : json -> res A) x : survives t read x -> understands tokener t -> from_text tokener read t = Ok x.
Proof. intros [[v Hv] H] U. unfold from_text. rewrite (U v Hv). auto. Qed.

(** ** Stack traces *)
Lemma contents_iff d n s : file_contents d n = Some s <-> d n = Contents s.
Proof. unfold file_contents. destruct (d n); split; congruence. Qed.
Lemma java_iff s t rest : sr_java_stacktrace_parse s = Ok (t, rest) <-> exists u, java_thread_text s u rest /\ vs_threads t = [u].
Proof.
  unfold sr_java_stacktrace_parse. split.
  - destruct (sr_java_thread_parse s) as [[u r]| |] eqn:E; cbn [bind]; try discriminate. intros H. injection H as <- <-. exists u. split; [|reflexivity].
    now apply java_thread_iff.
  - intros (u & H & K). apply java_thread_iff in H. rewrite H. cbn [bind]. destruct t. cbn in K. now subst.
Qed.
Lemma trace_iff tokener d type st : stacktrace_from_dir tokener type d = Ok st <-> holds_trace tokener d type st.
Proof.
  unfold stacktrace_from_dir, contents_or_fail, REPORT_CORE, REPORT_PYTHON, REPORT_KERNELOOPS, REPORT_JAVA, REPORT_RUBY.
  destruct (Nat.eqb_spec type 1) as [->|N1].
  { destruct (file_contents d (L "core_backtrace")) as [text|] eqn:E; cbn [bind].
    - apply contents_iff in E. unfold sr_core_stacktrace_from_json_text, from_text. destruct (tokener text) as [v|] eqn:T.
      + destruct (core_stacktrace_from_json v) as [s| |] eqn:C; cbn [bind].
        * split.
          -- intros H. injection H as <-. split; [reflexivity|]. exists text, v. split; [exact E|]. split; [exact T|]. now apply core_reads.
          -- destruct st as [[s'|s'|s'|s'|s'|s'|s']|]; cbn [holds_trace]; try (intros []; discriminate); try contradiction.
             ++ intros (_ & text' & v' & E' & T' & R). rewrite E in E'. injection E' as <-. rewrite T in T'. injection T' as <-.
                apply core_reads in R. rewrite C in R. now injection R as ->.
             ++ intros H. elim H. cbn. tauto.
        * split; [discriminate|]. destruct st as [[s'|s'|s'|s'|s'|s'|s']|]; cbn [holds_trace]; try (intros []; discriminate); try contradiction.
          -- intros (_ & text' & v' & E' & T' & R). rewrite E in E'. injection E' as <-. rewrite T in T'. injection T' as <-. apply core_reads in R. congruence.
          -- intros H. elim H. cbn. tauto.
        * now apply core_not_UB in C.
      + cbn [bind]. split; [discriminate|]. destruct st as [[s'|s'|s'|s'|s'|s'|s']|]; cbn [holds_trace]; try (intros []; discriminate); try contradiction.
        * intros (_ & text' & v' & E' & T' & R). rewrite E in E'. injection E' as <-. congruence.
        * intros H. elim H. cbn. tauto.
    - split; [discriminate|]. destruct st as [[s'|s'|s'|s'|s'|s'|s']|]; cbn [holds_trace]; try (intros []; discriminate); try contradiction.
      + intros (_ & text' & v' & E' & _). apply contents_iff in E'. congruence.
      + intros H. elim H. cbn. tauto. }
  destruct (Nat.eqb_spec type 2) as [->|N2].
  { destruct (file_contents d (L "backtrace")) as [text|] eqn:E; cbn [bind].
    - apply contents_iff in E. unfold parsed. split.
      + destruct (sr_python_stacktrace_parse text) as [[s r]| |] eqn:P; cbn [bind]; try discriminate. intros H. injection H as <-. split; [reflexivity|].
        exists text, r. split; [exact E|]. now apply py_iff.
      + destruct st as [[s'|s'|s'|s'|s'|s'|s']|]; cbn [holds_trace]; try (intros []; discriminate); try contradiction.
        * intros (_ & text' & r & E' & P). rewrite E in E'. injection E' as <-. apply py_iff in P. now rewrite P.
        * intros H. elim H. cbn. tauto.
    - split; [discriminate|]. destruct st as [[s'|s'|s'|s'|s'|s'|s']|]; cbn [holds_trace]; try (intros []; discriminate); try contradiction.
      + intros (_ & text' & r & E' & _). apply contents_iff in E'. congruence.
      + intros H. elim H. cbn. tauto. }
  destruct (Nat.eqb_spec type 3) as [->|N3].
  { destruct (file_contents d (L "kernel")) as [kernel|] eqn:K; cbn [bind].
    - destruct (file_contents d (L "backtrace")) as [text|] eqn:E; cbn [bind].
      + apply contents_iff in E, K. destruct (C46_total text) as [s P]. rewrite P. cbn [bind].
        pose proof (proj1 (C46_parse_exact _ _ _) P) as (_ & _ & Hraw & Ht & reason & Hr & Ho). split.
        * intros H. injection H as <-. split; [reflexivity|]. exists kernel, text, reason. cbn. auto 10.
        * destruct st as [[s'|s'|s'|s'|s'|s'|s']|]; cbn [holds_trace]; try (intros []; discriminate); try contradiction.
          -- intros (_ & kernel' & text' & reason' & K' & E' & Hv' & Hraw' & Ht' & Hr' & Ho'). rewrite E in E'. injection E' as <-. rewrite K in K'. injection K' as <-.
             pose (s2 := mk_koops_stacktrace None (ks_taint s') (ks_modules s') (ks_raw_oops s') (ks_frames s') (ks_reason s')).
             assert (P2 : sr_koops_stacktrace_parse text = Ok (s2, [])) by (apply C46_parse_exact; subst s2; cbn; eauto 10).
             rewrite P in P2. injection P2 as ->. subst s2. cbn. destruct s'. cbn in *. now subst.
          -- intros H. elim H. cbn. tauto.
      + split; [discriminate|]. destruct st as [[s'|s'|s'|s'|s'|s'|s']|]; cbn [holds_trace]; try (intros []; discriminate); try contradiction.
        * intros (_ & kernel' & text' & reason & _ & E' & _). apply contents_iff in E'. congruence.
        * intros H. elim H. cbn. tauto.
    - split; [discriminate|]. destruct st as [[s'|s'|s'|s'|s'|s'|s']|]; cbn [holds_trace]; try (intros []; discriminate); try contradiction.
      + intros (_ & kernel' & text' & reason & E' & _). apply contents_iff in E'. congruence.
      + intros H. elim H. cbn. tauto. }
  destruct (Nat.eqb_spec type 4) as [->|N4].
  { destruct (file_contents d (L "backtrace")) as [text|] eqn:E; cbn [bind].
    - apply contents_iff in E. unfold parsed. split.
      + destruct (sr_java_stacktrace_parse text) as [[s r]| |] eqn:P; cbn [bind]; try discriminate. intros H. injection H as <-. split; [reflexivity|].
        apply java_iff in P as (u & P & Hu). exists text, r, u. auto.
      + destruct st as [[s'|s'|s'|s'|s'|s'|s']|]; cbn [holds_trace]; try (intros []; discriminate); try contradiction.
        * intros (_ & text' & r & u & E' & P & Hu). rewrite E in E'. injection E' as <-.
          assert (P2 : sr_java_stacktrace_parse text = Ok (s', r)) by (apply java_iff; eauto). now rewrite P2.
        * intros H. elim H. cbn. tauto.
    - split; [discriminate|]. destruct st as [[s'|s'|s'|s'|s'|s'|s']|]; cbn [holds_trace]; try (intros []; discriminate); try contradiction.
      + intros (_ & text' & r & u & E' & _). apply contents_iff in E'. congruence.
      + intros H. elim H. cbn. tauto. }
  destruct (Nat.eqb_spec type 6) as [->|N6].
  { destruct (file_contents d (L "backtrace")) as [text|] eqn:E; cbn [bind].
    - apply contents_iff in E. unfold parsed. split.
      + destruct (sr_ruby_stacktrace_parse text) as [[s r]| |] eqn:P; cbn [bind]; try discriminate. intros H. injection H as <-. split; [reflexivity|].
        pose proof (ruby_end _ _ _ P) as ->. exists text. split; [exact E|]. now apply ruby_iff.
      + destruct st as [[s'|s'|s'|s'|s'|s'|s']|]; cbn [holds_trace]; try (intros []; discriminate); try contradiction.
        * intros (_ & text' & E' & P). rewrite E in E'. injection E' as <-. apply ruby_iff in P. now rewrite P.
        * intros H. elim H. cbn. tauto.
    - split; [discriminate|]. destruct st as [[s'|s'|s'|s'|s'|s'|s']|]; cbn [holds_trace]; try (intros []; discriminate); try contradiction.
      + intros (_ & text' & E' & _). apply contents_iff in E'. congruence.
      + intros H. elim H. cbn. tauto. }
  split.
  - intros H. injection H as <-. cbn. intuition congruence.
  - destruct st as [[s'|s'|s'|s'|s'|s'|s']|]; cbn [holds_trace]; try (intros []; congruence); try contradiction. reflexivity.
Qed.
Lemma trace_not_UB tokener d type : (forall text r, type = 2 -> d (L "backtrace") = Contents text -> py_start text r -> ~ py_runs_out r) ->
  stacktrace_from_dir tokener type d <> UB.
Proof.
  intros H. unfold stacktrace_from_dir, contents_or_fail, REPORT_CORE, REPORT_PYTHON, REPORT_KERNELOOPS, REPORT_JAVA, REPORT_RUBY.
  destruct (Nat.eqb_spec type 1) as [->|N1].
  { destruct (file_contents d (L "core_backtrace")) as [text|]; cbn [bind]; [|discriminate].
    unfold sr_core_stacktrace_from_json_text, from_text. destruct (tokener text) as [v|]; cbn [bind]; [|discriminate].
    pose proof (core_not_UB v). destruct (core_stacktrace_from_json v); cbn [bind]; congruence. }
  destruct (Nat.eqb_spec type 2) as [->|N2].
  { destruct (file_contents d (L "backtrace")) as [text|] eqn:E; cbn [bind]; [|discriminate]. apply contents_iff in E. unfold parsed.
    destruct (sr_python_stacktrace_parse text) as [[s r]| |] eqn:P; cbn [bind]; try discriminate.
    apply py_UB_iff in P as (r & S1 & R). elim (H text r); auto. }
  destruct (Nat.eqb_spec type 3) as [->|N3].
  { destruct (file_contents d (L "kernel")) as [kernel|]; cbn [bind]; [|discriminate].
    destruct (file_contents d (L "backtrace")) as [text|]; cbn [bind]; [|discriminate]. destruct (C46_total text) as [s P]. rewrite P. discriminate. }
  destruct (Nat.eqb_spec type 4) as [->|N4].
  { destruct (file_contents d (L "backtrace")) as [text|]; cbn [bind]; [|discriminate]. unfold parsed, sr_java_stacktrace_parse.
    pose proof (java_thread_not_UB text). destruct (sr_java_thread_parse text) as [[t r]| |]; cbn [bind]; congruence. }
  destruct (Nat.eqb_spec type 6) as [->|N6]; [|discriminate].
  destruct (file_contents d (L "backtrace")) as [text|]; cbn [bind]; [|discriminate]. unfold parsed.
  pose proof (ruby_not_UB text). destruct (sr_ruby_stacktrace_parse text) as [[s r]| |]; cbn [bind]; congruence.
Qed.
