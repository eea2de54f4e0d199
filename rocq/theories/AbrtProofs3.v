From Verif Require Import Base Types ParseProofs UtilsModel UtilsSpec UtilsProofs JsonSpec JsonModel JsonProofs JsonTypesModel JsonTypesSpec JsonReaders JsonRoundtrip JsonRoundtrip2 JsonRoundtrip3 TextModel
  RpmModel SystemModel SystemSpec ReportModel ReportSpec GdbLibModel UnwindModel UnwindProofs JsParseModel FileModel FileSpec FileProofs AbrtModel AbrtSpec AbrtProofs AbrtProofs2.
Open Scope nat_scope.

(** ** Missing values *)
Lemma fulfill_frame_ok f : filled_frame f (fulfill_frame f).
Proof.
  unfold filled_frame, fulfill_frame. destruct (cf_file_name f) as [n|] eqn:F.
  - repeat split; auto. right. split; [intros [H _]; discriminate|exact F].
  - destruct (cf_function_name f) as [n|] eqn:G.
    + destruct (str_eqb (L "__kernel_vsyscall") n) eqn:K; cbn.
      * apply str_eqb_eq in K. subst n. repeat split; auto. 
      * repeat split; auto. right. split; [|exact F]. intros [_ H]. injection H as ->. rewrite str_eqb_refl in K. discriminate.
    + repeat split; auto. right. split; [intros [_ H]; discriminate|exact F].
Qed.
Lemma filled_frame_unique f g h : filled_frame f g -> filled_frame f h -> g = h.
Proof.
  intros (A1 & A2 & A3 & A4 & A5 & A6 & A7) (B1 & B2 & B3 & B4 & B5 & B6 & B7). destruct g, h; cbn in *. subst.
  destruct A7 as [(X & Y & ->)|(X & ->)], B7 as [(X' & Y' & ->)|(X' & ->)]; try reflexivity; tauto.
Qed.
Lemma fulfill_ok s : filled s (fulfill_missing_values s).
Proof.
  unfold filled, fulfill_missing_values. cbn. repeat split; auto. induction (cs_threads s) as [|t ts IH]; constructor; [|exact IH].
  cbn. induction (ct_frames t) as [|f fs IH']; constructor; [apply fulfill_frame_ok|exact IH'].
Qed.
Lemma filled_iff s t : filled s t <-> t = fulfill_missing_values s.
Proof.
  split; [|intros ->; apply fulfill_ok]. intros H. pose proof (fulfill_ok s) as K.
  destruct H as (A1 & A2 & A3 & A4 & A5), K as (B1 & B2 & B3 & B4 & B5). destruct t as [x1 x2 x3 ts x5], (fulfill_missing_values s) as [y1 y2 y3 us y5]. cbn in *. subst. f_equal.
  revert ts us A5 B5. induction (cs_threads s) as [|a l IH]; intros ts us A B; inversion A; inversion B; subst; [reflexivity|].
  f_equal; [|now apply IH]. destruct y as [g], y0 as [h]. f_equal. cbn in *.
  repeat match goal with H : Forall2 filled_frame _ _ |- _ => revert H end. clear. revert g h.
  induction (ct_frames a) as [|f fs IH]; intros g h A B; inversion A; inversion B; subst; [reflexivity|]. f_equal; [|now apply IH]. eapply filled_frame_unique; eauto.
Qed.

(** ** Files *)
Lemma file_of_read r bytes : reads_all r bytes ->
  file_of (Some bytes) = match sr_file_to_string r with Some s => Contents s | None => Unreadable end.
Proof.
  intros (Ho & Hs & Hr). unfold sr_file_to_string, file_of. rewrite Ho, Hs, Hr. cbn [negb]. unfold FILE_SIZE_LIMIT.
  destruct (20000000 <? N.of_nat (length bytes))%N; [reflexivity|]. now rewrite N.eqb_refl.
Qed.
Lemma file_of_text t : fits t -> ~ In nul t -> file_of (Some t) = Contents t.
Proof.
  intros F H. unfold file_of, fits in *. destruct (N.ltb_spec 20000000 (N.of_nat (length t))); [lia|]. f_equal. apply c_string_text. split; [exact H|now left].
Qed.

(** ** Creating core stack traces *)
Section Core.
Variable addrmodule : Z -> option module.
Variable cxa_demangle : str -> option str.
Variable dump : option core_dump.
Variable realpath : str -> option str.
Notation create := (create_core_stacktrace addrmodule cxa_demangle dump realpath).
Notation made := (made addrmodule cxa_demangle dump realpath).
Definition trace_text (s : core_stacktrace) : str := core_stacktrace_to_json (fulfill_missing_values s) ++ [nl].
Lemma create_iff w d old gdb_output states : create w d old gdb_output = Ok (states, true) <->
  exists s, made d gdb_output s /\ sr_string_to_file w old (trace_text s) = (states, true).
Proof.
  unfold create_core_stacktrace, AbrtSpec.made. destruct (file_contents d (L "executable")) as [x|] eqn:E.
  2:{ split; [discriminate|]. intros (s & (x & H & _) & _). apply contents_iff in H. congruence. }
  apply contents_iff in E. rewrite E.
  destruct (match gdb_output with Some g => core_stacktrace_from_gdb addrmodule cxa_demangle dump realpath g x
            | None => sr_parse_coredump addrmodule cxa_demangle dump (Some x) end) as [s| |] eqn:M.
  - split.
    + intros H. apply ok_inj in H. exists s. split; [|exact H]. exists x. split; [reflexivity|]. destruct gdb_output; exact M.
    + intros (s' & (x' & H & M') & W). injection H as <-. assert (s = s') as <- by (destruct gdb_output; congruence). now rewrite <- W.
  - split; [discriminate|]. intros (s' & (x' & H & M') & W). injection H as <-. destruct gdb_output; congruence.
  - split; [discriminate|]. intros (s' & (x' & H & M') & W). injection H as <-. destruct gdb_output; congruence.
Qed.
Lemma create_states w d old gdb_output states b st : create w d old gdb_output = Ok (states, b) -> In st states ->
  st = old \/ exists s part, made d gdb_output s /\ st = Some part /\ leading part (trace_text s).
Proof.
  unfold create_core_stacktrace, AbrtSpec.made. destruct (file_contents d (L "executable")) as [x|] eqn:E.
  2:{ intros H. injection H as <- _. intros [<-|[]]. now left. }
  apply contents_iff in E.
  destruct (match gdb_output with Some g => core_stacktrace_from_gdb addrmodule cxa_demangle dump realpath g x
            | None => sr_parse_coredump addrmodule cxa_demangle dump (Some x) end) as [s| |] eqn:M; [| |discriminate].
  - intros H K. apply ok_inj in H. assert (K' : In st (fst (sr_string_to_file w old (trace_text s)))) by (unfold trace_text; now rewrite H).
    apply write_states in K' as [K'|(part & K1 & K2)]; [now left|]. right. exists s, part. split; [|auto]. exists x. split; [exact E|]. destruct gdb_output; exact M.
  - intros H. injection H as <- _. intros [<-|[]]. now left.
Qed.
Lemma trace_text_survives s : core_ok (fulfill_missing_values s) -> survives (trace_text s) core_stacktrace_from_json (fulfill_missing_values s).
Proof. intros H. apply survives_nl. now apply core_ok_survives. Qed.
Lemma create_holds tokener w d old gdb_output states s : create w d old gdb_output = Ok (states, true) -> made d gdb_output s ->
  core_ok (fulfill_missing_values s) -> fits (trace_text s) -> understands tokener (trace_text s) ->
  holds_trace tokener (with_file d (L "core_backtrace") (file_of (final states))) 1 (Some (SCore (fulfill_missing_values s))).
Proof.
  intros H M Hok Hf Hu. apply create_iff in H as (s' & M' & W).
  assert (s' = s) as ->. { destruct M as (x & E & M), M' as (x' & E' & M'). rewrite E in E'. injection E' as <-. destruct gdb_output; congruence. }
  pose proof (write_final w old (trace_text s)) as F. rewrite W in F. specialize (F eq_refl). cbn [fst] in F. rewrite F.
  destruct (trace_text_survives s Hok) as [[v Hv] Hr]. cbn [holds_trace]. split; [reflexivity|].
  exists (trace_text s), v. split; [|split; [exact (Hu v Hv)|apply core_reads; exact (Hr v Hv)]].
  rewrite file_of_text; [reflexivity|exact Hf|]. exact (json_text_nul_free _ _ Hv).
Qed.
Lemma end_to_end tokener qsort e pn pv w d old gdb_output states s t os packages serial :
  create w d old gdb_output = Ok (states, true) -> made d gdb_output s ->
  core_ok (fulfill_missing_values s) -> fits (trace_text s) -> understands tokener (trace_text s) ->
  d (L "type") = Contents t -> abrt_type t 1 -> sr_abrt_operating_system_from_dir d = Ok os ->
  sr_abrt_rpm_packages_from_dir qsort d = Ok packages -> occurrences_from_dir e d = Some serial ->
  exists r, fst (sr_abrt_report_from_dir tokener qsort e pn pv (with_file d (L "core_backtrace") (file_of (final states)))) = Ok r /\
    rep_stacktrace r = Some (SCore (fulfill_missing_values s)) /\ rep_type r = 1 /\ rep_os r = Some os /\ rep_packages r = packages /\ rep_serial r = serial /\
    component_of d (rep_component r).
Proof.
  intros H M Hok Hf Hu Ht Hty Hos Hp Hs. pose proof (create_holds tokener w d old gdb_output states s H M Hok Hf Hu) as G.
  set (d' := with_file d (L "core_backtrace") (file_of (final states))) in *.
  exists (mk_report 2 1 (Some pn) (Some pv) false true (Some os) (get_component d) packages (Some (SCore (fulfill_missing_values s))) [] serial).
  split; [|cbn; repeat split; auto; apply component_iff; reflexivity].
  apply report_iff. unfold describes. cbn [rep_type rep_os rep_component rep_packages rep_serial rep_stacktrace rep_version rep_reporter_name rep_reporter_version rep_user_root rep_user_local rep_auth].
  split; [exists t; split; [exact Ht|exact Hty]|]. split; [exists os; split; [exact Hos|reflexivity]|].
  split; [apply component_iff; reflexivity|]. split; [exact Hp|].
  split; [|split; [exact G|repeat split]].
  apply (proj1 (SystemProofs2.occurrences_iff e d serial)). exact Hs.
Qed.
End Core.

(** ** A JSON text is one without its last newline too *)
Lemma jval_last v t c : jval v (t ++ [c]) -> c <> nl.
Proof.
  assert (A : forall a x b (t0 t1 : str), a :: t0 ++ [x] = t1 ++ [b] -> b = x).
  { intros a x b t0 t1 E. change (a :: t0 ++ [x]) with ((a :: t0) ++ [x]) in E. apply app_inj_tail in E as [_ E]. auto. }
  assert (D : forall z t, jdigits z (t ++ [c]) -> c <> nl).
  { intros z t0 H ->. apply jdigits_all in H as [H _]. apply Forall_app in H as [_ H]. inversion H; subst. now cbn in *. }
  intros H. remember (t ++ [c]) as u eqn:E. destruct H as [| | |z t0 Hz|s b Hb|w Hw|l t0 Hl|w Hw|l t0 Hl].
  1: change (L "null") with (L "nul" ++ ["l"%char]) in E.
  2: change (L "true") with (L "tru" ++ ["e"%char]) in E.
  3: change (L "false") with (L "fals" ++ ["e"%char]) in E.
  1-3: apply app_inj_tail in E as [_ E]; rewrite <- E; discriminate.
  1: subst t0.
  1: destruct Hz as [[Hz _]|(t1 & E & Hz & _)]; [exact (D _ _ Hz)|].
  1: { destruct t as [|a t]; cbn in E; injection E as Ea Et; [subst t1; apply jdigits_all in Hz as [_ Hz]; congruence|].
       rewrite <- Et in Hz. exact (D _ _ Hz). }
  all: apply A in E; rewrite E; discriminate.
Qed.
Lemma valid_without_nl t : valid_json (t ++ [nl]) -> valid_json t.
Proof.
  intros (v & w1 & t' & w2 & H1 & H & H2 & E). exists v. destruct w2 as [|a w2 _] using rev_ind.
  - rewrite app_nil_r in E. exfalso. destruct t' as [|a t' _] using rev_ind.
    + inversion H. destruct H0 as [[H0 _]|(? & ? & _)]; [apply jdigits_all in H0 as [_ H0]; congruence|discriminate].
    + rewrite app_assoc in E. apply app_inj_tail in E as [_ E]. subst a. now apply jval_last in H.
  - rewrite !app_assoc in E. apply app_inj_tail in E as [E _]. apply Forall_app in H2 as [H2 _]. exists w1, t', w2.
    rewrite <- app_assoc in E. auto.
Qed.

(** ** JavaScript *)
Lemma js_platform_iff n : sr_js_platform_from_string n <> 0%Z <-> n = L "Node.js".
Proof.
  unfold sr_js_platform_from_string, js_runtime_from_string. destruct (str_eqb n (L "Node.js")) eqn:E.
  - apply str_eqb_eq in E. subst. split; [reflexivity|]. intros _. vm_compute. discriminate.
  - split; [cbn; congruence|]. intros ->. now rewrite str_eqb_refl in E.
Qed.
Lemma js_stacktrace_iff p text s rest :
  sr_js_platform_parse_stacktrace p text = Ok (s, rest) <->
  js_valid (js_platform_runtime p) = true /\ js_valid (js_platform_engine p) = true /\ js_platform s = p /\
  exists s', sr_js_stacktrace_parse text = Ok (s', rest) /\ js_exception_name s = js_exception_name s' /\ js_frames s = js_frames s'.
Proof.
  unfold sr_js_platform_parse_stacktrace. destruct (js_valid (js_platform_runtime p)), (js_valid (js_platform_engine p)); cbn [andb].
  2-4: split; [discriminate|]; intros (A & B & _); discriminate.
  destruct (sr_js_stacktrace_parse text) as [[s' rest']| |]; cbn [bind].
  - split.
    + intros H. apply ok_inj in H. injection H as <- <-. repeat split. exists s'. auto.
    + intros (_ & _ & Hp & s2 & H & Hn & Hf). apply ok_inj in H. injection H as <- <-. destruct s; cbn in *. congruence.
  - split; [discriminate|]. intros (_ & _ & _ & s2 & H & _). discriminate.
  - split; [discriminate|]. intros (_ & _ & _ & s2 & H & _). discriminate.
Qed.

Lemma js_frame_iff p text f rest :
  sr_js_platform_parse_frame p text = Ok (f, rest) <->
  js_valid (js_platform_runtime p) = true /\ js_valid (js_platform_engine p) = true /\ sr_js_frame_parse_v8 text = Ok (f, rest).
Proof.
  unfold sr_js_platform_parse_frame. destruct (js_valid (js_platform_runtime p)), (js_valid (js_platform_engine p)); cbn [andb]; try tauto; split; try discriminate; intros (A & B & _); discriminate.
Qed.
Lemma generic_text_ok tokener s t : stacktrace_ok s \/ (exists j, s = SJs j /\ js_ok j) -> sr_stacktrace_to_json s = Some t -> understands tokener t ->
  sr_stacktrace_from_json_text tokener (stacktrace_type s) t = Ok (Some s).
Proof.
  intros Hok E U. unfold sr_stacktrace_from_json_text.
  assert (K : forall A (read : json -> res A) x, survives t read x -> exists v, tokener t = Some v /\ read v = Ok x).
  { intros A read x [[v Hv] H]. exists v. split; [apply U; exact Hv|apply H; exact Hv]. }
  destruct Hok as [Hok|(j & -> & Hok)].
  2: { injection E as <-. destruct (K _ _ _ (js_ok_survives j Hok)) as (v & -> & H). cbn. now rewrite H. }
  destruct s as [s|s|s|s|s|s|s]; cbn [stacktrace_ok sr_stacktrace_to_json stacktrace_type] in *; try tauto; injection E as <-.
  - destruct (K _ _ _ (core_ok_survives s Hok)) as (v & -> & H). cbn. now rewrite H.
  - destruct (K _ _ _ (python_ok_survives s (proj1 Hok))) as (v & -> & H). cbn. now rewrite H.
  - destruct (K _ _ _ (koops_ok_survives s Hok)) as (v & -> & H). cbn. now rewrite H.
  - destruct (K _ _ _ (java_ok_survives s Hok)) as (v & -> & H). cbn. now rewrite H.
  - destruct (K _ _ _ (ruby_ok_survives s (proj1 Hok))) as (v & -> & H). cbn. now rewrite H.
Qed.
