(** * Reports made from problem directories, sent and received. *)
From Coq Require Import Permutation.
From Verif Require Import Base Types UtilsModel UtilsSpec JsonSpec JsonTypesModel JsonTypesSpec JsonRoundtrip JsonRoundtrip2 JsonRoundtrip3 NormSpec TextModel RpmModel RpmSpec SystemModel SystemSpec
  ReportModel ReportSpec ReportProofs2 ReportProofs4 ReportProofs5 PyParseSpec RubyParseSpec JavaParseSpec KoopsModel KoopsSpec FileModel AbrtModel AbrtSpec AbrtProofs AbrtProofs2 AbrtProofs3
  JsonKeepSpec JsonKeepProofs ResendSpec ResendProofs ResendProofs2 ParseSendSpec ParseSendProofs ParseSendProofs2 ParseSendProofs3 P_Json P_Resend DirSendSpec DirSendProofs.
Open Scope Z_scope.

(** ** Reasons *)
Lemma reason_carried s t : clean s -> (forall k r, s = SKoops k -> ks_reason k = Some r -> json_safe r) -> reason_says s t -> json_safe t.
Proof.
  destruct s as [s|s|s|s|s|s|s]; cbn [clean reason_says]; intros Hok Hk; try tauto.
  - intros ->. destruct Hok as ((He & _) & _). lits. apply or_unknown_safe. exact He.
  - intros (e & f & l & -> & He & Hf). destruct Hok as (Hx & Hfr). lits.
    + destruct He as [E|[E ->]]; [rewrite E in Hx; exact Hx|apply safe_lit; reflexivity].
    + destruct Hf as [(_ & -> & _)|(k & g & Eg & Ef & _)]; [apply safe_lit; reflexivity|].
      rewrite Eg in Hfr. apply Forall_app in Hfr as [_ Hfr]. inversion Hfr as [|? ? (_ & (Hs & _))]; subst. rewrite Ef in Hs. exact Hs.
  - intros (cut & first & Hcut & Hfirst & what & -> & Hw). destruct Hok as (_ & _ & _ & Hs).
    assert (Hall : Forall (fun g => opt_safe (kf_function_name g) /\ opt_safe (kf_module_name g)) cut).
    { clear -Hcut Hs. induction Hcut; constructor; inversion Hs; subst; [eapply cut_safe; eauto|auto]. }
    assert (Hf : forall g, first = Some g -> opt_safe (kf_function_name g) /\ opt_safe (kf_module_name g)).
    { intros g ->. destruct Hfirst as (pre & post & -> & _). apply Forall_app in Hall as [_ Hall]. inversion Hall; assumption. }
    apply ReportProofs5.safe_app.
    + assert (Hfn : json_safe (match first with Some f => match kf_function_name f with Some n => n | None => L "<unknown>" end | None => L "<unknown>" end)).
      { destruct first as [g|]; [|apply safe_lit; reflexivity]. destruct (Hf g eq_refl) as [H1 _]. destruct (kf_function_name g); [exact H1|apply safe_lit; reflexivity]. }
      destruct (ks_reason s) as [r|] eqn:R.
      * destruct Hw as [(_ & ->)|[(_ & _ & ->)|(_ & _ & ->)]]; [lits; exact Hfn|lits; exact Hfn|exact (Hk _ _ eq_refl R)].
      * subst what. lits. exact Hfn.
    + destruct first as [g|]; [|constructor]. destruct (Hf g eq_refl) as [_ H2]. destruct (kf_module_name g); [|constructor]. lits. exact H2.
  - intros (e & f & l & -> & (r & Hr & He) & Hf). destruct Hok as [_ Hs].
    assert (Hall : Forall java_frame_safe (match vs_threads s with [] => [] | th :: _ => vt_frames th end)).
    { unfold java_frames in Hs. destruct (vs_threads s) as [|th ths]; [constructor|]. cbn [map concat] in Hs. apply Forall_app in Hs. tauto. }
    set (fr := match vs_threads s with [] => [] | th :: _ => vt_frames th end) in *. clearbody fr.
    lits.
    + destruct r as [g|]; [|subst e; apply safe_lit; reflexivity]. destruct Hr as (pre & post & -> & _). apply Forall_app in Hall as [_ Hall].
      inversion Hall as [|? ? (H1 & _)]; subst. rewrite He in H1. exact H1.
    + destruct Hf as [(k & g & -> & Ef & _)|[_ [-> _]]]; [|apply safe_lit; reflexivity]. apply Forall_app in Hall as [_ Hall].
      inversion Hall as [|? ? (_ & H2 & _)]; subst. rewrite Ef in H2. exact H2.
  - intros (e & f & l & -> & He & Hf). destruct Hok as (Hx & Hfr). lits.
    + destruct He as [E|[E ->]]; [rewrite E in Hx; exact Hx|apply safe_lit; reflexivity].
    + destruct Hf as [(_ & -> & _)|(k & g & Eg & Ef & _)]; [apply safe_lit; reflexivity|].
      rewrite Eg in Hfr. inversion Hfr as [|? ? (_ & (Hs & _))]; subst. rewrite Ef in Hs. exact Hs.
  - intros (e & f & l & c & -> & He & Hf). destruct Hok as (Hx & Hfr). lits.
    + destruct He as [E|[E ->]]; [rewrite E in Hx; exact Hx|apply safe_lit; reflexivity].
    + destruct Hf as [(_ & -> & _)|(k & g & Eg & Ef & _)]; [apply safe_lit; reflexivity|].
      rewrite Eg in Hfr. inversion Hfr as [|? ? (_ & (Hs & _))]; subst. rewrite Ef in Hs. exact Hs.
Qed.

(** ** Stack traces *)
Section Files.
Variables (tokener : str -> option json) (d : directory).
Hypothesis F : safe_files d.
Lemma trace_parts type s : holds_trace tokener d type (Some s) ->
  stacktrace_range s /\ (clean s <-> forall t, s = SCore t -> core_safe t /\ cs_threads t <> []) /\
  (forall k r, s = SKoops k -> ks_reason k = Some r -> json_safe r) /\ stacktrace_type s = type /\
  (forall u, sr_stacktrace_to_json s = Some u -> u <> L "{}") /\ (forall g, s <> SGdb g).
Proof.
  assert (Tr : forall s, sendable s -> (forall t, s <> SCore t) -> (clean s <-> forall t, s = SCore t -> core_safe t /\ cs_threads t <> [])).
  { intros s' D N. apply sendable_iff in D. split; [intros _ t E; now apply N in E|tauto]. }
  destruct s as [s|s|s|s|s|s|s]; cbn [holds_trace]; try tauto.
  - intros (-> & text & v & _ & _ & R). split; [|split; [|split; [discriminate|split; [reflexivity|split; [|discriminate]]]]].
    + apply (accepted_range 1%nat v (SCore s)). apply C39_core in R. unfold sr_stacktrace_from_json. cbn. now rewrite R.
    + cbn. split; [intros C t E; injection E as <-; exact C|intros C; exact (C s eq_refl)].
    + intros u E. injection E as <-. discriminate.
  - intros (-> & text & rest & E & P). apply F in E. pose proof (py_sendable _ _ _ P E) as D.
    split; [apply D|]. split; [apply Tr; [exact D|discriminate]|]. split; [intros k0 r0 X0; discriminate X0|]. split; [reflexivity|]. split; [|discriminate].
    intros u X. injection X as <-. destruct P as (r & fs & class & after & _ & _ & _ & _ & _ & _ & _ & ->). discriminate.
  - intros (-> & kernel & text & reason & E1 & E2 & V & R & T & Re & O). apply F in E1. apply F in E2. destruct (oops_sent _ _ _ _ O E2) as (Fr & M).
    split; [|split; [|split; [|split; [reflexivity|split; [|discriminate]]]]].
    + split; [rewrite T; apply taint_length|]. eapply Forall_impl; [|exact Fr]. intros f (_ & Q). exact Q.
    + split; [intros _ t X; discriminate X|]. intros _. unfold clean, koops_safe. rewrite V, R. cbn. split; [exact E1|]. split; [exact E2|]. split; [exact M|].
      eapply Forall_impl; [|exact Fr]. intros f (Q & _). exact Q.
    + intros k r E X. injection E as <-. rewrite Re in X. injection X as <-. destruct O as (_ & q & -> & _). apply safe_app in E2. tauto.
    + intros u E. injection E as <-. unfold koops_stacktrace_to_json. rewrite R. discriminate.
  - intros (-> & text & rest & t & E & P & Th). apply F in E. pose proof (java_sendable _ _ _ P E) as D. destruct s as [l]. cbn in Th. subst l.
    split; [apply D|]. split; [apply Tr; [exact D|discriminate]|]. split; [intros k0 r0 X0; discriminate X0|]. split; [reflexivity|]. split; [|discriminate].
    intros u X. injection X as <-. discriminate.
  - intros (-> & text & E & P). apply F in E. pose proof (ruby_sendable _ _ P E) as D.
    split; [apply D|]. split; [apply Tr; [exact D|discriminate]|]. split; [intros k0 r0 X0; discriminate X0|]. split; [reflexivity|]. split; [|discriminate].
    intros u X. injection X as <-. destruct P as (f & after & message & class & rest & fs & _ & _ & _ & _ & _ & _ & _ & _ & ->). discriminate.
Qed.
End Files.

(** ** Reports *)
Section Report.
Variables (tokener : str -> option json) (qsort : (rpm_package -> rpm_package -> Z) -> list rpm_package -> list rpm_package) (e : errno) (pn pv : str) (d : directory) (r : report).
Hypotheses (F : safe_files d) (Q : moves qsort) (Pn : plain pn) (Pv : plain pv).
Hypothesis D : describes tokener qsort e pn pv d r.

Lemma dir_reporter : plain_reporter r.
Proof. destruct D as (_ & _ & _ & _ & _ & _ & _ & N & V & _). exists pn, pv. auto. Qed.
Lemma dir_range : report_range r.
Proof.
  destruct D as (_ & (os & O & Eo) & _ & P & (t & _ & _ & S & _) & T & V & _). split; [rewrite V; unfold u32, two32; lia|]. split; [unfold u32, two32; lia|].
  split; [intros os' E; rewrite Eo in E; injection E as <-; rewrite (uptime_zero d _ O); unfold u64, two64; lia|]. split.
  - apply (packages_good d F _ _ Q) in P. eapply Forall_impl; [|exact P]. intros p (_ & K & _). exact K.
  - intros s E. rewrite E in T. apply (trace_parts tokener d F) in T. tauto.
Qed.
Lemma dir_safe : report_safe r.
Proof.
  destruct D as (_ & (os & O & Eo) & C & P & _ & _ & _ & _ & _ & _ & _ & A). split; [|split; [|split]].
  - intros os' E. rewrite Eo in E. injection E as <-. now apply (os_safe_from_dir d F).
  - now apply (component_safe d F).
  - apply (packages_good d F _ _ Q) in P. eapply Forall_impl; [|exact P]. intros p (K & _). exact K.
  - rewrite A. constructor.
Qed.
Lemma dir_written : exists t, sr_report_to_json r = Ok t /\ (valid_json t <-> core_clean r).
Proof.
  destruct (report_prints tokener qsort e pn pv d r D) as (t & E). exists t. split; [exact E|].
  assert (X : exists t, sr_report_to_json r = Ok t) by eauto. apply report_defined_iff in X. destruct X as (_ & _ & _ & reason & R).
  rewrite (report_valid_iff r reason t dir_reporter dir_range R E). unfold core_clean.
  destruct D as (_ & _ & _ & _ & _ & T & _). destruct (rep_stacktrace r) as [s|] eqn:Es.
  - destruct (trace_parts tokener d F _ _ T) as (Ra & C & Re & Ty & N & G). split.
    + intros (_ & _ & W) s' Es'. injection Es' as ->. destruct (W _ _ eq_refl eq_refl) as (V & _). cbn in V. apply core_valid_iff in V. tauto.
    + intros W. assert (Cs : clean s). { apply C. intros t' ->. exact (W t' eq_refl). }
      split; [exact dir_safe|]. split.
      * unfold report_reason in R. rewrite Es in R. destruct (existsb _ _); [|subst reason; apply safe_lit; reflexivity]. destruct R as (s' & Es' & _ & R).
        injection Es' as <-. exact (reason_carried _ _ Cs Re R).
      * intros s' u Es' Eu. injection Es' as <-. split; [|exact (N _ Eu)].
        destruct s; cbn in Eu, Cs; try tauto; injection Eu as <-;
        [now apply core_valid_iff|now apply python_valid_iff|now apply koops_valid_iff|now apply java_valid_iff|now apply ruby_valid_iff|now apply js_valid_iff].
  - split; [discriminate|]. intros _. split; [exact dir_safe|]. split; [|discriminate].
    unfold report_reason in R. rewrite Es in R. destruct (existsb _ _); [destruct R as (s & R & _); discriminate R|subst reason; apply safe_lit; reflexivity].
Qed.
Lemma dir_consistent : few_modules r -> report_consistent r.
Proof.
  intros M. destruct D as (_ & _ & _ & _ & _ & T & _ & _ & _ & _ & _ & A). split; [|split; [exact M|rewrite A; constructor]].
  intros s E. rewrite E in T. apply (trace_parts tokener d F) in T. tauto.
Qed.
Lemma dir_back t pn' pv' : few_modules r -> sr_report_to_json r = Ok t -> valid_json t -> survives t (sr_report_from_json pn' pv') (report_as_read r).
Proof.
  intros M E V. assert (X : exists t, sr_report_to_json r = Ok t) by eauto. apply report_defined_iff in X. destruct X as (_ & _ & _ & reason & R).
  exact (report_survives pn' pv' r reason t dir_reporter dir_range (dir_consistent M) R E V).
Qed.
End Report.
