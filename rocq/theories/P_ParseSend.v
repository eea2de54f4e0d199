(** * C90: what is read from a text can be sent as JSON, and comes back. *)
From Verif Require Import Base JsonSpec Types JsonTypesModel JsonTypesSpec JsonRoundtrip JsonRoundtrip2 CrashModel NormModel TextModel ReportModel CliModel KoopsModel RubyParseModel JavaParseModel
  JsonKeepSpec JsonKeepProofs JsonKeepProofs2 ParseSendSpec ParseSendProofs ParseSendProofs2 ParseSendProofs3.
Open Scope Z_scope.

(** Whatever is read from a text of bytes that JSON can carry can be sent: Python, Java, Ruby and JavaScript. *)
Theorem C90_sendable tokener type text s : In type [2; 4; 6; 7]%nat -> sr_stacktrace_parse tokener type text = Ok s ->
  json_safe text -> sendable s.
Proof. exact (parsed_sendable tokener type text s). Qed.
(** A kernel oops is sent with its text, so it can be sent only if JSON can carry all of it; and it must
    name no more than 127 modules. *)
Theorem C90_oops_sendable tokener text t : sr_stacktrace_parse tokener 3 text = Ok (SKoops t) ->
  sendable (SKoops t) <-> json_safe text /\ koops_modules_fit t.
Proof.
  intros H. apply read_all_ok in H. destruct H as (x & rest & H & E). injection E as <-. exact (koops_sendable _ _ _ H).
Qed.
(** It comes back as it was, but for the platform of a JavaScript trace and the reason of an oops, exactly
    if all numbers are below the limits of the reader. *)
Theorem C90_comes_back tokener type text s : text_type type -> sr_stacktrace_parse tokener type text = Ok s -> sendable s ->
  received s (but_for s) <-> all_fit s.
Proof.
  intros T H D. rewrite received_iff by exact D. rewrite <- (parsed_back tokener type text s T H D). split; intros E; symmetry; exact E.
Qed.
(** Python, Java and Ruby: nothing is lost. *)
Theorem C90_nothing_lost tokener type text s : In type [2; 4; 6]%nat -> sr_stacktrace_parse tokener type text = Ok s -> json_safe text ->
  received s s <-> all_fit s.
Proof.
  intros T H S.
  assert (D : sendable s). { apply (parsed_sendable tokener type text); [cbn in *; tauto|exact H|exact S]. }
  assert (B : but_for s = s). { cbn in T. destruct T as [<-|[<-|[<-|[]]]]; apply read_all_ok in H; destruct H as (x & rest & _ & ->); reflexivity. }
  rewrite <- (C90_comes_back tokener type text s); [now rewrite B|cbn in *; tauto|exact H|exact D].
Qed.
(** The duplicate hash of an oops whose frames have names is the sender's, however large the addresses. *)
Theorem C90_oops_duphash tokener text t s' : sr_stacktrace_parse tokener 3 text = Ok (SKoops t) -> json_safe text -> koops_modules_fit t ->
  Forall (fun f => kf_function_name f <> None) (ks_frames t) -> received (SKoops t) s' ->
  exists t', s' = SKoops t' /\ forall sha1 nframes prefix flags,
    sr_thread_get_duphash sha1 (TKoops t') nframes prefix flags = sr_thread_get_duphash sha1 (TKoops t) nframes prefix flags.
Proof.
  intros H S M F R. assert (D : sendable (SKoops t)) by (apply (C90_oops_sendable tokener text); auto).
  apply received_iff in R; [|exact D]. exists (koops_as_read t). split; [exact R|]. intros sha1 n p fl.
  apply (duphash_read sha1 (TKoops t)). cbn. apply List.Forall_map. eapply Forall_impl; [|exact F]. cbn. tauto.
Qed.

(** Texts that meet these hypotheses. *)
Definition ruby_example : str := L "/a/b.rb:5:in `block (2 levels) in <top>': oops (E)" ++ nl :: tab :: L "from c:6:in `rescue in d'" ++ [nl].
Definition python_example : str := L "Traceback (most recent call last):" ++ nl :: L "  File ""/home/u/a.py"", line 7, in <module>" ++ nl :: L "    f()" ++ nl :: L "E: m".
Definition js_example : str := L "E: m" ++ nl :: L "    at f (/a.js:1:2)".
Definition java_example : str := L "E: m" ++ nl :: tab :: L "at a.b(C.java:12)" ++ [nl].
Definition oops_example : str := L "BUG: x" ++ nl :: L "Modules linked in: a b" ++ nl :: L "[<ffffffff81234567>] ? f+0x12/0x34 [a]" ++ [nl].
Ltac bytes_safe := apply Forall_forall; intros c I; repeat (destruct I as [<-|I]; [first [left; vm_compute; discriminate | right; vm_compute; tauto]|]); destruct I.
Example C90_example tokener :
  (json_safe ruby_example /\ exists t, sr_stacktrace_parse tokener 6 ruby_example = Ok (SRuby t) /\ all_fit (SRuby t) /\ length (rs_frames t) = 2%nat) /\
  (json_safe python_example /\ exists t, sr_stacktrace_parse tokener 2 python_example = Ok (SPython t) /\ all_fit (SPython t) /\ length (ps_frames t) = 1%nat) /\
  (json_safe js_example /\ exists t, sr_stacktrace_parse tokener 7 js_example = Ok (SJs t) /\ all_fit (SJs t) /\ length (js_frames t) = 1%nat) /\
  (json_safe java_example /\ exists t, sr_stacktrace_parse tokener 4 java_example = Ok (SJava t) /\ all_fit (SJava t) /\ length (java_frames t) = 2%nat) /\
  (json_safe oops_example /\ exists t, sr_stacktrace_parse tokener 3 oops_example = Ok (SKoops t) /\ koops_modules_fit t /\ ks_modules t = Some [L "a"; L "b"] /\
     Forall (fun f => kf_function_name f <> None) (ks_frames t) /\ length (ks_frames t) = 1%nat /\ ~ all_fit (SKoops t)).
Proof.
  assert (F : forall z, (z <? 2 ^ 31) = true -> fits32 z) by (intros z H; apply Z.ltb_lt; exact H).
  repeat split; try bytes_safe; eexists; (split; [vm_compute; reflexivity|]);
    repeat split; cbn; try reflexivity; try lia;
    repeat constructor; try (apply F; reflexivity); try discriminate.
  intros H. apply Forall_inv in H. destruct H as (H & _). discriminate H.
Qed.

(** "(Unknown Source:12)", as Android prints it, gives a line without a file: the line is lost. *)
Theorem C90_java_line_refuted tokener : exists text t, json_safe text /\ sr_stacktrace_parse tokener 4 text = Ok (SJava t) /\
  Forall (fun f => fits32 (vf_file_line f)) (java_frames t) /\ ~ received (SJava t) (SJava t).
Proof.
  pose (text := L "E: m" ++ nl :: tab :: L "at a.b(Unknown Source:12)" ++ [nl]).
  assert (S : json_safe text) by bytes_safe.
  eexists text, _. split; [exact S|]. split; [vm_compute; reflexivity|]. split; [repeat constructor|].
  intros H. apply (C90_nothing_lost tokener 4 text) in H; [|cbn; tauto|vm_compute; reflexivity|exact S].
  cbn in H. apply Forall_inv_tail, Forall_inv in H. destruct H as (_ & H). discriminate (H eq_refl).
Qed.
(** The reader breaks on what the writer makes of an oops with more modules; such oopses are read. *)
Theorem C90_many_modules tokener text t ms : sr_stacktrace_parse tokener 3 text = Ok (SKoops t) -> json_safe text ->
  ks_modules t = Some ms -> (127 < length ms)%nat ->
  valid_json (koops_stacktrace_to_json t) /\ forall v, json_text v (koops_stacktrace_to_json t) -> koops_stacktrace_from_json v = UB.
Proof.
  intros H S M N. apply read_all_ok in H. destruct H as (x & rest & H & E). injection E as <-. destruct (koops_parts _ _ _ H S) as (A & B).
  split; [now apply koops_valid_iff|]. exact (koops_many_modules t ms A B M N).
Qed.
Theorem C90_oops_sendable_refuted tokener : exists text t, json_safe text /\ sr_stacktrace_parse tokener 3 text = Ok (SKoops t) /\
  valid_json (koops_stacktrace_to_json t) /\ forall v, json_text v (koops_stacktrace_to_json t) -> koops_stacktrace_from_json v = UB.
Proof.
  pose (text := L "Modules linked in:" ++ concat (repeat (L " m") 128) ++ [nl]).
  assert (S : json_safe text). { apply safe_app. split; [now apply safe_literal|]. apply safe_app. split; [now apply safe_literal|]. constructor; [right; left; reflexivity|constructor]. }
  eexists text, _. split; [exact S|]. split; [vm_compute; reflexivity|].
  eapply (C90_many_modules tokener text); [vm_compute; reflexivity|exact S|reflexivity|vm_compute; lia].
Qed.
(** A byte that JSON cannot carry is taken from the text into the trace, and what is written is no JSON. *)
Theorem C90_control_refuted tokener : exists text t, sr_stacktrace_parse tokener 6 text = Ok (SRuby t) /\ ~ valid_json (ruby_stacktrace_to_json t).
Proof.
  exists (L "a" ++ [ascii_of_nat 27] ++ L ":5:in `f': m (E)" ++ [nl]). eexists. split; [vm_compute; reflexivity|].
  intros H. apply ruby_valid_iff in H. destruct H as (_ & H). apply Forall_inv in H. destruct H as (_ & H & _). cbn in H.
  apply Forall_inv_tail, Forall_inv in H. destruct H as [H|[H|[H|[H|[H|H]]]]]; [vm_compute in H; now apply H| | | | |]; discriminate H.
Qed.
(** The platform and the reason are never kept. *)
Theorem C90_platform_refuted tokener text s : sr_stacktrace_parse tokener 7 text = Ok s -> json_safe text -> ~ received s s.
Proof.
  intros H S R. assert (D : sendable s) by (apply (parsed_sendable tokener 7 text); [cbn; tauto|exact H|exact S]).
  apply received_iff in R; [|exact D]. apply read_all_ok in H. destruct H as (x & rest & H & ->). apply (f_equal (fun s => match s with SJs t => js_platform t | _ => 0 end)) in R. cbn in R.
  pose proof (JsParseProofs.js_end _ _ _ H) as ->. apply JsParseProofs.js_iff in H. destruct H as (class & message & r & fs & _ & _ & _ & _ & _ & ->). discriminate R.
Qed.
Theorem C90_reason_refuted tokener text s : sr_stacktrace_parse tokener 3 text = Ok s -> sendable s -> ~ received s s.
Proof.
  intros H D R. apply received_iff in R; [|exact D]. apply read_all_ok in H. destruct H as (x & rest & H & ->).
  apply P_Koops.C46_parse_exact in H. destruct H as (_ & _ & _ & _ & reason & E & _). apply (f_equal (fun s => match s with SKoops t => ks_reason t | _ => None end)) in R. cbn in R. congruence.
Qed.
Print Assumptions C90_sendable.
Print Assumptions C90_oops_sendable.
Print Assumptions C90_comes_back.
Print Assumptions C90_nothing_lost.
Print Assumptions C90_oops_duphash.
Print Assumptions C90_java_line_refuted.
Print Assumptions C90_many_modules.
Print Assumptions C90_oops_sendable_refuted.
Print Assumptions C90_control_refuted.
Print Assumptions C90_platform_refuted.
Print Assumptions C90_reason_refuted.
