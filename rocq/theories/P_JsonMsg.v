(** * C84: the error messages of the JSON readers *)
From Verif Require Import Base Types JsonSpec JsonModel JsonTypesModel SystemModel TextModel ReportModel ReportSpec JsonMsgModel JsonMsgSpec JsonMsgProofs4 JsonMsgProofs5.
Open Scope nat_scope.

(** ** Stack traces *)
(** A stack trace is made from the JSON that is as the table of its type wants it, and nothing is said; of other JSON one
    thing is said, the first the table has, and it is true. *)
Theorem C84_trace type w root : table type = Some w -> (type = REPORT_KERNELOOPS -> modules_survive root) ->
  (fits w root /\ exists s, stacktrace_of type root = Gives s [] /\ sr_stacktrace_from_json type root = Ok (Some s)) \/
  (~ fits w root /\ exists m, stacktrace_of type root = Refuses [m] /\ sr_stacktrace_from_json type root = Ok None /\ complaint (L "stacktrace") w root = Some m /\ says root m).
Proof. exact (trace_outcome type w root). Qed.
(** Without its messages it is the reader of the round trips. *)
Theorem C84_trace_same type w root : table type = Some w ->
  match stacktrace_of type root with Gives s _ => Ok (Some s) | Refuses _ => Ok None | Breaks => UB end = sr_stacktrace_from_json type root.
Proof. exact (trace_same type w root). Qed.

(** ** Reports *)
Theorem C84_report_same pn pv root : match report_of pn pv root with Gives r _ => Ok r | Refuses _ => Fail | Breaks => UB end = sr_report_from_json pn pv root.
Proof. exact (report_same pn pv root). Qed.
(** The parts are looked at in order, up to the first the report is refused for. *)
Theorem C84_report pn pv root : report_survives root ->
  let '(ms, refused) := in_order (stages root) in
  if refused then report_of pn pv root = Refuses ms /\ sr_report_from_json pn pv root = Fail
  else exists r, report_of pn pv root = Gives r ms /\ sr_report_from_json pn pv root = Ok r.
Proof. exact (report_outcome pn pv root). Qed.
Theorem C84_report_accepted pn pv root : report_survives root -> ((exists r ms, report_of pn pv root = Gives r ms) <-> report_accepted root).
Proof. exact (report_accepts pn pv root). Qed.
Theorem C84_report_silent pn pv root : report_survives root -> ((exists r, report_of pn pv root = Gives r []) <-> report_sound root).
Proof. exact (report_silent pn pv root). Qed.
(** All that is said is true. *)
Theorem C84_report_true pn pv root ms : (report_of pn pv root = Refuses ms \/ exists r, report_of pn pv root = Gives r ms) -> forall m, In m ms -> says root m.
Proof. exact (report_told_true pn pv root ms). Qed.
(** What the caller has: the last message, and when there is no report there is one. *)
Theorem C84_text tokener description pn pv text r m : result (of_text tokener description (report_of pn pv) text) = Ok (r, m) ->
  (tokener text = None /\ r = None /\ m = Some (description text)) \/
  exists root, tokener text = Some root /\ m = last_of (fst (in_order (stages root))) /\
    (r = None -> m <> None) /\ (forall x, m = Some x -> says root x) /\
    (forall r', r = Some r' -> sr_report_from_json pn pv root = Ok r') /\ (r = None -> sr_report_from_json pn pv root = Fail).
Proof. exact (text_outcome tokener description pn pv text r m). Qed.

(** ** Fitting and complaints, for any table *)
Theorem C84_complaint name w j : complaint name w j = None <-> fits w j.
Proof. exact (fits_iff w name j). Qed.

(** ** Where the code is off *)
(** A message does not tell that there is no report. *)
Theorem C84_message_means_null_refuted pn pv : ~ forall root r ms, report_of pn pv root = Gives r ms -> ms = [].
Proof. intros H. specialize (H (JObj [(L "os", JObj [(L "desktop", JInt 1%Z)])]) _ _ eq_refl). discriminate H. Qed.
(** Not every message reaches the caller: the first of two is lost, and what it was stored in with it. *)
Theorem C84_one_message_refuted pn pv : ~ forall root ms, (report_of pn pv root = Refuses ms \/ exists r, report_of pn pv root = Gives r ms) -> length ms <= 1.
Proof.
  intros H. specialize (H (JObj [(L "auth", JObj [(L "a", JNull); (L "b", JNull)])]) _ (or_intror (ex_intro _ _ eq_refl))). vm_compute in H. lia.
Qed.
(** The reason of a refusal is not what the caller finds, when an optional member of the operating system is wrong, too. *)
Theorem C84_reason_refuted pn pv : ~ forall root os ms, report_of pn pv root = Refuses ms -> member root (L "os") = Some os -> member os (L "name") = Some JNull ->
  last_of ms = Some (expected (L "name") (L "string")).
Proof.
  intros H. specialize (H (JObj [(L "os", JObj [(L "name", JNull); (L "desktop", JNull)])]) _ _ eq_refl eq_refl eq_refl). discriminate H.
Qed.

(** ** Cases *)
Definition good_frame : json := JObj [(L "address", JInt 16%Z); (L "function_name", JStr (L "f"))].
Definition trace_json (frame : json) : json := JObj [(L "type", JStr (L "core")); (L "stacktrace", JArr [JObj [(L "crash_thread", JBool true); (L "frames", JArr [good_frame; frame])]])].
Example ex_fits : fits core_table (trace_json good_frame) /\ exists s, stacktrace_of REPORT_CORE (trace_json good_frame) = Gives s [].
Proof.
  split; [apply (C84_complaint []); reflexivity|eexists; reflexivity].
Qed.
(** One frame is not an object; of the next one the address is a string. *)
Example ex_frame : stacktrace_of REPORT_CORE (trace_json (JInt 3%Z)) = Refuses [L "Invalid type of `frame`; `object` expected"].
Proof. reflexivity. Qed.
Example ex_address : stacktrace_of REPORT_CORE (trace_json (JObj [(L "address", JStr (L "0x10")); (L "build_id", JInt 1%Z)])) = Refuses [L "Invalid type of `address`; `int` expected"].
Proof. reflexivity. Qed.
Example ex_platform : stacktrace_of REPORT_JAVASCRIPT (JObj [(L "platform", JObj [(L "engine", JStr (L "V9"))])]) = Refuses [L "Unknown JavaScript engine 'V9'"].
Proof. reflexivity. Qed.
Example ex_no_runtime : stacktrace_of REPORT_JAVASCRIPT (JObj [(L "platform", JObj [(L "engine", JStr (L "V8"))])]) = Refuses [L "No 'runtime' member"].
Proof. reflexivity. Qed.
Example ex_special : stacktrace_of REPORT_PYTHON (JObj [(L "stacktrace", JArr [JObj [(L "special_file", JInt 1%Z)]])]) = Refuses [L "Invalid type of `special_file`; `string` expected"].
Proof. reflexivity. Qed.
Example ex_java : stacktrace_of REPORT_JAVA (JObj [(L "threads", JObj [])]) = Refuses [L "Invalid type of `threads`; `array` expected"].
Proof. reflexivity. Qed.
Example ex_koops : modules_survive (JObj [(L "modules", JArr [JStr (L "ext4")]); (L "frames", JArr [JObj [(L "reliable", JInt 1%Z)]])]) /\
  stacktrace_of REPORT_KERNELOOPS (JObj [(L "modules", JArr [JStr (L "ext4")]); (L "frames", JArr [JObj [(L "reliable", JInt 1%Z)]])]) = Refuses [L "Invalid type of `reliable`; `boolean` expected"].
Proof.
  split; [|reflexivity]. intros o l E M. injection E as <-. injection M as <-. split; [cbn; lia|]. intros x [<-|[]]. eexists. reflexivity.
Qed.
(** A report with a good trace; one with a trace that is not read; one that is refused for a package. *)
Definition report_json (frame : json) (more : list (str * json)) : json := JObj ((L "problem", trace_json frame) :: more).
Lemma ex_survives frame more : (forall k, jget k more = None) -> report_survives (report_json frame more).
Proof.
  intros N p P T. exfalso. revert T. unfold type_of_report. rewrite P. cbn [member report_json jget] in P. rewrite N in P. change (str_eqb (L "problem") (L "problem")) with true in P. injection P as <-. discriminate.
Qed.
Example ex_sound : report_survives (report_json good_frame []) /\ report_sound (report_json good_frame []).
Proof.
  assert (S1 : report_survives (report_json good_frame [])) by (apply ex_survives; reflexivity). split; [exact S1|].
  apply (C84_report_silent (L "satyr") (L "0") _ S1). eexists. reflexivity.
Qed.
Example ex_told : report_accepted (report_json (JInt 3%Z) []) /\ ~ report_sound (report_json (JInt 3%Z) []) /\
  exists r, report_of (L "satyr") (L "0") (report_json (JInt 3%Z) []) = Gives r [L "Invalid type of `frame`; `object` expected"] /\ rep_stacktrace r = None.
Proof.
  assert (S1 : report_survives (report_json (JInt 3%Z) [])) by (apply ex_survives; reflexivity). split; [|split].
  - apply (C84_report_accepted (L "satyr") (L "0") _ S1). eexists _, _. reflexivity.
  - intros H. apply (C84_report_silent (L "satyr") (L "0") _ S1) in H. destruct H as (r & E). discriminate E.
  - eexists. split; reflexivity.
Qed.
Example ex_refused : report_of (L "satyr") (L "0") (JObj [(L "packages", JArr [JObj [(L "package_role", JStr (L "broken"))]])]) = Refuses [L "Invalid package role broken"] /\
  says (JObj [(L "packages", JArr [JObj [(L "package_role", JStr (L "broken"))]])]) (L "Invalid package role broken").
Proof.
  split; [reflexivity|]. eapply (C84_report_true (L "satyr") (L "0")); [left; reflexivity|left; reflexivity].
Qed.
Example ex_several : report_of (L "satyr") (L "0") (JObj [(L "os", JObj [(L "name", JInt 1%Z); (L "desktop", JInt 2%Z)]); (L "auth", JNull)]) =
  Refuses [L "Invalid type of `name`; `string` expected"; L "Invalid type of `desktop`; `string` expected"].
Proof. reflexivity. Qed.
Example ex_user : exists r, report_of (L "satyr") (L "0") (JObj [(L "user", JInt 1%Z)]) = Gives r [].
Proof. eexists. reflexivity. Qed.
Example ex_user2 : report_of (L "satyr") (L "0") (JObj [(L "user", JInt 1%Z); (L "problem", JObj [])]) = Refuses [L "Invalid type of `user`; `object` expected"].
Proof. reflexivity. Qed.
Print Assumptions C84_trace.
Print Assumptions C84_trace_same.
Print Assumptions C84_report_same.
Print Assumptions C84_report.
Print Assumptions C84_report_accepted.
Print Assumptions C84_report_silent.
Print Assumptions C84_report_true.
Print Assumptions C84_text.
Print Assumptions C84_complaint.
Print Assumptions C84_message_means_null_refuted.
Print Assumptions C84_one_message_refuted.
Print Assumptions C84_reason_refuted.
