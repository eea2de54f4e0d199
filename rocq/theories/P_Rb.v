(** * C83: the Ruby binding *)
From Verif Require Import Base Types JsonSpec JsonModel JsonTypesModel ReportModel CrashModel SystemModel TextModel AbrtModel RbModel RbSpec RbProofs4.
Open Scope nat_scope.

Section C83.
Variable tokener : str -> option json.
Variable message : str -> str.
Variable sha1 : str -> str.
Variables package_name package_version : str.
Notation reading := (report_from_text tokener message package_name package_version).
Notation run := (run tokener message sha1 package_name package_version).
Notation values := (values tokener message sha1 package_name package_version).
Notation read_with_message := (read_with_message tokener message package_name package_version).
Notation dangles := (dangles tokener message sha1 package_name package_version).

(** Objects behave as values, whatever is collected and when, unless the history asks for a dangling crash thread. *)
Theorem C83_values h vs xs : values [] h = Ok (vs, xs) -> ~ dangles h -> exists st, run start h = Ok (st, xs).
Proof. exact (as_values tokener message sha1 package_name package_version h vs xs). Qed.
(** Behaviour is undefined in exactly two cases: a library function is itself undefined on such values, or the crash thread
    of a core stack trace that names it is asked for after the report it came from was collected. *)
Theorem C83_undefined h : run start h = UB <-> values [] h = UB \/ dangles h.
Proof. exact (undefined tokener message sha1 package_name package_version h). Qed.
(** An object keeps its value until it is collected. *)
Theorem C83_kept h vs vs' xs o v : values vs h = Ok (vs', xs) -> ~ In (Collect o) h -> nth_error vs o = Some v -> nth_error vs' o = Some v.
Proof. exact (values_keep tokener message sha1 package_name package_version h vs vs' xs o v). Qed.
(** Nothing leaks and nothing is owned twice: when no text is read with a message, the blocks in use are those the objects
    not yet collected own. *)
Theorem C83_no_leak h st xs : run start h = Ok (st, xs) -> (forall json, In (New json) h -> ~ read_with_message json) ->
  NoDup (flat_map (owned (memory st)) (objects st)) /\ forall a, in_use (memory st) a <-> exists o x, nth_error (objects st) o = Some x /\ In a (owned (memory st) x).
Proof. exact (no_leak tokener message sha1 package_name package_version h st xs). Qed.
(** The hash of the crash thread of a report: whatever else is done, or collected, in between. *)
Theorem C83_pipeline h0 h1 h2 h3 text opts st xs o1 o2 o3 :
  run start (h0 ++ New text :: h1 ++ GetStacktrace o1 :: h2 ++ FindCrashThread o2 :: h3 ++ [Duphash o3 opts]) = Ok (st, xs) ->
  nth_error xs (length h0) = Some (Object o1) -> nth_error xs (length h0 + S (length h1)) = Some (Object o2) ->
  nth_error xs (length h0 + S (length h1 + S (length h2))) = Some (Object o3) ->
  ~ In (Collect o1) h1 -> ~ In (Collect o2) h2 -> ~ In (Collect o3) h3 ->
  exists r s t h ys, reading text = Ok (Some r, None) /\ rep_stacktrace r = Some s /\ sr_stacktrace_find_crash_thread s = Some t /\
    sr_thread_get_duphash sha1 t (chosen (opt_frames opts) 0%Z) (Some (chosen (opt_prefix opts) [])) (chosen (opt_flags opts) 1%N) = Ok h /\
    xs = ys ++ [match h with Some h => Text h | None => Raised (L "Failed to compute duphash") end].
Proof. exact (pipeline tokener message sha1 package_name package_version h0 h1 h2 h3 text opts st xs o1 o2 o3). Qed.
(** Four exceptions are raised, and no other: never "Failed to create stacktrace" nor "Failed to obtain stacktrace". *)
Theorem C83_exceptions h st xs x : run start h = Ok (st, xs) -> In (Raised x) xs ->
  (exists json m, In (New json) h /\ (exists r, reading json = Ok (r, Some m)) /\ x = L "Failed to parse JSON: " ++ m) \/
  x = L "Invalid report type" \/ x = L "Could not find crash thread" \/ x = L "Failed to compute duphash".
Proof. exact (raised tokener message sha1 package_name package_version h st xs x). Qed.
End C83.

(** The members of a report Ruby names are where the C compiler puts them, whatever the sizes and alignments. *)
Theorem C83_layout size align i name t : nth_error ruby_layout i = Some (name, t) ->
  nth_error c_layout i = Some (name, t) /\ nth_error (offsets size align 0 (map snd ruby_layout)) i = nth_error (offsets size align 0 (map snd c_layout)) i.
Proof. exact (layout_agrees size align i name t). Qed.

(** ** Cases *)
(** Three texts: a core dump that names its crash thread; one with an entry that is not a string; a Ruby exception. *)
Definition core_problem : json :=
  JObj [(L "type", JStr (L "core")); (L "stacktrace", JArr [JObj [(L "crash_thread", JBool true); (L "frames", JArr [JObj [(L "address", JInt 16%Z); (L "function_name", JStr (L "f"))]])]])].
Definition toy (text : str) : option json :=
  if str_eqb text (L "core") then Some (JObj [(L "problem", core_problem)])
  else if str_eqb text (L "auth") then Some (JObj [(L "problem", core_problem); (L "auth", JObj [(L "machine", JInt 1%Z)])])
  else if str_eqb text (L "ruby") then Some (JObj [(L "problem", JObj [(L "type", JStr (L "ruby")); (L "exception_name", JStr (L "E")); (L "stacktrace", JArr [])])])
  else None.
Definition told (text : str) : str := L "no".
Definition hash (s : str) : str := L "#" ++ s.
Definition toy_run := run toy told hash (L "satyr") (L "0.1").
Definition toy_values := values toy told hash (L "satyr") (L "0.1").
Definition no_options : options := mk_options None None None.
Definition whole : list op := [New (L "core"); GetStacktrace 0; FindCrashThread 1; Duphash 2 no_options; Collect 0; Collect 1; Duphash 2 no_options; Collect 2].
Definition answers {A B} (x : res (A * B)) : option B := match x with Ok (_, b) => Some b | _ => None end.

(** A history with all the methods, the values of which are as in the C code; everything is released at its end. *)
Example C83_ex_answers : exists x, answers (toy_run start whole) = Some [Object 0; Object 1; Object 2; Text x; Done; Done; Text x; Done] /\ answers (toy_values [] whole) = answers (toy_run start whole).
Proof. eexists. vm_compute. split; reflexivity. Qed.
Example C83_ex_released : match toy_run start whole with Ok (st, _) => forallb (fun b => match b with Gone => true | _ => false end) (memory st) = true /\ length (memory st) = 4 | _ => False end.
Proof. vm_compute. split; reflexivity. Qed.
Example C83_ex_errors : answers (toy_run start [New (L "bad"); New (L "ruby"); GetStacktrace 0]) = Some [Raised (L "Failed to parse JSON: no"); Object 0; Raised (L "Invalid report type")].
Proof. vm_compute. reflexivity. Qed.

(** Used after it is freed: the crash thread of a copied stack trace is in the report it was copied from. *)
Theorem C83_dangling_refuted : toy_run start [New (L "core"); GetStacktrace 0; Collect 0; FindCrashThread 1] = UB /\
  answers (toy_values [] [New (L "core"); GetStacktrace 0; Collect 0; FindCrashThread 1]) = Some [Object 0; Object 1; Done; Object 2].
Proof. vm_compute. split; reflexivity. Qed.
(** A report is lost when a message comes with it: an exception is raised, no object is made and memory stays in use. *)
Theorem C83_leak_refuted : exists st, toy_run start [New (L "auth")] = Ok (st, [Raised (L "Failed to parse JSON: Invalid type of `machine`; `string` expected")]) /\ objects st = [] /\ in_use (memory st) 0 /\ in_use (memory st) 1.
Proof.
  eexists. split; [vm_compute; reflexivity|]. cbn [memory objects]. split; [reflexivity|]. split; eexists; (split; [reflexivity|discriminate]).
Qed.
(** The stack trace of a Ruby exception cannot be had from Ruby. *)
Theorem C83_ruby_type_refuted : answers (toy_run start [New (L "ruby"); GetStacktrace 0]) = Some [Object 0; Raised (L "Invalid report type")].
Proof. vm_compute. reflexivity. Qed.

Print Assumptions C83_values.
Print Assumptions C83_undefined.
Print Assumptions C83_kept.
Print Assumptions C83_no_leak.
Print Assumptions C83_pipeline.
Print Assumptions C83_exceptions.
Print Assumptions C83_layout.
Print Assumptions C83_dangling_refuted.
Print Assumptions C83_leak_refuted.
Print Assumptions C83_ruby_type_refuted.
