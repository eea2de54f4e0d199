(** * C74: reports in Python. *)
From Verif Require Import Base UtilsModel SystemModel HeapModel HeapSpec HeapProofs2 HeapListModel HeapListSpec PyModel PySpec PyAttrModel PyAttrSpec PyReportModel PyReportSpec
  PyReportProofs PyReportProofs2 PyReportProofs3 PyReportProofs4.
Open Scope nat_scope.

(** Before a report is printed it is given the parts its attributes show: the packages of the list in order, the operating
    system, the stack trace if Python knows stack traces of this type; None stands for none.  Nothing else in memory changes. *)
Theorem C74_linked : forall none os h r c l items ro rs scal component oss pks sk sts auth cells type,
  alive os r (PyStruct KReport c [Some l; Some ro; Some rs]) -> py_list os l KRpm items pks -> part os none ro KOs oss ->
  number_of KReport scal (L "report_type") type -> trace_part os none rs type sk sts ->
  unlinked_report h c scal component oss pks sk sts auth cells -> NoDup cells ->
  exists h', report_prepare none (St os h) r = Ok (St os h', true) /\ report_with h' c scal component oss pks sk sts auth cells /\
    same_outside (c :: map e_addr pks) h h' /\ length h' = length h.
Proof. exact report_prepare_ok. Qed.
(** to_json returns the text printed for that report, decoded; a text that is not UTF-8 raises an exception. *)
Theorem C74_to_json : forall none (print : heap -> addr -> res str) os h r c l items ro rs scal component oss pks sk sts auth cells type,
  alive os r (PyStruct KReport c [Some l; Some ro; Some rs]) -> py_list os l KRpm items pks -> part os none ro KOs oss ->
  number_of KReport scal (L "report_type") type -> trace_part os none rs type sk sts ->
  unlinked_report h c scal component oss pks sk sts auth cells -> NoDup cells ->
  exists h', report_with h' c scal component oss pks sk sts auth cells /\ same_outside (c :: map e_addr pks) h h' /\ length h' = length h /\
    forall text, print h' c = Ok text -> exists x, py_to_json none print (St os h) r = Ok (St os h', x) /\ forall t, x = Some t <-> utf8 t text.
Proof. exact to_json_ok. Qed.
(** An operating system or a stack trace of a wrong type raises an exception; to_json then changes nothing but the links of
    the packages and of the report. *)
Theorem C74_wrong_os : forall none (print : heap -> addr -> res str) os h r c l items ro at_ pks scal pc po pp ps pa raw n,
  alive os r (PyStruct KReport c [Some l; Some ro; at_]) -> py_list os l KRpm items pks -> ro <> none -> wrong os ro KOs ->
  nth_error h c = Some (CObj KReport scal [pc] [po; pp; ps; pa] None raw n) -> Forall (fun e => exists m, own h KRpm m e) pks -> NoDup (c :: foot pks) ->
  (pks = [] -> pp = None) ->
  exists h', py_to_json none print (St os h) r = Ok (St os h', None) /\ same_outside (c :: map e_addr pks) h h' /\ length h' = length h.
Proof. exact to_json_wrong_os. Qed.
Theorem C74_wrong_stack : forall none (print : heap -> addr -> res str) os h r c l items ro rs oss pks scal pc po pp ps pa raw n type k,
  alive os r (PyStruct KReport c [Some l; Some ro; Some rs]) -> py_list os l KRpm items pks -> part os none ro KOs oss ->
  number_of KReport scal (L "report_type") type -> traced type k -> rs <> none -> wrong os rs k ->
  nth_error h c = Some (CObj KReport scal [pc] [po; pp; ps; pa] None raw n) -> Forall (fun e => exists m, own h KRpm m e) pks -> NoDup (c :: foot pks) ->
  (pks = [] -> pp = None) ->
  exists h', py_to_json none print (St os h) r = Ok (St os h', None) /\ same_outside (c :: map e_addr pks) h h' /\ length h' = length h.
Proof. exact to_json_wrong_stack. Qed.
(** A report in memory becomes a new object with a new list of new package objects, a new operating system object and a new
    stack trace object with its frames or threads; None where the report has none, or where Python does not know the type.
    Memory does not change; None gains the references it needs, and no other object changes. *)
Theorem C74_wrapped : forall none os h c scal component oss pks sk sts auth cells type nn,
  object os none (S nn) PyOther -> report_with h c scal component oss pks sk sts auth cells -> NoDup cells ->
  number_of KReport scal (L "report_type") type -> traced type sk \/ untraced type ->
  exists os' r l items ro rs, report_to_python none (St os h) c = Ok (St os' h, r) /\ length os <= r /\
    grown_but none (count_occ Nat.eq_dec [ro; rs] none) os os' /\
    object os' r 1 (PyStruct KReport c [Some l; Some ro; Some rs]) /\ new_list (length os) os' l KRpm items pks /\ os_part (length os) os' none ro oss /\
    (traced type sk -> stack_part (length os) os' h none rs sk sts) /\ (untraced type -> rs = none).
Proof. exact report_wrapped. Qed.
(** Printing an unchanged report object prints the same report; a report of another type has lost its stack trace. *)
Theorem C74_there_and_back : forall none os h c scal component oss pks sk sts auth cells type nn,
  object os none (S nn) PyOther -> report_with h c scal component oss pks sk sts auth cells -> NoDup cells ->
  number_of KReport scal (L "report_type") type -> traced type sk ->
  exists os' r h', report_to_python none (St os h) c = Ok (St os' h, r) /\ report_prepare none (St os' h) r = Ok (St os' h', true) /\
    report_with h' c scal component oss pks sk sts auth cells.
Proof. exact there_and_back. Qed.
Theorem C74_trace_lost : forall none os h c scal component oss pks sk sts auth cells type nn,
  object os none (S nn) PyOther -> report_with h c scal component oss pks sk sts auth cells -> NoDup cells ->
  number_of KReport scal (L "report_type") type -> untraced type ->
  exists os' r h' cells', report_to_python none (St os h) c = Ok (St os' h, r) /\ report_prepare none (St os' h) r = Ok (St os' h', true) /\
    report_with h' c scal component oss pks sk [] auth cells'.
Proof. exact trace_lost. Qed.
(** Report() *)
Theorem C74_made : forall none os h nn, object os none (S nn) PyOther ->
  exists os' h' r c l ro e, py_report_new none (St os h) = Ok (St os' h', r) /\ length os <= r /\ grown_but none 1 os os' /\ (exists cells, h' = h ++ cells) /\
    object os' r 1 (PyStruct KReport c [Some l; Some ro; Some none]) /\ object os' l 1 (PyList []) /\ object os' ro 1 (PyStruct KOs (e_addr e) []) /\
    e_val e = Val [0%Z] [None; None; None; None; None; None] None [] /\
    report_with h' c [2; 0; 0; 1; 0]%Z None [e] [] KCoreStack [] [] [c; e_addr e] /\ NoDup [c; e_addr e].
Proof. exact report_made. Qed.
(** A report object whose attributes are used elsewhere (None always is) goes away: each attribute loses as many references
    as the report had to it, and exactly the cells of the report, of its component's name and of its custom entries are freed. *)
Theorem C74_gone : forall os h r c rs scal component oss pks sk sts auth cells, length rs = 3 ->
  object os r 1 (PyStruct KReport c (map Some rs)) -> ~ In r rs ->
  (forall x, In x rs -> exists n b, object os x n b /\ count_occ Nat.eq_dec rs x < n) ->
  unlinked_report h c scal component oss pks sk sts auth cells -> Forall no_array auth -> NoDup cells ->
  exists os' h', decref (St os h) r = Ok (St os' h') /\ length os' = length os /\ nth_error os' r = Some None /\
    (forall x n b, x <> r -> object os x n b -> count_occ Nat.eq_dec rs x < n -> object os' x (n - count_occ Nat.eq_dec rs x) b) /\
    (forall x, x <> r -> ~ In x rs -> nth_error os' x = nth_error os x) /\
    exists f, freed_all f h h' /\ (forall x, In x f <-> In x cells /\ ~ In x (foot oss ++ foot pks ++ foot sts)).
Proof. exact report_gone. Qed.
(** auth is the dictionary of the custom entries, where the last entry of the list with a key counts; a text that is not
    UTF-8 raises an exception. *)
Theorem C74_auth : forall h c scal component oss pks sk sts auth cells pairs, report_with h c scal component oss pks sk sts auth cells -> NoDup cells ->
  Forall2 decoded auth pairs -> exists d, py_get_auth h c = Ok (Some d) /\ dict_of pairs d.
Proof. exact auth_ok. Qed.
Theorem C74_auth_exception : forall h c scal component oss pks sk sts auth cells, report_with h c scal component oss pks sk sts auth cells -> NoDup cells ->
  Forall (fun e => exists k v, entry_texts e k v) auth -> Exists (fun e => forall q, ~ decoded e q) auth -> py_get_auth h c = Ok None.
Proof. exact auth_bad. Qed.
(** str() *)
Theorem C74_str : forall h c scal component oss pks sk sts auth cells i, report_with h c scal component oss pks sk sts auth cells ->
  number_of KReport scal (L "report_type") (Z.of_nat i) -> forall w, nth_error type_words i = Some w ->
  exists x, py_report_str h c = Ok x /\
    forall t, x = Some t <-> utf8 t (L "Report, type: " ++ L w ++ match component with None => [] | Some s => L ", component: " ++ s end).
Proof. exact str_ok. Qed.

(** A JavaScript report loses its stack trace, which is not even freed with the report. *)
Theorem C74_javascript_refuted : exists h c e cells, report_with h c [2; 7; 0; 1; 0]%Z (Some (L "bash")) [rep_os] [rep_rpm] KJsStack [e] [rep_auth] cells /\ NoDup cells /\
  (exists st r st', report_to_python 0 (St only_none h) c = Ok (st, r) /\ report_prepare 0 st r = Ok (st', true) /\
     report_with (mem st') c [2; 7; 0; 1; 0]%Z (Some (L "bash")) [rep_os] [rep_rpm] KJsStack [] [rep_auth] [0; 1; 2; 3; 4; 5; 9; 10; 11]) /\
  (exists st r st', report_to_python 0 (St only_none h) c = Ok (st, r) /\ decref st r = Ok st' /\
     forall x, In x [0; 1; 2; 3; 9; 10; 11] -> freed (mem st') x) /\
  (exists st r st', report_to_python 0 (St only_none h) c = Ok (st, r) /\ decref st r = Ok st' /\ own (mem st') KJsStack None e).
Proof. exact js_lost. Qed.
(** A frame added to the list of the stack trace object is not in the report that is printed. *)
Theorem C74_frames_refuted : exists os h r l st', object os r 1 (PyStruct KPythonStack 6 [Some l]) /\ object os l 1 (PyList [7; 8]) /\
  (exists a b, alive os 7 (PyStruct KPythonFrame a []) /\ alive os 8 (PyStruct KPythonFrame b []) /\ a <> b) /\
  (exists q at_, alive os q (PyStruct KReport 0 (at_ ++ [Some r])) /\ report_prepare 0 (St os h) q = Ok (st', true)) /\
  (exists p, thread_frames (mem st') 6 = Ok p /\ list_count (mem st') p = Ok 1).
Proof. exact more_lost. Qed.
(** After an attribute was deleted, printing the report and releasing it read a null pointer. *)
Theorem C74_deleted_refuted : exists os h r at_, alive os r (PyStruct KReport 0 at_) /\ In None at_ /\
  report_prepare 0 (St os h) r = UB /\ decref (St os h) r = UB.
Proof. exact deleted. Qed.
(** Adding an entry under a key that is there already does not change auth. *)
Theorem C74_auth_again_refuted : exists h c h',
  report_with h c [2; 2; 0; 1; 0]%Z (Some (L "bash")) [rep_os] [rep_rpm] KPythonStack [rep_stack py_frame_value] [rep_auth] rep_cells /\
  nth_error h 11 = Some (CStr (L "hostname")) /\ nth_error h 12 = Some (CStr (L "host2")) /\ sr_report_add_auth h c (Some 11) (Some 12) = Ok h' /\
  py_get_auth h c = Ok (Some [(utf "hostname", utf "host1")]) /\ py_get_auth h' c = Ok (Some [(utf "hostname", utf "host1")]).
Proof. exact oldest_wins. Qed.

(** A report about a Python program: wrapped, printed, released. *)
Example C74_python : report_with py_rep 0 [2; 2; 0; 1; 0]%Z (Some (L "bash")) [rep_os] [rep_rpm] KPythonStack [rep_stack py_frame_value] [rep_auth] rep_cells /\
  NoDup rep_cells /\ number_of KReport [2; 2; 0; 1; 0]%Z (L "report_type") 2 /\ traced 2 KPythonStack /\ object only_none 0 3 PyOther /\ Forall no_array [rep_auth].
Proof. split; [exact py_case|]. split; [exact rep_separate|]. split; [apply rep_number|]. split; [cbn; tauto|]. split; [reflexivity|repeat constructor]. Qed.
Example C74_python_wrapped : exists os' r, report_to_python 0 (St only_none py_rep) 0 = Ok (St os' py_rep, r) /\
  object os' r 1 (PyStruct KReport 0 [Some 2; Some 1; Some 6]) /\ object os' 0 3 PyOther /\ object os' 1 1 (PyStruct KOs 2 []) /\
  object os' 2 1 (PyList [3]) /\ object os' 3 2 (PyStruct KRpm 4 []) /\ object os' 6 1 (PyStruct KPythonStack 6 [Some 4]) /\ object os' 4 1 (PyList [5]).
Proof. eexists _, _. split; [vm_compute; reflexivity|]. repeat split; reflexivity. Qed.
Example C74_python_printed : exists os' r h', report_to_python 0 (St only_none py_rep) 0 = Ok (St os' py_rep, r) /\
  py_to_json 0 (fun _ _ => Ok (L "{}")) (St os' py_rep) r = Ok (St os' h', Some [123; 125]%Z) /\
  report_with h' 0 [2; 2; 0; 1; 0]%Z (Some (L "bash")) [rep_os] [rep_rpm] KPythonStack [rep_stack py_frame_value] [rep_auth] rep_cells.
Proof.
  destruct (C74_there_and_back 0 only_none py_rep 0 _ _ _ _ _ _ _ _ 2 2 eq_refl py_case rep_separate (rep_number 2)) as (os' & r & h' & E & E' & R); [cbn; tauto|].
  exists os', r, h'. split; [exact E|]. split; [|exact R]. unfold py_to_json. rewrite E'. cbn [bind].
  assert (W : wrapped (St os' h') r = Ok 0); [|rewrite W; reflexivity].
  vm_compute in E. injection E as <- <-. reflexivity.
Qed.
(* what is left are the package and the frame, whose objects have one reference too many (C69) *)
Example C74_python_released : exists st r os' h', report_to_python 0 (St only_none py_rep) 0 = Ok (st, r) /\ decref st r = Ok (St os' h') /\
  (forall x, In x [0; 1; 2; 3; 6; 7; 9; 10; 11] -> freed h' x) /\ object os' 3 1 (PyStruct KRpm 4 []) /\ object os' 5 1 (PyStruct KPythonFrame 8 []).
Proof.
  eexists _, _, _, _. split; [vm_compute; reflexivity|]. split; [vm_compute; reflexivity|]. split; [|split; reflexivity].
  intros x Hx. cbn [In] in Hx. repeat destruct Hx as [<-|Hx]; try reflexivity. destruct Hx.
Qed.
(* a report object without operating system and stack trace, its list used elsewhere: None twice *)
Definition gone_objs : objects := [Some (3, PyOther); Some (1, PyStruct KReport 0 [Some 2; Some 0; Some 0]); Some (2, PyList [3]); Some (1, PyStruct KRpm 4 [])].
Example C74_gone_case : exists os' h' r, decref (St gone_objs py_rep) r = Ok (St os' h') /\ object os' 0 1 PyOther /\ object os' 2 1 (PyList [3]) /\ freed h' 0 /\ own h' KRpm None rep_rpm.
Proof.
  destruct (C74_gone gone_objs py_rep 1 0 [2; 0; 0] [2; 2; 0; 1; 0]%Z (Some (L "bash")) [rep_os] [rep_rpm] KPythonStack [rep_stack py_frame_value] [rep_auth] rep_cells)
    as (os' & h' & E & _ & _ & K & _ & f & (_ & Sm & Fr) & Hf).
  - reflexivity.
  - reflexivity.
  - cbn. intuition discriminate.
  - intros x [<-|[<-|[<-|[]]]]; [exists 2, (PyList [3])|exists 3, PyOther|exists 3, PyOther]; (split; [reflexivity|cbn; lia]).
  - apply with_unlinked. exact py_case.
  - repeat constructor.
  - exact rep_separate.
  - exists os', h', 1. split; [exact E|]. split; [exact (K 0 3 PyOther ltac:(discriminate) eq_refl ltac:(cbn; lia))|].
    split; [exact (K 2 2 (PyList [3]) ltac:(discriminate) eq_refl ltac:(cbn; lia))|]. split; [apply Fr, Hf; split; [cbn; tauto|cbn; intuition discriminate]|].
    destruct py_case as (pc & po & pp & ps & pa & raw & n & fc & _ & _ & _ & _ & Op & _). inversion Op as [|? m ? ? O1 O2]; subst. inversion O2; subst.
    apply (HeapProofs.own_same py_rep h' KRpm None rep_rpm O1). intros x Hx. apply Sm. rewrite Hf. cbn in Hx. cbn [foot rep_os rep_rpm rep_stack map concat e_foot snd app]. cbn. tauto.
Qed.
Example C74_texts : py_report_str py_rep 0 = Ok (Some (utf "Report, type: python, component: bash")) /\ py_get_auth py_rep 0 = Ok (Some [(utf "hostname", utf "host1")]) /\
  decoded rep_auth (utf "hostname", utf "host1").
Proof.
  split; [vm_compute; reflexivity|]. split; [vm_compute; reflexivity|]. exists (L "hostname"), (L "host1"). split; [exists [], []; reflexivity|].
  split; apply PyAttrProofs.from_utf8_iff; vm_compute; reflexivity.
Qed.
(* a value that is not UTF-8 *)
Example C74_text_case : py_get_auth (HeapModel.put py_rep 10 (CStr [Ascii.ascii_of_nat 255])) 0 = Ok None.
Proof. vm_compute. reflexivity. Qed.
(* the operating system is a package; the stack trace is of another type *)
Example C74_wrong_case : exists h', py_to_json 0 (fun _ _ => Ok []) (St [Some (3, PyOther); Some (1, PyStruct KReport 0 [Some 2; Some 3; Some 0]); Some (1, PyList [3]); Some (2, PyStruct KRpm 4 [])] py_rep) 1
  = Ok (h', None).
Proof. eexists. vm_compute. reflexivity. Qed.
Print Assumptions C74_linked.
Print Assumptions C74_to_json.
Print Assumptions C74_wrong_os.
Print Assumptions C74_wrong_stack.
Print Assumptions C74_wrapped.
Print Assumptions C74_there_and_back.
Print Assumptions C74_trace_lost.
Print Assumptions C74_made.
Print Assumptions C74_gone.
Print Assumptions C74_auth.
Print Assumptions C74_auth_exception.
Print Assumptions C74_str.
Print Assumptions C74_javascript_refuted.
Print Assumptions C74_frames_refuted.
Print Assumptions C74_deleted_refuted.
Print Assumptions C74_auth_again_refuted.
