(** * Samples of reports in Python. *)
From Verif Require Import Base UtilsModel SystemModel HeapModel HeapSpec HeapProofs HeapListModel HeapListSpec PyModel PySpec
  PyProofs PyAttrModel PyAttrSpec PyAttrProofs PyReportModel PyReportSpec PyReportProofs PyReportProofs2 PyReportProofs3.
Open Scope nat_scope.

Ltac strs := repeat (first [apply os_nil|apply os_null|eapply os_str; [reflexivity|]]).
(* a report of a type, with a stack trace of one frame *)
Definition rep (type : Z) (k : kind) (frame : cell) : heap :=
  [ CObj KReport [2; type; 0; 1; 0]%Z [Some 1] [Some 2; Some 4; Some 6; Some 9] None [] None; CStr (L "bash");
    CObj KOs [0]%Z [Some 3; None; None; None; None; None] [] None [] None; CStr (L "fedora");
    CObj KRpm [0; 5; 0]%Z [Some 5; None; None; None] [None] None [] None; CStr (L "bash");
    CObj k [] [Some 7] [Some 8] None [] None; CStr (L "ValueError"); frame;
    CObj KAuth [] [Some 10; Some 11] [] None [] None; CStr (L "host1"); CStr (L "hostname"); CStr (L "host2") ].
Definition py_frame_cell : cell := CObj KPythonFrame [0; 7; 0]%Z [None; None; None] [] None [] None.
Definition js_frame_cell : cell := CObj KJsFrame [7; 1]%Z [None; None] [] None [] None.
Definition rep_os : entry := (2, Val [0]%Z [Some (L "fedora"); None; None; None; None; None] None [], [2; 3]).
Definition rep_rpm : entry := (4, Val [0; 5; 0]%Z [Some (L "bash"); None; None; None] None [[]], [4; 5]).
Definition rep_auth : entry := (9, Val [] [Some (L "host1"); Some (L "hostname")] None [], [9; 10; 11]).
Definition rep_stack (v : value) : entry := (6, Val [] [Some (L "ValueError")] None [[v]], [6; 7; 8]).
Definition py_frame_value : value := Val [0; 7; 0]%Z [None; None; None] None [].
Definition js_frame_value : value := Val [7; 1]%Z [None; None] None [].
Definition rep_cells : list addr := [0; 1; 2; 3; 4; 5; 6; 7; 8; 9; 10; 11].
Lemma rep_case type k fk frame v : kid_ops k = [(fk, true)] -> length (str_ops k) = 1 -> own (rep type k frame) fk None (8, v, [8]) ->
  report_with (rep type k frame) 0 [2; type; 0; 1; 0]%Z (Some (L "bash")) [rep_os] [rep_rpm] k [rep_stack v] [rep_auth] rep_cells.
Proof.
  intros Hk Hs Hf. exists (Some 1), (Some 2), (Some 4), (Some 6), (Some 9), [], None, [1]. split; [reflexivity|]. split; [strs|]. split.
  { apply (ol_cons _ _ None rep_os); [|constructor]. eapply (own_obj _ KOs 2 _ _ _ [3] [] [] [] None None [] []); [reflexivity|reflexivity|strs|constructor|constructor]. }
  split; [cbn; lia|]. split.
  { apply (ol_cons _ _ None rep_rpm); [|constructor]. eapply (own_obj _ KRpm 4 _ _ _ [5] [None] [[]] [] None None [] []); [reflexivity|reflexivity|strs|constructor|].
    apply (ok_cons _ KConsistency true [] None [] [] [] []); [constructor|easy|constructor]. }
  split.
  { apply (ol_cons _ _ None (rep_stack v)); [|constructor]. eapply (own_obj _ k 6 [] [Some 7] _ [7] [Some 8] [[v]] [8] None None [] []); [reflexivity|now rewrite Hs|strs|constructor|].
    rewrite Hk. apply (ok_cons _ fk true [] (Some 8) [] [(8, v, [8])] [] []); [|easy|constructor]. apply (ol_cons _ _ None (8, v, [8])); [exact Hf|constructor]. }
  split; [cbn; lia|]. split; [|reflexivity].
  apply (ol_cons _ _ None rep_auth); [|constructor]. eapply (own_obj _ KAuth 9 _ _ _ [10; 11] [] [] [] None None [] []); [reflexivity|reflexivity|strs|constructor|constructor].
Qed.
Definition py_rep := rep 2 KPythonStack py_frame_cell.
Definition js_rep := rep 7 KJsStack js_frame_cell.
Lemma py_case : report_with py_rep 0 [2; 2; 0; 1; 0]%Z (Some (L "bash")) [rep_os] [rep_rpm] KPythonStack [rep_stack py_frame_value] [rep_auth] rep_cells.
Proof.
  eapply rep_case; [reflexivity|reflexivity|]. change [8] with (8 :: [] ++ [] ++ []).
  eapply (own_obj _ KPythonFrame 8 _ _ _ [] [] [] [] None None [] []); [reflexivity|reflexivity|strs|constructor|constructor].
Qed.
Lemma js_case : report_with js_rep 0 [2; 7; 0; 1; 0]%Z (Some (L "bash")) [rep_os] [rep_rpm] KJsStack [rep_stack js_frame_value] [rep_auth] rep_cells.
Proof.
  eapply rep_case; [reflexivity|reflexivity|]. change [8] with (8 :: [] ++ [] ++ []).
  eapply (own_obj _ KJsFrame 8 _ _ _ [] [] [] [] None None [] []); [reflexivity|reflexivity|strs|constructor|constructor].
Qed.
Lemma rep_separate : NoDup rep_cells.
Proof. unfold rep_cells. repeat constructor; cbn; intuition discriminate. Qed.
Lemma rep_number type : number_of KReport [2; type; 0; 1; 0]%Z (L "report_type") type.
Proof. exists 1. split; reflexivity. Qed.

(** ** A JavaScript report *)
Definition only_none : objects := [Some (3, PyOther)].
Lemma js_untraced : untraced 7.
Proof. intros k K. cbn in K. destruct K as [K|[K|[K|[K|[K|[]]]]]]; discriminate. Qed.
Lemma js_lost : exists h c e cells, report_with h c [2; 7; 0; 1; 0]%Z (Some (L "bash")) [rep_os] [rep_rpm] KJsStack [e] [rep_auth] cells /\ NoDup cells /\
  (exists st r st', report_to_python 0 (St only_none h) c = Ok (st, r) /\ report_prepare 0 st r = Ok (st', true) /\
     report_with (mem st') c [2; 7; 0; 1; 0]%Z (Some (L "bash")) [rep_os] [rep_rpm] KJsStack [] [rep_auth] [0; 1; 2; 3; 4; 5; 9; 10; 11]) /\
  (exists st r st', report_to_python 0 (St only_none h) c = Ok (st, r) /\ decref st r = Ok st' /\
     forall x, In x [0; 1; 2; 3; 9; 10; 11] -> freed (mem st') x) /\
  (exists st r st', report_to_python 0 (St only_none h) c = Ok (st, r) /\ decref st r = Ok st' /\ own (mem st') KJsStack None e).
Proof.
  exists js_rep, 0, (rep_stack js_frame_value), rep_cells. split; [exact js_case|]. split; [exact rep_separate|].
  split; [|split].
  - destruct (report_wrapped 0 only_none js_rep 0 _ _ _ _ _ _ _ _ 7 2 eq_refl js_case rep_separate (rep_number 7) (or_intror js_untraced))
      as (os' & r & l & items & ro & rs & E & _ & _ & Hr & Hl & Ho & _ & Hs).
    exists (St os' js_rep), r.
    pose proof (with_unlinked _ _ _ _ _ _ _ _ _ _ js_case) as (pc & po & pp & ps & pa & raw & n & fc & Hc & Oc & Fo & Lo & Fp & Ep & Fs & Ls & Oa & Ecells).
    destruct (report_prepare_ok 0 os' js_rep r 0 l items ro rs [2; 7; 0; 1; 0]%Z (Some (L "bash")) [rep_os] [rep_rpm] KJsStack [] [rep_auth] [0; 1; 2; 3; 4; 5; 9; 10; 11] 7) as (h' & E' & R' & _).
    + exists 0. exact Hr.
    + eapply PyProofs4.new_py_list; exact Hl.
    + eapply os_part_part; [|exact Ho]. cbn. lia.
    + apply rep_number.
    + right. split; [exact js_untraced|reflexivity].
    + exists pc, po, pp, ps, pa, raw, n, fc. split; [exact Hc|]. split; [exact Oc|]. split; [exact Fo|]. split; [exact Lo|]. split; [exact Fp|]. split; [exact Ep|].
      split; [constructor|]. split; [cbn; lia|]. split; [exact Oa|]. assert (fc = [1]) as ->; [|reflexivity].
      unfold rep_cells in Ecells. cbn in Ecells. injection Ecells as Ecells. apply (app_inv_tail [2; 3; 4; 5; 6; 7; 8; 9; 10; 11]). cbn. exact (eq_sym Ecells).
    + repeat constructor; cbn; intuition discriminate.
    + exists (St os' h'). auto.
  - eexists _, _, _. split; [vm_compute; reflexivity|]. split; [vm_compute; reflexivity|]. intros x Hx. cbn [In] in Hx. repeat destruct Hx as [<-|Hx]; try reflexivity. destruct Hx.
  - eexists _, _, _. split; [vm_compute; reflexivity|]. split; [vm_compute; reflexivity|]. cbn [mem].
    eapply (own_obj _ KJsStack 6 [] [Some 7] _ [7] [Some 8] [[js_frame_value]] [8] None None [] []); [reflexivity|reflexivity|strs|constructor|].
    apply (ok_cons _ KJsFrame true [] (Some 8) [] [(8, js_frame_value, [8])] [] []); [|easy|constructor]. apply (ol_cons _ _ None (8, js_frame_value, [8])); [|constructor].
    change [8] with (8 :: [] ++ [] ++ []). eapply (own_obj _ KJsFrame 8 _ _ _ [] [] [] [] None None [] []); [reflexivity|reflexivity|strs|constructor|constructor].
Qed.
(** ** A second frame in the list of the stack trace object *)
Definition more_heap : heap := py_rep ++ [CObj KPythonFrame [0; 8; 0]%Z [None; None; None] [] None [] None].
Definition more_objs : objects :=
  [Some (3, PyOther); Some (1, PyStruct KReport 0 [Some 2; Some 4; Some 5]); Some (1, PyList [3]); Some (1, PyStruct KRpm 4 []); Some (1, PyStruct KOs 2 []);
   Some (1, PyStruct KPythonStack 6 [Some 6]); Some (1, PyList [7; 8]); Some (1, PyStruct KPythonFrame 8 []); Some (1, PyStruct KPythonFrame 13 [])].
Lemma more_lost : exists os h r l st', object os r 1 (PyStruct KPythonStack 6 [Some l]) /\ object os l 1 (PyList [7; 8]) /\
  (exists a b, alive os 7 (PyStruct KPythonFrame a []) /\ alive os 8 (PyStruct KPythonFrame b []) /\ a <> b) /\
  (exists q at_, alive os q (PyStruct KReport 0 (at_ ++ [Some r])) /\ report_prepare 0 (St os h) q = Ok (st', true)) /\
  (exists p, thread_frames (mem st') 6 = Ok p /\ list_count (mem st') p = Ok 1).
Proof.
  exists more_objs, more_heap, 5, 6. eexists. split; [reflexivity|]. split; [reflexivity|].
  split; [exists 8, 13; split; [exists 0; reflexivity|]; split; [exists 0; reflexivity|discriminate]|].
  split; [exists 1, [Some 2; Some 4]; split; [exists 0; reflexivity|vm_compute; reflexivity]|]. exists (Some 8). split; reflexivity.
Qed.
(** ** An attribute that was deleted *)
Definition deleted_objs : objects := [Some (3, PyOther); Some (1, PyStruct KReport 0 [Some 2; None; Some 0]); Some (1, PyList [3]); Some (1, PyStruct KRpm 4 [])].
Lemma deleted : exists os h r at_, alive os r (PyStruct KReport 0 at_) /\ In None at_ /\ report_prepare 0 (St os h) r = UB /\ decref (St os h) r = UB.
Proof. exists deleted_objs, py_rep, 1, [Some 2; None; Some 0]. split; [exists 0; reflexivity|]. split; [cbn; tauto|]. split; vm_compute; reflexivity. Qed.
(** ** The same key twice *)
Definition utf (s : string) : list Z := map (fun a => Z.of_nat (nat_of_ascii a)) (L s).
Lemma oldest_wins : exists h c h', report_with h c [2; 2; 0; 1; 0]%Z (Some (L "bash")) [rep_os] [rep_rpm] KPythonStack [rep_stack py_frame_value] [rep_auth] rep_cells /\
  nth_error h 11 = Some (CStr (L "hostname")) /\ nth_error h 12 = Some (CStr (L "host2")) /\ sr_report_add_auth h c (Some 11) (Some 12) = Ok h' /\
  py_get_auth h c = Ok (Some [(utf "hostname", utf "host1")]) /\ py_get_auth h' c = Ok (Some [(utf "hostname", utf "host1")]).
Proof. exists py_rep, 0. eexists. split; [exact py_case|]. split; [reflexivity|]. split; [reflexivity|]. split; [vm_compute; reflexivity|]. split; vm_compute; reflexivity. Qed.
