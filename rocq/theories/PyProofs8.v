From Verif Require Import Base HeapModel HeapSpec HeapProofs HeapProofs2 HeapProofs3 HeapListModel HeapListSpec HeapListProofs HeapListProofs3 PyModel PySpec PyProofs PyProofs2 PyProofs3 PyProofs4 PyProofs5 PyProofs6 PyProofs7.
Open Scope nat_scope.

(** ** There and back *)
Lemma frames_back os h tk fk n e : own h tk n e -> frame_kind tk = Some fk -> NoDup (e_foot e) ->
  exists os1 l items es, frames_to_python (St os h) fk (e_addr e) = Ok (St os1 h, l) /\ grown os os1 /\ new_list (length os) os1 l fk items es /\ unlinked_thread h tk fk n e es /\
    (forall os2 h2 r at_, alive os2 r (PyStruct tk (e_addr e) (Some l :: at_)) -> py_list os2 l fk items es -> same_on (e_foot e) h h2 ->
       exists h', frames_prepare (St os2 h2) r = Ok (St os2 h', true) /\ own h' tk n e).
Proof.
  intros O Hk N. destruct (thread_open _ _ _ _ _ O Hk) as (p & es & Ep & Ol & U & Nn). unfold frames_to_python. cbn [mem]. rewrite Ep. cbn [bind].
  destruct (wrapped_list fk os h p es Ol (Nn N)) as (os1 & l & items & E & G & Nl & _). exists os1, l, items, es. repeat (split; [assumption|]).
  intros os2 h2 r at_ A P S. destruct (frames_prepare_ok os2 h2 r tk fk n e l items es at_ A P) as (h' & E' & O' & _); [eapply unlinked_local; eassumption|exact N|]. exists h'. split; assumption.
Qed.

(** ** What the wrapping functions leak *)
Lemma freed_none h h' : freed_all [] h h' -> h' = h.
Proof. intros (_ & S & _). apply nth_ext_eq. intros i. apply S. intros []. Qed.
Lemma objects_same os os1 k n items (es : list entry) : Forall2 (fun r e => object os r n (PyStruct k (e_addr e) [])) items es ->
  (forall r, In r items -> nth_error os1 r = nth_error os r) -> Forall2 (fun r e => object os1 r n (PyStruct k (e_addr e) [])) items es.
Proof.
  induction 1 as [|a b la m Hc F IHF]; intros Gi; constructor; [|apply IHF; intros x Ix; apply Gi; right; exact Ix].
  unfold object. rewrite Gi by (left; reflexivity). exact Hc.
Qed.
Lemma list_leaks os h l k items es p : plain k -> object os l 1 (PyList items) -> Forall2 (fun r e => object os r 2 (PyStruct k (e_addr e) [])) items es ->
  own_list h k p es -> NoDup (foot es) ->
  exists os', decref (St os h) l = Ok (St os' h) /\ nth_error os' l = Some None /\ Forall2 (fun r e => object os' r 1 (PyStruct k (e_addr e) [])) items es.
Proof.
  intros Pk Hl F Ol N. assert (Nl : ~ In l items).
  { intros I. destruct (Forall2_in _ _ _ F _ I) as (e & _ & He). destruct (object_fun _ _ _ _ _ _ Hl He) as [E _]. discriminate E. }
  assert (Ll : l < length os) by (eapply object_lt; exact Hl).
  set (os1 := put_obj os l (Some (0, PyList items))).
  assert (G1 : forall r, In r items -> nth_error os1 r = nth_error os r) by (intros r Ir; apply put_obj_other; intros ->; contradiction).
  assert (F1 : Forall2 (fun r e => object os1 r 2 (PyStruct k (e_addr e) [])) items es).
  { eapply objects_same; eassumption. }
  set (ps := combine items es). assert (Eps : map fst ps = items) by (eapply combine_fst; exact F). assert (Eps2 : map snd ps = es) by (eapply combine_snd; exact F).
  destruct (length os) as [|f] eqn:El; [lia|].
  destruct (release_items k f Pk (rev ps) os1 h) as (os2 & h2 & E2 & L2 & [Lo1 Lo2] & G2 & F2).
  { apply Forall_forall. intros q Iq. apply in_rev in Iq. pose proof (combine_all _ _ _ F1) as Fa. rewrite Forall_forall in Fa. exists 1. exact (Fa q Iq). }
  { apply Forall_forall. intros q Iq. apply in_rev in Iq. apply seg_list in Ol. eapply entry_own; [exact Ol|]. rewrite <- Eps2. apply in_map. exact Iq. }
  { rewrite map_rev, Eps2. apply foot_rev_nodup. exact N. }
  assert (Dn : dying os1 (rev ps) = []).
  { unfold dying. pose proof (combine_all _ _ _ F1) as Fa. fold ps in Fa. rewrite Forall_forall in Fa.
    assert (H : forall qs, incl qs ps -> concat (map (fun p0 : ref * entry => match nth_error os1 (fst p0) with Some (Some (1, _)) => e_foot (snd p0) | _ => [] end) qs) = []).
    { induction qs as [|q qs IH]; intros I; [reflexivity|]. cbn [map concat]. assert (Iq : In q ps) by (apply I; left; reflexivity). pose proof (Fa q Iq) as Hq. unfold object in Hq. rewrite Hq.
      apply IH. intros x Ix. apply I. right. exact Ix. }
    apply H. intros x Ix. apply in_rev. exact Ix. }
  rewrite Dn in F2. apply freed_none in F2. subst h2.
  exists (put_obj os2 l None). split; [|split].
  - unfold decref. cbn [objs]. rewrite El. remember (S f) as fu. cbn [decref_in]. rewrite (obj_ok (St os h) l _ _ Hl). cbn [bind]. unfold set_obj. cbn [objs mem]. fold os1.
    rewrite <- Eps, <- map_rev. rewrite E2. reflexivity.
  - apply put_obj_same. rewrite L2. unfold os1. rewrite put_obj_length. lia.
  - assert (Fin : forall r e, In r items -> object os1 r 2 (PyStruct k (e_addr e) []) -> object (put_obj os2 l None) r 1 (PyStruct k (e_addr e) [])).
    { intros r e Ir H. apply object_put; [|intros ->; contradiction]. apply (Lo1 r 0); [|exact H]. rewrite map_rev, Eps. apply in_rev. rewrite rev_involutive. exact Ir. }
    clear - F1 Fin. revert F1 Fin. generalize (put_obj os2 l None) as os3. generalize os1. clear. intros os1 os3 F1 Fin.
    induction F1 as [|a b la m Hc F IHF]; constructor; [apply Fin; [left; reflexivity|exact Hc]|]. apply IHF. intros r e Ir. apply Fin. right. exact Ir.
Qed.
Lemma wrapped_leak os h k p es : plain k -> own_list h k p es -> NoDup (foot es) ->
  exists os1 l items os2, wrap_list k (St os h) p = Ok (St os1 h, l) /\ length items = length es /\ object os1 l 1 (PyList items) /\
    decref (St os1 h) l = Ok (St os2 h) /\ nth_error os2 l = Some None /\ Forall2 (fun r e => object os2 r 1 (PyStruct k (e_addr e) [])) items es.
Proof.
  intros Pk Ol N. destruct (wrapped_list k os h p es Ol N) as (os1 & l & items & E & G & (_ & Hl & _ & F) & _).
  destruct (list_leaks os1 h l k items es p Pk Hl F Ol N) as (os2 & E2 & H2 & F2). exists os1, l, items, os2.
  split; [exact E|]. split; [clear - F; induction F; cbn; congruence|]. repeat (split; [assumption|]). exact F2.
Qed.
Lemma plain_kinds k : In k [KCoreFrame; KPythonFrame; KKoopsFrame; KJavaFrame; KGdbFrame; KRubyFrame; KJsFrame; KGdbLib] -> plain k.
Proof. cbn [In]. intros H. repeat destruct H as [<-|H]; try destruct H; split; reflexivity. Qed.

(** ** Samples *)
Ltac run := unfold object, freed; match goal with |- ?x = _ => let y := eval vm_compute in x in let H := fresh in assert (H : x = y) by (vm_compute; reflexivity); refine (eq_trans H _); reflexivity end.
Definition frame_cell (i : Z) (n : option addr) : cell := CObj KCoreFrame [i] [None; None; None; None] [] None [] n.
Definition frame_entry (i : Z) (a : addr) : entry := (a, Val [i] [None; None; None; None] None [], [a]).
Lemma frame_own h i a n : nth_error h a = Some (frame_cell i n) -> own h KCoreFrame n (frame_entry i a).
Proof.
  intros H. unfold frame_entry. change [a] with (a :: [] ++ [] ++ []).
  eapply (own_obj h KCoreFrame a [i] [None; None; None; None] [None; None; None; None] [] [] [] []); [exact H|reflexivity|repeat constructor|constructor|constructor].
Qed.
(* a thread object whose list holds two frame objects; the thread points to no frame *)
Definition two_heap : heap := [CObj KCoreThread [7%Z] [] [None] None [] None; frame_cell 1 None; frame_cell 2 None].
Definition two_objs : objects := [Some (1, PyStruct KCoreThread 0 [Some 1]); Some (1, PyList [2; 3]); Some (1, PyStruct KCoreFrame 1 []); Some (1, PyStruct KCoreFrame 2 [])].
Definition two_thread : entry := (0, Val [7%Z] [] None [[e_val (frame_entry 1 1); e_val (frame_entry 2 2)]], [0; 1; 2]).
Definition two_frames : list entry := [frame_entry 1 1; frame_entry 2 2].
Lemma two_unlinked : unlinked_thread two_heap KCoreThread KCoreFrame None two_thread two_frames.
Proof.
  exists [7%Z], [], None, [], [], None, None, [], []. repeat (split; [solve [reflexivity | constructor]|]). split; [|discriminate].
  repeat constructor; exists None; apply frame_own; reflexivity.
Qed.
Lemma two_list : py_list two_objs 1 KCoreFrame [2; 3] two_frames.
Proof. split; [exists 0; reflexivity|]. repeat constructor; exists 0; reflexivity. Qed.

(* a linked thread with one frame object, and an empty list for later *)
Definition one_heap : heap := [CObj KCoreThread [7%Z] [] [Some 1] None [] None; frame_cell 1 None].
Definition one_objs : objects := [Some (1, PyStruct KCoreThread 0 [Some 1]); Some (1, PyList [2]); Some (1, PyStruct KCoreFrame 1 []); Some (1, PyList [])].
Definition one_thread : entry := (0, Val [7%Z] [] None [[e_val (frame_entry 1 1)]], [0; 1]).
Lemma one_own : own one_heap KCoreThread None one_thread.
Proof.
  unfold one_thread. change [0; 1] with (0 :: [] ++ [] ++ (foot [frame_entry 1 1] ++ [])).
  eapply (own_obj one_heap KCoreThread 0 [7%Z] [] [] [] [Some 1] [map e_val [frame_entry 1 1]]); [reflexivity|reflexivity|constructor|constructor|].
  cbn [kid_ops]. econstructor; [|discriminate|constructor]. change (Some 1) with (Some (e_addr (frame_entry 1 1))). econstructor; [apply frame_own; reflexivity|constructor].
Qed.
Lemma emptied : exists st r l e, own (mem st) KCoreThread None e /\ object (objs st) l 1 (PyList []) /\
  (exists st1 st2, set_attr st r 0 l = Ok st1 /\ object (objs st1) r 1 (PyStruct KCoreThread (e_addr e) [Some l]) /\
     frames_prepare st1 r = Ok (st2, true) /\ (exists a, thread_frames (mem st2) (e_addr e) = Ok (Some a) /\ freed (mem st2) a) /\ thread_dup st1 r = UB).
Proof.
  exists (St one_objs one_heap), 0, 3, one_thread. split; [exact one_own|]. split; [reflexivity|].
  eexists _, _. split; [reflexivity|]. split; [reflexivity|]. split; [reflexivity|]. split; [exists 1; split; reflexivity|]. reflexivity.
Qed.
Definition twice_objs : objects := [Some (1, PyStruct KCoreThread 0 [Some 1]); Some (1, PyList [2; 2]); Some (2, PyStruct KCoreFrame 1 [])].
Lemma twice : exists os h r l items es st', alive os r (PyStruct KCoreThread 0 [Some l]) /\ py_list os l KCoreFrame items es /\ length items = 2 /\
  Forall (fun e => exists n, own h KCoreFrame n e) es /\ frames_prepare (St os h) r = Ok (st', true) /\
  (exists p, thread_frames (mem st') 0 = Ok p /\ list_count (mem st') p = Ok 1).
Proof.
  exists twice_objs, two_heap, 0, 1, [2; 2], [frame_entry 1 1; frame_entry 1 1]. eexists. split; [exists 0; reflexivity|]. split; [split; [exists 0; reflexivity|]; repeat constructor; exists 1; reflexivity|].
  split; [reflexivity|]. split; [repeat constructor; exists None; apply frame_own; reflexivity|]. split; [reflexivity|]. exists (Some 1). split; reflexivity.
Qed.
(* two threads, the second with the first frame of the first *)
Definition shared_heap : heap :=
  [CObj KCoreStack [] [None] [None] None [None] None; CObj KCoreThread [7%Z] [] [None] None [] None; CObj KCoreThread [8%Z] [] [None] None [] None; frame_cell 1 None; frame_cell 2 None].
Definition shared_objs : objects :=
  [Some (1, PyStruct KCoreStack 0 [Some 1]); Some (1, PyList [2; 3]); Some (1, PyStruct KCoreThread 1 [Some 4]); Some (1, PyStruct KCoreThread 2 [Some 5]);
   Some (1, PyList [6; 7]); Some (1, PyList [6]); Some (2, PyStruct KCoreFrame 3 []); Some (1, PyStruct KCoreFrame 4 [])].
Lemma shared : exists os h r t l es st', alive os t (PyStruct KCoreThread 1 [Some l]) /\ py_list os l KCoreFrame [6; 7] es /\ Forall (fun e => exists n, own h KCoreFrame n e) es /\
  separate (foot es) /\ threads_prepare (St os h) r = Ok (st', true) /\ (exists p, thread_frames (mem st') 1 = Ok p /\ list_count (mem st') p = Ok 1).
Proof.
  exists shared_objs, shared_heap, 0, 2, 4, [frame_entry 1 3; frame_entry 2 4]. eexists. split; [exists 0; reflexivity|].
  split; [split; [exists 0; reflexivity|]; constructor; [exists 1; reflexivity|constructor; [exists 0; reflexivity|constructor]]|].
  split; [repeat constructor; exists None; apply frame_own; reflexivity|]. split; [repeat constructor; cbn; intuition discriminate|].
  split; [reflexivity|]. exists (Some 3). split; reflexivity.
Qed.
(* a stack trace whose list holds a thread and something else *)
Definition mixed_objs : objects :=
  [Some (1, PyStruct KCoreStack 0 [Some 1]); Some (1, PyList [2; 4]); Some (1, PyStruct KCoreThread 1 [Some 3]); Some (1, PyList []); Some (1, PyOther)].
Lemma error_path : exists os h r l t o st', object os r 1 (PyStruct KCoreStack 0 [Some l]) /\ object os l 1 (PyList [t; o]) /\
  object os t 1 (PyStruct KCoreThread 1 [Some 3]) /\ object os o 1 PyOther /\ threads_prepare (St os h) r = Ok (st', false) /\
  object (objs st') l 1 (PyList [t; o]) /\ nth_error (objs st') t = Some None /\ object (objs st') o 2 PyOther /\ threads_prepare st' r = UB.
Proof. exists mixed_objs, shared_heap, 0, 1, 2, 4. eexists. repeat (split; [reflexivity|]). reflexivity. Qed.

(** Gdb stack traces. *)
Definition gframe (i : Z) (n : option addr) : cell := CObj KGdbFrame [i] [None; None; None; None] [] None [] n.
Definition gdb_heap : heap := [CObj KGdbStack [1%Z] [] [None; None; None] None [] None; CObj KGdbThread [7%Z] [] [None] None [] None; gframe 1 None; gframe 2 None].
(* built by hand: every object has one reference *)
Definition gdb_objs (c : nat) : objects :=
  [Some (1, PyStruct KGdbStack 0 [Some 1; Some 2; Some 3]); Some (1, PyList [4]); Some (1, PyList []); Some (1, PyOther);
   Some (c, PyStruct KGdbThread 1 [Some 5]); Some (1, PyList [6; 7]); Some (c, PyStruct KGdbFrame 2 []); Some (c, PyStruct KGdbFrame 3 [])].
Lemma limit_twice : gdb_prepare (St (gdb_objs 1) gdb_heap) 0 <> UB /\ py_limit_frame_depth (St (gdb_objs 1) gdb_heap) 0 1 = UB.
Proof. split; [discriminate|reflexivity]. Qed.
Lemma limit_held : exists st', py_limit_frame_depth (St (gdb_objs 2) gdb_heap) 0 1 = Ok (st', true) /\
  object (objs st') 7 2 (PyStruct KGdbFrame 3 []) /\ freed (mem st') 3 /\
  exists l t lf f c d, object (objs st') 0 1 (PyStruct KGdbStack 0 [Some l; Some 2; Some 3]) /\ object (objs st') l 1 (PyList [t]) /\
    object (objs st') t 2 (PyStruct KGdbThread c [Some lf]) /\ object (objs st') lf 1 (PyList [f]) /\ object (objs st') f 2 (PyStruct KGdbFrame d []) /\
    length gdb_heap <= c /\ length gdb_heap <= d /\ gdb_threads (mem st') 0 = Ok (Some c) /\ thread_frames (mem st') c = Ok (Some d) /\ next_of (mem st') d = Ok None.
Proof.
  eexists. split; [run|]. split; [run|]. split; [run|]. exists 8, 11, 9, 10, 4, 5. do 5 (split; [run|]). split; [cbn; lia|]. split; [cbn; lia|]. split; [run|]. split; run.
Qed.
Definition some_crash (h : heap) (s : addr) : res (heap * option addr) := do (h, f) <- sr_dup KGdbFrame h 2 false; Ok (h, Some f).
Lemma crash_frame : exists st' f, py_find_crash_frame some_crash (St (gdb_objs 2) gdb_heap) 0 = Ok (st', Some f) /\
  (exists l, object (objs st') 0 1 (PyStruct KGdbStack 0 [Some l; Some 2; Some f])) /\ (exists c, object (objs st') f 1 (PyStruct KGdbFrame c [])) /\
  gdb_dup st' 0 = UB /\
  exists st2, decref st' f = Ok st2 /\ nth_error (objs st2) f = Some None /\ (exists l, object (objs st2) 0 1 (PyStruct KGdbStack 0 [Some l; Some 2; Some f])).
Proof.
  eexists _, _. split; [run|]. split; [eexists; run|]. split; [eexists; run|]. split; [run|].
  eexists. split; [run|]. split; [run|]. eexists. run.
Qed.
Definition none_heap : heap := [CObj KGdbStack [1%Z] [] [None; None; None] None [] None].
Definition none_objs : objects := [Some (1, PyStruct KGdbStack 0 [Some 1; Some 2; Some 3]); Some (1, PyList []); Some (1, PyList []); Some (1, PyOther)].
Lemma limit_none : exists h, gdb_prepare (St none_objs none_heap) 0 = Ok (St none_objs h, true) /\ limit_frame_depth h 0 1 = Ok h /\
  py_limit_frame_depth (St none_objs none_heap) 0 1 = UB.
Proof. eexists. split; [run|]. split; run. Qed.

(* a stack trace of two threads, for the examples *)
Definition st_heap : heap :=
  [CObj KCoreStack [] [None] [None] None [None] None; CObj KCoreThread [7%Z] [] [None] None [] None; CObj KCoreThread [8%Z] [] [None] None [] None; frame_cell 1 None; frame_cell 2 None; frame_cell 3 None].
Definition st_objs : objects :=
  [Some (1, PyStruct KCoreStack 0 [Some 1]); Some (1, PyList [2; 3]); Some (1, PyStruct KCoreThread 1 [Some 4]); Some (1, PyStruct KCoreThread 2 [Some 5]);
   Some (1, PyList [6; 7]); Some (1, PyList [8]); Some (1, PyStruct KCoreFrame 3 []); Some (2, PyStruct KCoreFrame 4 []); Some (1, PyStruct KCoreFrame 5 [])].
Definition st_t1 : entry := (1, Val [7%Z] [] None [[e_val (frame_entry 1 3); e_val (frame_entry 2 4)]], [1; 3; 4]).
Definition st_t2 : entry := (2, Val [8%Z] [] None [[e_val (frame_entry 3 5)]], [2; 5]).
Definition st_threads : list py_thread := [PT 2 4 [6; 7] st_t1 [frame_entry 1 3; frame_entry 2 4]; PT 3 5 [8] st_t2 [frame_entry 3 5]].
Definition st_entry : entry := (0, Val [] [None] None [[e_val st_t1; e_val st_t2]], [0; 1; 3; 4; 2; 5]).
Lemma st_unlinked_threads : unlinked_threads st_heap KCoreThread KCoreFrame st_threads.
Proof.
  constructor; [|constructor; [|constructor]].
  - exists None, [7%Z], [], None, [], [], None, None, [], []. repeat (split; [solve [reflexivity | constructor]|]). split; [|discriminate].
    repeat constructor; exists None; apply frame_own; reflexivity.
  - exists None, [8%Z], [], None, [], [], None, None, [], []. repeat (split; [solve [reflexivity | constructor]|]). split; [|discriminate].
    repeat constructor; exists None; apply frame_own; reflexivity.
Qed.
Lemma st_unlinked : unlinked_stack st_heap KCoreStack None st_entry st_threads.
Proof.
  exists KCoreThread, KCoreFrame, [], [None], None, [None], [], None, None, [], [None]. split; [left; reflexivity|]. repeat (split; [reflexivity|]).
  split; [repeat constructor|]. split; [constructor|]. split; [reflexivity|]. split; [reflexivity|]. split; [exact st_unlinked_threads|discriminate].
Qed.
Lemma st_sole : sole_threads st_objs KCoreThread KCoreFrame st_threads.
Proof.
  constructor; [|constructor; [|constructor]]; (split; [reflexivity|]; split; [reflexivity|]); repeat constructor; try (exists 0; reflexivity). exists 1; reflexivity.
Qed.
Lemma st_list : py_threads st_objs 1 KCoreThread KCoreFrame st_threads.
Proof.
  split; [exists 0; reflexivity|]. constructor; [|constructor; [|constructor]]; (split; [exists 0; reflexivity|]; split; [exists 0; reflexivity|]);
    repeat constructor; try (exists 0; reflexivity). exists 1; reflexivity.
Qed.
