(** * C68: lists, packages and reports in memory *)
From Coq Require Import Sorting.Sorted.
From Verif Require Import Base Types CmpModel CmpSpec RpmModel RpmSpec HeapModel HeapSpec HeapListModel HeapListSpec.
From Verif Require Import HeapListProofs HeapListProofs2 HeapListProofs3 HeapListProofs4 HeapListProofs5 P_Heap.
Open Scope nat_scope.

(** Appending one list to another gives the entries of both, in order; only the last entry's link changes. *)
Theorem C68_append : forall h k p q l1 l2, own_list h k p l1 -> own_list h k q l2 -> separate (foot l1 ++ foot l2) ->
  exists h' r, list_append h p q = Ok (h', r) /\ own_list h' k r (l1 ++ l2) /\
    r = (match p with None => q | Some _ => p end) /\ same_outside (end_of l1) h h' /\ length h' = length h.
Proof. exact append_ok. Qed.
(** Appending a list to itself makes it endless: counting it afterwards never stops. *)
Theorem C68_append_self_refuted : forall h k p l, own_list h k p l -> separate (foot l) -> l <> [] ->
  exists h', list_append h p p = Ok (h', p) /\ list_count h' p = UB.
Proof. exact append_self. Qed.
(** Prepending a kernel oops frame puts it first; whatever followed it before is no longer reachable from it. *)
Theorem C68_prepend : forall h p l e n, own_list h KKoopsFrame p l -> own h KKoopsFrame n e -> separate (e_foot e ++ foot l) -> p <> None ->
  exists h', koops_frame_prepend h p (Some (e_addr e)) = Ok (h', Some (e_addr e)) /\ own_list h' KKoopsFrame (Some (e_addr e)) (e :: l) /\
    same_outside [e_addr e] h h' /\ length h' = length h.
Proof. exact prepend_ok. Qed.
Theorem C68_prepend_first : forall h item, koops_frame_prepend h None item = Ok (h, item).
Proof. exact prepend_first. Qed.
(** Counting returns the number of entries. *)
Theorem C68_count : forall h k p l, own_list h k p l -> separate (foot l) -> list_count h p = Ok (length l).
Proof. exact list_count_ok. Qed.
Theorem C68_thread_count : forall h s scal crash threads libs, gdb_stack_is h s scal crash threads libs ->
  get_thread_count h s = Ok (length threads).
Proof. exact thread_count_ok. Qed.

(** Keeping one thread: it becomes the only one, the others are released entirely, and crash frame, libraries and all
    other memory are unchanged. *)
Theorem C68_except_one : forall h s scal crash l1 t l2 libs, gdb_stack_is h s scal crash (l1 ++ t :: l2) libs ->
  exists h', remove_threads_except_one h s (Some (e_addr t)) = Ok h' /\ gdb_stack_is h' s scal crash [t] libs /\
    (forall x, In x (foot (l1 ++ l2)) -> freed h' x) /\ same_outside (s :: e_addr t :: foot (l1 ++ l2)) h h' /\ length h' = length h.
Proof. exact except_one_ok. Qed.
(** A thread from elsewhere replaces all of them. *)
Theorem C68_except_foreign : forall h s scal crash l libs t nt, gdb_stack_is h s scal crash l libs -> own h KGdbThread nt t ->
  separate (e_foot t) -> disjoint (e_foot t) (s :: foot crash ++ foot l ++ foot libs) ->
  exists h', remove_threads_except_one h s (Some (e_addr t)) = Ok h' /\ gdb_stack_is h' s scal crash [t] libs /\
    (forall x, In x (foot l) -> freed h' x) /\ same_outside (s :: e_addr t :: foot l) h h' /\ length h' = length h.
Proof. exact except_absent_ok. Qed.
(** [gdb_stack_is] is the description of C20 and C52. *)
Theorem C68_stack_owned : forall h s scal crash threads libs, gdb_stack_is h s scal crash threads libs ->
  exists n, own h KGdbStack n (s, Val scal [] None [map e_val crash; map e_val threads; map e_val libs], s :: foot crash ++ foot threads ++ foot libs).
Proof. exact gdb_stack_owns. Qed.
(** Without a thread to keep the program crashes. *)
Theorem C68_except_null_refuted : forall h s, remove_threads_except_one h s None = UB.
Proof. reflexivity. Qed.

(** Freeing a list of packages releases each package, its strings and its consistency records once, and nothing else. *)
Theorem C68_package_free : forall h p l ps, own_list h KRpm p l -> packages_are l ps -> separate (foot l) ->
  exists h', sr_rpm_package_free h p true = Ok h' /\ length h' = length h /\ same_outside (foot l) h h' /\ (forall x, In x (foot l) -> freed h' x).
Proof. exact sr_package_free_ok. Qed.
(** Not recursive: only the package itself. *)
Theorem C68_package_free_single : forall h n e p, own h KRpm n e -> is_package (e_val e) p -> separate (e_foot e) ->
  exists h', sr_rpm_package_free h (Some (e_addr e)) false = Ok h' /\ length h' = length h /\ same_outside (e_foot e) h h' /\ (forall x, In x (e_foot e) -> freed h' x).
Proof. exact sr_package_free_single. Qed.
(** Sorting relinks the same entries in ascending order: no package is lost, copied or changed, no memory is left. *)
Theorem C68_sort : forall qsort h p l ps, sorts_array qsort -> own_list h KRpm p l -> packages_are l ps -> separate (foot l) -> l <> [] ->
  Forall (fun q => small (rp_epoch q)) ps ->
  exists h' p' l' ps', package_sort qsort h p = Ok (h', p') /\ own_list h' KRpm p' l' /\ packages_are l' ps' /\
    Permutation l l' /\ Permutation ps ps' /\ StronglySorted (fun a b => (rpm_cmp_nevra a b <= 0)%Z) ps' /\
    same_outside (map e_addr l) h h' /\ length h' = length h.
Proof. exact package_sort_ok. Qed.
(** No packages: the first element of an empty array is read. *)
Theorem C68_sort_empty_refuted : forall qsort h, sorts_array qsort -> package_sort qsort h None = UB.
Proof. exact package_sort_empty. Qed.
(** Merging equal neighbours computes the list of C48 (RpmSpec.v): the cells of the result are old cells of the list or
    new ones, every other cell of the list and every other new cell is released, the rest of memory is unchanged. *)
Theorem C68_uniq : forall h p l ps, own_list h KRpm p l -> packages_are l ps -> separate (foot l) ->
  exists h' p' l', package_uniq h p = Ok (h', p') /\ own_list h' KRpm p' l' /\ packages_are l' (sr_rpm_package_uniq ps) /\ separate (foot l') /\
    (forall x, In x (foot l') -> In x (foot l) \/ length h <= x < length h') /\
    (forall x, In x (foot l) \/ length h <= x < length h' -> In x (foot l') \/ freed h' x) /\
    (forall x, x < length h -> ~ In x (foot l) -> nth_error h' x = nth_error h x) /\ length h <= length h'.
Proof. intros h p l ps O P N. destruct (package_uniq_ok h p l ps O P N) as (h' & p' & E & l' & R). exists h', p', l'. exact (conj E R). Qed.

(** Freeing a report releases exactly what it owns, each cell once. *)
Theorem C68_report_free : forall h r c os pk st au cells, report_is h r c os pk st au cells -> separate cells ->
  exists h', sr_report_free h r = Ok h' /\ length h' = length h /\ same_outside cells h h' /\ (forall x, In x cells -> freed h' x).
Proof. exact report_free_ok. Qed.
(** Adding a custom entry puts a copy of key and value first; nothing else of the report or of memory changes. *)
Theorem C68_add_auth : forall h r c os pk st au cells key value k v fk fv, report_is h r c os pk st au cells -> separate cells ->
  own_strs h [key] [k] fk -> own_strs h [value] [v] fv ->
  exists h' e cells', sr_report_add_auth h r key value = Ok h' /\ e_val e = Val [] [v; k] None [] /\
    report_is h' r c os pk st (e :: au) cells' /\ separate cells' /\
    (forall x, In x cells' <-> In x cells \/ length h <= x < length h') /\ length h <= length h' /\
    (forall x, x < length h -> x <> r -> nth_error h' x = nth_error h x).
Proof. exact add_auth_ok. Qed.

(** ** Cases *)
Ltac strs := repeat (first [apply os_nil|apply os_null|eapply os_str; [reflexivity|]]).
Definition pk_heap : heap :=
  [ CObj KRpm [0; 5; 0]%Z [Some 1; Some 2; Some 3; None] [None] None [] (Some 4); CStr (L "bash"); CStr (L "5.1"); CStr (L "2");
    CObj KRpm [0; 7; 1]%Z [Some 5; Some 6; Some 7; Some 8] [Some 9] None [] (Some 11); CStr (L "bash"); CStr (L "5.1"); CStr (L "2"); CStr (L "x86_64");
    CObj KConsistency [0; 1; 0; 0; 0; 0; 0; 0; 0]%Z [Some 10] [] None [] None; CStr (L "/bin/bash");
    CObj KRpm [0; 0; 0]%Z [Some 12; None; None; None] [None] None [] None; CStr (L "apr");
    CObj KReport [] [Some 14] [Some 15; Some 0; Some 17; Some 19] None [Some 22] None; CStr (L "bash");
    CObj KOs [0]%Z [Some 16; None; None; None; None; None] [] None [] None; CStr (L "fedora");
    CObj KPythonStack [] [Some 18] [None] None [] None; CStr (L "ValueError");
    CObj KAuth [] [Some 20; Some 21] [] None [] None; CStr (L "host1"); CStr (L "hostname");
    CStr (L "satyr") ].
Definition vcons : value := Val [0; 1; 0; 0; 0; 0; 0; 0; 0]%Z [Some (L "/bin/bash")] None [].
Definition p0 : entry := (0, Val [0; 5; 0]%Z [Some (L "bash"); Some (L "5.1"); Some (L "2"); None] None [[]], [0; 1; 2; 3]).
Definition p4 : entry := (4, Val [0; 7; 1]%Z [Some (L "bash"); Some (L "5.1"); Some (L "2"); Some (L "x86_64")] None [[vcons]], [4; 5; 6; 7; 8; 9; 10]).
Definition p11 : entry := (11, Val [0; 0; 0]%Z [Some (L "apr"); None; None; None] None [[]], [11; 12]).
Lemma own_p0 : own pk_heap KRpm (Some 4) p0.
Proof.
  eapply (own_obj pk_heap KRpm 0 _ _ _ [1; 2; 3] [None] [[]] [] None None [] []); [reflexivity|reflexivity|strs|constructor|].
  apply (ok_cons pk_heap KConsistency true [] None [] [] [] []); [constructor|easy|constructor].
Qed.
Lemma own_p4 : own pk_heap KRpm (Some 11) p4.
Proof.
  eapply (own_obj pk_heap KRpm 4 _ _ _ [5; 6; 7; 8] [Some 9] [[vcons]] [9; 10] None None [] []); [reflexivity|reflexivity|strs|constructor|].
  apply (ok_cons pk_heap KConsistency true [] (Some 9) [] [(9, vcons, [9; 10])] [] []); [|easy|constructor].
  apply (ol_cons _ _ None (9, vcons, [9; 10])); [|constructor].
  eapply (own_obj pk_heap KConsistency 9 _ _ _ [10] [] [] [] None None [] []); [reflexivity|reflexivity|strs|constructor|constructor].
Qed.
Lemma own_p11 : own pk_heap KRpm None p11.
Proof.
  eapply (own_obj pk_heap KRpm 11 _ _ _ [12] [None] [[]] [] None None [] []); [reflexivity|reflexivity|strs|constructor|].
  apply (ok_cons pk_heap KConsistency true [] None [] [] [] []); [constructor|easy|constructor].
Qed.
Definition bash1 := mk_rpm_package (Some (L "bash")) 0 (Some (L "5.1")) (Some (L "2")) None 5 ROLE_UNKNOWN [].
Definition bash2 := mk_rpm_package (Some (L "bash")) 0 (Some (L "5.1")) (Some (L "2")) (Some (L "x86_64")) 7 ROLE_AFFECTED
  [mk_rpm_consistency (Some (L "/bin/bash")) false true false false false false false false false].
Definition apr := mk_rpm_package (Some (L "apr")) 0 None None None 0 ROLE_UNKNOWN [].
Example packages_case : own_list pk_heap KRpm (Some 0) [p0; p4; p11] /\ packages_are [p0; p4; p11] [bash1; bash2; apr] /\ separate (foot [p0; p4; p11]) /\
  Forall (fun q => small (rp_epoch q)) [bash1; bash2; apr].
Proof.
  split; [|split; [|split]].
  - apply (ol_cons _ _ (Some 4) p0); [exact own_p0|]. apply (ol_cons _ _ (Some 11) p4); [exact own_p4|]. apply (ol_cons _ _ None p11); [exact own_p11|constructor].
  - apply Forall2_cons; [apply (is_package_intro 0%Z 5%Z 0%Z); constructor|]. apply Forall2_cons; [|apply Forall2_cons; [|constructor]].
    + apply (is_package_intro 0%Z 7%Z 1%Z). constructor; [|constructor]. apply (is_consistency_intro _ 0%Z 1%Z 0%Z 0%Z 0%Z 0%Z 0%Z 0%Z 0%Z).
    + apply (is_package_intro 0%Z 0%Z 0%Z). constructor.
  - nodup.
  - repeat constructor; cbn; lia.
Qed.
Example package_free_case : exists h', sr_rpm_package_free pk_heap (Some 0) true = Ok h' /\ firstn 14 h' = repeat CFree 13 ++ firstn 1 (skipn 13 pk_heap).
Proof. eexists. split; vm_compute; reflexivity. Qed.
Example uniq_case : exists h', package_uniq pk_heap (Some 0) = Ok (h', Some 23) /\ firstn 11 h' = repeat CFree 11 /\
  nth_error h' 23 = Some (CObj KRpm [0; 5; 1]%Z [Some 24; Some 25; Some 26; Some 27] [None] None [] (Some 11)) /\ length h' = 28.
Proof. eexists. split; [vm_compute; reflexivity|]. repeat split; vm_compute; reflexivity. Qed.
Example uniq_applies : exists h' p' l', package_uniq pk_heap (Some 0) = Ok (h', p') /\ own_list h' KRpm p' l' /\ length l' = 2.
Proof.
  destruct packages_case as (O & P & N & _). destruct (C68_uniq _ _ _ _ O P N) as (h' & p' & l' & E & O' & P' & _).
  exists h', p', l'. split; [exact E|]. split; [exact O'|]. inversion P' as [|? ? ? ? _ P1]; subst. inversion P1 as [|? ? ? ? _ P2]; subst. inversion P2; subst. reflexivity.
Qed.
(* a function that sorts: insertion sort *)
Fixpoint insert (cmp : addr -> addr -> Z) (x : addr) (l : list addr) : list addr :=
  match l with [] => [x] | y :: r => if (cmp x y <=? 0)%Z then x :: l else y :: insert cmp x r end.
Definition isort (cmp : addr -> addr -> Z) (l : list addr) : list addr := fold_right (insert cmp) [] l.
Example sort_case : exists h', package_sort isort pk_heap (Some 0) = Ok (h', Some 11) /\ next_of h' 11 = Ok (Some 0) /\ next_of h' 0 = Ok (Some 4) /\ next_of h' 4 = Ok None.
Proof. eexists. split; [vm_compute; reflexivity|]. repeat split; vm_compute; reflexivity. Qed.
Example isort_sorts : sorts_array isort.
Proof.
  intros ok eqv cmp l (_ & Sg & Tr) F. unfold isort.
  assert (Perm : forall x l, Permutation (x :: l) (insert cmp x l)).
  { intros x m. induction m as [|y m IH]; cbn; [reflexivity|]. destruct (cmp x y <=? 0)%Z; [reflexivity|]. rewrite perm_swap. now constructor. }
  assert (K : Permutation l (fold_right (insert cmp) [] l) /\ StronglySorted (fun x y => (cmp x y <= 0)%Z) (fold_right (insert cmp) [] l)); [|exact K].
  induction F as [|x l Hx F [IP IS]]; cbn; [repeat constructor|]. split; [rewrite <- Perm; now constructor|].
  assert (G : Forall ok (fold_right (insert cmp) [] l)) by (eapply Permutation_Forall; eassumption).
  remember (fold_right (insert cmp) [] l) as m. clear - IS G Hx Sg Tr Perm. induction IS as [|y m IS IH H]; cbn; [repeat constructor|].
  inversion G as [|? ? Gy Gm]; subst. destruct (cmp x y <=? 0)%Z eqn:C; apply Z.leb_gt in C || apply Z.leb_le in C.
  - constructor; [constructor; assumption|]. constructor; [exact C|]. rewrite Forall_forall in *. intros z Iz. apply (Tr x y z); auto.
  - constructor; [apply IH; exact Gm|]. eapply Permutation_Forall; [apply Perm|]. constructor; [|exact H]. specialize (Sg x y Hx Gy). destruct (cmp x y), (cmp y x); cbn in *; lia.
Qed.
Example sort_applies : exists h' p' l', package_sort isort pk_heap (Some 0) = Ok (h', p') /\ own_list h' KRpm p' l'.
Proof.
  destruct packages_case as (O & P & N & Sm). destruct (C68_sort isort _ _ _ _ isort_sorts O P N ltac:(discriminate) Sm) as (h' & p' & l' & _ & E & O' & _). eauto.
Qed.
Example append_case : exists h' r, list_append ex_heap (Some 3) (Some 8) = Ok (h', r).
Proof. do 2 eexists. vm_compute. reflexivity. Qed.
Example append_applies : exists h' r, list_append pk_heap None (Some 0) = Ok (h', r) /\ own_list h' KRpm r [p0; p4; p11].
Proof.
  destruct packages_case as (O & _ & N & _). destruct (C68_append pk_heap KRpm None (Some 0) [] _ (ol_nil _ _) O N) as (h' & r & E & O' & _). eauto.
Qed.
(* two lists of one package each, joined *)
Definition two : heap := [CObj KRpm [0; 5; 0]%Z [None; None; None; None] [None] None [] None; CObj KRpm [1; 6; 0]%Z [None; None; None; None] [None] None [] None].
Definition t0 : entry := (0, Val [0; 5; 0]%Z [None; None; None; None] None [[]], [0]).
Definition t1 : entry := (1, Val [1; 6; 0]%Z [None; None; None; None] None [[]], [1]).
Example append_two : own_list two KRpm (Some 0) [t0] /\ own_list two KRpm (Some 1) [t1] /\ separate (foot [t0] ++ foot [t1]) /\
  list_append two (Some 0) (Some 1) = Ok ([CObj KRpm [0; 5; 0]%Z [None; None; None; None] [None] None [] (Some 1); CObj KRpm [1; 6; 0]%Z [None; None; None; None] [None] None [] None], Some 0).
Proof.
  split; [|split; [|split; [nodup|reflexivity]]].
  - apply (ol_cons _ _ None t0); [|constructor].
    eapply (own_obj two KRpm 0 _ _ _ [] [None] [[]] [] None None [] []); [reflexivity|reflexivity|strs|constructor|].
    apply (ok_cons two KConsistency true [] None [] [] [] []); [constructor|easy|constructor].
  - apply (ol_cons _ _ None t1); [|constructor].
    eapply (own_obj two KRpm 1 _ _ _ [] [None] [[]] [] None None [] []); [reflexivity|reflexivity|strs|constructor|].
    apply (ok_cons two KConsistency true [] None [] [] [] []); [constructor|easy|constructor].
Qed.
Example self_case : exists h', list_append two (Some 0) (Some 0) = Ok (h', Some 0) /\ list_count h' (Some 0) = UB.
Proof. destruct append_two as (O & _). refine (C68_append_self_refuted _ _ _ _ O _ _); [nodup|discriminate]. Qed.
Example count_packages : list_count pk_heap (Some 0) = Ok 3.
Proof. destruct packages_case as (O & _ & N & _). exact (C68_count _ _ _ _ O N). Qed.
Example gdb_case : gdb_stack_is ex_heap 0 [7]%Z [e1] ([ethread3] ++ ethread8 :: []) [elib].
Proof.
  exists (Some 1), (Some 3), (Some 11), [], None. split; [reflexivity|].
  split; [apply (ol_cons _ _ None e1); [apply own_e1|constructor]|]. split; [cbn; lia|]. split; [|split; [|nodup]].
  - apply (ol_cons _ _ (Some 8) ethread3).
    + eapply (own_obj ex_heap KGdbThread 3 _ [] [] [] [Some 4] [map e_val [e4; e6]] [4; 5; 6; 7] None None [] []); [reflexivity|reflexivity|constructor|constructor|].
      apply (ok_cons ex_heap KGdbFrame true [] (Some 4) [] [e4; e6] [] []); [|discriminate|constructor].
      apply (ol_cons _ _ (Some 6) e4); [apply own_e4|]. apply (ol_cons _ _ None e6); [apply own_e6|constructor].
    + apply (ol_cons _ _ None ethread8); [|constructor].
      eapply (own_obj ex_heap KGdbThread 8 _ [] [] [] [Some 9] [map e_val [e9]] [9; 10] None None [] []); [reflexivity|reflexivity|constructor|constructor|].
      apply (ok_cons ex_heap KGdbFrame true [] (Some 9) [] [e9] [] []); [|discriminate|constructor].
      apply (ol_cons _ _ None e9); [apply own_e9|constructor].
  - apply (ol_cons _ _ None elib); [|constructor].
    eapply (own_obj ex_heap KGdbLib 11 _ _ _ [12] [] [] [] None None [] []); [reflexivity|reflexivity|strs|constructor|constructor].
Qed.
Example except_case : exists h', remove_threads_except_one ex_heap 0 (Some 8) = Ok h' /\ gdb_stack_is h' 0 [7]%Z [e1] [ethread8] [elib] /\ freed h' 3.
Proof. destruct (C68_except_one _ _ _ _ _ _ _ _ gdb_case) as (h' & E & G & F & _). exists h'. split; [exact E|]. split; [exact G|]. apply F. cbn. tauto. Qed.
Definition eos : entry := (15, Val [0]%Z [Some (L "fedora"); None; None; None; None; None] None [], [15; 16]).
Definition est : entry := (17, Val [] [Some (L "ValueError")] None [[]], [17; 18]).
Definition eau : entry := (19, Val [] [Some (L "host1"); Some (L "hostname")] None [], [19; 20; 21]).
Definition report_cells : list addr := [13; 14; 15; 16; 0; 1; 2; 3; 4; 5; 6; 7; 8; 9; 10; 11; 12; 17; 18; 19; 20; 21].
Example report_case : report_is pk_heap 13 (Some (L "bash")) [eos] [p0; p4; p11] [est] [eau] report_cells /\ separate report_cells.
Proof.
  split; [|nodup]. destruct packages_case as (O & P & _ & _).
  exists [], (Some 14), (Some 15), (Some 0), (Some 17), (Some 19), [Some 22], None, [14], KPythonStack.
  split; [reflexivity|]. split; [strs|]. split.
  { apply (ol_cons _ _ None eos); [|constructor]. eapply (own_obj pk_heap KOs 15 _ _ _ [16] [] [] [] None None [] []); [reflexivity|reflexivity|strs|constructor|constructor]. }
  split; [cbn; lia|]. split; [repeat constructor|]. split; [exact O|]. split; [eexists; exact P|]. split; [cbn; tauto|]. split.
  { apply (ol_cons _ _ None est); [|constructor]. eapply (own_obj pk_heap KPythonStack 17 _ _ _ [18] [None] [[]] [] None None [] []); [reflexivity|reflexivity|strs|constructor|].
    apply (ok_cons pk_heap KPythonFrame true [] None [] [] [] []); [constructor|easy|constructor]. }
  split; [cbn; lia|]. split.
  { apply (ol_cons _ _ None eau); [|constructor]. eapply (own_obj pk_heap KAuth 19 _ _ _ [20; 21] [] [] [] None None [] []); [reflexivity|reflexivity|strs|constructor|constructor]. }
  split; [repeat constructor|reflexivity].
Qed.
(** Everything is released but the name of the reporter, which a report read from JSON owns (lib/report.c:334). *)
Theorem C68_reporter_leak_refuted : exists h r raw a, nth_error h r = Some (CObj KReport [] [Some 14] [Some 15; Some 0; Some 17; Some 19] None (raw ++ [Some a]) None) /\
  exists h', sr_report_free h r = Ok h' /\ freed h' r /\ nth_error h' a = Some (CStr (L "satyr")).
Proof.
  exists pk_heap, 13, [], 22. split; [reflexivity|]. destruct report_case as [R N]. destruct (C68_report_free _ _ _ _ _ _ _ _ R N) as (h' & E & _ & So & F).
  exists h'. split; [exact E|]. split; [apply F; cbn; tauto|]. rewrite So; [reflexivity|]. cbn. intuition discriminate.
Qed.
Example auth_case : exists h', sr_report_add_auth pk_heap 13 (Some 21) None = Ok h' /\
  nth_error h' 23 = Some (CObj KAuth [] [None; Some 24] [] None [] (Some 19)) /\ nth_error h' 24 = Some (CStr (L "hostname")).
Proof. eexists. split; [vm_compute; reflexivity|]. split; reflexivity. Qed.
Example auth_applies : exists h' e cells', sr_report_add_auth pk_heap 13 (Some 21) None = Ok h' /\
  report_is h' 13 (Some (L "bash")) [eos] [p0; p4; p11] [est] [e; eau] cells'.
Proof.
  destruct report_case as [R N]. destruct (C68_add_auth _ _ _ _ _ _ _ _ (Some 21) None (Some (L "hostname")) None [21] [] R N) as (h' & e & cells' & E & _ & R' & _); [strs|strs|]. eauto.
Qed.

Print Assumptions C68_append.
Print Assumptions C68_append_self_refuted.
Print Assumptions C68_prepend.
Print Assumptions C68_prepend_first.
Print Assumptions C68_count.
Print Assumptions C68_thread_count.
Print Assumptions C68_except_one.
Print Assumptions C68_except_foreign.
Print Assumptions C68_stack_owned.
Print Assumptions C68_except_null_refuted.
Print Assumptions C68_package_free.
Print Assumptions C68_package_free_single.
Print Assumptions C68_sort.
Print Assumptions C68_sort_empty_refuted.
Print Assumptions C68_uniq.
Print Assumptions C68_report_free.
Print Assumptions C68_add_auth.
Print Assumptions C68_reporter_leak_refuted.
