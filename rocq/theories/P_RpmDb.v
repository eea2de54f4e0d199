(** * C81: looking packages up in the RPM database. *)
From Verif Require Import Base Types HeapModel HeapSpec HeapListSpec RpmDbModel RpmDbSpec RpmDbProofs RpmDbProofs2 RpmDbProofs3.
Open Scope nat_scope.

(** When every header the database has for the key is complete, the result is a list of exactly those packages in the
    database's order.  The list owns all the memory the call leaves behind, other memory is as it was, no message is made
    and every object taken from librpm is given back in the right order. *)
Theorem C81_found : forall f t lib h log key err ps, In (f, t) lookups -> config_fails lib = false ->
  Forall2 describes (matches lib t key (length key)) ps ->
  exists h' p, f (Some lib) (h, log) key err = Ok ((h', log ++ session (released (6 * length ps))), p, err) /\ found h h' p ps.
Proof. exact by_found. Qed.
(** No header for the key: NULL, no message, nothing allocated. *)
Theorem C81_none : forall f t lib h log key err, In (f, t) lookups -> config_fails lib = false ->
  matches lib t key (length key) = [] ->
  f (Some lib) (h, log) key err = Ok ((h, log ++ session []), None, err).
Proof. exact by_none. Qed.
(** The first incomplete header ends the lookup: NULL, a message that names the first missing member, and nothing but
    that message is left in memory, whatever had been found before. *)
Theorem C81_incomplete : forall f t lib h log key err hs1 hd hs2 ps i m word, In (f, t) lookups -> config_fails lib = false ->
  matches lib t key (length key) = hs1 ++ hd :: hs2 -> Forall2 describes hs1 ps -> lacks hd i m word ->
  exists h' a evs, f (Some lib) (h, log) key err = Ok ((h', log ++ session (released (6 * length ps) ++ evs)), None, Some a) /\
    only_message h h' a (L "Failed to find package " ++ word ++ L ".") /\ says i (no_tag hd m) evs.
Proof. exact by_lacks. Qed.
(** These are all the cases: the answer of the database is complete, or it has a first header without a first member. *)
Theorem C81_cases : forall hs, (exists ps, Forall2 describes hs ps) \/
  (exists hs1 hd hs2 ps i t word, hs = hs1 ++ hd :: hs2 /\ Forall2 describes hs1 ps /\ lacks hd i t word).
Proof. exact answer_cases. Qed.
(** Without librpm, or without its configuration: NULL and a message that says so; librpm is not used further. *)
Theorem C81_unavailable : forall f t lib h log key err, In (f, t) lookups ->
  match lib with Some lib => config_fails lib = true | None => True end ->
  exists h' a, f lib (h, log) key err = Ok ((h', log), None, Some a) /\
    only_message h h' a (match lib with Some _ => L "Failed to read RPM configuration files." | None => L "satyr compiled without rpm" end).
Proof. exact by_unavailable. Qed.
(** "Every installed package can be looked up" is false: most packages have no epoch, and one such package among the
    answers makes the lookup fail, however complete the others are. *)
Theorem C81_no_epoch_refuted : forall f t lib h log key err hd, In (f, t) lookups -> config_fails lib = false ->
  In hd (matches lib t key (length key)) -> ~ gives hd EPOCH ->
  exists h' log' a, f (Some lib) (h, log) key err = Ok ((h', log'), None, Some a).
Proof. exact by_no_epoch. Qed.
(** "Every container obtained from librpm is released" is false: when the header has no such tag, it is lost. *)
Theorem C81_containers_refuted : forall f t lib h key err hs1 hd hs2 ps i m word, In (f, t) lookups -> config_fails lib = false ->
  matches lib t key (length key) = hs1 ++ hd :: hs2 -> Forall2 describes hs1 ps -> lacks hd i m word -> no_tag hd m ->
  exists h' log' a, f (Some lib) (h, []) key err = Ok ((h', log'), None, Some a) /\ times DataNew log' = S (times DataFree log').
Proof. exact by_leak. Qed.

(** ** The hypotheses can be met *)
Definition bash (release : str) (epoch : option (option Z)) : header :=
  mk_header (fun t => match t with NAME => Some (Some (L "bash")) | VERSION => Some (Some (L "5.0")) | RELEASE => Some (Some release)
                      | ARCH => Some (Some (L "x86_64")) | _ => None end)
            (fun t => match t with EPOCH => epoch | INSTALLTIME => Some (Some 1363628422%Z) | _ => None end).
Definition db (hs : list header) : librpm :=
  mk_librpm false (fun t key n => match t with NAME => if list_eq_dec ascii_dec key (L "bash") then if Nat.eqb n 4 then hs else [] else [] | _ => [] end).
Definition pkg (release : str) : rpm_package :=
  mk_rpm_package (Some (L "bash")) 1 (Some (L "5.0")) (Some release) (Some (L "x86_64")) 1363628422 ROLE_UNKNOWN [].
Example C81_example_found : exists h' p,
  sr_rpm_package_get_by_name (Some (db [bash (L "1") (Some (Some 1%Z)); bash (L "2") (Some (Some 1%Z))])) ([CFree; CStr (L "old")], []) (L "bash") None =
    Ok ((h', session (released 12)), p, None) /\ found [CFree; CStr (L "old")] h' p [pkg (L "1"); pkg (L "2")].
Proof.
  refine (C81_found sr_rpm_package_get_by_name NAME (db _) _ [] (L "bash") None [_; _] _ eq_refl _); [left; reflexivity|].
  constructor; [|constructor; [|constructor]]; do 6 eexists; repeat split; reflexivity.
Qed.
Example C81_example_lacks : lacks (bash (L "2") None) 1 EPOCH (L "epoch") /\ no_tag (bash (L "2") None) EPOCH /\
  exists h' a, sr_rpm_package_get_by_name (Some (db [bash (L "1") (Some (Some 1%Z)); bash (L "2") None])) ([], []) (L "bash") None =
    Ok ((h', session (released 7 ++ [DataNew])), None, Some a) /\ only_message [] h' a (L "Failed to find package epoch.").
Proof.
  assert (La : lacks (bash (L "2") None) 1 EPOCH (L "epoch")).
  { split; [reflexivity|]. split; [intros (z & X); discriminate X|]. intros [|j] t w J M; [injection M as <- <-; exists (L "bash"); reflexivity|lia]. }
  split; [exact La|]. split; [reflexivity|].
  destruct (C81_incomplete sr_rpm_package_get_by_name NAME (db [bash (L "1") (Some (Some 1%Z)); bash (L "2") None]) [] [] (L "bash") None
    [bash (L "1") (Some (Some 1%Z))] (bash (L "2") None) [] [pkg (L "1")] 1 EPOCH (L "epoch") (or_introl eq_refl) eq_refl eq_refl) as (h' & a & evs & E & O & V & _).
  - repeat constructor. do 6 eexists. repeat split; reflexivity.
  - exact La.
  - rewrite (V eq_refl) in E. exists h', a. split; [exact E|exact O].
Qed.
(** Computed, with a string member the library gives no text for: the list found before is freed *)
Example C81_example_run :
  sr_rpm_package_get_by_name (Some (db [bash (L "1") (Some (Some 1%Z)); bash (L "2") (Some None)])) ([], []) (L "bash") None =
    Ok (([CFree; CFree; CFree; CFree; CFree; CFree; CFree; CStr (L "Failed to find package epoch.")], session (released 8)), None, Some 7).
Proof. reflexivity. Qed.
Example C81_example_path :
  sr_rpm_package_get_by_path (Some (mk_librpm false (fun t _ _ => match t with BASENAMES => [bash (L "1") (Some (Some 1%Z))] | _ => [] end))) ([], []) (L "/bin/sh") None =
    Ok (([CObj KRpm [1; 1363628422; 0]%Z [Some 1; Some 2; Some 3; Some 4] [None] None [] None; CStr (L "bash"); CStr (L "5.0"); CStr (L "1"); CStr (L "x86_64")],
         session (released 6)), Some 0, None).
Proof. reflexivity. Qed.
Print Assumptions C81_found.
Print Assumptions C81_none.
Print Assumptions C81_incomplete.
Print Assumptions C81_cases.
Print Assumptions C81_unavailable.
Print Assumptions C81_no_epoch_refuted.
Print Assumptions C81_containers_refuted.
