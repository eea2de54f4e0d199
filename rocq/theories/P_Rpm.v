(** * Properties C47-C49: package names, package lists, the dso_list file. *)
From Verif Require Import Base Types UtilsModel UtilsSpec JsonModel CmpModel CmpSpec CmpProofs RpmModel RpmSpec RpmProofs RpmProofs2 RpmProofs3 RpmProofs4.
From Coq Require Import Sorted.
Open Scope nat_scope.

(** C47.  The parsers accept exactly the texts of the right form and return the parts. *)
Theorem C47_nvr : forall text name version release,
  sr_rpm_package_parse_nvr text = Some (name, version, release) <-> is_nvr text name version release.
Proof. exact nvr_correct. Qed.
Theorem C47_nevra : forall text name epoch version release architecture,
  sr_rpm_package_parse_nevra text = Accepted name epoch version release architecture <->
  is_nevra text name epoch version release architecture.
Proof. exact nevra_accepted. Qed.
(** Formatted packages are read back, with and without an epoch. *)
Theorem C47_nevra_roundtrip : forall name epoch version release architecture,
  name <> [] -> version <> [] -> release <> [] ->
  ~ In "-"%char version -> ~ In "-"%char release -> ~ In "-"%char architecture -> ~ In "."%char architecture ->
  (epoch < 4294967296)%N ->
  sr_rpm_package_parse_nevra (name ++ L "-" ++ print_N epoch ++ L ":" ++ version ++ L "-" ++ release ++ L "." ++ architecture) =
  Accepted name epoch version release architecture.
Proof. exact nevra_roundtrip. Qed.
Theorem C47_nevra_roundtrip_no_epoch : forall name version release architecture,
  name <> [] -> version <> [] -> release <> [] -> ~ In ":"%char version ->
  ~ In "-"%char version -> ~ In "-"%char release -> ~ In "-"%char architecture -> ~ In "."%char architecture ->
  sr_rpm_package_parse_nevra (name ++ L "-" ++ version ++ L "-" ++ release ++ L "." ++ architecture) =
  Accepted name 0 version release architecture.
Proof. exact nevra_roundtrip0. Qed.
(** Every other text is rejected; freed pointers are left in the results exactly when the text has the
    right form with an epoch that is not a number below 2^32. *)
Theorem C47_dangling : forall text, sr_rpm_package_parse_nevra text = Dangling <-> bad_epoch text.
Proof. exact nevra_dangling. Qed.
Theorem C47_rejected : forall text, sr_rpm_package_parse_nevra text = Rejected <->
  ~ bad_epoch text /\ forall name epoch version release architecture, ~ is_nevra text name epoch version release architecture.
Proof.
  intros text. rewrite <- nevra_dangling. split.
  - intros E. split; [congruence|]. intros n e v r a H. apply nevra_accepted in H. congruence.
  - intros [H1 H2]. destruct (sr_rpm_package_parse_nevra text) as [n e v r a| |] eqn:E; [|reflexivity|congruence].
    apply nevra_accepted in E. elim (H2 _ _ _ _ _ E).
Qed.
(** So "a rejected text leaves no results" is false, and the caller that frees them is undefined. *)
Theorem C47_no_outputs_refuted : exists text, sr_rpm_package_parse_nevra text = Dangling.
Proof. exists (L "foo-a:1-1.x"). vm_compute. reflexivity. Qed.
Example C47_case : sr_rpm_package_parse_nevra (L "xorg-x11-server-2:1.14-3.fc20.x86_64") =
  Accepted (L "xorg-x11-server") 2 (L "1.14") (L "3.fc20") (L "x86_64").
Proof. vm_compute. reflexivity. Qed.
Example C47_case_nvr : is_nvr (L "gnome-shell-3.1-2.fc20") (L "gnome-shell") (L "3.1") (L "2.fc20").
Proof. apply C47_nvr. vm_compute. reflexivity. Qed.
Example C47_case_rejected : map sr_rpm_package_parse_nevra [L "foo"; L "foo-1"; L "foo-1-2"; L "-1-2.x"; L "foo--2.x"; L "foo-:1-2.x"] =
  [Rejected; Rejected; Rejected; Rejected; Rejected; Rejected].
Proof. vm_compute. reflexivity. Qed.

(** C48.  Sorting gives a sorted permutation (qsort as the C standard has it; epochs below 2^31). *)
Theorem C48_sort : forall qsort l, sorts qsort -> Forall (fun p => small (rp_epoch p)) l -> l <> [] ->
  exists s, sr_rpm_package_sort qsort l = Ok s /\ Permutation l s /\ StronglySorted (fun p q => (rpm_cmp_nevra p q <= 0)%Z) s.
Proof. exact sort_correct. Qed.
(** There is such a qsort. *)
Theorem C48_sort_case : sorts isort.
Proof. exact isort_sorts. Qed.
(** Removing duplicates replaces consecutive groups of records of one package by one record that keeps
    the first known architecture, install time and role. *)
Theorem C48_uniq : forall l, exists groups, concat groups = l /\ Forall2 merged groups (sr_rpm_package_uniq l).
Proof. exact uniq_correct. Qed.
(** No two neighbours are the same package afterwards. *)
Theorem C48_uniq_apart : forall l before p q after, sr_rpm_package_uniq l = before ++ p :: q :: after -> ~ same_package p q.
Proof. exact uniq_neighbours. Qed.
(** After sorting no two packages are. *)
Theorem C48_sorted_uniq : forall qsort l s, sorts qsort -> Forall (fun p => small (rp_epoch p)) l ->
  sr_rpm_package_sort qsort l = Ok s -> ForallOrdPairs (fun p q => ~ same_package p q) (sr_rpm_package_uniq s).
Proof. exact sort_uniq. Qed.
(** Sorting an empty list reads outside the array. *)
Theorem C48_sort_empty_refuted : forall qsort, sr_rpm_package_sort qsort [] = UB.
Proof. reflexivity. Qed.
(** With larger epochs the comparison wraps and is not an order: each of three packages is before the next. *)
Definition pkg (name : string) (epoch : Z) (arch : option str) (time : Z) (role : package_role) : rpm_package :=
  mk_rpm_package (Some (L name)) epoch (Some (L "1")) (Some (L "1")) arch time role [].
Theorem C48_order_refuted : exists p q r,
  (rpm_cmp_nevra p q < 0)%Z /\ (rpm_cmp_nevra q r < 0)%Z /\ (rpm_cmp_nevra r p < 0)%Z.
Proof.
  exists (pkg "a" 0 None 0 ROLE_UNKNOWN), (pkg "a" 2000000000 None 0 ROLE_UNKNOWN), (pkg "a" 4000000000 None 0 ROLE_UNKNOWN).
  vm_compute. repeat split; reflexivity.
Qed.
Definition c48 : list rpm_package :=
  [pkg "b" 1 (Some (L "x")) 5 ROLE_UNKNOWN; pkg "a" 0 (Some (L "x")) 0 ROLE_UNKNOWN; pkg "b" 1 None 7 ROLE_AFFECTED; pkg "b" 2 None 7 ROLE_UNKNOWN].
Example C48_case : Forall (fun p => small (rp_epoch p)) c48 /\
  (do s <- sr_rpm_package_sort isort c48; Ok (sr_rpm_package_uniq s)) =
  Ok [pkg "a" 0 (Some (L "x")) 0 ROLE_UNKNOWN; pkg "b" 1 (Some (L "x")) 7 ROLE_AFFECTED; pkg "b" 2 None 7 ROLE_UNKNOWN].
Proof. split; [repeat constructor; cbn; unfold small; lia|vm_compute; reflexivity]. Qed.

(** C49.  The packages are those of the well-formed lines, in order; no text reads outside its bounds,
    and only a bad epoch (C47) is undefined. *)
Theorem C49_correct : forall text,
  match sr_abrt_parse_dso_list text with
  | Ok ps => ~ hazard text /\ exists ls, lines text ls /\ dso_lines ls ps
  | Fail => False
  | UB => hazard text
  end.
Proof. exact dso_correct. Qed.
(** The lines and their packages are determined. *)
Theorem C49_unique : forall text ls ls' ps ps', lines text ls -> lines text ls' -> dso_lines ls ps -> dso_lines ls' ps' -> ls = ls' /\ ps = ps'.
Proof.
  intros text ls ls' ps ps' A B C D. assert (E := lines_fun text ls A ls' B). subst ls'. split; [reflexivity|].
  exact (dso_lines_fun ls ps C ps' D).
Qed.
(** A file written in the format of abrt is read back. *)
Theorem C49_roundtrip : forall es, Forall dso_entry_ok es -> sr_abrt_parse_dso_list (concat (map dso_entry_line es)) = Ok (map de_package es).
Proof. exact dso_roundtrip. Qed.
Theorem C49_total_refuted : exists text, sr_abrt_parse_dso_list text = UB.
Proof. exists (L "/usr/lib/libfoo.so foo-a:1-1.x (Fedora) 12" ++ [nl]). vm_compute. reflexivity. Qed.
(** A last line without newline is not read. *)
Theorem C49_last_line_refuted : exists line p, dso_line line p /\ sr_abrt_parse_dso_list line = Ok [] /\
  sr_abrt_parse_dso_list (line ++ [nl]) = Ok [p].
Proof.
  exists (L "/lib/a.so foo-1-1.x (Fedora) 12"), (mk_rpm_package (Some (L "foo")) 0 (Some (L "1")) (Some (L "1")) (Some (L "x")) 12 ROLE_UNKNOWN []).
  split; [|split; vm_compute; reflexivity].
  pose proof (dso_correct (L "/lib/a.so foo-1-1.x (Fedora) 12" ++ [nl])) as H.
  assert (E : sr_abrt_parse_dso_list (L "/lib/a.so foo-1-1.x (Fedora) 12" ++ [nl]) =
    Ok [mk_rpm_package (Some (L "foo")) 0 (Some (L "1")) (Some (L "1")) (Some (L "x")) 12 ROLE_UNKNOWN []]) by (vm_compute; reflexivity).
  rewrite E in H. destruct H as [_ (ls & Hl & Hd)].
  assert (ls = [L "/lib/a.so foo-1-1.x (Fedora) 12"]) as ->.
  { apply (lines_fun _ _ Hl). apply (lines_more (L "/lib/a.so foo-1-1.x (Fedora) 12") [] []); [|constructor; intros []].
    cbn. intuition discriminate. }
  inversion Hd as [|? ? ? ? K ?|? ? ? ? K]; subst; [exact K|inversion K].
Qed.
Definition c49 : list dso_entry :=
  [mk_dso_entry (L "/lib64/libc.so.6") (L "glibc-2:2.17-20.fc19.x86_64") (L "Fedora Project")
     (mk_rpm_package (Some (L "glibc")) 2 (Some (L "2.17")) (Some (L "20.fc19")) (Some (L "x86_64")) 1390000000 ROLE_UNKNOWN []);
   mk_dso_entry (L "/lib64/libm.so.6") (L "glibc-lib-2.17-20.fc19.x86_64") (L "")
     (mk_rpm_package (Some (L "glibc-lib")) 0 (Some (L "2.17")) (Some (L "20.fc19")) (Some (L "x86_64")) 0 ROLE_UNKNOWN [])].
Example C49_case : Forall dso_entry_ok c49.
Proof.
  assert (X : forall c (s : str), existsb (Ascii.eqb c) s = false -> ~ In c s).
  { intros c s H K. assert (existsb (Ascii.eqb c) s = true); [|congruence]. apply existsb_exists. exists c. split; [assumption|apply Ascii.eqb_refl]. }
  constructor; [|constructor; [|constructor]].
  - unfold dso_entry_ok. cbn [de_library de_nevra de_vendor de_package rp_install_time]. do 4 (split; [apply X; vm_compute; reflexivity|]).
    split; [|lia]. exists (L "glibc"), 2%N, (L "2.17"), (L "20.fc19"), (L "x86_64"). split; [|reflexivity]. apply nevra_accepted. vm_compute. reflexivity.
  - unfold dso_entry_ok. cbn [de_library de_nevra de_vendor de_package rp_install_time]. do 4 (split; [apply X; vm_compute; reflexivity|]).
    split; [|lia]. exists (L "glibc-lib"), 0%N, (L "2.17"), (L "20.fc19"), (L "x86_64"). split; [|reflexivity]. apply nevra_accepted. vm_compute. reflexivity.
Qed.
Example C49_case_text : concat (map dso_entry_line (firstn 1 c49)) = L "/lib64/libc.so.6 glibc-2:2.17-20.fc19.x86_64 (Fedora Project) 1390000000" ++ [nl].
Proof. vm_compute. reflexivity. Qed.
Example C49_case_mixed : sr_abrt_parse_dso_list (L "nonsense" ++ [nl] ++ L "/l a-1-2.x (v w) z" ++ [nl] ++ L "/l b-1-2.x (v w) 9z" ++ [nl]) =
  Ok [mk_rpm_package (Some (L "b")) 0 (Some (L "1")) (Some (L "2")) (Some (L "x")) 9 ROLE_UNKNOWN []].
Proof. vm_compute. reflexivity. Qed.
Print Assumptions C47_nvr.
Print Assumptions C47_nevra.
Print Assumptions C47_nevra_roundtrip.
Print Assumptions C47_nevra_roundtrip_no_epoch.
Print Assumptions C47_dangling.
Print Assumptions C47_rejected.
Print Assumptions C47_no_outputs_refuted.
Print Assumptions C48_sort.
Print Assumptions C48_sort_case.
Print Assumptions C48_uniq.
Print Assumptions C48_uniq_apart.
Print Assumptions C48_sorted_uniq.
Print Assumptions C48_sort_empty_refuted.
Print Assumptions C48_order_refuted.
Print Assumptions C49_correct.
Print Assumptions C49_unique.
Print Assumptions C49_roundtrip.
Print Assumptions C49_total_refuted.
Print Assumptions C49_last_line_refuted.
