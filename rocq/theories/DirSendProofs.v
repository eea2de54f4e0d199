(** * The parts of a problem directory are made of bytes of its files. *)
From Coq Require Import Permutation.
From Verif Require Import Base Types UtilsModel UtilsSpec JsonSpec JsonTypesModel JsonTypesSpec TextModel RpmModel RpmSpec RpmProofs RpmProofs2 RpmProofs3 SystemModel SystemSpec SystemProofs2
  ReportModel ReportSpec FileModel AbrtModel AbrtSpec JsonKeepSpec ResendSpec ParseSendSpec ParseSendProofs ParseSendProofs2 DirSendSpec.
Open Scope Z_scope.

Lemma first_line_safe text line : first_line text line -> json_safe text -> json_safe line.
Proof. intros (_ & [->|(r & ->)]) S; [exact S|]. apply safe_app in S. tauto. Qed.
Lemma lines_of_safe text ls : lines_of text ls -> json_safe text -> Forall json_safe ls.
Proof.
  induction 1 as [|l _ _|l rest ls _ _ IH]; intros S; [constructor|constructor; [exact S|constructor]|].
  rewrite safe_app, safe_cons in S. constructor; [tauto|apply IH; tauto].
Qed.
Lemma unquoted_safe raw v : unquoted raw v -> json_safe raw -> json_safe v.
Proof.
  induction 1; intros S; [constructor|constructor| | |]; rewrite ?safe_cons in S; rewrite ?safe_cons; tauto.
Qed.
Lemma os_line_safe l ps : os_line l ps -> json_safe l -> Forall (fun p => json_safe (snd p)) ps.
Proof.
  destruct 1 as [| | |k raw v _ _ _ U]; intros S; try constructor; [|constructor]. cbn. rewrite safe_app, safe_cons in S. now apply (unquoted_safe raw).
Qed.
Lemma os_lines_safe ls ps : os_lines ls ps -> Forall json_safe ls -> Forall (fun p => json_safe (snd p)) ps.
Proof.
  induction 1 as [|l ls ps qs H _ IH]; intros S; [constructor|]. inversion S; subst. apply Forall_app. split; [now apply (os_line_safe l)|auto].
Qed.
Lemma last_of_safe key ps old new : SystemSpec.last_of key ps old new -> Forall (fun p => json_safe (snd p)) ps -> opt_safe old -> opt_safe new.
Proof.
  intros [(-> & _)|(a & v & b & -> & -> & _)] F O; [exact O|]. apply Forall_app in F. destruct F as (_ & F). inversion F. assumption.
Qed.
Lemma first_of_safe key ps new : SystemSpec.first_of key ps new -> Forall (fun p => json_safe (snd p)) ps -> opt_safe new.
Proof.
  intros [(-> & _)|(a & v & b & -> & -> & _)] F; [exact Logic.I|]. apply Forall_app in F. destruct F as (_ & F). inversion F. assumption.
Qed.
Lemma lower_safe c e : lower_case c e -> json_safe_char c -> json_safe_char e.
Proof.
  intros [(i & _ & H)|(_ & ->)] S; [|exact S]. apply nth_error_In in H. left.
  assert (F : Forall (fun c => (32 <= code c)%N) lower) by (repeat (constructor; [vm_compute; discriminate|]); constructor).
  rewrite Forall_forall in F. exact (F _ H).
Qed.
Lemma lowers_safe a b : Forall2 lower_case a b -> json_safe a -> json_safe b.
Proof.
  induction 1 as [|c e a b H _ IH]; intros S; [constructor|]. apply safe_cons in S. apply safe_cons. split; [now apply (lower_safe c)|tauto].
Qed.
Lemma release_safe text name version : system_release text name version -> json_safe text -> json_safe name /\ json_safe version.
Proof.
  intros (before & after & number & rest & ((-> & _) & N & (E & _) & ->)) S. rewrite !safe_app in S. destruct S as (B & _ & A). split.
  - destruct N as [(_ & ->)|(_ & _ & F)]; [now apply safe_literal|exact (lowers_safe _ _ F B)].
  - destruct number; [exact A|]. rewrite E in A. apply safe_app in A. tauto.
Qed.
Lemma variable_safe key text v : variable key text v -> json_safe text -> json_safe v.
Proof. intros (before & after & rest & (-> & _) & _ & -> & _) S. rewrite !safe_app in S. tauto. Qed.

Section Files.
Variable d : directory.
Hypothesis F : safe_files d.

Lemma os_safe_from_dir os : sr_abrt_operating_system_from_dir d = Ok os -> os_safe os.
Proof.
  intros H. apply os_from_dir_ok in H. destruct H as (A & _ & De & _ & _ & os1 & I & C & V & N).
  assert (S1 : opt_safe (os_name os1) /\ opt_safe (os_version os1) /\ opt_safe (os_cpe os1) /\ opt_safe (os_variant os1)).
  { destruct (d (L "os_info")) as [| |text] eqn:E; [subst os1; repeat split|subst os1; repeat split|].
    destruct I as (ls & ps & Li & P & (D1 & D2 & D3 & D4 & _)). apply F in E. apply lines_of_safe in Li; [|exact E]. apply os_lines_safe in P; [|exact Li].
    split; [apply (last_of_safe _ _ _ _ D1 P); exact Logic.I|]. split; [|split; [apply (last_of_safe _ _ _ _ D3 P); exact Logic.I|apply (last_of_safe _ _ _ _ D4 P); exact Logic.I]].
    destruct D2 as [(_ & ->)|(_ & [(_ & ->)|(_ & D2)])]; [now apply safe_literal|exact Logic.I|exact (first_of_safe _ _ _ D2 P)]. }
  destruct S1 as (S1 & S2 & S3 & S4). unfold os_safe. rewrite C, V, De.
  assert (NV : opt_safe (os_name os) /\ opt_safe (os_version os)).
  { destruct N as [(_ & _ & -> & ->)|(_ & text & name & version & E & R & -> & ->)]; [tauto|]. apply F in E. exact (release_safe _ _ _ R E). }
  split; [tauto|]. split; [tauto|]. split; [destruct (os_architecture os); [exact (F _ _ A)|exact Logic.I]|]. split; [exact S3|]. split; [|exact S4].
  destruct (desktop_from_dir d) eqn:E; [|exact Logic.I]. apply desktop_iff in E. destruct E as (text & T & W). exact (variable_safe _ _ _ W (F _ _ T)).
Qed.

Lemma component_safe c : component_of d c -> opt_safe c.
Proof.
  destruct c as [c|]; [|intros; exact Logic.I]. intros [(_ & H)|(_ & path & base & H & (_ & B) & ->)]; [exact (F _ _ H)|].
  apply F in H. apply safe_app. split; [|now apply safe_literal]. destruct B as [->|(dir & ->)]; [exact H|]. rewrite !safe_app in H. tauto.
Qed.

Definition package_good (p : rpm_package) : Prop := package_safe p /\ package_range p /\ rp_consistency p = [].
Lemma nevra_safe text name n version release architecture : is_nevra text name n version release architecture -> json_safe text ->
  json_safe name /\ json_safe version /\ json_safe release /\ json_safe architecture /\ u32 (Z.of_N n).
Proof.
  intros (epoch & (-> & _) & E) S. rewrite !safe_app in S. repeat (split; [tauto|]).
  destruct epoch as [e|]; cbn in E; [|subst n; unfold u32, two32; lia].
  unfold is_epoch in E. unfold u32, two32. decompose [ex and] E. lia.
Qed.
Lemma dso_line_safe line p : dso_line line p -> json_safe line -> package_good p.
Proof.
  intros (lib & text & middle & digits & junk & name & n & v & r & a & time & -> & _ & _ & _ & _ & _ & N & _ & T & _ & ->) S.
  rewrite !safe_app in S. apply nevra_safe in N; [|tauto]. split; [|split; [|reflexivity]].
  - unfold package_safe. cbn. tauto.
  - unfold package_range. cbn. split; [tauto|]. unfold u64, two64. lia.
Qed.
Lemma lines_safe text ls : lines text ls -> json_safe text -> Forall json_safe ls.
Proof.
  induction 1 as [|l s r _ _ IH]; intros S; [constructor|]. rewrite safe_app, safe_cons in S. constructor; [tauto|apply IH; tauto].
Qed.
Lemma dso_lines_safe ls ps : dso_lines ls ps -> Forall json_safe ls -> Forall package_good ps.
Proof.
  induction 1 as [|l p r ps H _ IH|l r ps _ _ IH]; intros S; [constructor| |]; inversion S; subst; [|auto]. constructor; [now apply (dso_line_safe l)|auto].
Qed.
Lemma first_known_in {A B} (get : A -> B) u l v : first_known get u l v -> v = u \/ exists a, In a l /\ get a = v.
Proof. intros [(-> & _)|(_ & b & a & c & -> & E & _)]; [now left|]. right. exists a. split; [apply in_app_iff; right; now left|exact E]. Qed.
Lemma merged_good g m : merged g m -> Forall package_good g -> package_good m.
Proof.
  intros [->|(Le & N & _ & A & T & _ & C)] G; [inversion G; assumption|]. rewrite Forall_forall in G.
  destruct g as [|p g]; [cbn in Le; lia|]. inversion N as [|? ? (N1 & N2 & N3 & N4) _]; subst. destruct (G p (or_introl eq_refl)) as ((P1 & P2 & P3 & _) & (P4 & _) & _).
  assert (Ar : opt_safe (rp_architecture m)).
  { apply first_known_in in A. destruct A as [->|(a & I & <-)]; [exact Logic.I|]. apply G in I. apply I. }
  assert (Ti : u64 (rp_install_time m)).
  { apply first_known_in in T. destruct T as [->|(a & I & <-)]; [unfold u64, two64; lia|]. apply G in I. apply I. }
  split; [|split; [|exact C]]; unfold package_safe, package_range in *.
  - split; [congruence|]. split; [congruence|]. split; [congruence|exact Ar].
  - split; [congruence|exact Ti].
Qed.
Lemma crashed_good p : rpm_pkg_from_dir d = Ok p -> package_good p.
Proof.
  intros H. pose proof (pkg_from_dir_ok _ _ H) as (epoch & name & version & release & architecture & n & v & r & a & _ & E1 & E2 & E3 & E4 & L1 & L2 & L3 & L4 & R1 & R2 & R3 & R4 & _ & _ & T).
  split; [|split].
  - unfold package_safe. rewrite R1, R2, R3, R4. cbn.
    split; [exact (first_line_safe _ _ L1 (F _ _ E1))|]. split; [exact (first_line_safe _ _ L2 (F _ _ E2))|]. split; [exact (first_line_safe _ _ L3 (F _ _ E3))|exact (first_line_safe _ _ L4 (F _ _ E4))].
  - split; [|rewrite T; unfold u64, two64; lia]. unfold rpm_pkg_from_dir in H. destruct (file_contents d (L "pkg_epoch")); [|discriminate].
    destruct (_ =? _)%N; [discriminate|]. repeat (destruct (file_contents _ _); [|discriminate]). injection H as <-. cbn. unfold u32, two32.
    match goal with |- context [(?x mod 4294967296)%N] => pose proof (N.mod_lt x 4294967296 ltac:(discriminate)); set (y := (x mod 4294967296)%N) in * end. lia.
  - unfold rpm_pkg_from_dir in H. destruct (file_contents d (L "pkg_epoch")); [|discriminate].
    destruct (_ =? _)%N; [discriminate|]. repeat (destruct (file_contents _ _); [|discriminate]). now injection H as <-.
Qed.
Lemma uniq_good l : Forall package_good l -> Forall package_good (sr_rpm_package_uniq l).
Proof.
  intros G. destruct (uniq_correct l) as (groups & E & M). rewrite <- E in G. apply List.Forall_concat in G. clear E.
  set (ms := sr_rpm_package_uniq l) in *. clearbody ms. clear l. revert G. induction M as [|g m gs ms H _ IH]; intros G; [constructor|].
  inversion G; subst. constructor; [now apply (merged_good g)|auto].
Qed.
Lemma packages_good qsort ps : moves qsort -> sr_abrt_rpm_packages_from_dir qsort d = Ok ps -> Forall package_good ps.
Proof.
  intros Q H. unfold sr_abrt_rpm_packages_from_dir in H.
  assert (G1 : forall c, (if is_packaged d then do p <- rpm_pkg_from_dir d; Ok [p] else Ok []) = Ok c -> Forall package_good c).
  { intros c E. destruct (is_packaged d); [|injection E as <-; constructor]. destruct (rpm_pkg_from_dir d) as [p| |] eqn:P; try discriminate. injection E as <-.
    constructor; [now apply crashed_good|constructor]. }
  destruct (if is_packaged d then _ else _) as [c| |]; try discriminate. cbn [bind] in H. specialize (G1 c eq_refl).
  assert (G2 : forall m, (if file_exist d (L "dso_list") then do ps <- rpm_dso_list_from_dir qsort c d; match ps with [] => Fail | _ => Ok ps end else Ok c) = Ok m -> Forall package_good m).
  { intros m E. destruct (file_exist d (L "dso_list")); [|injection E as <-; exact G1]. destruct (rpm_dso_list_from_dir qsort c d) as [ps'| |] eqn:P; try discriminate.
    assert (Em : m = ps') by (destruct ps'; cbn in E; congruence). subst m. clear E. unfold rpm_dso_list_from_dir, file_contents in P.
    destruct (d (L "dso_list")) as [| |text] eqn:T; [injection P as <-; exact G1|injection P as <-; exact G1|].
    pose proof (dso_correct text) as K. destruct (sr_abrt_parse_dso_list text) as [dso| |]; try discriminate. cbn [bind] in P. destruct K as (_ & ls & K1 & K2).
    apply F in T. apply lines_safe in K1; [|exact T]. apply dso_lines_safe in K2; [|exact K1]. destruct dso as [|q dso]; [injection P as <-; exact G1|].
    unfold sr_rpm_package_sort in P. destruct (c ++ q :: dso) as [|x l] eqn:E; [discriminate|]. injection P as <-. apply uniq_good.
    apply (Permutation_Forall (Q _ _)). rewrite <- E. apply Forall_app. split; assumption. }
  destruct (if file_exist d (L "dso_list") then _ else _) as [m| |]; try discriminate. cbn [bind] in H. specialize (G2 m eq_refl).
  destruct (file_exist d (L "interpreter")); [|injection H as <-; exact G2]. unfold rpm_interpreter_from_dir, file_contents in H.
  destruct (d (L "interpreter")) as [| |text] eqn:T; [injection H as <-; exact G2|injection H as <-; exact G2|]. apply F in T.
  destruct (sr_rpm_package_parse_nevra text) as [n k v r a| |] eqn:E; [|injection H as <-; exact G2|discriminate]. injection H as <-.
  apply Forall_app. split; [exact G2|]. constructor; [|constructor]. apply nevra_accepted in E. apply nevra_safe in E; [|exact T].
  split; [|split; [|reflexivity]]; unfold package_safe, package_range; cbn; [tauto|]. split; [tauto|]. unfold u64, two64. lia.
Qed.
Lemma uptime_callback l os : os_uptime (fold_left os_release_callback l os) = os_uptime os.
Proof.
  revert os. induction l as [|[k v] l IH]; intros os; [reflexivity|]. cbn [fold_left]. rewrite IH. unfold os_release_callback.
  destruct (str_eqb k (L "ID")); [reflexivity|]. destruct (str_eqb k (L "VERSION_ID")); [destruct (os_version os); reflexivity|].
  destruct (_ && _); [reflexivity|]. destruct (str_eqb k (L "CPE_NAME")); [reflexivity|]. destruct (str_eqb k (L "VARIANT_ID")); reflexivity.
Qed.
Lemma uptime_zero os : sr_abrt_operating_system_from_dir d = Ok os -> os_uptime os = 0.
Proof.
  unfold sr_abrt_operating_system_from_dir.
  assert (K : forall r, match file_contents d (L "os_info") with Some text => sr_operating_system_parse_etc_os_release text os_new | None => Ok (false, os_new) end = Ok r -> os_uptime (snd r) = 0).
  { intros r. destruct (file_contents d (L "os_info")) as [s|]; [|intros E; injection E as <-; reflexivity]. unfold sr_operating_system_parse_etc_os_release.
    destruct (sr_parse_os_release s); try discriminate. cbn [bind]. intros E. injection E as <-. apply uptime_callback. }
  destruct (match file_contents d (L "os_info") with Some _ => _ | None => _ end) as [[b o]| |]; try discriminate. specialize (K _ eq_refl). cbn [snd] in K. cbn [bind].
  destruct b.
  - destruct (file_contents d (L "architecture")); [|discriminate]. intros E. injection E as <-. exact K.
  - destruct (file_contents d (L "os_release")) as [t|]; [|discriminate]. destruct (sr_operating_system_parse_etc_system_release t) as [[[] n] v]; [|discriminate].
    destruct (file_contents d (L "architecture")); [|discriminate]. intros E. injection E as <-. exact K.
Qed.
End Files.
