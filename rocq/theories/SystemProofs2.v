(** * Proofs: problem directories. *)
From Verif Require Import Base Types UtilsModel UtilsSpec UtilsProofs JsonProofs CmpModel CmpSpec CmpProofs NormSpec RpmModel RpmSpec RpmProofs RpmProofs2 RpmProofs3 RpmProofs4 SystemModel SystemSpec SystemProofs.
From Coq Require Import Sorted.
Open Scope nat_scope.

Lemma strip_first_line s : first_line s (strip_newline s).
Proof.
  unfold strip_newline. destruct (strchrnul s nl) as [a b] eqn:E. apply strchrnul_spec in E as (-> & Ha & Hb). cbn [fst].
  split; [assumption|]. destruct b as [|c b]; [left; now rewrite app_nil_r|]. subst c. right. exists b. reflexivity.
Qed.
Lemma first_line_fun s l m : first_line s l -> first_line s m -> l = m.
Proof.
  intros [A [->|[r ->]]] [B [E|[r' E]]].
  - assumption.
  - elim A. rewrite E. apply in_or_app. right. now left.
  - elim B. rewrite <- E. apply in_or_app. right. now left.
  - revert m A B E. induction l as [|c l IH]; intros [|d m] A B E; cbn [app] in E.
    + reflexivity.
    + injection E as <- _. elim B. now left.
    + injection E as -> _. elim A. now left.
    + injection E as -> E. f_equal. apply IH; [| |assumption]; intros X; [apply A|apply B]; now right.
Qed.

(** ** Numbers *)
Lemma sign_split blank sign digits junk : Forall space_char blank -> (sign = [] \/ sign = L "+" \/ sign = L "-") ->
  digits <> [] -> Forall (fun c => is_digit c = true) digits -> (forall c r, junk = c :: r -> decimal_digit c = None) ->
  snd (span is_space (blank ++ sign ++ digits ++ junk)) = sign ++ digits ++ junk /\
  match sign ++ digits ++ junk with
  | [] => (false, sign ++ digits ++ junk)
  | c :: r => if Ascii.eqb c "-" then (true, r) else if Ascii.eqb c "+" then (false, r) else (false, sign ++ digits ++ junk)
  end = (if str_eqb sign (L "-") then true else false, digits ++ junk) /\
  span is_digit (digits ++ junk) = (digits, junk).
Proof.
  intros Hb Hs Hne Hd Hj. split; [|split].
  - rewrite span_unique; [reflexivity| |].
    + eapply Forall_impl; [|exact Hb]. intros x. apply is_space_iff.
    + destruct Hs as [->|[->| ->]]; try reflexivity. cbn [app]. destruct digits as [|c digits]; [congruence|].
      cbn [app]. inversion Hd; subst. now apply digit_not_space.
  - destruct Hs as [->|[->| ->]]; try reflexivity. cbn [app]. destruct digits as [|c digits]; [congruence|]. cbn [app].
    destruct (Ascii.eqb_spec c "-") as [->|N1]; [inversion Hd; discriminate|].
    destruct (Ascii.eqb_spec c "+") as [->|N2]; [inversion Hd; discriminate|]. reflexivity.
  - apply span_unique; [assumption|]. destruct junk as [|c junk]; [exact Logic.I|]. specialize (Hj c junk eq_refl).
    destruct (is_digit c) eqn:E; [|reflexivity]. apply is_digit_iff in E. congruence.
Qed.
Lemma strtoul_leading text n : leading_number text n -> (n <= u64max)%N -> strtoul_value text = n.
Proof.
  intros (blank & sign & digits & junk & -> & Hb & Hs & Hd & Hj) Hn.
  destruct (decimal_digits _ _ Hd) as [Hne Hdig].
  destruct (sign_split blank sign digits junk Hb ltac:(tauto) Hne Hdig Hj) as (E1 & E2 & E3).
  unfold strtoul_value, strtoul10. rewrite E1, E2, E3. destruct digits as [|c digits]; [congruence|].
  apply decimal_horner in Hd. unfold strtou. fold (horner 10 (c :: digits)). rewrite <- Hd.
  assert ((u64max <? n)%N = false) as -> by (apply N.ltb_ge; assumption).
  destruct Hs as [-> | ->]; reflexivity.
Qed.
Lemma fold_horner d : fold_left (fun a c => a * 10 + Z.of_N (digit_val c))%Z d 0%Z = Z.of_N (horner 10 d).
Proof.
  unfold horner. change 0%Z with (Z.of_N 0). generalize 0%N. induction d as [|c d IH]; intros a; cbn [fold_left]; [reflexivity|].
  rewrite <- IH. f_equal. lia.
Qed.
Lemma strtol_whole text z : whole_number text z -> (-9223372036854775808 <= z <= 9223372036854775807)%Z ->
  strtol10 text = (z, false, []) /\ text <> [].
Proof.
  intros (blank & sign & digits & n & -> & Hb & Hd & Hz) Hr.
  destruct (decimal_digits _ _ Hd) as [Hne Hdig].
  destruct (sign_split blank sign digits [] Hb ltac:(tauto) Hne Hdig ltac:(discriminate)) as (E1 & E2 & E3). rewrite app_nil_r in E1, E2, E3.
  split.
  - unfold strtol10. rewrite E1, E2, E3. destruct digits as [|c digits]; [congruence|].
    rewrite fold_horner. apply decimal_horner in Hd. rewrite <- Hd.
    destruct Hz as [[[-> | ->] ->]|[-> ->]].
    + change (str_eqb [] (L "-")) with false. cbv iota. destruct (Z.ltb_spec 9223372036854775807 (Z.of_N n)); [lia|reflexivity].
    + change (str_eqb (L "+") (L "-")) with false. cbv iota. destruct (Z.ltb_spec 9223372036854775807 (Z.of_N n)); [lia|reflexivity].
    + change (str_eqb (L "-") (L "-")) with true. cbv iota. destruct (Z.ltb_spec 9223372036854775808 (Z.of_N n)); [lia|reflexivity].
  - intros E. apply app_eq_nil in E as [_ E]. apply app_eq_nil in E as [_ E]. contradiction.
Qed.
Lemma strtol_conv text z : strtol10 text = (z, false, []) -> text <> [] -> whole_number text z.
Proof.
  unfold strtol10. destruct (span is_space text) as [blank s] eqn:E. apply span_spec in E as (-> & Hb & Hs). cbn [snd].
  set (sg := match s with c :: r => if Ascii.eqb c "-" then (true, r) else if Ascii.eqb c "+" then (false, r) else (false, s) | [] => (false, s) end).
  assert (G : exists sign, s = sign ++ snd sg /\ (fst sg = false /\ (sign = [] \/ sign = L "+") \/ fst sg = true /\ sign = L "-")).
  { destruct s as [|c s]; [exists []; auto|]. subst sg. destruct (Ascii.eqb_spec c "-") as [->|N1]; [exists (L "-"); auto|].
    destruct (Ascii.eqb_spec c "+") as [->|N2]; [exists (L "+"); auto 6|exists []; auto 6]. }
  destruct G as (sign & Es & Hsign). clearbody sg. destruct sg as [neg t]. cbn [fst snd] in *.
  destruct (span is_digit t) as [d rest'] eqn:E. apply span_spec in E as (-> & Hd & Hr).
  destruct d as [|c d]; [intros H Hne; injection H as <- E; elim Hne; exact E|]. rewrite fold_horner. intros H Hne.
  assert (Hh := horner_decimal (c :: d) ltac:(discriminate) Hd).
  assert (R : rest' = [] /\ z = (if neg then - Z.of_N (horner 10 (c :: d)) else Z.of_N (horner 10 (c :: d)))%Z).
  { destruct neg.
    - destruct (9223372036854775808 <? _)%Z; [discriminate|]. injection H as <- <-. auto.
    - destruct (9223372036854775807 <? _)%Z; [discriminate|]. injection H as <- <-. auto. }
  destruct R as [-> ->]. rewrite app_nil_r in Es. exists blank, sign, (c :: d), (horner 10 (c :: d)).
  split; [now rewrite Es|]. split; [eapply Forall_impl; [|exact Hb]; intros x; apply is_space_iff|]. split; [assumption|].
  destruct Hsign as [[-> Hs']|[-> Hs']]; auto.
Qed.
Lemma strtol_range text z rest : strtol10 text = (z, true, rest) -> (z = 9223372036854775807 \/ z = -9223372036854775808)%Z.
Proof.
  unfold strtol10. destruct (match snd (span is_space text) with [] => _ | _ => _ end) as [neg t].
  destruct (span is_digit t) as [[|c d] r]; [discriminate|]. destruct neg; destruct (_ <? _)%Z; try discriminate; intros H; injection H as <- <-; auto.
Qed.
Theorem occurrences_iff e d z : occurrences_from_dir e d = Some z <->
  exists text, d (L "count") = Contents text /\ whole_number text z /\ (0 <= z < 4294967296)%Z /\ (z = 0%Z -> e = NoError).
Proof.
  unfold occurrences_from_dir, file_contents. split.
  - destruct (d (L "count")) as [| |text]; [discriminate|discriminate|]. destruct (strtol10 text) as [[count range] rest] eqn:E.
    intros H. exists text. split; [reflexivity|].
    destruct range.
    { apply strtol_range in E. destruct E as [->| ->]; cbn in H; discriminate. }
    destruct (match e with RangeError => _ | _ => _ end || _) eqn:G; [discriminate|]. apply orb_false_iff in G as [_ G].
    destruct (Nat.eqb_spec (length rest) (length text)) as [|NE]; [discriminate|]. destruct rest as [|c rest]; [|discriminate].
    destruct ((count <? 0)%Z || (4294967295 <? count)%Z) eqn:B; [discriminate|]. injection H as ->. apply orb_false_iff in B as [B1 B2].
    apply Z.ltb_ge in B1, B2. split; [apply strtol_conv; [assumption|intros ->; elim NE; reflexivity]|]. split; [lia|].
    intros ->. destruct e; [reflexivity| |]; discriminate G.
  - intros (text & -> & Hw & Hz & He). destruct (strtol_whole _ _ Hw) as [E NE]; [lia|]. rewrite E.
    assert (match (if false then RangeError else e) with RangeError => (z =? 9223372036854775807)%Z || (z =? -9223372036854775808)%Z | _ => false end
       || match (if false then RangeError else e) with NoError => false | _ => (z =? 0)%Z end = false) as ->.
    { apply orb_false_iff. split.
      - destruct e; try reflexivity. apply orb_false_iff; split; apply Z.eqb_neq; lia.
      - destruct e; try reflexivity; apply Z.eqb_neq; intros X; specialize (He X); discriminate. }
    destruct (Nat.eqb_spec (length (@nil ascii)) (length text)) as [X|_]; [destruct text; [congruence|discriminate]|].
    assert ((z <? 0)%Z || (4294967295 <? z)%Z = false) as -> by (apply orb_false_iff; split; apply Z.ltb_ge; lia). reflexivity.
Qed.

(** ** Desktop and component *)
Theorem desktop_iff d v : desktop_from_dir d = Some v <-> exists text, d (L "environ") = Contents text /\ variable (L "DESKTOP_SESSION") text v.
Proof.
  unfold desktop_from_dir, file_contents. change (L "DESKTOP_SESSION=") with (L "DESKTOP_SESSION" ++ L "="). split.
  - destruct (d (L "environ")) as [| |text]; [discriminate|discriminate|]. intros H. exists text. split; [reflexivity|].
    pose proof (strstr_first text (L "DESKTOP_SESSION" ++ L "=") ltac:(discriminate)) as K.
    destruct (strstr text _) as [[before after]|]; [|discriminate].
    destruct (match rev before with [] => true | c :: _ => Ascii.eqb c nl end) eqn:E; [|discriminate]. injection H as <-.
    destruct (strchrnul after nl) as [a b] eqn:Ea. apply strchrnul_spec in Ea as (-> & Ha & Hb). cbn [fst].
    exists before, (a ++ b), b. split; [assumption|]. split.
    + destruct (rev before) as [|c r] eqn:Er; [left; apply (f_equal (@rev _)) in Er; now rewrite rev_involutive in Er|].
      right. apply Ascii.eqb_eq in E. subst c. exists (rev r). apply (f_equal (@rev _)) in Er. rewrite rev_involutive in Er. exact Er.
    + split; [reflexivity|]. split; [assumption|]. destruct b as [|c b]; [auto|]. subst c. eauto.
  - intros (text & -> & before & after & rest & F & Hb & -> & Hv & Hr).
    rewrite (strstr_eval (L "DESKTOP_SESSION" ++ L "=") _ _ _ ltac:(discriminate) F).
    assert (match rev before with [] => true | c :: _ => Ascii.eqb c nl end = true) as ->.
    { destruct Hb as [->|[b ->]]; [reflexivity|]. rewrite rev_app_distr. reflexivity. }
    f_equal. assert (strchrnul (v ++ rest) nl = (v, rest)) as ->; [|reflexivity]. apply span_unique.
    + apply Forall_forall. intros x Hx. apply negb_true_iff. apply Ascii.eqb_neq. intros ->. contradiction.
    + destruct Hr as [->|[r ->]]; [exact Logic.I|reflexivity].
Qed.
Lemma base_name_fun e : base_name e (match strrchr e "/" with Some i => skipn (i + 1) e | None => e end).
Proof.
  pose proof (strrchr_cases e "/") as K. destruct (strrchr e "/") as [i|].
  - destruct K as (a & b & -> & <- & Hb). replace (length a + 1) with (length (a ++ L "/")) by (rewrite app_length; reflexivity).
    change ("/"%char :: b) with (L "/" ++ b). rewrite app_assoc, skipn_at by reflexivity. split; [assumption|]. right. exists a. now rewrite app_assoc.
  - split; [assumption|]. now left.
Qed.
Theorem component_ok d : 
  match get_component d with
  | Some c => d (L "package") <> Missing /\ d (L "component") = Contents c \/
              d (L "package") = Missing /\ exists path base, d (L "executable") = Contents path /\ base_name path base /\ c = base ++ L "-unpackaged"
  | None => d (L "package") <> Missing /\ (forall c, d (L "component") <> Contents c) \/
            d (L "package") = Missing /\ (forall c, d (L "executable") <> Contents c)
  end.
Proof.
  unfold get_component, is_packaged, file_exist, file_contents.
  destruct (d (L "package")) eqn:E.
  - destruct (d (L "executable")) as [| |path] eqn:X.
    + right. split; [reflexivity|discriminate].
    + right. split; [reflexivity|discriminate].
    + right. split; [reflexivity|]. exists path. eexists. split; [reflexivity|]. split; [apply base_name_fun|reflexivity].
  - destruct (d (L "component")); left; (split; [discriminate|]); try discriminate; reflexivity.
  - destruct (d (L "component")); left; (split; [discriminate|]); try discriminate; reflexivity.
Qed.

(** ** Packages *)
Lemma pkg_from_dir_ok d p : rpm_pkg_from_dir d = Ok p -> affected_package d p.
Proof.
  unfold rpm_pkg_from_dir, file_contents.
  destruct (d (L "pkg_epoch")) as [| |epoch] eqn:E0; try discriminate.
  destruct (strtoul_value epoch =? u64max)%N; [discriminate|].
  destruct (d (L "pkg_name")) as [| |name] eqn:E1; try discriminate.
  destruct (d (L "pkg_version")) as [| |version] eqn:E2; try discriminate.
  destruct (d (L "pkg_release")) as [| |release] eqn:E3; try discriminate.
  destruct (d (L "pkg_arch")) as [| |arch] eqn:E4; try discriminate.
  intros H. injection H as <-. exists epoch, name, version, release, arch. do 4 eexists.
  do 5 (split; [assumption|]). do 4 (split; [apply strip_first_line|]). cbn [rp_name rp_version rp_release rp_architecture rp_epoch rp_role rp_install_time].
  do 4 (split; [reflexivity|]). split; [|auto]. intros k Hk Hs. rewrite (strtoul_leading _ _ Hk) by (unfold u64max; lia).
  rewrite N.mod_small by assumption. reflexivity.
Qed.
Lemma pkg_from_dir_not_ub d : rpm_pkg_from_dir d <> UB.
Proof.
  unfold rpm_pkg_from_dir. destruct (file_contents d _); [|discriminate]. destruct (_ =? _)%N; [discriminate|].
  do 4 (destruct (file_contents d _); [|discriminate]). discriminate.
Qed.
Theorem packages_ok qsort d ps : sr_abrt_rpm_packages_from_dir qsort d = Ok ps ->
  exists crashed listed interpreter main,
    crashed_package d crashed /\ listed_packages d listed /\ interpreter_package d interpreter /\
    ps = main ++ interpreter /\
    (listed = [] /\ main = crashed \/
     listed <> [] /\ exists sorted, sr_rpm_package_sort qsort (crashed ++ listed) = Ok sorted /\ main = sr_rpm_package_uniq sorted).
Proof.
  unfold sr_abrt_rpm_packages_from_dir. intros H.
  assert (Hc : exists crashed, (if is_packaged d then do p <- rpm_pkg_from_dir d; Ok [p] else Ok []) = Ok crashed /\ crashed_package d crashed).
  { destruct (is_packaged d) eqn:E.
    - destruct (rpm_pkg_from_dir d) as [p| |] eqn:Ep; cbn [bind] in H |- *; try discriminate.
      exists [p]. split; [reflexivity|]. right. split.
      + intros X. unfold is_packaged, file_exist in E. rewrite X in E. discriminate.
      + exists p. split; [reflexivity|]. now apply pkg_from_dir_ok.
    - exists []. split; [reflexivity|]. left. split; [|reflexivity]. unfold is_packaged, file_exist in E. destruct (d (L "package")); [reflexivity|discriminate|discriminate]. }
  destruct Hc as (crashed & Ec & Hc). rewrite Ec in H. cbn [bind] in H. clear Ec.
  assert (Hl : exists listed main, listed_packages d listed /\
     (if file_exist d (L "dso_list") then do ps <- rpm_dso_list_from_dir qsort crashed d; match ps with [] => Fail | _ => Ok ps end else Ok crashed) = Ok main /\
     (listed = [] /\ main = crashed \/
      listed <> [] /\ exists sorted, sr_rpm_package_sort qsort (crashed ++ listed) = Ok sorted /\ main = sr_rpm_package_uniq sorted)).
  { unfold file_exist, rpm_dso_list_from_dir, file_contents in *. destruct (d (L "dso_list")) as [| |text] eqn:Ed.
    - exists [], crashed. split; [right; split; [rewrite Ed; discriminate|reflexivity]|auto].
    - cbn [bind] in H |- *. destruct crashed; [discriminate H|]. exists [], (r :: crashed). split; [right; split; [rewrite Ed; discriminate|reflexivity]|auto].
    - pose proof (dso_correct text) as K. destruct (sr_abrt_parse_dso_list text) as [dso| |]; cbn [bind] in H |- *; try discriminate.
      destruct K as [_ (ls & K1 & K2)]. assert (Hd : listed_packages d dso) by (left; exists text, ls; auto).
      destruct dso as [|q dso].
      + cbn [bind] in H |- *. destruct crashed; [discriminate H|]. exists [], (r :: crashed). auto.
      + destruct (sr_rpm_package_sort qsort (crashed ++ q :: dso)) as [sorted| |] eqn:Es; cbn [bind] in H |- *; try discriminate.
        destruct (sr_rpm_package_uniq sorted) as [|u us] eqn:Eu; [discriminate H|]. exists (q :: dso), (u :: us).
        split; [assumption|]. split; [reflexivity|]. right. split; [discriminate|]. exists sorted. auto. }
  destruct Hl as (listed & main & Hl & El & Hm). rewrite El in H. cbn [bind] in H. clear El.
  assert (Hi : exists interpreter, interpreter_package d interpreter /\ ps = main ++ interpreter).
  { unfold file_exist, rpm_interpreter_from_dir, file_contents in *. destruct (d (L "interpreter")) as [| |text] eqn:Ed.
    - injection H as ->. exists []. rewrite app_nil_r. split; [right; split; [rewrite Ed; discriminate|reflexivity]|reflexivity].
    - injection H as ->. exists []. rewrite app_nil_r. split; [right; split; [rewrite Ed; discriminate|reflexivity]|reflexivity].
    - destruct (sr_rpm_package_parse_nevra text) as [n k v r a| |] eqn:En; try discriminate.
      + injection H as <-. eexists. split; [|reflexivity]. left. apply nevra_accepted in En. exists text, n, k, v, r, a. auto.
      + injection H as ->. exists []. rewrite app_nil_r. split; [|reflexivity]. right. split; [|reflexivity].
        intros text' n k v r a Et Hn. rewrite Ed in Et. injection Et as <-. apply nevra_accepted in Hn. congruence. }
  destruct Hi as (interpreter & Hi & ->). exists crashed, listed, interpreter, main. auto.
Qed.
Lemma Forall2_in {A B} (R : A -> B -> Prop) l m x : Forall2 R l m -> In x l -> exists y, In y m /\ R x y.
Proof.
  induction 1 as [|a b l m H F IH]; intros []; [subst; exists b; split; [now left|assumption]|]. destruct (IH H0) as (y & Hy & Hr). exists y. split; [now right|assumption].
Qed.
Lemma merged_keeps group m p : merged group m -> In p group ->
  same_nevr m p /\ (rp_architecture p = None \/ rp_architecture p = rp_architecture m) /\ (rp_role p = ROLE_AFFECTED -> rp_role m = ROLE_AFFECTED) /\
  (rp_install_time p <> 0%Z -> rp_install_time m <> 0%Z).
Proof.
  intros [->|(_ & H1 & H2 & _ & H4 & H5 & _)] Hp.
  - destruct Hp as [->|[]]. split; [repeat split|]. auto.
  - split; [eapply Forall_forall in H1; eassumption|]. split; [eapply Forall_forall in H2; eassumption|]. split.
    + destruct H5 as [[_ H5]|(H5 & _)]; [eapply Forall_forall in H5; [|eassumption]; congruence|]. destruct (rp_role m); congruence.
    + destruct H4 as [[_ H4]|(H4 & _)]; [eapply Forall_forall in H4; [|eassumption]; congruence|]. auto.
Qed.
Theorem packages_kept qsort l sorted p : sorts qsort -> Forall (fun p => small (rp_epoch p)) l -> sr_rpm_package_sort qsort l = Ok sorted -> In p l ->
  exists m, In m (sr_rpm_package_uniq sorted) /\ same_nevr m p /\ (rp_architecture p = None \/ rp_architecture p = rp_architecture m) /\
    (rp_role p = ROLE_AFFECTED -> rp_role m = ROLE_AFFECTED) /\ (rp_install_time p <> 0%Z -> rp_install_time m <> 0%Z).
Proof.
  intros Q Hs E Hp. destruct (sort_correct qsort l Q Hs) as (s' & E' & P & _); [intros ->; destruct Hp|]. rewrite E in E'. injection E' as <-.
  destruct (uniq_correct sorted) as (groups & Eg & F). apply (Permutation_in _ P) in Hp. rewrite <- Eg in Hp.
  apply in_concat in Hp as (g & Hg & Hp). destruct (Forall2_in _ _ _ _ F Hg) as (m & Hm & M). exists m. split; [assumption|]. now apply (merged_keeps g).
Qed.
(** ** The operating system *)
Theorem os_from_dir_ok d os : sr_abrt_operating_system_from_dir d = Ok os ->
  d (L "architecture") = match os_architecture os with Some a => Contents a | None => Missing end /\ os_architecture os <> None /\
  os_desktop os = desktop_from_dir d /\
  os_name os <> None /\ os_version os <> None /\
  exists os1, (match d (L "os_info") with
               | Contents text => exists ls ps, lines_of text ls /\ os_lines ls ps /\ described ps os_new os1
               | _ => os1 = os_new
               end) /\ os_cpe os = os_cpe os1 /\ os_variant os = os_variant os1 /\
    (os_name os1 <> None /\ os_version os1 <> None /\ os_name os = os_name os1 /\ os_version os = os_version os1 \/
     (os_name os1 = None \/ os_version os1 = None) /\
     exists text name version, d (L "os_release") = Contents text /\ system_release text name version /\ os_name os = Some name /\ os_version os = Some version).
Proof.
  unfold sr_abrt_operating_system_from_dir. intros H.
  assert (X : exists success os1, match file_contents d (L "os_info") with
          | Some text => sr_operating_system_parse_etc_os_release text os_new
          | None => Ok (false, os_new) end = Ok (success, os1) /\
          (match d (L "os_info") with
               | Contents text => exists ls ps, lines_of text ls /\ os_lines ls ps /\ described ps os_new os1
               | _ => os1 = os_new end) /\ (success = true <-> os_name os1 <> None /\ os_version os1 <> None)).
  { unfold file_contents. destruct (d (L "os_info")) as [| |text].
    - exists false, os_new. split; [reflexivity|]. split; [reflexivity|]. split; [discriminate|intros [K _]; elim K; reflexivity].
    - exists false, os_new. split; [reflexivity|]. split; [reflexivity|]. split; [discriminate|intros [K _]; elim K; reflexivity].
    - destruct (os_release_described text os_new) as (ls & ps & ok & os1 & A & B & C & D & E). exists ok, os1. split; [assumption|]. split; [|assumption]. exists ls, ps. auto. }
  destruct X as (success & os1 & E & Hos1 & Hs). rewrite E in H. cbn [bind] in H. clear E.
  assert (Y : exists os2, (if success then (true, os1) else match file_contents d (L "os_release") with
         | None => (false, os1)
         | Some text =>
           let '(success, name, version) := sr_operating_system_parse_etc_system_release text in
           (success, mk_os (match name with Some n => Some n | None => os_name os1 end)
                           (match version with Some v => Some v | None => os_version os1 end)
                           (os_architecture os1) (os_cpe os1) (os_uptime os1) (os_desktop os1) (os_variant os1))
         end) = (true, os2) /\ os_cpe os2 = os_cpe os1 /\ os_variant os2 = os_variant os1 /\
    (os_name os1 <> None /\ os_version os1 <> None /\ os_name os2 = os_name os1 /\ os_version os2 = os_version os1 \/
     (os_name os1 = None \/ os_version os1 = None) /\
     exists text name version, d (L "os_release") = Contents text /\ system_release text name version /\ os_name os2 = Some name /\ os_version os2 = Some version)).
  { destruct success.
    - exists os1. split; [reflexivity|]. do 2 (split; [reflexivity|]). left. destruct Hs as [Hs _]. destruct (Hs eq_refl). auto.
    - assert (NN : os_name os1 = None \/ os_version os1 = None).
      { destruct (os_name os1); [|auto]. destruct (os_version os1); [|auto]. destruct Hs as [_ Hs]. discriminate Hs. split; discriminate. }
      unfold file_contents in *. destruct (d (L "os_release")) as [| |text]; [discriminate|discriminate|].
      pose proof (release_correct text) as R. destruct (sr_operating_system_parse_etc_system_release text) as [[[|] [n|]] [v|]]; try contradiction; try discriminate.
      eexists. split; [reflexivity|]. do 2 (split; [reflexivity|]). right. split; [assumption|]. exists text, n, v. auto. }
  destruct Y as (os2 & E & C1 & C2 & Hos2). rewrite E in H. clear E.
  unfold file_contents in H. destruct (d (L "architecture")) as [| |a] eqn:Ea; [discriminate|discriminate|].
  injection H as <-. cbn [os_name os_version os_architecture os_cpe os_uptime os_desktop os_variant].
  split; [reflexivity|]. split; [discriminate|]. split; [reflexivity|].
  split; [|split].
  - destruct Hos2 as [(A & _ & B & _)|(_ & text & n & v & _ & _ & B & _)]; congruence.
  - destruct Hos2 as [(_ & A & _ & B)|(_ & text & n & v & _ & _ & _ & B)]; congruence.
  - exists os1. auto.
Qed.
(** ** When reading fails *)
Lemma pkg_from_dir_total d epoch n : crashed_readable d -> d (L "pkg_epoch") = Contents epoch -> leading_number epoch n -> (n < u64max)%N ->
  exists p, rpm_pkg_from_dir d = Ok p.
Proof.
  intros H E Hn Hl. unfold crashed_readable in H. rewrite Forall_forall in H.
  destruct (H (L "pkg_name")) as [a Ea]; [right; left; reflexivity|]. destruct (H (L "pkg_version")) as [b Eb]; [do 2 right; left; reflexivity|].
  destruct (H (L "pkg_release")) as [c Ec]; [do 3 right; left; reflexivity|]. destruct (H (L "pkg_arch")) as [e Ee]; [do 4 right; left; reflexivity|].
  unfold rpm_pkg_from_dir, file_contents. rewrite E, Ea, Eb, Ec, Ee, (strtoul_leading _ _ Hn) by lia.
  destruct (N.eqb_spec n u64max); [lia|]. eauto.
Qed.
Lemma pkg_from_dir_fail d : rpm_pkg_from_dir d = Fail ->
  ~ crashed_readable d \/ exists text, d (L "pkg_epoch") = Contents text /\ forall n, leading_number text n -> (u64max <= n)%N.
Proof.
  intros H. unfold rpm_pkg_from_dir, file_contents in H.
  assert (X : forall f, In f [L "pkg_epoch"; L "pkg_name"; L "pkg_version"; L "pkg_release"; L "pkg_arch"] ->
     (d f = Missing \/ d f = Unreadable) -> ~ crashed_readable d).
  { intros f Hf Hd Hc. eapply Forall_forall in Hc; [|exact Hf]. destruct Hc as [t Ht]. destruct Hd; congruence. }
  destruct (d (L "pkg_epoch")) as [| |epoch] eqn:E0; [left; eapply X; [|eauto]; cbn; auto..|].
  destruct (N.eqb_spec (strtoul_value epoch) u64max) as [Ee|Ne].
  { right. exists epoch. split; [reflexivity|]. intros n Hn. destruct (N.le_gt_cases u64max n); [assumption|]. rewrite (strtoul_leading _ _ Hn) in Ee by lia. lia. }
  left. destruct (d (L "pkg_name")) eqn:E1; [apply (X (L "pkg_name")); [cbn; auto|auto]..|].
  destruct (d (L "pkg_version")) eqn:E2; [apply (X (L "pkg_version")); [cbn; auto|auto]..|].
  destruct (d (L "pkg_release")) eqn:E3; [apply (X (L "pkg_release")); [cbn; auto|auto]..|].
  destruct (d (L "pkg_arch")) eqn:E4; [apply (X (L "pkg_arch")); [cbn; auto 6|auto]..|]. discriminate.
Qed.
Theorem packages_fail qsort d : sr_abrt_rpm_packages_from_dir qsort d = Fail ->
  (d (L "package") <> Missing /\ rpm_pkg_from_dir d = Fail) \/
  (d (L "package") = Missing /\ d (L "dso_list") <> Missing /\ listed_packages d []) \/
  (exists sorted l, d (L "dso_list") <> Missing /\ l <> [] /\ sr_rpm_package_sort qsort l = Ok sorted /\ sorted = []).
Proof.
  unfold sr_abrt_rpm_packages_from_dir. intros H.
  destruct (is_packaged d) eqn:P.
  - assert (Hp : d (L "package") <> Missing) by (intros X; unfold is_packaged, file_exist in P; rewrite X in P; discriminate).
    destruct (rpm_pkg_from_dir d) as [p| |] eqn:Ep; cbn [bind] in H; [|left; auto|discriminate].
    right. right. unfold file_exist, rpm_dso_list_from_dir, rpm_interpreter_from_dir, file_contents in H.
    destruct (d (L "dso_list")) as [| |text] eqn:Ed; cbn [bind] in H;
      try (exfalso; destruct (d (L "interpreter")); try discriminate; destruct (sr_rpm_package_parse_nevra _); discriminate).
    destruct (sr_abrt_parse_dso_list text) as [[|q dso]| |] eqn:Es; cbn [bind] in H; try discriminate;
      try (exfalso; destruct (d (L "interpreter")); try discriminate; destruct (sr_rpm_package_parse_nevra _); discriminate).
    + destruct (sr_rpm_package_sort qsort ([p] ++ q :: dso)) as [sorted| |] eqn:Eq; cbn [bind] in H; [|discriminate Eq|discriminate].
      destruct sorted as [|r sorted]; [exists [], ([p] ++ q :: dso); repeat split; (assumption || discriminate)|].
      exfalso. destruct (sr_rpm_package_uniq (r :: sorted)) eqn:Eu; [pose proof (uniq_head sorted r) as (h & t & Eh & _); cbn [sr_rpm_package_uniq] in Eu; congruence|].
      cbn [bind] in H. destruct (d (L "interpreter")); try discriminate; destruct (sr_rpm_package_parse_nevra _); discriminate.
    + exfalso. pose proof (dso_correct text) as K. now rewrite Es in K.
  - assert (Hp : d (L "package") = Missing) by (unfold is_packaged, file_exist in P; destruct (d (L "package")); [reflexivity|discriminate|discriminate]).
    right. cbn [bind] in H. unfold file_exist, rpm_dso_list_from_dir, rpm_interpreter_from_dir, file_contents in H.
    destruct (d (L "dso_list")) as [| |text] eqn:Ed; cbn [bind] in H;
      try (exfalso; destruct (d (L "interpreter")); try discriminate; destruct (sr_rpm_package_parse_nevra _); discriminate).
    + left. split; [assumption|]. split; [discriminate|]. right. split; [rewrite Ed; discriminate|reflexivity].
    + pose proof (dso_correct text) as K. destruct (sr_abrt_parse_dso_list text) as [[|q dso]| |] eqn:Es; cbn [bind] in H; try discriminate; [| |contradiction].
      * left. split; [assumption|]. split; [discriminate|]. left. destruct K as [_ (ls & K1 & K2)]. exists text, ls. auto.
      * right. destruct (sr_rpm_package_sort qsort ([] ++ q :: dso)) as [sorted| |] eqn:Eq; cbn [bind] in H; [|discriminate Eq|discriminate].
        destruct sorted as [|r sorted]; [exists [], ([] ++ q :: dso); repeat split; (assumption || discriminate)|].
        exfalso. destruct (sr_rpm_package_uniq (r :: sorted)) eqn:Eu; [pose proof (uniq_head sorted r) as (h & t & Eh & _); cbn [sr_rpm_package_uniq] in Eu; congruence|].
        cbn [bind] in H. destruct (d (L "interpreter")); try discriminate; destruct (sr_rpm_package_parse_nevra _); discriminate.
Qed.
Theorem packages_defined qsort d :
  (forall text, d (L "dso_list") = Contents text -> ~ hazard text) ->
  (forall text, d (L "interpreter") = Contents text -> ~ bad_epoch text) ->
  sr_abrt_rpm_packages_from_dir qsort d <> UB.
Proof.
  intros Hz Hb. unfold sr_abrt_rpm_packages_from_dir. intros H.
  destruct (if is_packaged d then _ else _) as [packages| |] eqn:E in H; cbn [bind] in H; [|discriminate|].
  2:{ destruct (is_packaged d); [|discriminate]. pose proof (pkg_from_dir_not_ub d). destruct (rpm_pkg_from_dir d); cbn [bind] in E; try discriminate. congruence. }
  destruct (if file_exist d (L "dso_list") then _ else _) as [packages'| |] eqn:E' in H; cbn [bind] in H; [|discriminate|].
  - unfold file_exist, rpm_interpreter_from_dir, file_contents in H. destruct (d (L "interpreter")) as [| |text] eqn:Ei; try discriminate.
    destruct (sr_rpm_package_parse_nevra text) eqn:En; try discriminate. apply nevra_dangling in En. apply (Hb text); auto.
  - unfold file_exist, rpm_dso_list_from_dir, file_contents in E'. destruct (d (L "dso_list")) as [| |text] eqn:Ei; try discriminate.
    + cbn [bind] in E'. destruct packages; discriminate.
    + pose proof (dso_correct text) as K. destruct (sr_abrt_parse_dso_list text) as [[|q dso]| |] eqn:Es; cbn [bind] in E'; try discriminate.
      * destruct packages; discriminate.
      * destruct (packages ++ q :: dso) as [|x l] eqn:Ex; [destruct packages; discriminate|]. cbn [sr_rpm_package_sort bind] in E'.
        destruct (sr_rpm_package_uniq _); discriminate.
      * apply (Hz text); auto.
Qed.
Lemma described_known ps os1 os2 : described ps os_new os1 -> described ps os_new os2 ->
  os_name os1 <> None /\ os_version os1 <> None -> os_name os2 <> None /\ os_version os2 <> None.
Proof.
  intros (A1 & B1 & _) (A2 & B2 & _) [N1 V1]. split.
  - destruct A2 as [[E H]|(a & v & b & _ & E & _)]; [|congruence]. destruct A1 as [[E' _]|(a' & v' & b' & Ep & _ & _)].
    + intros X. apply N1. rewrite E'. reflexivity.
    + elim (H v'). rewrite Ep. apply in_or_app. right. now left.
  - destruct B2 as [[_ E]|(NR & [[X _]|[_ [[E H]|(a & v & b & _ & E & _)]]])]; [congruence|elim X; reflexivity| |congruence].
    destruct B1 as [[R _]|(_ & [[X _]|[_ [[E' _]|(a' & v' & b' & Ep & _ & _)]]])]; [contradiction|elim X; reflexivity|contradiction|].
    elim (H v'). rewrite Ep. apply in_or_app. right. now left.
Qed.
Theorem os_from_dir_total d : (exists os, sr_abrt_operating_system_from_dir d = Ok os) <-> (exists a, d (L "architecture") = Contents a) /\ os_known d.
Proof.
  split.
  - intros [os H]. destruct (os_from_dir_ok d os H) as (A & A' & _ & _ & _ & os1 & I1 & _ & _ & K). split.
    { destruct (os_architecture os) as [a|]; [exists a; assumption|elim A'; reflexivity]. }
    destruct K as [(N1 & V1 & _)|(_ & text & n & v & E1 & E2 & _)]; [|right; eauto].
    left. destruct (d (L "os_info")) as [| |text]; [subst; elim N1; reflexivity|subst; elim N1; reflexivity|].
    destruct I1 as (ls & ps & L1 & L2 & D). exists text, ls, ps, os1. auto 6.
  - intros [[a Ea] K]. unfold sr_abrt_operating_system_from_dir, file_contents.
    assert (X : exists success os1, match (match d (L "os_info") with Contents s => Some s | _ => None end) with
          | Some text => sr_operating_system_parse_etc_os_release text os_new
          | None => Ok (false, os_new) end = Ok (success, os1) /\
          (success = true \/ exists text name version, d (L "os_release") = Contents text /\ system_release text name version)).
    { destruct K as [(text & ls & ps & os & E & L1 & L2 & D & NV)|K].
      - rewrite E. destruct (os_release_described text os_new) as (ls' & ps' & ok & os' & L1' & L2' & P & D' & I1). exists ok, os'. split; [assumption|].
        left. apply I1. assert (ls' = ls) as -> by (eapply lines_of_fun; eassumption).
        assert (ps' = ps) as -> by (eapply os_lines_fun; eassumption). exact (described_known _ _ _ D D' NV).
      - destruct (d (L "os_info")) as [| |text]; [exists false, os_new; auto|exists false, os_new; auto|].
        destruct (os_release_described text os_new) as (ls' & ps' & ok & os' & L1' & L2' & P & D' & I1). exists ok, os'. auto. }
    destruct X as (success & os1 & E & K'). rewrite E. cbn [bind]. rewrite Ea. destruct success; [eauto|].
    destruct K' as [?|(text & n & v & -> & R)]; [discriminate|]. rewrite (release_accepts _ _ _ R). eauto.
Qed.
Theorem os_from_dir_defined d : sr_abrt_operating_system_from_dir d <> UB.
Proof.
  unfold sr_abrt_operating_system_from_dir. intros H.
  destruct (match file_contents d (L "os_info") with Some _ => _ | None => _ end) as [[success os1]| |] eqn:E in H; cbn [bind] in H; [|discriminate|].
  - destruct (if success then _ else _) as [[|] os2]; [|discriminate]. destruct (file_contents d (L "architecture")); discriminate.
  - destruct (file_contents d (L "os_info")) as [text|]; [|discriminate]. destruct (os_release_described text os_new) as (? & ? & ? & ? & _ & _ & P & _). congruence.
Qed.
Theorem packages_fail' qsort d : (forall cmp l, length (qsort cmp l) = length l) -> sr_abrt_rpm_packages_from_dir qsort d = Fail ->
  (d (L "package") <> Missing /\
    (~ crashed_readable d \/ exists text, d (L "pkg_epoch") = Contents text /\ forall n, leading_number text n -> (18446744073709551615 <= n)%N)) \/
  (d (L "package") = Missing /\ d (L "dso_list") <> Missing /\ listed_packages d []).
Proof.
  intros Q H. destruct (packages_fail qsort d H) as [[A B]|[A|(sorted & l & _ & A & B & ->)]].
  - left. split; [assumption|]. now apply pkg_from_dir_fail.
  - now right.
  - exfalso. destruct l as [|p l]; [congruence|]. unfold sr_rpm_package_sort in B. injection B as B. pose proof (Q rpm_cmp_nevra (p :: l)) as X. rewrite B in X. discriminate.
Qed.
