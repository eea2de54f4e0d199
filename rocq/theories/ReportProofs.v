(** * Proofs about the JSON of packages and operating systems. *)
From Verif Require Import Base UtilsModel JsonSpec JsonModel JsonProofs JsonScan Types JsonTypesModel JsonTypesSpec JsonReaders JsonWriters JsonRoundtrip JsonRoundtrip2 TextModel SystemModel ReportModel ReportSpec.
Open Scope Z_scope.

Lemma dec_print z : 0 <= z -> dec z = print_Z z.
Proof. intros H. unfold dec, print_Z. destruct (z <? 0) eqn:E; [apply Z.ltb_lt in E; lia|reflexivity]. Qed.
Lemma dec_abs z : exists z', dec z = print_Z z' /\ 0 <= z'.
Proof. exists (Z.of_N (Z.to_N z)). split; [|lia]. unfold dec, print_Z. destruct (Z.of_N (Z.to_N z) <? 0) eqn:E; [apply Z.ltb_lt in E; lia|]. rewrite N2Z.id. reflexivity. Qed.
Lemma neutral_dec z : neutral (dec z).
Proof. destruct (dec_abs z) as (z' & -> & _). eapply neutral_jval. apply jv_print_Z. Qed.
Lemma fld_pos k z : 0 <= z -> (if 0 <? z then fld k (dec z) else []) = fld_nz k z.
Proof.
  intros H. unfold fld_nz. destruct (0 <? z) eqn:E.
  - rewrite dec_print by lia. replace (z =? 0) with false by (symmetry; apply Z.eqb_neq; lia). reflexivity.
  - replace (z =? 0) with true by (symmetry; apply Z.eqb_eq; lia). reflexivity.
Qed.
Lemma neutral_pos k z : plain_key k = true -> neutral (if 0 <? z then fld k (dec z) else []).
Proof.
  intros Hk. destruct (0 <? z); [|apply neutral_nil]. destruct (dec_abs z) as (z' & -> & _).
  eapply neutral_fld_jval; [exact Hk|apply jv_print_Z].
Qed.
Lemma comma_start_pos k z : comma_start (if 0 <? z then fld k (dec z) else []).
Proof. destruct (0 <? z); [apply comma_start_fld|apply comma_start_nil]. Qed.

(** ** Operating systems *)
Lemma os_jval os : os_safe os -> 0 <= os_uptime os -> jval (os_value os) (sr_operating_system_to_json os).
Proof.
  intros (H1 & H2 & H3 & H4 & H5 & H6) Hu. unfold os_value, sr_operating_system_to_json. apply close_object_jval.
  rewrite fld_pos by exact Hu.
  repeat apply jfields_app; try (apply (jfields_nz (L "uptime")); reflexivity); apply jfields_str; auto; reflexivity.
Qed.
Definition os_unsafe (os : operating_system) : bool :=
  ounsafe (os_name os) || (ounsafe (os_version os) || (ounsafe (os_architecture os) || (ounsafe (os_cpe os) ||
  (ounsafe (os_desktop os) || (ounsafe (os_variant os) || false))))).
Lemma os_unsafe_iff os : os_unsafe os = false <-> os_safe os.
Proof. unfold os_unsafe, os_safe. dec_false. tauto. Qed.
Lemma os_eff os : eff (sr_operating_system_to_json os) 0 0 (os_unsafe os).
Proof.
  unfold sr_operating_system_to_json. apply eff_close_object.
  - starts. apply comma_start_pos.
  - repeat (apply (eff_app _ _ 0 0 0 0); [apply eff_fld_str; reflexivity|]). apply neutral_pos. reflexivity.
Qed.
Lemma os_valid_iff os : 0 <= os_uptime os -> valid_json (sr_operating_system_to_json os) <-> os_safe os.
Proof.
  intros Hu. split.
  - intros H. apply (eff_not_json _ _ _ _ (os_eff os)) in H as (_ & _ & H). apply os_unsafe_iff. exact H.
  - intros H. eexists. apply jval_text. apply os_jval; assumption.
Qed.
Lemma read_optional_iff o k r : read_optional_string o k = r <-> reads_optional o k r.
Proof.
  unfold read_optional_string, reads_optional, json_read_string, json_read. destruct (jget k o) as [j|]; [|split; congruence].
  destruct j; simpl; split; congruence.
Qed.
Lemma os_reads v os : sr_operating_system_from_json v = Ok os <-> reads_os v os.
Proof.
  unfold sr_operating_system_from_json, reads_os. destruct v; try (split; [discriminate|intros (o & E & _); discriminate]). split.
  - intros H. apply bind_Ok in H as (n & Hn & H). apply bind_Ok in H as (ve & Hv & H). apply bind_Ok in H as (a & Ha & H).
    apply bind_Ok in H as (u & Hu & H). apply Ok_inj1 in H. subst os. exists l. split; [reflexivity|]. cbn.
    rewrite <- !read_string_iff, <- read_u64_iff. repeat split; auto; apply read_optional_iff; reflexivity.
  - intros (o & E & H1 & H2 & H3 & H4 & H5 & H6 & H7). injection E as ->.
    rewrite <- read_string_iff in *. apply read_u64_iff in H4. rewrite <- read_optional_iff in *.
    rewrite H1. cbn [bind]. rewrite H2. cbn [bind]. rewrite H3. cbn [bind]. rewrite H4. cbn [bind]. rewrite H5, H6. destruct os; cbn in *. subst. reflexivity.
Qed.
Lemma os_not_UB v : sr_operating_system_from_json v <> UB.
Proof. unfold sr_operating_system_from_json. destruct v; try discriminate. repeat (apply bind_not_UB; [apply json_read_not_UB|intro]). discriminate. Qed.
Lemma opt_member_mem k o : opt_member k o = mem_str k o.
Proof. reflexivity. Qed.
Lemma os_back os : u64 (os_uptime os) -> reads_os (os_value os) (os_as_read os).
Proof.
  intros [Hu _]. unfold os_value. eexists. split; [reflexivity|].
  change (if os_uptime os =? 0 then [] else [(L "uptime", JInt (os_uptime os))]) with (mem_nz (L "uptime") (os_uptime os)).
  rewrite !opt_member_mem. cbn [os_as_read os_name os_version os_architecture os_uptime os_desktop os_variant os_cpe].
  repeat split.
  - apply reads_string_of. lookup. destruct (os_uptime os =? 0); opt_done.
  - apply reads_string_of. lookup. destruct (os_uptime os =? 0); opt_done.
  - apply reads_string_of. lookup. destruct (os_uptime os =? 0); opt_done.
  - apply reads_u64_nz; [exact Hu| |reflexivity]. lookup. destruct (os_uptime os =? 0); opt_done.
  - unfold reads_optional. lookup. destruct (os_uptime os =? 0); opt_done.
  - unfold reads_optional. lookup. destruct (os_uptime os =? 0); opt_done.
Qed.
Lemma os_survives os : u64 (os_uptime os) -> os_safe os ->
  survives (sr_operating_system_to_json os) sr_operating_system_from_json (os_as_read os).
Proof. intros Hu Hs. eapply survives_of_jval; [apply os_jval; [exact Hs|apply Hu]|apply os_reads, os_back; exact Hu]. Qed.
Lemma os_ok_id os : os_ok os -> os_as_read os = os.
Proof. intros (_ & Hu & Hc). unfold os_as_read. rewrite clip64_id by exact Hu. destruct os; cbn in *; subst; reflexivity. Qed.

(** ** Packages *)
Definition role_text (r : package_role) : str :=
  match r with ROLE_UNKNOWN => [] | ROLE_AFFECTED => fld (L "package_role") (L """affected""") end.
Definition role_members (r : package_role) : list (str * json) :=
  match r with ROLE_UNKNOWN => [] | ROLE_AFFECTED => [(L "package_role", JStr (L "affected"))] end.
Lemma role_fields r : jfields (role_members r) (role_text r).
Proof.
  destruct r; [constructor|]. apply jfields_fld; [reflexivity|]. apply (jv_str (L "affected") (L "affected")). apply plain_key_jchars. reflexivity.
Qed.
Lemma package_jval p : package_safe p -> 0 <= rp_epoch p -> 0 <= rp_install_time p -> jval (package_value p) (rpm_package_to_json p).
Proof.
  intros (H1 & H2 & H3 & H4) He Hi. unfold package_value, rpm_package_to_json. apply close_object_unchecked_jval.
  - rewrite fld_pos by exact Hi. rewrite (dec_print (rp_epoch p)) by exact He.
    repeat apply jfields_app; try (apply (jfields_nz (L "install_time")); reflexivity); try (apply jfields_str; auto; reflexivity);
      [apply jfields_fld; [reflexivity|apply jv_print_Z]|apply role_fields].
  - intros E. apply app_eq_nil in E as [_ E]. discriminate.
Qed.
Definition package_unsafe (p : rpm_package) : bool :=
  ounsafe (rp_name p) || (false || (ounsafe (rp_version p) || (ounsafe (rp_release p) || (ounsafe (rp_architecture p) || (false || false))))).
Lemma package_unsafe_iff p : package_unsafe p = false <-> package_safe p.
Proof. unfold package_unsafe, package_safe. dec_false. tauto. Qed.
Lemma neutral_role r : neutral (role_text r).
Proof.
  destruct r; [apply neutral_nil|]. eapply neutral_fld_jval; [reflexivity|]. apply (jv_str (L "affected") (L "affected")).
  apply plain_key_jchars. reflexivity.
Qed.
Lemma package_eff p : eff (rpm_package_to_json p) 0 0 (package_unsafe p).
Proof.
  unfold rpm_package_to_json. eapply eff_eq.
  - apply eff_close_object_unchecked.
    + starts; first [apply comma_start_pos|destruct (rp_role p); [apply comma_start_nil|apply comma_start_fld]].
    + apply (eff_app _ _ 0 0 0 0); [apply eff_fld_str; reflexivity|].
      apply (eff_app _ _ 0 0 0 0); [destruct (dec_abs (rp_epoch p)) as (z' & -> & _); eapply neutral_fld_jval; [reflexivity|apply jv_print_Z]|].
      apply (eff_app _ _ 0 0 0 0); [apply eff_fld_str; reflexivity|].
      apply (eff_app _ _ 0 0 0 0); [apply eff_fld_str; reflexivity|].
      apply (eff_app _ _ 0 0 0 0); [apply eff_fld_str; reflexivity|].
      apply (eff_app _ _ 0 0 0 0); [apply neutral_pos; reflexivity|]. apply neutral_role.
  - destruct (rp_name p); reflexivity.
  - reflexivity.
  - reflexivity.
Qed.
Lemma package_reads v p : single_rpm_package_from_json v = Ok p <-> reads_package v p.
Proof.
  unfold single_rpm_package_from_json, reads_package. destruct v; try (split; [discriminate|intros (o & E & _); discriminate]). split.
  - intros H. apply bind_Ok in H as (n & Hn & H). apply bind_Ok in H as (ve & Hv & H). apply bind_Ok in H as (re & Hr & H).
    apply bind_Ok in H as (a & Ha & H). apply bind_Ok in H as (e & He & H). apply bind_Ok in H as (t & Ht & H).
    apply bind_Ok in H as (ro & Hro & H). apply Ok_inj1 in H. subst p. exists l. split; [reflexivity|]. cbn.
    rewrite <- !read_string_iff, <- read_u64_iff, <- read_u32_iff. repeat split; auto.
    unfold get_string_member in Hro. destruct (jget (L "package_role") l) as [[]|] eqn:Ej; cbn [bind] in Hro; try discriminate.
    + destruct (str_eqb s (L "affected")) eqn:Es; [|discriminate]. apply str_eqb_eq in Es. apply Ok_inj1 in Hro. subst. right. auto.
    + apply Ok_inj1 in Hro. subst. left. auto.
  - intros (o & E & H1 & H2 & H3 & H4 & H5 & H6 & H7 & H8). injection E as ->.
    rewrite <- read_string_iff in *. apply read_u32_iff in H5. apply read_u64_iff in H6.
    rewrite H1. cbn [bind]. rewrite H2. cbn [bind]. rewrite H3. cbn [bind]. rewrite H4. cbn [bind]. rewrite H5. cbn [bind]. rewrite H6. cbn [bind].
    unfold get_string_member. destruct p; cbn in *. subst. destruct H7 as [[-> ->]|[-> ->]]; reflexivity.
Qed.
Lemma package_not_UB v : single_rpm_package_from_json v <> UB.
Proof.
  unfold single_rpm_package_from_json. destruct v; try discriminate. repeat (apply bind_not_UB; [apply json_read_not_UB|intro]).
  apply bind_not_UB; [|discriminate]. unfold get_string_member. destruct (jget (L "package_role") l) as [[]|]; cbn [bind]; try discriminate.
  destruct (str_eqb s (L "affected")); discriminate.
Qed.
Lemma packages_reads v l : rpm_packages_from_json v = Ok l <-> exists vs, v = JArr vs /\ Forall2 reads_package vs l.
Proof.
  unfold rpm_packages_from_json. destruct v; try (split; [discriminate|intros (vs & E & _); discriminate]).
  rewrite (map_res_iff _ _ package_reads). split; [eauto|]. intros (vs & E & H). injection E as ->. exact H.
Qed.
Lemma packages_not_UB v : rpm_packages_from_json v <> UB.
Proof. unfold rpm_packages_from_json. destruct v; try discriminate. apply map_res_not_UB. apply package_not_UB. Qed.
Lemma jget_role k r : jget k (role_members r) =
  if str_eqb k (L "package_role") then match r with ROLE_UNKNOWN => None | ROLE_AFFECTED => Some (JStr (L "affected")) end else None.
Proof. destruct r; cbn [role_members]; [destruct (str_eqb k (L "package_role")); reflexivity|reflexivity]. Qed.
Lemma package_back p : package_range p -> reads_package (package_value p) (package_as_read p).
Proof.
  intros [[He _] [Hi _]]. unfold package_value. eexists. split; [reflexivity|].
  change (if rp_install_time p =? 0 then [] else [(L "install_time", JInt (rp_install_time p))]) with (mem_nz (L "install_time") (rp_install_time p)).
  change (match rp_role p with ROLE_UNKNOWN => [] | ROLE_AFFECTED => [(L "package_role", JStr (L "affected"))] end) with (role_members (rp_role p)).
  rewrite !opt_member_mem. cbn [package_as_read rp_name rp_version rp_release rp_architecture rp_epoch rp_install_time rp_role rp_consistency].
  repeat split.
  - apply reads_string_of. lookup. rewrite jget_role. eval_keys. cbv iota. destruct (rp_install_time p =? 0); opt_done.
  - apply reads_string_of. lookup. rewrite jget_role. eval_keys. cbv iota. destruct (rp_install_time p =? 0); opt_done.
  - apply reads_string_of. lookup. rewrite jget_role. eval_keys. cbv iota. destruct (rp_install_time p =? 0); opt_done.
  - apply reads_string_of. lookup. rewrite jget_role. eval_keys. cbv iota. destruct (rp_install_time p =? 0); opt_done.
  - apply reads_u32_some; [exact He|]. lookup. rewrite jget_role. eval_keys. cbv iota. destruct (rp_install_time p =? 0); opt_done.
  - apply reads_u64_nz; [exact Hi| |reflexivity]. lookup. rewrite jget_role. eval_keys. cbv iota. destruct (rp_install_time p =? 0); opt_done.
  - lookup. rewrite jget_role. eval_keys. cbv iota. destruct (rp_role p); [left|right]; split; auto.
Qed.
Lemma package_ok_id p : package_ok p -> package_as_read p = p.
Proof. intros (_ & He & Hi & Hc). unfold package_as_read. rewrite clip64_id, clip32_id by assumption. destruct p; cbn in *; subst; reflexivity. Qed.

(** The list. *)
Fixpoint comma_packages (l : list rpm_package) : str :=
  match l with
  | [] => []
  | p :: r => ","%char :: [sp] ++ sr_indent_except_first_line (rpm_package_to_json p) 2 ++ (match r with [] => [] | _ => [nl] end) ++ comma_packages r
  end.
Lemma package_items_comma l : package_items false l = comma_packages l.
Proof. induction l as [|p r IH]; [reflexivity|]. cbn [package_items comma_packages]. rewrite IH. reflexivity. Qed.
Lemma comma_packages_jitems l : Forall package_safe l -> Forall package_range l -> jitems (map package_value l) (comma_packages l).
Proof.
  induction l as [|p r IH]; intros Hs Hr; [constructor|]. inversion Hs; inversion Hr; subst. cbn [map comma_packages].
  apply ji_cons; auto; [apply (ws_spaces 1)| |destruct r; [apply ws_nil|apply ws_1]].
  match goal with H : package_range p |- _ => destruct H as [[? _] [? _]] end. apply jval_indent, package_jval; assumption.
Qed.
Lemma packages_jval l : l <> [] -> Forall package_safe l -> Forall package_range l ->
  jval (JArr (map package_value l)) (rpm_packages_to_json l).
Proof.
  intros Hne Hs Hr. pose proof (comma_packages_jitems l Hs Hr) as H. unfold rpm_packages_to_json.
  assert (E : package_items true l ++ L " ]" = "["%char :: skipn 1 (comma_packages l) ++ [sp] ++ L "]").
  { destruct l as [|p r]; [congruence|]. cbn [package_items comma_packages skipn]. rewrite package_items_comma. reflexivity. }
  rewrite E. apply jitems_array; [exact H| |apply (ws_spaces 1)]. destruct l; [congruence|discriminate].
Qed.
Lemma packages_survive l : l <> [] -> Forall package_safe l -> Forall package_range l ->
  survives (rpm_packages_to_json l) rpm_packages_from_json (map package_as_read l).
Proof.
  intros Hne Hs Hr. eapply survives_of_jval; [apply packages_jval; assumption|]. apply packages_reads. eexists. split; [reflexivity|].
  clear Hne Hs. induction l; cbn [map]; constructor; inversion Hr; subst; [apply package_back; assumption|apply IHl; assumption].
Qed.
Definition bracket (first : bool) (l : list rpm_package) : Z := match l with [] => 0 | _ => if first then 1 else 0 end.
Lemma package_items_eff l : forall first, eff (package_items first l) 0 (bracket first l) (existsb package_unsafe l).
Proof.
  induction l as [|p r IH]; intros first; [apply neutral_nil|]. cbn [package_items existsb bracket].
  assert (E : eff (if first then L "[ " else L ", ") 0 (if first then 1 else 0) false).
  { destruct first; intros br bk bad; cbv -[Z.add orb]; rewrite orb_false_r; f_equal; lia. }
  eapply eff_eq.
  - apply eff_app; [exact E|]. apply eff_app; [apply eff_indent, package_eff|].
    apply eff_app; [|apply (IH false)]. destruct r; [apply neutral_nil|apply neutral_char; reflexivity].
  - lia.
  - destruct r; cbn [bracket]; lia.
  - reflexivity.
Qed.
Lemma packages_eff l : eff (rpm_packages_to_json l) 0 (match l with [] => -1 | _ => 0 end) (existsb package_unsafe l).
Proof.
  unfold rpm_packages_to_json. eapply eff_eq.
  - apply eff_app; [apply package_items_eff|]. instantiate (1 := false). instantiate (1 := -1). instantiate (1 := 0).
    intros br bk bad; cbv -[Z.add Z.sub orb]; rewrite orb_false_r; f_equal; lia.
  - lia.
  - destruct l; reflexivity.
  - apply orb_false_r.
Qed.
Lemma packages_unsafe_iff l : existsb package_unsafe l = false <-> Forall package_safe l.
Proof.
  rewrite existsb_false. split; intros H; (eapply Forall_impl; [|exact H]); intros p Hp; apply package_unsafe_iff; exact Hp.
Qed.
Lemma packages_valid_iff l : Forall package_range l -> valid_json (rpm_packages_to_json l) <-> l <> [] /\ Forall package_safe l.
Proof.
  intros Hr. split.
  - intros H. apply (eff_not_json _ _ _ _ (packages_eff l)) in H as (_ & H1 & H2). split; [destruct l; [discriminate H1|discriminate]|].
    apply packages_unsafe_iff. exact H2.
  - intros [H1 H2]. eexists. apply jval_text. apply packages_jval; assumption.
Qed.
