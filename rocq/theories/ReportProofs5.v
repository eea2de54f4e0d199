(** * Proofs about reports read back. *)
From Verif Require Import Base UtilsModel UtilsProofs JsonSpec JsonModel JsonProofs JsonScan Types JsonTypesModel JsonTypesSpec JsonReaders JsonWriters JsonRoundtrip JsonRoundtrip2 JsonRoundtrip3 NormSpec TextModel SystemModel ReportModel ReportSpec ReportProofs ReportProofs2 ReportProofs3 ReportProofs4.
Open Scope Z_scope.

(** ** Authentication entries *)
Lemma json_object_add_new k v l : ~ In k (map fst l) -> json_object_add k v l = l ++ [(k, v)].
Proof.
  induction l as [|[k' v'] l IH]; intros H; [reflexivity|]. cbn [json_object_add map fst] in *.
  destruct (str_eqb k k') eqn:E; [apply str_eqb_eq in E; subst; exfalso; apply H; left; reflexivity|].
  rewrite IH; [reflexivity|]. intros Hin. apply H. right. exact Hin.
Qed.
Lemma object_entries_nodup l : NoDup (map fst l) -> object_entries l = l.
Proof.
  unfold object_entries. intros H.
  assert (G : forall l acc, NoDup (map fst (acc ++ l)) -> fold_left (fun l m => json_object_add (fst m) (snd m) l) l acc = acc ++ l).
  { clear. induction l as [|[k v] l IH]; intros acc H; [rewrite app_nil_r; reflexivity|]. cbn [fold_left fst snd].
    rewrite json_object_add_new.
    - rewrite IH; rewrite <- app_assoc; [reflexivity|exact H].
    - rewrite map_app in H. cbn [map fst] in H. apply NoDup_remove_2 in H. intros Hin. apply H. apply in_or_app. left. exact Hin. }
  apply (G l []). exact H.
Qed.
Lemma read_auth_strings l : NoDup (map fst l) -> read_auth (map (fun e => (fst e, JStr (snd e))) l) = l.
Proof.
  intros H. unfold read_auth. rewrite object_entries_nodup; [|rewrite map_map; cbn [fst]; exact H].
  rewrite <- fold_left_rev_right, rev_involutive.
  clear H. induction l as [|[k v] l IH]; [reflexivity|]. cbn [map fold_right fst snd]. rewrite IH. reflexivity.
Qed.

(** ** The problem *)
Lemma jget_opt_member k k' o : jget k (opt_member k' o) = if str_eqb k k' then option_map JStr o else None.
Proof. apply jget_mem_str. Qed.
Lemma jget_user k r : jget k (if Nat.eqb (rep_type r) 3 then []
   else [(L "user", JObj [(L "root", JBool (rep_user_root r)); (L "local", JBool (rep_user_local r))])]) =
  if str_eqb k (L "user") then (if Nat.eqb (rep_type r) 3 then None
    else Some (JObj [(L "root", JBool (rep_user_root r)); (L "local", JBool (rep_user_local r))])) else None.
Proof. destruct (Nat.eqb (rep_type r) 3); cbn [jget]; destruct (str_eqb k (L "user")); reflexivity. Qed.
Ltac look := unfold problem_members; repeat first [rewrite jget_app | rewrite jget_opt_member | rewrite jget_user | rewrite jget_one]; eval_keys; cbv beta iota.
Lemma problem_other r k : In k stacktrace_keys -> jget k (problem_members r) = None.
Proof.
  intros H. repeat (destruct H as [<-|H]; [look; reflexivity|]). destruct H.
Qed.
Lemma problem_type r : jget (L "type") (problem_members r) = Some (JStr (type_name (rep_type r))).
Proof. look. reflexivity. Qed.
Lemma problem_component r : jget (L "component") (problem_members r) = option_map JStr (rep_component r).
Proof. look. destruct (rep_component r); reflexivity. Qed.
Lemma problem_serial r : jget (L "serial") (problem_members r) = Some (JInt (rep_serial r)).
Proof. look. reflexivity. Qed.
Lemma jget_suffix k a b : jget k b = None -> jget k (a ++ b) = jget k a.
Proof. intros H. rewrite jget_app, H. reflexivity. Qed.
Definition type_as_read (t : nat) : nat := if existsb (Nat.eqb t) [1; 2; 3; 4; 6; 7]%nat then t else 0%nat.
Lemma type_back t : sr_report_type_from_string (Some (type_name t)) = type_as_read t.
Proof. destruct t as [|[|[|[|[|[|[|[|]]]]]]]]; reflexivity. Qed.
Lemma type_read_iff t : existsb (Nat.eqb (type_as_read t)) [REPORT_CORE; REPORT_PYTHON; REPORT_KERNELOOPS; REPORT_JAVA; REPORT_RUBY] = read_with_stacktrace t.
Proof. destruct t as [|[|[|[|[|[|[|[|]]]]]]]]; reflexivity. Qed.
Lemma read_u32_ok o k d z : 0 <= z -> jget k o = Some (JInt z) -> json_read_uint32 o k d = Ok (clip32 z).
Proof. intros Hz H. apply read_u32_iff. apply reads_u32_some; assumption. Qed.
Lemma read_string_ok o k d x : jget k o = option_map JStr x -> json_read_string o k d = Ok (match x with Some _ => x | None => d end).
Proof. intros H. unfold json_read_string, json_read. rewrite H. destruct x; reflexivity. Qed.

Lemma report_back pn pv r reason members :
  plain_reporter r -> report_range r -> report_consistent r ->
  members = match rep_stacktrace r with Some s => stacktrace_members s | None => [] end ->
  (read_with_stacktrace (rep_type r) = true -> rep_stacktrace r <> None) ->
  sr_report_from_json pn pv (report_value r reason members) = Ok (report_as_read r).
Proof.
  intros (n & v & En & Ev & Hn & Hv) ([Rv _] & [Rs _] & Ro & Rp & Rst) (Ct & Ck & Ca) Em Hst.
  assert (Hmem : forall k, In k [L "type"; L "component"; L "user"; L "serial"] -> jget k members = None).
  { subst members. destruct (rep_stacktrace r); [apply stacktrace_members_none|reflexivity]. }
  unfold report_value. set (pm := _ ++ opt_member (L "component") _ ++ _ ++ _ ++ members).
  assert (Epm : pm = problem_members r ++ members) by (unfold pm, problem_members; rewrite <- !app_assoc; reflexivity). clearbody pm.
  set (rep := JObj (opt_member (L "name") (rep_reporter_name r) ++ opt_member (L "version") (rep_reporter_version r))).
  set (osm := match rep_os r with Some os => [(L "os", os_value os)] | None => [] end).
  set (aum := match rep_auth r with [] => [] | _ => _ end).
  assert (Jo : forall k, jget k osm = if str_eqb k (L "os") then option_map os_value (rep_os r) else None).
  { intros k. unfold osm. destruct (rep_os r); cbn [jget option_map]; destruct (str_eqb k (L "os")); reflexivity. }
  assert (Ja : forall k, jget k aum = if str_eqb k (L "auth") then
     match rep_auth r with [] => None | _ => Some (JObj (map (fun e => (fst e, JStr (snd e))) (rep_auth r))) end else None).
  { intros k. unfold aum. destruct (rep_auth r); cbn [jget]; destruct (str_eqb k (L "auth")); reflexivity. }
  set (o := [_; _; _] ++ osm ++ _ ++ aum).
  assert (J : forall k, jget k o = match jget k aum with Some x => Some x | None =>
     match jget k [(L "problem", JObj pm); (L "packages", JArr (map package_value (rep_packages r)))] with Some x => Some x | None =>
     match jget k osm with Some x => Some x | None => jget k [(L "ureport_version", JInt (rep_version r)); (L "reason", JStr reason); (L "reporter", rep)] end end end).
  { intros k. unfold o. rewrite !jget_app. destruct (jget k aum); [reflexivity|]. destruct (jget k [(L "problem", JObj pm); _]); reflexivity. }
  clearbody o aum osm.
  assert (J1 : jget (L "ureport_version") o = Some (JInt (rep_version r))) by (rewrite J, Ja, Jo; reflexivity).
  assert (J2 : jget (L "reporter") o = Some rep) by (rewrite J, Ja, Jo; reflexivity).
  assert (J3 : jget (L "os") o = option_map os_value (rep_os r)) by (rewrite J, Ja, Jo; eval_keys; cbv iota; destruct (rep_os r); reflexivity).
  assert (J4 : jget (L "packages") o = Some (JArr (map package_value (rep_packages r)))) by (rewrite J, Ja; reflexivity).
  assert (J5 : jget (L "problem") o = Some (JObj pm)) by (rewrite J, Ja; reflexivity).
  assert (J6 : jget (L "user") o = None) by (rewrite J, Ja, Jo; reflexivity).
  assert (J7 : jget (L "auth") o = match rep_auth r with [] => None | _ => Some (JObj (map (fun e => (fst e, JStr (snd e))) (rep_auth r))) end)
    by (rewrite J, Ja, Jo; eval_keys; cbv iota; destruct (rep_auth r); reflexivity).
  clear J Ja Jo. cbn [sr_report_from_json].
  rewrite (read_u32_ok o (L "ureport_version") 2 (rep_version r) Rv J1). cbn [bind]. rewrite J2. unfold rep. rewrite En, Ev.
  match goal with |- context [bind (bind (json_read_string ?ro _ _) _) _] => set (RO := ro) end.
  assert (Q1 : json_read_string RO (L "name") (Some pn) = Ok (Some n)) by reflexivity.
  assert (Q2 : json_read_string RO (L "version") (Some pv) = Ok (Some v)) by reflexivity.
  rewrite Q1. cbn [bind]. rewrite Q2. cbn [bind fst snd]. rewrite J3.
  assert (Q3 : match option_map os_value (rep_os r) with None => Ok None | Some j => do os <- sr_operating_system_from_json j; Ok (Some os) end
               = Ok (option_map os_as_read (rep_os r))).
  { destruct (rep_os r) as [os|]; [|reflexivity]. cbn [option_map]. specialize (Ro os eq_refl).
    rewrite (proj2 (os_reads _ _) (os_back os Ro)). reflexivity. }
  rewrite Q3. cbn [bind]. rewrite J4.
  assert (Q4 : rpm_packages_from_json (JArr (map package_value (rep_packages r))) = Ok (map package_as_read (rep_packages r))).
  { apply packages_reads. eexists. split; [reflexivity|]. clear -Rp. induction Rp; cbn [map]; constructor; [apply package_back; assumption|assumption]. }
  rewrite Q4. cbn [bind]. rewrite J5, J6. rewrite Epm.
  rewrite (read_string_ok _ (L "type") None (Some (type_name (rep_type r)))) by (rewrite jget_suffix by (apply Hmem; cbn; tauto); apply problem_type).
  cbn [bind].
  rewrite (read_string_ok _ (L "component") None (rep_component r)) by (rewrite jget_suffix by (apply Hmem; cbn; tauto); apply problem_component).
  cbn [bind]. cbv zeta. rewrite type_back.
  rewrite (read_u32_ok _ (L "serial") 0 (rep_serial r) Rs) by (rewrite jget_suffix by (apply Hmem; cbn; tauto); apply problem_serial).
  cbn [bind]. rewrite type_read_iff.
  assert (Q5 : (if read_with_stacktrace (rep_type r) then sr_stacktrace_from_json (type_as_read (rep_type r)) (JObj (problem_members r ++ members)) else Ok None)
     = Ok (if read_with_stacktrace (rep_type r) then option_map stacktrace_as_read (rep_stacktrace r) else None)).
  { destruct (read_with_stacktrace (rep_type r)) eqn:ER; [|reflexivity].
    destruct (rep_stacktrace r) as [s|] eqn:Es; [|exfalso; apply Hst; reflexivity].
    specialize (Ct s eq_refl). subst members. cbn [option_map].
    replace (type_as_read (rep_type r)) with (stacktrace_type s).
    - apply stacktrace_reads_prefix; [apply problem_other|apply Rst; reflexivity| |rewrite Ct; exact ER].
      intros k ->. apply Ck. reflexivity.
    - rewrite Ct. unfold type_as_read. revert ER. generalize (rep_type r). intros t. destruct t as [|[|[|[|[|[|[|[|]]]]]]]]; cbn; congruence. }
  rewrite Q5. cbn [bind]. rewrite J7.
  assert (Q6 : match match rep_auth r with [] => None | _ => Some (JObj (map (fun e => (fst e, JStr (snd e))) (rep_auth r))) end with
               | None => Ok [] | Some (JObj ao) => Ok (read_auth ao) | Some _ => Fail end = Ok (rep_auth r)).
  { destruct (rep_auth r) as [|e l] eqn:Ea; [reflexivity|]. rewrite read_auth_strings by exact Ca. reflexivity. }
  rewrite Q6. cbn [bind fst snd]. unfold report_as_read. rewrite En, Ev. fold (type_as_read (rep_type r)).
  destruct (rep_component r); reflexivity.
Qed.

Lemma report_survives pn pv r reason t :
  plain_reporter r -> report_range r -> report_consistent r -> report_reason r reason -> sr_report_to_json r = Ok t -> valid_json t ->
  survives t (sr_report_from_json pn pv) (report_as_read r).
Proof.
  intros Hp Hr Hc Hre Ht Hv. pose proof (proj1 (report_valid_iff r reason t Hp Hr Hre Ht) Hv) as (Hs & Hsr & Hss).
  destruct (report_value_ok r reason (match rep_stacktrace r with Some s => stacktrace_members s | None => [] end) Hp Hr Hre Hs Hsr) as (t' & Ht' & Hx).
  - destruct (rep_stacktrace r) as [s|] eqn:Es; [|reflexivity].
    assert (exists u, sr_stacktrace_to_json s = Some u) as (u & Eu).
    { assert (Hg : not_gdb r) by (apply report_defined_iff; eauto). destruct s; cbn; eauto. exfalso. eapply Hg. exact Es. }
    destruct (Hss s u eq_refl Eu) as [Hu Hne]. split; [eapply stacktrace_nonempty; eauto|]. exists u. split; [exact Eu|]. apply jval_text, stacktrace_jval; assumption.
  - rewrite Ht in Ht'. injection Ht' as <-. split; [exact Hv|]. intros j Hj. rewrite (json_text_unique _ _ _ Hj Hx).
    eapply report_back; eauto. intros ER E0. unfold report_reason in Hre.
    destruct (existsb (Nat.eqb (rep_type r)) [1; 2; 3; 4; 6; 7]%nat) eqn:Ex; [destruct Hre as (s & Es & _); congruence|].
    unfold read_with_stacktrace in ER. revert Ex ER. generalize (rep_type r). intros ty. destruct ty as [|[|[|[|[|[|[|[|]]]]]]]]; cbn; congruence.
Qed.

(** ** Nothing lost *)
Lemma safe_app a b : json_safe a -> json_safe b -> json_safe (a ++ b).
Proof. unfold json_safe. intros. apply Forall_app. auto. Qed.
Lemma safe_app_l a b : json_safe (a ++ b) -> json_safe a.
Proof. unfold json_safe. intros H. apply Forall_app in H. tauto. Qed.
Lemma safe_lit s : unsafe s = false -> json_safe s.
Proof. apply unsafe_safe. Qed.
Lemma dec_safe z : json_safe (dec z).
Proof.
  destruct (dec_abs z) as (z' & -> & H). rewrite <- dec_print by exact H. unfold dec. unfold json_safe.
  pose proof (proj1 (print_N_digits (Z.to_N z'))) as D. eapply Forall_impl; [|exact D]. intros c Hc. cbv beta in Hc. left.
  destruct c as [[] [] [] [] [] [] [] []]; vm_compute in Hc |- *; congruence.
Qed.
Lemma or_unknown_safe o : opt_safe o -> json_safe (or_unknown o).
Proof. destruct o; intros H; [exact H|]. apply safe_lit. reflexivity. Qed.
Lemma cut_safe f g : cut_name f g -> koops_frame_safe f -> opt_safe (kf_function_name g) /\ opt_safe (kf_module_name g).
Proof.
  intros [(rest & before & [(A & B & _)|(A & B)]) C] (H1 & H2 & _); (split; [|replace (kf_module_name g) with (kf_module_name f) by (symmetry; apply C); exact H2]);
    rewrite B; [|exact Coq.Init.Logic.I]. rewrite A in H1. cbn [opt_safe] in *. eapply safe_app_l. exact H1.
Qed.
Ltac lits := repeat first [apply safe_app | apply dec_safe | apply safe_lit; reflexivity].
Lemma reason_safe s t : stacktrace_ok s -> reason_says s t -> json_safe t.
Proof.
  destruct s as [s|s|s|s|s|s|s]; cbn [stacktrace_ok reason_says]; intros Hok; try tauto.
  - intros ->. destruct Hok as (_ & He & _). lits. apply or_unknown_safe. exact He.
  - intros (e & f & l & -> & He & Hf). destruct Hok as [[Hx Hfr] _]. lits.
    + destruct He as [E|[E ->]]; [rewrite E in Hx; exact Hx|apply safe_lit; reflexivity].
    + destruct Hf as [(_ & -> & _)|(k & g & Eg & Ef & _)]; [apply safe_lit; reflexivity|].
      rewrite Eg in Hfr. apply Forall_app in Hfr as [_ Hfr]. inversion Hfr as [|? ? (_ & _ & (Hs & _) & _)]; subst. rewrite Ef in Hs. exact Hs.
  - intros (cut & first & Hcut & Hfirst & what & -> & Hw). destruct Hok as (_ & (_ & _ & _ & Hs) & _ & _ & Hr). rewrite Hr in Hw. subst what.
    assert (Hall : Forall (fun g => opt_safe (kf_function_name g) /\ opt_safe (kf_module_name g)) cut).
    { clear -Hcut Hs. induction Hcut; constructor; inversion Hs; subst; [eapply cut_safe; eauto|auto]. }
    assert (Hf : forall g, first = Some g -> opt_safe (kf_function_name g) /\ opt_safe (kf_module_name g)).
    { intros g ->. destruct Hfirst as (pre & post & -> & _). apply Forall_app in Hall as [_ Hall]. inversion Hall; assumption. }
    destruct first as [g|]; [|lits]. destruct (Hf g eq_refl) as [H1 H2]. lits.
    + destruct (kf_function_name g); [exact H1|apply safe_lit; reflexivity].
    + destruct (kf_module_name g); [|constructor]. lits. exact H2.
  - intros (e & f & l & -> & (r & Hr & He) & Hf). destruct Hok as [[_ Hs] _].
    assert (Hall : Forall java_frame_safe (match vs_threads s with [] => [] | th :: _ => vt_frames th end)).
    { unfold java_frames in Hs. destruct (vs_threads s) as [|th ths]; [constructor|]. cbn [map concat] in Hs. apply Forall_app in Hs. tauto. }
    set (fr := match vs_threads s with [] => [] | th :: _ => vt_frames th end) in *. clearbody fr.
    lits.
    + destruct r as [g|]; [|subst e; apply safe_lit; reflexivity]. destruct Hr as (pre & post & -> & _). apply Forall_app in Hall as [_ Hall].
      inversion Hall as [|? ? (H1 & _)]; subst. rewrite He in H1. exact H1.
    + destruct Hf as [(k & g & -> & Ef & _)|[_ [-> _]]]; [|apply safe_lit; reflexivity]. apply Forall_app in Hall as [_ Hall].
      inversion Hall as [|? ? (_ & H2 & _)]; subst. rewrite Ef in H2. exact H2.
  - intros (e & f & l & -> & He & Hf). destruct Hok as [[Hx Hfr] _]. lits.
    + destruct He as [E|[E ->]]; [rewrite E in Hx; exact Hx|apply safe_lit; reflexivity].
    + destruct Hf as [(_ & -> & _)|(k & g & Eg & Ef & _)]; [apply safe_lit; reflexivity|].
      rewrite Eg in Hfr. inversion Hfr as [|? ? (_ & _ & _ & _ & (Hs & _) & _)]; subst. rewrite Ef in Hs. exact Hs.
Qed.
Lemma stacktrace_ok_range s : stacktrace_ok s -> stacktrace_range s.
Proof.
  destruct s as [s|s|s|s|s|s|s]; cbn [stacktrace_ok stacktrace_range]; try tauto.
  - intros (Hs & He & Hf & _). split; [exact Hs|]. eapply Forall_impl; [|exact Hf]. intros f (H1 & H2 & _).
    unfold core_frame_range, u64, two64, ulong_max in *. lia.
  - intros [[_ Hf] _]. unfold python_range. eapply Forall_impl; [|exact Hf]. intros f (H & _). unfold u32, two32. lia.
  - intros (Ht & _ & _ & Hf & _). split; [exact Ht|]. eapply Forall_impl; [|exact Hf]. intros f (A1 & A2 & A3 & A4 & A5 & A6 & _).
    unfold koops_frame_range, u64, two64, below63 in *. repeat split; lia.
  - intros [_ Hf]. unfold java_range. eapply Forall_impl; [|exact Hf]. intros f (Hl & _). unfold u32, two32. lia.
  - intros [[_ Hf] _]. unfold ruby_range. eapply Forall_impl; [|exact Hf]. intros f (H1 & H2 & H3 & _). unfold u32, two32. lia.
Qed.
Lemma survives_fun {A} t f (a b : A) : survives t f a -> survives t f b -> a = b.
Proof. intros [(v & Hv) Ha] [_ Hb]. specialize (Ha v Hv). specialize (Hb v Hv). congruence. Qed.
Lemma stacktrace_ok_id s : stacktrace_ok s -> stacktrace_as_read s = s /\
  exists u, sr_stacktrace_to_json s = Some u /\ valid_json u /\ u <> L "{}".
Proof.
  intros Hok. pose proof (stacktrace_ok_range s Hok) as Hr.
  destruct s as [s|s|s|s|s|s|s]; cbn [stacktrace_ok stacktrace_range stacktrace_as_read sr_stacktrace_to_json] in *; try tauto.
  - pose proof (core_ok_survives s Hok) as Hs. pose proof (proj1 Hs) as Hv. apply core_valid_iff in Hv as Hv'.
    split; [f_equal; eapply survives_fun; [apply core_survives; tauto|exact Hs]|]. eexists. split; [reflexivity|]. split; [exact Hv|].
    unfold core_stacktrace_to_json. discriminate.
  - destruct Hok as [Hok Hne]. pose proof (python_ok_survives s Hok) as Hs. pose proof (proj1 Hs) as Hv.
    split; [f_equal; eapply survives_fun; [apply python_survives; tauto|exact Hs]|]. eexists. split; [reflexivity|]. split; [exact Hv|].
    unfold python_stacktrace_to_json. destruct (ps_exception_name s), (ps_frames s); try discriminate. destruct Hne; congruence.
  - pose proof (koops_ok_survives s Hok) as Hs. pose proof (proj1 Hs) as Hv. apply koops_valid_iff in Hv as Hv'.
    split; [f_equal; eapply survives_fun; [apply koops_survives; [tauto|tauto|apply Hok]|exact Hs]|]. eexists. split; [reflexivity|]. split; [exact Hv|].
    unfold koops_stacktrace_to_json. destruct (ks_raw_oops s); [discriminate|]. destruct (ks_version s); [discriminate|]. discriminate.
  - pose proof (java_ok_survives s Hok) as Hs. pose proof (proj1 Hs) as Hv. apply java_valid_iff in Hv as Hv'.
    split; [f_equal; eapply survives_fun; [apply java_survives; tauto|exact Hs]|]. eexists. split; [reflexivity|]. split; [exact Hv|].
    unfold java_stacktrace_to_json. discriminate.
  - destruct Hok as [Hok Hne]. pose proof (ruby_ok_survives s Hok) as Hs. pose proof (proj1 Hs) as Hv.
    split; [f_equal; eapply survives_fun; [apply ruby_survives; tauto|exact Hs]|]. eexists. split; [reflexivity|]. split; [exact Hv|].
    unfold ruby_stacktrace_to_json. destruct (rs_exception_name s), (rs_frames s); try discriminate. destruct Hne; congruence.
Qed.
Lemma report_ok_roundtrip pn pv r : report_ok r ->
  exists t, sr_report_to_json r = Ok t /\ survives t (sr_report_from_json pn pv) r.
Proof.
  intros (Rv & Rs & Hp & U1 & U2 & Ho & Hc & Hpk & Ha & Hnd & s & Es & Ety & Hok & Hd).
  assert (Hg : forall g, s <> SGdb g) by (intros g ->; exact Hok).
  destruct (reason_exists s Hg Hd) as (reason & _ & Hsay).
  assert (Hre : report_reason r reason).
  { unfold report_reason. rewrite <- Ety. replace (existsb (Nat.eqb (stacktrace_type s)) [1; 2; 3; 4; 6; 7]%nat) with true; [eauto|].
    destruct s; try reflexivity; exfalso; eapply Hg; reflexivity. }
  assert (Hdef : exists t, sr_report_to_json r = Ok t).
  { apply report_defined_iff. destruct Hp as (n & v & En & Ev & _). rewrite En, Ev. split; [discriminate|]. split; [discriminate|].
    split; [|eauto]. intros g Eg. rewrite Es in Eg. injection Eg as ->. eapply Hg. reflexivity. }
  destruct Hdef as (t & Ht). exists t. split; [exact Ht|].
  destruct (stacktrace_ok_id s Hok) as (Hid & u & Eu & Hu & Hne).
  assert (Hr : report_range r).
  { unfold report_range. split; [unfold u32, two32; lia|]. split; [unfold u32, two32; lia|]. split; [|split].
    - intros os Eo. destruct (Ho os Eo) as (_ & H & _). unfold u64, two64. lia.
    - eapply Forall_impl; [|exact Hpk]. intros p (_ & H1 & H2 & _). unfold package_range, u32, u64, two32, two64. lia.
    - intros s' Es'. rewrite Es in Es'. injection Es' as <-. apply stacktrace_ok_range. exact Hok. }
  assert (Hsafe : report_safe r).
  { split; [intros os Eo; apply (Ho os Eo)|]. split; [exact Hc|]. split; [|exact Ha]. eapply Forall_impl; [|exact Hpk]. intros p (H & _). exact H. }
  assert (Hvalid : valid_json t).
  { eapply report_valid_iff; eauto. split; [exact Hsafe|]. split; [eapply reason_safe; eauto|].
    intros s' u' Es' Eu'. rewrite Es in Es'. injection Es' as <-. rewrite Eu in Eu'. injection Eu' as <-. auto. }
  assert (Hcons : report_consistent r).
  { split; [intros s' Es'; rewrite Es in Es'; injection Es' as <-; exact Ety|]. split; [|exact Hnd].
    intros k Ek. rewrite Es in Ek. injection Ek as ->. apply Hok. }
  assert (Hid2 : report_as_read r = r).
  { unfold report_as_read. rewrite !clip32_id by assumption.
    replace (existsb (Nat.eqb (rep_type r)) [1; 2; 3; 4; 6; 7]%nat) with true by (rewrite <- Ety; destruct s; try reflexivity; exfalso; exact Hok).
    replace (read_with_stacktrace (rep_type r)) with true by (rewrite <- Ety; destruct s; try reflexivity; exfalso; exact Hok).
    rewrite Es. cbn [option_map]. rewrite Hid.
    rewrite (map_id_in package_as_read) by (intros p Hin; apply package_ok_id; rewrite Forall_forall in Hpk; auto).
    replace (option_map os_as_read (rep_os r)) with (rep_os r).
    - rewrite <- U1, <- U2, <- Es. destruct r; reflexivity.
    - destruct (rep_os r) as [os|]; [|reflexivity]. cbn [option_map]. rewrite os_ok_id by (apply Ho; reflexivity). reflexivity. }
  rewrite <- Hid2. eapply report_survives; eauto.
Qed.
Lemma packages_ok_survive l : l <> [] -> Forall package_ok l -> survives (rpm_packages_to_json l) rpm_packages_from_json l.
Proof.
  intros Hne H. assert (E : map package_as_read l = l) by (apply map_id_in; intros p Hin; apply package_ok_id; rewrite Forall_forall in H; auto).
  rewrite <- E at 2. apply packages_survive; [exact Hne| |]; (eapply Forall_impl; [|exact H]); intros p (Hs & He & Hi & _); [exact Hs|].
  unfold package_range, u32, u64, two32, two64. lia.
Qed.
Lemma add_auth_order l : forall r, rep_auth (fold_left (fun r e => sr_report_add_auth r (fst e) (snd e)) l r) = rev l ++ rep_auth r.
Proof.
  induction l as [|[k v] l IH]; intros r; [reflexivity|]. cbn [fold_left rev]. rewrite IH. rewrite <- app_assoc. reflexivity.
Qed.

(** ** What is lost *)
Ltac plain_lit := repeat constructor; vm_compute; try discriminate; congruence.
Lemma simple_survives r reason t : plain_reporter r -> report_range r -> report_consistent r -> report_reason r reason -> sr_report_to_json r = Ok t ->
  report_safe r -> json_safe reason -> (forall s u, rep_stacktrace r = Some s -> sr_stacktrace_to_json s = Some u -> valid_json u /\ u <> L "{}") ->
  valid_json t /\ forall pn pv v, json_text v t -> sr_report_from_json pn pv v = Ok (report_as_read r).
Proof.
  intros H1 H2 H3 H4 H5 H6 H7 H8. assert (Hv : valid_json t) by (eapply report_valid_iff; eauto). split; [exact Hv|].
  intros pn pv v Hj. eapply report_survives; eauto.
Qed.
Definition some_core : core_stacktrace :=
  mk_core_stacktrace 11 (Some (L "/bin/x")) (Some 0%nat) [mk_core_thread [mk_core_frame 4096 None 16 (Some (L "f")) None None true]] false.
Lemma some_core_ok : core_ok some_core.
Proof.
  split; [cbn; unfold u16, two16; lia|]. split; [apply safe_lit; reflexivity|]. split.
  - repeat constructor; cbn; try exact Logic.I; try lia; try (intros; reflexivity); apply safe_lit; reflexivity.
  - split; [discriminate|]. exists 0%nat. eexists. split; [reflexivity|]. split; [reflexivity|]. discriminate.
Qed.
Lemma user_lost : exists r t, sr_report_to_json r = Ok t /\ valid_json t /\ plain_reporter r /\ report_consistent r /\
  forall pn pv v, json_text v t -> exists r', sr_report_from_json pn pv v = Ok r' /\ rep_user_root r = true /\ rep_user_root r' = false.
Proof.
  set (r := mk_report 2 1 (Some (L "satyr")) (Some (L "1")) true true None None [] (Some (SCore some_core)) [] 0).
  assert (Hp : plain_reporter r) by (exists (L "satyr"), (L "1"); repeat split; plain_lit).
  assert (Hc : report_consistent r).
  { split; [intros s E; injection E as <-; reflexivity|]. split; [intros s E; discriminate|constructor]. }
  destruct (sr_report_to_json r) as [t| |] eqn:E; [|vm_compute in E; discriminate|vm_compute in E; discriminate].
  exists r, t. split; [exact E|].
  assert (Hok : stacktrace_ok (SCore some_core)) by exact some_core_ok.
  destruct (stacktrace_ok_id _ Hok) as (Hid & u & Eu & Hu & Hne).
  assert (Hre : report_reason r (L "Program /bin/x was terminated by signal 11")).
  { cbn. eexists. split; [reflexivity|]. split; [exact Logic.I|]. reflexivity. }
  destruct (fun A B C D => simple_survives r _ t Hp A Hc Hre E B C D) as [Hv Hb].
  - split; [cbn; unfold u32, two32; lia|]. split; [cbn; unfold u32, two32; lia|]. split; [discriminate|]. split; [constructor|].
    intros s Es. injection Es as <-. apply (stacktrace_ok_range _ Hok).
  - split; [discriminate|]. split; [exact Logic.I|]. split; constructor.
  - apply safe_lit. reflexivity.
  - intros s u' Es Eu'. injection Es as <-. rewrite Eu in Eu'. injection Eu' as <-. auto.
  - split; [exact Hv|]. split; [exact Hp|]. split; [exact Hc|]. intros pn pv v Hj. eexists. split; [apply Hb; exact Hj|]. split; reflexivity.
Qed.
Lemma javascript_lost : exists r t s, sr_report_to_json r = Ok t /\ valid_json t /\ rep_stacktrace r = Some s /\
  forall pn pv v, json_text v t -> exists r', sr_report_from_json pn pv v = Ok r' /\ rep_stacktrace r' = None.
Proof.
  set (j := mk_js_stacktrace (Some (L "TypeError")) [] 17).
  set (r := mk_report 2 7 (Some (L "satyr")) (Some (L "1")) false true None None [] (Some (SJs j)) [] 0).
  assert (Hp : plain_reporter r) by (exists (L "satyr"), (L "1"); repeat split; plain_lit).
  assert (Hc : report_consistent r).
  { split; [intros s E; injection E as <-; reflexivity|]. split; [intros s E; discriminate|constructor]. }
  destruct (sr_report_to_json r) as [t| |] eqn:E; [|vm_compute in E; discriminate|vm_compute in E; discriminate].
  exists r, t, (SJs j). split; [exact E|].
  assert (Hj : js_ok j) by (split; [apply safe_lit; reflexivity|]; split; [constructor|right; reflexivity]).
  assert (Hre : report_reason r (L "TypeError at <unknown>:0:0")).
  { cbn. eexists. split; [reflexivity|]. split; [discriminate|]. exists (L "TypeError"), (L "<unknown>"), 0, 0. split; [reflexivity|]. split; [left; reflexivity|left; auto]. }
  destruct (fun A B C D => simple_survives r _ t Hp A Hc Hre E B C D) as [Hv Hb].
  - split; [cbn; unfold u32, two32; lia|]. split; [cbn; unfold u32, two32; lia|]. split; [discriminate|]. split; [constructor|].
    intros s Es. injection Es as <-. split; [cbn; unfold u32, two32; lia|constructor].
  - split; [discriminate|]. split; [exact Logic.I|]. split; constructor.
  - apply safe_lit. reflexivity.
  - intros s u' Es Eu'. injection Es as <-. cbn [sr_stacktrace_to_json] in Eu'. assert (Ex : u' = js_stacktrace_to_json j) by congruence. subst u'.
    split; [apply (js_ok_survives j Hj)|]. discriminate.
  - split; [exact Hv|]. split; [reflexivity|]. intros pn pv v Hx. eexists. split; [apply Hb; exact Hx|]. reflexivity.
Qed.
Lemma reporter_unescaped : exists r t, report_safe r /\ (exists n, rep_reporter_name r = Some n /\ json_safe n) /\
  sr_report_to_json r = Ok t /\ ~ valid_json t.
Proof.
  exists (mk_report 2 0 (Some (L "a"" b")) (Some (L "1")) false true None None [] None [] 0). eexists. split; [|split; [|split; [vm_compute; reflexivity|]]].
  - split; [discriminate|]. split; [exact Logic.I|]. split; constructor.
  - eexists. split; [reflexivity|]. apply safe_lit. reflexivity.
  - intros H. apply valid_json_neutral in H. specialize (H 0 0 false). vm_compute in H. discriminate H.
Qed.
Lemma empty_malformed : exists r t, plain_reporter r /\ report_safe r /\ report_range r /\
  rep_stacktrace r = Some (SPython (mk_python_stacktrace None [])) /\ sr_report_to_json r = Ok t /\ ~ valid_json t.
Proof.
  set (r := mk_report 2 2 (Some (L "satyr")) (Some (L "1")) false true None None [] (Some (SPython (mk_python_stacktrace None []))) [] 0).
  destruct (sr_report_to_json r) as [t| |] eqn:E; [|vm_compute in E; discriminate|vm_compute in E; discriminate].
  assert (Hp : plain_reporter r) by (exists (L "satyr"), (L "1"); repeat split; plain_lit).
  assert (Hr : report_range r).
  { split; [cbn; unfold u32, two32; lia|]. split; [cbn; unfold u32, two32; lia|]. split; [discriminate|]. split; [constructor|].
    intros s Es. injection Es as <-. constructor. }
  exists r, t. split; [exact Hp|]. split; [split; [discriminate|]; split; [exact Logic.I|]; split; constructor|]. split; [exact Hr|].
  split; [reflexivity|]. split; [exact E|]. intros H.
  assert (Hre : report_reason r (L "Unknown error in <unknown>:0")).
  { cbn. eexists. split; [reflexivity|]. split; [intros l f Ef; destruct l; discriminate Ef|].
    exists (L "Unknown error"), (L "<unknown>"), 0. split; [reflexivity|]. split; [right; auto|left; auto]. }
  apply (report_valid_iff r _ t Hp Hr Hre E) in H as (_ & _ & H). destruct (H _ _ eq_refl eq_refl) as [_ H']. apply H'. reflexivity.
Qed.
