(** * What is told about a report. *)
From Verif Require Import Base Types UtilsModel UtilsProofs JsonSpec JsonModel JsonTypesModel SystemModel TextModel ReportModel ReportSpec ReportProofs6 JsonMsgModel JsonMsgSpec JsonMsgProofs JsonMsgProofs2 JsonMsgProofs3 JsonMsgProofs4.
Open Scope nat_scope.

Lemma in_order_from l m : In m (fst (in_order l)) -> exists c more, In (c, more) l /\ (c = Some m \/ In m more).
Proof.
  induction l as [|[[c|] more] l IH]; cbn [in_order fst]; [intros []| |].
  - intros [->|H]; exists (Some c), more || exists (Some m), more; (split; [left; reflexivity|]); tauto.
  - destruct (in_order l) as [ms b]. cbn [fst] in *. intros H. apply in_app_iff in H. destruct H as [H|H]; [exists None, more; split; [left; reflexivity|right; exact H]|].
    destruct (IH H) as (c & more' & I & E). exists c, more'. split; [right; exact I|exact E].
Qed.
Lemma in_order_accepted l : snd (in_order l) = false <-> forall c more, In (c, more) l -> c = None.
Proof.
  induction l as [|[[c|] more] l IH]; cbn [in_order snd].
  - split; [intros _ ? ? []|reflexivity].
  - split; [discriminate|]. intros H. specialize (H _ _ (or_introl eq_refl)). discriminate H.
  - destruct (in_order l) as [ms b]. cbn [snd] in *. rewrite IH. split; [intros H c' m' [E|I]; [congruence|exact (H _ _ I)]|intros H c' m' I; apply (H c' m'); right; exact I].
Qed.
Lemma in_order_silent l : in_order l = ([], false) <-> forall c more, In (c, more) l -> c = None /\ more = [].
Proof.
  induction l as [|[[c|] more] l IH]; cbn [in_order].
  - split; [intros _ ? ? []|reflexivity].
  - split; [discriminate|]. intros H. destruct (H _ _ (or_introl eq_refl)) as (E & _). discriminate E.
  - destruct (in_order l) as [ms b]. split.
    + intros E. injection E as E1 E2. apply app_eq_nil in E1. destruct E1 as (-> & ->). subst b. intros c' m' [E|I]; [injection E as <- <-; split; reflexivity|]. apply IH; [reflexivity|exact I].
    + intros H. destruct (H _ _ (or_introl eq_refl)) as (_ & ->). assert (E : (ms, b) = ([], false)) by (apply IH; intros c' m' I; apply (H c' m'); right; exact I). injection E as -> ->. reflexivity.
Qed.
Lemma in_order_refused l : snd (in_order l) = true -> fst (in_order l) <> [].
Proof.
  induction l as [|[[c|] more] l IH]; cbn [in_order snd fst]; [discriminate|discriminate|]. destruct (in_order l) as [ms b]. cbn [fst snd] in *. intros E H. apply app_eq_nil in H. exact (IH E (proj2 H)).
Qed.

(** ** All that is told is true *)
Lemma root_by root : goes_by root root (L "root value").
Proof. right. left. reflexivity. Qed.
Lemma told_if_in c m : In m (told_if c) -> c = Some m.
Proof. destruct c; cbn; [intros [->|[]]; reflexivity|intros []]. Qed.
Lemma member_part root j key x : part root j -> member j key = Some x -> part root x.
Proof. intros P E. destruct j as [| | | | |o]; try discriminate E. exact (a_member _ _ _ _ P E). Qed.
Lemma member_by root j key x : part root j -> member j key = Some x -> goes_by root x key.
Proof. intros P E. destruct j as [| | | | |o]; try discriminate E. left. exists o. split; assumption. Qed.
Lemma the_true root j name key shown w m : part root j -> goes_by root j name -> (shown = key \/ In shown words) -> clear shown w -> complaint name (the key shown w) j = Some m -> says root m.
Proof. intros P G S1 C E. apply (complaint_true (the key shown w) name root j m); try assumption. cbn [the clear]. repeat split; assumption. Qed.
Lemma field_the_true root j name key w m : part root j -> (exists o, j = JObj o) -> clear key w -> complaint name (the key key w) j = Some m -> says root m.
Proof.
  intros P (o & ->) C E. rewrite one_member in E. unfold found in E. destruct (jget key o) as [x|] eqn:X; [|discriminate E].
  apply (complaint_true w key root x m C); [exact (a_member _ _ _ _ P X)|left; exists o; split; assumption|exact E].
Qed.
Lemma packages_clear : clear (L "package list") (List_ (L "package") package_table).
Proof. unfold package_table, field. cbn [clear]. repeat split; try (left; reflexivity); try (unfold words; cbn [In]; tauto). exact role_clear. Qed.
Ltac known_word := unfold words; cbn [In]; tauto.
Lemma stages_true root c more m : In (c, more) (stages root) -> c = Some m \/ In m more -> says root m.
Proof.
  intros I E. unfold stages in I.
  assert (T : forall key shown w m, (shown = key \/ In shown words) -> clear shown w -> complaint (L "root value") (the key shown w) root = Some m -> says root m).
  { intros key shown w m0 S1 C E1. exact (the_true root root _ key shown w m0 (the_root root) (root_by root) S1 C E1). }
  destruct I as [I|[I|[I|[I|[I|[I|[I|[I|[I|[I|[]]]]]]]]]]]; apply pair_equal_spec in I; destruct I as [<- <-].
  - destruct E as [E|[]]. apply T in E; [exact E|left; reflexivity|exact Logic.I].
  - destruct E as [E|[]]. apply T in E; [exact E|left; reflexivity|unfold field; clear_].
  - destruct E as [E|E]; [apply T in E; [exact E|right; known_word|unfold os_table, field; clear_]|].
    unfold os_told in E. destruct (member root (L "os")) as [os|] eqn:O; [|destruct E]. destruct os as [| | | | |oo]; try destruct E. pose proof (member_part _ _ _ _ (the_root root) O) as PO.
    apply in_app_iff in E. destruct E as [E|E]; apply told_if_in in E; (apply (field_the_true root _ _ _ _ _ PO) in E; [exact E|exists oo; reflexivity|exact Logic.I]).
  - destruct E as [E|[]]. apply T in E; [exact E|right; known_word|exact packages_clear].
  - destruct E as [E|[]]. unfold in_problem in E. apply T in E; [exact E|left; reflexivity|unfold field; clear_].
  - destruct E as [E|[]]. unfold in_problem in E. apply T in E; [exact E|left; reflexivity|unfold field; clear_].
  - destruct E as [E|[]]. unfold user_complains in E. destruct (member root (L "problem")); [|discriminate E]. apply T in E; [exact E|left; reflexivity|unfold field; clear_].
  - destruct E as [E|[]]. unfold in_problem in E. apply T in E; [exact E|left; reflexivity|unfold field; clear_].
  - destruct E as [E|E]; [discriminate E|]. unfold trace_told in E. destruct (member root (L "problem")) as [p|] eqn:P; [|destruct E]. destruct (table (type_of_report root)) as [w|] eqn:W; [|destruct E].
    destruct (Nat.eqb (type_of_report root) REPORT_JAVASCRIPT); [destruct E|]. apply told_if_in in E.
    apply (complaint_true w (L "stacktrace") root p m (tables_clear _ _ W)); [exact (member_part _ _ _ _ (the_root root) P)|right; known_word|exact E].
  - destruct E as [E|E]; [apply T in E; [exact E|left; reflexivity|exact Logic.I]|]. unfold auth_told in E. destruct (member root (L "auth")) as [a|] eqn:A; [|destruct E].
    destruct a as [| | | | |ao]; try destruct E. pose proof (member_part _ _ _ _ (the_root root) A) as PA. apply in_flat_map in E. destruct E as (k & _ & E). destruct (jget k ao) as [x|] eqn:X; [|destruct E].
    apply told_if_in in E. apply (complaint_true Text k root x m Logic.I); [exact (a_member _ _ _ _ PA X)|left; exists ao; split; assumption|exact E].
Qed.
Lemma report_says root m : In m (fst (in_order (stages root))) -> says root m.
Proof. intros H. apply in_order_from in H. destruct H as (c & more & I & E). exact (stages_true root c more m I E). Qed.

(** ** What is accepted *)
Lemma the_fits name key shown w root : complaint name (the key shown w) root = None <-> (exists o, root = JObj o) /\ forall x, member root key = Some x -> fits w x.
Proof.
  destruct root as [| | | | |o]; try (cbn; split; [discriminate|intros ((o & [=]) & _)]). rewrite one_member. unfold found. cbn [member]. destruct (jget key o) as [x|].
  - rewrite fits_iff. split; [intros H; split; [exists o; reflexivity|intros y [= <-]; exact H]|intros (_ & H); apply H; reflexivity].
  - split; [intros _; split; [exists o; reflexivity|discriminate]|reflexivity].
Qed.
Lemma fields_fit ms root : (forall e, In e ms -> exists k w, e = field k w) -> (fits (Object_ ms) root <-> (exists o, root = JObj o) /\ forall k w x, In (field k w) ms -> member root k = Some x -> fits w x).
Proof.
  intros F. destruct root as [| | | | |o]; try (cbn; split; [intros []|intros ((o & [=]) & _)]). rewrite fits_object. cbn [member]. split.
  - intros H. split; [exists o; reflexivity|]. intros k w x I. exact (H _ _ _ _ I eq_refl x).
  - intros (_ & H) c k s w I _ x. destruct (F _ I) as (k' & w' & E). injection E as -> -> -> ->. exact (H k' w' x I).
Qed.
Lemma field_inv k w k' w' : field k w = field k' w' -> k = k' /\ w = w'.
Proof. unfold field. intros E. injection E as E1 _ E2. split; assumption. Qed.
Ltac all_fields := intros e He; cbn [In] in He; repeat (destruct He as [<-|He]; [eexists _, _; reflexivity|]); destruct He.
Lemma stage_iff root : (forall c more, In (c, more) (stages root) -> c = None) <-> report_accepted root.
Proof.
  assert (SPLIT : (forall c more, In (c, more) (stages root) -> c = None) <->
    (complaint (L "root value") (the (L "ureport_version") (L "ureport_version") Whole) root = None /\
     complaint (L "root value") (the (L "reporter") (L "reporter") (Object_ [field (L "name") Text; field (L "version") Text])) root = None /\
     complaint (L "root value") (the (L "os") (L "operating system") os_table) root = None /\
     complaint (L "root value") (the (L "packages") (L "package list") (List_ (L "package") package_table)) root = None /\
     in_problem (L "type") Text root = None /\ in_problem (L "component") Text root = None /\ user_complains root = None /\ in_problem (L "serial") Whole root = None /\
     complaint (L "root value") (the (L "auth") (L "auth") (Object_ [])) root = None)).
  { unfold stages. cbn [In]. split.
    - intros H. repeat split; (eapply H; eauto 20).
    - intros (H1 & H2 & H3 & H4 & H5 & H6 & H7 & H8 & H9) c more [I|[I|[I|[I|[I|[I|[I|[I|[I|[I|[]]]]]]]]]]]; apply pair_equal_spec in I; destruct I as [<- _]; solve [assumption|reflexivity]. }
  rewrite SPLIT. clear SPLIT. unfold in_problem, report_accepted. rewrite !the_fits. rewrite fields_fit by all_fields.
  assert (U : user_complains root = None <-> (member root (L "problem") <> None -> fits (the (L "user") [] (Object_ [field (L "root") Bool_; field (L "local") Bool_])) root)).
  { unfold user_complains. destruct (member root (L "problem")) as [p|]; [|split; [congruence|reflexivity]]. rewrite the_fits, <- (fits_iff _ []), the_fits. split; [intros H _; exact H|intros H; apply H; discriminate]. }
  rewrite U. clear U. split.
  - intros ((O & H1) & (_ & H2) & (_ & H3) & (_ & H4) & (_ & H5) & (_ & H6) & H7 & (_ & H8) & (_ & H9)). split; [|exact H7]. split; [exact O|].
    intros k w x I X. cbn [In] in I. destruct I as [I|[I|[I|[I|[I|[I|[]]]]]]]; apply field_inv in I; destruct I as [<- <-].
    + exact (H1 x X). + exact (H2 x X). + exact (H3 x X). + exact (H4 x X).
    + specialize (H5 x X). specialize (H6 x X). specialize (H8 x X). rewrite fields_fit in H5, H6, H8 |- * by all_fields. destruct H5 as (OX & H5), H6 as (_ & H6), H8 as (_ & H8). split; [exact OX|].
      intros k w y I Y. cbn [In] in I. destruct I as [I|[I|[I|[]]]]; apply field_inv in I; destruct I as [<- <-]; [apply (H5 (L "type") Text y)|apply (H6 (L "component") Text y)|apply (H8 (L "serial") Whole y)]; try exact Y; left; reflexivity.
    + exact (H9 x X).
  - intros ((O & H) & H7). assert (P : forall k w, In (field k w) [field (L "type") Text; field (L "component") Text; field (L "serial") Whole] -> forall x, member root (L "problem") = Some x -> fits (Object_ [field k w]) x).
    { intros k w I x X. assert (F : fits (Object_ [field (L "type") Text; field (L "component") Text; field (L "serial") Whole]) x) by (eapply H; [|exact X]; cbn; tauto).
      rewrite fields_fit in F by all_fields. destruct F as (OX & F). apply fields_fit; [all_fields|]. split; [exact OX|]. intros k' w' y [E|[]] Y. apply field_inv in E; destruct E as [<- <-]. exact (F k w y I Y). }
    split; [split; [exact O|intros x; apply H; left; reflexivity]|]. split; [split; [exact O|intros x; apply H; right; left; reflexivity]|]. split; [split; [exact O|intros x; apply H; right; right; left; reflexivity]|].
    split; [split; [exact O|intros x; apply (H (L "packages") (List_ [] package_table)); right; right; right; left; reflexivity]|]. split; [split; [exact O|apply P; left; reflexivity]|]. split; [split; [exact O|apply P; right; left; reflexivity]|].
    split; [exact H7|]. split; [split; [exact O|apply P; right; right; left; reflexivity]|]. split; [exact O|intros x; apply H; right; right; right; right; right; left; reflexivity].
Qed.
Lemma accepted_iff root : snd (in_order (stages root)) = false <-> report_accepted root.
Proof. rewrite in_order_accepted. apply stage_iff. Qed.
Lemma told_if_nil c : told_if c = [] <-> c = None.
Proof. destruct c; split; try discriminate; reflexivity. Qed.
Lemma os_silent root : os_told root = [] <-> (forall oo, member root (L "os") = Some (JObj oo) -> fits (Object_ [field (L "desktop") Text; field (L "variant") Text]) (JObj oo)).
Proof.
  unfold os_told. destruct (member root (L "os")) as [os|]; [|split; [discriminate|reflexivity]]. destruct os as [| | | | |oo]; try (split; [discriminate|reflexivity]). split.
  - intros E. apply app_eq_nil in E. destruct E as (E1 & E2). apply told_if_nil in E1, E2. rewrite the_fits in E1, E2. intros o' [= <-]. apply fields_fit; [all_fields|]. split; [exists oo; reflexivity|].
    intros k w x [I|[I|[]]] X; apply field_inv in I; destruct I as [<- <-]; [exact (proj2 E1 x X)|exact (proj2 E2 x X)].
  - intros H. specialize (H oo eq_refl). rewrite fields_fit in H by all_fields. destruct H as (O & H).
    assert (E1 : complaint [] (the (L "desktop") (L "desktop") Text) (JObj oo) = None) by (apply the_fits; split; [exact O|]; intros x; apply H; left; reflexivity).
    assert (E2 : complaint [] (the (L "variant") (L "variant") Text) (JObj oo) = None) by (apply the_fits; split; [exact O|]; intros x; apply H; right; left; reflexivity).
    rewrite E1, E2. reflexivity.
Qed.
Lemma trace_silent root : trace_told root = [] <-> forall problem w, member root (L "problem") = Some problem -> type_of_report root <> REPORT_JAVASCRIPT -> table (type_of_report root) = Some w -> fits w problem.
Proof.
  unfold trace_told. destruct (member root (L "problem")) as [p|]; [|split; [discriminate|reflexivity]]. destruct (table (type_of_report root)) as [w|]; [|split; [discriminate|reflexivity]].
  destruct (Nat.eqb_spec (type_of_report root) REPORT_JAVASCRIPT) as [E|E].
  - split; [intros _ p' w' _ N; contradiction|reflexivity].
  - rewrite told_if_nil, fits_iff. split; [intros H p' w' [= <-] _ [= <-]; exact H|intros H; exact (H p w eq_refl E eq_refl)].
Qed.
Lemma keys_found o k x : jget k o = Some x -> In k (keys o).
Proof.
  induction o as [|[k' v] o IH]; cbn [jget keys]; [discriminate|]. destruct (str_eqb k k') eqn:E; [apply str_eqb_eq in E; subst; left; reflexivity|].
  destruct (jget k o) as [y|] eqn:J; [|discriminate]. intros [= <-]. right. apply filter_In. split; [apply IH; reflexivity|]. destruct (str_eqb k' k) eqn:E2; [|reflexivity]. apply str_eqb_eq in E2. subst. rewrite str_eqb_refl in E. discriminate E.
Qed.
Lemma auth_silent root : (forall auth, member root (L "auth") = Some auth -> exists ao, auth = JObj ao) ->
  (auth_told root = [] <-> forall auth key x, member root (L "auth") = Some auth -> member auth key = Some x -> exists s, x = JStr s).
Proof.
  intros OA. unfold auth_told. destruct (member root (L "auth")) as [a|]; [|split; [discriminate|reflexivity]]. destruct (OA a eq_refl) as (ao & ->). split.
  - intros E a k x Ea X. assert (a = JObj ao) by congruence. subst a. cbn [member] in X. destruct (complaint k Text x) as [m|] eqn:C; [|destruct x as [| | |s| |]; try discriminate C; exists s; reflexivity].
    assert (I : In m (flat_map (fun k => match jget k ao with Some x => told_if (complaint k Text x) | None => [] end) (rev (keys ao)))); [|rewrite E in I; destruct I].
    apply in_flat_map. exists k. split; [apply in_rev; rewrite rev_involutive; exact (keys_found _ _ _ X)|rewrite X, C; left; reflexivity].
  - intros H. 
    assert (G : forall l, flat_map (fun k => match jget k ao with Some x => told_if (complaint k Text x) | None => [] end) l = []).
    { induction l as [|k l IH]; [reflexivity|]. cbn [flat_map]. rewrite IH, app_nil_r. destruct (jget k ao) as [x|] eqn:X; [|reflexivity]. destruct (H (JObj ao) k x eq_refl X) as (s & ->). reflexivity. }
    apply G.
Qed.
Lemma sound_iff root : in_order (stages root) = ([], false) <-> report_sound root.
Proof.
  rewrite in_order_silent. unfold report_sound. rewrite <- stage_iff, <- trace_silent.
  assert (MORE : (forall c more, In (c, more) (stages root) -> more = []) <-> os_told root = [] /\ trace_told root = [] /\ auth_told root = []).
  { unfold stages. cbn [In]. split.
    - intros H. repeat split; (eapply H; eauto 20).
    - intros (H1 & H2 & H3) c more [I|[I|[I|[I|[I|[I|[I|[I|[I|[I|[]]]]]]]]]]]; apply pair_equal_spec in I; destruct I as [_ <-]; solve [assumption|reflexivity]. }
  assert (OS : (forall c more, In (c, more) (stages root) -> c = None) ->
    (fits (the (L "os") [] (Object_ [field (L "desktop") Text; field (L "variant") Text])) root <-> os_told root = []) /\
    (auth_told root = [] <-> forall auth key x, member root (L "auth") = Some auth -> member auth key = Some x -> exists s, x = JStr s)).
  { intros A. apply stage_iff in A. destruct A as (A & _). rewrite fields_fit in A by all_fields. destruct A as (O & A). split.
    - rewrite os_silent, <- (fits_iff _ []), the_fits. split; [intros (_ & H) oo E; exact (H _ E)|]. intros H. split; [exact O|]. intros x X.
      assert (F : fits os_table x) by (eapply A; [|exact X]; cbn; tauto). destruct x as [| | | | |oo]; try destruct F. exact (H oo X).
    - apply auth_silent. intros a E. assert (F : fits (Object_ []) a) by (eapply A; [|exact E]; cbn; tauto). destruct a as [| | | | |ao]; try destruct F. exists ao. reflexivity. }
  split.
  - intros H. assert (A : forall c more, In (c, more) (stages root) -> c = None) by (intros c more I; exact (proj1 (H c more I))).
    assert (M : forall c more, In (c, more) (stages root) -> more = []) by (intros c more I; exact (proj2 (H c more I))). apply MORE in M. destruct M as (M1 & M2 & M3). destruct (OS A) as (O1 & O2).
    split; [exact A|]. split; [apply O1; exact M1|]. split; [exact M2|]. apply O2. exact M3.
  - intros (A & H1 & H2 & H3). destruct (OS A) as (O1 & O2). assert (M : forall c more, In (c, more) (stages root) -> more = []) by (apply MORE; repeat split; [apply O1; exact H1|exact H2|apply O2; exact H3]).
    intros c more I. split; [exact (A _ _ I)|exact (M _ _ I)].
Qed.

(** ** Stack traces *)
Lemma agree_as B {A} (f : A -> stacktrace) (x : told A) c r : agree B x c r -> agree B (ask a <- x; give (f a)) c (do a <- r; Ok (f a)).
Proof. exact (agree_map B x c r f). Qed.
Lemma trace_said type w root : table type = Some w -> (type = REPORT_KERNELOOPS -> modules_survive root) ->
  match complaint (L "stacktrace") w root with
  | None => exists s, stacktrace_of type root = Gives s [] /\ sr_stacktrace_from_json type root = Ok (Some s)
  | Some m => stacktrace_of type root = Refuses [m] /\ sr_stacktrace_from_json type root = Ok None
  end.
Proof.
  intros T M.
  assert (G : forall A (f : A -> stacktrace) (x : told A) c r, agree False x c r ->
    match c with
    | None => exists s, (ask a <- x; give (f a)) = Gives s [] /\ to_option f r = Ok (Some s)
    | Some m => (ask a <- x; give (f a)) = Refuses [m] /\ to_option f r = Ok None
    end).
  { intros A f x c r [([] & _)|X]. destruct c as [m|]; [destruct X as (-> & ->); split; reflexivity|destruct X as (a & -> & ->); exists (f a); split; reflexivity]. }
  assert (TY : type = REPORT_CORE \/ type = REPORT_PYTHON \/ type = REPORT_KERNELOOPS \/ type = REPORT_JAVA \/ type = REPORT_RUBY \/ type = REPORT_JAVASCRIPT).
  { unfold table in T. repeat match type of T with (if Nat.eqb ?a ?b then _ else _) = _ => destruct (Nat.eqb_spec a b); [tauto|] end. discriminate T. }
  destruct TY as [->|[->|[->|[->|[->| ->]]]]]; injection T as <-.
  - exact (G _ SCore _ _ _ (core_ok False root)).
  - exact (G _ SPython _ _ _ (python_ok False root)).
  - destruct (koops_ok root) as [(NS & _)|X]; [destruct (NS (M eq_refl))|]. exact (G _ SKoops _ _ _ (or_intror X)).
  - exact (G _ SJava _ _ _ (java_ok False root)).
  - exact (G _ SRuby _ _ _ (ruby_ok False root)).
  - exact (G _ SJs _ _ _ (js_ok False root)).
Qed.
Lemma trace_outcome type w root : table type = Some w -> (type = REPORT_KERNELOOPS -> modules_survive root) ->
  (fits w root /\ exists s, stacktrace_of type root = Gives s [] /\ sr_stacktrace_from_json type root = Ok (Some s)) \/
  (~ fits w root /\ exists m, stacktrace_of type root = Refuses [m] /\ sr_stacktrace_from_json type root = Ok None /\ complaint (L "stacktrace") w root = Some m /\ says root m).
Proof.
  intros T M. pose proof (trace_said type w root T M) as H. destruct (complaint (L "stacktrace") w root) as [m|] eqn:C.
  - right. split; [intros F; apply (fits_iff w (L "stacktrace")) in F; congruence|]. exists m. destruct H as (H1 & H2). repeat split; try assumption.
    apply (complaint_true w (L "stacktrace") root root m (tables_clear _ _ T)); [apply the_root|right; known_word|exact C].
  - left. split; [apply (fits_iff w (L "stacktrace")); exact C|exact H].
Qed.
(** ** Reports *)
Lemma report_outcome pn pv root : report_survives root ->
  let '(ms, refused) := in_order (stages root) in
  if refused then report_of pn pv root = Refuses ms /\ sr_report_from_json pn pv root = Fail
  else exists r, report_of pn pv root = Gives r ms /\ sr_report_from_json pn pv root = Ok r.
Proof. intros S1. destruct (report_ok pn pv root) as [(N & _)|H]; [contradiction|exact H]. Qed.
Lemma report_messages pn pv root ms : (report_of pn pv root = Refuses ms \/ exists r, report_of pn pv root = Gives r ms) -> ms = fst (in_order (stages root)).
Proof.
  intros E. destruct (report_ok pn pv root) as [(_ & B & _)|H]; [rewrite B in E; destruct E as [E|(r & E)]; discriminate E|]. destruct (in_order (stages root)) as [ns b]. cbn [fst].
  destruct b; [destruct H as (H & _)|destruct H as (r' & H & _)]; rewrite H in E; destruct E as [E|(r & E)]; congruence.
Qed.
Lemma report_told_true pn pv root ms : (report_of pn pv root = Refuses ms \/ exists r, report_of pn pv root = Gives r ms) -> forall m, In m ms -> says root m.
Proof. intros E m I. rewrite (report_messages _ _ _ _ E) in I. exact (report_says root m I). Qed.
Lemma report_refused pn pv root ms : report_of pn pv root = Refuses ms -> ms <> [].
Proof.
  intros E. rewrite (report_messages pn pv root ms (or_introl E)). destruct (report_ok pn pv root) as [(_ & B & _)|H]; [congruence|]. pose proof (in_order_refused (stages root)) as R. destruct (in_order (stages root)) as [ns b]. cbn [fst snd] in *.
  destruct b; [exact (R eq_refl)|]. destruct H as (r & H & _). congruence.
Qed.
Lemma report_accepts pn pv root : report_survives root -> ((exists r ms, report_of pn pv root = Gives r ms) <-> report_accepted root).
Proof.
  intros S1. rewrite <- accepted_iff. pose proof (report_outcome pn pv root S1) as H. destruct (in_order (stages root)) as [ms b]. cbn [snd]. destruct b.
  - destruct H as (H & _). rewrite H. split; [intros (r & ns & E); discriminate E|discriminate].
  - destruct H as (r & H & _). split; [reflexivity|intros _; exists r, ms; exact H].
Qed.
Lemma report_silent pn pv root : report_survives root -> ((exists r, report_of pn pv root = Gives r []) <-> report_sound root).
Proof.
  intros S1. rewrite <- sound_iff. pose proof (report_outcome pn pv root S1) as H. destruct (in_order (stages root)) as [ms b]. destruct b.
  - destruct H as (H & _). rewrite H. split; [intros (r & E); discriminate E|discriminate].
  - destruct H as (r & H & _). rewrite H. split; [intros (r' & E); congruence|intros E; exists r; congruence].
Qed.
Lemma forget {A} B (x : told A) out r : tells B x out r -> match x with Gives a _ => Ok a | Refuses _ => Fail | Breaks => UB end = r.
Proof. destruct out as [ms b]. intros [(_ & -> & ->)|H]; [reflexivity|]. destruct b; [destruct H as (-> & ->)|destruct H as (a & -> & ->)]; reflexivity. Qed.
Lemma report_same pn pv root : match report_of pn pv root with Gives r _ => Ok r | Refuses _ => Fail | Breaks => UB end = sr_report_from_json pn pv root.
Proof. exact (forget _ _ _ _ (report_ok pn pv root)). Qed.
Lemma trace_same type w root : table type = Some w -> match stacktrace_of type root with Gives s _ => Ok (Some s) | Refuses _ => Ok None | Breaks => UB end = sr_stacktrace_from_json type root.
Proof.
  intros T. destruct (trace_ok type root w T) as [(_ & _ & -> & ->)|(H1 & H2)]; [reflexivity|]. rewrite H2. destruct (stacktrace_of type root); [reflexivity|reflexivity|discriminate H1].
Qed.
Lemma last_of_some {A} (l : list A) : l <> [] -> exists x, last_of l = Some x /\ In x l.
Proof.
  induction l as [|x l IH]; [contradiction|]. intros _. destruct l as [|y l]; [exists x; split; [reflexivity|left; reflexivity]|]. destruct (IH ltac:(discriminate)) as (z & E & I). exists z. split; [exact E|right; exact I].
Qed.
Section Texts.
Variable tokener : str -> option json.
Variable description : str -> str.
(** The caller: a report, a message, or both; never neither. *)
Lemma text_outcome pn pv text r m : result (of_text tokener description (report_of pn pv) text) = Ok (r, m) ->
  (tokener text = None /\ r = None /\ m = Some (description text)) \/
  exists root, tokener text = Some root /\ m = last_of (fst (in_order (stages root))) /\
    (r = None -> m <> None) /\ (forall x, m = Some x -> says root x) /\
    (forall r', r = Some r' -> sr_report_from_json pn pv root = Ok r') /\ (r = None -> sr_report_from_json pn pv root = Fail).
Proof.
  unfold of_text. destruct (tokener text) as [root|]; [|intros [= <- <-]; left; repeat split]. intros E. right. exists root. split; [reflexivity|].
  split; [pose proof (report_messages pn pv root) as RM; destruct (report_of pn pv root) as [a ms|ms|]; cbn [result] in E; [| |discriminate E]; [injection E as _ <-; rewrite (RM ms); [reflexivity|right; exists a; reflexivity]|injection E as _ <-; rewrite (RM ms); [reflexivity|left; reflexivity]]|].
  pose proof (report_same pn pv root) as SM. pose proof (report_told_true pn pv root) as TR. pose proof (report_refused pn pv root) as RF.
  destruct (report_of pn pv root) as [a ms|ms|]; cbn [result] in E; [injection E as <- <-|injection E as <- <-|discriminate E].
  - split; [discriminate|]. split; [|split; [intros r' [= <-]; symmetry; exact SM|discriminate]]. intros x X. apply (TR ms); [right; exists a; reflexivity|]. destruct ms as [|y ms]; [discriminate X|]. destruct (@last_of_some _ (y :: ms) ltac:(discriminate)) as (z & Z1 & Z2). congruence.
  - destruct (@last_of_some _ ms (RF ms eq_refl)) as (z & Z1 & Z2). split; [congruence|]. split; [intros x X; apply (TR ms); [left; reflexivity|congruence]|]. split; [discriminate|intros _; symmetry; exact SM].
Qed.
End Texts.
