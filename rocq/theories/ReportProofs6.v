(** * Proofs about reading reports from any JSON value. *)
From Verif Require Import Base Types UtilsProofs JsonSpec JsonModel JsonProofs JsonTypesModel JsonTypesSpec JsonReaders TextModel SystemModel SystemSpec SystemProofs ReportModel ReportSpec.
From Verif Require Import ReportProofs ReportProofs5.
Open Scope Z_scope.

Lemma read_string_or_iff o k d r : json_read_string o k (Some d) = Ok r <-> reads_string_or o k d r.
Proof.
  unfold json_read_string, json_read, reads_string_or. destruct (jget k o) as [j|].
  - destruct j; simpl; split; try discriminate; try (intros [[H _]|(s' & H & _)]; discriminate H).
    + intros H; injection H as <-. right; eauto.
    + intros [[H _]|(s' & H & ->)]; [discriminate | injection H as ->; reflexivity].
  - split; [intros H; injection H as <-; left; auto|].
    intros [[_ ->]|(s' & H & _)]; [reflexivity | discriminate].
Qed.

(** ** The members of an object *)
Lemma add_keys k v l : map fst (json_object_add k v l) = map fst l ++ if existsb (str_eqb k) (map fst l) then [] else [k].
Proof.
  induction l as [|[k' v'] l IH]; [reflexivity|]. cbn [json_object_add map fst existsb].
  destruct (str_eqb k k') eqn:E; cbn [orb map fst]; [rewrite app_nil_r; reflexivity|]. rewrite IH. reflexivity.
Qed.
(* the value of a key in a list without duplicates *)
Fixpoint vget (k : str) (l : list (str * json)) : option json :=
  match l with [] => None | (k', v) :: r => if str_eqb k k' then Some v else vget k r end.
Lemma vget_add k v l k0 : vget k0 (json_object_add k v l) = if str_eqb k0 k then Some v else vget k0 l.
Proof.
  induction l as [|[k' v'] l IH]; [reflexivity|]. cbn [json_object_add]. destruct (str_eqb k k') eqn:E.
  - apply str_eqb_eq in E. subst k'. cbn [vget]. destruct (str_eqb k0 k); reflexivity.
  - cbn [vget]. rewrite IH. destruct (str_eqb k0 k') eqn:E'; [|reflexivity]. apply str_eqb_eq in E'. subst k'.
    destruct (str_eqb k0 k) eqn:E2; [|reflexivity]. apply str_eqb_eq in E2. subst k0. rewrite str_eqb_refl in E. discriminate.
Qed.
Definition add_all (members acc : list (str * json)) := fold_left (fun l m => json_object_add (fst m) (snd m) l) members acc.
Lemma add_all_vget members : forall acc k, vget k (add_all members acc) = match jget k members with Some v => Some v | None => vget k acc end.
Proof.
  induction members as [|[k' v'] m IH]; intros acc k; [reflexivity|]. cbn [add_all fold_left fst snd]. fold (add_all m (json_object_add k' v' acc)).
  rewrite IH, vget_add. cbn [jget]. destruct (jget k m) eqn:E; [reflexivity|]. destruct (str_eqb k k'); reflexivity.
Qed.
Lemma filter_comm {A} (p q : A -> bool) l : filter p (filter q l) = filter q (filter p l).
Proof. induction l as [|a l IH]; [reflexivity|]. cbn [filter]. destruct (q a) eqn:Eq, (p a) eqn:Ep; cbn [filter]; rewrite ?Eq, ?Ep, IH; reflexivity. Qed.
Lemma filter_filter {A} (p q : A -> bool) l : filter p (filter q l) = filter (fun x => q x && p x) l.
Proof. induction l as [|a l IH]; [reflexivity|]. cbn [filter]. destruct (q a) eqn:Eq; cbn [filter andb]; [destruct (p a)|]; rewrite IH; reflexivity. Qed.
Lemma filter_ext' {A} (p q : A -> bool) l : (forall x, p x = q x) -> filter p l = filter q l.
Proof. intros H. apply filter_ext. exact H. Qed.
Lemma add_all_keys members : forall acc, map fst (add_all members acc) =
  map fst acc ++ filter (fun x => negb (existsb (str_eqb x) (map fst acc))) (keys members).
Proof.
  induction members as [|[k v] m IH]; intros acc; [cbn; rewrite app_nil_r; reflexivity|].
  cbn [add_all fold_left fst snd]. fold (add_all m (json_object_add k v acc)). rewrite IH, add_keys, <- app_assoc. f_equal.
  cbn [keys filter]. destruct (existsb (str_eqb k) (map fst acc)) eqn:E; cbn [negb app].
  - rewrite filter_filter. apply filter_ext'. intros x. rewrite app_nil_r. destruct (str_eqb k x) eqn:Ek; [|reflexivity].
    apply str_eqb_eq in Ek. subst x. rewrite E. reflexivity.
  - f_equal. rewrite filter_filter. apply filter_ext'. intros x. rewrite existsb_app. cbn [existsb]. rewrite orb_false_r, negb_orb.
    rewrite andb_comm. f_equal. f_equal. destruct (str_eqb x k) eqn:Ek; [apply str_eqb_eq in Ek; subst; symmetry; apply str_eqb_refl|].
    destruct (str_eqb k x) eqn:Ex; [|reflexivity]. apply str_eqb_eq in Ex. subst. rewrite str_eqb_refl in Ek. discriminate.
Qed.
Lemma keys_nodup l : NoDup (keys l).
Proof.
  induction l as [|[k v] l IH]; [constructor|]. cbn [keys]. constructor; [|apply NoDup_filter; exact IH].
  intros H. apply filter_In in H as [_ H]. rewrite str_eqb_refl in H. discriminate.
Qed.
Lemma vget_nodup l : NoDup (map fst l) -> forall k v, In (k, v) l -> vget k l = Some v.
Proof.
  induction l as [|[k' v'] l IH]; intros H k v Hin; [contradiction|]. cbn [map fst] in H. inversion H as [|? ? Hn Hnd]; subst. cbn [vget].
  destruct Hin as [E|Hin]; [injection E as -> ->; rewrite str_eqb_refl; reflexivity|].
  destruct (str_eqb k k') eqn:E; [|apply IH; assumption]. apply str_eqb_eq in E. subst k'. exfalso. apply Hn. apply in_map_iff. exists (k, v). auto.
Qed.
Lemma object_entries_keys o : map fst (object_entries o) = keys o.
Proof.
  change (object_entries o) with (add_all o []). rewrite add_all_keys. cbn [map app existsb negb]. 
  induction (keys o) as [|k l IH]; [reflexivity|]. cbn [filter]. rewrite IH. reflexivity.
Qed.
Lemma read_auth_fold l : forall acc, fold_left (fun (l : list (str * str)) (m : str * json) => match snd m with JStr s => (fst m, s) :: l | _ => l end) (rev l) acc =
  flat_map (fun m : str * json => match snd m with JStr s => [(fst m, s)] | _ => [] end) l ++ acc.
Proof.
  induction l as [|m l IH]; intros acc; [reflexivity|]. cbn [rev flat_map]. rewrite fold_left_app, IH. cbn [fold_left]. destruct (snd m); reflexivity.
Qed.
Lemma flat_map_map {A B C} (f : A -> B) (g : B -> list C) l : flat_map g (map f l) = flat_map (fun x => g (f x)) l.
Proof. induction l as [|a l IH]; [reflexivity|]. cbn. rewrite IH. reflexivity. Qed.
Lemma flat_map_ext_in {A B} (f g : A -> list B) l : (forall x, In x l -> f x = g x) -> flat_map f l = flat_map g l.
Proof. induction l as [|a l IH]; intros H; [reflexivity|]. cbn. rewrite (H a (or_introl eq_refl)), IH; [reflexivity|]. intros x Hx. apply H. right. exact Hx. Qed.
Lemma read_auth_members o : read_auth o = string_members o.
Proof.
  unfold read_auth. rewrite read_auth_fold, app_nil_r. unfold string_members. rewrite <- object_entries_keys, flat_map_map.
  apply flat_map_ext_in. intros [k v] Hin. cbn [fst snd].
  assert (E : jget k o = Some v).
  { assert (Hnd : NoDup (map fst (object_entries o))) by (rewrite object_entries_keys; apply keys_nodup).
    pose proof (vget_nodup _ Hnd _ _ Hin) as E. change (object_entries o) with (add_all o []) in E. rewrite add_all_vget in E. cbn [vget] in E.
    destruct (jget k o); exact E. }
  rewrite E. reflexivity.
Qed.

(** ** Stack traces *)
Lemma to_option_iff {A B} (f : A -> B) r x : to_option f r = Ok x <-> (exists a, r = Ok a /\ x = Some (f a)) \/ (r = Fail /\ x = None).
Proof.
  destruct r; cbn; rewrite ?Ok_inj; split.
  - intros <-. left. eauto.
  - intros [(b & E & ->)|[E _]]; congruence.
  - intros <-. right. auto.
  - intros [(b & E & _)|[_ ->]]; [discriminate|reflexivity].
  - discriminate.
  - intros [(b & E & _)|[E _]]; discriminate.
Qed.
Lemma option_case {A} (from : json -> res A) (con : A -> stacktrace) (type : nat) (reads : json -> A -> Prop) v x :
  (forall a, from v = Ok a <-> reads v a) -> from v <> UB ->
  (forall s, reads_stacktrace type v s <-> exists a, s = con a /\ reads v a) ->
  to_option con (from v) = Ok x <-> match x with Some s => reads_stacktrace type v s | None => forall s, ~ reads_stacktrace type v s end.
Proof.
  intros Hf Hu Hr. rewrite to_option_iff. split.
  - intros [(a & E & ->)|[E ->]]; [apply Hr; exists a; split; [reflexivity|apply Hf; exact E]|].
    intros s H. apply Hr in H as (a & _ & H). apply Hf in H. congruence.
  - destruct x as [s|]; intros H.
    + apply Hr in H as (a & -> & H). left. exists a. split; [apply Hf; exact H|reflexivity].
    + destruct (from v) as [a| |] eqn:E; [|right; auto|contradiction]. exfalso. apply (H (con a)). apply Hr. exists a. split; [reflexivity|]. apply Hf. reflexivity.
Qed.
Definition koops_fine (type : nat) (v : json) : Prop :=
  type = 3%nat -> forall o l, v = JObj o -> jget (L "modules") o = Some (JArr l) -> exists ms, l = map JStr ms /\ (length ms <= 127)%nat.
Lemma koops_fits v s : (forall o l, v = JObj o -> jget (L "modules") o = Some (JArr l) -> exists ms, l = map JStr ms /\ (length ms <= 127)%nat) ->
  reads_koops v s -> koops_modules_fit s.
Proof.
  intros H (o & -> & _ & _ & _ & Hm & _). unfold koops_modules_fit. destruct Hm as [[_ ->]|(l & E & ->)]; [exact Logic.I|].
  destruct (H _ _ eq_refl E) as (ms & El & Hl). apply (f_equal (@List.length json)) in El. rewrite !map_length in El. lia.
Qed.
Lemma stacktrace_reads type v x : read_with_stacktrace type = true -> koops_fine type v ->
  sr_stacktrace_from_json type v = Ok x <-> match x with Some s => reads_stacktrace type v s | None => forall s, ~ reads_stacktrace type v s end.
Proof.
  intros Ht Hk. unfold sr_stacktrace_from_json. unfold read_with_stacktrace in Ht. apply existsb_exists in Ht as (t & Hin & E). apply Nat.eqb_eq in E. subst t.
  cbn [In] in Hin.
  destruct Hin as [<-|[<-|[<-|[<-|[<-|[]]]]]]; cbn [Nat.eqb REPORT_CORE REPORT_PYTHON REPORT_KERNELOOPS REPORT_JAVA REPORT_RUBY].
  - apply (option_case _ SCore 1%nat reads_core); [intros a; apply core_reads|apply core_not_UB|].
    intros s. split; [|intros (a & -> & H); split; [reflexivity|exact H]]. destruct s; cbn; intros H; try contradiction; destruct H as [E H]; try discriminate E. eauto.
  - apply (option_case _ SPython 2%nat reads_python); [intros a; apply python_reads|apply python_not_UB|].
    intros s. split; [|intros (a & -> & H); split; [reflexivity|exact H]]. destruct s; cbn; intros H; try contradiction; destruct H as [E H]; try discriminate E. eauto.
  - specialize (Hk eq_refl). apply (option_case _ SKoops 3%nat reads_koops); [|apply koops_not_UB; exact Hk|].
    + intros a. rewrite koops_reads. split; [intros [H _]; exact H|]. intros H. split; [exact H|]. eapply koops_fits; eassumption.
    + intros s. split; [|intros (a & -> & H); split; [reflexivity|exact H]]. destruct s; cbn; intros H; try contradiction; destruct H as [E H]; try discriminate E. eauto.
  - apply (option_case _ SJava 4%nat reads_java); [intros a; apply java_reads|apply java_not_UB|].
    intros s. split; [|intros (a & -> & H); split; [reflexivity|exact H]]. destruct s; cbn; intros H; try contradiction; destruct H as [E H]; try discriminate E. eauto.
  - apply (option_case _ SRuby 6%nat reads_ruby); [intros a; apply ruby_reads|apply ruby_not_UB|].
    intros s. split; [|intros (a & -> & H); split; [reflexivity|exact H]]. destruct s; cbn; intros H; try contradiction; destruct H as [E H]; try discriminate E. eauto.
Qed.
Lemma no_stacktrace type v s : read_with_stacktrace type = false -> ~ reads_stacktrace type v s.
Proof. intros Ht H. destruct s; cbn in H; try contradiction; destruct H as [-> _]; discriminate Ht. Qed.
Lemma stacktrace_part_reads type v x : koops_fine type v ->
  (if read_with_stacktrace type then sr_stacktrace_from_json type v else Ok None) = Ok x <->
  match x with Some s => reads_stacktrace type v s | None => forall s, ~ reads_stacktrace type v s end.
Proof.
  intros Hk. destruct (read_with_stacktrace type) eqn:Ht; [apply stacktrace_reads; assumption|]. rewrite Ok_inj. split.
  - intros <- s. apply no_stacktrace. exact Ht.
  - destruct x as [s|]; [|reflexivity]. intros H. exfalso. exact (no_stacktrace _ _ _ Ht H).
Qed.
Lemma stacktrace_part_not_UB type v : koops_fine type v -> (if read_with_stacktrace type then sr_stacktrace_from_json type v else Ok None) <> UB.
Proof.
  intros Hk. destruct (read_with_stacktrace type) eqn:Ht; [|discriminate]. unfold sr_stacktrace_from_json, to_option.
  unfold read_with_stacktrace in Ht. apply existsb_exists in Ht as (t & Hin & E). apply Nat.eqb_eq in E. subst t. cbn [In] in Hin.
  destruct Hin as [<-|[<-|[<-|[<-|[<-|[]]]]]]; cbn [Nat.eqb REPORT_CORE REPORT_PYTHON REPORT_KERNELOOPS REPORT_JAVA REPORT_RUBY].
  - pose proof (core_not_UB v). destruct (core_stacktrace_from_json v); congruence.
  - pose proof (python_not_UB v). destruct (python_stacktrace_from_json v); congruence.
  - pose proof (koops_not_UB v (Hk eq_refl)). destruct (koops_stacktrace_from_json v); congruence.
  - pose proof (java_not_UB v). destruct (java_stacktrace_from_json v); congruence.
  - pose proof (ruby_not_UB v). destruct (ruby_stacktrace_from_json v); congruence.
Qed.

(** ** Reports *)
Lemma member_iff {A} (o : list (str * json)) k (d x : A) (from : json -> res A) (P : json -> A -> Prop) : (forall j y, from j = Ok y <-> P j y) ->
  match jget k o with None => Ok d | Some j => from j end = Ok x <-> (jget k o = None /\ x = d) \/ exists j, jget k o = Some j /\ P j x.
Proof.
  intros H. destruct (jget k o) as [j|].
  - rewrite H. split; [intros Hp; right; eauto|]. intros [[E _]|(j' & E & Hp)]; [discriminate|]. injection E as <-. exact Hp.
  - rewrite Ok_inj. split; [intros <-; left; auto|]. intros [[_ ->]|(j & E & _)]; [reflexivity|discriminate].
Qed.
Definition read_problem (o po : list (str * json)) :=
  do type <- json_read_string po (L "type") None;
  do component <- json_read_string po (L "component") None;
  let type := sr_report_type_from_string type in
  do user <- match jget (L "user") o with
             | None => Ok (false, true)
             | Some (JObj uo) =>
               do root <- json_read_bool uo (L "root") false;
               do local <- json_read_bool uo (L "local") true;
               Ok (root, local)
             | Some _ => Fail
             end;
  do serial <- json_read_uint32 po (L "serial") 0;
  do stacktrace <- (if read_with_stacktrace type then sr_stacktrace_from_json type (JObj po) else Ok None);
  Ok (type, component, user, serial, stacktrace).
Lemma user_iff o root local : match jget (L "user") o with
             | None => Ok (false, true)
             | Some (JObj uo) =>
               do root <- json_read_bool uo (L "root") false;
               do local <- json_read_bool uo (L "local") true;
               Ok (root, local)
             | Some _ => Fail
             end = Ok (root, local) <->
  (jget (L "user") o = None /\ root = false /\ local = true) \/
   exists uo, jget (L "user") o = Some (JObj uo) /\ reads_bool uo (L "root") false root /\ reads_bool uo (L "local") true local.
Proof.
  destruct (jget (L "user") o) as [j|].
  - destruct j as [| | | | |uo]; try (split; [discriminate|intros [[E _]|(uo & E & _)]; discriminate E]).
    setoid_rewrite <- read_bool_iff. rewrite bind_Ok. setoid_rewrite bind_Ok. split.
    + intros (a & Ha & b & Hb & E). injection E as -> ->. right. eauto.
    + intros [[E _]|(u & E & Ha & Hb)]; [discriminate|]. injection E as <-. eauto.
  - rewrite Ok_inj. split; [intros E; injection E as <- <-; left; auto|]. intros [(_ & -> & ->)|(uo & E & _)]; [reflexivity|discriminate].
Qed.
Lemma read_problem_iff o po type component root local serial stacktrace :
  (forall t, koops_fine t (JObj po)) ->
  read_problem o po = Ok (type, component, (root, local), serial, stacktrace) <->
  (exists name, reads_string po (L "type") name /\ type_called name type) /\ reads_string po (L "component") component /\
  ((jget (L "user") o = None /\ root = false /\ local = true) \/
   exists uo, jget (L "user") o = Some (JObj uo) /\ reads_bool uo (L "root") false root /\ reads_bool uo (L "local") true local) /\
  reads_u32 po (L "serial") 0 serial /\
  match stacktrace with
  | Some s => reads_stacktrace type (JObj po) s
  | None => forall s, ~ reads_stacktrace type (JObj po) s
  end.
Proof.
  intros Hk. unfold read_problem. cbv zeta. split.
  - intros H. apply bind_Ok in H as (n & Hn & H). apply bind_Ok in H as (c & Hc & H). apply bind_Ok in H as ([a b] & Hu & H).
    apply bind_Ok in H as (z & Hz & H). apply bind_Ok in H as (x & Hx & H). apply Ok_inj1 in H. injection H as <- <- <- <- <- <-.
    apply user_iff in Hu. apply read_string_iff in Hn, Hc. apply read_u32_iff in Hz. apply stacktrace_part_reads in Hx; [|apply Hk].
    split; [exists n; split; [exact Hn|]; apply type_from; reflexivity|]. split; [exact Hc|]. split; [exact Hu|]. split; [exact Hz|exact Hx].
  - intros ((n & Hn & Ht) & Hc & Hu & Hz & Hx). apply type_from in Ht. subst type. apply user_iff in Hu. apply read_string_iff in Hn, Hc. apply read_u32_iff in Hz.
    apply stacktrace_part_reads in Hx; [|apply Hk]. rewrite Hn. cbn [bind]. rewrite Hc. cbn [bind]. rewrite Hu. cbn [bind]. rewrite Hz. cbn [bind]. rewrite Hx. reflexivity.
Qed.
Definition read_reporter (pn pv : str) (o : list (str * json)) :=
  match jget (L "reporter") o with
  | None => Ok (Some pn, Some pv)
  | Some (JObj ro) =>
    do name <- json_read_string ro (L "name") (Some pn);
    do version <- json_read_string ro (L "version") (Some pv);
    Ok (name, version)
  | Some _ => Fail
  end.
Lemma read_reporter_iff pn pv o n v : read_reporter pn pv o = Ok (n, v) <->
  (jget (L "reporter") o = None /\ n = Some pn /\ v = Some pv) \/
  exists ro, jget (L "reporter") o = Some (JObj ro) /\ reads_string_or ro (L "name") pn n /\ reads_string_or ro (L "version") pv v.
Proof.
  unfold read_reporter. destruct (jget (L "reporter") o) as [j|].
  - destruct j as [| | | | |uo]; try (split; [discriminate|intros [[E _]|(uo & E & _)]; discriminate E]).
    setoid_rewrite <- read_string_or_iff. rewrite bind_Ok. setoid_rewrite bind_Ok. split.
    + intros (a & Ha & b & Hb & E). injection E as -> ->. right. eauto.
    + intros [[E _]|(u & E & Ha & Hb)]; [discriminate|]. injection E as <-. eauto.
  - rewrite Ok_inj. split; [intros E; injection E as <- <-; left; auto|]. intros [(_ & -> & ->)|(uo & E & _)]; [reflexivity|discriminate].
Qed.
Definition read_os (o : list (str * json)) :=
  match jget (L "os") o with None => Ok None | Some j => do os <- sr_operating_system_from_json j; Ok (Some os) end.
Lemma read_os_iff o x : read_os o = Ok x <-> (jget (L "os") o = None /\ x = None) \/ exists j os, jget (L "os") o = Some j /\ reads_os j os /\ x = Some os.
Proof.
  unfold read_os. destruct (jget (L "os") o) as [j|].
  - rewrite bind_Ok. setoid_rewrite os_reads. split.
    + intros (os & H & E). apply Ok_inj1 in E. right. eauto 6.
    + intros [[E _]|(j' & os & E & H & ->)]; [discriminate|]. injection E as <-. eauto.
  - rewrite Ok_inj. split; [intros <-; left; auto|]. intros [[_ ->]|(j & os & E & _)]; [reflexivity|discriminate].
Qed.
Definition read_packages (o : list (str * json)) := match jget (L "packages") o with None => Ok [] | Some j => rpm_packages_from_json j end.
Lemma read_packages_iff o x : read_packages o = Ok x <-> (jget (L "packages") o = None /\ x = []) \/
  exists l, jget (L "packages") o = Some (JArr l) /\ Forall2 reads_package l x.
Proof.
  unfold read_packages. destruct (jget (L "packages") o) as [j|].
  - rewrite packages_reads. split.
    + intros (l & -> & H). right. eauto.
    + intros [[E _]|(l & E & H)]; [discriminate|]. injection E as ->. eauto.
  - rewrite Ok_inj. split; [intros <-; left; auto|]. intros [[_ ->]|(j & E & _)]; [reflexivity|discriminate].
Qed.
Definition read_auth_member (o : list (str * json)) :=
  match jget (L "auth") o with None => Ok [] | Some (JObj ao) => Ok (read_auth ao) | Some _ => Fail end.
Lemma read_auth_member_iff o x : read_auth_member o = Ok x <-> (jget (L "auth") o = None /\ x = []) \/
  exists ao, jget (L "auth") o = Some (JObj ao) /\ x = string_members ao.
Proof.
  unfold read_auth_member. destruct (jget (L "auth") o) as [j|].
  - destruct j as [| | | | |ao]; try (split; [discriminate|intros [[E _]|(uo & E & _)]; discriminate E]). rewrite Ok_inj, read_auth_members. split.
    + intros <-. right. eauto.
    + intros [[E _]|(a & E & ->)]; [discriminate|]. injection E as <-. reflexivity.
  - rewrite Ok_inj. split; [intros <-; left; auto|]. intros [[_ ->]|(j & E & _)]; [reflexivity|discriminate].
Qed.
Definition read_problem_member (o : list (str * json)) :=
  match jget (L "problem") o with
  | None => Ok (REPORT_INVALID, None, (false, true), 0, None)
  | Some (JObj po) => read_problem o po
  | Some _ => Fail
  end.
Lemma from_json_eq pn pv o : sr_report_from_json pn pv (JObj o) =
  do version <- json_read_uint32 o (L "ureport_version") 2;
  do reporter <- read_reporter pn pv o;
  do os <- read_os o;
  do packages <- read_packages o;
  do problem <- read_problem_member o;
  do auth <- read_auth_member o;
  let '(type, component, user, serial, stacktrace) := problem in
  Ok (mk_report version type (fst reporter) (snd reporter) (fst user) (snd user) os component packages stacktrace auth serial).
Proof. reflexivity. Qed.
Lemma modules_koops o po : modules_readable (JObj o) -> jget (L "problem") o = Some (JObj po) -> forall t, koops_fine t (JObj po).
Proof. intros H E t _ o' l Eo El. injection Eo as <-. exact (H o po l eq_refl E El). Qed.
Lemma report_reads pn pv v r : modules_readable v -> sr_report_from_json pn pv v = Ok r <-> reads_report pn pv v r.
Proof.
  intros Hm. unfold reads_report. destruct v as [| | | | |o]; try (split; [discriminate|intros (o & E & _); discriminate E]).
  rewrite from_json_eq. split.
  - intros H. apply bind_Ok in H as (ver & Hv & H). apply bind_Ok in H as ([rn rv] & Hr & H). apply bind_Ok in H as (os & Ho & H).
    apply bind_Ok in H as (pk & Hp & H). apply bind_Ok in H as ([[[[ty co] [ur ul]] se] st] & Hpr & H). apply bind_Ok in H as (au & Ha & H).
    apply Ok_inj1 in H. subst r. exists o. split; [reflexivity|]. cbn [rep_version rep_type rep_reporter_name rep_reporter_version rep_user_root rep_user_local rep_os rep_component rep_packages rep_stacktrace rep_auth rep_serial fst snd].
    split; [apply read_u32_iff; exact Hv|]. split; [apply read_reporter_iff; exact Hr|]. split; [apply read_os_iff; exact Ho|].
    split; [apply read_packages_iff; exact Hp|]. split; [|apply read_auth_member_iff; exact Ha].
    unfold read_problem_member in Hpr. destruct (jget (L "problem") o) as [j|] eqn:E.
    + destruct j as [| | | | |po]; try discriminate Hpr. right. exists po. split; [reflexivity|]. apply read_problem_iff in Hpr; [exact Hpr|].
      exact (modules_koops o po Hm E).
    + left. injection Hpr as <- <- <- <- <- <-. auto 8.
  - intros (o' & E & Hv & Hr & Ho & Hp & Hpr & Ha). injection E as <-. apply read_u32_iff in Hv. apply read_reporter_iff in Hr.
    apply read_os_iff in Ho. apply read_packages_iff in Hp. apply read_auth_member_iff in Ha.
    rewrite Hv. cbn [bind]. rewrite Hr. cbn [bind]. rewrite Ho. cbn [bind]. rewrite Hp. cbn [bind].
    assert (Hx : read_problem_member o = Ok (rep_type r, rep_component r, (rep_user_root r, rep_user_local r), rep_serial r, rep_stacktrace r)).
    { unfold read_problem_member. destruct Hpr as [(-> & -> & -> & -> & -> & -> & ->)|(po & E & H)]; [reflexivity|]. rewrite E.
      apply read_problem_iff; [exact (modules_koops o po Hm E)|exact H]. }
    rewrite Hx. cbn [bind]. rewrite Ha. destruct r; reflexivity.
Qed.
Lemma report_read_not_UB pn pv v : modules_readable v -> sr_report_from_json pn pv v <> UB.
Proof.
  intros Hm. destruct v as [| | | | |o]; try discriminate. rewrite from_json_eq.
  apply bind_not_UB; [apply json_read_not_UB|intros ver]. apply bind_not_UB.
  { unfold read_reporter. destruct (jget (L "reporter") o) as [[]|]; try discriminate. repeat (apply bind_not_UB; [apply json_read_not_UB|intro]). discriminate. }
  intros rep. apply bind_not_UB.
  { unfold read_os. destruct (jget (L "os") o); [|discriminate]. apply bind_not_UB; [apply os_not_UB|discriminate]. }
  intros os. apply bind_not_UB.
  { unfold read_packages. destruct (jget (L "packages") o); [|discriminate]. apply packages_not_UB. }
  intros pk. apply bind_not_UB.
  { unfold read_problem_member. destruct (jget (L "problem") o) as [[| | | | |po]|] eqn:E; try discriminate. unfold read_problem. cbv zeta.
    apply bind_not_UB; [apply json_read_not_UB|intro]. apply bind_not_UB; [apply json_read_not_UB|intro]. apply bind_not_UB.
    - destruct (jget (L "user") o) as [[]|]; try discriminate. repeat (apply bind_not_UB; [apply json_read_not_UB|intro]). discriminate.
    - intros u. apply bind_not_UB; [apply json_read_not_UB|intro]. apply bind_not_UB; [|discriminate]. apply stacktrace_part_not_UB. exact (modules_koops o po Hm E _). }
  intros [[[[ty co] us] se] st]. apply bind_not_UB; [|discriminate].
  unfold read_auth_member. destruct (jget (L "auth") o) as [[]|]; discriminate.
Qed.
