(** * Reading JSON with messages: reports. *)
From Verif Require Import Base Types UtilsModel JsonSpec JsonModel JsonTypesModel SystemModel TextModel ReportModel ReportSpec ReportProofs6 JsonMsgModel JsonMsgSpec JsonMsgProofs.
Open Scope nat_scope.

Definition tells (B : Prop) {A} (x : told A) (out : list str * bool) (r : res A) : Prop :=
  (B /\ x = Breaks /\ r = UB) \/ let '(ms, refused) := out in if refused then x = Refuses ms /\ r = Fail else exists a, x = Gives a ms /\ r = Ok a.

Lemma in_order_app l1 l2 : in_order (l1 ++ l2) = let '(ms, b) := in_order l1 in if b then (ms, true) else let '(ns, b) := in_order l2 in (ms ++ ns, b).
Proof.
  induction l1 as [|[[m|] more] l1 IH]; cbn [app in_order]; [destruct (in_order l2); reflexivity|reflexivity|]. rewrite IH. destruct (in_order l1) as [ms [|]]; [reflexivity|].
  destruct (in_order l2) as [ns b]. rewrite app_assoc. reflexivity.
Qed.
Lemma tells_then B {A C} (x : told A) l1 l2 r (f : A -> told C) g : tells B x (in_order l1) r -> (forall a, r = Ok a -> tells B (f a) (in_order l2) (g a)) ->
  tells B (then_ x f) (in_order (l1 ++ l2)) (bind r g).
Proof.
  intros [(H & -> & ->)|X] F; [left; repeat split; exact H|]. rewrite in_order_app. destruct (in_order l1) as [ms [|]].
  - destruct X as (-> & ->). right. split; reflexivity.
  - destruct X as (a & -> & ->). cbn [then_ bind]. destruct (F a eq_refl) as [(H & E1 & E2)|Y].
    + left. rewrite E1, E2. repeat split. exact H.
    + right. destruct (in_order l2) as [ns [|]]; [destruct Y as (E1 & E2)|destruct Y as (b & E1 & E2)]; rewrite E1, E2; cbn [after]; [split; reflexivity|exists b; split; reflexivity].
Qed.
Lemma tells_give B {A} (a : A) : tells B (give a) (in_order []) (Ok a).
Proof. right. exists a. split; reflexivity. Qed.
Lemma agree_tells B {A} (x : told A) c r : agree B x c r -> tells B x (in_order [(c, [])]) r.
Proof. intros [H|X]; [left; exact H|]. right. destruct c as [m|]; exact X. Qed.
Lemma aside_ok {A} (x : told A) c r : agree False x c r -> aside x = Gives (match r with Ok a => Some a | _ => None end) (told_if c).
Proof. intros [([] & _)|X]. destruct c as [m|]; [destruct X as (-> & ->)|destruct X as (a & -> & ->)]; reflexivity. Qed.

(** ** Operating systems *)
Lemma os_parts o : agree False (ask name <- read_string o (L "name") None;
      ask version <- read_string o (L "version") None;
      ask architecture <- read_string o (L "architecture") None;
      ask uptime <- read_uint64 o (L "uptime") 0%Z;
      give (name, version, architecture, uptime)) (complaint (L "operating system") os_table (JObj o)) (do name <- json_read_string o (L "name") None;
    do version <- json_read_string o (L "version") None;
    do architecture <- json_read_string o (L "architecture") None;
    do uptime <- json_read_uint64 o (L "uptime") 0%Z; Ok (name, version, architecture, uptime)).
Proof. unfold os_table. chain. Qed.
Lemma one_member name key shown w o : complaint name (the key shown w) (JObj o) = found o key (complaint shown w).
Proof. unfold the. rewrite object_complaint. cbn [fold_right]. rewrite or_none. reflexivity. Qed.
Lemma optional_ok o key : aside (read_string o key None) = Gives (match json_read_string o key None with Ok a => Some a | _ => None end) (told_if (found o key (complaint key Text))).
Proof. apply aside_ok. apply agree_string. Qed.
Definition os_aside (j : json) : list str :=
  match j with JObj o => told_if (found o (L "desktop") (complaint (L "desktop") Text)) ++ told_if (found o (L "variant") (complaint (L "variant") Text)) | _ => [] end.
Lemma os_ok B j : tells B (operating_system_of j) (in_order [(complaint (L "operating system") os_table j, os_aside j)]) (sr_operating_system_from_json j).
Proof.
  unfold operating_system_of, sr_operating_system_from_json. destruct j as [| | | | |o]; try (right; split; reflexivity).
  unfold members, json_check_type. cbn [json_object_is_type then_ give]. rewrite after_nil, (aside_ok _ _ _ (os_parts o)), !optional_ok. cbn [os_aside].
  assert (E : forall C (g : option str * option str * option str * Z -> res C),
    bind (do name <- json_read_string o (L "name") None; do version <- json_read_string o (L "version") None; do architecture <- json_read_string o (L "architecture") None;
          do uptime <- json_read_uint64 o (L "uptime") 0%Z; Ok (name, version, architecture, uptime)) g =
    (do name <- json_read_string o (L "name") None; do version <- json_read_string o (L "version") None; do architecture <- json_read_string o (L "architecture") None;
          do uptime <- json_read_uint64 o (L "uptime") 0%Z; g (name, version, architecture, uptime))).
  { intros C g. destruct (json_read_string o (L "name") None); try reflexivity. cbn [bind]. destruct (json_read_string o (L "version") None); try reflexivity. cbn [bind].
    destruct (json_read_string o (L "architecture") None); try reflexivity. cbn [bind]. destruct (json_read_uint64 o (L "uptime") 0%Z); reflexivity. }
  pose proof (os_parts o) as P. specialize (E _ (fun '(name, version, architecture, uptime) => Ok (mk_os name version architecture None uptime (read_optional_string o (L "desktop")) (read_optional_string o (L "variant"))))).
  cbn beta iota in E. rewrite <- E. clear E. right. destruct P as [([] & _)|P]. unfold read_optional_string.
  destruct (complaint (L "operating system") os_table (JObj o)) as [m|].
  - destruct P as (_ & ->). cbn [in_order then_ bind after told_if]. rewrite <- ?app_assoc, ?app_nil_r. split; reflexivity.
  - destruct P as ([[[a b] c] d] & _ & ->). cbn [in_order then_ bind after told_if app give]. rewrite ?app_nil_r. eexists. split; [reflexivity|]. f_equal.
    f_equal; [destruct (json_read_string o (L "desktop") None)|destruct (json_read_string o (L "variant") None)]; reflexivity.
Qed.

(** ** Packages *)
Lemma package_ok B j : agree B (package_of j) (complaint (L "package") package_table j) (single_rpm_package_from_json j).
Proof.
  unfold package_of, single_rpm_package_from_json, package_table. object j. chain. apply agree_then; [|intros ? _; apply agree_give].
  unfold when, get_string_member, found. destruct (jget (L "package_role") o) as [[| | |s| |]|]; try apply agree_give; try apply agree_refuse.
  cbn. destruct (str_eqb s _); [apply agree_give|apply agree_refuse].
Qed.
Lemma packages_ok B j : agree B (packages_of j) (complaint (L "package list") (List_ (L "package") package_table) j) (rpm_packages_from_json j).
Proof.
  unfold packages_of, rpm_packages_from_json. destruct j as [| | | |l|]; try apply agree_refuse. unfold elements, json_check_type. cbn [json_object_is_type then_ give]. rewrite after_nil.
  apply agree_each. intros x. apply package_ok.
Qed.

(** ** Stack traces *)
Lemma trace_ok type j w : table type = Some w ->
  (type = REPORT_KERNELOOPS /\ ~ modules_survive j /\ stacktrace_of type j = Breaks /\ sr_stacktrace_from_json type j = UB) \/
  aside (stacktrace_of type j) = Gives (match stacktrace_of type j with Gives s _ => Some s | _ => None end) (told_if (complaint (L "stacktrace") w j)) /\
  sr_stacktrace_from_json type j = Ok (match stacktrace_of type j with Gives s _ => Some s | _ => None end).
Proof.
  intros T.
  assert (G : forall A (f : A -> stacktrace) (x : told A) c r, agree False x c r ->
    aside (ask a <- x; give (f a)) = Gives (match (ask a <- x; give (f a)) with Gives s _ => Some s | _ => None end) (told_if c) /\
    to_option f r = Ok (match (ask a <- x; give (f a)) with Gives s _ => Some s | _ => None end)).
  { intros A f x c r [([] & _)|X]. destruct c as [m|]; [destruct X as (-> & ->)|destruct X as (a & -> & ->)]; split; reflexivity. }
  assert (TY : type = REPORT_CORE \/ type = REPORT_PYTHON \/ type = REPORT_KERNELOOPS \/ type = REPORT_JAVA \/ type = REPORT_RUBY \/ type = REPORT_JAVASCRIPT).
  { unfold table in T. repeat match type of T with (if Nat.eqb ?a ?b then _ else _) = _ => destruct (Nat.eqb_spec a b); [tauto|] end. discriminate T. }
  destruct TY as [->|[->|[->|[->|[->| ->]]]]]; injection T as <-.
  - right. exact (G _ SCore _ _ _ (core_ok False j)).
  - right. exact (G _ SPython _ _ _ (python_ok False j)).
  - destruct (koops_ok j) as [(NS & E1 & E2)|X].
    + left. unfold stacktrace_of, sr_stacktrace_from_json. cbn [Nat.eqb REPORT_KERNELOOPS REPORT_CORE REPORT_PYTHON]. rewrite E1, E2. repeat split. exact NS.
    + right. exact (G _ SKoops _ _ _ (or_intror X)).
  - right. exact (G _ SJava _ _ _ (java_ok False j)).
  - right. exact (G _ SRuby _ _ _ (ruby_ok False j)).
  - right. exact (G _ SJs _ _ _ (js_ok False j)).
Qed.
Lemma listed_types type : existsb (Nat.eqb type) [REPORT_CORE; REPORT_PYTHON; REPORT_KERNELOOPS; REPORT_JAVA; REPORT_RUBY] = match table type with Some _ => negb (Nat.eqb type REPORT_JAVASCRIPT) | None => false end.
Proof. do 9 (destruct type as [|type]; [reflexivity|]). reflexivity. Qed.
Lemma auth_ok entries : forall l, auth_of entries l = Gives (fold_left (fun l m => match snd m with JStr s => (fst m, s) :: l | _ => l end) entries l) (flat_map (fun e => told_if (complaint (fst e) Text (snd e))) entries).
Proof.
  induction entries as [|[name value] entries IH]; intros l; [reflexivity|]. cbn [auth_of fold_left flat_map fst snd].
  destruct value; unfold string_of, json_check_type; cbn [json_object_is_type then_ give aside complaint told_if app after]; rewrite IH; reflexivity.
Qed.
Lemma entry_value ao k v : In (k, v) (object_entries ao) -> jget k ao = Some v.
Proof.
  intros H. assert (Hnd : NoDup (map fst (object_entries ao))) by (rewrite object_entries_keys; apply keys_nodup).
  pose proof (vget_nodup _ Hnd _ _ H) as E. change (object_entries ao) with (add_all ao []) in E. rewrite add_all_vget in E. cbn [vget] in E. destruct (jget k ao); exact E.
Qed.
Lemma entries_told ao : flat_map (fun e => told_if (complaint (fst e) Text (snd e))) (rev (object_entries ao)) =
  flat_map (fun k => match jget k ao with Some x => told_if (complaint k Text x) | None => [] end) (rev (keys ao)).
Proof.
  rewrite <- object_entries_keys, <- map_rev, flat_map_map. apply flat_map_ext_in. intros [k v] H. apply in_rev in H. cbn [fst snd]. rewrite (entry_value _ _ _ H). reflexivity.
Qed.
