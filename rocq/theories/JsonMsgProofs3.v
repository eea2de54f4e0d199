(** * Reading JSON with messages: whole reports; what complaints mean. *)
From Verif Require Import Base Types UtilsModel JsonSpec JsonModel JsonTypesModel SystemModel TextModel ReportModel JsonMsgModel JsonMsgSpec JsonMsgProofs JsonMsgProofs2.
Open Scope nat_scope.

Lemma when_found B {A} o key (d : A) f (c : json -> option str) g : (forall j, jget key o = Some j -> agree B (f j) (c j) (g j)) ->
  agree B (when o key d f) (found o key c) (match jget key o with None => Ok d | Some j => g j end).
Proof. intros F. unfold when, found. destruct (jget key o) as [j|]; [apply F; reflexivity|apply agree_give]. Qed.
Lemma when_tells B {A} o key (d : A) f l g : (forall j, jget key o = Some j -> tells B (f j) (in_order l) (g j)) -> (jget key o = None -> in_order l = ([], false)) ->
  tells B (when o key d f) (in_order l) (match jget key o with None => Ok d | Some j => g j end).
Proof. intros F N. unfold when. destruct (jget key o) as [j|]; [apply F; reflexivity|]. rewrite (N eq_refl). apply tells_give. Qed.
Lemma type_read o po ty : jget (L "problem") o = Some (JObj po) -> json_read_string po (L "type") None = Ok ty -> type_of_report (JObj o) = sr_report_type_from_string ty.
Proof.
  intros P T. unfold type_of_report. cbn [member]. rewrite P. cbn [member]. unfold json_read_string, json_read in T. destruct (jget (L "type") po) as [[]|]; try discriminate T; injection T as <-; reflexivity.
Qed.
Lemma refuses_tells B {A} m : tells B (@Refuses A [m]) (in_order [(Some m, [])]) Fail.
Proof. right. split; reflexivity. Qed.

Lemma problem_ok o : tells (~ report_survives (JObj o)) (when o (L "problem") (REPORT_INVALID, None, (false, true), 0%Z, None) (fun j =>
      members (L "problem") j (fun po =>
        ask type <- read_string po (L "type") None;
        ask component <- read_string po (L "component") None;
        let type := sr_report_type_from_string type in
        ask user <- when o (L "user") (false, true) (fun j =>
          members (L "user") j (fun uo =>
            ask root <- read_bool uo (L "root") false;
            ask local <- read_bool uo (L "local") true;
            give (root, local)));
        ask serial <- read_uint32 po (L "serial") 0%Z;
        ask stacktrace <- (if existsb (Nat.eqb type) [REPORT_CORE; REPORT_PYTHON; REPORT_KERNELOOPS; REPORT_JAVA; REPORT_RUBY]
                           then aside (stacktrace_of type (JObj po)) else give None);
        give (type, component, user, serial, stacktrace))))
  (in_order [(in_problem (L "type") Text (JObj o), []); (in_problem (L "component") Text (JObj o), []); (user_complains (JObj o), []);
             (in_problem (L "serial") Whole (JObj o), []); (None, trace_told (JObj o))])
  (match jget (L "problem") o with
                  | None => Ok (REPORT_INVALID, None, (false, true), 0%Z, None)
                  | Some (JObj po) =>
                    do type <- json_read_string po (L "type") None;
                    do component <- json_read_string po (L "component") None;
                    let type := sr_report_type_from_string type in
                    do user <- match jget (L "user") o with
                               | None => Ok (false, true)
                               | Some (JObj uo) =>
                                 do root <- json_read_bool uo (L "root") false;
                                 do local <- json_read_bool uo (L "local") true;
                                 Ok (root, local)
                               | Some _ => Fail
                               end;
                    do serial <- json_read_uint32 po (L "serial") 0%Z;
                    do stacktrace <- (if existsb (Nat.eqb type) [REPORT_CORE; REPORT_PYTHON; REPORT_KERNELOOPS; REPORT_JAVA; REPORT_RUBY]
                                      then sr_stacktrace_from_json type (JObj po) else Ok None);
                    Ok (type, component, user, serial, stacktrace)
                  | Some _ => Fail
                  end).
Proof.
  unfold in_problem. rewrite !one_member. unfold when at 1, found at 1 2 3, user_complains, trace_told. cbn [member]. destruct (jget (L "problem") o) as [p|] eqn:P; [|apply tells_give].
  destruct p as [| | | | |po]; try (right; split; reflexivity). rewrite one_member.
  unfold members at 1, json_check_type. cbn [json_object_is_type then_ give]. rewrite after_nil, !object_complaint. cbn [fold_right]. rewrite !or_none, !seen_field.
  apply (tells_then _ _ [_] [_; _; _; _]); [apply agree_tells, agree_string|]. intros ty T. rewrite (type_read o po ty P T).
  apply (tells_then _ _ [_] [_; _; _]); [apply agree_tells, agree_string|]. intros co _. cbv zeta.
  apply (tells_then _ _ [_] [_; _]).
  - apply agree_tells. unfold when, found. destruct (jget (L "user") o) as [[| | | | |uo]|]; try apply agree_give; try apply agree_refuse.
    unfold members, json_check_type. cbn [json_object_is_type then_ give]. rewrite after_nil. chain.
  - intros user _. apply (tells_then _ _ [_] [_]); [apply agree_tells, agree_uint32|]. intros serial _.
    apply (tells_then _ _ [_] []); [|intros tr _; apply tells_give]. rewrite listed_types. destruct (table (sr_report_type_from_string ty)) as [w|] eqn:T1; [|right; eexists; split; reflexivity].
    destruct (Nat.eqb (sr_report_type_from_string ty) REPORT_JAVASCRIPT); cbn [negb]; [right; eexists; split; reflexivity|].
    destruct (trace_ok _ (JObj po) w T1) as [(K & NS & E1 & E2)|(E1 & E2)].
    + left. rewrite E1, E2. repeat split. intros S1. apply NS. apply (S1 (JObj po)); [exact P|]. rewrite (type_read o po ty P T). exact K.
    + right. rewrite E1, E2. cbn [in_order]. rewrite app_nil_r. eexists. split; reflexivity.
Qed.
Lemma report_ok pn pv root : tells (~ report_survives root) (report_of pn pv root) (in_order (stages root)) (sr_report_from_json pn pv root).
Proof.
  unfold report_of, sr_report_from_json. destruct root as [| | | | |o]; try (right; split; reflexivity).
  unfold members at 1, json_check_type. cbn [json_object_is_type then_ give]. rewrite after_nil. unfold stages. rewrite !one_member.
  apply (tells_then _ _ [_] [_; _; _; _; _; _; _; _; _]); [apply agree_tells, agree_uint32|]. intros version _.
  apply (tells_then _ _ [_] [_; _; _; _; _; _; _; _]).
  { apply agree_tells. unfold when, found. destruct (jget (L "reporter") o) as [[| | | | |ro]|]; try apply agree_give; try apply agree_refuse.
    unfold members, json_check_type. cbn [json_object_is_type then_ give]. rewrite after_nil. chain. }
  intros [name rv] _. apply (tells_then _ _ [_] [_; _; _; _; _; _; _]).
  { unfold when, found, os_told. cbn [member]. destruct (jget (L "os") o) as [j|]; [|apply tells_give].
    rewrite <- (app_nil_r [_]). apply tells_then; [|intros ? _; apply tells_give].
    pose proof (os_ok (~ report_survives (JObj o)) j) as OS. destruct j as [| | | | |oo]; try exact OS. rewrite !one_member. exact OS. }
  intros os _. apply (tells_then _ _ [_] [_; _; _; _; _; _]).
  { apply agree_tells. apply when_found. intros j _. apply packages_ok. }
  intros packages _. apply (tells_then _ _ [_; _; _; _; _] [_]); [apply problem_ok|].
  intros [[[[type co] user] serial] trace] _. apply (tells_then _ _ [_] []).
  { unfold when, found, auth_told. cbn [member]. destruct (jget (L "auth") o) as [[| | | | |ao]|]; try (right; split; reflexivity); [|apply tells_give].
    unfold members, json_check_type. cbn [json_object_is_type then_ give]. rewrite after_nil, auth_ok, entries_told. right. cbn [in_order complaint]. rewrite app_nil_r. eexists. split; [reflexivity|]. reflexivity. }
  intros auth _. apply tells_give.
Qed.
