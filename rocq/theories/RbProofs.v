(** * The Ruby binding: proofs. *)
From Verif Require Import Base Types JsonSpec JsonModel JsonTypesModel ReportModel CrashModel SystemModel TextModel AbrtModel RbModel RbSpec.
Open Scope nat_scope.

(** ** The library *)
Definition usable (s : stacktrace) : Prop :=
  match s with
  | SCore c => forall i, cs_crash_thread c = Some i -> exists t, nth_error (cs_threads c) i = Some t
  | SGdb _ | SJs _ => False
  | _ => True
  end.
Lemma read_threads_crash l : forall i crash ts crash', core_read_threads l i crash = Ok (ts, crash') ->
  length ts = length l /\ (crash' = crash \/ exists j, crash' = Some j /\ i <= j < i + length ts).
Proof.
  induction l as [|j l IH]; intros i crash ts crash' E; cbn [core_read_threads] in E.
  - injection E as <- <-. cbn. tauto.
  - destruct (core_thread_from_json j) as [t| |]; try discriminate E. cbn [bind] in E.
    set (c1 := match j with JObj o => _ | _ => _ end) in E. destruct c1 as [c1v| |] eqn:C1; try discriminate E. cbn [bind] in E.
    destruct (core_read_threads l (S i) c1v) as [[ts1 cr1]| |] eqn:R; try discriminate E. cbn in E. injection E as <- <-.
    destruct (IH _ _ _ _ R) as (HL & [HC|(k & HC & HK)]).
    + split; [cbn; lia|]. subst cr1. subst c1. destruct j as [| | | | |members]; try (injection C1 as <-; tauto).
      destruct (jget (L "crash_thread") members) as [[|b| | | |]|]; try discriminate C1; try (injection C1 as <-; tauto).
      destruct b; injection C1 as <-; [|tauto]. right. exists i. cbn. split; [reflexivity|lia].
    + split; [cbn; lia|]. right. exists k. cbn. split; [exact HC|lia].
Qed.
Lemma core_usable j c : core_stacktrace_from_json j = Ok c -> usable (SCore c).
Proof.
  intros E i C. unfold core_stacktrace_from_json in E. destruct j as [| | | | |members]; try discriminate E.
  destruct (json_read_uint16 members (L "signal") 0) as [s| |]; try discriminate E. cbn [bind] in E.
  destruct (json_read_string members (L "executable") None) as [x| |]; try discriminate E. cbn [bind] in E.
  destruct (json_read_bool members (L "only_crash_thread") false) as [b| |]; try discriminate E. cbn [bind] in E.
  destruct (jget (L "stacktrace") members) as [[| | | |l|]|]; try discriminate E.
  - destruct (core_read_threads l 0 None) as [[ts cr]| |] eqn:R; try discriminate E. cbn in E. injection E as <-. cbn in C |- *.
    destruct (read_threads_crash _ _ _ _ _ R) as (_ & [H|(k & H & B)]); [congruence|]. rewrite H in C. injection C as <-.
    destruct (nth_error ts k) as [t|] eqn:T; [exists t; reflexivity|]. apply nth_error_None in T. lia.
  - cbn in E. injection E as <-. cbn in C. discriminate C.
Qed.
Lemma trace_facts type j s : In type [REPORT_CORE; REPORT_PYTHON; REPORT_KERNELOOPS; REPORT_JAVA; REPORT_RUBY] ->
  sr_stacktrace_from_json type j = Ok (Some s) -> type_of s = type /\ usable s.
Proof.
  intros I E. unfold sr_stacktrace_from_json, to_option in E. cbn in I.
  destruct I as [<-|[<-|[<-|[<-|[<-|[]]]]]]; cbn in E.
  - destruct (core_stacktrace_from_json j) eqn:C; try discriminate E. injection E as <-. split; [reflexivity|exact (core_usable _ _ C)].
  - destruct (python_stacktrace_from_json j); try discriminate E. injection E as <-. split; [reflexivity|exact Logic.I].
  - destruct (koops_stacktrace_from_json j); try discriminate E. injection E as <-. split; [reflexivity|exact Logic.I].
  - destruct (java_stacktrace_from_json j); try discriminate E. injection E as <-. split; [reflexivity|exact Logic.I].
  - destruct (ruby_stacktrace_from_json j); try discriminate E. injection E as <-. split; [reflexivity|exact Logic.I].
Qed.
Definition report_fine (r : report) : Prop := forall s, rep_stacktrace r = Some s -> type_of s = rep_type r /\ usable s.
Lemma report_facts pn pv j r : sr_report_from_json pn pv j = Ok r -> report_fine r.
Proof.
  intros E s ES. unfold sr_report_from_json in E. destruct j as [| | | | |members]; try discriminate E.
  destruct (json_read_uint32 members (L "ureport_version") 2) as [v| |]; try discriminate E. cbn [bind] in E.
  match type of E with bind ?x _ = _ => destruct x as [rp| |]; try discriminate E; cbn [bind] in E end.
  match type of E with bind ?x _ = _ => destruct x as [os| |]; try discriminate E; cbn [bind] in E end.
  match type of E with bind ?x _ = _ => destruct x as [pk| |]; try discriminate E; cbn [bind] in E end.
  match type of E with bind ?x _ = _ => destruct x as [pb| |] eqn:P; try discriminate E; cbn [bind] in E end.
  match type of E with bind ?x _ = _ => destruct x as [au| |]; try discriminate E; cbn [bind] in E end.
  destruct pb as [[[[type comp] user] serial] trace]. injection E as <-. cbn in ES |- *. subst trace.
  destruct (jget (L "problem") members) as [[| | | | |po]|]; try discriminate P.
  destruct (json_read_string po (L "type") None) as [ty| |]; try discriminate P. cbn [bind] in P.
  destruct (json_read_string po (L "component") None) as [cm| |]; try discriminate P. cbn [bind] in P.
  match type of P with bind ?x _ = _ => destruct x as [us| |]; try discriminate P; cbn [bind] in P end.
  match type of P with bind ?x _ = _ => destruct x as [se| |]; try discriminate P; cbn [bind] in P end.
  destruct (existsb _ _) eqn:X in P; [|discriminate P].
  destruct (sr_stacktrace_from_json (sr_report_type_from_string ty) (JObj po)) as [st| |] eqn:T; try discriminate P. cbn [bind] in P.
  injection P as <- _ _ _ ->. apply existsb_exists in X. destruct X as (k & IK & EK). apply Nat.eqb_eq in EK. subst k. exact (trace_facts _ _ _ IK T).
Qed.
Lemma known_types s : existsb (Nat.eqb (type_of s)) ruby_types = known_type s.
Proof. destruct s; reflexivity. Qed.
Lemma find_index_in {A} (p : A -> bool) l : forall k i, find_index p k l = Some i -> k <= i /\ exists x, nth_error l (i - k) = Some x.
Proof.
  induction l as [|x l IH]; intros k i E; cbn in E; [discriminate E|]. destruct (p x).
  - injection E as <-. rewrite Nat.sub_diag. split; [lia|exists x; reflexivity].
  - destruct (IH _ _ E) as (H & y & Y). split; [lia|]. exists y. replace (i - k) with (S (i - S k)) by lia. exact Y.
Qed.
Lemma nth_map {A B} (f : A -> B) l i x : nth_error l i = Some x -> nth_error (map f l) i = Some (f x).
Proof. revert i. induction l as [|y l IH]; intros [|i] E; cbn in *; try discriminate E; [injection E as <-; reflexivity|exact (IH _ E)]. Qed.
(** The crash thread, by pointer and by value. *)
Definition named (s : stacktrace) : bool := match s with SCore c => match cs_crash_thread c with Some _ => true | None => false end | _ => false end.
Lemma crash_value a s home : usable s ->
  match crash_thread_at a s home with
  | None => sr_stacktrace_find_crash_thread s = None
  | Some (b, i) => b = (if named s then home else a) /\ exists t, nth_error (sr_stacktrace_threads s) i = Some t /\ sr_stacktrace_find_crash_thread s = Some t
  end.
Proof.
  intros U. destruct s as [c|p|k|v|g|r|j]; cbn [crash_thread_at named]; try (destruct U; fail);
    try (split; [reflexivity|]; eexists; split; reflexivity).
  - destruct (cs_crash_thread c) as [i|] eqn:C.
    + split; [reflexivity|]. destruct (U _ C) as (t & T). exists (TCore t). cbn. split; [exact (nth_map TCore _ _ _ T)|].
      unfold sr_core_stacktrace_find_crash_thread. rewrite C, T. reflexivity.
    + cbn. destruct (sr_core_stacktrace_find_crash_thread c) as [i|] eqn:F; [|reflexivity]. cbn. split; [reflexivity|].
      assert (H : exists t, nth_error (cs_threads c) i = Some t).
      { unfold sr_core_stacktrace_find_crash_thread in F. rewrite C in F. destruct (cs_threads c) as [|x [|y l]]; [discriminate F|injection F as <-; exists x; reflexivity|].
        apply find_index_in in F. rewrite Nat.sub_0_r in F. exact (proj2 F). }
      destruct H as (t & T). exists (TCore t). split; [exact (nth_map TCore _ _ _ T)|]. rewrite T. reflexivity.
  - cbn. unfold sr_java_find_crash_thread. destruct (vs_threads v) as [|x l] eqn:V; [reflexivity|]. cbn. split; [reflexivity|]. exists (TJava x). split; reflexivity.
Qed.

(** ** Memory *)
Lemma set_same a b m : a < length m -> nth_error (set a b m) a = Some b.
Proof. intros H. unfold set. rewrite nth_error_app2, firstn_length_le, Nat.sub_diag by (rewrite ?firstn_length; lia). reflexivity. Qed.
Lemma nth_firstn {A} (m : list A) : forall a x, x < a -> nth_error (firstn a m) x = nth_error m x.
Proof. induction m as [|y m IH]; intros [|a] [|x] H; cbn; try reflexivity; try lia. apply IH. lia. Qed.
Lemma nth_skipn {A} (m : list A) : forall a x, nth_error (skipn a m) x = nth_error m (a + x).
Proof. induction m as [|y m IH]; intros [|a] x; cbn; try reflexivity; [destruct x; reflexivity|apply IH]. Qed.
Lemma replace_other {A} a (b : A) m x : x <> a -> a < length m -> nth_error (firstn a m ++ b :: skipn (S a) m) x = nth_error m x.
Proof.
  intros H HA. destruct (Nat.lt_ge_cases x a).
  - rewrite nth_error_app1 by (rewrite firstn_length; lia). apply nth_firstn. lia.
  - rewrite nth_error_app2 by (rewrite firstn_length; lia). rewrite firstn_length_le by lia.
    replace (x - a) with (S (x - S a)) by lia. change (nth_error (skipn (S a) m) (x - S a) = nth_error m x). rewrite nth_skipn. f_equal. lia.
Qed.
Lemma replace_same {A} a (b : A) m : a < length m -> nth_error (firstn a m ++ b :: skipn (S a) m) a = Some b.
Proof. intros H. rewrite nth_error_app2, firstn_length_le, Nat.sub_diag by (rewrite ?firstn_length; lia). reflexivity. Qed.
Lemma replace_length {A} a (b : A) m : a < length m -> length (firstn a m ++ b :: skipn (S a) m) = length m.
Proof. intros H. rewrite app_length. cbn [length]. rewrite firstn_length_le, skipn_length by lia. lia. Qed.
Lemma replace_split {A} (m : list A) a x : nth_error m a = Some x -> m = firstn a m ++ x :: skipn (S a) m.
Proof. revert a. induction m as [|y m IH]; intros [|a] E; cbn in *; try discriminate E; [injection E as <-; reflexivity|]. f_equal. apply IH. exact E. Qed.
Lemma some_lt {A} (m : list A) a x : nth_error m a = Some x -> a < length m.
Proof. intros E. apply nth_error_Some. congruence. Qed.
Lemma set_other a b m x : x <> a -> a < length m -> nth_error (set a b m) x = nth_error m x.
Proof. exact (replace_other a b m x). Qed.
Lemma grown {A} (m : list A) l x b : nth_error m x = Some b -> nth_error (m ++ l) x = Some b.
Proof. intros E. rewrite nth_error_app1; [exact E|exact (some_lt _ _ _ E)]. Qed.
Lemma put_first {A} (m : list A) b l : nth_error (m ++ b :: l) (length m) = Some b.
Proof. rewrite nth_error_app2, Nat.sub_diag by lia. reflexivity. Qed.
Lemma put_second {A} (m : list A) b c l : nth_error (m ++ b :: c :: l) (S (length m)) = Some c.
Proof. rewrite nth_error_app2 by lia. replace (S (length m) - length m) with 1 by lia. reflexivity. Qed.
Lemma free_ok m a b : nth_error m a = Some b -> b <> Gone -> freed m a = Ok (set a Gone m).
Proof. intros E N. unfold freed. rewrite E. destruct b; [contradiction N; reflexivity| | |]; reflexivity. Qed.
