(** * What complaints mean. *)
From Verif Require Import Base Types UtilsModel UtilsProofs JsonSpec JsonModel JsonTypesModel SystemModel TextModel ReportModel ReportSpec ReportProofs6 JsonMsgModel JsonMsgSpec JsonMsgProofs JsonMsgProofs2 JsonMsgProofs3.
Open Scope nat_scope.

Section Induction.
Variable P : wanted -> Prop.
Hypothesis HB : P Bool_.
Hypothesis HW : P Whole.
Hypothesis HT : P Text.
Hypothesis HS : forall f, P (Such f).
Hypothesis HL : forall n w, P w -> P (List_ n w).
Hypothesis HO : forall ms, (forall c k s w, In (c, k, s, w) ms -> P w) -> P (Object_ ms).
Fixpoint wanted_all (w : wanted) : P w :=
  match w with
  | Bool_ => HB | Whole => HW | Text => HT | Such f => HS f
  | List_ n w => HL n w (wanted_all w)
  | Object_ ms => HO ms ((fix go (ms : list (condition * str * str * wanted)) : forall c k s w, In (c, k, s, w) ms -> P w :=
      match ms with
      | [] => fun c k s w H => match H with end
      | (x, w0) :: ms => fun c k s w H => match H with
                                          | or_introl E => eq_ind w0 P (wanted_all w0) w (f_equal snd E)
                                          | or_intror H => go ms c k s w H
                                          end
      end) ms)
  end.
End Induction.

Lemma or_else_none {A} (a b : option A) : or_else a b = None <-> a = None /\ b = None.
Proof. destruct a; cbn; split; [discriminate|intros [[=] _]|tauto|tauto]. Qed.
Lemma or_else_some {A} (a b : option A) x : or_else a b = Some x -> a = Some x \/ b = Some x.
Proof. destruct a; cbn; tauto. Qed.
Lemma fold_none {A} (f : A -> option str) l : fold_right (fun x r => or_else (f x) r) None l = None <-> forall x, In x l -> f x = None.
Proof.
  induction l as [|x l IH]; cbn [fold_right]; [split; [intros _ y []|reflexivity]|]. rewrite or_else_none, IH. split.
  - intros (E & H) y [<-|Y]; [exact E|exact (H y Y)].
  - intros H. split; [apply H; left; reflexivity|intros y Y; apply H; right; exact Y].
Qed.
Lemma fold_some {A} (f : A -> option str) l m : fold_right (fun x r => or_else (f x) r) None l = Some m -> exists x, In x l /\ f x = Some m.
Proof.
  induction l as [|x l IH]; cbn [fold_right]; [discriminate|]. intros E. apply or_else_some in E. destruct E as [E|E]; [exists x; split; [left; reflexivity|exact E]|].
  destruct (IH E) as (y & Y & F). exists y. split; [right; exact Y|exact F].
Qed.
Lemma fits_object ms o : fits (Object_ ms) (JObj o) <-> forall c k s w, In (c, k, s, w) ms -> due c o = true -> forall x, jget k o = Some x -> fits w x.
Proof.
  induction ms as [|[[[c k] s] w] ms IH]; [cbn; split; [intros _ ? ? ? ? []|trivial]|].
  change (fits (Object_ ((c, k, s, w) :: ms)) (JObj o)) with ((due c o = true -> forall x, jget k o = Some x -> fits w x) /\ fits (Object_ ms) (JObj o)). rewrite IH. split.
  - intros (A & B) c' k' s' w' [E|H]; [injection E as <- <- <- <-; exact A|exact (B c' k' s' w' H)].
  - intros H. split; [apply (H c k s w); left; reflexivity|]. intros c' k' s' w' I. apply (H c' k' s' w'). right. exact I.
Qed.
(** Nothing to complain about is to fit. *)
Lemma fits_iff w : forall name j, complaint name w j = None <-> fits w j.
Proof.
  induction w as [| | |f|n w IH|ms IH] using wanted_all; intros name j.
  - destruct j; cbn; split; try discriminate; tauto.
  - destruct j; cbn; split; try discriminate; tauto.
  - destruct j; cbn; split; try discriminate; tauto.
  - destruct j; cbn; tauto.
  - destruct j as [| | | |l|]; cbn [complaint fits]; try (split; [discriminate|intros []]). rewrite fold_none. split; intros H x X; apply (IH n x), H, X.
  - destruct j as [| | | | |o]; try (cbn; split; [discriminate|intros []]). rewrite object_complaint, fold_none, fits_object. split.
    + intros H c k s w I D x X. specialize (H _ I). unfold seen, found in H. rewrite D, X in H. apply (IH _ _ _ _ I s). exact H.
    + intros H [[[c k] s] w] I. unfold seen, found. destruct (due c o) eqn:D; [|reflexivity]. destruct (jget k o) as [x|] eqn:X; [|reflexivity].
      apply (IH _ _ _ _ I s). exact (H _ _ _ _ I D x X).
Qed.

(** ** Complaints are true *)
(** Names in a table are keys or known words. *)
Fixpoint clear (name : str) (w : wanted) : Prop :=
  match w with
  | Such f => forall root j m, part root j -> goes_by root j name -> f j = Some m -> says root m
  | List_ n w => In n words /\ clear n w
  | Object_ ms =>
    (fix all (ms : list (condition * str * str * wanted)) : Prop :=
       match ms with [] => True | (_, key, shown, w) :: ms => ((shown = key \/ In shown words) /\ clear shown w) /\ all ms end) ms
  | _ => True
  end.
Lemma clear_object name ms : clear name (Object_ ms) -> forall c k s w, In (c, k, s, w) ms -> (s = k \/ In s words) /\ clear s w.
Proof.
  induction ms as [|[[[c k] s] w] ms IH]; [intros _ ? ? ? ? []|].
  change (clear name (Object_ ((c, k, s, w) :: ms))) with (((s = k \/ In s words) /\ clear s w) /\ clear name (Object_ ms)).
  intros (A & B) c' k' s' w' [E|H]; [injection E as <- <- <- <-; exact A|exact (IH B c' k' s' w' H)].
Qed.
Lemma complaint_true w : forall name root j m, clear name w -> part root j -> goes_by root j name -> complaint name w j = Some m -> says root m.
Proof.
  assert (K : forall root j name kind m, part root j -> goes_by root j name -> kind <> kind_name j -> Some (expected name kind) = Some m -> says root m).
  { intros root j name kind m PJ G N E. injection E as <-. left. exists j, name, kind. repeat split; assumption. }
  induction w as [| | |f|n w IH|ms IH] using wanted_all; intros name root j m C PJ G E.
  - destruct j; cbn [complaint] in E; try discriminate E; apply (K _ _ _ _ _ PJ G) in E; try exact E; discriminate.
  - destruct j; cbn [complaint] in E; try discriminate E; apply (K _ _ _ _ _ PJ G) in E; try exact E; discriminate.
  - destruct j; cbn [complaint] in E; try discriminate E; apply (K _ _ _ _ _ PJ G) in E; try exact E; discriminate.
  - exact (C root j m PJ G E).
  - destruct j as [| | | |l|]; cbn [complaint] in E; try (apply (K _ _ _ _ _ PJ G) in E; [exact E|discriminate]).
    destruct C as (CN & C). apply fold_some in E. destruct E as (x & X & E). apply (IH n root x m C); [exact (an_element _ _ _ PJ X)|right; exact CN|exact E].
  - destruct j as [| | | | |o]; try (cbn [complaint] in E; apply (K _ _ _ _ _ PJ G) in E; [exact E|discriminate]).
    rewrite object_complaint in E. apply fold_some in E. destruct E as ([[[c k] s] w] & I & E). destruct (clear_object _ _ C _ _ _ _ I) as (S1 & C1).
    unfold seen, found in E. destruct (due c o); [|discriminate E]. destruct (jget k o) as [x|] eqn:X; [|discriminate E].
    apply (IH _ _ _ _ I s root x m C1); [exact (a_member _ _ _ _ PJ X)| |exact E]. destruct S1 as [->|S1]; [left; exists o; split; assumption|right; exact S1].
Qed.
Lemma role_clear : clear (L "package_role") (Such role_complains).
Proof.
  intros root j m PJ G E. destruct j as [| | |s| |]; cbn [role_complains] in E.
  4:{ destruct (str_eqb s (L "affected")) eqn:S1; [discriminate E|]. injection E as <-. right. apply unknown_role; try assumption. intros ->. rewrite str_eqb_refl in S1. discriminate S1. }
  all: injection E as <-; left; eexists _, _, (L "string"); split; [exact PJ|]; split; [exact G|]; split; [discriminate|reflexivity].
Qed.
Lemma named_true root platform o key known m : part root platform -> (o = match platform with JObj o => o | _ => [] end) -> In (key, known) [(L "engine", L "V8"); (L "runtime", L "Node.js")] ->
  named o key key known = Some m -> says root m.
Proof.
  intros PP EO K E. unfold named in E. assert (EM : jget key o = member platform key) by (subst o; destruct platform; reflexivity). rewrite EM in E.
  assert (KK : In key [L "engine"; L "runtime"]) by (destruct K as [[= <- _]|[[= <- _]|[]]]; [left|right; left]; reflexivity).
  destruct (member platform key) as [x|] eqn:X; [|injection E as <-; right; exact (no_name _ _ _ PP KK X)].
  assert (WK : forall k, k <> kind_name x -> Some (expected key k) = Some m -> says root m).
  { intros k N E1. injection E1 as <-. left. destruct platform as [| | | | |o1]; try discriminate X. exists x, key, k. split; [exact (a_member _ _ _ _ PP X)|].
    split; [left; exists o1; split; [exact PP|exact X]|]. split; [exact N|reflexivity]. }
  destruct x as [| | |s| |].
  4:{ destruct (str_eqb s known || str_eqb s (L "<unknown>")) eqn:S1; [discriminate E|]. injection E as <-. apply orb_false_iff in S1. destruct S1 as (S1 & S2). right.
      apply (unknown_name _ platform key known s PP K X); intros ->; [rewrite str_eqb_refl in S1; discriminate S1|rewrite str_eqb_refl in S2; discriminate S2]. }
  all: apply (WK (L "string")); [discriminate|exact E].
Qed.
Lemma platform_clear : clear (L "platform") (Such platform_complains).
Proof.
  intros root j m PJ _ E. unfold platform_complains in E. apply or_else_some in E. destruct E as [E|E].
  - apply (named_true root j _ (L "engine") (L "V8") m PJ eq_refl); [left; reflexivity|exact E].
  - apply (named_true root j _ (L "runtime") (L "Node.js") m PJ eq_refl); [right; left; reflexivity|exact E].
Qed.
Ltac clear_ := cbn [clear app]; repeat split; try (left; reflexivity); try (right; unfold words; cbn [In]; tauto); try (unfold words; cbn [In]; tauto); try exact Logic.I.
Lemma tables_clear type w : table type = Some w -> clear (L "stacktrace") w.
Proof.
  assert (CT : clear (L "stacktrace") core_table) by (unfold core_table, core_frame_table, field; clear_).
  assert (PT : clear (L "stacktrace") python_table) by (unfold python_table, name_or, field; clear_).
  assert (KT : clear (L "stacktrace") koops_table) by (unfold koops_table, field; clear_).
  assert (VT : clear (L "stacktrace") java_table) by (unfold java_table, field; clear_).
  assert (RT : clear (L "stacktrace") ruby_table) by (unfold ruby_table, name_or, field; clear_).
  assert (JT : clear (L "stacktrace") js_table) by (unfold js_table, field; cbn [clear]; repeat split; try (left; reflexivity); try (unfold words; cbn [In]; tauto); exact platform_clear).
  unfold table. intros T. repeat match type of T with (if ?b then _ else _) = _ => destruct b; [injection T as <-; assumption|] end. discriminate T.
Qed.
