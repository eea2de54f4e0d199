(** * Proofs about the reasons of stack traces. *)
From Verif Require Import Base Types UtilsModel UtilsSpec JsonSpec JsonTypesModel JsonTypesSpec NormModel NormSpec NormTables NormProofs NormProofs2 TextModel SystemModel ReportModel ReportSpec.
Open Scope Z_scope.

Lemma first_such_unique {A} (P : A -> Prop) l r r' : first_such P l r -> first_such P l r' -> r = r'.
Proof.
  revert r r'. induction l as [|x l IH]; intros r r' H H'.
  - destruct r as [f|]; [destruct H as ([|] & ? & E & _); discriminate|]. destruct r' as [f|]; [destruct H' as ([|] & ? & E & _); discriminate|reflexivity].
  - assert (step : forall r, first_such P (x :: l) r -> (r = Some x /\ P x) \/ (~ P x /\ first_such P l r)).
    { intros [f|] K.
      - destruct K as ([|y pre] & post & E & Pf & N); injection E as -> ->; [left; auto|]. inversion N; subst. right. split; [assumption|]. exists pre, post. auto.
      - inversion K; subst. right. auto. }
    apply step in H. apply step in H'. destruct H as [[-> H]|[H K]], H' as [[-> H']|[H' K']]; try tauto. eapply IH; eauto.
Qed.
Lemma last_of_app {A} (l : list A) f : last_of (l ++ [f]) = Some f.
Proof. induction l as [|x l IH]; [reflexivity|]. cbn [app last_of]. rewrite IH. destruct (l ++ [f]) eqn:E; [destruct l; discriminate|reflexivity]. Qed.
Lemma last_case {A} (l : list A) : l = [] \/ exists k f, l = k ++ [f].
Proof. destruct l as [|x l] using rev_ind; [left; reflexivity|right; eauto]. Qed.
Lemma has_infix_iff b s : NormModel.strstr b s = true <-> has_infix b s.
Proof. apply strstr_iff. Qed.
Lemma has_infix_false b s : NormModel.strstr b s = false <-> ~ has_infix b s.
Proof. rewrite <- has_infix_iff. destruct (NormModel.strstr b s); split; congruence. Qed.

(** Java *)
Lemma java_loop_spec l : forall exc found, exists e file line, java_reason_loop l exc found = (e, (file, line)) /\
  (exists r, first_such (fun f => vf_is_exception f = true /\ vf_name f <> None) l r /\
     if found then e = exc else match r with Some f => vf_name f = Some e | None => e = exc end) /\
  ((exists k f, l = k ++ [f] /\ vf_file_name f = Some file /\ line = vf_file_line f) \/
   ((l = [] \/ exists k f, l = k ++ [f] /\ vf_file_name f = None) /\ file = L "<unknown>" /\ line = 0)).
Proof.
  induction l as [|f l IH]; intros exc found.
  - exists exc, (L "<unknown>"), 0. split; [reflexivity|]. split; [|right; auto]. exists None. split; [constructor|]. destruct found; reflexivity.
  - set (P := fun f : java_frame => vf_is_exception f = true /\ vf_name f <> None) in *.
    assert (Hx : exists e1 f1, match vf_name f with
                 | Some n => if vf_is_exception f && negb found then (n, true) else (exc, found)
                 | None => (exc, found) end = (e1, f1) /\
                ((found = true /\ e1 = exc /\ f1 = true) \/ (found = false /\ P f /\ vf_name f = Some e1 /\ f1 = true) \/
                 (found = false /\ ~ P f /\ e1 = exc /\ f1 = false))).
    { unfold P. destruct (vf_name f) as [n|] eqn:En; [|destruct found; do 2 eexists; (split; [reflexivity|]); [left|right; right]; intuition congruence].
      destruct (vf_is_exception f) eqn:Ei, found; cbn [andb negb]; do 2 eexists; (split; [reflexivity|]);
        [left; auto|right; left; intuition congruence|left; auto|right; right; intuition congruence]. }
    destruct Hx as (e1 & f1 & Ex & Hx). cbn [java_reason_loop]. rewrite Ex.
    assert (Hfirst : forall e r, first_such P l r -> (if f1 then e = e1 else match r with Some g => vf_name g = Some e | None => e = e1 end) ->
              exists r, first_such P (f :: l) r /\ (if found then e = exc else match r with Some g => vf_name g = Some e | None => e = exc end)).
    { intros e r Hr He. destruct Hx as [(-> & -> & ->)|[(-> & Pf & Hn & ->)|(-> & Pf & -> & ->)]].
      - subst e. destruct r as [g|].
        + assert (D : P f \/ ~ P f) by (unfold P; destruct (vf_is_exception f), (vf_name f); intuition congruence).
          destruct D as [D|D]; [exists (Some f); split; [exists [], l; repeat split; auto; apply D|reflexivity]|].
          destruct Hr as (pre & post & -> & Pg & Hg). exists (Some g). split; [exists (f :: pre), post; repeat split; auto; apply Pg|reflexivity].
        + assert (D : P f \/ ~ P f) by (unfold P; destruct (vf_is_exception f), (vf_name f); intuition congruence).
          destruct D as [D|D]; [exists (Some f); split; [exists [], l; repeat split; auto; apply D|reflexivity]|].
          exists None. split; [constructor; auto|reflexivity].
      - subst e. exists (Some f). split; [exists [], l; repeat split; auto; apply Pf|exact Hn].
      - exists r. split; [|exact He]. destruct r as [g|]; [|constructor; auto].
        destruct Hr as (pre & post & -> & Pg & Hg). exists (f :: pre), post. repeat split; auto; apply Pg. }
    destruct l as [|g l].
    + assert (Hl : exists file line, match vf_file_name f with Some file => (file, vf_file_line f) | None => (L "<unknown>", 0) end = (file, line) /\
               ((exists k h, [f] = k ++ [h] /\ vf_file_name h = Some file /\ line = vf_file_line h) \/
                (([f] = [] \/ exists k h, [f] = k ++ [h] /\ vf_file_name h = None) /\ file = L "<unknown>" /\ line = 0))).
      { destruct (vf_file_name f) as [file|] eqn:Ef; do 2 eexists; (split; [reflexivity|]).
        - left. exists [], f. auto.
        - right. split; [right; exists [], f; auto|auto]. }
      destruct Hl as (file & line & -> & Hl). exists e1, file, line. split; [reflexivity|]. split; [|exact Hl].
      apply (Hfirst e1 None); [constructor|]. destruct f1; reflexivity.
    + destruct (IH e1 f1) as (e & file & line & -> & (r & Hr & He) & Hl). exists e, file, line. split; [reflexivity|].
      split; [eapply Hfirst; eauto|]. destruct Hl as [(k & h & E & H)|[[E|(k & h & E & H)] H']].
      * left. exists (f :: k), h. split; [rewrite E; reflexivity|exact H].
      * discriminate.
      * right. split; [right; exists (f :: k), h; split; [rewrite E; reflexivity|exact H]|exact H'].
Qed.

Lemma kept_first {A} (P : A -> Prop) l r : kept P l r -> first_such P l (match r with [] => None | f :: _ => Some f end).
Proof.
  induction 1 as [|x a b Px K IH|x a b Px K IH].
  - constructor.
  - exists [], a. repeat split; auto.
  - destruct b as [|y b]; [constructor; auto|]. destruct IH as (pre & post & -> & Py & Hn). exists (x :: pre), post. repeat split; auto.
Qed.

Lemma reason_exists s : (forall g, s <> SGdb g) -> reason_defined s -> exists t, sr_stacktrace_get_reason s = Ok (Some t) /\ reason_says s t.
Proof.
  intros Hg Hd. destruct s as [s|s|s|s|s|s|s]; cbn [sr_stacktrace_get_reason reason_defined] in *.
  - eexists. split; reflexivity.
  - unfold python_reason. destruct (last_case (ps_frames s)) as [E|(k & f & E)].
    + rewrite E. cbn [last_of bind]. eexists. split; [reflexivity|]. cbn [reason_says]. do 3 eexists. split; [reflexivity|].
      split; [destruct (ps_exception_name s); auto|left; auto].
    + rewrite E, last_of_app. specialize (Hd _ _ E). destruct (pf_file_name f) as [file|] eqn:Ef; [|congruence]. cbn [percent_s bind].
      eexists. split; [reflexivity|]. cbn [reason_says]. do 3 eexists. split; [reflexivity|].
      split; [destruct (ps_exception_name s); auto|right; exists k, f; auto].
  - unfold koops_reason. destruct (koops_normalize_ok (ks_frames s)) as (m & r & Hc & -> & K). cbn [bind]. eexists. split; [reflexivity|].
    cbn [reason_says]. apply kept_first in K. exists m, (match r with [] => None | f :: _ => Some f end). split; [exact Hc|]. split; [exact K|].
    cbv zeta. eexists. split; [reflexivity|]. destruct (ks_reason s) as [w|]; [|reflexivity].
    destruct (NormModel.strstr w (L "general protection fault: ")) eqn:E1; [left; split; [apply has_infix_iff; exact E1|reflexivity]|].
    right. apply has_infix_false in E1. destruct (NormModel.strstr w (L "kernel paging request at")) eqn:E2.
    + left. apply has_infix_iff in E2. auto.
    + right. apply has_infix_false in E2. auto.
  - unfold java_reason. set (fr := match vs_threads s with [] => [] | t :: _ => vt_frames t end).
    destruct (java_loop_spec fr (L "<unknown>") false) as (e & file & line & El & Hr & Hl). cbv iota in Hr.
    replace (match vs_threads s with [] => (L "<unknown>", (L "<unknown>", 0)) | t :: _ => java_reason_loop (vt_frames t) (L "<unknown>") false end)
      with (java_reason_loop fr (L "<unknown>") false) by (unfold fr; destruct (vs_threads s); reflexivity).
    rewrite El. eexists. split; [reflexivity|]. cbn [reason_says]. exists e, file, line. split; [reflexivity|]. fold fr. auto.
  - exfalso. eapply Hg. reflexivity.
  - unfold ruby_reason. destruct (rs_frames s) as [|f k] eqn:E.
    + cbn [bind]. eexists. split; [reflexivity|]. cbn [reason_says]. do 3 eexists. split; [reflexivity|].
      split; [destruct (rs_exception_name s); auto|left; auto].
    + specialize (Hd _ _ eq_refl). destruct (rf_file_name f) as [file|] eqn:Ef; [|congruence]. cbn [percent_s bind].
      eexists. split; [reflexivity|]. cbn [reason_says]. do 3 eexists. split; [reflexivity|].
      split; [destruct (rs_exception_name s); auto|right; exists k, f; auto].
  - unfold js_reason. destruct (js_frames s) as [|f k] eqn:E.
    + cbn [bind]. eexists. split; [reflexivity|]. cbn [reason_says]. do 4 eexists. split; [reflexivity|].
      split; [destruct (js_exception_name s); auto|left; auto].
    + specialize (Hd _ _ eq_refl). destruct (jf_file_name f) as [file|] eqn:Ef; [|congruence]. cbn [percent_s bind].
      eexists. split; [reflexivity|]. cbn [reason_says]. do 4 eexists. split; [reflexivity|].
      split; [destruct (js_exception_name s); auto|right; exists k, f; auto].
Qed.

Lemma app_last_eq {A} (l k : list A) f g : l ++ [f] = k ++ [g] -> f = g.
Proof. intros E. apply app_inj_tail in E. apply E. Qed.
Lemma cut_names_unique l : forall m m', Forall2 cut_name l m -> Forall2 cut_name l m' -> m = m'.
Proof.
  induction l; intros m m' H H'; inversion H; inversion H'; subst; [reflexivity|]. f_equal; [eapply cut_name_unique; eauto|auto].
Qed.
Lemma reason_says_unique s t t' : reason_says s t -> reason_says s t' -> t = t'.
Proof.
  destruct s as [s|s|s|s|s|s|s]; cbn [reason_says].
  - congruence.
  - intros (e & f & l & -> & He & Hf) (e' & f' & l' & -> & He' & Hf').
    assert (e = e') by (destruct He as [?|[? ?]], He' as [?|[? ?]]; congruence). subst e'.
    assert (f = f' /\ l = l').
    { destruct Hf as [(E & -> & ->)|(k & g & E & Hg & ->)], Hf' as [(E' & -> & ->)|(k' & g' & E' & Hg' & ->)].
      - auto.
      - rewrite E in E'. destruct k'; discriminate.
      - rewrite E' in E. destruct k; discriminate.
      - rewrite E in E'. apply app_last_eq in E'. subst. split; congruence. }
    intuition congruence.
  - intros (m & r & Hm & Hr & w & -> & Hw) (m' & r' & Hm' & Hr' & w' & -> & Hw').
    assert (m = m') by (eapply cut_names_unique; eauto). subst m'. pose proof (first_such_unique _ _ _ _ Hr Hr'). subst r'. f_equal.
    destruct (ks_reason s); [intuition congruence|congruence].
  - intros (e & f & l & -> & (r & Hr & He) & Hf) (e' & f' & l' & -> & (r' & Hr' & He') & Hf').
    pose proof (first_such_unique _ _ _ _ Hr Hr'). subst r'.
    assert (e = e') by (destruct r; congruence). subst e'.
    set (fr := match vs_threads s with [] => [] | th :: _ => vt_frames th end) in *.
    assert (f = f' /\ l = l').
    { destruct Hf as [(k & g & E & Hg & ->)|[[E|(k & g & E & Hg)] [-> ->]]], Hf' as [(k' & g' & E' & Hg' & ->)|[[E'|(k' & g' & E' & Hg')] [-> ->]]];
        auto; rewrite E in E'; try (destruct k; discriminate); try (destruct k'; discriminate);
        apply app_last_eq in E'; subst; split; congruence. }
    intuition congruence.
  - tauto.
  - intros (e & f & l & -> & He & Hf) (e' & f' & l' & -> & He' & Hf').
    assert (e = e') by (destruct He as [?|[? ?]], He' as [?|[? ?]]; congruence). subst e'.
    assert (f = f' /\ l = l').
    { destruct Hf as [(E & -> & ->)|(k & g & E & Hg & ->)], Hf' as [(E' & -> & ->)|(k' & g' & E' & Hg' & ->)];
        auto; rewrite E in E'; try discriminate. injection E' as <- <-. split; congruence. }
    intuition congruence.
  - intros (e & f & l & c & -> & He & Hf) (e' & f' & l' & c' & -> & He' & Hf').
    assert (e = e') by (destruct He as [?|[? ?]], He' as [?|[? ?]]; congruence). subst e'.
    assert (f = f' /\ l = l' /\ c = c').
    { destruct Hf as [(E & -> & -> & ->)|(k & g & E & Hg & -> & ->)], Hf' as [(E' & -> & -> & ->)|(k' & g' & E' & Hg' & -> & ->)];
        auto; rewrite E in E'; try discriminate. injection E' as <- <-. split; [congruence|auto]. }
    intuition congruence.
Qed.
Lemma reason_undefined s : ~ reason_defined s -> sr_stacktrace_get_reason s = UB.
Proof.
  destruct s as [s|s|s|s|s|s|s]; cbn [sr_stacktrace_get_reason reason_defined]; intros H; try (exfalso; tauto).
  - unfold python_reason. destruct (last_case (ps_frames s)) as [E|(k & f & E)].
    + exfalso. apply H. intros l f E'. rewrite E in E'. destruct l; discriminate.
    + rewrite E, last_of_app. destruct (pf_file_name f) as [file|] eqn:Ef; [|reflexivity]. exfalso. apply H.
      intros l g E'. rewrite E in E'. apply app_last_eq in E'. congruence.
  - unfold ruby_reason. destruct (rs_frames s) as [|f k]; [exfalso; apply H; intros; discriminate|].
    destruct (rf_file_name f) as [file|] eqn:Ef; [|reflexivity]. exfalso. apply H. intros g l E'. injection E' as <- <-. congruence.
  - unfold js_reason. destruct (js_frames s) as [|f k]; [exfalso; apply H; intros; discriminate|].
    destruct (jf_file_name f) as [file|] eqn:Ef; [|reflexivity]. exfalso. apply H. intros g l E'. injection E' as <- <-. congruence.
Qed.
Lemma reason_defined_dec s : reason_defined s \/ ~ reason_defined s.
Proof.
  destruct s as [s|s|s|s|s|s|s]; cbn [reason_defined]; auto.
  - destruct (last_case (ps_frames s)) as [E|(k & f & E)].
    + left. intros l f E'. rewrite E in E'. destruct l; discriminate.
    + destruct (pf_file_name f) eqn:Ef; [left|right; intros H; apply (H _ _ E Ef)]. intros l0 g E'. rewrite E in E'. apply app_last_eq in E'. congruence.
  - destruct (rs_frames s) as [|f k]; [left; discriminate|]. destruct (rf_file_name f) eqn:Ef; [left|right; intros H; apply (H _ _ eq_refl Ef)].
    intros g l0 E'. injection E' as <- <-. congruence.
  - destruct (js_frames s) as [|f k]; [left; discriminate|]. destruct (jf_file_name f) eqn:Ef; [left|right; intros H; apply (H _ _ eq_refl Ef)].
    intros g l0 E'. injection E' as <- <-. congruence.
Qed.
Lemma reason_iff s t : sr_stacktrace_get_reason s = Ok (Some t) <-> reason_defined s /\ reason_says s t.
Proof.
  split.
  - intros H. destruct (reason_defined_dec s) as [D|D]; [|rewrite reason_undefined in H by exact D; discriminate]. split; [exact D|].
    destruct (reason_exists s) as (t' & E & S'); [intros g ->; discriminate H|exact D|]. congruence.
  - intros [D S']. destruct (reason_exists s) as (t' & E & S2); [intros g ->; exact S'|exact D|]. rewrite E. do 2 f_equal. eapply reason_says_unique; eauto.
Qed.
Lemma reason_UB_iff s : sr_stacktrace_get_reason s = UB <-> ~ reason_defined s.
Proof.
  split; [|apply reason_undefined]. intros H D. assert (G : forall g, s <> SGdb g) by (intros g ->; discriminate).
  destruct (reason_exists s G D) as (t & E & _). congruence.
Qed.
