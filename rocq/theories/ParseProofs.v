(** * Common lemmas about the parsing primitives. *)
From Verif Require Import Base UtilsSpec UtilsModel UtilsProofs ParseSpec ParseModel.
Open Scope nat_scope.

Lemma cspan_iff set s a b : sr_parse_char_cspan set s = Some (a, b) <-> s = a ++ b /\ a <> [] /\ without set a /\ stops_at set b.
Proof.
  pose proof (parse_cspan_contract set s) as H. split.
  - intros E. rewrite E in H. destruct H as [(-> & Hf & Hs) Hne]. repeat split; auto. destruct b as [|c b]; [exact Logic.I|]. cbn.
    destruct (in_dec ascii_dec c set); [assumption|contradiction].
  - intros (-> & Hne & Hw & Hs). destruct (sr_parse_char_cspan set (a ++ b)) as [[a' b']|] eqn:E.
    + destruct H as [H _]. assert (H' : max_run (fun c => ~ In c set) (a ++ b) a b).
      { split; [reflexivity|]. split; [exact Hw|]. destruct b; [exact Logic.I|]. cbn in Hs. tauto. }
      destruct (max_run_unique _ _ _ _ _ _ H H') as [-> ->]. reflexivity.
    + destruct H as (_ & _ & H). destruct a as [|c a]; [congruence|]. cbn in H. inversion Hw; contradiction.
Qed.
Lemma cspan_none set s : sr_parse_char_cspan set s = None <-> stops_at set s.
Proof.
  pose proof (parse_cspan_contract set s) as H. split.
  - intros E. rewrite E in H. destruct H as (_ & _ & H). destruct s as [|c s]; [exact Logic.I|]. cbn.
    destruct (in_dec ascii_dec c set); [assumption|contradiction].
  - intros Hs. destruct (sr_parse_char_cspan set s) as [[a b]|] eqn:E; [|reflexivity]. destruct H as [(-> & Hf & _) Hne].
    destruct a as [|c a]; [congruence|]. cbn in Hs. inversion Hf; contradiction.
Qed.
Lemma skip_cspan_iff set s n b : sr_skip_char_cspan set s = (n, b) <-> exists a, s = a ++ b /\ n = length a /\ without set a /\ stops_at set b.
Proof.
  split.
  - intros E. apply skip_cspan_contract in E as (a & (-> & Hf & Hs) & ->). exists a. repeat split; auto.
    destruct b as [|c b]; [exact Logic.I|]. cbn. destruct (in_dec ascii_dec c set); [assumption|contradiction].
  - intros (a & -> & -> & Hw & Hs). destruct (sr_skip_char_cspan set (a ++ b)) as [n b'] eqn:E. apply skip_cspan_contract in E as (a' & H & ->).
    assert (H' : max_run (fun c => ~ In c set) (a ++ b) a b).
    { split; [reflexivity|]. split; [exact Hw|]. destruct b; [exact Logic.I|]. cbn in Hs. tauto. }
    destruct (max_run_unique _ _ _ _ _ _ H H') as [-> ->]. reflexivity.
Qed.
Lemma skip_span_iff set s n b : sr_skip_char_span set s = (n, b) <->
  exists a, s = a ++ b /\ n = length a /\ Forall (fun c => In c set) a /\ match b with [] => True | c :: _ => ~ In c set end.
Proof.
  split.
  - intros E. apply skip_span_contract in E as (a & (-> & Hf & Hs) & ->). exists a. auto.
  - intros (a & -> & -> & Hw & Hs). destruct (sr_skip_char_span set (a ++ b)) as [n b'] eqn:E. apply skip_span_contract in E as (a' & H & ->).
    assert (H' : max_run (fun c => In c set) (a ++ b) a b) by (split; [reflexivity|auto]).
    destruct (max_run_unique _ _ _ _ _ _ H H') as [-> ->]. reflexivity.
Qed.
Lemma numeral_run s v : numeral decimal_digit 10 s v -> Forall (is_numeral_char decimal_digit) s /\ s <> [].
Proof.
  induction 1 as [c d Hd|s v c d Hn [IH1 IH2] Hd].
  - split; [|discriminate]. repeat constructor. unfold is_numeral_char. congruence.
  - split; [|destruct s; discriminate]. apply Forall_app. split; [exact IH1|]. repeat constructor. unfold is_numeral_char. congruence.
Qed.
Lemma uint32_iff s v n r : sr_parse_uint32 s = Some (v, n, r) <->
  exists run, s = run ++ r /\ number32 run v /\ n = length run /\ ~ starts_with_digit r.
Proof.
  pose proof (parse_uint32_correct s) as H. split.
  - intros E. rewrite E in H. destruct H as (run & (-> & Hf & Hs) & Hn & -> & Hv). exists run. repeat split; auto. destruct r as [|c r]; [auto|exact Hs].
  - intros (run & -> & [Hn Hv] & -> & Hs). destruct (numeral_run _ _ Hn) as [Hf _].
    assert (Hm : max_run (is_numeral_char decimal_digit) (run ++ r) run r).
    { split; [reflexivity|]. split; [exact Hf|]. destruct r as [|c r]; [exact Logic.I|exact Hs]. }
    destruct (sr_parse_uint32 (run ++ r)) as [[[v' n'] r']|].
    + destruct H as (run' & Hm' & Hn' & -> & _). destruct (max_run_unique _ _ _ _ _ _ Hm Hm') as [<- <-].
      rewrite (numeral_fun decimal_digit 10 digits10 digit_val_dec run v v' Hn Hn'). reflexivity.
    + exfalso. exact (H _ _ _ Hm Hn Hv).
Qed.
Lemma uint32_none s : sr_parse_uint32 s = None <-> forall run r v, s = run ++ r -> number32 run v -> starts_with_digit r.
Proof.
  split.
  - intros E run r v -> Hn. destruct (sr_parse_uint32 (run ++ r)) eqn:E'; [discriminate|].
    destruct r as [|c r].
    + assert (sr_parse_uint32 (run ++ []) = Some (v, length run, [])) by (apply uint32_iff; exists run; auto). congruence.
    + cbn. intros Hc. assert (sr_parse_uint32 (run ++ c :: r) = Some (v, length run, c :: r)); [|congruence].
      apply uint32_iff. exists run. repeat split; try apply Hn. cbn. intros H. contradiction.
  - intros H. destruct (sr_parse_uint32 s) as [[[v n] r]|] eqn:E; [|reflexivity]. apply uint32_iff in E as (run & -> & Hn & _ & Hs).
    exfalso. exact (Hs (H run r v eq_refl Hn)).
Qed.
Lemma skip_string_cases p s : (exists r, s = p ++ r /\ sr_skip_string p s = (length p, r)) \/ (~ begins p s /\ sr_skip_string p s = (0, s)).
Proof.
  destruct (sr_skip_string p s) as [n r] eqn:E. apply skip_string_contract in E as [[-> ->]|(-> & -> & H)].
  - left. eauto.
  - right. split; [|reflexivity]. intros [t ->]. exact (H t eq_refl).
Qed.
Lemma skip_char_cases c s : (exists r, s = c :: r /\ sr_skip_char c s = (true, r)) \/ (~ begins [c] s /\ sr_skip_char c s = (false, s)).
Proof.
  destruct (sr_skip_char c s) as [b r] eqn:E. apply skip_char_contract in E. destruct b.
  - left. exists r. subst s. auto.
  - destruct E as [-> H]. right. split; [|reflexivity]. intros [t ->]. destruct H as [H|(x & u & H & Hx)]; [discriminate|]. injection H as <- _. congruence.
Qed.
Lemma begins_dec p s : {begins p s} + {~ begins p s}.
Proof.
  destruct (starts_with p s) eqn:E; [left; apply starts_with_iff; exact E|]. right. intros H. apply starts_with_iff in H. congruence.
Qed.
Lemma anonymized_ok path : exists shown, anonymize_path (Some path) = Some shown /\ anonymized path shown.
Proof.
  destruct (anonymize_cases path) as [(u & r & Hu & ->)|H].
  - eexists. split; [apply anonymize_home; exact Hu|]. left. eauto.
  - eexists. split; [apply anonymize_other; exact H|]. right. split; [intros u r _; apply H|reflexivity].
Qed.
Lemma app_at_unique (a a' : str) c b b' : ~ In c a -> ~ In c a' -> a ++ c :: b = a' ++ c :: b' -> a = a' /\ b = b'.
Proof.
  revert a'. induction a as [|x a IH]; intros [|y a'] H H' E; cbn in E.
  - injection E as ->. auto.
  - injection E as -> _. exfalso. apply H'. left. reflexivity.
  - injection E as -> _. exfalso. apply H. left. reflexivity.
  - injection E as -> E. destruct (IH a') as [-> ->]; auto; intros Hx; [apply H|apply H']; right; exact Hx.
Qed.
Lemma anonymized_fun path a b : anonymized path a -> anonymized path b -> a = b.
Proof.
  intros [(u & r & Hu & E & ->)|[H ->]] [(u' & r' & Hu' & E' & ->)|[H' ->]].
  - rewrite E in E'. apply app_inv_head in E'. apply app_at_unique in E' as [_ ->]; auto.
  - exfalso. exact (H' u r Hu E).
  - exfalso. exact (H u' r' Hu' E').
  - reflexivity.
Qed.
Lemma anonymize_iff path shown : anonymize_path (Some path) = Some shown <-> anonymized path shown.
Proof.
  destruct (anonymized_ok path) as (x & E & H). rewrite E. split; [intros Hx; injection Hx as <-; exact H|].
  intros H'. f_equal. eapply anonymized_fun; eassumption.
Qed.
Lemma byte_at_app a b : byte_at (a ++ b) (length a) = Ok (cur b).
Proof.
  unfold byte_at. rewrite app_length. destruct (Nat.ltb_spec (length a + length b) (length a)); [lia|].
  rewrite app_nth2, Nat.sub_diag by lia. destruct b; reflexivity.
Qed.
Lemma firstn_app_exact {A} (a b : list A) : firstn (length a) (a ++ b) = a.
Proof. rewrite firstn_app, Nat.sub_diag, firstn_all. cbn. apply app_nil_r. Qed.
Lemma skipn_app_exact {A} (a b : list A) : skipn (length a) (a ++ b) = b.
Proof. rewrite skipn_app, Nat.sub_diag, skipn_all. reflexivity. Qed.
Lemma back_while_ok test pre post : exists a d, pre = a ++ d /\ Forall (fun c => test c = true) d /\
  (a = [] \/ exists a' c, a = a' ++ [c] /\ test c = false) /\ back_while test (pre ++ post) (length pre) = Ok (length a).
Proof.
  revert post. induction pre as [|c pre IH] using rev_ind; intros post.
  - exists [], []. repeat split; auto.
  - rewrite app_length, Nat.add_1_r. cbn [back_while].
    replace (byte_at ((pre ++ [c]) ++ post) (length pre)) with (Ok c) by (rewrite <- app_assoc; symmetry; apply byte_at_app). cbn [bind].
    destruct (test c) eqn:E.
    + destruct (IH (c :: post)) as (a & d & -> & Hd & Ha & Hr). exists a, (d ++ [c]). split; [rewrite app_assoc; reflexivity|].
      split; [apply Forall_app; auto|]. split; [exact Ha|]. rewrite <- (app_assoc (a ++ d)). exact Hr.
    + exists (pre ++ [c]), []. split; [rewrite app_nil_r; reflexivity|]. split; [constructor|]. split; [right; eauto|]. rewrite app_length, Nat.add_1_r. reflexivity.
Qed.
Lemma is_digit_iff c : is_digit c = true <-> decimal_digit c <> None.
Proof. destruct c as [[] [] [] [] [] [] [] []]; split; intros H; try reflexivity; try discriminate; exfalso; apply H; reflexivity. Qed.
Lemma is_digit_false c : is_digit c = false <-> decimal_digit c = None.
Proof. pose proof (is_digit_iff c). destruct (is_digit c), (decimal_digit c); intuition congruence. Qed.
Lemma ok_inj {A} (a b : A) : Ok a = Ok b -> a = b.
Proof. congruence. Qed.
