(** * Proofs about the Java locations: the whole. *)
From Verif Require Import Base Types UtilsSpec UtilsModel UtilsProofs JsonModel RpmSpec RpmProofs ParseSpec ParseModel ParseProofs RubyParseProofs JsParseProofs PyParseSpec PyParseProofs JavaParseModel JavaParseSpec JavaParseProofs JavaParseProofs2 JavaParseProofs3 LocParseModel LocParseSpec LocParseProofs LocParseProofs5 JavaLocModel JavaLocSpec JavaLocProofs JavaLocProofs2 JavaLocProofs3 JavaLocProofs4.
Open Scope nat_scope.

(** ** A wrong text goes wrong in one place *)
Definition stuck (q suf : str) : Prop := q <> [] /\ past_blanks q suf /\ ~ begins (L "... ") suf /\ ~ begins (L "Suppressed: ") suf /\ ~ begins (L "Caused by: ") suf /\ forall r, ~ first_at (L "at") suf r.
Lemma past_blanks_fun s r r' : past_blanks s r -> past_blanks s r' -> r = r'.
Proof. rewrite !past_blanks_eval. congruence. Qed.
Lemma frame_fun s f q f' q' : java_frame_text s f q -> java_frame_text s f' q' -> f = f' /\ q = q'.
Proof. rewrite <- !java_frame_iff. intros H H'. rewrite H in H'. injection H' as -> ->. auto. Qed.
Lemma stuck_no_frame suf f q : (forall r, ~ first_at (L "at") suf r) -> ~ java_frame_text suf f q.
Proof. intros H (r & x & y & Hf & _). exact (H _ Hf). Qed.
Lemma run_fun s fs q suf : java_run s fs q -> stuck q suf -> forall fs' q' suf', java_run s fs' q' -> stuck q' suf' -> q = q'.
Proof.
  induction 1 as [s|s r f q fs rest Hne Hb N1 N2 N3 Hf Hr IH]; intros St fs' q' suf' R' St'.
  - inversion R' as [|? r' f' q2 fs2 rest2 Hne' Hb' M1 M2 M3 Hf' Hr']; subst; [reflexivity|]. destruct St as (_ & Hb & _ & _ & _ & Hn). rewrite (past_blanks_fun _ _ _ Hb' Hb) in Hf'. destruct (stuck_no_frame _ _ _ Hn Hf').
  - inversion R' as [|? r' f' q2 fs2 rest2 Hne' Hb' M1 M2 M3 Hf' Hr']; subst.
    + destruct St' as (_ & Hb' & _ & _ & _ & Hn). rewrite (past_blanks_fun _ _ _ Hb Hb') in Hf. destruct (stuck_no_frame _ _ _ Hn Hf).
    + rewrite (past_blanks_fun _ _ _ Hb' Hb) in Hf'. destruct (frame_fun _ _ _ _ _ Hf Hf') as [-> ->]. exact (IH St _ _ _ Hr' St').
Qed.
Lemma run_not_lines s fs q suf : java_run s fs q -> stuck q suf -> forall fs' next, ~ java_lines s fs' next.
Proof.
  induction 1 as [s|s r f q fs rest Hne Hb N1 N2 N3 Hf Hr IH]; intros St fs' next Hl.
  - destruct St as (Hne & Hb & N1 & N2 & N3 & Hn). inversion Hl as [|? r' f' q2 fs2 next2 _ Hb' M1 M2 M3 Hf' Hl'|? r' _ Hb' M|? r' _ Hb']; subst.
    + exact (Hne eq_refl).
    + rewrite (past_blanks_fun _ _ _ Hb' Hb) in Hf'. exact (stuck_no_frame _ _ _ Hn Hf').
    + rewrite (past_blanks_fun _ _ _ Hb' Hb) in M. tauto.
    + rewrite <- (past_blanks_fun _ _ _ Hb' Hb) in N3. apply N3. eexists. reflexivity.
  - inversion Hl as [|? r' f' q2 fs2 next2 _ Hb' M1 M2 M3 Hf' Hl'|? r' _ Hb' M|? r' _ Hb']; subst.
    + exact (Hne eq_refl).
    + rewrite (past_blanks_fun _ _ _ Hb' Hb) in Hf'. destruct (frame_fun _ _ _ _ _ Hf Hf') as [-> ->]. exact (IH St _ _ Hl').
    + rewrite (past_blanks_fun _ _ _ Hb' Hb) in M. tauto.
    + rewrite <- (past_blanks_fun _ _ _ Hb' Hb) in N3. apply N3. eexists. reflexivity.
Qed.
Lemma lines_fun s fs next fs' next' : java_lines s fs next -> java_lines s fs' next' -> fs = fs' /\ next = next'.
Proof.
  intros H H'. pose proof (lines_eval _ _ _ H (S (length s)) ltac:(lia)) as E. rewrite (lines_eval _ _ _ H' (S (length s)) ltac:(lia)) in E.
  assert (Q : (fs', fst (how_of next'), snd (how_of next')) = (fs, fst (how_of next), snd (how_of next))) by congruence. clear E. apply pair_equal_spec in Q as [Q Qs]. apply pair_equal_spec in Q as [-> Qh]. split; [reflexivity|].
  destruct next, next'; cbn [how_of fst snd] in *; try discriminate; try congruence. apply app_inv_head in Qs. congruence.
Qed.
Lemma after_fun s r r' : java_after s r -> java_after s r' -> r = r'.
Proof.
  intros (l & q & Hn & Hb & H) (l' & q' & Hn' & Hb' & H'). rewrite next_line_eval in Hn, Hn'. rewrite Hn in Hn'. subst l'. rewrite (past_blanks_fun _ _ _ Hb' Hb) in *. clear Hb Hb' q'.
  destruct H as [[H ->]|[H (l2 & Hn2 & Hi)]], H' as [[H' ->]|[H' (l2' & Hn2' & Hi')]]; try tauto. rewrite next_line_eval in Hn2, Hn2'. rewrite Hn2 in Hn2'. subst l2'.
  pose proof (indented_eval _ _ Hi (S (length l2)) ltac:(lia)) as E. rewrite (indented_eval _ _ Hi' (S (length l2)) ltac:(lia)) in E. congruence.
Qed.
Lemma head_not_bad s suf name m body : past_blanks s suf -> (suf = [] \/ begins (L ":") suf) -> ~ java_head s name m body.
Proof.
  intros Hb H (r & after & Hb' & E & Hne & Hw & _). rewrite (past_blanks_fun _ _ _ Hb' Hb) in E. subst suf. destruct name as [|x name]; [exact (Hne eq_refl)|]. destruct H as [H|[z H]]; [discriminate|]. injection H as -> _.
  apply (without_In _ _ Hw ":"%char); left; reflexivity.
Qed.
Lemma wrong_fun why s suf : java_exception_wrong why s suf -> forall why' suf', java_exception_wrong why' s suf' -> why = why' /\ suf = suf'.
Proof.
  induction 1 as [s suf Hb H|s name m body fs q suf Hh R Hq Hb N1 N2 N3 Nf|why s name m body fs r q suf Hh Hl Ha W IH|why s name m body fs r suf Hh Hl W IH]; intros why' suf' H';
  inversion H' as [? ? Hb' X|? name' m' body' fs' q' ? Hh' R' Hq' Hb' N1' N2' N3' Nf'|? ? name' m' body' fs' r' q' ? Hh' Hl' Ha' W'|? ? name' m' body' fs' r' ? Hh' Hl' W']; subst;
  try (destruct (head_not_bad _ _ _ _ _ Hb H Hh')); try (destruct (head_not_bad _ _ _ _ _ Hb' X Hh));
  try (destruct (head_fun _ _ _ _ _ _ _ Hh Hh') as (<- & <- & <-); clear Hh').
  - split; [reflexivity|]. exact (past_blanks_fun _ _ _ Hb Hb').
  - split; [reflexivity|]. assert (q = q') by (eapply (run_fun body fs q suf R); [split; auto|exact R'|split; eauto]). subst q'. exact (past_blanks_fun _ _ _ Hb Hb').
  - exfalso. eapply (run_not_lines _ _ _ suf R); [split; auto|exact Hl'].
  - exfalso. eapply (run_not_lines _ _ _ suf R); [split; auto|exact Hl'].
  - exfalso. eapply (run_not_lines _ _ _ suf' R'); [split; auto|exact Hl].
  - destruct (lines_fun _ _ _ _ _ Hl Hl') as [_ E]. injection E as <-. pose proof (after_fun _ _ _ Ha Ha') as E. apply app_inv_head in E. subst q'. exact (IH _ _ W').
  - destruct (lines_fun _ _ _ _ _ Hl Hl') as [_ E]. discriminate.
  - exfalso. eapply (run_not_lines _ _ _ suf' R'); [split; auto|exact Hl].
  - destruct (lines_fun _ _ _ _ _ Hl Hl') as [_ E]. discriminate.
  - destruct (lines_fun _ _ _ _ _ Hl Hl') as [_ E]. injection E as <-. exact (IH _ _ W').
Qed.
Lemma wrong_refused why s suf : java_exception_wrong why s suf -> forall fs rest, ~ java_exception s fs rest.
Proof.
  induction 1 as [s suf Hb H|s name m body fs q suf Hh R Hq Hb N1 N2 N3 Nf|why s name m body fs r q suf Hh Hl Ha W IH|why s name m body fs r suf Hh Hl W IH]; intros fs' rest E;
  inversion E as [? name' m' body' fs2 Hh' Hl'|? name' m' body' fs2 r' q' Hh' Hl' Ha' N'|? name' m' body' fs2 r' q' inner ? Hh' Hl' Ha' E'|? name' m' body' fs2 r' inner ? Hh' Hl' E']; subst;
  try (exact (head_not_bad _ _ _ _ _ Hb H Hh'));
  try (destruct (head_fun _ _ _ _ _ _ _ Hh Hh') as (<- & <- & <-); clear Hh');
  try (eapply (run_not_lines _ _ _ suf R); [split; auto|exact Hl']; fail);
  destruct (lines_fun _ _ _ _ _ Hl Hl') as [_ Q]; try discriminate; injection Q as <-.
  - apply N'. rewrite (after_fun _ _ _ Ha' Ha). eexists. reflexivity.
  - pose proof (after_fun _ _ _ Ha Ha') as Q. apply app_inv_head in Q. subst q'. exact (IH _ _ E').
  - exact (IH _ _ E').
Qed.
Lemma mark_split name name' s s' : without [dquote; nl] name -> without [dquote; nl] name' -> stops_at [dquote; nl] s -> stops_at [dquote; nl] s' -> thread_mark ++ name ++ s = thread_mark ++ name' ++ s' -> name = name' /\ s = s'.
Proof.
  intros H H' Hs Hs' E. apply app_inv_head in E. pose proof (skip_cspan_val _ _ _ H Hs) as V. rewrite E, (skip_cspan_val _ _ _ H' Hs') in V. injection V as _ ->. apply app_inv_tail in E. auto.
Qed.
Lemma stops_nl s : stops_at [nl] s -> stops_at [dquote; nl] s.
Proof. destruct s; cbn; tauto. Qed.
Lemma wrong_cases why s suf : java_wrong why s suf ->
  (exists name, why = L """Thread"" name end expected" /\ s = thread_mark ++ name ++ suf /\ without [dquote; nl] name /\ stops_at [nl] suf) \/
  (exists name q, s = thread_mark ++ name ++ dquote :: q /\ without [dquote; nl] name /\ java_exception_wrong why q suf) \/
  (~ begins thread_mark s /\ java_exception_wrong why s suf).
Proof. intros H. destruct H; eauto 10. Qed.
Theorem java_wrong_fun why s suf why' suf' : java_wrong why s suf -> java_wrong why' s suf' -> why = why' /\ suf = suf'.
Proof.
  intros H H'. apply wrong_cases in H, H'. destruct H as [(name & -> & -> & Hw & Hs)|[(name & q & -> & Hw & W)|[Hn W]]], H' as [(name' & -> & E & Hw' & Hs')|[(name' & q' & E & Hw' & W')|[Hn' W']]];
  try (exfalso; apply Hn'; eexists; reflexivity); try (exfalso; apply Hn; rewrite E; eexists; reflexivity); try (apply mark_split in E; auto using stops_nl; try (left; reflexivity); destruct E as [_ E]).
  - auto.
  - subst suf. destruct Hs as [Hs|[]]. discriminate.
  - subst suf'. destruct Hs' as [Hs'|[]]. discriminate.
  - injection E as ->. exact (wrong_fun _ _ _ W _ _ W').
  - exact (wrong_fun _ _ _ W _ _ W').
Qed.
Theorem java_wrong_refused why s suf : java_wrong why s suf -> forall t rest, ~ java_thread_text s t rest.
Proof.
  intros H t rest Ht. apply wrong_cases in H. destruct H as [(name & -> & -> & Hw & Hs)|[(name & q & -> & Hw & W)|[Hn W]]], Ht as [(name' & r & fs & E & Hw' & X & _)|[N (fs & X & _)]];
  try (apply N; eexists; reflexivity); try (apply Hn; rewrite E; eexists; reflexivity); try (apply mark_split in E; auto using stops_nl; try (left; reflexivity); destruct E as [_ E]).
  - subst suf. destruct Hs as [Hs|[]]. discriminate.
  - injection E as ->. exact (wrong_refused _ _ _ W _ _ X).
  - exact (wrong_refused _ _ _ W _ _ X).
Qed.
(** ** The stack trace *)
Theorem java_loc text : match java_stacktrace_loc text sr_location_init with
  | Took (t, rest) l => (exists th, t = mk_java_stacktrace [th] /\ java_thread_text text th rest) /\
      exists pre short, text = pre ++ rest /\ counted text pre (line l) (column l + short) /\ (short = 0 \/ (short = 1 /\ rest = []))%Z
  | Refused l => exists why pre suf, text = pre ++ suf /\ java_wrong why text suf /\ counted text pre (line l) (column l) /\ message l = Some why
  | Broken => False
  end.
Proof.
  unfold java_stacktrace_loc. pose proof (thread_place text) as H. pose proof (forget_java_thread text sr_location_init) as F.
  destruct (java_thread_loc text sr_location_init) as [[t rest] l|l|]; cbn [and_then]; [| |exact H].
  - split; [exists t; split; [reflexivity|]; apply java_thread_iff; symmetry; exact F|]. destruct H as [(p & E & C)|[-> (p & E & C)]].
    + exists p, 0%Z. rewrite Z.add_0_r. auto.
    + exists p, 1%Z. auto.
  - destruct H as (why & suf & W & (p & E & C) & M). exists why, p, suf. auto.
Qed.
Lemma java_not_UB text : sr_java_stacktrace_parse text <> UB.
Proof. unfold sr_java_stacktrace_parse. pose proof (java_thread_not_UB text). destruct (sr_java_thread_parse text) as [[t r]| |]; cbn; congruence. Qed.
Theorem java_total text : (exists th rest, parse_wrapper java_stacktrace_loc text = Ok (inl (mk_java_stacktrace [th])) /\ java_thread_text text th rest /\ forall why suf, ~ java_wrong why text suf) \/
  (exists m why suf, parse_wrapper java_stacktrace_loc text = Ok (inr m) /\ java_wrong why text suf /\ forall th rest, ~ java_thread_text text th rest).
Proof.
  unfold parse_wrapper. pose proof (java_loc text) as H. destruct (java_stacktrace_loc text sr_location_init) as [[t rest] l|l|]; [left|right|destruct H].
  - destruct H as [(th & -> & Ht) _]. exists th, rest. split; [reflexivity|]. split; [exact Ht|]. intros why suf W. exact (java_wrong_refused _ _ _ W _ _ Ht).
  - destruct H as (why & pre & suf & _ & W & _). exists (sr_location_to_string l), why, suf. split; [reflexivity|]. split; [exact W|]. exact (java_wrong_refused _ _ _ W).
Qed.
Theorem java_told text m : parse_wrapper java_stacktrace_loc text = Ok (inr m) ->
  exists why pre suf ln col, text = pre ++ suf /\ java_wrong why text suf /\ counted text pre ln col /\ m = L "Line " ++ print_Z ln ++ L ", column " ++ print_Z col ++ L ": " ++ why.
Proof.
  unfold parse_wrapper. pose proof (java_loc text) as H. destruct (java_stacktrace_loc text sr_location_init) as [[t rest] l|l|]; [discriminate| |discriminate].
  intros E. injection E as <-. destruct H as (why & pre & suf & E & W & C & M). exists why, pre, suf, (line l), (column l). split; [exact E|]. split; [exact W|]. split; [exact C|]. unfold sr_location_to_string. rewrite M. reflexivity.
Qed.
(** ** Places in plain texts *)
Theorem counted_plain text : plain_lines text -> forall pre ln col, counted text pre ln col -> forall suf, text = pre ++ suf -> pos_of pre ln col.
Proof.
  intros Hp pre ln col H. induction H as [|p c ln col C IH Hc|p ln col C IH|p ln col C IH B|p rest ln col C IH Et]; intros suf E.
  - exact (eat_all_pos []).
  - rewrite <- app_assoc in E. pose proof (pos_of_app_char _ _ _ c (IH _ E)) as G. unfold loc_eat_char in G. destruct (Ascii.eqb_spec c nl); [contradiction|]. exact G.
  - rewrite <- app_assoc in E. exact (pos_of_app_char _ _ _ nl (IH _ E)).
  - rewrite <- app_assoc in E. destruct (Hp p suf E B).
  - exfalso. apply (Hp (p ++ [dquote]) rest); [rewrite <- app_assoc; exact Et|]. right. right. right. left. exists p. reflexivity.
Qed.
(** ** A blank line at the end *)
Lemma run_shown fs texts tail : Forall2 java_shows fs texts -> java_run (concat (map (fun t => t ++ [nl]) texts) ++ tail) fs tail.
Proof.
  intros H. induction H as [|f t fs ts Hf _ IH]; [constructor|]. cbn [map concat]. rewrite <- !app_assoc. cbn [app].
  destruct (shows_frame f t (concat (map (fun t => t ++ [nl]) ts) ++ tail) Hf) as (_ & r & Hb & [z Ez] & Hr).
  eapply jr_cons; [destruct t; discriminate|exact Hb| | | |exact Hr|exact IH]; rewrite Ez; intros [w Ew]; discriminate Ew.
Qed.
Theorem trailing_blank k ws : link_ok java_shows k -> jk_elision k = [] -> ws <> [] -> blank ws -> exists m, parse_wrapper java_stacktrace_loc (link_text k ++ ws) = Ok (inr m) /\ java_wrong (L "Frame expected") (link_text k ++ ws) [].
Proof.
  intros Hk He Hne Hb.
  assert (W : java_wrong (L "Frame expected") (link_text k ++ ws) []).
  { assert (E : link_text k ++ ws = jk_name k ++ match jk_message k with Some m => L ": " ++ m | None => [] end ++ [nl] ++ concat (map (fun t => t ++ [nl]) (jk_texts k)) ++ ws).
    { unfold link_text. rewrite He, app_nil_r, <- !app_assoc. reflexivity. }
    apply jt_bare.
    - intros [z Ez]. pose proof Hk as (Hnn & Hw & _).
      assert (Hstop : exists c q, link_text k ++ ws = jk_name k ++ c :: q /\ (c = ":"%char \/ c = nl)). { rewrite E. destruct (jk_message k) as [m|]; eexists; eexists; (split; [reflexivity|]); auto. }
      destruct Hstop as (c & q & E2 & Hc). rewrite E2 in Ez. assert (Hq : stops_at (L ": " ++ [tab; nl]) (c :: q)) by (destruct Hc as [->| ->]; cbn; auto).
      pose proof (skip_cspan_val _ _ _ Hw Hq) as E3. rewrite Ez in E3. assert (E4 : sr_skip_char_cspan (L ": " ++ [tab; nl]) (thread_mark ++ z) = (length (L "Exception"), L " in thread """ ++ z)).
      { change (thread_mark ++ z) with (L "Exception" ++ L " in thread """ ++ z). apply skip_cspan_val; [repeat (apply Forall_cons; [cbn; intuition discriminate|]); apply Forall_nil|cbn; auto]. }
      rewrite E4 in E3. apply (f_equal (fun x => cur (snd x))) in E3. cbn in E3. destruct Hc as [->| ->]; discriminate E3.
    - rewrite E. eapply jx_frame; [apply head_shown; exact Hk|apply run_shown; apply Hk|exact Hne|exists ws; split; [symmetry; apply app_nil_r|split; [exact Hb|exact Logic.I]]| | | |];
        try (intros [z Ez]; discriminate Ez). intros r (a & Ea & [z ->] & _). destruct a; discriminate Ea. }
  destruct (java_total (link_text k ++ ws)) as [(th & rest & _ & _ & N)|(m & why & suf & E & _)]; [destruct (N _ _ W)|]. exists m. split; assumption.
Qed.
(** ** A frame *)
Theorem java_frame_where text p s l : text = p ++ s -> counted text p (line l) (column l) -> match java_frame_loc s l with
  | Took (f, rest) l' => java_frame_text s f rest /\ message l' = message l /\
      exists pre, text = pre ++ rest /\ (counted text pre (line l') (column l') \/ (rest = [] /\ counted text pre (line l') (column l' + 1)))
  | Refused l' => l' = mk_location (line l) (column l) (Some (L "Frame expected")) /\ forall f rest, ~ java_frame_text s f rest
  | Broken => False
  end.
Proof.
  intros E C. assert (A : at_ text s l) by (exists p; auto). pose proof (frame_place text s l A) as H. pose proof (forget_java_frame s l) as F. pose proof (java_frame_not_UB s) as NU.
  destruct (java_frame_loc s l) as [[f rest] l'|l'|]; cbn [forget] in F; [| |congruence].
  - split; [apply java_frame_iff; symmetry; exact F|]. destruct H as [M [(q & Eq & Cq & _)|[-> (q & Eq & Cq)]]]; (split; [exact M|]); exists q; auto.
  - destruct H as [-> H]. split; [reflexivity|]. intros f rest. apply stuck_no_frame. exact H.
Qed.
