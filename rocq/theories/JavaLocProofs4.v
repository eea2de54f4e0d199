(** * Proofs about the Java locations: exceptions and threads. *)
From Verif Require Import Base Types UtilsSpec UtilsModel UtilsProofs RpmSpec RpmProofs ParseSpec ParseModel ParseProofs RubyParseProofs JsParseProofs PyParseSpec PyParseProofs JavaParseModel JavaParseSpec JavaParseProofs JavaParseProofs2 LocParseModel LocParseSpec LocParseProofs JavaLocModel JavaLocSpec JavaLocProofs JavaLocProofs2 JavaLocProofs3.
Open Scope nat_scope.

Lemma head_place text s l : at_b text s l -> match java_head_loc s l with
  | Took (_, body) l' => ok_at text body l'
  | Refused l' => exists suf, past_blanks s suf /\ (suf = [] \/ begins (L ":") suf) /\ at_ text suf l' /\ message l' = Some (L "Expected exception name")
  | Broken => True
  end.
Proof.
  intros H. unfold java_head_loc. destruct (white_at _ _ _ H) as (m & l1 & Ew & Hb & A & _). rewrite Ew. cbv beta iota. take_until c l2. assert (A2 := at_track _ _ _ _ _ A T).
  destruct (length m =? length c) eqn:El.
  { apply Nat.eqb_eq in El. subst m. rewrite app_length in El. destruct u as [|x u]; [|cbn in El; lia]. cbn [app] in *. exists c. split; [exact Hb|]. split; [|split; [exact A2|reflexivity]].
    destruct c as [|x c]; [left; reflexivity|right]. destruct Hb as (ws & _ & _ & Hx). cbn in St, Hx. destruct St as [<-|St]; [exists c; reflexivity|]. exfalso. apply Hx. unfold space_char.
    destruct St as [<-|[<-|[<-|[]]]]; cbn; auto 10. }
  assert (G : match (if Ascii.eqb (cur c) ":" then
       past c l2 (fun cursor l =>
       let '(mark, l) := white cursor l in
       let '(cursor, l) := until [nl] mark l in
       Took (if length mark =? length cursor then None else Some (between mark cursor), cursor) l)
     else let '(cursor, l) := until [nl] c l2 in Took (None, cursor) l) with
    Took (_, c') l' => at_ text c' l' /\ stops_at [nl] c' | Refused _ => False | Broken => True end).
  { destruct (Ascii.eqb (cur c) ":") eqn:B.
    - apply cur_cons in B as [r ->]; [|discriminate]. rewrite past_eq. cbv beta zeta.
      assert (A3 : at_b text r (columns l2 1)).
      { destruct A2 as (p & E2 & C). exists (p ++ L ":"). split; [rewrite <- app_assoc; exact E2|]. split; [|right; right; left; exists p; reflexivity]. apply (counted_line text (L ":") p _ _ C). cbn. intros [X|[]]. discriminate. }
      destruct (white_at _ _ _ A3) as (m2 & l3 & Ew2 & _ & A4 & _). rewrite Ew2. cbv beta iota. take_until c4 l4. split; [exact (at_track _ _ _ _ _ A4 T0)|exact St0].
    - take_until c4 l4. split; [exact (at_track _ _ _ _ _ A2 T0)|exact St0]. }
  destruct (if Ascii.eqb (cur c) ":" then _ else _) as [[msg c'] l'|l'|]; cbn [and_then]; [|destruct G|exact Logic.I]. destruct G as [A3 Sc]. destruct c' as [|x c'].
  - change (Ascii.eqb (cur []) nl) with false. cbv iota. right. split; [reflexivity|]. left. exact A3.
  - destruct Sc as [<-|[]]. change (Ascii.eqb (cur (nl :: c')) nl) with true. cbn [advance see]. left. apply newline_at. exact A3.
Qed.
Lemma next_line_place text s l : at_ text s l -> exists s' l', to_next_line s l = (s', l') /\ ok_at text s' l'.
Proof.
  intros (p & E & C). unfold to_next_line, sr_skip_to_next_line_location. destruct (sr_skip_char_cspan [nl] s) as [n b] eqn:Es. apply skip_cspan_iff in Es as (a & -> & -> & Ha & Hb).
  assert (Na : ~ In nl a) by (intros Hi; apply (without_In _ _ Ha _ Hi); left; reflexivity).
  assert (C2 := counted_line text a p _ _ C Na). cbn [fst snd]. destruct b as [|x b].
  - eexists _, _. split; [reflexivity|]. right. split; [reflexivity|]. left. exists (p ++ a). split; [rewrite <- app_assoc; exact E|exact C2].
  - destruct Hb as [<-|[]]. change (Ascii.eqb nl nl) with true. eexists _, _. split; [reflexivity|].
    pose proof (newline_at text b (mk_location (line l) (column l + Z.of_nat (length a)) (message l))) as N. left. apply N. exists (p ++ a). split; [rewrite <- app_assoc; exact E|exact C2].
Qed.
Lemma white_near text s l : ok_at text s l -> exists r l', white s l = (r, l') /\ past_blanks s r /\ near text r l'.
Proof.
  intros [H|[-> H]].
  - destruct (white_at _ _ _ H) as (r & l' & E & Hb & A & _). exists r, l'. split; [exact E|]. split; [exact Hb|left; exact A].
  - exists [], (columns l 0). split; [reflexivity|]. split; [exists []; repeat split; constructor|]. rewrite columns_0. exact H.
Qed.
Lemma near_at text s l : near text s l -> s <> [] -> at_ text s l.
Proof. intros [H|[-> _]] N; [exact H|destruct (N eq_refl)]. Qed.
Lemma indented_place text fuel : forall s l, near text s l -> match skip_indented_loc fuel s l with Took s' l' => near text s' l' | Refused _ => False | Broken => True end.
Proof.
  induction fuel as [|fuel IH]; intros s l H; [exact Logic.I|]. cbn [skip_indented_loc]. destruct (is_space (cur s)) eqn:B; [|exact H].
  assert (N : s <> []) by (intros ->; discriminate). destruct (next_line_place _ _ _ (near_at _ _ _ H N)) as (s' & l' & E & O). rewrite E. apply IH. apply ok_near. exact O.
Qed.
Lemma caused_place text q l : near text (L "Caused by: " ++ q) l -> past_caused_by (L "Caused by: " ++ q) l = Took (Some q, q) (columns l 11) /\ at_b text q (columns l 11).
Proof.
  intros H. apply near_at in H; [|discriminate]. split.
  - unfold past_caused_by. rewrite (advance_by_app (L "Caused by: ") q : advance_by 11 _ = Ok q). reflexivity.
  - destruct H as (p & E & C). exists (p ++ L "Caused by: "). split; [rewrite <- app_assoc; exact E|]. split.
    + apply (counted_line text (L "Caused by: ") p _ _ C). cbn. intuition discriminate.
    + right. right. right. right. exists sp. split; [unfold space_char; cbn; auto 10|]. exists (p ++ L "Caused by:"). rewrite <- app_assoc. reflexivity.
Qed.
Lemma after_place text s l : at_ text s l -> match after_exception_loc s l with
  | Took (Some q, _) l' => at_b text q l' /\ java_after s (L "Caused by: " ++ q)
  | Took (None, q) l' => near text q l'
  | Refused _ => False
  | Broken => True
  end.
Proof.
  intros H. pose proof (forget_after s l) as Hf. unfold after_exception_loc in *. destruct (next_line_place _ _ _ H) as (s1 & l1 & E1 & O1). rewrite E1 in *. destruct (white_near _ _ _ O1) as (s2 & l2 & E2 & _ & N2). rewrite E2 in *.
  assert (G : match (if starts_with (L "Suppressed: ") s2 then let '(s, l) := to_next_line s2 l2 in skip_indented_loc (S (length s)) s l else Took s2 l2) with
    Took s' l' => near text s' l' | Refused _ => False | Broken => True end).
  { destruct (starts_with (L "Suppressed: ") s2) eqn:B; [|exact N2]. assert (Ne : s2 <> []) by (intros ->; discriminate).
    destruct (next_line_place _ _ _ (near_at _ _ _ N2 Ne)) as (s3 & l3 & E3 & O3). rewrite E3. apply indented_place. apply ok_near. exact O3. }
  destruct (if starts_with (L "Suppressed: ") s2 then _ else _) as [s3 l3|l3|]; cbn [and_then] in *; [|destruct G|exact Logic.I].
  destruct (starts_with (L "Caused by: ") s3) eqn:B; [|exact G]. assert (Bg : begins (L "Caused by: ") s3).
  { destruct (begins_dec (L "Caused by: ") s3) as [X|X]; [exact X|]. apply starts_false in X. congruence. }
  destruct Bg as [q ->]. destruct (caused_place _ _ _ G) as [Eq Aq]. rewrite Eq in *. split; [exact Aq|]. cbn [forget] in Hf. destruct (after_total s) as [r Hr]. pose proof (after_eval _ _ Hr) as Ev. rewrite <- Hf in Ev.
  destruct (starts_with (L "Caused by: ") r) eqn:B2; [|discriminate]. destruct (begins_dec (L "Caused by: ") r) as [[z ->]|X]; [|apply starts_false in X; congruence].
  rewrite (advance_by_app (L "Caused by: ") z : advance_by 11 _ = Ok z) in Ev. cbn [bind] in Ev. assert (z = q) by congruence. subst z. exact Hr.
Qed.
Lemma exception_place text fuel : forall s l, at_b text s l -> match java_exception_loc fuel s l with
  | Took (_, rest) l' => near text rest l'
  | Refused l' => exists why suf, java_exception_wrong why s suf /\ at_ text suf l' /\ message l' = Some why
  | Broken => True
  end.
Proof.
  induction fuel as [|fuel IH]; intros s l H; [exact Logic.I|]. cbn [java_exception_loc]. pose proof (head_place text s l H) as P. pose proof (forget_head s l) as F.
  destruct (java_head_loc s l) as [[[name m] body] l1|l1|]; cbn [and_then]; [| |exact Logic.I].
  2:{ destruct P as (suf & Hb & Hs & A & M). exists (L "Expected exception name"), suf. split; [apply jx_name; assumption|]. split; assumption. }
  assert (Hh : java_head s name m body). { destruct (head_cases s) as [(n' & m' & b' & X & Y)|Y]; rewrite Y in F; cbn [forget] in F; [|discriminate]. injection F as <- <- <-. exact X. }
  cbv zeta. pose proof (lines_place text (S (length body)) body l1 P) as PL. pose proof (forget_java_lines (S (length body)) body l1) as FL.
  destruct (java_lines_loc (S (length body)) body l1) as [[[fs how] c] l2|l2|]; cbn [and_then]; [| |exact Logic.I].
  2:{ destruct PL as (fs & q & suf & R & Hq & Hb & N1 & N2 & N3 & N4 & A & M). exists (L "Frame expected"), suf. split; [|split; assumption]. apply (jx_frame _ name m body fs q); assumption. }
  assert (Hl : exists next, java_lines body fs next /\ how = fst (how_of next) /\ c = snd (how_of next)).
  { destruct (lines_cases (S (length body)) body ltac:(lia)) as [(fs' & next & X)|X]; [|rewrite X in FL; discriminate]. pose proof (lines_eval _ _ _ X (S (length body)) ltac:(lia)) as Y. rewrite Y in FL. cbn [forget] in FL.
    assert (Q : (fs, how, c) = (fs', fst (how_of next), snd (how_of next))) by congruence. apply pair_equal_spec in Q as [Q ->]. apply pair_equal_spec in Q as [-> ->]. exists next. auto. }
  destruct Hl as (next & Hl & -> & ->). destruct next as [|r|r]; cbn [how_of fst snd] in *.
  - cbn [and_then]. exact PL.
  - assert (Er : r <> []). { remember (elided r) as e eqn:Ee in Hl. clear - Hl Ee. induction Hl as [|s r' f q fs next Hne Hb H1 H2 H3 Hf Hl IH|s r' Hne Hb H|s r' Hne Hb]; try discriminate; [auto|]. injection Ee as ->. intros ->. destruct H as [[x H]|[x H]]; discriminate. }
    pose proof (after_place text r l2 (near_at _ _ _ PL Er)) as PA. destruct (after_exception_loc r l2) as [[[q|] c] l3|l3|]; cbn [and_then]; [|exact PA|destruct PA|exact Logic.I].
    destruct PA as [Aq Ha]. specialize (IH q l3 Aq). destruct (java_exception_loc fuel q l3) as [[fs2 c2] l4|l4|]; cbn [and_then]; [exact IH| |exact Logic.I].
    destruct IH as (why & suf & W & A & M). exists why, suf. split; [|split; assumption]. apply (jx_elided why s name m body fs r q suf); assumption.
  - destruct (caused_place _ _ _ PL) as [Eq Aq]. rewrite Eq. cbn [and_then]. specialize (IH r _ Aq). destruct (java_exception_loc fuel r (columns l2 11)) as [[fs2 c2] l4|l4|]; cbn [and_then]; [exact IH| |exact Logic.I].
    destruct IH as (why & suf & W & A & M). exists why, suf. split; [|split; assumption]. apply (jx_cause why s name m body fs r suf); assumption.
Qed.
Lemma thread_place s : match java_thread_loc s sr_location_init with
  | Took (_, rest) l' => near s rest l'
  | Refused l' => exists why suf, java_wrong why s suf /\ at_ s suf l' /\ message l' = Some why
  | Broken => False
  end.
Proof.
  pose proof (forget_java_thread s sr_location_init) as F. pose proof (java_thread_not_UB s) as NU. rewrite <- F in NU. clear F.
  assert (G : match java_thread_loc s sr_location_init with
  | Took (_, rest) l' => near s rest l'
  | Refused l' => exists why suf, java_wrong why s suf /\ at_ s suf l' /\ message l' = Some why
  | Broken => True
  end).
  2:{ destruct (java_thread_loc s sr_location_init); [exact G|exact G|]. exact (NU eq_refl). }
  clear NU. unfold java_thread_loc. fold thread_mark. destruct (skip_string_cases thread_mark s) as [(r & -> & E)|[Hn E]]; rewrite E.
  2:{ cbv zeta. rewrite columns_0. cbn [and_then]. assert (A : at_b s s sr_location_init) by (exists []; split; [reflexivity|split; [constructor|left; reflexivity]]).
    pose proof (exception_place s (S (length s)) s sr_location_init A) as P. destruct (java_exception_loc (S (length s)) s sr_location_init) as [[fs c] l|l|]; cbn [and_then]; [exact P| |exact Logic.I].
    destruct P as (why & suf & W & Q). exists why, suf. split; [apply jt_bare; assumption|exact Q]. }
  assert (A0 : at_ (thread_mark ++ r) r (columns sr_location_init (length thread_mark))).
  { exists thread_mark. split; [reflexivity|]. apply (counted_line _ thread_mark [] 1 0 (ct_start _)). cbn. intuition discriminate. }
  cbv zeta. generalize dependent (columns sr_location_init (length thread_mark)). change (length thread_mark) with 21. cbv iota. intros l0 A0. take_until c l1. assert (A1 := at_track _ _ _ _ _ A0 T).
  subst r. destruct (Ascii.eqb (cur c) dquote) eqn:B; cbn [negb].
  2:{ cbn [and_then]. eexists _, c. split; [apply jt_thread; [exact Wu|]|split; [exact A1|reflexivity]]. destruct c as [|x c]; [exact Logic.I|]. destruct St as [<-|St]; [discriminate|exact St]. }
  apply cur_cons in B as [z ->]; [|discriminate]. cbn [advance see and_then].
  assert (A2 : at_b (thread_mark ++ u ++ dquote :: z) z (sr_location_eat_char l1 (cur z))).
  { destruct A1 as (p & E2 & C). exists (p ++ [dquote]). split; [rewrite <- app_assoc; exact E2|]. split; [|right; right; right; left; exists p; reflexivity].
    unfold sr_location_eat_char, loc_eat_char. cbn [fst snd]. destruct (Ascii.eqb (cur z) nl) eqn:B; cbn [line column].
    - apply cur_cons in B as [y ->]; [|discriminate]. apply (ct_quote _ _ y _ _ C). exact E2.
    - apply (ct_char _ _ _ _ _ C). discriminate. }
  pose proof (exception_place _ (S (length z)) z _ A2) as P. destruct (java_exception_loc (S (length z)) z (sr_location_eat_char l1 (cur z))) as [[fs c] l|l|]; cbn [and_then]; [exact P| |exact Logic.I].
  destruct P as (why & suf & W & Q). exists why, suf. split; [apply jt_named; assumption|exact Q].
Qed.
