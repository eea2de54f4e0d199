(** * Proofs about the Java exception parser: exceptions and threads. *)
From Verif Require Import Base Types UtilsSpec UtilsModel UtilsProofs RpmSpec RpmProofs RpmProofs4 LookupProofs JsonModel TextModel ParseSpec ParseModel ParseProofs RubyParseProofs JsParseProofs PyParseSpec PyParseProofs JavaParseModel JavaParseSpec JavaParseProofs.
Open Scope nat_scope.

Lemma past_blanks_length s r : past_blanks s r -> length r <= length s.
Proof. intros (ws & -> & _). rewrite app_length. lia. Qed.
Lemma line_rest_length s line rest : line_and_rest s line rest -> length rest <= length s.
Proof. intros [_ [->|[-> ->]]]; [rewrite app_length; cbn; lia|cbn; lia]. Qed.
Lemma frame_shorter s f rest : java_frame_text s f rest -> length rest < length s.
Proof.
  intros (r & q & line & (a & -> & _) & Hb & Hl & _). apply past_blanks_length in Hb. apply line_rest_length in Hl. rewrite !app_length. change (length (L "at")) with 2. lia.
Qed.
Lemma past_blanks_total s : exists r, past_blanks s r.
Proof. exists (sr_skip_whitespace s). apply past_blanks_eval. reflexivity. Qed.
Lemma line_rest_total s : exists line rest, line_and_rest s line rest.
Proof. destruct (split_stop nl s) as (line & tail & -> & Hl & Ht). destruct tail as [|x tail]; [exists line, []|exists line, tail]; (split; [exact Hl|]); [right; rewrite app_nil_r; auto|]. destruct Ht as [<-|[]]. left. reflexivity. Qed.

(** ** The first line *)

Definition head_model (input : str) : res (str * option str * str) :=
    let cursor := sr_skip_whitespace input in
    let mark := cursor in
    let '(_, cursor) := sr_skip_char_cspan (L ": " ++ [tab; nl]) cursor in
    if length mark =? length cursor then Fail else
    let name := between mark cursor in
    do (message, cursor) <-
      (if Ascii.eqb (cur cursor) ":" then
         do cursor <- advance cursor;
         let mark := sr_skip_whitespace cursor in
         let '(_, cursor) := sr_skip_char_cspan [nl] mark in
         Ok (if length mark =? length cursor then None else Some (between mark cursor), cursor)
       else Ok (None, snd (sr_skip_char_cspan [nl] cursor)));
    do cursor <- (if Ascii.eqb (cur cursor) nl then advance cursor else Ok cursor);
    Ok (name, message, cursor).
Lemma skip_line line tail : ~ In nl line -> stops_at [nl] tail -> sr_skip_char_cspan [nl] (line ++ tail) = (length line, tail).
Proof. intros Hl Ht. apply skip_cspan_val; [apply without_one; exact Hl|exact Ht]. Qed.
Lemma head_eval s name message body : java_head s name message body -> head_model s = Ok (name, message, body).
Proof.
  intros (r & after & Hb & -> & Hne & Hw & Hs & H). unfold head_model. apply past_blanks_eval in Hb. rewrite Hb, (skip_cspan_val _ _ _ Hw Hs), same_length, between_app.
  destruct name as [|x name]; [contradiction|]. destruct H as [(q & q' & text & -> & Hb' & Hl & Ho)|(Hn & junk & Hl & ->)].
  - change (Ascii.eqb (cur (":"%char :: q)) ":") with true. cbv iota. cbn [advance bind]. apply past_blanks_eval in Hb'. rewrite Hb'. apply line_rest_iff in Hl as (tail & -> & Hl & Ht & E).
    rewrite skip_line by auto. rewrite same_length, between_app, <- (optional_if _ _ Ho). cbn [bind]. rewrite E. reflexivity.
  - rewrite cur_not; [|discriminate|exact Hn]. apply line_rest_iff in Hl as (tail & -> & Hl & Ht & E). rewrite skip_line by auto. cbn [snd bind]. rewrite E. reflexivity.
Qed.
Lemma head_cases s : (exists name message body, java_head s name message body /\ head_model s = Ok (name, message, body)) \/ head_model s = Fail.
Proof.
  destruct (past_blanks_total s) as [r Hr]. destruct (split_set (L ": " ++ [tab; nl]) r) as (name & after & -> & Hw & Hs). destruct name as [|x name].
  - right. unfold head_model. apply past_blanks_eval in Hr. rewrite Hr, (skip_cspan_val _ _ _ Hw Hs), same_length. reflexivity.
  - left. assert (exists message body, java_head s (x :: name) message body) as (message & body & H); [|exists (x :: name), message, body; split; [exact H|apply head_eval; exact H]].
    destruct (begins_dec (L ":") after) as [[q Eq]|Hn].
    + destruct (past_blanks_total q) as [q' Hq']. destruct (line_rest_total q') as (text & body & Hl). exists (match text with [] => None | _ => Some text end), body. exists ((x :: name) ++ after), after.
      split; [exact Hr|]. split; [reflexivity|]. split; [discriminate|]. split; [exact Hw|]. split; [exact Hs|]. left. exists q, q', text. repeat (split; [assumption|]). destruct text; reflexivity.
    + destruct (line_rest_total after) as (junk & body & Hl). exists None, body. exists ((x :: name) ++ after), after.
      split; [exact Hr|]. split; [reflexivity|]. split; [discriminate|]. split; [exact Hw|]. split; [exact Hs|]. right. eauto.
Qed.
Lemma head_length s name message body : java_head s name message body -> length body < length s.
Proof.
  intros (r & after & Hb & -> & Hne & _ & _ & H). apply past_blanks_length in Hb. rewrite app_length in Hb. assert (0 < length name) by (destruct name; [contradiction|cbn; lia]).
  destruct H as [(q & q' & text & -> & Hb' & Hl & Ho)|(Hn & junk & Hl & ->)]; apply line_rest_length in Hl; [|lia]. apply past_blanks_length in Hb'. cbn [length] in Hb. lia.
Qed.
Lemma head_fun s n m b n' m' b' : java_head s n m b -> java_head s n' m' b' -> n = n' /\ m = m' /\ b = b'.
Proof. intros H H'. apply head_eval in H, H'. rewrite H in H'. injection H' as -> -> ->. auto. Qed.

(** ** The lines *)

Definition how_of (next : java_next) : java_end * str :=
  match next with no_more => (end_of_text, []) | elided r => (current_exception_done, r) | cause r => (parse_inner_exception, L "Caused by: " ++ r) end.
Lemma lines_eval s fs next : java_lines s fs next -> forall fuel, length s < fuel -> java_lines_loop fuel s = Ok (fs, fst (how_of next), snd (how_of next)).
Proof.
  induction 1 as [|s r f q fs next Hne Hb H1 H2 H3 Hf _ IH|s r Hne Hb H|s r Hne Hb]; intros [|fuel] Hl; try lia; cbn [java_lines_loop].
  - reflexivity.
  - destruct s as [|x s]; [contradiction|]. cbn [at_end]. cbv iota. pose proof Hb as Hb'. apply past_blanks_eval in Hb'. rewrite Hb', !starts_false by assumption. rewrite (frame_eval _ _ _ Hf). cbn [bind].
    rewrite IH; [reflexivity|]. apply frame_shorter in Hf. apply past_blanks_length in Hb. lia.
  - destruct s as [|x s]; [contradiction|]. cbn [at_end]. cbv iota. apply past_blanks_eval in Hb. rewrite Hb. destruct (begins_dec (L "... ") r) as [Hd|Hd]; [rewrite (starts_true _ _ Hd); reflexivity|].
    destruct H as [H|H]; [contradiction|]. rewrite (starts_false _ _ Hd), (starts_true _ _ H). reflexivity.
  - destruct s as [|x s]; [contradiction|]. cbn [at_end]. cbv iota. apply past_blanks_eval in Hb. rewrite Hb. rewrite !(starts_false (L "... ")), !(starts_false (L "Suppressed: ")), (starts_true (L "Caused by: ")); [reflexivity|eexists; reflexivity| |]; intros [z E]; discriminate E.
Qed.
Lemma lines_cases fuel : forall s, length s < fuel -> (exists fs next, java_lines s fs next) \/ java_lines_loop fuel s = Fail.
Proof.
  induction fuel as [|fuel IH]; intros s Hl; [lia|]. destruct s as [|x s]; [left; exists [], no_more; constructor|]. set (t := x :: s) in *. assert (Hne : t <> []) by discriminate.
  destruct (past_blanks_total t) as [r Hr]. pose proof Hr as Er. apply past_blanks_eval in Er.
  destruct (begins_dec (L "... ") r) as [H1|H1]; [left; exists [], (elided r); constructor; auto|].
  destruct (begins_dec (L "Suppressed: ") r) as [H2|H2]; [left; exists [], (elided r); constructor; auto|].
  destruct (begins_dec (L "Caused by: ") r) as [[q Eq]|H3]; [left; exists [], (cause q); constructor; [auto|]; rewrite <- Eq; exact Hr|].
  cbn [java_lines_loop]. change (at_end t) with false. cbv iota. rewrite Er, !starts_false by assumption.
  destruct (frame_cases r) as [(f & q & E & Hf)|[E _]]; rewrite E; cbn [bind]; [|right; reflexivity].
  destruct (IH q) as [(fs & next & H)|H].
  - apply frame_shorter in Hf. apply past_blanks_length in Hr. lia.
  - left. exists (f :: fs), next. econstructor; eassumption.
  - right. rewrite H. reflexivity.
Qed.
Lemma lines_length s fs next : java_lines s fs next -> length (snd (how_of next)) <= length s.
Proof.
  induction 1 as [|s r f q fs next Hne Hb H1 H2 H3 Hf _ IH|s r Hne Hb H|s r Hne Hb]; cbn [how_of snd]; [cbn; lia| | |]; apply past_blanks_length in Hb; try lia. apply frame_shorter in Hf. lia.
Qed.

(** ** After the frames *)

Lemma next_line_eval s r : next_line_is s r <-> next_line s = r.
Proof.
  assert (H : forall s r, next_line_is s r -> next_line s = r).
  { clear. intros s r [line [Hl H]]. unfold next_line, sr_skip_to_next_line_location. destruct H as [->|[-> ->]].
    - rewrite skip_line by (auto; left; reflexivity). reflexivity.
    - rewrite <- (app_nil_r line) at 1. rewrite skip_line by (auto; exact Logic.I). reflexivity. }
  split; [apply H|]. intros <-. destruct (line_rest_total s) as (line & r & Hr). assert (Hn : next_line_is s r) by (exists line; exact Hr). rewrite (H _ _ Hn). exact Hn.
Qed.
Lemma next_line_length s r : next_line_is s r -> length r <= length s.
Proof. intros [line H]. exact (line_rest_length _ _ _ H). Qed.
Lemma next_line_shorter c s r : next_line_is (c :: s) r -> length r < length (c :: s).
Proof. intros [line [_ [E|[_ ->]]]]; [rewrite E, app_length; cbn; lia|cbn; lia]. Qed.
Lemma not_blank_cur s : not_blank_first s -> is_space (cur s) = false.
Proof. destruct s as [|c s]; [reflexivity|]. cbn [not_blank_first cur]. intros H. destruct (is_space c) eqn:E; [apply is_space_iff in E; contradiction|reflexivity]. Qed.
Lemma indented_eval s q : past_indented s q -> forall fuel, length s < fuel -> skip_indented_lines fuel s = Ok q.
Proof.
  induction 1 as [s Hs|c s r q Hc Hn _ IH]; intros [|fuel] Hl; try lia; cbn [skip_indented_lines].
  - rewrite not_blank_cur by exact Hs. reflexivity.
  - cbn [cur]. apply is_space_iff in Hc. rewrite Hc. pose proof Hn as En. apply next_line_eval in En. rewrite En. apply IH. apply next_line_shorter in Hn. lia.
Qed.
Lemma indented_total n : forall s, length s < n -> exists q, past_indented s q.
Proof.
  induction n as [|n IH]; intros s Hl; [lia|]. destruct s as [|c s]; [exists []; constructor; exact Logic.I|]. destruct (is_space c) eqn:E.
  - apply is_space_iff in E. destruct (line_rest_total (c :: s)) as (line & r & Hr). assert (Hn : next_line_is (c :: s) r) by (exists line; exact Hr). destruct (IH r) as [q Hq]; [apply next_line_shorter in Hn; lia|]. exists q. econstructor; eassumption.
  - exists (c :: s). constructor. cbn. intros H. apply is_space_iff in H. congruence.
Qed.
Lemma indented_length s q : past_indented s q -> length q <= length s.
Proof. induction 1 as [s Hs|c s r q Hc Hn _ IH]; [lia|]. apply next_line_shorter in Hn. lia. Qed.
Lemma after_eval s r : java_after s r -> after_exception s = if starts_with (L "Caused by: ") r then do s <- advance_by 11 r; Ok (Some s, s) else Ok (None, r).
Proof.
  intros (l & q & Hn & Hb & H). unfold after_exception. apply next_line_eval in Hn. apply past_blanks_eval in Hb. rewrite Hn, Hb. destruct H as [[H ->]|(H & l2 & Hn2 & Hi)].
  - rewrite (starts_false _ _ H). reflexivity.
  - rewrite (starts_true _ _ H). apply next_line_eval in Hn2. rewrite Hn2. rewrite (indented_eval _ _ Hi) by lia. reflexivity.
Qed.
Lemma after_total s : exists r, java_after s r.
Proof.
  destruct (line_rest_total s) as (line & l & Hl). destruct (past_blanks_total l) as [q Hq]. destruct (begins_dec (L "Suppressed: ") q) as [H|H].
  - destruct (line_rest_total q) as (line2 & l2 & Hl2). destruct (indented_total (S (length l2)) l2) as [r Hr]; [lia|]. exists r, l, q. split; [exists line; exact Hl|]. split; [exact Hq|]. right. split; [exact H|]. exists l2. split; [exists line2; exact Hl2|exact Hr].
  - exists q, l, q. split; [exists line; exact Hl|]. auto.
Qed.
Lemma after_length s r : java_after s r -> length r <= length s.
Proof.
  intros (l & q & Hn & Hb & H). apply next_line_length in Hn. apply past_blanks_length in Hb. destruct H as [[H ->]|(H & l2 & Hn2 & Hi)]; [lia|]. apply next_line_length in Hn2. apply indented_length in Hi. lia.
Qed.

(** ** An exception *)

Lemma exception_split fuel input : sr_java_frame_parse_exception (S fuel) input =
  do (name, message, cursor) <- head_model input;
  do (frames, how, cursor) <- java_lines_loop (S (length cursor)) cursor;
  do (inner, cursor) <- match how with
                          | end_of_text => Ok (None, cursor)
                          | current_exception_done => after_exception cursor
                          | parse_inner_exception => do cursor <- advance_by 11 cursor; Ok (Some cursor, cursor)
                          end;
  match inner with
  | None => Ok (java_exception_frame name message :: frames, cursor)
  | Some s => do (inner, s) <- sr_java_frame_parse_exception fuel s; Ok (inner ++ java_exception_frame name message :: frames, s)
  end.
Proof.
  cbn [sr_java_frame_parse_exception]. unfold head_model. destruct (sr_skip_char_cspan (L ": " ++ [tab; nl]) (sr_skip_whitespace input)) as [n cursor].
  destruct (_ =? _); [reflexivity|]. destruct (if Ascii.eqb (cur cursor) ":" then _ else _) as [[message c]| |]; cbn [bind]; try reflexivity. destruct (if Ascii.eqb (cur c) nl then _ else _) as [c2| |]; reflexivity.
Qed.
Lemma exception_eval s fs rest : java_exception s fs rest -> forall fuel, length s < fuel -> sr_java_frame_parse_exception fuel s = Ok (fs, rest).
Proof.
  induction 1 as [s name message body fs Hh Hl|s name message body fs r q Hh Hl Ha Hn|s name message body fs r q inner rest Hh Hl Ha _ IH|s name message body fs r inner rest Hh Hl _ IH];
    intros [|fuel] Hlen; try lia; rewrite exception_split; pose proof (head_length _ _ _ _ Hh) as L1; pose proof (lines_length _ _ _ Hl) as L2; apply head_eval in Hh; rewrite Hh; cbn [bind];
    rewrite (lines_eval _ _ _ Hl) by lia; cbn [how_of fst snd] in L2 |- *; cbn [bind].
  - reflexivity.
  - rewrite (after_eval _ _ Ha), (starts_false _ _ Hn). reflexivity.
  - pose proof (after_length _ _ Ha) as L3. rewrite (after_eval _ _ Ha), starts_true by (eexists; reflexivity). change 11 with (length (L "Caused by: ")). rewrite advance_by_app. cbn [bind]. rewrite app_length in L3. rewrite IH by lia. reflexivity.
  - change 11 with (length (L "Caused by: ")). rewrite advance_by_app. cbn [bind]. rewrite app_length in L2. rewrite IH by lia. reflexivity.
Qed.
Lemma exception_cases fuel : forall s, length s < fuel -> (exists fs rest, java_exception s fs rest) \/ sr_java_frame_parse_exception fuel s = Fail.
Proof.
  induction fuel as [|fuel IH]; intros s Hlen; [lia|]. rewrite exception_split. destruct (head_cases s) as [(name & message & body & Hh & E)|E]; rewrite E; cbn [bind]; [|right; reflexivity].
  pose proof (head_length _ _ _ _ Hh) as L1. destruct (lines_cases (S (length body)) body) as [(fs & next & Hl)|El]; [lia| |right; rewrite El; reflexivity].
  rewrite (lines_eval _ _ _ Hl) by lia. pose proof (lines_length _ _ _ Hl) as L2. cbn [bind]. destruct next as [|r|r]; cbn [how_of fst snd] in L2 |- *.
  - left. eexists. eexists. eapply je_last; eassumption.
  - destruct (after_total r) as [q Hq]. pose proof (after_length _ _ Hq) as L3. rewrite (after_eval _ _ Hq). destruct (begins_dec (L "Caused by: ") q) as [[z ->]|Hn].
    + rewrite starts_true by (eexists; reflexivity). change 11 with (length (L "Caused by: ")). rewrite advance_by_app. cbn [bind]. rewrite app_length in L3.
      destruct (IH z) as [(inner & rest & Hi)|Ei]; [lia| |right; rewrite Ei; reflexivity]. left. eexists. eexists. eapply je_elided_cause; eassumption.
    + left. eexists. eexists. eapply je_elided; eassumption.
  - change 11 with (length (L "Caused by: ")). rewrite advance_by_app. cbn [bind]. rewrite app_length in L2.
    destruct (IH r) as [(inner & rest & Hi)|Ei]; [lia| |right; rewrite Ei; reflexivity]. left. eexists. eexists. eapply je_cause; eassumption.
Qed.
Lemma exception_iff s fs rest : sr_java_frame_parse_exception (S (length s)) s = Ok (fs, rest) <-> java_exception s fs rest.
Proof.
  split; [|intros H; apply (exception_eval _ _ _ H); lia]. intros E. destruct (exception_cases (S (length s)) s) as [(fs' & rest' & H)|Ef]; [lia| |congruence].
  pose proof (exception_eval _ _ _ H (S (length s))) as E'. rewrite E in E'. injection (E' ltac:(lia)) as <- <-. exact H.
Qed.
Lemma exception_not_UB s : sr_java_frame_parse_exception (S (length s)) s <> UB.
Proof. destruct (exception_cases (S (length s)) s) as [(fs' & rest' & H)|Ef]; [lia| |congruence]. rewrite (exception_eval _ _ _ H) by lia. discriminate. Qed.

(** ** A thread *)

Lemma thread_cases s : (exists name r, s = thread_mark ++ name ++ [dquote] ++ r /\ without [dquote; nl] name /\
    sr_java_thread_parse s = do (frames, cursor) <- sr_java_frame_parse_exception (S (length r)) r; Ok (mk_java_thread (Some name) frames, cursor)) \/
  (begins thread_mark s /\ (forall name r, without [dquote; nl] name -> s <> thread_mark ++ name ++ [dquote] ++ r) /\ sr_java_thread_parse s = Fail) \/
  (~ begins thread_mark s /\ sr_java_thread_parse s = do (frames, cursor) <- sr_java_frame_parse_exception (S (length s)) s; Ok (mk_java_thread None frames, cursor)).
Proof.
  unfold sr_java_thread_parse. fold thread_mark. destruct (skip_string_cases thread_mark s) as [(r & -> & E)|[Hn E]]; rewrite E.
  2:{ right. right. split; [exact Hn|reflexivity]. }
  change (length thread_mark) with 21. cbv iota. destruct (split_set [dquote; nl] r) as (name & q & -> & Hw & Hs). rewrite (skip_cspan_val _ _ _ Hw Hs), between_app.
  destruct (begins_dec [dquote] q) as [[z ->]|Hq].
  - left. exists name, z. split; [reflexivity|]. split; [exact Hw|]. change (Ascii.eqb (cur ([dquote] ++ z)) dquote) with true. reflexivity.
  - right. left. split; [eexists; reflexivity|]. rewrite cur_not; [|discriminate|exact Hq]. split; [|reflexivity]. intros name' z Hw' Eq. apply app_inv_head in Eq.
    destruct q as [|x q].
    + rewrite app_nil_r in Eq. subst name. assert (Hi : In dquote (name' ++ [dquote] ++ z)) by (apply in_or_app; right; left; reflexivity). apply (without_In _ _ Hw _ Hi). left. reflexivity.
    + destruct Hs as [Hs|[Hs|[]]]; subst x; [apply Hq; eexists; reflexivity|].
      assert (E2 : sr_skip_char_cspan [dquote; nl] (name ++ nl :: q) = (length name, nl :: q)) by (apply skip_cspan_val; [exact Hw|right; left; reflexivity]).
      rewrite Eq in E2. cbn [app] in E2. rewrite skip_cspan_val in E2; [injection E2; discriminate|exact Hw'|left; reflexivity].
Qed.
Lemma thread_text_split s t rest : java_thread_text s t rest -> begins thread_mark s -> exists name r fs, s = thread_mark ++ name ++ [dquote] ++ r /\ without [dquote; nl] name /\ java_exception r fs rest /\ t = mk_java_thread (Some name) fs.
Proof. intros [H|[H _]] Hb; [exact H|contradiction]. Qed.
Theorem java_thread_iff s t rest : sr_java_thread_parse s = Ok (t, rest) <-> java_thread_text s t rest.
Proof.
  destruct (thread_cases s) as [(name & r & -> & Hw & E)|[(Hb & Hno & E)|[Hb E]]]; rewrite E.
  - split.
    + destruct (sr_java_frame_parse_exception (S (length r)) r) as [[fs q]| |] eqn:Ee; [|discriminate|discriminate]. cbn [bind]. intros H. injection H as <- <-. apply exception_iff in Ee. left. exists name, r, fs. auto.
    + intros H. apply thread_text_split in H as (name' & r' & fs & Eq & Hw' & He & ->); [|eexists; reflexivity]. apply app_inv_head in Eq.
      assert (Hnq : forall n, without [dquote; nl] n -> ~ In dquote n) by (intros n Hn Hi; apply (without_In _ _ Hn _ Hi); left; reflexivity).
      cbn [app] in Eq. apply app_at_unique in Eq as [<- <-]; [|auto|auto]. apply exception_iff in He. rewrite He. reflexivity.
  - split; [discriminate|]. intros H. apply thread_text_split in H as (name' & r' & fs & Eq & Hw' & _); [|exact Hb]. destruct (Hno _ _ Hw' Eq).
  - split.
    + destruct (sr_java_frame_parse_exception (S (length s)) s) as [[fs q]| |] eqn:Ee; [|discriminate|discriminate]. cbn [bind]. intros H. injection H as <- <-. apply exception_iff in Ee. right. eauto.
    + intros [(name & r & fs & -> & _)|(_ & fs & He & ->)]; [exfalso; apply Hb; eexists; reflexivity|]. apply exception_iff in He. rewrite He. reflexivity.
Qed.
Theorem java_thread_not_UB s : sr_java_thread_parse s <> UB.
Proof.
  destruct (thread_cases s) as [(name & r & -> & Hw & E)|[(Hb & Hno & E)|[Hb E]]]; rewrite E; [|discriminate|].
  - pose proof (exception_not_UB r) as H. destruct (sr_java_frame_parse_exception _ r) as [[? ?]| |]; cbn [bind]; [discriminate|discriminate|destruct (H eq_refl)].
  - pose proof (exception_not_UB s) as H. destruct (sr_java_frame_parse_exception _ s) as [[? ?]| |]; cbn [bind]; [discriminate|discriminate|destruct (H eq_refl)].
Qed.
