(** * The lines of an oops: the parser reads exactly the specified text and never steps past its end. *)
From Verif Require Import Base Types UtilsSpec UtilsModel UtilsProofs ParseSpec ParseModel ParseProofs RubyParseProofs JsParseProofs PyParseProofs JavaParseModel KoopsModel KoopsSpec KoopsProofs KoopsProofs2.
Open Scope nat_scope.

Lemma rest_of_line_iff s r : snd (sr_skip_char_cspan [nl] s) = r <-> rest_of_line s r.
Proof.
  unfold rest_of_line. split.
  - intros <-. destruct (sr_skip_char_cspan [nl] s) as [n r] eqn:E. apply skip_cspan_iff in E as (a & -> & _ & W & N). exists a. split; [reflexivity|]. split; [|exact N].
    apply without_one, W.
  - intros (a & -> & W & N). assert (E : sr_skip_char_cspan [nl] (a ++ r) = (length a, r)); [|rewrite E; reflexivity].
    apply skip_cspan_iff. exists a. split; [reflexivity|]. split; [reflexivity|]. split; [|exact N]. apply without_one, W.
Qed.
Lemma rest_of_line_self s : rest_of_line s (snd (sr_skip_char_cspan [nl] s)).
Proof. apply rest_of_line_iff. reflexivity. Qed.
Lemma rest_of_line_le s r : rest_of_line s r -> length r <= length s.
Proof. intros (a & -> & _). rewrite app_length. lia. Qed.
Lemma some_gap_iff s r : some_gap s r <-> exists n, sr_skip_char_span blanks s = (n, r) /\ (n =? 0) = false.
Proof.
  unfold some_gap. split.
  - intros [G N]. destruct (spaces_then_eval s true r) as (n & E & En); [split; [exact G|]; split; [discriminate|contradiction]|]. exists n. auto.
  - intros (n & E & En). apply spaces_then_iff in E as [G H]. rewrite En in H. split; [exact G|]. intros ->. destruct H as [_ H]. discriminate (H eq_refl).
Qed.
Lemma some_gap_le s r : some_gap s r -> length r <= length s.
Proof. intros [G _]. apply gap_le, G. Qed.
Lemma ip_iff s f rest : parse_IP s = Some (f, rest) <-> ip_line s f rest.
Proof.
  unfold parse_IP, ip_line. cbv zeta. split.
  - intros H. exists (skip_blanks s). split; [apply gap_self|]. revert H.
    destruct (skip_string_cases (L "RIP:") (skip_blanks s)) as [(t1 & -> & E)|[NR E]]; rewrite E.
    + change (length (L "RIP:") =? 0) with false. cbn [negb].
      destruct (sr_skip_char_span blanks t1) as [n t2] eqn:E1. destruct (n =? 0) eqn:N1; [discriminate|].
      destruct (sr_skip_char_cspan blanks t2) as [n2 t3] eqn:E2. destruct (n2 =? 0) eqn:N2; [discriminate|]. apply skip_cspan_iff in E2 as (w & -> & -> & W & _).
      destruct (sr_skip_char_span blanks t3) as [n3 t4] eqn:E3. destruct (n3 =? 0) eqn:N3; [discriminate|].
      destruct (sr_koops_frame_parse t4) as [[g t5]|] eqn:E4; [|discriminate]. intros H. injection H as <- <-. left.
      exists t1, (w ++ t3), t3, t4, t5, w. split; [reflexivity|]. split; [apply some_gap_iff; eauto|]. split; [reflexivity|]. split; [destruct w; discriminate|]. split; [exact W|].
      split; [apply some_gap_iff; eauto|]. split; [apply frame_iff, E4|]. apply rest_of_line_self.
    + cbn [Nat.eqb negb]. destruct (skip_string_cases (L "EIP:") (skip_blanks s)) as [(t1 & -> & E')|[NE E']]; rewrite E'.
      * change (length (L "EIP:") =? 0) with false. cbn [negb].
        destruct (sr_skip_char_span blanks t1) as [n t2] eqn:E1. destruct (n =? 0) eqn:N1; [discriminate|].
        destruct (sr_koops_parse_address t2) as [o [t3|]] eqn:E2; [|discriminate]. destruct (address_some _ _ _ E2) as [a ->]. apply address_iff in E2.
        destruct (sr_skip_char "?" (skip_blanks t3)) as [question t5] eqn:E3. apply maybe_iff in E3.
        destruct (sr_koops_parse_function (skip_blanks t5)) as [[fn t7]|] eqn:E4; [|discriminate]. apply function_iff in E4. intros H. injection H as <- <-. right.
        exists t1, t2, t3, (skip_blanks t3), t5, (skip_blanks t5), t7, a, question, fn.
        split; [reflexivity|]. split; [apply some_gap_iff; eauto|]. split; [exact E2|]. split; [apply gap_self|]. split; [exact E3|]. split; [apply gap_self|]. split; [exact E4|].
        split; [apply rest_of_line_self|]. reflexivity.
      * discriminate.
  - intros (t0 & G & H). rewrite (gap_eval _ _ G). destruct H as [(t1 & t2 & t3 & t4 & t5 & w & -> & G1 & -> & NE & W & G3 & F & R)|
      (t1 & t2 & t3 & t4 & t5 & t6 & t7 & a & question & fn & -> & G1 & A & G3 & Q & G5 & F & R & ->)].
    + rewrite (skip_lit (L "RIP:") t1). change (length (L "RIP:") =? 0) with false. cbn [Nat.eqb negb]. apply some_gap_iff in G1 as (n & E1 & N1). rewrite E1, N1.
      assert (E2 : sr_skip_char_cspan blanks (w ++ t3) = (length w, t3)).
      { apply skip_cspan_iff. exists w. split; [reflexivity|]. split; [reflexivity|]. split; [exact W|]. destruct G3 as [(ws & -> & B & _) N3]. destruct ws as [|c ws]; [exfalso; apply N3; reflexivity|].
        cbn [app]. inversion B as [|? ? Bc _]; subst. destruct Bc as [->| ->]; cbn; auto. }
      rewrite E2. replace (length w =? 0) with false by (destruct w; [congruence|reflexivity]).
      apply some_gap_iff in G3 as (n3 & E3 & N3). rewrite E3, N3. apply frame_iff in F. rewrite F. apply rest_of_line_iff in R. rewrite R. reflexivity.
    + replace (sr_skip_string (L "RIP:") (L "EIP:" ++ t1)) with (0, L "EIP:" ++ t1) by reflexivity. cbn [Nat.eqb negb].
      rewrite (skip_lit (L "EIP:") t1). change (length (L "EIP:") =? 0) with false. cbn [Nat.eqb negb]. apply some_gap_iff in G1 as (n & E1 & N1). rewrite E1, N1.
      apply address_iff in A. rewrite A. rewrite (gap_eval _ _ G3). apply maybe_iff in Q. rewrite Q. rewrite (gap_eval _ _ G5). apply function_iff in F. rewrite F.
      apply rest_of_line_iff in R. rewrite R. reflexivity.
Qed.
Lemma ip_none s : parse_IP s = None <-> forall f r, ~ ip_line s f r.
Proof.
  split; [intros H f r H'; apply ip_iff in H'; congruence|].
  intros H. destruct (parse_IP s) as [[f r]|] eqn:E; [|reflexivity]. exfalso. apply (H f r), ip_iff, E.
Qed.
Lemma in_set (set : str) c : In c set <-> In c set.
Proof. reflexivity. Qed.
Lemma chars_nonempty set w : chars_of set w -> (length w =? 0) = false.
Proof. intros [N _]. destruct w; [congruence|reflexivity]. Qed.
Lemma stack_end_iff s r : parse_alt_stack_end s = Some r <-> stack_end s r.
Proof.
  unfold parse_alt_stack_end, stack_end. cbv zeta. split.
  - intros H. exists (skip_blanks s). revert H. destruct (sr_skip_char_span (L "<") (skip_blanks s)) as [n1 s1] eqn:E1. apply (span_inv _ _ _ _ _ (in_set _)) in E1 as (a & E1 & -> & A & _).
    destruct (length a =? 0) eqn:N1; [discriminate|]. destruct (skip_string_cases (L "EO") s1) as [(s2 & -> & E2)|[_ E2]]; rewrite E2; [|discriminate].
    change (length (L "EO") =? 0) with false. cbn iota. destruct (sr_skip_char_span (L "IE") s2) as [n3 s3] eqn:E3. apply (span_inv _ _ _ _ _ (in_set _)) in E3 as (b & -> & -> & B & _).
    destruct (length b =? 0) eqn:N2; [discriminate|]. destruct (sr_skip_char_span (L ">") s3) as [n4 s4] eqn:E4. apply (span_inv _ _ _ _ _ (in_set _)) in E4 as (c & -> & -> & C & N4).
    destruct (length c =? 0) eqn:N3; [discriminate|]. intros H. injection H as <-. exists a, b, c. split; [apply gap_self|]. split; [exact E1|].
    split; [split; [destruct a; discriminate|exact A]|]. split; [split; [destruct b; discriminate|exact B]|]. split; [split; [destruct c; discriminate|exact C]|].
    intros [q ->]. apply N4. left. reflexivity.
  - intros (t0 & a & b & c & G & -> & A & B & C & N). rewrite (gap_eval _ _ G).
    rewrite (span_eval _ _ _ _ (in_set (L "<")) (proj2 A)) by (cbn; intuition discriminate). rewrite (chars_nonempty _ _ A).
    rewrite (skip_lit (L "EO") (b ++ c ++ r)). change (length (L "EO") =? 0) with false. cbn [Nat.eqb].
    rewrite (span_eval _ _ _ _ (in_set (L "IE")) (proj2 B)).
    2:{ destruct C as [NC C]. destruct c as [|x c]; [congruence|]. inversion C as [|? ? Cx _]; subst. destruct Cx as [<-|[]]. cbn. intuition discriminate. }
    rewrite (chars_nonempty _ _ B). rewrite (span_eval _ _ _ _ (in_set (L ">")) (proj2 C)).
    2:{ destruct r as [|x r]; [exact Logic.I|]. intros [<-|[]]. apply N. exists r. reflexivity. }
    rewrite (chars_nonempty _ _ C). reflexivity.
Qed.
Lemma stack_end_none s : parse_alt_stack_end s = None <-> forall r, ~ stack_end s r.
Proof.
  split; [intros H r H'; apply stack_end_iff in H'; congruence|].
  intros H. destruct (parse_alt_stack_end s) as [r|] eqn:E; [|reflexivity]. exfalso. apply (H r), stack_end_iff, E.
Qed.
Lemma stack_start_iff s w r : parse_alt_stack_start s = Some (w, r) <-> stack_start s w r.
Proof.
  unfold parse_alt_stack_start, stack_start. cbv zeta. split.
  - intros H. exists (skip_blanks s). revert H. destruct (sr_skip_char "<" (skip_blanks s)) as [b s1] eqn:E1. apply maybe_iff in E1 as [[E1 ->]|(_ & _ & ->)]; [|discriminate]. cbn [negb].
    destruct (sr_parse_char_cspan (L "> " ++ [tab; nl]) s1) as [[w' s2]|] eqn:E2; [|discriminate]. apply cspan_iff in E2 as (-> & NE & W & _).
    destruct (sr_skip_char ">" s2) as [b s3] eqn:E3. apply maybe_iff in E3 as [[-> ->]|(_ & _ & ->)]; [|discriminate]. cbn [negb]. intros H. injection H as <- <-.
    split; [apply gap_self|]. split; [exact E1|]. split; assumption.
  - intros (t0 & G & -> & NE & W). rewrite (gap_eval _ _ G). change (sr_skip_char "<" (L "<" ++ w ++ L ">" ++ r)) with (true, w ++ L ">" ++ r). cbn [negb].
    assert (E : sr_parse_char_cspan (L "> " ++ [tab; nl]) (w ++ L ">" ++ r) = Some (w, L ">" ++ r)).
    { apply cspan_iff. split; [reflexivity|]. split; [exact NE|]. split; [exact W|]. left. reflexivity. }
    rewrite E. reflexivity.
Qed.
Lemma stack_start_none s : parse_alt_stack_start s = None <-> forall w r, ~ stack_start s w r.
Proof.
  split; [intros H w r H'; apply stack_start_iff in H'; congruence|].
  intros H. destruct (parse_alt_stack_start s) as [[w r]|] eqn:E; [|reflexivity]. exfalso. apply (H w r), stack_start_iff, E.
Qed.
Definition words_parse (label : option str) (s : str) : option str * str :=
  let '(alt, s) := match parse_alt_stack_end s with Some s => (None, s) | None => (label, s) end in
  match parse_alt_stack_start s with Some (l, s) => (Some l, s) | None => (alt, s) end.
Lemma words_iff label s label' r : words_parse label s = (label', r) <-> stack_words label s label' r.
Proof.
  unfold words_parse, stack_words. split.
  - destruct (parse_alt_stack_end s) as [t|] eqn:E1; [apply stack_end_iff in E1|pose proof (proj1 (stack_end_none s) E1) as E1']; intros H.
    + exists None, t. split; [left; auto|]. destruct (parse_alt_stack_start t) as [[w q]|] eqn:E2; injection H as <- <-.
      * left. exists w. split; [apply stack_start_iff, E2|reflexivity].
      * right. split; [apply stack_start_none, E2|auto].
    + exists label, s. split; [right; auto|]. destruct (parse_alt_stack_start s) as [[w q]|] eqn:E2; injection H as <- <-.
      * left. exists w. split; [apply stack_start_iff, E2|reflexivity].
      * right. split; [apply stack_start_none, E2|auto].
  - intros (l & t & H1 & H2). assert (E : match parse_alt_stack_end s with Some s0 => (None, s0) | None => (label, s) end = (l, t)).
    { destruct H1 as [[H ->]|(H & -> & ->)]; [apply stack_end_iff in H|apply stack_end_none in H]; rewrite H; reflexivity. }
    rewrite E. destruct H2 as [(w & H & ->)|(H & -> & ->)]; [apply stack_start_iff in H|apply stack_start_none in H]; rewrite H; reflexivity.
Qed.
Lemma stack_end_le s r : stack_end s r -> length r < length s.
Proof.
  intros (t0 & a & b & c & G & -> & [NA _] & _ & _ & _). apply gap_le in G. repeat rewrite app_length in G. destruct a; [congruence|]. cbn [length] in G. lia.
Qed.
Lemma stack_start_le s w r : stack_start s w r -> length r < length s.
Proof. intros (t0 & G & -> & _). apply gap_le in G. repeat rewrite app_length in G. cbn [length L list_ascii_of_string] in G. lia. Qed.
Lemma words_le label s label' r : stack_words label s label' r -> length r <= length s.
Proof.
  intros (l & t & H1 & H2). assert (length t <= length s) by (destruct H1 as [[H _]|(_ & -> & _)]; [apply stack_end_le in H|]; lia).
  destruct H2 as [(w & H2 & _)|(_ & -> & _)]; [apply stack_start_le in H2; lia|lia].
Qed.

(** ** Every frame takes at least one character *)
Lemma maybe_le c s b r : maybe c s b r -> length r <= length s.
Proof. intros [[-> _]|(_ & -> & _)]; cbn [length]; lia. Qed.
Lemma closes_le due c s r : closes due c s r -> length r <= length s.
Proof. unfold closes. destruct due; intros ->; cbn [length]; lia. Qed.
Lemma line_end_le s r : line_end s r -> length r <= length s.
Proof. intros [->|[-> ->]]; cbn [length]; lia. Qed.
Lemma hex_run_le s v r : hex_run s v r -> length r <= length s.
Proof. intros (ds & -> & _). rewrite app_length. lia. Qed.
Lemma hex_0x_le s v r : hex_0x s v r -> length r < length s.
Proof. intros (q & -> & H). apply hex_run_le in H. rewrite app_length. cbn [length L list_ascii_of_string]. lia. Qed.
Lemma address_le s v r : address s v r -> length r < length s.
Proof. intros (q & [[-> H]|[-> H]]); apply hex_run_le in H; rewrite app_length in *; cbn [length L list_ascii_of_string] in *; lia. Qed.
Lemma number_le s v r : number s v r -> length r <= length s.
Proof. intros [(n & H & _)|(_ & _ & ->)]; [apply hex_0x_le in H|]; lia. Qed.
Lemma module_word_le s w r : module_word s w r -> length r < length s.
Proof. intros (-> & _). repeat rewrite app_length. cbn [length L list_ascii_of_string]. lia. Qed.
Lemma maybe_module_le s w r : maybe_module s w r -> length r <= length s.
Proof. intros [(m & H & _)|(_ & _ & ->)]; [apply module_word_le in H|]; lia. Qed.
Ltac lens := repeat match goal with
  | H : gap _ _ |- _ => apply gap_le in H
  | H : maybe _ _ _ _ |- _ => apply maybe_le in H
  | H : closes _ _ _ _ |- _ => apply closes_le in H
  | H : line_end _ _ |- _ => apply line_end_le in H
  | H : hex_0x _ _ _ |- _ => apply hex_0x_le in H
  | H : address _ _ _ |- _ => apply address_le in H
  | H : number _ _ _ |- _ => apply number_le in H
  | H : module_word _ _ _ |- _ => apply module_word_le in H
  | H : maybe_module _ _ _ |- _ => apply maybe_module_le in H
  end.
Lemma function_le s f r : function s f r -> length r < length s.
Proof.
  intros (paren & q & M & [(n & t & H & C & _)|(_ & name & offset & len & module & t1 & t2 & t3 & t4 & t5 & t6 & -> & _ & N1 & N2 & G1 & MM & G2 & C & _)]); lens; [lia|].
  repeat rewrite app_length in *. cbn [length L list_ascii_of_string] in *. lia.
Qed.
Lemma caller_le s a g r : caller s a g r -> length r <= length s.
Proof. intros [(_ & -> & _)|(b & t1 & t2 & t3 & t4 & t5 & -> & G & A & G2 & F & G3 & _)]; [lia|]. apply function_le in F. lens. rewrite app_length. lia. Qed.
Lemma late_le s m m' r : late_module s m m' r -> length r <= length s.
Proof. unfold late_module. destruct m; [intros [_ ->]; lia|]. intros [(w & q & H & _ & G)|(_ & _ & ->)]; lens; lia. Qed.
Lemma body_le paren a s f rest : frame_body paren a s f rest -> length rest < length s.
Proof.
  intros (question & name & offset & len & m & m' & b & g & t1 & t2 & t3 & t4 & t5 & t6 & t7 & t8 & t9 & G1 & Q & G2 & F & G3 & C & LM & CL & G4 & LE & _).
  apply function_le in F. apply caller_le in C. apply late_le in LM. assert (length t9 <= length t8) by (destruct paren; [lens; lia|subst; lia]). clear G4. lens. lia.
Qed.
Lemma frame_le s f rest : frame_text s f rest -> length rest < length s.
Proof.
  intros [H|[_ [H|[_ H]]]].
  - destruct H as (sp0 & a & fn & t0 & t1 & t2 & t3 & t4 & t5 & t6 & t7 & t8 & dot & unreliable & G0 & A0 & G1 & A1 & G2 & D & F & G3 & U & (t9 & G4 & LE) & _).
    apply function_le in F. assert (length t8 <= length t7) by (destruct U as [[-> _]|(_ & -> & _)]; [rewrite app_length|]; lia). lens. lia.
  - destruct H as (a & b & name & g & t0 & t1 & t2 & t3 & t4 & t5 & t6 & t7 & t8 & t9 & question & G0 & A & G1 & Q & G2 & -> & _ & G3 & -> & G4 & A2 & (t10 & G5 & F) & _).
    apply function_le in F. lens. repeat rewrite app_length in *. lia.
  - destruct H as (t0 & paren & t1 & G & M & [(a & t2 & A & B)|(_ & [(a & t2 & H & LE & _)|(_ & a & _ & B)])]); try apply body_le in B; lens; lia.
Qed.
Lemma ip_le s f rest : ip_line s f rest -> length rest < length s.
Proof.
  intros (t0 & G & [(t1 & t2 & t3 & t4 & t5 & w & -> & G1 & -> & NE & W & G3 & F & R)|
      (t1 & t2 & t3 & t4 & t5 & t6 & t7 & a & question & fn & -> & G1 & A & G3 & Q & G5 & F & R & _)]).
  - apply some_gap_le in G1, G3. apply frame_le in F. apply rest_of_line_le in R. lens. repeat rewrite app_length in *. lia.
  - apply some_gap_le in G1. apply function_le in F. apply rest_of_line_le in R. lens. repeat rewrite app_length in *. lia.
Qed.
Lemma frame_special s f rest : frame_text s f rest -> kf_special_stack f = None.
Proof.
  assert (K : forall a q fn b g, kf_special_stack (frame_with a q fn b g) = None) by (intros a q [[[? ?] ?] ?] b [[[? ?] ?] ?]; reflexivity).
  intros [H|[_ [H|[_ H]]]].
  - destruct H as (sp0 & a & fn & t0 & t1 & t2 & t3 & t4 & t5 & t6 & t7 & t8 & dot & unreliable & G0 & A0 & G1 & A1 & G2 & D & F & G3 & U & _ & ->). apply K.
  - destruct H as (a & b & name & g & t0 & t1 & t2 & t3 & t4 & t5 & t6 & t7 & t8 & t9 & question & G0 & A & G1 & Q & G2 & -> & _ & G3 & -> & G4 & A2 & _ & ->). apply K.
  - assert (KB : forall paren a s f rest, frame_body paren a s f rest -> kf_special_stack f = None).
    { intros paren a s' f' rest' (question & name & offset & len & m & m' & b & g & t1 & t2 & t3 & t4 & t5 & t6 & t7 & t8 & t9 & G1 & Q & G2 & F & G3 & C & LM & CL & G4 & LE & ->). apply K. }
    destruct H as (t0 & paren & t1 & G & M & [(a & t2 & A & B)|(_ & [(a & t2 & H & LE & ->)|(_ & a & _ & B)])]); [eapply KB, B|reflexivity|eapply KB, B].
Qed.
Lemma with_special_on label f : kf_special_stack f = None -> with_special label f = on_stack label f.
Proof. destruct label as [l|]; [reflexivity|]. destruct f. cbn. intros ->. reflexivity. Qed.

(** ** Lines *)
Definition state_of (p : progress) : koops_state := let '(ms, ip, label, fs) := p in mk_koops_state ms ip label fs.
Lemma timestamp_past s t : past_timestamp s t <-> skip_blanks (match sr_koops_skip_timestamp (skip_blanks s) with Some r => r | None => skip_blanks s end) = t.
Proof.
  unfold past_timestamp. split.
  - intros (t1 & t2 & G1 & H & G2). rewrite (gap_eval _ _ G1). destruct H as [H|[H ->]]; [apply timestamp_iff in H|apply timestamp_none in H]; rewrite H; apply gap_eval, G2.
  - intros <-. exists (skip_blanks s). destruct (sr_koops_skip_timestamp (skip_blanks s)) as [r|] eqn:E; [exists r|exists (skip_blanks s)];
      (split; [apply gap_self|]); (split; [|apply gap_self]); [left; apply timestamp_iff, E|right; split; [apply timestamp_none, E|reflexivity]].
Qed.
Lemma past_timestamp_le s t : past_timestamp s t -> length t <= length s.
Proof. intros (t1 & t2 & G1 & H & G2). lens. destruct H as [H|[_ ->]]; [apply timestamp_le in H|]; lia. Qed.
Lemma past_timestamp_fun s t t' : past_timestamp s t -> past_timestamp s t' -> t = t'.
Proof. rewrite !timestamp_past. congruence. Qed.
Lemma last_line_dec t : last_line t \/ ~ last_line t.
Proof. destruct (begins_dec (L "Last Breaking-Event-Address:" ++ [nl]) t); [left|right]; assumption. Qed.
Lemma line_last p s t : past_timestamp s t -> last_line t -> koops_line (state_of p) s = Ok (true, state_of p, []).
Proof.
  intros H [q ->]. apply timestamp_past in H. unfold koops_line. cbv zeta. rewrite H.
  destruct (skip_string_cases (L "Last Breaking-Event-Address:" ++ [nl]) ((L "Last Breaking-Event-Address:" ++ [nl]) ++ q)) as [(r & _ & E)|[N _]]; [|exfalso; apply N; eexists; reflexivity].
  rewrite E. reflexivity.
Qed.
Lemma line_eval p s t p' q : past_timestamp s t -> ~ last_line t -> oops_line p t p' q -> koops_line (state_of p) s = Ok (false, state_of p', q).
Proof.
  intros H NL OL. apply timestamp_past in H. unfold koops_line. cbv zeta. rewrite H.
  destruct (skip_string_cases (L "Last Breaking-Event-Address:" ++ [nl]) t) as [(r & E & _)|[_ E]]; [exfalso; apply NL; exists r; exact E|]. rewrite E. cbn [Nat.eqb negb]. clear E H NL.
  assert (KM : forall ms ip label fs, (ms = None -> forall l q, ~ modules_text t l q) ->
    match st_modules (state_of (ms, ip, label, fs)) with Some _ => Ok None | None => match sr_koops_stacktrace_parse_modules t with Ok x => Ok (Some x) | Fail => Ok None | UB => UB end end = Ok None).
  { intros [ms|] ip label fs HM; cbn [state_of st_modules]; [reflexivity|]. destruct (modules_text_cases t) as [(ms & rest & M & _)|[_ E]]; [destruct (HM eq_refl _ _ M)|]. rewrite E. reflexivity. }
  assert (KI : forall ms ip label fs, (ip = false -> forall g q, ~ ip_line t g q) -> (if st_parsed_ip (state_of (ms, ip, label, fs)) then None else parse_IP t) = None).
  { intros ms [] label fs HI; cbn [state_of st_parsed_ip]; [reflexivity|]. apply ip_none. apply HI. reflexivity. }
  inversion OL as [ip label fs s0 ms r M|ms label fs s0 f r HM HI|ms ip label fs s0 label' t' f r HM HI SW F|ms ip label fs s0 label' t' r HM HI SW F R]; subst.
  - cbn [state_of st_modules]. rewrite (modules_text_eval _ _ _ M). reflexivity.
  - rewrite KM by exact HM. cbn [bind state_of st_parsed_ip]. apply ip_iff in HI. rewrite HI. reflexivity.
  - rewrite KM by exact HM. cbn [bind]. rewrite KI by exact HI. apply words_iff in SW. unfold words_parse in SW. cbn [state_of st_alt_stack].
    destruct (match parse_alt_stack_end t with Some s => (None, s) | None => (label, t) end) as [alt t1]. rewrite SW. pose proof (frame_special _ _ _ F) as SP. apply frame_iff in F. rewrite F.
    rewrite with_special_on by exact SP. reflexivity.
  - rewrite KM by exact HM. cbn [bind]. rewrite KI by exact HI. apply words_iff in SW. unfold words_parse in SW. cbn [state_of st_alt_stack].
    destruct (match parse_alt_stack_end t with Some s => (None, s) | None => (label, t) end) as [alt t1]. rewrite SW. apply frame_none in F. rewrite F.
    apply rest_of_line_iff in R. rewrite R. reflexivity.
Qed.
Lemma line_total p t : exists p' q, oops_line p t p' q.
Proof.
  destruct p as [[[ms ip] label] fs].
  assert (HM : (ms = None /\ exists l q, modules_text t l q) \/ (ms = None -> forall l q, ~ modules_text t l q)).
  { destruct ms; [right; discriminate|]. destruct (modules_text_cases t) as [(l & q & M & _)|[N _]]; [left; eauto|right; auto]. }
  destruct HM as [[-> (l & q & M)]|HM]; [eexists _, q; apply ol_modules, M|].
  assert (HI : (ip = false /\ exists g q, ip_line t g q) \/ (ip = false -> forall g q, ~ ip_line t g q)).
  { destruct ip; [right; discriminate|]. destruct (parse_IP t) as [[g q]|] eqn:E; [left; split; [reflexivity|]; exists g, q; apply ip_iff, E|right; intros _; apply ip_none, E]. }
  destruct HI as [[-> (g & q & I)]|HI]; [eexists _, q; apply ol_ip; [exact HM|exact I]|].
  destruct (words_parse label t) as [label' t'] eqn:SW. apply words_iff in SW.
  destruct (sr_koops_frame_parse t') as [[f r]|] eqn:E; [apply frame_iff in E|pose proof (proj1 (frame_none t') E) as E'].
  - eexists _, r. eapply ol_frame; eassumption.
  - eexists _, _. eapply ol_other; [exact HM|exact HI|exact SW|exact E'|apply rest_of_line_self].
Qed.
Lemma line_shrinks p s t p' q b q' : s <> [] -> past_timestamp s t -> oops_line p t p' q -> maybe nl q b q' -> length q' < length s.
Proof.
  intros NE PT OL M. apply past_timestamp_le in PT. pose proof (maybe_le _ _ _ _ M) as HM.
  inversion OL as [ip label fs s0 ms r MT|ms label fs s0 f r _ HI|ms ip label fs s0 label' t' f r _ _ SW F|ms ip label fs s0 label' t' r _ _ SW F R]; subst.
  - apply modules_le in MT. lia.
  - apply ip_le in HI. lia.
  - apply words_le in SW. apply frame_le in F. lia.
  - apply words_le in SW. destruct R as (junk & -> & NJ & ST). rewrite app_length in SW. destruct q as [|c q].
    + cbn [length] in *. destruct s; [congruence|]. cbn [length]. lia.
    + destruct ST as [<-|[]]. destruct M as [[E _]|(NB & _)]; [injection E as <-; cbn [length] in *; lia|]. exfalso. apply NB. exists q. reflexivity.
Qed.
Lemma at_end_false s : s <> [] -> at_end s = false.
Proof. destruct s; [congruence|reflexivity]. Qed.
Lemma lines_eval p s p' : oops_lines p s p' -> forall fuel, length s < fuel -> koops_loop fuel (state_of p) s = Ok (state_of p', []).
Proof.
  induction 1 as [p|p s t NE PT LL|p s t p' q b q' p'' NE PT NL OL M OS IH]; intros fuel F; (destruct fuel as [|fuel]; [lia|]); cbn [koops_loop].
  - reflexivity.
  - rewrite at_end_false by exact NE. rewrite (line_last _ _ _ PT LL). reflexivity.
  - rewrite at_end_false by exact NE. rewrite (line_eval _ _ _ _ _ PT NL OL). cbn [bind]. pose proof (line_shrinks _ _ _ _ _ _ _ NE PT OL M) as Hl. apply maybe_iff in M. rewrite M. apply IH. lia.
Qed.
Lemma lines_total : forall n s, length s <= n -> forall p, exists p', oops_lines p s p'.
Proof.
  induction n as [|n IH]; intros s Hn p.
  { destruct s; [|cbn in Hn; lia]. exists p. constructor. }
  destruct s as [|c s]; [exists p; constructor|]. assert (NE : c :: s <> []) by discriminate. remember (c :: s) as u. clear Hequ.
  destruct (last_line_dec (skip_blanks (match sr_koops_skip_timestamp (skip_blanks u) with Some r => r | None => skip_blanks u end))) as [LL|NL];
    (pose proof (proj2 (timestamp_past u _) eq_refl) as PT); set (t := skip_blanks _) in *; clearbody t.
  - exists p. eapply os_last; eassumption.
  - destruct (line_total p t) as (p' & q & OL). destruct (sr_skip_char nl q) as [b q'] eqn:M. apply maybe_iff in M.
    pose proof (line_shrinks _ _ _ _ _ _ _ NE PT OL M) as Hl. destruct (IH q' ltac:(lia) p') as (p'' & OS). exists p''. eapply os_line; eassumption.
Qed.
Lemma state_of_inj p p' : state_of p = state_of p' -> p = p'.
Proof. destruct p as [[[? ?] ?] ?], p' as [[[? ?] ?] ?]. cbn. intros H. injection H as <- <- <- <-. reflexivity. Qed.
Lemma lines_fun p s p1 p2 : oops_lines p s p1 -> oops_lines p s p2 -> p1 = p2.
Proof.
  intros H1 H2. apply lines_eval with (fuel := S (length s)) in H1; [|lia]. apply lines_eval with (fuel := S (length s)) in H2; [|lia].
  rewrite H1 in H2. apply ok_inj in H2. injection H2 as H2. apply state_of_inj, H2.
Qed.
(** The first line. *)
Lemma span_line s line r : s = line ++ r -> ~ In nl line -> stops_at [nl] r -> fst (span (fun c => negb (Ascii.eqb c nl)) s) = line.
Proof.
  intros -> N ST. induction line as [|c line IH].
  - cbn [app]. destruct r as [|c r]; [reflexivity|]. destruct ST as [<-|[]]. reflexivity.
  - cbn [app span]. cbn [In] in N. destruct (Ascii.eqb_spec c nl) as [->|NE]; [exfalso; apply N; auto|]. cbn [negb].
    destruct (span (fun c0 => negb (Ascii.eqb c0 nl)) (line ++ r)) as [a b]. cbn [fst] in *. f_equal. apply IH. auto.
Qed.
Lemma line_exists s : exists line r, s = line ++ r /\ ~ In nl line /\ stops_at [nl] r.
Proof. destruct (rest_of_line_self s) as (junk & E & N & ST). eauto. Qed.
Theorem koops_parse_cases s : exists ms ip label fs line r, oops_lines nothing_yet s (ms, ip, label, fs) /\ s = line ++ r /\ ~ In nl line /\ stops_at [nl] r /\
  sr_koops_stacktrace_parse s = Ok (mk_koops_stacktrace None (snd (parse_taint_flags s no_taint)) ms (Some s) fs (Some line), []).
Proof.
  destruct (lines_total (length s) s (le_n _) nothing_yet) as ([[[ms ip] label] fs] & OS). destruct (line_exists s) as (line & r & E & N & ST).
  exists ms, ip, label, fs, line, r. split; [exact OS|]. split; [exact E|]. split; [exact N|]. split; [exact ST|].
  unfold sr_koops_stacktrace_parse. cbv zeta. change (mk_koops_state None false None []) with (state_of nothing_yet).
  rewrite (lines_eval _ _ _ OS) by lia. cbn [bind state_of st_modules st_frames]. rewrite (span_line s line r E N ST). reflexivity.
Qed.
