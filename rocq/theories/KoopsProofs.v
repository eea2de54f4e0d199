(** * Words and frames of an oops. *)
From Verif Require Import Base Types UtilsSpec UtilsModel UtilsProofs ParseSpec ParseModel ParseProofs JavaParseModel KoopsModel KoopsSpec.
Open Scope nat_scope.

Lemma blank_in c : In c blanks <-> blank_char c.
Proof. unfold blanks, blank_char. cbn [In]. split; [intros [H|[H|[]]]; auto|intros [H|H]; auto]. Qed.
Lemma gap_span s r : gap s r <-> exists n, sr_skip_char_span blanks s = (n, r).
Proof.
  split.
  - intros (ws & -> & H & N). exists (length ws). apply skip_span_iff. exists ws. split; [reflexivity|]. split; [reflexivity|]. split.
    + eapply Forall_impl; [|exact H]. intros c. apply blank_in.
    + destruct r as [|c r]; [exact Logic.I|]. rewrite blank_in. exact N.
  - intros (n & H). apply skip_span_iff in H as (ws & -> & _ & H & N). exists ws. split; [reflexivity|]. split.
    + eapply Forall_impl; [|exact H]. intros c. apply blank_in.
    + destruct r as [|c r]; [exact Logic.I|]. rewrite <- blank_in. exact N.
Qed.
Lemma gap_eval s r : gap s r -> skip_blanks s = r.
Proof. intros H. apply gap_span in H as (n & H). unfold skip_blanks. rewrite H. reflexivity. Qed.
Lemma gap_self s : gap s (skip_blanks s).
Proof. unfold skip_blanks. destruct (sr_skip_char_span blanks s) as [n r] eqn:E. apply gap_span. exists n. exact E. Qed.
Lemma gap_fun s r r' : gap s r -> gap s r' -> r = r'.
Proof. intros H H'. apply gap_eval in H, H'. congruence. Qed.
Lemma gap_le s r : gap s r -> length r <= length s.
Proof. intros (ws & -> & _). rewrite app_length. lia. Qed.
Lemma maybe_iff c s b r : sr_skip_char c s = (b, r) <-> maybe c s b r.
Proof.
  destruct (skip_char_cases c s) as [(q & -> & E)|[N E]]; rewrite E; split.
  - intros H. injection H as <- <-. left. auto.
  - intros [[H ->]|(H & _)]; [injection H as ->; reflexivity|]. exfalso. apply H. exists q. reflexivity.
  - intros H. injection H as <- <-. right. auto.
  - intros [[-> _]|(_ & -> & ->)]; [|reflexivity]. exfalso. apply N. exists r. reflexivity.
Qed.
Lemma closes_iff (due : bool) c s r : (if due then sr_skip_char c s else (true, s)) = (true, r) <-> closes due c s r.
Proof.
  unfold closes. destruct due; [|split; [intros H; injection H as <-; reflexivity|intros ->; reflexivity]].
  rewrite maybe_iff. unfold maybe. split; [intros [[-> _]|(_ & _ & H)]; [reflexivity|discriminate]|auto].
Qed.
Lemma line_end_iff s r : end_of_line s = Some r <-> line_end s r.
Proof.
  unfold end_of_line, line_end. destruct s as [|c s].
  - split; [intros H; injection H as <-; auto|intros [H|[_ ->]]; [discriminate|reflexivity]].
  - destruct (sr_skip_char nl (c :: s)) as [b q] eqn:E. apply maybe_iff in E as [[H ->]|(H & -> & ->)].
    + rewrite H. split; [intros E; injection E as <-; auto|intros [E|[E _]]; [injection E as ->; reflexivity|discriminate]].
    + split; [discriminate|]. intros [E|[E _]]; [|discriminate]. exfalso. apply H. exists r. exact E.
Qed.

(** ** Numbers *)
Lemma hex_max s v r : hex_run s v r <-> exists ds, max_run (is_numeral_char hexadecimal_digit) s ds r /\ hexadecimal64 ds v.
Proof.
  split.
  - intros (ds & -> & H & N). exists ds. split; [|exact H]. split; [reflexivity|]. split.
    + destruct H as [H _]. apply (numeral_horner _ _ _ digit_val_hex) in H as (_ & _ & H). eapply Forall_impl; [|exact H].
      intros c Hc. destruct (hexdigits_hex c Hc) as [d E]. unfold is_numeral_char. congruence.
    + destruct r; [exact Logic.I|exact N].
  - intros (ds & (-> & _ & N) & H). exists ds. split; [reflexivity|]. split; [exact H|]. destruct r; [exact id|exact N].
Qed.
Lemma hex_run_iff s v r : (exists n, sr_parse_hexadecimal_uint64 s = Some (v, n, r)) <-> hex_run s v r.
Proof.
  rewrite hex_max. pose proof (parse_hex_correct s) as H. destruct (sr_parse_hexadecimal_uint64 s) as [[[v' n'] r']|].
  - destruct H as (ds & Hm & Hn & -> & Hv). split.
    + intros (n & E). injection E as <- <- <-. exists ds. split; [exact Hm|]. split; assumption.
    + intros (ds' & Hm' & [Hn' _]). destruct (max_run_unique _ _ _ _ _ _ Hm Hm') as [<- <-].
      exists (length ds). rewrite (numeral_fun hexadecimal_digit 16 hexdigits digit_val_hex ds v v' Hn' Hn). reflexivity.
  - split; [intros (n & E); discriminate|]. intros (ds & Hm & Hn & Hv). exfalso. exact (H _ _ _ Hm Hn Hv).
Qed.
Lemma hex_run_eval s v r : hex_run s v r -> exists n, sr_parse_hexadecimal_uint64 s = Some (v, n, r).
Proof. apply hex_run_iff. Qed.
Lemma hex_run_fun s v r v' r' : hex_run s v r -> hex_run s v' r' -> v = v' /\ r = r'.
Proof. intros H H'. apply hex_run_eval in H as [n H], H' as [n' H']. split; congruence. Qed.
Lemma hex_0x_iff s v r : (exists n, sr_parse_hexadecimal_0xuint64 s = Some (v, n, r)) <-> hex_0x s v r.
Proof.
  unfold sr_parse_hexadecimal_0xuint64, hex_0x. split.
  - intros (n & H). destruct (sr_skip_char "0" s) as [b s1] eqn:E1. apply maybe_iff in E1 as [[-> ->]|(_ & _ & ->)]; [|discriminate]. cbn [negb] in H.
    destruct (sr_skip_char "x" s1) as [b s2] eqn:E2. apply maybe_iff in E2 as [[-> ->]|(_ & _ & ->)]; [|discriminate]. cbn [negb] in H.
    destruct (sr_parse_hexadecimal_uint64 s2) as [[[v' n'] s3]|] eqn:E3; [|discriminate]. injection H as <- <- <-.
    exists s2. split; [reflexivity|]. apply hex_run_iff. exists n'. exact E3.
  - intros (q & -> & H). apply hex_run_eval in H as [n H].
    change (sr_skip_char "0" (L "0x" ++ q)) with (true, "x"%char :: q). cbn [negb].
    change (sr_skip_char "x" ("x"%char :: q)) with (true, q). cbn [negb]. rewrite H. eexists. reflexivity.
Qed.
Lemma hex_0x_eval s v r : hex_0x s v r -> exists n, sr_parse_hexadecimal_0xuint64 s = Some (v, n, r).
Proof. apply hex_0x_iff. Qed.
Lemma hex_0x_none s : sr_parse_hexadecimal_0xuint64 s = None <-> forall v r, ~ hex_0x s v r.
Proof.
  split.
  - intros H v r H'. apply hex_0x_eval in H' as [n H']. congruence.
  - intros H. destruct (sr_parse_hexadecimal_0xuint64 s) as [[[v n] r]|] eqn:E; [|reflexivity]. exfalso. apply (H v r), hex_0x_iff. exists n. exact E.
Qed.
Lemma number_iff s v r : hex_or_zero s = (v, r) <-> number s v r.
Proof.
  unfold hex_or_zero, number. destruct (sr_parse_hexadecimal_0xuint64 s) as [[[n k] q]|] eqn:E.
  - assert (H : hex_0x s n q) by (apply hex_0x_iff; exists k; exact E). split.
    + intros X. injection X as <- <-. left. exists n. auto.
    + intros [(n' & H' & ->)|(N & _)]; [|destruct (N _ _ H)]. apply hex_0x_eval in H' as [k' H']. rewrite E in H'. injection H' as -> -> ->. reflexivity.
  - assert (N := proj1 (hex_0x_none s) E). split.
    + intros X. injection X as <- <-. right. auto.
    + intros [(n' & H' & _)|(_ & -> & ->)]; [destruct (N _ _ H')|reflexivity].
Qed.
Lemma not_hex_head s c r v t : s = c :: r -> hexadecimal_digit c = None -> ~ hex_run s v t.
Proof.
  intros -> H (ds & E & [N _] & _). apply (numeral_horner _ _ _ digit_val_hex) in N as (_ & NE & F). destruct ds as [|x ds]; [congruence|].
  injection E as <- _. inversion F as [|? ? Hc _]; subst. destruct (hexdigits_hex c Hc) as [d E]. congruence.
Qed.

(** ** Addresses *)
Definition angle_split (s : str) : bool * str := sr_skip_char "<" s.
Lemma address_iff s v r : sr_koops_parse_address s = (Some v, Some r) <-> address s v r.
Proof.
  unfold sr_koops_parse_address, address. split.
  - destruct (sr_skip_char "[" s) as [b s1] eqn:E1. apply maybe_iff in E1 as [[-> ->]|(_ & _ & ->)]; [|discriminate]. cbn [negb].
    destruct (sr_skip_char "<" s1) as [angle s2] eqn:E2. apply maybe_iff in E2.
    destruct (sr_parse_hexadecimal_uint64 s2) as [[[v' n'] s3]|] eqn:E3; [|discriminate].
    assert (H3 : hex_run s2 v' s3) by (apply hex_run_iff; exists n'; exact E3).
    destruct (if angle then sr_skip_char ">" s3 else (true, s3)) as [b s4] eqn:E4. destruct b; [|discriminate]. apply closes_iff in E4. cbn [negb].
    destruct (sr_skip_char "]" s4) as [b s5] eqn:E5. apply maybe_iff in E5 as [[-> ->]|(_ & _ & ->)]; [|discriminate]. cbn [negb].
    intros H. injection H as <- <-. exists s2. destruct E2 as [[-> ->]|(_ & -> & ->)]; cbn [closes] in E4; subst s3; [left|right]; split; auto.
  - intros (q & [[-> H]|[-> H]]).
    + change (sr_skip_char "[" (L "[<" ++ q)) with (true, "<"%char :: q). cbn [negb].
      change (sr_skip_char "<" ("<"%char :: q)) with (true, q). apply hex_run_eval in H as [n ->]. reflexivity.
    + change (sr_skip_char "[" (L "[" ++ q)) with (true, q). cbn [negb].
      destruct (sr_skip_char "<" q) as [angle s2] eqn:E2. apply maybe_iff in E2 as [[-> ->]|(_ & -> & ->)].
      * exfalso. eapply not_hex_head; [reflexivity| |exact H]. reflexivity.
      * apply hex_run_eval in H as [n ->]. reflexivity.
Qed.
Lemma address_some s o r : sr_koops_parse_address s = (o, Some r) -> exists v, o = Some v.
Proof.
  unfold sr_koops_parse_address. destruct (sr_skip_char "[" s) as [[] s1]; cbn [negb]; [|discriminate].
  destruct (sr_skip_char "<" s1) as [angle s2]. destruct (sr_parse_hexadecimal_uint64 s2) as [[[v n] s3]|]; [|discriminate].
  destruct (if angle then _ else _) as [[] s4]; cbn [negb]; [|discriminate]. destruct (sr_skip_char "]" s4) as [[] s5]; cbn [negb]; [|discriminate].
  intros H. injection H as <- _. eauto.
Qed.
(** What the parser does: either way. *)
Lemma address_cases s : (exists v r, address s v r /\ sr_koops_parse_address s = (Some v, Some r)) \/
  ((forall v r, ~ address s v r) /\ exists o, sr_koops_parse_address s = (o, None)).
Proof.
  destruct (sr_koops_parse_address s) as [o [r|]] eqn:E.
  - left. destruct (address_some _ _ _ E) as [v ->]. exists v, r. split; [apply address_iff, E|reflexivity].
  - right. split; [|eauto]. intros v r H. apply address_iff in H. congruence.
Qed.
Lemma address_fun s v r v' r' : address s v r -> address s v' r' -> v = v' /\ r = r'.
Proof. intros H H'. apply address_iff in H, H'. split; congruence. Qed.
Lemma seen_iff s v : fst (sr_koops_parse_address s) = Some v <-> address_seen s v.
Proof.
  unfold sr_koops_parse_address, address_seen.
  assert (K : forall (s2 s3 : str) (angle : bool) (w : N), fst (let '(b, s4) := if angle then sr_skip_char ">" s3 else (true, s3) in
      if negb b then (Some w, None) else let '(b0, s5) := sr_skip_char "]" s4 in if negb b0 then (Some w, None) else (Some w, Some s5)) = Some w).
  { intros s2 s3 angle w. destruct (if angle then _ else _) as [[] s4]; cbn [negb]; [|reflexivity]. destruct (sr_skip_char "]" s4) as [[] s5]; reflexivity. }
  split.
  - destruct (sr_skip_char "[" s) as [b s1] eqn:E1. apply maybe_iff in E1 as [[-> ->]|(_ & _ & ->)]; [|discriminate]. cbn [negb].
    destruct (sr_skip_char "<" s1) as [angle s2] eqn:E2. apply maybe_iff in E2.
    destruct (sr_parse_hexadecimal_uint64 s2) as [[[v' n'] s3]|] eqn:E3; [|discriminate].
    assert (H3 : hex_run s2 v' s3) by (apply hex_run_iff; exists n'; exact E3).
    rewrite K by exact s2. intros H. injection H as <-. exists s2, s3. split; [|exact H3]. destruct E2 as [[-> _]|(_ & -> & _)]; auto.
  - intros (q & r & [->| ->] & H).
    + change (sr_skip_char "[" (L "[<" ++ q)) with (true, "<"%char :: q). cbn [negb].
      change (sr_skip_char "<" ("<"%char :: q)) with (true, q). apply hex_run_eval in H as [n ->]. apply (K q r true).
    + change (sr_skip_char "[" (L "[" ++ q)) with (true, q). cbn [negb].
      destruct (sr_skip_char "<" q) as [angle s2] eqn:E2. apply maybe_iff in E2 as [[-> ->]|(_ & -> & ->)].
      * exfalso. eapply not_hex_head; [reflexivity| |exact H]. reflexivity.
      * apply hex_run_eval in H as [n ->]. apply (K q r false).
Qed.
Lemma left_iff s z : stored 0 (fst (sr_koops_parse_address s)) = z <-> address_left s z.
Proof.
  unfold address_left. destruct (fst (sr_koops_parse_address s)) as [v|] eqn:E; cbn [stored].
  - pose proof (proj1 (seen_iff s v) E) as H. split; [intros <-; left; eauto|]. intros [(n & H' & ->)|[N _]]; [|destruct (N _ H)].
    apply seen_iff in H'. congruence.
  - assert (N : forall n, ~ address_seen s n) by (intros n H; apply seen_iff in H; congruence).
    split; [intros <-; right; auto|]. intros [(n & H' & ->)|[_ ->]]; [destruct (N _ H')|reflexivity].
Qed.

(** ** Modules *)
Lemma module_iff s m r : sr_koops_parse_module_name s = Some (m, r) <-> module_word s m r.
Proof.
  unfold sr_koops_parse_module_name, module_word. split.
  - destruct (sr_skip_char "[" s) as [b s1] eqn:E1. apply maybe_iff in E1 as [[-> ->]|(_ & _ & ->)]; [|discriminate]. cbn [negb].
    destruct (sr_parse_char_cspan _ s1) as [[m' s2]|] eqn:E2; [|discriminate]. apply cspan_iff in E2 as (-> & NE & W & _).
    destruct (sr_skip_char "]" s2) as [b s3] eqn:E3. apply maybe_iff in E3 as [[-> ->]|(_ & _ & ->)]; [|discriminate]. cbn [negb].
    intros H. injection H as <- <-. split; [reflexivity|]. split; [exact NE|exact W].
  - intros (-> & NE & W). change (sr_skip_char "[" (L "[" ++ m ++ L "]" ++ r)) with (true, m ++ L "]" ++ r). cbn [negb].
    replace (sr_parse_char_cspan (sp :: tab :: nl :: L "]") (m ++ L "]" ++ r)) with (Some (m, L "]" ++ r)); [reflexivity|].
    symmetry. apply cspan_iff. split; [reflexivity|]. split; [exact NE|]. split; [exact W|]. cbn. auto.
Qed.
Lemma module_none s : sr_koops_parse_module_name s = None <-> forall m r, ~ module_word s m r.
Proof.
  split; [intros H m r H'; apply module_iff in H'; congruence|].
  intros H. destruct (sr_koops_parse_module_name s) as [[m r]|] eqn:E; [|reflexivity]. exfalso. apply (H m r), module_iff, E.
Qed.
Lemma maybe_module_iff s m r :
  (match sr_koops_parse_module_name s with Some (w, q) => (Some w, q) | None => (None, s) end) = (m, r) <-> maybe_module s m r.
Proof.
  unfold maybe_module. destruct (sr_koops_parse_module_name s) as [[w q]|] eqn:E.
  - pose proof (proj1 (module_iff s w q) E) as H. split.
    + intros X. injection X as <- <-. left. eauto.
    + intros [(w' & H' & ->)|(N & _)]; [|destruct (N _ _ H)]. apply module_iff in H'. rewrite E in H'. injection H' as -> ->. reflexivity.
  - pose proof (proj1 (module_none s) E) as N. split.
    + intros X. injection X as <- <-. right. auto.
    + intros [(w' & H' & _)|(_ & -> & ->)]; [destruct (N _ _ H')|reflexivity].
Qed.

(** ** Functions *)
Lemma name_stop name t : name_word name -> stops_at (sp :: tab :: nl :: L ")+<") t ->
  sr_parse_char_cspan (sp :: tab :: nl :: L ")+<") (name ++ t) = Some (name, t).
Proof. intros [NE W] H. apply cspan_iff. split; [reflexivity|]. split; [exact NE|]. split; [exact W|exact H]. Qed.
Lemma function_iff s f r : sr_koops_parse_function s = Some (f, r) <-> function s f r.
Proof.
  unfold sr_koops_parse_function, function. split.
  - destruct (sr_skip_char "(" s) as [paren q] eqn:E1. apply maybe_iff in E1. intros H. exists paren, q. split; [exact E1|].
    destruct (sr_parse_hexadecimal_0xuint64 q) as [[[n k] t]|] eqn:E2.
    + left. exists n, t. split; [apply hex_0x_iff; eauto|]. destruct (if paren then sr_skip_char ")" t else (true, t)) as [b t'] eqn:E3.
      destruct b; [|discriminate]. apply closes_iff in E3. cbn [negb] in H. injection H as <- <-. split; [exact E3|reflexivity].
    + right. split; [apply hex_0x_none, E2|]. destruct (sr_parse_char_cspan _ q) as [[name q1]|] eqn:E3; [|discriminate]. apply cspan_iff in E3 as (-> & NE & W & _).
      destruct (sr_skip_char "+" q1) as [b t1] eqn:E4. apply maybe_iff in E4 as [[-> ->]|(_ & _ & ->)]; [|discriminate]. cbn [negb] in H.
      destruct (hex_or_zero t1) as [offset q2] eqn:E5. apply number_iff in E5.
      destruct (sr_skip_char "/" q2) as [b t2] eqn:E6. apply maybe_iff in E6 as [[-> ->]|(_ & _ & ->)]; [|discriminate]. cbn [negb] in H.
      destruct (hex_or_zero t2) as [len t3] eqn:E7. apply number_iff in E7.
      destruct (match sr_koops_parse_module_name (skip_blanks t3) with Some (m, q) => (Some m, q) | None => (None, skip_blanks t3) end) as [module t5] eqn:E8.
      apply maybe_module_iff in E8. destruct (if paren then sr_skip_char ")" (skip_blanks t5) else (true, skip_blanks t5)) as [b t6] eqn:E9. destruct b; [|discriminate].
      apply closes_iff in E9. cbn [negb] in H. injection H as <- <-.
      exists name, offset, len, module, t1, t2, t3, (skip_blanks t3), t5, (skip_blanks t5).
      split; [reflexivity|]. split; [split; assumption|]. split; [exact E5|]. split; [exact E7|]. split; [apply gap_self|]. split; [exact E8|]. split; [apply gap_self|]. split; [exact E9|reflexivity].
  - intros (paren & q & M & H). apply maybe_iff in M. rewrite M. destruct H as [(n & t & H & C & ->)|(N & name & offset & len & module & t1 & t2 & t3 & t4 & t5 & t6 & -> & NW & O & Ln & G1 & MM & G2 & C & ->)].
    + apply hex_0x_eval in H as [k ->]. apply closes_iff in C. rewrite C. reflexivity.
    + apply hex_0x_none in N. rewrite N. rewrite name_stop by (exact NW || (cbn; auto 10)).
      change (sr_skip_char "+" (L "+" ++ t1)) with (true, t1). cbn [negb]. apply number_iff in O. rewrite O.
      change (sr_skip_char "/" (L "/" ++ t2)) with (true, t2). cbn [negb]. apply number_iff in Ln. rewrite Ln.
      apply gap_eval in G1. rewrite G1. apply maybe_module_iff in MM. rewrite MM. apply gap_eval in G2. rewrite G2. apply closes_iff in C. rewrite C. reflexivity.
Qed.
Lemma function_fun s f r f' r' : function s f r -> function s f' r' -> f = f' /\ r = r'.
Proof. intros H H'. apply function_iff in H, H'. split; congruence. Qed.

(** ** Frames *)
Lemma ppc_iff s f rest : koops_frame_parse_ppc s = Some (f, rest) <-> ppc_frame s f rest.
Proof.
  unfold koops_frame_parse_ppc, ppc_frame. split.
  - intros H. pose proof (gap_self s) as G0. set (t0 := skip_blanks s) in *. clearbody t0.
    destruct (address_cases t0) as [(a0 & t1 & A0 & E)|[_ (o & E)]]; rewrite E in H; [|discriminate].
    pose proof (gap_self t1) as G1. set (t2 := skip_blanks t1) in *. clearbody t2.
    destruct (address_cases t2) as [(a & t3 & A & E')|[_ (o & E')]]; rewrite E' in H; [|discriminate]. cbn [stored] in H.
    pose proof (gap_self t3) as G2. set (t4 := skip_blanks t3) in *. clearbody t4.
    destruct (sr_skip_char "." t4) as [dot t5] eqn:E2. apply maybe_iff in E2.
    destruct (sr_koops_parse_function t5) as [[fn t6]|] eqn:E3; [|discriminate]. apply function_iff in E3.
    pose proof (gap_self t6) as G3. set (t7 := skip_blanks t6) in *. clearbody t7.
    destruct (skip_string_cases (L "(unreliable)") t7) as [(t8 & Et & E4)|[Nb E4]]; rewrite E4 in H.
    + destruct (end_of_line (skip_blanks t8)) as [q|] eqn:E5; [|discriminate]. apply line_end_iff in E5. injection H as <- <-.
      exists a0, a, fn, t0, t1, t2, t3, t4, t5, t6, t7, t8, dot, true. split; [exact G0|]. split; [exact A0|]. split; [exact G1|]. split; [exact A|].
      split; [exact G2|]. split; [exact E2|]. split; [exact E3|]. split; [exact G3|]. split; [left; auto|]. split; [eexists; split; [apply gap_self|exact E5]|reflexivity].
    + destruct (end_of_line (skip_blanks t7)) as [q|] eqn:E5; [|discriminate]. apply line_end_iff in E5. injection H as <- <-.
      exists a0, a, fn, t0, t1, t2, t3, t4, t5, t6, t7, t7, dot, false. split; [exact G0|]. split; [exact A0|]. split; [exact G1|]. split; [exact A|].
      split; [exact G2|]. split; [exact E2|]. split; [exact E3|]. split; [exact G3|]. split; [right; auto|]. split; [eexists; split; [apply gap_self|exact E5]|reflexivity].
  - intros (a0 & a & fn & t0 & t1 & t2 & t3 & t4 & t5 & t6 & t7 & t8 & dot & unreliable & G0 & A0 & G1 & A & G2 & M & F & G3 & U & (t9 & G4 & LE) & ->).
    apply gap_eval in G0, G1, G2, G3, G4. apply address_iff in A0, A. apply maybe_iff in M. apply function_iff in F. apply line_end_iff in LE.
    rewrite G0, A0, G1, A, G2, M, F, G3. destruct U as [[-> ->]|(Nb & -> & ->)].
    + rewrite skip_string_ok. rewrite G4, LE. reflexivity.
    + destruct (skip_string_cases (L "(unreliable)") t7) as [(q & -> & _)|[_ E]]; [exfalso; apply Nb; exists q; reflexivity|]. rewrite E, G4, LE. reflexivity.
Qed.
Lemma arm_iff s f rest : koops_frame_parse_arm_reduced s = Some (f, rest) <-> arm_frame s f rest.
Proof.
  unfold koops_frame_parse_arm_reduced, arm_frame. split.
  - intros H. pose proof (gap_self s) as G0. set (t0 := skip_blanks s) in *. clearbody t0.
    destruct (address_cases t0) as [(a & t1 & A & E)|[_ (o & E)]]; rewrite E in H; [|discriminate]. cbn [stored] in H.
    pose proof (gap_self t1) as G1. set (t2 := skip_blanks t1) in *. clearbody t2.
    destruct (sr_skip_char "?" t2) as [question t3] eqn:E2. apply maybe_iff in E2.
    pose proof (gap_self t3) as G2. set (t4 := skip_blanks t3) in *. clearbody t4.
    destruct (sr_skip_char "(" t4) as [b u] eqn:E3. apply maybe_iff in E3 as [[-> ->]|(_ & _ & ->)]; [|discriminate]. cbn [negb] in H.
    destruct (sr_parse_char_cspan _ u) as [[name u1]|] eqn:E4; [|discriminate]. apply cspan_iff in E4 as (-> & NE & W & _).
    destruct (sr_skip_char ")" u1) as [b t5] eqn:E5. apply maybe_iff in E5 as [[-> ->]|(_ & _ & ->)]; [|discriminate]. cbn [negb] in H.
    pose proof (gap_self t5) as G3. set (t6 := skip_blanks t5) in *. clearbody t6.
    destruct (skip_string_cases (L "from") t6) as [(t7 & -> & E6)|[_ E6]]; rewrite E6 in H; [|discriminate]. change (length (L "from") =? 0) with false in H. cbn iota in H.
    pose proof (gap_self t7) as G4. set (t8 := skip_blanks t7) in *. clearbody t8.
    destruct (address_cases t8) as [(a' & t9 & A' & E')|[_ (o & E')]]; rewrite E' in H; [|discriminate]. cbn [stored] in H.
    destruct (sr_koops_parse_function (skip_blanks t9)) as [[g q]|] eqn:E7; [|discriminate]. apply function_iff in E7. injection H as <- <-.
    exists a, a', name, g, t0, t1, t2, t3, ("("%char :: name ++ ")"%char :: t5), t5, (L "from" ++ t7), t7, t8, t9, question.
    split; [exact G0|]. split; [exact A|]. split; [exact G1|]. split; [exact E2|]. split; [exact G2|]. split; [reflexivity|]. split; [split; assumption|].
    split; [exact G3|]. split; [reflexivity|]. split; [exact G4|]. split; [exact A'|]. split; [eexists; split; [apply gap_self|exact E7]|reflexivity].
  - intros (a & b & name & g & t0 & t1 & t2 & t3 & t4 & t5 & t6 & t7 & t8 & t9 & question & G0 & A & G1 & M & G2 & -> & NW & G3 & -> & G4 & A' & (t10 & G5 & F) & ->).
    apply gap_eval in G0, G1, G2, G3, G4, G5. apply address_iff in A, A'. apply maybe_iff in M. apply function_iff in F.
    rewrite G0, A, G1, M, G2. change (sr_skip_char "(" (L "(" ++ name ++ L ")" ++ t5)) with (true, name ++ L ")" ++ t5). cbn [negb].
    rewrite name_stop by (exact NW || (cbn; auto 10)). change (sr_skip_char ")" (L ")" ++ t5)) with (true, t5). cbn [negb].
    rewrite G3, skip_string_ok. change (length (L "from") =? 0) with false. cbn iota. rewrite G4, A', G5, F. reflexivity.
Qed.
Lemma caller_iff s a g r : koops_from s = Some (a, g, r) <-> caller s a g r.
Proof.
  unfold koops_from, caller. split.
  - intros H. destruct (skip_string_cases (L "from") s) as [(t1 & -> & E)|[N E]]; rewrite E in H.
    + change (length (L "from") =? 0) with false in H. cbn iota in H. pose proof (gap_self t1) as G1. set (t2 := skip_blanks t1) in *. clearbody t2.
      destruct (address_cases t2) as [(b & t3 & A & E')|[_ (o & E')]]; rewrite E' in H; [|discriminate]. cbn [stored] in H.
      destruct (sr_koops_parse_function (skip_blanks t3)) as [[g' t5]|] eqn:E7; [|discriminate]. apply function_iff in E7. injection H as <- <- <-.
      right. exists b, t1, t2, t3, (skip_blanks t3), t5. split; [reflexivity|]. split; [exact G1|]. split; [exact A|]. split; [apply gap_self|]. split; [exact E7|]. split; [apply gap_self|reflexivity].
    + cbn [Nat.eqb] in H. injection H as <- <- <-. left. auto.
  - intros [(N & -> & -> & ->)|(b & t1 & t2 & t3 & t4 & t5 & -> & G1 & A & G2 & F & G3 & ->)].
    + destruct (skip_string_cases (L "from") s) as [(q & -> & _)|[_ E]]; [exfalso; apply N; exists q; reflexivity|]. rewrite E. reflexivity.
    + rewrite skip_string_ok. change (length (L "from") =? 0) with false. cbn iota.
      apply gap_eval in G1, G2, G3. apply address_iff in A. apply function_iff in F. rewrite G1, A, G2, F, G3. reflexivity.
Qed.
Lemma late_module_iff s m m' r :
  match m with
  | Some w => (Some w, s)
  | None => match sr_koops_parse_module_name s with Some (w, q) => (Some w, skip_blanks q) | None => (None, s) end
  end = (m', r) <-> late_module s m m' r.
Proof.
  unfold late_module. destruct m as [w|].
  - split; [intros H; injection H as <- <-; auto|intros [-> ->]; reflexivity].
  - destruct (sr_koops_parse_module_name s) as [[w q]|] eqn:E.
    + pose proof (proj1 (module_iff s w q) E) as H. split.
      * intros X. injection X as <- <-. left. exists w, q. split; [exact H|]. split; [reflexivity|apply gap_self].
      * intros [(w' & q' & H' & -> & G)|(N & _)]; [|destruct (N _ _ H)]. apply module_iff in H'. rewrite E in H'. injection H' as -> ->. apply gap_eval in G. rewrite G. reflexivity.
    + pose proof (proj1 (module_none s) E) as N. split.
      * intros X. injection X as <- <-. right. auto.
      * intros [(w' & q' & H' & _)|(_ & -> & ->)]; [destruct (N _ _ H')|reflexivity].
Qed.
Lemma body_iff paren a s f rest : koops_rest paren a s = Some (f, rest) <-> frame_body paren a s f rest.
Proof.
  unfold koops_rest, frame_body. split.
  - intros H. pose proof (gap_self s) as G0. set (t1 := skip_blanks s) in *. clearbody t1.
    destruct (sr_skip_char "?" t1) as [question t2] eqn:E2. apply maybe_iff in E2.
    pose proof (gap_self t2) as G1. set (t3 := skip_blanks t2) in *. clearbody t3.
    destruct (sr_koops_parse_function t3) as [[[[[name offset] len] m] t4]|] eqn:E3; [|discriminate]. apply function_iff in E3.
    pose proof (gap_self t4) as G2. set (t5 := skip_blanks t4) in *. clearbody t5.
    destruct (koops_from t5) as [[[b g] t6]|] eqn:E4; [|discriminate]. apply caller_iff in E4.
    match type of H with (let '(_, _) := ?X in _) = _ => destruct X as [m' t7] eqn:E5 end. apply late_module_iff in E5.
    match type of H with (let '(_, _) := ?X in _) = _ => destruct X as [cl t8] eqn:E6 end. destruct cl; [|discriminate]. apply closes_iff in E6. cbn [negb] in H. cbv zeta in H.
    destruct (end_of_line (if paren then skip_blanks t8 else t8)) as [q|] eqn:E7; [|discriminate]. apply line_end_iff in E7. injection H as <- <-.
    exists question, name, offset, len, m, m', b, g, t1, t2, t3, t4, t5, t6, t7, t8, (if paren then skip_blanks t8 else t8).
    split; [exact G0|]. split; [exact E2|]. split; [exact G1|]. split; [exact E3|]. split; [exact G2|]. split; [exact E4|]. split; [exact E5|]. split; [exact E6|].
    split; [destruct paren; [apply gap_self|reflexivity]|]. split; [exact E7|reflexivity].
  - intros (question & name & offset & len & m & m' & b & g & t1 & t2 & t3 & t4 & t5 & t6 & t7 & t8 & t9 & G0 & M & G1 & F & G2 & C & LM & CL & G3 & LE & ->).
    apply gap_eval in G0, G1, G2. apply maybe_iff in M. apply function_iff in F. apply caller_iff in C. apply late_module_iff in LM. apply closes_iff in CL. apply line_end_iff in LE.
    rewrite G0, M, G1, F, G2, C. cbv zeta. rewrite LM, CL. cbn [negb].
    replace (if paren then skip_blanks t8 else t8) with t9 by (destruct paren; [apply gap_eval in G3; congruence|exact G3]). rewrite LE. reflexivity.
Qed.
Lemma ppc_none s : koops_frame_parse_ppc s = None <-> forall f r, ~ ppc_frame s f r.
Proof.
  split; [intros H f r H'; apply ppc_iff in H'; congruence|].
  intros H. destruct (koops_frame_parse_ppc s) as [[f r]|] eqn:E; [|reflexivity]. exfalso. apply (H f r), ppc_iff, E.
Qed.
Lemma arm_none s : koops_frame_parse_arm_reduced s = None <-> forall f r, ~ arm_frame s f r.
Proof.
  split; [intros H f r H'; apply arm_iff in H'; congruence|].
  intros H. destruct (koops_frame_parse_arm_reduced s) as [[f r]|] eqn:E; [|reflexivity]. exfalso. apply (H f r), arm_iff, E.
Qed.
Definition usual_parse (input : str) : option (koops_frame * str) :=
  let '(parenthesis, s) := sr_skip_char "(" (skip_blanks input) in
  match sr_koops_parse_address s with
  | (address, Some s) => koops_rest parenthesis (stored 0 address) s
  | (address, None) =>
    match sr_parse_hexadecimal_0xuint64 s with
    | Some (v, _, s) =>
      match end_of_line s with
      | None => None
      | Some s => Some (koops_frame_of (Z.of_N v) false no_func 0 no_func, s)
      end
    | None => koops_rest parenthesis (stored 0 address) s
    end
  end.
Lemma usual_iff s f rest : usual_parse s = Some (f, rest) <-> usual_frame s f rest.
Proof.
  unfold usual_parse, usual_frame. split.
  - intros H. destruct (sr_skip_char "(" (skip_blanks s)) as [paren t1] eqn:E1. apply maybe_iff in E1. exists (skip_blanks s), paren, t1.
    split; [apply gap_self|]. split; [exact E1|]. destruct (address_cases t1) as [(a & t2 & A & E)|[N (o & E)]]; rewrite E in H.
    + left. exists a, t2. split; [exact A|]. apply body_iff, H.
    + right. split; [exact N|]. destruct (sr_parse_hexadecimal_0xuint64 t1) as [[[v k] t2]|] eqn:E2.
      * left. destruct (end_of_line t2) as [q|] eqn:E3; [|discriminate]. apply line_end_iff in E3. injection H as <- <-.
        exists v, t2. split; [apply hex_0x_iff; eauto|]. split; [exact E3|reflexivity].
      * right. split; [apply hex_0x_none, E2|]. exists (stored 0 o). split; [apply left_iff; rewrite E; reflexivity|]. apply body_iff, H.
  - intros (t0 & paren & t1 & G & M & H). apply gap_eval in G. rewrite G. apply maybe_iff in M. rewrite M.
    destruct H as [(a & t2 & A & B)|(N & H)].
    + apply address_iff in A. rewrite A. apply body_iff, B.
    + destruct (address_cases t1) as [(a & t2 & A & _)|[_ (o & E)]]; [destruct (N _ _ A)|]. rewrite E.
      destruct H as [(a & t2 & H & LE & ->)|(N2 & a & AL & B)].
      * apply hex_0x_eval in H as [k ->]. apply line_end_iff in LE. rewrite LE. reflexivity.
      * apply hex_0x_none in N2. rewrite N2. apply left_iff in AL. rewrite E in AL. cbn [fst] in AL. rewrite AL. apply body_iff, B.
Qed.
Lemma frame_split s : sr_koops_frame_parse s =
  match koops_frame_parse_ppc s with Some x => Some x | None => match koops_frame_parse_arm_reduced s with Some x => Some x | None => usual_parse s end end.
Proof. reflexivity. Qed.
Theorem frame_iff s f rest : sr_koops_frame_parse s = Some (f, rest) <-> frame_text s f rest.
Proof.
  rewrite frame_split. unfold frame_text. split.
  - destruct (koops_frame_parse_ppc s) as [[f' r']|] eqn:E1.
    + intros H. injection H as -> ->. left. apply ppc_iff, E1.
    + intros H. right. split; [apply ppc_none, E1|]. destruct (koops_frame_parse_arm_reduced s) as [[f' r']|] eqn:E2.
      * injection H as -> ->. left. apply arm_iff, E2.
      * right. split; [apply arm_none, E2|apply usual_iff, H].
  - intros [H|[N [H|[N2 H]]]].
    + apply ppc_iff in H. rewrite H. reflexivity.
    + apply ppc_none in N. rewrite N. apply arm_iff in H. rewrite H. reflexivity.
    + apply ppc_none in N. rewrite N. apply arm_none in N2. rewrite N2. apply usual_iff, H.
Qed.
Lemma frame_none s : sr_koops_frame_parse s = None <-> forall f r, ~ frame_text s f r.
Proof.
  split; [intros H f r H'; apply frame_iff in H'; congruence|].
  intros H. destruct (sr_koops_frame_parse s) as [[f r]|] eqn:E; [|reflexivity]. exfalso. apply (H f r), frame_iff, E.
Qed.
