(** * The gdb parser: names of functions. *)
From Verif Require Import Base Types UtilsModel UtilsSpec UtilsProofs ParseSpec ParseProofs JsParseProofs PyParseProofs GdbParseModel GdbParseSpec.
Open Scope nat_scope.

(** ** Characters *)
Lemma alnum_iff c : In c sr_alnum <-> alnum_char c.
Proof.
  unfold alnum_char. split.
  - intros H. unfold sr_alnum, L in H. cbn [list_ascii_of_string In] in H.
    repeat (destruct H as [<-|H]; [cbv; tauto || (cbv; intuition congruence)|]). destruct H.
  - intros H. apply mem_In.
    destruct c as [[] [] [] [] [] [] [] []]; first [reflexivity|exfalso; cbv in H; intuition congruence].
Qed.
Lemma name_char_iff space c : mem c function_name_chars || (space && Ascii.eqb c sp) = true <-> name_char space c.
Proof.
  unfold name_char, function_name_chars. rewrite orb_true_iff, andb_true_iff, mem_In, ascii_eqb_true, in_app_iff, alnum_iff. tauto.
Qed.
Lemma name_char_false space c : mem c function_name_chars || (space && Ascii.eqb c sp) = false <-> ~ name_char space c.
Proof. rewrite <- name_char_iff. destruct (_ || _); intuition congruence. Qed.
Lemma name_char_dec space c : {name_char space c} + {~ name_char space c}.
Proof.
  destruct (mem c function_name_chars || (space && Ascii.eqb c sp)) eqn:E; [left; apply name_char_iff; exact E|right; apply name_char_false; exact E].
Qed.
Lemma white_iff c : mem c sr_space = true <-> white c.
Proof. rewrite mem_In. unfold sr_space, white. cbn [In]. tauto. Qed.
Lemma white_false c : mem c sr_space = false <-> ~ white c.
Proof. rewrite <- white_iff. destruct (mem _ _); intuition congruence. Qed.
Lemma limited_space s : sr_parse_char_limited sr_space s = match s with c :: r => if mem c sr_space then Some (c, r) else None | [] => None end.
Proof. destruct s; reflexivity. Qed.

(** ** Operators *)
Definition bool_begins (a b : str) : bool := starts_with a b.
Lemma bool_begins_iff a b : bool_begins a b = true <-> begins a b.
Proof. apply starts_with_iff. Qed.
Lemma begins_shorter a b s : begins a s -> begins b s -> length a <= length b -> begins a b.
Proof.
  intros [r ->] [q E] Hl. revert b q E Hl. induction a as [|x a IH]; intros b q E Hl; [exists b; reflexivity|].
  destruct b as [|y b]; [cbn in Hl; lia|]. cbn in E. injection E as -> E. destruct (IH b q E) as [u ->]; [cbn in Hl; lia|]. exists u. reflexivity.
Qed.
Lemma first_word_some words s w r : first_word words s = Some (w, r) -> s = w ++ r /\ exists a b, words = a ++ w :: b /\ w <> [] /\ forall o, In o a -> o <> [] -> ~ begins o s.
Proof.
  induction words as [|v words IH]; cbn [first_word]; [discriminate|].
  destruct (skip_string_cases v s) as [(q & -> & ->)|[Hb ->]].
  - destruct v as [|x v].
    + change (length (@nil ascii)) with 0. cbn [Nat.ltb Nat.leb]. intros E. apply IH in E as [E (a & b & -> & Hw & Ha)]. split; [exact E|].
      exists ([] :: a), b. split; [reflexivity|]. split; [exact Hw|]. intros o [<-|Ho] Hn; [congruence|]. auto.
    + cbn [length Nat.ltb Nat.leb]. intros E. injection E as <- <-. split; [reflexivity|]. exists [], words. split; [reflexivity|]. split; [discriminate|]. intros o [].
  - cbn [Nat.ltb Nat.leb]. intros E. apply IH in E as [E (a & b & -> & Hw & Ha)]. split; [exact E|].
    exists (v :: a), b. split; [reflexivity|]. split; [exact Hw|]. intros o [<-|Ho] Hn; auto.
Qed.
Lemma first_word_none words s : first_word words s = None -> forall o, In o words -> o <> [] -> ~ begins o s.
Proof.
  induction words as [|v words IH]; cbn [first_word]; [intros _ o []|].
  destruct (skip_string_cases v s) as [(q & -> & ->)|[Hb ->]].
  - destruct v as [|x v]; [|cbn [length Nat.ltb Nat.leb]; discriminate].
    change (length (@nil ascii)) with 0. cbn [Nat.ltb Nat.leb]. intros E o [<-|Ho] Hn; [congruence|]. eauto.
  - cbn [Nat.ltb Nat.leb]. intros E o [<-|Ho] Hn; eauto.
Qed.
(** A word of the list that starts with another one is not after it, up to "--" and "-=". *)
Definition dominated (o : str) : bool := str_eqb o (L "--") || str_eqb o (L "-=").
Fixpoint ordered (words : list str) : bool :=
  match words with
  | [] => true
  | w :: words => forallb (fun o => dominated o || negb (bool_begins w o) || str_eqb w o) words && ordered words
  end.
Lemma words_ordered : ordered operator_words = true.
Proof. vm_compute. reflexivity. Qed.
Lemma ordered_split words a w b : ordered words = true -> words = a ++ w :: b ->
  forall o, In o b -> dominated o = true \/ ~ begins w o \/ o = w.
Proof.
  intros H -> o Ho. induction a as [|x a IH]; cbn [app ordered] in H; apply andb_true_iff in H as [H1 H2].
  - rewrite forallb_forall in H1. specialize (H1 o Ho). rewrite !orb_true_iff in H1. destruct H1 as [[H1|H1]|H1].
    + left. exact H1.
    + right. left. intros Hb. apply bool_begins_iff in Hb. rewrite Hb in H1. discriminate.
    + right. right. apply str_eqb_eq in H1. congruence.
  - apply IH. exact H2.
Qed.
Lemma operators_words o : In o cpp_operators <-> In o operator_words /\ dominated o = false.
Proof.
  split.
  - intros H. unfold cpp_operators in H. cbn [In] in H.
    repeat (destruct H as [<-|H]; [split; [unfold operator_words; cbn [In]; tauto|vm_compute; reflexivity]|]). destruct H.
  - intros [H D]. unfold operator_words in H. cbn [In] in H.
    repeat (destruct H as [<-|H]; [first [vm_compute in D; discriminate D|unfold cpp_operators; cbn [In]; tauto]|]). destruct H.
Qed.
Lemma operators_nonempty o : In o operator_words -> o <> [].
Proof.
  intros H. assert (G : forallb (fun w => negb (str_eqb w [])) operator_words = true) by (vm_compute; reflexivity).
  rewrite forallb_forall in G. specialize (G o H). intros ->. discriminate G.
Qed.
(** Each of "--" and "-=" comes after "-". *)
Lemma not_dominated a w b : operator_words = a ++ w :: b -> (forall o, In o a -> ~ begins o w) -> dominated w = false.
Proof.
  intros E Ha. destruct (dominated w) eqn:D; [|reflexivity]. exfalso.
  assert (G : forall words a, words = a ++ w :: b -> (forall o, In o a -> ~ begins o w) ->
    (fix go (seen : bool) ws := match ws with [] => true | v :: ws => (negb (dominated v) || seen) && go (seen || str_eqb v (L "-")) ws end) false words = true -> False).
  { clear -D. intros words a -> Ha.
    assert (K : forall seen, (seen = true -> False) -> (fix go (seen : bool) ws := match ws with [] => true | v :: ws => (negb (dominated v) || seen) && go (seen || str_eqb v (L "-")) ws end) seen (a ++ w :: b) = true -> False).
    { induction a as [|x a IH]; intros seen Hs H.
      - cbn [app] in H. rewrite D in H. destruct seen; [auto|discriminate H].
      - cbn [app] in H. apply andb_true_iff in H as [_ H]. revert H. apply IH.
        + intros o Ho. apply Ha. right. exact Ho.
        + rewrite orb_true_iff. intros [Hs'|He]; [auto|]. apply str_eqb_eq in He. subst x. apply (Ha (L "-")); [left; reflexivity|].
          unfold dominated in D. apply orb_true_iff in D as [D|D]; apply str_eqb_eq in D; subst w; [exists (L "-")|exists (L "=")]; reflexivity. }
    apply K. discriminate. }
  apply (G operator_words a E Ha). vm_compute. reflexivity.
Qed.
Lemma first_word_at s w r : first_word operator_words s = Some (w, r) -> s = w ++ r /\ operator_at s w.
Proof.
  intros E. apply first_word_some in E as [-> (a & b & Ew & Hn & Ha)]. split; [reflexivity|].
  assert (Hin : In w operator_words) by (rewrite Ew; apply in_or_app; right; left; reflexivity).
  assert (Ha' : forall o, In o a -> ~ begins o (w ++ r)).
  { intros o Ho. apply Ha; [exact Ho|]. apply operators_nonempty. rewrite Ew. apply in_or_app. left. exact Ho. }
  split; [|split].
  - apply operators_words. split; [exact Hin|]. apply (not_dominated a w b Ew). intros o Ho [u Hu]. apply (Ha' o Ho). rewrite Hu, <- app_assoc. eexists. reflexivity.
  - exists r. reflexivity.
  - intros o Ho Hb. apply operators_words in Ho as [Ho D]. rewrite Ew in Ho. apply in_app_or in Ho as [Ho|[<-|Ho]]; [exfalso; exact (Ha' o Ho Hb)|lia|].
    destruct (le_lt_dec (length o) (length w)) as [H|H]; [exact H|exfalso].
    assert (Hwo : begins w o) by (eapply begins_shorter; [exists r; reflexivity|exact Hb|lia]).
    destruct (ordered_split _ _ _ _ words_ordered Ew o Ho) as [H1|[H1|H1]]; [congruence|contradiction|subst; lia].
Qed.
Lemma operator_at_fun s v w : operator_at s v -> operator_at s w -> v = w.
Proof.
  intros (Hv & Bv & Mv) (Hw & Bw & Mw). assert (Hl : length v = length w) by (apply Nat.le_antisymm; auto).
  destruct (begins_shorter v w s Bv Bw) as [u ->]; [lia|]. rewrite app_length in Hl. destruct u; [|cbn in Hl; lia]. rewrite app_nil_r. reflexivity.
Qed.
Lemma first_word_operator s w r : first_word operator_words s = Some (w, r) <-> s = w ++ r /\ operator_at s w.
Proof.
  split; [apply first_word_at|].
  intros [-> H]. destruct (first_word operator_words (w ++ r)) as [[v q]|] eqn:E.
  - apply first_word_at in E as [E F]. assert (v = w) by (eapply operator_at_fun; eassumption). subst v. apply app_inv_head in E. congruence.
  - exfalso. destruct H as (Hin & Hb & _). apply operators_words in Hin as [Hin _]. exact (first_word_none _ _ E w Hin (operators_nonempty w Hin) Hb).
Qed.
(** The operator at the start of a text with the space after it, as the loop over a chunk reads it *)
Definition op_step (s : str) : str * str :=
  match sr_gdb_frame_parseadd_operator s with
  | None => ([], s)
  | Some (op, r) =>
    let '(b, r') := sr_skip_char sp r in
    if b then
      let '(b, _) := sr_skip_char "(" r' in
      if b then (op, r) else (op ++ [sp], r')
    else (op, r)
  end.
Lemma begins_cons c s : begins [c] s <-> exists r, s = c :: r.
Proof. reflexivity. Qed.
Lemma operator_name_fun s v u v' u' : s = v ++ u -> s = v' ++ u' -> operator_name v u -> operator_name v' u' -> v = v' /\ u = u'.
Proof.
  intros -> E (o & g & -> & Ho & Hg) (o' & g' & -> & Ho' & Hg').
  rewrite <- !app_assoc in E. apply app_inv_head in E. rewrite E in Ho. assert (o = o') by (eapply operator_at_fun; eassumption). subst o'.
  apply app_inv_head in E. clear Ho Ho'.
  destruct Hg as [[-> Hu]|[-> Hu]], Hg' as [[-> Hu']|[-> Hu']]; cbn [app] in E.
  - injection E as ->. auto.
  - subst u'. exfalso. destruct Hu' as [H|[q H]]; [apply H; exists u; reflexivity|]. injection H as ->. apply Hu. exists q. reflexivity.
  - subst u. exfalso. destruct Hu as [H|[q H]]; [apply H; exists u'; reflexivity|]. injection H as ->. apply Hu'. exists q. reflexivity.
  - auto.
Qed.
Lemma op_step_cases s : (exists v u, s = v ++ u /\ operator_name v u /\ op_step s = (v, u)) \/ (no_operator s /\ op_step s = ([], s)).
Proof.
  unfold op_step, sr_gdb_frame_parseadd_operator.
  destruct (skip_string_cases (L "operator") s) as [(t & -> & ->)|[Hb ->]].
  2:{ right. split; [|reflexivity]. intros v u -> (o & g & -> & _). apply Hb. rewrite <- !app_assoc. eexists. reflexivity. }
  change (length (L "operator") =? 0) with false. cbv iota.
  destruct (first_word operator_words t) as [[o r]|] eqn:E.
  2:{ right. split; [|reflexivity]. intros v u Ev (o & g & -> & Ho & _). rewrite <- !app_assoc in Ev. apply app_inv_head in Ev. subst t.
      pose proof (proj2 (first_word_operator _ o (g ++ u)) (conj eq_refl Ho)). congruence. }
  apply first_word_operator in E as [-> Ho].
  left. destruct (skip_char_cases sp r) as [(r' & -> & ->)|[Hs ->]].
  2:{ exists (L "operator" ++ o), r. rewrite <- app_assoc. split; [reflexivity|]. split; [|reflexivity].
      exists o, []. rewrite app_nil_r. split; [reflexivity|]. split; [exact Ho|]. right. auto. }
  destruct (skip_char_cases "(" r') as [(q & -> & ->)|[Hp ->]].
  - exists (L "operator" ++ o), (sp :: "("%char :: q). rewrite <- app_assoc. split; [reflexivity|]. split; [|reflexivity].
    exists o, []. rewrite app_nil_r. split; [reflexivity|]. split; [exact Ho|]. right. split; [reflexivity|]. right. exists q. reflexivity.
  - exists (L "operator" ++ o ++ [sp]), r'. rewrite <- !app_assoc. split; [reflexivity|]. split; [|reflexivity].
    exists o, [sp]. split; [reflexivity|]. split; [exact Ho|]. left. auto.
Qed.
Lemma op_step_name v u : operator_name v u -> op_step (v ++ u) = (v, u).
Proof.
  intros H. destruct (op_step_cases (v ++ u)) as [(v' & u' & E & H' & ->)|[N _]].
  - edestruct (operator_name_fun (v ++ u) v u v' u') as [-> ->]; auto.
  - exfalso. exact (N v u eq_refl H).
Qed.
Lemma op_step_none s : no_operator s -> op_step s = ([], s).
Proof. intros N. destruct (op_step_cases s) as [(v & u & E & H & _)|[_ ->]]; [exfalso; exact (N v u E H)|reflexivity]. Qed.
Lemma operator_name_nonempty v u : operator_name v u -> exists w, v = "o"%char :: w.
Proof. intros (o & g & -> & _). eexists. reflexivity. Qed.

(** ** Runs *)
Lemma chunk_unfold fuel space c s : chunk_loop (S fuel) space (c :: s) =
  let '(buf, s) := op_step (c :: s) in
  match s with
  | [] => UB
  | c :: r => if mem c function_name_chars || (space && Ascii.eqb c sp) then do (w, r) <- chunk_loop fuel space r; Ok (buf ++ c :: w, r) else Ok (buf, s)
  end.
Proof. reflexivity. Qed.
Lemma run_eval space v r : run space v r -> forall fuel, length (v ++ r) < fuel -> chunk_loop fuel space (v ++ r) = Ok (v, r).
Proof.
  induction 1 as [r Hr|c v r N Hc H IH|o c v r Ho Hc H IH|o c r Ho Hc]; intros [|fuel] Hl; try lia.
  - destruct r as [|c r]; [reflexivity|]. cbn [app]. rewrite chunk_unfold.
    destruct (op_step_cases (c :: r)) as [(v & u & E & Hv & _)|[_ ->]].
    + exfalso. destruct (operator_name_nonempty _ _ Hv) as [w ->]. injection E as -> _. apply Hr. left. left. cbv. split; discriminate.
    + cbv beta iota zeta. apply name_char_false in Hr. rewrite Hr. reflexivity.
  - cbn [app] in *. rewrite chunk_unfold, (op_step_none _ N). cbv beta iota zeta. apply name_char_iff in Hc. rewrite Hc, IH by (cbn [length] in Hl; lia). reflexivity.
  - destruct (operator_name_nonempty _ _ Ho) as [w ->]. rewrite <- app_assoc. cbn [app]. rewrite chunk_unfold.
    change ("o"%char :: w ++ c :: v ++ r) with (("o"%char :: w) ++ c :: v ++ r). rewrite (op_step_name _ _ Ho). cbv beta iota zeta.
    apply name_char_iff in Hc. rewrite Hc, IH; [reflexivity|]. cbn [app length] in Hl. rewrite <- app_assoc, app_length in Hl. cbn [app length] in Hl. lia.
  - destruct (operator_name_nonempty _ _ Ho) as [w ->]. cbn [app]. rewrite chunk_unfold.
    change ("o"%char :: w ++ c :: r) with (("o"%char :: w) ++ c :: r). rewrite (op_step_name _ _ Ho). cbv beta iota zeta.
    apply name_char_false in Hc. rewrite Hc. reflexivity.
Qed.
Lemma run_off_eval space s : run_off space s -> forall fuel, chunk_loop fuel space s = UB.
Proof.
  induction 1 as [o Ho|c s N Hc H IH|o c s Ho Hc H IH]; intros [|fuel]; try reflexivity.
  - destruct (operator_name_nonempty _ _ Ho) as [w ->]. rewrite chunk_unfold.
    pose proof (op_step_name _ _ Ho) as E. rewrite app_nil_r in E. rewrite E. reflexivity.
  - rewrite chunk_unfold, (op_step_none _ N). cbv beta iota zeta. apply name_char_iff in Hc. rewrite Hc, IH. reflexivity.
  - destruct (operator_name_nonempty _ _ Ho) as [w ->]. cbn [app]. rewrite chunk_unfold.
    change ("o"%char :: w ++ c :: s) with (("o"%char :: w) ++ c :: s). rewrite (op_step_name _ _ Ho). cbv beta iota zeta.
    apply name_char_iff in Hc. rewrite Hc, IH. reflexivity.
Qed.
Lemma run_total space s : (exists v r, s = v ++ r /\ run space v r) \/ run_off space s.
Proof.
  remember (length s) as n eqn:Hn. assert (Hl : length s <= n) by lia. clear Hn. revert s Hl.
  induction n as [|n IH]; intros s Hl.
  - destruct s; [|cbn in Hl; lia]. left. exists [], []. split; [reflexivity|]. constructor. exact Logic.I.
  - destruct s as [|c s]; [left; exists [], []; split; [reflexivity|]; constructor; exact Logic.I|].
    destruct (op_step_cases (c :: s)) as [(v & u & E & Hv & _)|[N _]].
    + destruct u as [|x u].
      * right. rewrite E, app_nil_r. apply off_here. exact Hv.
      * destruct (name_char_dec space x) as [Hx|Hx].
        -- destruct (IH u) as [(w & r & -> & Hw)|Hw].
           ++ assert (Hll := f_equal (@length _) E). rewrite app_length in Hll. cbn [length] in Hll, Hl. lia.
           ++ left. exists (v ++ x :: w), r. rewrite <- app_assoc. split; [exact E|]. apply run_op; auto.
           ++ right. rewrite E. apply off_op; auto.
        -- left. exists v, (x :: u). split; [exact E|]. apply run_op_stop; auto.
    + destruct (name_char_dec space c) as [Hc|Hc].
      * destruct (IH s) as [(w & r & -> & Hw)|Hw]; [cbn [length] in Hl; lia| |].
        -- left. exists (c :: w), r. split; [reflexivity|]. apply run_char; auto.
        -- right. apply off_char; auto.
      * left. exists [], (c :: s). split; [reflexivity|]. apply run_stop. exact Hc.
Qed.
(** What a run stops at *)
Lemma run_end space v r : run space v r -> match r with [] => True | c :: _ => ~ name_char space c end.
Proof. induction 1; auto. Qed.
Lemma chunk_run space v r : run space v r -> v <> [] -> sr_gdb_frame_parse_function_name_chunk space (v ++ r) = Ok (v, r).
Proof.
  intros H Hv. unfold sr_gdb_frame_parse_function_name_chunk. rewrite (run_eval _ _ _ H) by lia. cbn [bind]. destruct v; [congruence|reflexivity].
Qed.
Lemma chunk_empty space r : match r with [] => True | c :: _ => ~ name_char space c end -> sr_gdb_frame_parse_function_name_chunk space r = Fail.
Proof.
  intros H. unfold sr_gdb_frame_parse_function_name_chunk. rewrite (run_eval space [] r) by (try constructor; auto; cbn; lia). reflexivity.
Qed.
Lemma chunk_off space s : run_off space s -> sr_gdb_frame_parse_function_name_chunk space s = UB.
Proof. intros H. unfold sr_gdb_frame_parse_function_name_chunk. rewrite (run_off_eval _ _ H). reflexivity. Qed.
Lemma chunk_cases space s : (exists v r, s = v ++ r /\ v <> [] /\ run space v r) \/ match s with [] => True | c :: _ => ~ name_char space c end \/ run_off space s.
Proof.
  destruct (run_total space s) as [(v & r & -> & H)|H]; [|auto]. destruct v as [|c v]; [right; left; apply run_end in H; exact H|]. left. exists (c :: v), r. split; [reflexivity|]. split; [discriminate|exact H].
Qed.
Theorem chunk_exact space s :
  (forall v r, sr_gdb_frame_parse_function_name_chunk space s = Ok (v, r) <-> s = v ++ r /\ v <> [] /\ run space v r) /\
  (sr_gdb_frame_parse_function_name_chunk space s = UB <-> run_off space s).
Proof.
  split; [intros v r; split|split].
  - destruct (chunk_cases space s) as [(w & q & -> & Hw & H)|[H|H]].
    + rewrite (chunk_run _ _ _ H Hw). intros E. injection E as <- <-. auto.
    + rewrite (chunk_empty _ _ H). discriminate.
    + rewrite (chunk_off _ _ H). discriminate.
  - intros (-> & Hv & H). apply chunk_run; auto.
  - destruct (chunk_cases space s) as [(w & q & -> & Hw & H)|[H|H]]; [rewrite (chunk_run _ _ _ H Hw); discriminate|rewrite (chunk_empty _ _ H); discriminate|auto].
  - apply chunk_off.
Qed.
