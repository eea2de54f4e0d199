(** * The gdb parser: names of functions. *)
From Verif Require Import Base Types UtilsModel UtilsSpec UtilsProofs ParseSpec ParseProofs JsParseProofs PyParseProofs GdbParseModel GdbParseSpec GdbParseProofs GdbParseProofs2.
Open Scope nat_scope.

Lemma white_terminal c t : white c -> terminal false (c :: t).
Proof.
  intros H. split; [apply name_char_false|split]; unfold white in H; cbn [In] in H; repeat (destruct H as [<-|H]; [first [reflexivity|discriminate]|]); destruct H.
Qed.
(** ** The first name *)
Definition first_part (s : str) : res (str * str) :=
  do (buf0, s) <- match sr_parse_char_limited (L "~*._" ++ sr_alnum) s with
                  | Some (first, r) => if Ascii.eqb first "o" then Ok ([], s) else Ok ([first], r)
                  | None => sr_gdb_frame_parse_function_name_braces s
                  end;
  do (w, s) <- name_loop (S (length s)) at_top s;
  Ok (buf0 ++ w, s).
Lemma start_iff c : mem c (L "~*._" ++ sr_alnum) = true <-> In c (L "~*._") \/ alnum_char c.
Proof. rewrite mem_In, in_app_iff, alnum_iff. tauto. Qed.
Lemma o_name : name_char false "o".
Proof. apply name_char_iff. reflexivity. Qed.
Lemma top_nonempty fuel c s w r : name_char false c -> name_loop (S fuel) at_top (c :: s) = Ok (w, r) -> exists w', w = c :: w'.
Proof.
  intros Hc. rewrite name_unfold, item_args by (left; reflexivity).
  destruct (chunk_cases (space_of at_top) (c :: s)) as [(v & u & E & Hn & Hv)|[H|H]].
  - rewrite E, (chunk_run _ _ _ Hv Hn). cbn [or_else]. destruct v as [|x v]; [congruence|]. injection E as <- _.
    destruct (name_loop fuel at_top u) as [[w' r']| |]; cbn [bind]; [|discriminate|discriminate]. intros E. injection E as <- <-. eexists. reflexivity.
  - contradiction.
  - rewrite (chunk_off _ _ H). discriminate.
Qed.
Lemma first_start c s : start_char c -> first_part (c :: s) = do (w, r) <- name_loop (S (length s)) at_top s; Ok (c :: w, r).
Proof.
  intros [H1 H2]. unfold first_part. cbn [sr_parse_char_limited]. rewrite (proj2 (start_iff c) H1). apply ascii_eqb_false in H2. rewrite H2. reflexivity.
Qed.
Lemma first_o s : first_part ("o"%char :: s) = name_loop (S (length ("o"%char :: s))) at_top ("o"%char :: s).
Proof.
  unfold first_part. cbn [sr_parse_char_limited]. change (mem "o" (L "~*._" ++ sr_alnum)) with true. cbv iota.
  change (Ascii.eqb "o" "o") with true. cbv iota. cbn [bind]. destruct (name_loop _ _ _) as [[w r]| |]; reflexivity.
Qed.
Lemma first_braces s : first_part ("("%char :: s) =
  do (buf0, s) <- brk (S (length s)) in_braces "("%char ")"%char ("("%char :: s); do (w, s) <- name_loop (S (length s)) at_top s; Ok (buf0 ++ w, s).
Proof. reflexivity. Qed.
Lemma first_other s : (forall c t, s = c :: t -> ~ start_char c /\ c <> "o"%char /\ c <> "("%char) -> first_part s = Fail.
Proof.
  intros H. destruct s as [|c s]; [reflexivity|]. destruct (H c s eq_refl) as (H1 & H2 & H3). unfold first_part. cbn [sr_parse_char_limited].
  destruct (mem c (L "~*._" ++ sr_alnum)) eqn:E.
  - exfalso. apply H1. split; [apply start_iff; exact E|exact H2].
  - cbn [bind]. unfold sr_gdb_frame_parse_function_name_braces, bracketed. cbn [sr_skip_char]. apply ascii_eqb_false in H3. rewrite H3. reflexivity.
Qed.
Lemma start_dec c : {start_char c} + {~ start_char c}.
Proof.
  destruct (mem c (L "~*._" ++ sr_alnum)) eqn:E; [|right; intros [H _]; apply start_iff in H; congruence].
  destruct (ascii_dec c "o") as [->|H]; [right; intros [_ H]; congruence|]. left. split; [apply start_iff; exact E|exact H].
Qed.
Lemma not_start_paren : ~ start_char "(".
Proof. intros [H _]. apply start_iff in H. discriminate H. Qed.
Lemma run_first space v r : v <> [] -> run space v r -> exists c w, v = c :: w /\ name_char space c.
Proof.
  intros Hn H. destruct H as [|c v r N Hc H|o c v r Ho Hc H|o c r Ho Hc]; [congruence|eauto| |]; destruct (operator_name_nonempty _ _ Ho) as [y ->]; eexists; eexists; (split; [reflexivity|]);
    apply name_char_iff; reflexivity.
Qed.
Lemma run_off_first space s : run_off space s -> exists c q, s = c :: q /\ name_char space c.
Proof.
  intros H. destruct H as [o Ho|c s N Hc H|o c s Ho Hc H]; [| eauto |]; destruct (operator_name_nonempty _ _ Ho) as [y ->]; eexists; eexists; (split; [reflexivity|]); apply name_char_iff; reflexivity.
Qed.
(** Parts that start with a parenthesis *)
Lemma parts_paren v r space args : begins (L "(") v -> parts space args v r -> exists x w, v = L "(" ++ x ++ L ")" ++ w /\ parts true false x (L ")" ++ w ++ r) /\ parts space args w r.
Proof.
  intros [t ->] H. remember (L "(" ++ t) as v eqn:E. destruct H as [space args r|v w r Hv H|space args v w r Hn Hv Ha H|space args v w r Hv Hw|space args v w r Hv Hw].
  - discriminate E.
  - destruct (with_args_start v w Hv) as [u Eu]. rewrite Eu in E. discriminate E.
  - exfalso. destruct v as [|c v]; [congruence|]. injection E as -> _. pose proof (not_name_paren space) as (_ & _ & Hx & _).
    destruct (run_first _ _ _ Hn Hv) as (x & y & Ex & Hc). injection Ex as <- _. contradiction.
  - exists v, w. injection E as <-. auto.
  - discriminate E.
Qed.
Lemma parts_off_paren s space args : parts_off space args (L "(" ++ s) ->
  (exists v t, s = v ++ L ")" ++ t /\ parts true false v (L ")" ++ t) /\ parts_off space args t) \/ parts_off true false s.
Proof.
  intros H. remember (L "(" ++ s) as u eqn:E. destruct H as [v t Hv H|space args v t Hn Hv Ha H|space args t Ht Ha|space args v t Hv H|space args t H|space args v t Hv H|space args t H].
  - destruct (with_args_start v t Hv) as [q Eq]. rewrite Eq in E. discriminate E.
  - exfalso. destruct v as [|c v]; [congruence|]. injection E as -> _. pose proof (not_name_paren space) as (_ & _ & Hx & _).
    destruct (run_first _ _ _ Hn Hv) as (x & y & Ex & Hc). injection Ex as <- _. contradiction.
  - exfalso. pose proof (not_name_paren space) as (_ & _ & Hx & _). destruct (run_off_first _ _ Ht) as (x & y & Ex & Hc). subst t. injection Ex as <- _. contradiction.
  - left. exists v, t. injection E as <-. auto.
  - right. injection E as <-. exact H.
  - discriminate E.
  - discriminate E.
Qed.
Lemma first_eval v c t : first_name v (c :: t) -> white c -> first_part (v ++ c :: t) = Ok (v, c :: t).
Proof.
  intros [(x & w & -> & Hx & Hw)|[[H|H] Hv]] Hc; pose proof (white_terminal c t Hc) as Ht.
  - cbn [app]. rewrite (first_start _ _ Hx), (top_eval _ _ Hw Ht). reflexivity.
  - destruct H as [w ->]. change ((L "o" ++ w) ++ c :: t) with ("o"%char :: w ++ c :: t). rewrite first_o.
    change ("o"%char :: w ++ c :: t) with ((L "o" ++ w) ++ c :: t). apply top_eval; auto.
  - destruct (parts_paren _ _ _ _ H Hv) as (x & w & -> & Hx & Hw). rewrite <- !app_assoc.
    change (L "(" ++ x ++ L ")" ++ w ++ c :: t) with ("("%char :: x ++ L ")" ++ w ++ c :: t).
    rewrite first_braces, brk_open. rewrite (parts_eval _ _ _ _ Hx in_braces _ eq_refl eq_refl (terminal_paren _ _)) by lia. cbn [bind].
    change (L ")" ++ w ++ c :: t) with (")"%char :: w ++ c :: t). rewrite skip_char_here. cbv iota. cbn [bind]. rewrite (top_eval _ _ Hw Ht). cbn [bind].
    cbn [L list_ascii_of_string app]. rewrite <- app_assoc. reflexivity.
Qed.
Lemma first_off_eval s : first_off s -> first_part s = UB.
Proof.
  intros [(c & t & -> & Hc & Ht)|[[H|H] Hs]].
  - rewrite (first_start _ _ Hc), (top_off _ Ht). reflexivity.
  - destruct H as [w ->]. change (L "o" ++ w) with ("o"%char :: w) in *. rewrite first_o. apply top_off. exact Hs.
  - destruct H as [w ->]. destruct (parts_off_paren _ _ _ Hs) as [(v & t & -> & Hv & Ht)|H].
    + change (L "(" ++ v ++ L ")" ++ t) with ("("%char :: v ++ L ")" ++ t). rewrite first_braces, brk_open.
      rewrite (parts_eval _ _ _ _ Hv in_braces _ eq_refl eq_refl (terminal_paren _ _)) by lia. cbn [bind].
      change (L ")" ++ t) with (")"%char :: t). rewrite skip_char_here. cbv iota. cbn [bind]. rewrite (top_off _ Ht). reflexivity.
    + change (L "(" ++ w) with ("("%char :: w). rewrite first_braces, brk_open. rewrite (parts_off_eval _ _ _ H in_braces _ eq_refl eq_refl) by lia. reflexivity.
Qed.
Lemma first_cases s : (exists v r, s = v ++ r /\ first_name v r /\ first_part s = Ok (v, r)) \/ (first_off s /\ first_part s = UB) \/ first_part s = Fail.
Proof.
  destruct s as [|c s]; [right; right; reflexivity|].
  destruct (start_dec c) as [Hc|Hc].
  { rewrite (first_start _ _ Hc). destruct (top_cases s) as [(w & r & E & Hw & ->)|[Hw ->]]; cbn [bind].
    - left. exists (c :: w), r. split; [subst; reflexivity|]. split; [|reflexivity]. left. exists c, w. auto.
    - right. left. split; [|reflexivity]. left. exists c, s. auto. }
  destruct (ascii_dec c "o") as [->|Ho].
  { rewrite first_o. destruct (top_cases ("o"%char :: s)) as [(w & r & E & Hw & El)|[Hw ->]].
    - rewrite El. apply top_nonempty in El as [w' ->]; [|exact o_name]. left. exists ("o"%char :: w'), r. split; [exact E|]. split; [|reflexivity]. right. split; [|exact Hw].
      left. exists w'. reflexivity.
    - right. left. split; [|reflexivity]. right. split; [left; exists s; reflexivity|exact Hw]. }
  destruct (ascii_dec c "(") as [->|Hp].
  { rewrite first_braces, brk_open. destruct (name_loop_cases (S (length s)) in_braces s) as [(w & r & -> & Hw & ->)|[Hw ->]]; [lia| |]; cbn [bind].
    - destruct (skip_char_cases ")" r) as [(q & -> & ->)|[_ ->]]; cbv iota; cbn [bind]; [|auto].
      destruct (top_cases q) as [(x & y & -> & Hx & ->)|[Hx ->]]; cbn [bind].
      + left. exists (L "(" ++ w ++ L ")" ++ x), y. split; [cbn [L list_ascii_of_string app]; rewrite <- app_assoc; reflexivity|]. split.
        * right. split; [right; exists (w ++ L ")" ++ x); reflexivity|]. apply p_braces; assumption.
        * cbn [L list_ascii_of_string app]. rewrite <- app_assoc. reflexivity.
      + right. left. split; [|reflexivity]. right. split; [right; exists (w ++ ")"%char :: q); reflexivity|]. apply (po_braces _ _ w q); assumption.
    - right. left. split; [|reflexivity]. right. split; [right; exists s; reflexivity|]. apply (po_in_braces _ _ s). exact Hw. }
  right. right. apply first_other. intros x t E. injection E as <- <-. auto.
Qed.

(** ** "const" and the second name *)
Definition first_const (buf0 : str) (space : ascii) (s : str) : res (str * ascii * str) :=
  let '(n, r) := sr_skip_string (L "const") s in
  if 0 <? n then
    match sr_parse_char_limited sr_space r with
    | None => Fail
    | Some (space', r) => Ok (buf0 ++ space :: L "const", space', r)
    end
  else Ok (buf0, space, s).
Lemma first_const_iff buf0 c s b c' r : first_const buf0 c s = Ok (b, c', r) <-> exists added, b = buf0 ++ added /\ const_suffix c s added c' r.
Proof.
  unfold first_const, const_suffix. destruct (skip_string_cases (L "const") s) as [(t & -> & ->)|[Hb ->]].
  - change (0 <? length (L "const")) with true. cbv iota. rewrite limited_space. split.
    + destruct t as [|x t]; [discriminate|]. destruct (mem x sr_space) eqn:E; [|discriminate]. apply white_iff in E. intros H. injection H as <- <- <-.
      exists (c :: L "const"). split; [reflexivity|]. left. auto.
    + intros (added & -> & [(E & Hw & ->)|(H & _)]); [|exfalso; apply H; eexists; reflexivity]. apply app_inv_head in E. subst t. apply white_iff in Hw. rewrite Hw. reflexivity.
  - cbn [Nat.ltb Nat.leb]. split.
    + intros H. injection H as <- <- <-. exists []. rewrite app_nil_r. split; [reflexivity|]. right. auto.
    + intros (added & -> & [(-> & _)|(_ & -> & -> & ->)]); [exfalso; apply Hb; eexists; reflexivity|]. rewrite app_nil_r. reflexivity.
Qed.
Lemma first_const_ub buf0 c s : first_const buf0 c s <> UB.
Proof.
  unfold first_const. destruct (sr_skip_string (L "const") s) as [n r]. destruct (0 <? n); [|discriminate]. destruct (sr_parse_char_limited sr_space r) as [[x q]|]; discriminate.
Qed.
Definition second_part (space : ascii) (s : str) : res (option str * ascii * str) :=
  match sr_gdb_frame_parse_function_name_chunk false s with
  | UB => UB
  | Fail => Ok (None, space, s)
  | Ok (namechunk, s) =>
    do (w, s) <- name_loop (S (length s)) at_top s;
    match sr_parse_char_limited sr_space s with
    | None => Fail
    | Some (space, s) => Ok (Some (namechunk ++ w), space, s)
    end
  end.
Lemma parts_run v r space : v <> [] -> ~ begins (L "(") v -> ~ begins (L "<") v -> parts space false v r ->
  exists x w, v = x ++ w /\ x <> [] /\ run space x (w ++ r) /\ parts space false w r.
Proof.
  intros Hn H1 H2 H. remember false as args eqn:Ea in H. destruct H as [space args r|v w r Hv H|space args v w r Hx Hv Ha H|space args v w r Hv Hw|space args v w r Hv Hw].
  - congruence.
  - discriminate.
  - subst args. exists v, w. auto.
  - exfalso. apply H1. eexists. reflexivity.
  - exfalso. apply H2. eexists. reflexivity.
Qed.
Lemma second_eval space w c t : second_name w (c :: t) -> white c -> second_part space (w ++ c :: t) = Ok (Some w, c, t).
Proof.
  intros (Hn & H1 & H2 & Hw) Hc. destruct (parts_run _ _ _ Hn H1 H2 Hw) as (x & y & -> & Hx & Hr & Hy). unfold second_part. rewrite <- app_assoc.
  rewrite (chunk_run _ _ _ Hr Hx), (top_eval _ _ Hy (white_terminal _ _ Hc)). cbn [bind]. rewrite limited_space. apply white_iff in Hc. rewrite Hc. reflexivity.
Qed.
Lemma second_none space s : no_second s -> second_part space s = Ok (None, space, s).
Proof. intros H. unfold second_part. rewrite (chunk_empty false s H). reflexivity. Qed.
Lemma not_bracket_run w u space : (exists c q, w = c :: q /\ name_char space c) -> ~ begins (L "(") (w ++ u) /\ ~ begins (L "<") (w ++ u).
Proof.
  intros (c & q & -> & Hc). pose proof (not_name_paren space) as (_ & _ & H1 & H2). split; intros [t E]; injection E as -> _; contradiction.
Qed.
Definition second_off (s : str) : Prop := ~ begins (L "(") s /\ ~ begins (L "<") s /\ parts_off false false s.
Lemma second_off_eval space s : second_off s -> second_part space s = UB.
Proof.
  intros (H1 & H2 & H). unfold second_part. remember false as sp0 eqn:Es in H at 1. remember false as ar eqn:Ea in H.
  destruct H as [v s Hv H|sp0 args v s Hn Hv Ha H|sp0 args s Hs Ha|sp0 args v s Hv H|sp0 args s H|sp0 args v s Hv H|sp0 args s H]; subst; try discriminate;
    try (exfalso; first [apply H1; eexists; reflexivity|apply H2; eexists; reflexivity]).
  - rewrite (chunk_run _ _ _ Hv Hn), (top_off _ H). reflexivity.
  - rewrite (chunk_off _ _ Hs). reflexivity.
Qed.
Lemma second_cases space s :
  (no_second s /\ second_part space s = Ok (None, space, s)) \/
  (exists w c t, s = w ++ c :: t /\ second_name w (c :: t) /\ white c /\ second_part space s = Ok (Some w, c, t)) \/
  (second_off s /\ second_part space s = UB) \/ second_part space s = Fail.
Proof.
  destruct (chunk_cases false s) as [(v & u & -> & Hn & Hv)|[H|H]].
  - assert (Hf := run_first _ _ _ Hn Hv). unfold second_part. rewrite (chunk_run _ _ _ Hv Hn). destruct (top_cases u) as [(w & r & -> & Hw & ->)|[Hw ->]]; cbn [bind].
    + rewrite limited_space. destruct r as [|c t]; [auto|]. destruct (mem c sr_space) eqn:E; [|auto]. apply white_iff in E. right. left. exists (v ++ w), c, t.
      rewrite <- app_assoc. split; [reflexivity|]. split; [|auto]. destruct (not_bracket_run _ w _ Hf) as [K1 K2].
      split; [destruct v; [congruence|discriminate]|]. split; [exact K1|]. split; [exact K2|]. apply p_run; auto. discriminate.
    + right. right. left. split; [|reflexivity]. destruct (not_bracket_run _ u _ Hf) as [K1 K2]. split; [exact K1|]. split; [exact K2|]. apply po_run; auto. discriminate.
  - left. split; [exact H|]. apply second_none. exact H.
  - right. right. left. destruct (not_bracket_run _ [] _ (run_off_first _ _ H)) as [K1 K2]. rewrite app_nil_r in K1, K2.
    split; [|unfold second_part; rewrite (chunk_off _ _ H); reflexivity]. split; [exact K1|]. split; [exact K2|]. apply po_here; auto. discriminate.
Qed.
Definition last_const (space : ascii) (s : str) : res (str * str) :=
  let '(n, r) := sr_skip_string (L "const") s in
  if 0 <? n then
    match r with
    | [] => Ok (space :: L "const", [])
    | c :: _ => if mem c sr_space then Ok (space :: L "const", r) else Fail
    end
  else Ok ([], space :: s).
Lemma last_const_iff c s added r : last_const c s = Ok (added, r) <->
  (~ begins (L "const") s /\ added = [] /\ r = c :: s) \/ (s = L "const" ++ r /\ match r with [] => True | x :: _ => white x end /\ added = c :: L "const").
Proof.
  unfold last_const. destruct (skip_string_cases (L "const") s) as [(t & -> & ->)|[Hb ->]].
  - change (0 <? length (L "const")) with true. cbv iota. split.
    + destruct t as [|x t]; [intros E; injection E as <- <-; right; auto|]. destruct (mem x sr_space) eqn:E; [|discriminate]. apply white_iff in E. intros H. injection H as <- <-. right. auto.
    + intros [(H & _)|(E & Hw & ->)]; [exfalso; apply H; eexists; reflexivity|]. apply app_inv_head in E. subst t. destruct r as [|x r]; [reflexivity|]. apply white_iff in Hw. rewrite Hw. reflexivity.
  - cbn [Nat.ltb Nat.leb]. split.
    + intros H. injection H as <- <-. left. auto.
    + intros [(_ & -> & ->)|(-> & _)]; [reflexivity|exfalso; apply Hb; eexists; reflexivity].
Qed.
Lemma last_const_ub c s : last_const c s <> UB.
Proof. unfold last_const. destruct (sr_skip_string (L "const") s) as [n r]. destruct (0 <? n); [|discriminate]. destruct r as [|x r]; [discriminate|]. destruct (mem x sr_space); discriminate. Qed.
Definition name_parse (s : str) : res (str * option str * str) :=
  do (buf0, s) <- first_part s;
  match sr_parse_char_limited sr_space s with
  | None => Fail
  | Some (space, s) =>
    do (buf0, space, s) <- first_const buf0 space s;
    do (buf1, space, s) <- second_part space s;
    do (suffix, s) <- last_const space s;
    match buf1 with
    | Some buf1 => Ok (buf1 ++ suffix, Some buf0, s)
    | None => Ok (buf0 ++ suffix, None, s)
    end
  end.
Lemma name_steps s : ~ begins (L "??") s -> sr_gdb_frame_parse_function_name s = name_parse s.
Proof.
  intros H. unfold sr_gdb_frame_parse_function_name, name_parse, first_part. pose proof (parse_string_contract (L "??") s) as P.
  destruct (sr_parse_string (L "??") s) as [[n r]|]; [destruct P as [-> _]; exfalso; apply H; eexists; reflexivity|].
  destruct (match sr_parse_char_limited (L "~*._" ++ sr_alnum) s with Some (first, r) => if Ascii.eqb first "o" then Ok ([], s) else Ok ([first], r) | None => sr_gdb_frame_parse_function_name_braces s end) as [[b q]| |];
    [|reflexivity|reflexivity].
  cbn [bind]. destruct (name_loop (S (length q)) at_top q) as [[w r]| |]; reflexivity.
Qed.
Lemma name_marks s r : s = L "??" ++ r -> sr_gdb_frame_parse_function_name s = Ok (L "??", None, r).
Proof.
  intros ->. unfold sr_gdb_frame_parse_function_name. pose proof (parse_string_contract (L "??") (L "??" ++ r)) as P.
  destruct (sr_parse_string (L "??") (L "??" ++ r)) as [[n q]|]; [|exfalso; exact (P r eq_refl)]. destruct P as [E ->]. apply app_inv_head in E. congruence.
Qed.
Lemma no_second_const s : no_second s -> ~ begins (L "const") s.
Proof. intros H [t ->]. apply H. apply name_char_iff. reflexivity. Qed.
Lemma name_eval s name type r : function_name s name type r -> sr_gdb_frame_parse_function_name s = Ok (name, type, r).
Proof.
  intros [(E & -> & ->)|(Hq & v & c & t & added & c1 & t1 & -> & Hv & Hc & Hk & H)]; [apply name_marks; exact E|].
  rewrite (name_steps _ Hq). unfold name_parse. rewrite (first_eval _ _ _ Hv Hc). cbn [bind]. rewrite limited_space. apply white_iff in Hc. rewrite Hc.
  rewrite (proj2 (first_const_iff v c t (v ++ added) c1 t1)) by eauto. cbn [bind].
  destruct H as [(H & -> & -> & ->)|(w & c2 & t2 & -> & Hw & Hc2 & -> & H)].
  - rewrite (second_none _ _ H). cbn [bind]. rewrite (proj2 (last_const_iff c1 t1 [] (c1 :: t1))) by (left; split; [apply no_second_const; exact H|auto]). cbn [bind]. rewrite app_nil_r. reflexivity.
  - rewrite (second_eval _ _ _ _ Hw Hc2). cbn [bind]. destruct H as [(Hb & -> & ->)|(-> & Hr & ->)].
    + rewrite (proj2 (last_const_iff c2 t2 [] (c2 :: t2))) by auto. cbn [bind]. rewrite app_nil_r. reflexivity.
    + rewrite (proj2 (last_const_iff c2 (L "const" ++ r) (c2 :: L "const") r)) by auto. reflexivity.
Qed.
Lemma name_off_eval s : function_name_off s -> sr_gdb_frame_parse_function_name s = UB.
Proof.
  intros [Hq [H|(v & c & t & added & c1 & t1 & -> & Hv & Hc & Hk & H)]]; rewrite (name_steps _ Hq); unfold name_parse.
  - rewrite (first_off_eval _ H). reflexivity.
  - rewrite (first_eval _ _ _ Hv Hc). cbn [bind]. rewrite limited_space. apply white_iff in Hc. rewrite Hc.
    rewrite (proj2 (first_const_iff v c t (v ++ added) c1 t1)) by eauto. cbn [bind]. rewrite (second_off_eval _ _ H). reflexivity.
Qed.
Lemma name_cases s : (exists name type r, function_name s name type r) \/ function_name_off s \/ sr_gdb_frame_parse_function_name s = Fail.
Proof.
  destruct (begins_dec (L "??") s) as [[r Hq]|Hq]; [left; exists (L "??"), None, r; left; auto|].
  rewrite (name_steps _ Hq). unfold name_parse.
  destruct (first_cases s) as [(v & r & -> & Hv & ->)|[[H ->]|H]]; cbn [bind]; [|right; left; split; auto|rewrite H; auto].
  rewrite limited_space. destruct r as [|c t]; [auto|]. destruct (mem c sr_space) eqn:Hc; [|auto]. apply white_iff in Hc.
  destruct (first_const v c t) as [[[b c1] t1]| |] eqn:E; [|auto|exfalso; exact (first_const_ub _ _ _ E)]. cbn [bind].
  apply first_const_iff in E as (added & -> & Hk).
  destruct (second_cases c1 t1) as [[H ->]|[(w & c2 & t2 & -> & Hw & Hc2 & ->)|[[H ->]|H]]]; cbn [bind].
  - left. exists (v ++ added), None, (c1 :: t1). right. split; [exact Hq|]. exists v, c, t, added, c1, t1. repeat (split; [assumption || reflexivity|]). left. auto.
  - destruct (last_const c2 t2) as [[suffix r]| |] eqn:E; [|auto|exfalso; exact (last_const_ub _ _ E)].
    apply last_const_iff in E. left. exists (w ++ suffix), (Some (v ++ added)), r. right. split; [exact Hq|]. exists v, c, t, added, c1, (w ++ c2 :: t2).
    repeat (split; [assumption || reflexivity|]). right. exists w, c2, t2. repeat (split; [assumption || reflexivity|]).
    destruct E as [(Hb & -> & ->)|(-> & Hr & ->)]; [left; rewrite app_nil_r; auto|right; auto].
  - right. left. split; [exact Hq|]. right. exists v, c, t, added, c1, t1. repeat (split; [assumption || reflexivity|]). exact H.
  - rewrite H. auto.
Qed.
Theorem function_name_exact s :
  (forall name type r, sr_gdb_frame_parse_function_name s = Ok (name, type, r) <-> function_name s name type r) /\
  (sr_gdb_frame_parse_function_name s = UB <-> function_name_off s).
Proof.
  split; [intros name type r; split; [|apply name_eval]|split; [|apply name_off_eval]]; destruct (name_cases s) as [(n & t & q & H)|[H|H]].
  - rewrite (name_eval _ _ _ _ H). intros E. injection E as <- <- <-. exact H.
  - rewrite (name_off_eval _ H). discriminate.
  - rewrite H. discriminate.
  - rewrite (name_eval _ _ _ _ H). discriminate.
  - auto.
  - rewrite H. discriminate.
Qed.
