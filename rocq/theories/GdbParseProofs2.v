(** * The gdb parser: parts of names, names. *)
From Verif Require Import Base Types UtilsModel UtilsSpec UtilsProofs ParseSpec ParseProofs JsParseProofs PyParseProofs GdbParseModel GdbParseSpec GdbParseProofs.
Open Scope nat_scope.

(** ** Arguments of templates *)
Lemma balanced_app a b : balanced a -> balanced b -> balanced (a ++ b).
Proof.
  intros Ha Hb. induction Ha as [|c a H1 H2 Ha IH|s t Hs IHs Ht IHt]; [exact Hb|constructor; auto|].
  rewrite <- !app_assoc. apply bal_brackets; auto.
Qed.
Inductive open_by : nat -> str -> Prop :=
| ob_none w : balanced w -> open_by 0 w
| ob_more n b w : balanced b -> open_by n w -> open_by (S n) (b ++ L "]" ++ w).
Lemma open_by_app n b w : balanced b -> open_by n w -> open_by n (b ++ w).
Proof.
  intros Hb Hw. destruct Hw as [w Hw|n v w Hv Hw]; [constructor; apply balanced_app; auto|].
  rewrite app_assoc. constructor; [apply balanced_app; auto|exact Hw].
Qed.
Lemma with_loop_ok s : forall n w r, with_loop (S n) s = (w, L "]" ++ r) -> s = w ++ L "]" ++ r /\ open_by n w.
Proof.
  induction s as [|c s IH]; intros n w r E; [discriminate E|]. cbn [with_loop] in E.
  destruct (Ascii.eqb c "[") eqn:E1.
  - apply ascii_eqb_true in E1. subst c. destruct (with_loop (S (S n)) s) as [v t] eqn:E2. injection E as <- ->.
    apply IH in E2 as [-> Hv]. split; [reflexivity|]. inversion Hv as [|m b x Hb Hx Em Ex]; subst m v.
    change ("["%char :: b ++ L "]" ++ x) with (L "[" ++ b ++ L "]" ++ x).
    replace (L "[" ++ b ++ L "]" ++ x) with ((L "[" ++ b ++ L "]" ++ []) ++ x) by (rewrite <- !app_assoc; reflexivity).
    apply open_by_app; [|exact Hx]. apply bal_brackets; [exact Hb|constructor].
  - destruct (Ascii.eqb c "]") eqn:E2.
    + apply ascii_eqb_true in E2. subst c. destruct n as [|n].
      * cbn [Nat.eqb] in E. injection E as <- <-. split; [reflexivity|]. constructor. constructor.
      * change (S (S n) =? 1) with false in E. cbv iota in E. replace (S (S n) - 1) with (S n) in E by lia.
        destruct (with_loop (S n) s) as [v t] eqn:E3. injection E as <- ->. apply IH in E3 as [-> Hv]. split; [reflexivity|].
        apply (ob_more n []); [constructor|exact Hv].
    + apply ascii_eqb_false in E1, E2. destruct (with_loop (S n) s) as [v t] eqn:E3. injection E as <- ->. apply IH in E3 as [-> Hv]. split; [reflexivity|].
      apply (open_by_app n [c]); [|exact Hv]. constructor; auto. constructor.
Qed.
Lemma with_loop_balanced w : balanced w -> forall n r, with_loop (S n) (w ++ r) = let '(v, t) := with_loop (S n) r in (w ++ v, t).
Proof.
  induction 1 as [|c w H1 H2 Hw IH|s t Hs IHs Ht IHt]; intros n r.
  - cbn [app]. destruct (with_loop (S n) r). reflexivity.
  - cbn [app with_loop]. apply ascii_eqb_false in H1, H2. rewrite H1, H2, IH. destruct (with_loop (S n) r). reflexivity.
  - change ((L "[" ++ s ++ L "]" ++ t) ++ r) with ("["%char :: (s ++ "]"%char :: t) ++ r). rewrite <- app_assoc. cbn [with_loop].
    change (Ascii.eqb "[" "[") with true. cbv iota. rewrite IHs. cbn [app]. cbn [with_loop].
    change (Ascii.eqb "]" "[") with false. change (Ascii.eqb "]" "]") with true. cbv iota.
    change (S (S n) =? 1) with false. cbv iota. replace (S (S n) - 1) with (S n) by lia.
    rewrite IHt. destruct (with_loop (S n) r) as [v u]. cbn [L list_ascii_of_string app]. rewrite <- app_assoc. reflexivity.
Qed.
Lemma with_eval v r : with_args v -> sr_gdb_frame_parse_function_name_template_args (v ++ r) = Ok (v, r).
Proof.
  intros (w & -> & Hw). unfold sr_gdb_frame_parse_function_name_template_args. rewrite <- !app_assoc, skip_lit.
  change (length (L " [with ") =? 0) with false. cbv iota. rewrite (with_loop_balanced w Hw 0). 
  change (L "]" ++ r) with ("]"%char :: r). cbn [with_loop Nat.eqb]. change (Ascii.eqb "]" "[") with false. change (Ascii.eqb "]" "]") with true. cbv iota beta.
  rewrite app_nil_r. cbn [sr_skip_char]. change (Ascii.eqb "]" "]") with true. cbv iota beta. reflexivity.
Qed.
Lemma with_cases s : (exists v r, s = v ++ r /\ with_args v) \/ (no_args s /\ sr_gdb_frame_parse_function_name_template_args s = Fail).
Proof.
  destruct (sr_gdb_frame_parse_function_name_template_args s) as [[v r]| |] eqn:E.
  - left. revert E. unfold sr_gdb_frame_parse_function_name_template_args.
    destruct (skip_string_cases (L " [with ") s) as [(t & -> & ->)|[Hb ->]]; [|discriminate].
    change (length (L " [with ") =? 0) with false. cbv iota. destruct (with_loop 1 t) as [w u] eqn:Ew.
    destruct (skip_char_cases "]" u) as [(q & -> & ->)|[Hu ->]]; [|discriminate]. intros E. injection E as <- <-.
    apply (with_loop_ok t 0) in Ew as [-> Hw]. inversion Hw. subst. exists (L " [with " ++ w ++ L "]"), q. split; [rewrite <- !app_assoc; reflexivity|]. exists w. auto.
  - right. split; [|reflexivity]. intros v u Hv ->. rewrite (with_eval v u Hv) in E. discriminate.
  - exfalso. revert E. unfold sr_gdb_frame_parse_function_name_template_args. destruct (sr_skip_string _ s) as [[|n] t]; [discriminate|].
    cbn [Nat.eqb]. destruct (with_loop 1 t) as [w u]. destruct (sr_skip_char "]" u) as [[] q]; discriminate.
Qed.
Lemma with_none s : no_args s -> sr_gdb_frame_parse_function_name_template_args s = Fail.
Proof. intros H. destruct (with_cases s) as [(v & r & E & Hv)|[_ E]]; [exfalso; exact (H v r Hv E)|exact E]. Qed.
Lemma with_args_start v r : with_args v -> exists t, v ++ r = sp :: t.
Proof. intros (w & -> & _). eexists. reflexivity. Qed.

(** ** Parts *)
Definition space_of (p : place) : bool := match p with at_top => false | _ => true end.
Definition args_of (p : place) : bool := match p with in_template => true | _ => false end.
Definition brk (fuel : nat) (q : place) (opening closing : ascii) (s : str) : res (str * str) :=
  let '(b, s) := sr_skip_char opening s in
  if negb b then Fail else
  do (w, s) <- name_loop fuel q s;
  let '(b, s) := sr_skip_char closing s in
  if b then Ok (opening :: w ++ [closing], s) else Fail.
Definition item (fuel : nat) (p : place) (s : str) : res (str * str) :=
  or_else (if args_of p then sr_gdb_frame_parse_function_name_template_args s else Fail)
  (or_else (sr_gdb_frame_parse_function_name_chunk (space_of p) s)
  (or_else (brk fuel in_braces "(" ")" s) (brk fuel in_template "<" ">" s))).
Lemma name_unfold fuel p s : name_loop (S fuel) p s =
  match item fuel p s with
  | UB => UB
  | Fail => Ok ([], s)
  | Ok (namechunk, s) => do (w, s) <- name_loop fuel p s; Ok (namechunk ++ w, s)
  end.
Proof. destruct p; reflexivity. Qed.
Definition terminal (space : bool) (r : str) : Prop := match r with [] => True | c :: _ => ~ name_char space c /\ c <> "("%char /\ c <> "<"%char end.
Lemma brk_none fuel q o c s : ~ begins [o] s -> brk fuel q o c s = Fail.
Proof. intros H. unfold brk. destruct (skip_char_cases o s) as [(r & -> & ->)|[_ ->]]; [exfalso; apply H; exists r; reflexivity|reflexivity]. Qed.
Lemma brk_open fuel q (o c : ascii) s : brk fuel q o c (o :: s) =
  do (w, s) <- name_loop fuel q s; let '(b, s) := sr_skip_char c s in if b then Ok (o :: w ++ [c], s) else Fail.
Proof. unfold brk. cbn [sr_skip_char]. rewrite ascii_eqb_refl. reflexivity. Qed.
Lemma no_args_here c s : c <> sp -> no_args (c :: s).
Proof. intros H v u Hv E. destruct (with_args_start v u Hv) as [t Et]. congruence. Qed.
Lemma item_args fuel p s : args_of p = false \/ no_args s -> item fuel p s =
  or_else (sr_gdb_frame_parse_function_name_chunk (space_of p) s) (or_else (brk fuel in_braces "(" ")" s) (brk fuel in_template "<" ">" s)).
Proof. intros H. unfold item. destruct (args_of p); [|reflexivity]. destruct H as [H|H]; [discriminate|]. rewrite (with_none s H). reflexivity. Qed.
Lemma begins_one_not (o c : ascii) s : c <> o -> ~ begins [o] (c :: s).
Proof. intros H [r E]. injection E as -> _. congruence. Qed.
Lemma item_terminal fuel p r : terminal (space_of p) r -> item fuel p r = Fail.
Proof.
  intros H. rewrite item_args.
  - rewrite chunk_empty by (destruct r; [exact Logic.I|exact (proj1 H)]). cbn [or_else].
    rewrite !brk_none; [reflexivity| |]; (destruct r as [|c r]; [intros [q E]; discriminate E|apply begins_one_not; apply H]).
  - destruct (args_of p) eqn:E; [right|left; reflexivity]. destruct r as [|c r]; [intros v u Hv Ev; destruct (with_args_start v u Hv) as [t Et]; congruence|].
    apply no_args_here. intros ->. destruct H as [H _]. apply H. right. right. destruct p; try discriminate. split; reflexivity.
Qed.
Lemma not_name_paren space : ~ name_char space ")"%char /\ ~ name_char space ">"%char /\ ~ name_char space "("%char /\ ~ name_char space "<"%char.
Proof. repeat split; apply name_char_false; destruct space; reflexivity. Qed.
Lemma terminal_paren space r : terminal space (L ")" ++ r).
Proof. split; [apply not_name_paren|split; discriminate]. Qed.
Lemma terminal_angle space r : terminal space (L ">" ++ r).
Proof. split; [apply not_name_paren|split; discriminate]. Qed.
Lemma item_braces fuel p s : item fuel p ("("%char :: s) = or_else (brk fuel in_braces "(" ")" ("("%char :: s)) Fail.
Proof.
  rewrite item_args by (right; apply no_args_here; discriminate). rewrite chunk_empty by apply not_name_paren. cbn [or_else].
  rewrite (brk_none fuel in_template) by (apply begins_one_not; discriminate). reflexivity.
Qed.
Lemma item_template fuel p s : item fuel p ("<"%char :: s) = brk fuel in_template "<" ">" ("<"%char :: s).
Proof.
  rewrite item_args by (right; apply no_args_here; discriminate). rewrite chunk_empty by apply not_name_paren. cbn [or_else].
  rewrite (brk_none fuel in_braces) by (apply begins_one_not; discriminate). reflexivity.
Qed.
Lemma skip_char_here c s : sr_skip_char c (c :: s) = (true, s).
Proof. cbn [sr_skip_char]. rewrite ascii_eqb_refl. reflexivity. Qed.
Lemma parts_eval space args w r : parts space args w r -> forall p fuel, space = space_of p -> args = args_of p -> terminal space r -> length (w ++ r) < fuel ->
  name_loop fuel p (w ++ r) = Ok (w, r).
Proof.
  induction 1 as [space args r|v w r Hv H IH|space args v w r Hn Hv Ha H IH|space args v w r Hv IHv Hw IHw|space args v w r Hv IHv Hw IHw];
    intros p [|fuel] Ep Ea Ht Hl; try lia; rewrite name_unfold.
  - subst. cbn [app]. rewrite item_terminal by exact Ht. reflexivity.
  - rewrite <- app_assoc in *. unfold item. rewrite <- Ea. rewrite (with_eval v _ Hv). cbn [or_else].
    rewrite (IH p fuel Ep Ea Ht); [reflexivity|]. destruct Hv as (x & -> & _). rewrite !app_length in *. cbn [length L list_ascii_of_string] in Hl. lia.
  - rewrite <- app_assoc in *. rewrite item_args by (destruct (args_of p) eqn:E; [right; apply Ha; congruence|left; reflexivity]).
    rewrite <- Ep. rewrite (chunk_run _ _ _ Hv Hn). cbn [or_else]. rewrite (IH p fuel Ep Ea Ht); [reflexivity|].
    destruct v; [congruence|]. rewrite !app_length in *. cbn [length] in Hl. lia.
  - change ((L "(" ++ v ++ L ")" ++ w) ++ r) with ("("%char :: (v ++ L ")" ++ w) ++ r) in *. rewrite <- !app_assoc in *.
    rewrite item_braces, brk_open. assert (Hl' : length (v ++ L ")" ++ w ++ r) < fuel) by (cbn [length] in Hl; lia).
    rewrite (IHv in_braces fuel eq_refl eq_refl (terminal_paren _ _) Hl'). cbn [bind]. change (L ")" ++ w ++ r) with (")"%char :: w ++ r).
    rewrite skip_char_here. cbv iota. cbn [or_else]. rewrite (IHw p fuel Ep Ea Ht); [|rewrite !app_length in *; cbn [length L list_ascii_of_string] in *; lia].
    cbn [bind]. cbn [L list_ascii_of_string app]. rewrite <- app_assoc. reflexivity.
  - change ((L "<" ++ v ++ L ">" ++ w) ++ r) with ("<"%char :: (v ++ L ">" ++ w) ++ r) in *. rewrite <- !app_assoc in *.
    rewrite item_template, brk_open. assert (Hl' : length (v ++ L ">" ++ w ++ r) < fuel) by (cbn [length] in Hl; lia).
    rewrite (IHv in_template fuel eq_refl eq_refl (terminal_angle _ _) Hl'). cbn [bind]. change (L ">" ++ w ++ r) with (">"%char :: w ++ r).
    rewrite skip_char_here. cbv iota. rewrite (IHw p fuel Ep Ea Ht); [|rewrite !app_length in *; cbn [length L list_ascii_of_string] in *; lia].
    cbn [bind]. cbn [L list_ascii_of_string app]. rewrite <- app_assoc. reflexivity.
Qed.
Lemma parts_off_eval space args s : parts_off space args s -> forall p fuel, space = space_of p -> args = args_of p -> length s < fuel -> name_loop fuel p s = UB.
Proof.
  induction 1 as [v s Hv H IH|space args v s Hn Hv Ha H IH|space args s Hs Ha|space args v s Hv H IH|space args s H IH|space args v s Hv H IH|space args s H IH];
    intros p [|fuel] Ep Ea Hl; try lia; rewrite name_unfold.
  - unfold item. rewrite <- Ea. rewrite (with_eval v _ Hv). cbn [or_else]. rewrite (IH p fuel Ep Ea); [reflexivity|].
    destruct Hv as (x & -> & _). rewrite !app_length in *. cbn [length L list_ascii_of_string] in Hl. lia.
  - rewrite item_args by (destruct (args_of p) eqn:E; [right; apply Ha; congruence|left; reflexivity]).
    rewrite <- Ep. rewrite (chunk_run _ _ _ Hv Hn). cbn [or_else]. rewrite (IH p fuel Ep Ea); [reflexivity|].
    destruct v; [congruence|]. rewrite !app_length in *. cbn [length] in Hl. lia.
  - rewrite item_args by (destruct (args_of p) eqn:E; [right; apply Ha; congruence|left; reflexivity]).
    rewrite <- Ep. rewrite (chunk_off _ _ Hs). reflexivity.
  - change (L "(" ++ v ++ L ")" ++ s) with ("("%char :: v ++ L ")" ++ s) in *. rewrite item_braces, brk_open.
    assert (Hl' : length (v ++ L ")" ++ s) < fuel) by (cbn [length] in Hl; lia).
    rewrite (parts_eval _ _ _ _ Hv in_braces fuel eq_refl eq_refl (terminal_paren _ _) Hl'). cbn [bind]. change (L ")" ++ s) with (")"%char :: s).
    rewrite skip_char_here. cbv iota. cbn [or_else]. rewrite (IH p fuel Ep Ea); [reflexivity|rewrite !app_length in *; cbn [length L list_ascii_of_string] in *; lia].
  - change (L "(" ++ s) with ("("%char :: s) in *. rewrite item_braces, brk_open. rewrite (IH in_braces fuel eq_refl eq_refl) by (cbn [length] in Hl; lia). reflexivity.
  - change (L "<" ++ v ++ L ">" ++ s) with ("<"%char :: v ++ L ">" ++ s) in *. rewrite item_template, brk_open.
    assert (Hl' : length (v ++ L ">" ++ s) < fuel) by (cbn [length] in Hl; lia).
    rewrite (parts_eval _ _ _ _ Hv in_template fuel eq_refl eq_refl (terminal_angle _ _) Hl'). cbn [bind]. change (L ">" ++ s) with (">"%char :: s).
    rewrite skip_char_here. cbv iota. rewrite (IH p fuel Ep Ea); [reflexivity|rewrite !app_length in *; cbn [length L list_ascii_of_string] in *; lia].
  - change (L "<" ++ s) with ("<"%char :: s) in *. rewrite item_template, brk_open. rewrite (IH in_template fuel eq_refl eq_refl) by (cbn [length] in Hl; lia). reflexivity.
Qed.
Lemma name_loop_cases fuel : forall p s, length s < fuel ->
  (exists w r, s = w ++ r /\ parts (space_of p) (args_of p) w r /\ name_loop fuel p s = Ok (w, r)) \/
  (parts_off (space_of p) (args_of p) s /\ name_loop fuel p s = UB).
Proof.
  induction fuel as [|fuel IH]; intros p s Hl; [lia|]. rewrite name_unfold.
  assert (Hend : item fuel p s = Fail -> exists w r, s = w ++ r /\ parts (space_of p) (args_of p) w r /\ match item fuel p s with UB => UB | Fail => Ok ([], s) | Ok (namechunk, s) => do (w, s) <- name_loop fuel p s; Ok (namechunk ++ w, s) end = Ok (w, r)).
  { intros ->. exists [], s. split; [reflexivity|]. split; [constructor|reflexivity]. }
  assert (Hargs : (args_of p = true /\ exists v u, s = v ++ u /\ with_args v) \/ (args_of p = false \/ no_args s)).
  { destruct (args_of p); [|auto]. destruct (with_cases s) as [H|[H _]]; auto. }
  destruct Hargs as [[Ea (v & u & -> & Hv)]|Ha].
  - clear Hend. unfold item. rewrite Ea, (with_eval v u Hv). cbn [or_else].
    assert (space_of p = true) as Es by (destruct p; [discriminate|discriminate|reflexivity]).
    destruct (IH p u) as [(w & r & -> & Hw & ->)|[Hw ->]].
    + destruct Hv as (x & -> & _). rewrite !app_length in *. cbn [length L list_ascii_of_string] in Hl. lia.
    + left. exists (v ++ w), r. rewrite <- app_assoc. split; [reflexivity|]. split; [|reflexivity]. rewrite Es, Ea in *. apply p_args; auto.
    + right. split; [|reflexivity]. rewrite Es, Ea in *. apply po_args; auto.
  - assert (Ha' : args_of p = true -> no_args s) by (intros E; destruct Ha as [Ha|Ha]; [congruence|exact Ha]).
    rewrite (item_args _ _ _ Ha) in *.
    destruct (chunk_cases (space_of p) s) as [(v & u & -> & Hn & Hv)|[Hc|Hc]].
    + rewrite (chunk_run _ _ _ Hv Hn). cbn [or_else]. destruct (IH p u) as [(w & r & -> & Hw & ->)|[Hw ->]].
      * destruct v; [congruence|]. rewrite app_length in Hl. cbn [length] in Hl. lia.
      * left. exists (v ++ w), r. rewrite <- app_assoc. split; [reflexivity|]. split; [|reflexivity]. apply p_run; auto.
      * right. split; [|reflexivity]. apply po_run; auto.
    + rewrite (chunk_empty _ _ Hc) in *. cbn [or_else] in *. destruct s as [|c s]; [left; apply Hend; reflexivity|].
      destruct (ascii_dec c "(") as [->|H1].
      * rewrite (brk_none fuel in_template) in * by (apply begins_one_not; discriminate). rewrite brk_open in *.
        destruct (IH in_braces s) as [(w & r & -> & Hw & E)|[Hw E]]; [cbn [length] in Hl; lia|rewrite E in *|rewrite E in *]; cbn [bind] in *.
        -- destruct (skip_char_cases ")" r) as [(q & -> & E')|[Hr E']]; rewrite E' in *; cbv iota in *; [|left; apply Hend; reflexivity].
           cbn [or_else]. destruct (IH p q) as [(x & y & -> & Hx & ->)|[Hx ->]].
           ++ cbn [length] in Hl. rewrite app_length in Hl. cbn [length] in Hl. lia.
           ++ left. exists (L "(" ++ w ++ L ")" ++ x), y. split; [cbn [L list_ascii_of_string app]; rewrite <- app_assoc; reflexivity|]. split.
              ** apply p_braces; assumption.
              ** cbn [bind L list_ascii_of_string app]. rewrite <- app_assoc. reflexivity.
           ++ right. split; [|reflexivity]. apply (po_braces _ _ w q); assumption.
        -- right. split; [|reflexivity]. apply (po_in_braces _ _ s). exact Hw.
      * rewrite (brk_none fuel in_braces) in * by (apply begins_one_not; auto). cbn [or_else] in *.
        destruct (ascii_dec c "<") as [->|H2].
        -- rewrite brk_open in *. destruct (IH in_template s) as [(w & r & -> & Hw & E)|[Hw E]]; [cbn [length] in Hl; lia|rewrite E in *|rewrite E in *]; cbn [bind] in *.
           ++ destruct (skip_char_cases ">" r) as [(q & -> & E')|[Hr E']]; rewrite E' in *; cbv iota in *; [|left; apply Hend; reflexivity].
              destruct (IH p q) as [(x & y & -> & Hx & ->)|[Hx ->]].
              ** cbn [length] in Hl. rewrite app_length in Hl. cbn [length] in Hl. lia.
              ** left. exists (L "<" ++ w ++ L ">" ++ x), y. split; [cbn [L list_ascii_of_string app]; rewrite <- app_assoc; reflexivity|]. split.
                 --- apply p_template; assumption.
                 --- cbn [bind L list_ascii_of_string app]. rewrite <- app_assoc. reflexivity.
              ** right. split; [|reflexivity]. apply (po_template _ _ w q); assumption.
           ++ right. split; [|reflexivity]. apply (po_in_template _ _ s). exact Hw.
        -- left. apply Hend. apply brk_none. apply begins_one_not. auto.
    + rewrite (chunk_off _ _ Hc). cbn [or_else]. right. split; [|reflexivity]. apply po_here; assumption.
Qed.
(** From a place outside of brackets *)
Lemma top_eval w r : parts false false w r -> terminal false r -> name_loop (S (length (w ++ r))) at_top (w ++ r) = Ok (w, r).
Proof. intros H Ht. apply (parts_eval _ _ _ _ H); auto. Qed.
Lemma top_off s : parts_off false false s -> name_loop (S (length s)) at_top s = UB.
Proof. intros H. apply (parts_off_eval _ _ _ H); auto. Qed.
Lemma top_cases s : (exists w r, s = w ++ r /\ parts false false w r /\ name_loop (S (length s)) at_top s = Ok (w, r)) \/
  (parts_off false false s /\ name_loop (S (length s)) at_top s = UB).
Proof. apply (name_loop_cases _ at_top s). lia. Qed.
