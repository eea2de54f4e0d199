(** * A lexical invariant of JSON texts, used to show that some outputs are not JSON.

    The scanner tracks string literals, the balance of braces and brackets outside them, and
    control characters inside them. *)
From Verif Require Import Base UtilsModel UtilsSpec UtilsProofs JsonSpec JsonModel JsonProofs.
Open Scope Z_scope.

Inductive mode := OutStr | InStr | EscStr.
Record sstate := mk_ss { ss_mode : mode; ss_br : Z; ss_bk : Z; ss_bad : bool }.

Definition step (s : sstate) (c : ascii) : sstate :=
  match ss_mode s with
  | OutStr =>
    if Ascii.eqb c dquote then mk_ss InStr (ss_br s) (ss_bk s) (ss_bad s)
    else if Ascii.eqb c "{" then mk_ss OutStr (ss_br s + 1) (ss_bk s) (ss_bad s)
    else if Ascii.eqb c "}" then mk_ss OutStr (ss_br s - 1) (ss_bk s) (ss_bad s)
    else if Ascii.eqb c "[" then mk_ss OutStr (ss_br s) (ss_bk s + 1) (ss_bad s)
    else if Ascii.eqb c "]" then mk_ss OutStr (ss_br s) (ss_bk s - 1) (ss_bad s)
    else s
  | InStr =>
    if Ascii.eqb c dquote then mk_ss OutStr (ss_br s) (ss_bk s) (ss_bad s)
    else if Ascii.eqb c backslash then mk_ss EscStr (ss_br s) (ss_bk s) (ss_bad s)
    else mk_ss InStr (ss_br s) (ss_bk s) (ss_bad s || (code c <? 32)%N)
  | EscStr => mk_ss InStr (ss_br s) (ss_bk s) (ss_bad s)
  end.
Definition scan (t : str) (s : sstate) : sstate := fold_left step t s.

Lemma scan_app a b s : scan (a ++ b) s = scan b (scan a s).
Proof. apply fold_left_app. Qed.
Lemma scan_cons c t s : scan (c :: t) s = scan t (step s c).
Proof. reflexivity. Qed.

(** [eff t x y b]: from outside a string, [t] returns outside, having opened [x] more braces
    and [y] more brackets than it closed, [b] telling of a control character in a string. *)
Definition eff (t : str) (x y : Z) (b : bool) : Prop :=
  forall br bk bad, scan t (mk_ss OutStr br bk bad) = mk_ss OutStr (br + x) (bk + y) (bad || b).

Lemma eff_app a b x y x' y' c c' : eff a x y c -> eff b x' y' c' -> eff (a ++ b) (x + x') (y + y') (c || c').
Proof.
  intros Ha Hb br bk bad. rewrite scan_app, Ha, Hb. f_equal; try lia. rewrite orb_assoc; reflexivity.
Qed.
Lemma eff_eq t x y c x' y' c' : eff t x y c -> x = x' -> y = y' -> c = c' -> eff t x' y' c'.
Proof. intros H -> -> ->; exact H. Qed.
Lemma eff_fun t x y c x' y' c' : eff t x y c -> eff t x' y' c' -> x = x' /\ y = y' /\ c = c'.
Proof.
  intros H1 H2. specialize (H1 0 0 false). rewrite H2 in H1. injection H1 as E1 E2 E3.
  simpl in *; repeat split; try lia. congruence.
Qed.
Definition neutral (t : str) : Prop := eff t 0 0 false.
Lemma neutral_nil : neutral [].
Proof. intros br bk bad; simpl. f_equal; [lia | lia | destruct bad; reflexivity]. Qed.
Lemma neutral_app a b : neutral a -> neutral b -> neutral (a ++ b).
Proof. intros Ha Hb. apply (eff_app _ _ 0 0 0 0 false false Ha Hb). Qed.

Definition plain_char (c : ascii) : bool :=
  negb (Ascii.eqb c dquote || Ascii.eqb c "{" || Ascii.eqb c "}" || Ascii.eqb c "[" || Ascii.eqb c "]").
Lemma neutral_char c : plain_char c = true -> neutral [c].
Proof.
  unfold plain_char. rewrite negb_true_iff, !orb_false_iff. intros ((((H1 & H2) & H3) & H4) & H5) br bk bad.
  simpl. unfold step; simpl. rewrite H1, H2, H3, H4, H5. f_equal; [lia | lia | destruct bad; reflexivity].
Qed.
Lemma neutral_plain t : forallb plain_char t = true -> neutral t.
Proof.
  induction t as [|c t IH]; intros H; [apply neutral_nil|]. simpl in H. apply andb_true_iff in H as [H1 H2].
  apply (neutral_app [c] t); [apply neutral_char; exact H1 | apply IH; exact H2].
Qed.
Lemma neutral_ws w : ws w -> neutral w.
Proof.
  intros H. apply neutral_plain. apply forallb_forall. intros c Hc.
  unfold ws in H. rewrite Forall_forall in H. destruct (H _ Hc) as [->|[->|[->| ->]]]; reflexivity.
Qed.
Lemma neutral_digits t : Forall (fun c => dig c <> None) t -> neutral t.
Proof.
  intros H. apply neutral_plain. apply forallb_forall. intros c Hc. rewrite Forall_forall in H.
  specialize (H _ Hc). destruct (dig c) as [d|] eqn:E; [|congruence].
  destruct c as [[] [] [] [] [] [] [] []]; simpl in E; try discriminate E; reflexivity.
Qed.

(** The body of a string literal. *)
Lemma jchars_scan s b : jchars s b -> forall br bk bad, scan b (mk_ss InStr br bk bad) = mk_ss InStr br bk bad.
Proof.
  induction 1 as [|c s b Hc Hq Hb H IH|e c s b He H IH]; intros br bk bad; [reflexivity| |].
  - rewrite scan_cons. unfold step; cbn [ss_mode ss_br ss_bk ss_bad].
    rewrite (proj2 (Ascii.eqb_neq _ _) Hq), (proj2 (Ascii.eqb_neq _ _) Hb).
    replace (code c <? 32)%N with false by (symmetry; apply N.ltb_ge; exact Hc).
    rewrite orb_false_r. apply IH.
  - rewrite !scan_cons. exact (IH br bk bad).
Qed.
Lemma neutral_jstring s b : jchars s b -> neutral (dquote :: b ++ [dquote]).
Proof.
  intros H br bk bad. rewrite scan_cons, scan_app. change (step (mk_ss OutStr br bk bad) dquote) with (mk_ss InStr br bk bad).
  rewrite (jchars_scan _ _ H). simpl. unfold step; simpl. f_equal; [lia | lia | destruct bad; reflexivity].
Qed.

(** The escaper's output, whatever the string. *)
Definition unsafe_char (c : ascii) : bool :=
  (code c <? 32)%N && negb (mem c [nl; cr; ff; bs; tab]).
Definition unsafe (s : str) : bool := existsb unsafe_char s.
Lemma unsafe_safe s : unsafe s = false <-> json_safe s.
Proof.
  unfold unsafe, json_safe. induction s as [|c s IH]; simpl; [split; auto; constructor|].
  rewrite orb_false_iff, IH. split.
  - intros [H1 H2]; constructor; auto. unfold unsafe_char in H1. unfold json_safe_char.
    destruct (code c <? 32)%N eqn:E; [|left; apply N.ltb_ge; exact E]. simpl in H1.
    rewrite negb_false_iff in H1. unfold mem in H1. simpl in H1. rewrite !orb_true_iff in H1.
    right. destruct H1 as [H|[H|[H|[H|[H|H]]]]]; try discriminate H; apply Ascii.eqb_eq in H; subst; tauto.
  - intros H; inversion H as [|? ? H1 H2]; subst. split; auto. unfold unsafe_char.
    destruct H1 as [H1|H1].
    + replace (code c <? 32)%N with false by (symmetry; apply N.ltb_ge; exact H1). reflexivity.
    + destruct H1 as [->|[->|[->|[->| ->]]]]; reflexivity.
Qed.
Lemma escape_scan s : forall br bk bad,
  scan (sr_json_escape s) (mk_ss InStr br bk bad) = mk_ss InStr br bk (bad || unsafe s).
Proof.
  induction s as [|c s IH]; intros br bk bad; [simpl; rewrite orb_false_r; reflexivity|].
  unfold sr_json_escape in *. cbn [map concat]. rewrite scan_app. unfold unsafe; cbn [existsb]. fold (unsafe s).
  rewrite orb_assoc, <- IH. f_equal. unfold json_escape_char.
  destruct (Ascii.eqb c dquote) eqn:E1; [apply Ascii.eqb_eq in E1; subst; simpl; rewrite orb_false_r; reflexivity|].
  destruct (Ascii.eqb c nl) eqn:E2; [apply Ascii.eqb_eq in E2; subst; simpl; rewrite orb_false_r; reflexivity|].
  destruct (Ascii.eqb c backslash) eqn:E3; [apply Ascii.eqb_eq in E3; subst; simpl; rewrite orb_false_r; reflexivity|].
  destruct (Ascii.eqb c cr) eqn:E4; [apply Ascii.eqb_eq in E4; subst; simpl; rewrite orb_false_r; reflexivity|].
  destruct (Ascii.eqb c ff) eqn:E5; [apply Ascii.eqb_eq in E5; subst; simpl; rewrite orb_false_r; reflexivity|].
  destruct (Ascii.eqb c bs) eqn:E6; [apply Ascii.eqb_eq in E6; subst; simpl; rewrite orb_false_r; reflexivity|].
  destruct (Ascii.eqb c tab) eqn:E7; [apply Ascii.eqb_eq in E7; subst; simpl; rewrite orb_false_r; reflexivity|].
  simpl. unfold step; simpl. rewrite E1, E3. f_equal. f_equal. unfold unsafe_char, mem; simpl.
  rewrite E2, E4, E5, E6, E7. simpl. rewrite andb_true_r. reflexivity.
Qed.
Lemma eff_quoted s : eff (json_quoted s) 0 0 (unsafe s).
Proof.
  intros br bk bad. unfold json_quoted. rewrite scan_cons, scan_app.
  change (step (mk_ss OutStr br bk bad) dquote) with (mk_ss InStr br bk bad). rewrite escape_scan.
  simpl. unfold step; simpl. f_equal; lia.
Qed.

(** JSON values are neutral. *)
Lemma neutral_brackets t : neutral t -> neutral ("["%char :: t ++ L "]").
Proof.
  intros H br bk bad. rewrite scan_cons, scan_app. unfold step at 1; simpl. rewrite H.
  simpl. unfold step; simpl. f_equal; try lia.
Qed.
Lemma neutral_braces t : neutral t -> neutral ("{"%char :: t ++ L "}").
Proof.
  intros H br bk bad. rewrite scan_cons, scan_app. unfold step at 1; simpl. rewrite H.
  simpl. unfold step; simpl. f_equal; try lia.
Qed.
Lemma neutral_plain_app a b : forallb plain_char a = true -> neutral b -> neutral (a ++ b).
Proof. intros; apply neutral_app; auto using neutral_plain. Qed.
Lemma neutral_cons c b : plain_char c = true -> neutral b -> neutral (c :: b).
Proof. intros; apply (neutral_app [c] b); auto using neutral_char. Qed.
Lemma neutral_jmember k kb w1 w2 w3 t w4 : ws w1 -> jchars k kb -> ws w2 -> ws w3 -> neutral t -> ws w4 ->
  neutral (w1 ++ dquote :: kb ++ dquote :: w2 ++ ":"%char :: w3 ++ t ++ w4).
Proof.
  intros. apply neutral_app; [apply neutral_ws; auto|].
  replace (dquote :: kb ++ dquote :: w2 ++ ":"%char :: w3 ++ t ++ w4)
    with ((dquote :: kb ++ [dquote]) ++ w2 ++ [":"%char] ++ w3 ++ t ++ w4)
    by (simpl; rewrite <- app_assoc; reflexivity).
  repeat apply neutral_app; auto using neutral_ws, neutral_char. eapply neutral_jstring; eauto.
Qed.
Lemma json_neutral :
  (forall v t, jval v t -> neutral t) /\
  (forall l t, jelems l t -> neutral t) /\
  (forall l t, jmembers l t -> neutral t).
Proof.
  apply json_mutind.
  - apply neutral_plain; reflexivity.
  - apply neutral_plain; reflexivity.
  - apply neutral_plain; reflexivity.
  - intros z t [[H _]|(t' & -> & [H _])]; apply jdigits_all in H as [H _].
    + apply neutral_digits; exact H.
    + apply neutral_cons; [reflexivity | apply neutral_digits; exact H].
  - intros s b H. eapply neutral_jstring; eauto.
  - intros w H. apply neutral_brackets, neutral_ws; assumption.
  - intros l t _ H. apply neutral_brackets; exact H.
  - intros w H. apply neutral_braces, neutral_ws; assumption.
  - intros l t _ H. apply neutral_braces; exact H.
  - intros v w1 t w2 H1 _ H H2. repeat apply neutral_app; auto using neutral_ws.
  - intros v w1 t w2 l tl H1 _ H H2 _ IH. apply neutral_app; [auto using neutral_ws|]. apply neutral_app; [exact H|]. apply neutral_app; [auto using neutral_ws|].
    apply neutral_cons; [reflexivity | exact IH].
  - intros k kb v w1 w2 w3 t w4 H1 Hk H2 H3 _ H H4. eapply neutral_jmember; eauto.
  - intros k kb v w1 w2 w3 t w4 l tl H1 Hk H2 H3 _ H H4 _ IH.
    replace (w1 ++ dquote :: kb ++ dquote :: w2 ++ ":"%char :: w3 ++ t ++ w4 ++ ","%char :: tl)
      with ((w1 ++ dquote :: kb ++ dquote :: w2 ++ ":"%char :: w3 ++ t ++ w4) ++ ","%char :: tl)
      by (repeat (rewrite <- app_assoc; simpl); reflexivity).
    apply neutral_app; [eapply neutral_jmember; eauto|]. apply neutral_cons; [reflexivity | exact IH].
Qed.

Lemma valid_json_neutral t : valid_json t -> neutral t.
Proof.
  intros (v & w1 & t' & w2 & H1 & H & H2 & ->). repeat apply neutral_app; auto using neutral_ws.
  eapply (proj1 json_neutral); eauto.
Qed.
Lemma eff_not_json t x y b : eff t x y b -> valid_json t -> x = 0 /\ y = 0 /\ b = false.
Proof. intros H Hv. apply valid_json_neutral in Hv. eapply eff_fun; eauto. Qed.

(** Indentation does not affect the scanner. *)
Lemma scan_spaces n s : ss_mode s <> EscStr -> scan (spaces n) s = s.
Proof.
  destruct s as [m br bk bad]. intros H. simpl in H. induction n as [|n IH]; [reflexivity|].
  change (spaces (S n)) with (sp :: spaces n). rewrite scan_cons.
  replace (step (mk_ss m br bk bad) sp) with (mk_ss m br bk bad); [exact IH|].
  destruct m; [reflexivity | unfold step; simpl; rewrite orb_false_r; reflexivity | congruence].
Qed.
Lemma step_nl_mode s : ss_mode (step s nl) <> EscStr.
Proof. destruct s as [[] br bk bad]; unfold step; simpl; discriminate. Qed.
Lemma scan_indent n t : forall s, scan (sr_indent_except_first_line t n) s = scan t s.
Proof.
  induction t as [|c t IH]; intros s; [reflexivity|]. cbn [sr_indent_except_first_line].
  destruct (Ascii.eqb c nl) eqn:E.
  - apply Ascii.eqb_eq in E; subst c. rewrite !scan_cons.
    destruct t as [|d t]; [reflexivity|]. rewrite scan_app, scan_spaces by apply step_nl_mode. apply IH.
  - rewrite !scan_cons. apply IH.
Qed.
Lemma eff_indent n t x y b : eff t x y b -> eff (sr_indent_except_first_line t n) x y b.
Proof. intros H br bk bad. rewrite scan_indent. apply H. Qed.
