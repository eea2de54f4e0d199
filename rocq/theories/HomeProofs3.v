(** * Proofs: texts that another user would have got. *)
From Verif Require Import Base Types UtilsModel UtilsSpec UtilsProofs ParseSpec RubyParseModel RubyParseSpec RubyParseProofs PyParseModel PyParseSpec PyParseProofs HomeSpec HomeProofs.
Open Scope nat_scope.

Lemma prefix_cases (P A path B : str) : P ++ A = path ++ B -> (exists z, path = P ++ z /\ A = z ++ B) \/ (exists w, w <> [] /\ P = path ++ w /\ B = w ++ A).
Proof.
  revert path. induction P as [|c P IH]; intros path E.
  - left. exists path. cbn in E. auto.
  - destruct path as [|d path]; [right; exists (c :: P); cbn in *; repeat split; auto; discriminate|]. cbn in E. injection E as -> E.
    destruct (IH path E) as [(z & -> & ->) | (w & N & -> & ->)]; [left; exists z|right; exists w]; repeat split; auto.
Qed.
Lemma slash_end (path w u : str) : w <> [] -> L "/home/" ++ u ++ ["/"%char] = path ++ w -> exists w', w = w' ++ ["/"%char].
Proof.
  intros N E. destruct (@exists_last _ w N) as (w' & c & ->). exists w'. rewrite !app_assoc in E. apply app_inj_tail in E. destruct E as [_ <-]. reflexivity.
Qed.
Lemma home_app u rest : home u rest = (L "/home/" ++ u ++ ["/"%char]) ++ rest.
Proof. unfold home. now rewrite <- !app_assoc. Qed.
(** A path that another user's replaces is shown the same. *)
Lemma anonymized_home u v z shown : ~ In "/"%char u -> ~ In "/"%char v -> anonymized (home u z) shown -> anonymized (home v z) shown.
Proof.
  intros U V [(a & b & A & E & ->) | [N _]].
  - left. exists v, z. split; [exact V|]. split; [reflexivity|]. f_equal. pose proof (anonymize_home u z U) as X. pose proof (anonymize_home a b A) as Y.
    unfold home in E. rewrite <- E, X in Y. apply (f_equal (fun o => match o with Some s => s | None => [] end)) in Y. cbv beta iota in Y. symmetry. exact (app_inv_head _ _ _ Y).
  - exfalso. exact (N u z U eq_refl).
Qed.
Lemma without_in set s c : without set s -> In c set -> ~ In c s.
Proof. intros W I' J. unfold without in W. rewrite Forall_forall in W. exact (W c J I'). Qed.

(** ** Ruby *)
Lemma digits_no ds line c : number32 ds line -> decimal_digit c = None -> ~ In c ds.
Proof.
  intros [N _] D J. induction N as [x d X|t v x d N IH X].
  - destruct J as [->|[]]. congruence.
  - apply in_app_or in J. destruct J as [J|[->|[]]]; [now apply IH|congruence].
Qed.
(** A text that goes on after the closing quote begins with the same. *)
Lemma begins_cut p a b r : ~ In "'"%char p -> In "'"%char a -> (begins p (a ++ b) <-> begins p (a ++ r)).
Proof.
  intros N I'. assert (K : forall x y, begins p (a ++ x) -> begins p (a ++ y)).
  { intros x y [z E]. destruct (prefix_cases p z a x (eq_sym E)) as [(w & -> & _) | (w & _ & -> & _)].
    - exists (w ++ y). now rewrite <- app_assoc.
    - destruct N. apply in_or_app. now left. }
  split; apply K.
Qed.
Lemma begins_nil p a : begins p a <-> begins p (a ++ []). Proof. now rewrite app_nil_r. Qed.
Lemma ruby_extend l l' f r : ruby_line_alike l l' -> ruby_frame_text l f [] -> ruby_frame_text (l' ++ r) f r.
Proof.
  intros A (path & shown & ds & line & q & nt & name & E & Wp & Nd & An & Lv & Nm & E1 & E2 & E3).
  (* the name and the levels do not depend on what follows *)
  assert (Q : In "'"%char nt).
  { destruct Nm as (_ & _ & Nm). destruct (rf_special_function f); [rewrite Nm|destruct Nm as [-> _]].
    - apply in_or_app. right. apply in_or_app. right. right. now left.
    - apply in_or_app. right. now left. }
  assert (Nm' : ruby_name (nt ++ r) name (rf_special_function f) r).
  { destruct Nm as (N1 & N2 & N3). split; [exact N1|]. split; [exact N2|]. destruct (rf_special_function f).
    - rewrite N3, app_nil_r, <- !app_assoc. reflexivity.
    - destruct N3 as [-> N3]. split; [|exact N3]. rewrite app_nil_r, <- !app_assoc. reflexivity. }
  assert (Lv' : ruby_levels (q ++ r) (rf_rescue_level f) (rf_block_level f) (nt ++ r)).
  { destruct Lv as (n & after & -> & NB & RL & H). exists n, (after ++ r). split; [now rewrite app_assoc|].
    assert (Qa : In "'"%char after).
    { destruct H as [[-> _] | [(d & v & -> & _) | (-> & _)]]; [apply in_or_app; now right| |exact Q]. do 3 (apply in_or_app; right). exact Q. }
    assert (St : forall p, ~ In "'"%char p -> ~ begins p after -> ~ begins p (after ++ r)).
    { intros p Np B B'. apply B. apply begins_nil. apply (begins_cut p after [] r Np Qa). exact B'. }
    split; [apply St; [|exact NB]; cbn; intuition discriminate|]. split; [exact RL|].
    destruct H as [[-> Bl] | [(d & v & -> & Nb & Bl) | (Ea & B1 & B2 & Bl)]].
    - left. split; [now rewrite <- app_assoc|exact Bl].
    - right; left. exists d, v. split; [now rewrite <- !app_assoc|]. now split.
    - right; right. split; [now rewrite Ea|]. split; [apply St; [|exact B1]; cbn; intuition discriminate|]. split; [apply St; [|exact B2]; cbn; intuition discriminate|exact Bl]. }
  destruct A as [<- | (u & v & rest & -> & -> & U & V)].
  - exists path, shown, ds, line, (q ++ r), (nt ++ r), name. rewrite E. split; [now rewrite <- !app_assoc|]. auto 12.
  - assert (U1 : ~ In "/"%char u) by (apply (without_in _ _ _ U); now left). assert (V1 : ~ In "/"%char v) by (apply (without_in _ _ _ V); now left).
    rewrite home_app in E. destruct (prefix_cases _ _ _ _ E) as [(z & Ez & Er) | (w & N & Ew & Eb)].
    + exists (home v z), shown, ds, line, (q ++ r), (nt ++ r), name. rewrite (home_app v rest), Er, (home_app v z).
      split; [now rewrite <- !app_assoc|]. split.
      { unfold without in *. rewrite !Forall_app. rewrite Ez, !Forall_app in Wp. destruct Wp as [(W1 & W2 & W3) W4].
        split; [split; [exact W1|split; [|exact W3]]|exact W4]. eapply Forall_impl; [|exact V]. cbn. intros c H J. apply H. now right. }
      split; [exact Nd|]. split; [|auto 12]. rewrite <- home_app. apply (anonymized_home u v z shown U1 V1). rewrite home_app, <- Ez. exact An.
    + exfalso. destruct (slash_end path w u N Ew) as (w' & ->).
      assert (Bw : ~ In "`"%char (w' ++ ["/"%char])).
      { intros J. assert (J2 : In "`"%char (L "/home/" ++ u ++ ["/"%char])) by (rewrite Ew; apply in_or_app; now right).
        apply in_app_or in J2. destruct J2 as [J2|J2]; [cbn in J2; intuition discriminate|]. apply in_app_or in J2. destruct J2 as [J2|J2]; [|cbn in J2; intuition discriminate].
        revert J2. apply (without_in _ _ _ U). right. now left. }
      assert (Eb' : (w' ++ ["/"%char]) ++ rest = (L ":" ++ ds ++ L ":in ") ++ "`"%char :: q) by (rewrite <- Eb, <- !app_assoc; reflexivity).
      destruct (prefix_cases _ _ _ _ Eb') as [(z & Ez & _) | (w2 & N2 & E4 & E5)].
      * assert (J : In "/"%char (L ":" ++ ds ++ L ":in ")) by (rewrite Ez; apply in_or_app; left; apply in_or_app; right; now left).
        apply in_app_or in J. destruct J as [J|J]; [cbn in J; intuition discriminate|]. apply in_app_or in J. destruct J as [J|J]; [|cbn in J; intuition discriminate].
        exact (digits_no ds line "/"%char Nd eq_refl J).
      * destruct w2 as [|c w2]; [now apply N2|]. cbn in E5. injection E5 as <- _. apply Bw. rewrite E4. apply in_or_app. right. now left.
Qed.
Lemma ruby_lines_extend fs : forall lines lines', Forall2 (fun l f => sr_ruby_frame_parse l = Ok (f, [])) lines fs -> Forall2 ruby_line_alike lines lines' ->
  ruby_frames_text (concat (map (fun t => tab :: L "from " ++ t ++ [nl]) lines')) fs.
Proof.
  induction fs as [|f fs IH]; intros lines lines' H A; inversion H; subst; inversion A; subst; [constructor|]. cbn [map concat].
  match goal with |- ruby_frames_text ((tab :: L "from " ++ ?y ++ [nl]) ++ ?r) _ => replace ((tab :: L "from " ++ y ++ [nl]) ++ r) with (tab :: L "from " ++ (y ++ nl :: r)) by (cbn [app]; now rewrite <- !app_assoc) end.
  econstructor; [|eapply IH; eassumption]. eapply ruby_extend; [eassumption|]. now apply frame_iff.
Qed.
Lemma ruby_trace_alike first first' lines lines' f fs message class :
  sr_ruby_frame_parse first = Ok (f, []) -> Forall2 (fun l g => sr_ruby_frame_parse l = Ok (g, [])) lines fs ->
  ruby_line_alike first first' -> Forall2 ruby_line_alike lines lines' ->
  without [tab] message -> without [tab] class -> class <> [] -> ~ In "("%char class ->
  sr_ruby_stacktrace_parse (ruby_show_trace message class first' lines') = Ok (mk_ruby_stacktrace (Some class) (f :: fs), []).
Proof.
  intros H1 H2 A1 A2 M C1 C2 C3. apply ruby_iff. apply frame_iff in H1. unfold ruby_text, ruby_show_trace.
  exists f, (L ": " ++ (message ++ [sp]) ++ L "(" ++ class ++ L ")" ++ nl :: concat (map (fun t => tab :: L "from " ++ t ++ [nl]) lines')), (message ++ [sp]), class,
    (concat (map (fun t => tab :: L "from " ++ t ++ [nl]) lines')), fs.
  split; [|split; [reflexivity|]; split; [|split; [exact C1|]; split; [|split; [exact C2|]; split; [exact C3|]; split; [now apply (ruby_lines_extend fs lines)|reflexivity]]]].
  - match goal with |- ruby_frame_text ?a _ ?b => replace a with (first' ++ b) by (rewrite <- !app_assoc; reflexivity) end. now apply (ruby_extend first).
  - unfold without in *. rewrite Forall_app. split; [exact M|]. constructor; [|constructor]. intros [X|[]]. discriminate X.
  - destruct lines'; [exact Logic.I|]. cbn. now left.
Qed.

(** ** Python *)
Lemma file_passed s r : py_passed (L "  File """ ++ s) r -> r = L "  File """ ++ s.
Proof.
  intros [(p & E & P) | (-> & _)]; [|reflexivity]. exfalso. destruct p as [|a [|b [|c p]]]; try discriminate E. injection E as <- <- <- _.
  inversion P as [|? ? _ P2]; subst. inversion P2 as [|? ? _ P3]; subst. inversion P3 as [|? ? X _]; subst. cbn in X. intuition discriminate.
Qed.
Lemma passed_file s : py_passed (L "  File """ ++ s) (L "  File """ ++ s).
Proof.
  right. split; [reflexivity|]. assert (X : forall p q, L "  File """ ++ s = p ++ q -> (q = [] \/ exists q', q = nl :: q') -> ~ pointers p).
  { intros p q E Q P. destruct p as [|a [|b [|c p]]]; [destruct Q as [-> | [q' ->]]; discriminate E| | |].
    - destruct Q as [-> | [q' ->]]; discriminate E.
    - destruct Q as [-> | [q' ->]]; discriminate E.
    - injection E as <- <- <- _. inversion P as [|? ? _ P2]; subst. inversion P2 as [|? ? _ P3]; subst. inversion P3 as [|? ? Y _]; subst. cbn in Y. intuition discriminate. }
  split; [apply (X _ []); [now rewrite app_nil_r|now left]|]. intros p q E. apply (X p (nl :: q) E). right. eauto.
Qed.
Lemma python_frame_alike s s' f q : python_line_alike s s' -> sr_python_frame_parse s = Ok (Some f, q) -> sr_python_frame_parse s' = Ok (Some f, q).
Proof.
  intros (u & v & rest & -> & -> & U & V) H. apply py_frame_iff in H. destruct H as (r & P & T). apply file_passed in P. subst r. apply py_frame_iff.
  eexists. split; [apply passed_file|]. assert (U1 : ~ In "/"%char u) by (apply (without_in _ _ _ U); now left). assert (V1 : ~ In "/"%char v) by (apply (without_in _ _ _ V); now left).
  destruct T as (path & inner & shown & ds & line & name & after & below & E & N & W & Nd & B & An & T). apply app_inv_head in E. rewrite home_app in E.
  destruct (prefix_cases _ _ _ _ E) as [(z & Ez & Er) | (w & N2 & Ew & Eb)].
  - exists (home v z), (home v z), shown, ds, line, name, after, below. rewrite (home_app v rest), Er. split; [rewrite (home_app v z), <- !app_assoc; reflexivity|].
    split; [discriminate|]. split.
    { unfold without in *. rewrite home_app, !Forall_app. rewrite Ez, !Forall_app in W. destruct W as [(W1 & W2 & W3) W4].
      split; [split; [exact W1|split; [|exact W3]]|exact W4]. eapply Forall_impl; [|exact V]. cbn. intros c X J. apply X. now right. }
    split; [exact Nd|]. rewrite Ez in B. destruct (pf_special_file f).
    + exfalso. discriminate B.
    + destruct B as [-> _]. split; [split; [reflexivity|]; intros x X; discriminate X|]. split; [|exact T].
      apply (anonymized_home u v z shown U1 V1). rewrite home_app. exact An.
  - exfalso. destruct w as [|c w]; [now apply N2|]. cbn in Eb. injection Eb as <- _.
    assert (J : In dquote (L "/home/" ++ u ++ ["/"%char])) by (rewrite Ew; apply in_or_app; right; now left).
    apply in_app_or in J. destruct J as [J|J]; [cbn in J; intuition discriminate|]. apply in_app_or in J. destruct J as [J|J]; [|cbn in J; intuition discriminate].
    revert J. apply (without_in _ _ _ U). right. now left.
Qed.
