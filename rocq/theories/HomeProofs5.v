(** * Proofs: lines of Java exceptions that another user would have got. *)
From Verif Require Import Base Types UtilsModel UtilsSpec UtilsProofs RpmSpec ParseSpec PyParseSpec JavaParseModel JavaParseSpec JavaParseProofs HomeSpec HomeProofs HomeProofs3.
Open Scope nat_scope.

Lemma cut_unique set c : In c set -> forall a x b q, without set a -> without set b -> stops_at set q -> a ++ c :: x = b ++ q -> b = a /\ q = c :: x.
Proof.
  intros C a. induction a as [|d a IH]; intros x b q A B Q E.
  - destruct b as [|e b]; [split; [reflexivity|now symmetry]|]. exfalso. inversion B; subst. cbn in E. apply (f_equal (hd c)) in E. cbn in E. subst e. contradiction.
  - inversion A; subst. destruct b as [|e b].
    + exfalso. cbn in E. destruct q as [|y q]; [discriminate E|]. cbn in Q. apply (f_equal (hd c)) in E. cbn in E. subst y. contradiction.
    + inversion B; subst. pose proof (f_equal (hd c) E) as E1. cbn in E1. subst e. apply (f_equal (@tl _)) in E. cbn in E. destruct (IH x b q) as [-> ->]; auto.
Qed.
Lemma blanks_unique g x : not_blank_first x -> x <> [] -> forall ws r, blank g -> blank ws -> not_blank_first r -> g ++ x = ws ++ r -> r = x.
Proof.
  intros X NX. induction g as [|c g IH]; intros ws r G W R E.
  - destruct ws as [|d ws]; [now symmetry|]. inversion W; subst. cbn in E. subst x. cbn in X. contradiction.
  - inversion G; subst. destruct ws as [|d ws]; [cbn in E; subst r; cbn in R; contradiction|]. inversion W; subst. apply (f_equal (@tl _)) in E. cbn in E. exact (IH ws r ltac:(assumption) ltac:(assumption) R E).
Qed.
Lemma no_at_in_blank lead x y : Forall space_char lead -> lead = x ++ y -> y <> [] -> forall z, ~ begins (L "at") (y ++ z).
Proof.
  intros F -> N z [r E]. apply Forall_app in F. destruct F as [_ F]. destruct y as [|c y]; [now apply N|]. inversion F; subst. apply (f_equal (hd sp)) in E. cbn in E. subst c.
  repeat match goal with H : space_char _ |- _ => unfold space_char in H; cbn in H; intuition discriminate end.
Qed.
Lemma first_at_lead lead r : Forall space_char lead -> forall q, first_at (L "at") (lead ++ L "at" ++ r) (L "at" ++ q) <-> q = r.
Proof.
  intros F q. split.
  - intros (a & E & B & M). pose proof (M lead (L "at" ++ r) eq_refl (ex_intro _ r eq_refl)) as Len.
    destruct (prefix_cases _ _ _ _ E) as [(z & -> & Ez) | (w & Nw & -> & Ew)].
    + rewrite app_length in Len. destruct z; [|cbn in Len; exfalso; lia]. cbn in Ez. apply (f_equal (@tl _)) in Ez. apply (f_equal (@tl _)) in Ez. now symmetry.
    + exfalso. apply (no_at_in_blank _ a w F eq_refl Nw (L "at" ++ r)). rewrite <- Ew. exact B.
  - intros ->. exists lead. split; [reflexivity|]. split; [eexists; reflexivity|]. intros a' r' E B. destruct (prefix_cases _ _ _ _ E) as [(z & -> & Ez) | (w & Nw & -> & Ew)].
    + rewrite app_length. apply Nat.le_add_r.
    + exfalso. apply (no_at_in_blank _ a' w F eq_refl Nw (L "at" ++ r)). rewrite <- Ew. exact B.
Qed.

(** What stands before the bracket decides. *)
Lemma number_alike q1 Y n after : ~ In "["%char q1 -> java_number (q1 ++ "["%char :: Y) n after ->
  exists q2, after = q2 ++ "["%char :: Y /\ ~ In "["%char q2 /\ forall Y', java_number (q1 ++ "["%char :: Y') n (q2 ++ "["%char :: Y').
Proof.
  intros N [(B & -> & ->) | [(ds & m & E & D & -> & SD) | (E & -> & NO)]].
  - exists q1. split; [reflexivity|]. split; [exact N|]. intros Y'. left. split; [|auto]. intros [r E]. apply B. destruct q1 as [|c q1]; [discriminate E|].
    apply (f_equal (hd sp)) in E. cbn in E. subst c. eexists. reflexivity.
  - rewrite app_assoc in E. destruct (prefix_cases _ _ _ _ E) as [(z & Ez & Eb) | (w & Nw & -> & ->)].
    + destruct z as [|c z].
      * rewrite app_nil_r in Ez. subst q1. cbn [app] in Eb. subst after. exists []. split; [reflexivity|]. split; [intros []|]. intros Y'. right. left. exists ds, m. rewrite <- app_assoc. repeat split; auto; apply D.
      * exfalso. apply (f_equal (hd sp)) in Eb. cbn in Eb. subst c. apply (digits_no ds m "["%char D eq_refl).
        assert (J : In "["%char (L ":" ++ ds)) by (rewrite Ez; apply in_or_app; right; now left). apply in_app_or in J. destruct J as [J|J]; [cbn in J; intuition discriminate|exact J].
    + exists w. split; [reflexivity|]. split; [intros J; apply N; apply in_or_app; now right|]. intros Y'. right. left. exists ds, m. rewrite <- !app_assoc. split; [reflexivity|]. split; [exact D|]. split; [reflexivity|].
      destruct w as [|c w]; [exfalso; now apply Nw|]. exact SD.
  - destruct q1 as [|c q1]; [discriminate E|]. pose proof (f_equal (hd sp) E) as Ec. cbn in Ec. subst c. apply (f_equal (@tl _)) in E. cbn in E. subst after.
    exists q1. split; [reflexivity|]. split; [intros J; apply N; now right|]. intros Y'. right. right. split; [reflexivity|]. split; [reflexivity|]. intros ds r m E D.
    destruct (prefix_cases _ _ _ _ E) as [(z & -> & Eb) | (w & Nw & -> & ->)].
    + destruct z as [|c z].
      * exfalso. apply (NO q1 ("["%char :: Y) m eq_refl). now rewrite app_nil_r in D. reflexivity.
      * exfalso. apply (f_equal (hd sp)) in Eb. cbn in Eb. subst c. apply (digits_no _ m "["%char D eq_refl). apply in_or_app. right. now left.
    + destruct w as [|c w]; [exfalso; now apply Nw|]. specialize (NO ds ((c :: w) ++ "["%char :: Y) m). rewrite <- app_assoc in NO. specialize (NO eq_refl D). exact NO.
Qed.
Lemma begins_bracket p a Y Y' : ~ In ")"%char p -> begins p (a ++ ")"%char :: Y) -> begins p (a ++ ")"%char :: Y').
Proof.
  intros N [r E]. destruct (prefix_cases _ _ _ _ E) as [(z & -> & Eb) | (w & Nw & -> & ->)].
  - destruct z as [|c z]; [exists (")"%char :: Y'); now rewrite app_nil_r|]. exfalso. apply (f_equal (hd sp)) in Eb. cbn in Eb. subst c. apply N. apply in_or_app. right. now left.
  - eexists. rewrite <- app_assoc. reflexivity.
Qed.
(** The path after the scheme. *)
Lemma path_alike_java stop u v rest path : In stop ["!"%char; "]"%char] -> without ["/"%char; "!"%char; "]"%char; nl] u -> without ["/"%char; "!"%char; "]"%char; nl] v ->
  java_path stop (L "file") (home u rest) path -> java_path stop (L "file") (home v rest) path.
Proof.
  intros St U V (text & r & [[_ E] | [X _]] & N & R & P); [|exfalso; apply X; reflexivity].
  assert (Us : ~ In stop (L "/home/" ++ u ++ ["/"%char])).
  { intros J. apply in_app_or in J. destruct J as [J|J]; [destruct St as [<-|[<-|[]]]; cbn in J; intuition discriminate|]. apply in_app_or in J. destruct J as [J|J].
    - revert J. apply (without_in _ _ _ U). destruct St as [<-|[<-|[]]]; cbn; auto.
    - destruct St as [<-|[<-|[]]]; cbn in J; intuition discriminate. }
  assert (Vs : ~ In stop (L "/home/" ++ v ++ ["/"%char])).
  { intros J. apply in_app_or in J. destruct J as [J|J]; [destruct St as [<-|[<-|[]]]; cbn in J; intuition discriminate|]. apply in_app_or in J. destruct J as [J|J].
    - revert J. apply (without_in _ _ _ V). destruct St as [<-|[<-|[]]]; cbn; auto.
    - destruct St as [<-|[<-|[]]]; cbn in J; intuition discriminate. }
  assert (U1 : ~ In "/"%char u) by (apply (without_in _ _ _ U); now left). assert (V1 : ~ In "/"%char v) by (apply (without_in _ _ _ V); now left).
  rewrite home_app in E. destruct (prefix_cases _ _ _ _ E) as [(z & -> & ->) | (w & Nw & Ew & ->)].
  - exists (home v z), r. split; [left; split; [reflexivity|]; rewrite (home_app v z), (home_app v (z ++ r)); symmetry; apply (app_assoc_reverse _ z r)|]. split; [|split; [exact R|]].
    + rewrite home_app. intros J. apply in_app_or in J. destruct J as [J|J]; [now apply Vs|]. apply N. apply in_or_app. now right.
    + rewrite <- home_app in P. destruct P as (shown & An & ->). exists shown. split; [|reflexivity]. exact (anonymized_home u v z shown U1 V1 An).
  - exfalso. destruct w as [|c w]; [now apply Nw|]. cbn in R. destruct R as [->|[]]. apply Us. rewrite Ew. apply in_or_app. right. now left.
Qed.
Lemma first_colon a x b y : ~ In ":"%char a -> ~ In ":"%char b -> a ++ ":"%char :: x = b ++ ":"%char :: y -> b = a /\ y = x.
Proof.
  intros A B E. destruct (cut_unique [":"%char] ":"%char (or_introl eq_refl) a x b (":"%char :: y)) as [-> X]; auto.
  - apply Forall_forall. intros c J [<-|[]]. now apply A.
  - apply Forall_forall. intros c J [<-|[]]. now apply B.
  - now left.
  - split; [reflexivity|]. apply (f_equal (@tl _)) in X. exact X.
Qed.
Lemma place_alike scheme u v rest path : scheme = L "file:" \/ scheme = L "jar:file:" -> without ["/"%char; "!"%char; "]"%char; nl] u -> without ["/"%char; "!"%char; "]"%char; nl] v ->
  java_place (scheme ++ home u rest) path -> java_place (scheme ++ home v rest) path.
Proof.
  assert (NF : ~ In ":"%char (L "file")) by (cbn; intuition discriminate). assert (NJ : ~ In ":"%char (L "jar")) by (cbn; intuition discriminate).
  intros [-> | ->] U V [[N _] | (sc & r & E & N & H)].
  - exfalso. apply N. apply in_or_app. left. cbn. tauto.
  - change (L "file:" ++ home u rest) with (L "file" ++ ":"%char :: home u rest) in E. destruct (first_colon _ _ _ _ NF N E) as [-> ->].
    destruct H as [[X _]|[_ H]]; [discriminate X|]. right. exists (L "file"), (home v rest). split; [reflexivity|]. split; [exact NF|]. right. split; [discriminate|].
    apply (path_alike_java "]" u); auto. cbn. tauto.
  - exfalso. apply N. apply in_or_app. left. cbn. tauto.
  - change (L "jar:file:" ++ home u rest) with (L "jar" ++ ":"%char :: (L "file:" ++ home u rest)) in E. destruct (first_colon _ _ _ _ NJ N E) as [-> ->].
    destruct H as [[_ H]|[X _]]; [|exfalso; apply X; reflexivity]. right. exists (L "jar"), (L "file:" ++ home v rest). split; [reflexivity|]. split; [exact NJ|]. left. split; [reflexivity|].
    destruct H as [[N2 _] | (sc & r & E2 & N2 & H)]; [exfalso; apply N2; apply in_or_app; left; cbn; tauto|].
    change (L "file:" ++ home u rest) with (L "file" ++ ":"%char :: home u rest) in E2. destruct (first_colon _ _ _ _ NF N2 E2) as [-> ->].
    right. exists (L "file"), (home v rest). split; [reflexivity|]. split; [exact NF|]. apply (path_alike_java "!" u); auto. cbn. tauto.
Qed.
Lemma in_snoc_bracket (a : str) c Y : In c (a ++ c :: Y). Proof. apply in_or_app. right. now left. Qed.
Lemma url_alike q2 scheme u v rest path : ~ In "["%char q2 -> scheme = L "file:" \/ scheme = L "jar:file:" ->
  without ["/"%char; "!"%char; "]"%char; nl] u -> without ["/"%char; "!"%char; "]"%char; nl] v ->
  java_url (q2 ++ "["%char :: scheme ++ home u rest) path -> java_url (q2 ++ "["%char :: scheme ++ home v rest) path.
Proof.
  intros N Sc U V [[X _] | (a & b & E & A & H)]; [exfalso; apply X; apply in_snoc_bracket|].
  destruct (cut_unique ["["%char] "["%char (or_introl eq_refl) q2 (scheme ++ home u rest) a ("["%char :: b)) as [-> X]; auto.
  - apply Forall_forall. intros c J [<-|[]]. now apply N.
  - apply Forall_forall. intros c J [<-|[]]. now apply A.
  - now left.
  - apply (f_equal (@tl _)) in X. cbn in X. subst b. right. exists q2, (scheme ++ home v rest). split; [reflexivity|]. split; [exact N|]. now apply (place_alike scheme u).
Qed.
Lemma java_line_change name source more scheme u v rest f : scheme = L "file:" \/ scheme = L "jar:file:" ->
  without ["("%char; "["%char; nl] name -> without [")"%char; "["%char; nl] source -> without ["["%char; nl] more ->
  without ["/"%char; "!"%char; "]"%char; nl] u -> without ["/"%char; "!"%char; "]"%char; nl] v ->
  java_line (name ++ L "(" ++ source ++ L ")" ++ more ++ L "[" ++ scheme ++ home u rest) f ->
  java_line (name ++ L "(" ++ source ++ L ")" ++ more ++ L "[" ++ scheme ++ home v rest) f.
Proof.
  intros Sc Nm So Mo U V (n & q & after & E & Wn & Sq & O & Src & Url & Ex & Ms).
  destruct (cut_unique (L "(") "("%char (or_introl eq_refl) name (source ++ L ")" ++ more ++ L "[" ++ scheme ++ home u rest) n q) as [-> ->]; auto.
  { eapply Forall_impl; [|exact Nm]. intros c X [<-|[]]. apply X. now left. }
  destruct Src as [[X _] | (src & q & E2 & Ws & Sq2 & Nat' & File & Num)]; [exfalso; apply X; eexists; reflexivity|].
  apply (f_equal (@tl _)) in E2.
  assert (K : exists q1, source ++ L ")" = src ++ q1 /\ q = q1 ++ more ++ L "[" ++ scheme ++ home u rest /\ q1 <> [] /\ stops_at (L ":)") q1).
  { change (source ++ L ")" ++ more ++ L "[" ++ scheme ++ home u rest = src ++ q) in E2. rewrite app_assoc in E2. destruct (prefix_cases _ _ _ _ E2) as [(z & -> & Ez) | (w & Nw & Ew & ->)].
    - exfalso. unfold without in Ws. rewrite !Forall_app in Ws. destruct Ws as [[_ Ws] _]. inversion Ws as [|? ? Hc]; subst. apply Hc. cbn. tauto.
    - exists w. split; [exact Ew|]. split; [reflexivity|]. split; [exact Nw|]. destruct w; [now exfalso; apply Nw|exact Sq2]. }
  destruct K as (q1 & Esrc & -> & Nq1 & Sq1).
  assert (B1 : ~ In "["%char (source ++ L ")")).
  { intros J. apply in_app_or in J. destruct J as [J|J]; [revert J; apply (without_in _ _ _ So); cbn; tauto|cbn in J; intuition discriminate]. }
  assert (B : ~ In "["%char (q1 ++ more)).
  { intros J. apply in_app_or in J. destruct J as [J|J]; [apply B1; rewrite Esrc; apply in_or_app; now right|revert J; apply (without_in _ _ _ Mo); cbn; tauto]. }
  rewrite app_assoc in Num. destruct (number_alike (q1 ++ more) (scheme ++ home u rest) _ _ B Num) as (q2 & -> & Nq2 & Go).
  exists name, (L "(" ++ source ++ L ")" ++ more ++ L "[" ++ scheme ++ home v rest), (q2 ++ L "[" ++ scheme ++ home v rest).
  split; [reflexivity|]. split; [exact Wn|]. split; [cbn; tauto|]. split; [exact O|]. split; [|split; [|split; assumption]].
  - right. exists src, (q1 ++ more ++ L "[" ++ scheme ++ home v rest). split.
    { rewrite !(app_assoc src), <- Esrc, <- !app_assoc. reflexivity. }
    split; [exact Ws|]. split; [destruct q1; [now exfalso; apply Nq1|exact Sq1]|]. split; [exact Nat'|]. split; [exact File|].
    rewrite app_assoc. exact (Go (scheme ++ home v rest)).
  - now apply (url_alike q2 scheme u).
Qed.
Lemma java_line_change_rest P u v Z line rest : ~ In nl P -> ~ In nl u -> ~ In nl v -> line_and_rest (P ++ home u Z) line rest ->
  exists z, line = P ++ home u z /\ line_and_rest (P ++ home v Z) (P ++ home v z) rest.
Proof.
  intros Np Nu Nv [N E].
  assert (HP : forall w, ~ In nl w -> ~ In nl (P ++ L "/home/" ++ w ++ ["/"%char])).
  { intros w Nw J. apply in_app_or in J. destruct J as [J|J]; [now apply Np|]. apply in_app_or in J. destruct J as [J|J]; [cbn in J; intuition discriminate|].
    apply in_app_or in J. destruct J as [J|J]; [now apply Nw|cbn in J; intuition discriminate]. }
  assert (HA : forall w z, P ++ home w z = (P ++ L "/home/" ++ w ++ ["/"%char]) ++ z) by (intros w z; rewrite home_app, !app_assoc; reflexivity).
  assert (C : forall tail, (exists q, tail = nl :: q) \/ tail = [] -> P ++ home u Z = line ++ tail -> exists z, line = P ++ home u z /\ Z = z ++ tail).
  { intros tail T X. rewrite HA in X. destruct (prefix_cases _ _ _ _ X) as [(z & -> & ->) | (w & Nw & Ew & Et)]; [exists z; now rewrite HA|].
    exfalso. destruct T as [[q ->] | ->]; [|destruct w; [now apply Nw|discriminate Et]]. destruct w as [|c w]; [now apply Nw|]. apply (f_equal (hd sp)) in Et. cbn in Et. subst c.
    apply (HP u Nu). rewrite Ew. apply in_or_app. right. now left. }
  assert (D : forall z, ~ In nl (P ++ home u z) -> ~ In nl (P ++ home v z)).
  { intros z X J. rewrite HA in J. apply in_app_or in J. destruct J as [J|J]; [exact (HP v Nv J)|]. apply X. rewrite HA. apply in_or_app. now right. }
  destruct E as [E | [E ->]].
  - destruct (C (nl :: rest)) as (z & -> & ->); [left; eexists; reflexivity|exact E|]. exists z. split; [reflexivity|]. split; [now apply D|]. left. rewrite (HA v z), (HA v (z ++ nl :: rest)). symmetry. apply app_assoc_reverse.
  - destruct (C []) as (z & -> & Ez); [now right|now rewrite app_nil_r|]. rewrite app_nil_r in Ez. subst z. exists Z. split; [reflexivity|]. split; [now apply D|]. right. auto.
Qed.
Lemma java_frame_alike s s' f rest : java_line_alike s s' -> sr_java_frame_parse s = Ok (f, rest) -> sr_java_frame_parse s' = Ok (f, rest).
Proof.
  intros (lead & gap & name & source & more & scheme & u & v & Z & -> & -> & Sc & Ld & Gp & Nn & Nb & Nm & So & Mo & U & V) H. apply java_frame_iff in H. apply java_frame_iff.
  set (P := name ++ L "(" ++ source ++ L ")" ++ more ++ L "[" ++ scheme).
  assert (EP : forall w z, (lead ++ L "at" ++ gap ++ name ++ L "(" ++ source ++ L ")" ++ more ++ L "[" ++ scheme) ++ home w z = lead ++ L "at" ++ gap ++ P ++ home w z) by (intros w z; unfold P; rewrite <- !app_assoc; reflexivity).
  assert (EL : forall w z, P ++ home w z = name ++ L "(" ++ source ++ L ")" ++ more ++ L "[" ++ scheme ++ home w z) by (intros w z; unfold P; rewrite <- !app_assoc; reflexivity).
  rewrite EP in H. rewrite EP. destruct H as (r & q & line & F & PB & LR & JL). apply (first_at_lead lead _ Ld) in F. subst r.
  assert (NbP : forall w, not_blank_first (P ++ home w Z) /\ P ++ home w Z <> []).
  { intros w. unfold P. destruct name as [|c n0]; [now exfalso; apply Nn|]. split; [exact Nb|discriminate]. }
  destruct PB as (ws & Ew & Bw & Nr). assert (q = P ++ home u Z) by (apply (blanks_unique gap _ (proj1 (NbP u)) (proj2 (NbP u)) ws); assumption). subst q.
  assert (NP : ~ In nl P).
  { unfold P. intros J. repeat (apply in_app_or in J; destruct J as [J|J]); try (revert J; first [apply (without_in _ _ _ Nm)|apply (without_in _ _ _ So)|apply (without_in _ _ _ Mo)]; cbn; tauto);
      try (cbn in J; intuition discriminate). destruct Sc as [-> | ->]; cbn in J; intuition discriminate. }
  destruct (java_line_change_rest P u v Z line rest NP) as (z & -> & LR'); [apply (without_in _ _ _ U); cbn; tauto|apply (without_in _ _ _ V); cbn; tauto|exact LR|].
  exists (gap ++ P ++ home v Z), (P ++ home v Z), (P ++ home v z). split; [apply (first_at_lead lead _ Ld); reflexivity|]. split; [exists gap; split; [reflexivity|]; split; [exact Gp|apply NbP]|].
  split; [exact LR'|]. rewrite EL in *. now apply (java_line_change name source more scheme u v).
Qed.
