(** * Proofs: JavaScript texts that another user would have got. *)
From Verif Require Import Base Types UtilsModel UtilsSpec UtilsProofs ParseSpec JsParseModel JsParseSpec JsParseProofs HomeSpec HomeProofs HomeProofs3.
Open Scope nat_scope.

(** Leading spaces are determined by what follows. *)
Lemma spaces_unique a b x y : spaces a -> spaces b -> ~ begins [sp] x -> ~ begins [sp] y -> a ++ x = b ++ y -> a = b /\ x = y.
Proof.
  revert b. induction a as [|c a IH]; intros b A B X Y E.
  - destruct b as [|d b]; [auto|]. inversion B; subst. exfalso. apply X. cbn in E. rewrite E. eexists. reflexivity.
  - inversion A; subst. destruct b as [|d b].
    + exfalso. apply Y. cbn in E. rewrite <- E. eexists. reflexivity.
    + inversion B; subst. cbn in E. apply (f_equal (@tl _)) in E. cbn in E. destruct (IH b) as [-> ->]; auto.
Qed.
Lemma not_begins c r : c <> sp -> ~ begins [sp] (c :: r).
Proof. intros H [x E]. cbn in E. apply H. apply (f_equal (hd "0"%char)) in E. exact E. Qed.
(** What is read begins with a home directory: the place does. *)
Lemma no_slash_place ds es line column : number32 ds line -> number32 es column -> ~ In "/"%char (L ":" ++ ds ++ L ":" ++ es).
Proof.
  intros D E J. apply in_app_or in J. destruct J as [J|J]; [cbn in J; intuition discriminate|]. apply in_app_or in J. destruct J as [J|J]; [exact (digits_no ds line "/"%char D eq_refl J)|].
  apply in_app_or in J. destruct J as [J|J]; [cbn in J; intuition discriminate|]. exact (digits_no es column "/"%char E eq_refl J).
Qed.
Lemma in_slash_end u : In "/"%char (L "/home/" ++ u ++ ["/"%char]). Proof. now left. Qed.
(** [P] ends with a slash and has no newline; it lies in the part before spaces and newlines. *)
Lemma home_prefix_of u A w B : ~ In "/"%char B -> L "/home/" ++ u ++ ["/"%char] ++ A = w ++ B -> exists z, w = (L "/home/" ++ u ++ ["/"%char]) ++ z /\ A = z ++ B.
Proof.
  intros N E. rewrite !app_assoc in E. rewrite <- (app_assoc (L "/home/")) in E. destruct (prefix_cases _ _ _ _ E) as [H | (x & Nx & Ex & Eb)]; [exact H|].
  exfalso. destruct (slash_end _ _ _ Nx Ex) as (x' & ->). apply N. rewrite Eb. apply in_or_app. left. apply in_or_app. right. now left.
Qed.
Lemma line_prefix_of u A w trail rest : ~ In nl u -> spaces trail -> stops_at [nl] rest ->
  (L "/home/" ++ u ++ ["/"%char]) ++ A = w ++ trail ++ rest -> exists z, w = (L "/home/" ++ u ++ ["/"%char]) ++ z /\ A = z ++ trail ++ rest.
Proof.
  intros U T S' E. destruct (prefix_cases _ _ _ _ E) as [H | (x & Nx & Ex & Eb)]; [exact H|]. exfalso. destruct (slash_end _ _ _ Nx Ex) as (x' & ->).
  assert (NL : ~ In nl (x' ++ ["/"%char])).
  { intros J. assert (J2 : In nl (L "/home/" ++ u ++ ["/"%char])) by (rewrite Ex; apply in_or_app; now right).
    apply in_app_or in J2. destruct J2 as [J2|J2]; [cbn in J2; intuition discriminate|]. apply in_app_or in J2. destruct J2 as [J2|J2]; [now apply U|cbn in J2; intuition discriminate]. }
  destruct (prefix_cases _ _ _ _ (eq_sym Eb)) as [(z & Ez & Er) | (y & Ny & Ey & Er)].
  - unfold spaces in T. rewrite Ez in T. apply Forall_app in T. destruct T as [T _]. apply Forall_app in T. destruct T as [_ T]. inversion T; discriminate.
  - destruct y as [|c y]; [now apply Ny|]. rewrite Er in S'. cbn in S'. destruct S' as [<-|[]]. apply NL. rewrite Ey. apply in_or_app. right. now left.
Qed.
Lemma where_alike u v z line column path shown w : without ["/"%char; nl] u -> without ["/"%char; nl] v ->
  w = (L "/home/" ++ u ++ ["/"%char]) ++ z -> js_where_text w path line column -> anonymized path shown ->
  exists path', js_where_text ((L "/home/" ++ v ++ ["/"%char]) ++ z) path' line column /\ anonymized path' shown.
Proof.
  intros U V -> (ds & es & E & N & D1 & D2) An.
  assert (U1 : ~ In "/"%char u) by (apply (without_in _ _ _ U); now left). assert (V1 : ~ In "/"%char v) by (apply (without_in _ _ _ V); now left).
  rewrite <- !app_assoc in E. destruct (home_prefix_of u z path (L ":" ++ ds ++ L ":" ++ es) (no_slash_place _ _ _ _ D1 D2) E) as (y & -> & ->).
  exists (home v y). split.
  - exists ds, es. split; [rewrite home_app, <- !app_assoc; reflexivity|]. split; [discriminate|]. now split.
  - rewrite <- home_app in An. exact (anonymized_home u v y shown U1 V1 An).
Qed.
Lemma without_home u z : without [nl] ((L "/home/" ++ u ++ ["/"%char]) ++ z) -> forall v, without ["/"%char; nl] v -> without [nl] ((L "/home/" ++ v ++ ["/"%char]) ++ z).
Proof.
  unfold without. intros H v V. rewrite !Forall_app in *. destruct H as [(H1 & H2 & H3) H4]. split; [split; [exact H1|split; [|exact H3]]|exact H4].
  eapply Forall_impl; [|exact V]. cbn. intros c X J. apply X. right. exact J.
Qed.
Lemma js_line s s' f q : js_line_alike s s' -> jf_function_name f = None -> sr_js_frame_parse s = Ok (f, q) -> sr_js_frame_parse s' = Ok (f, q).
Proof.
  intros (lead & u & v & rest & -> & -> & Ld & U & V) NF H. apply js_frame_iff in H. apply js_frame_iff.
  destruct H as (lead2 & gap & body & trail & w & path & shown & line & column & E & L2 & G & T & Wb & S' & W & An & E1 & E2 & E3 & M). rewrite NF in M. destruct M as [-> Nsp].
  assert (U2 : ~ In nl u) by (apply (without_in _ _ _ U); right; now left).
  destruct (spaces_unique lead lead2 (L "at " ++ home u rest) (L "at " ++ gap ++ w ++ trail ++ q) Ld L2) as [<- E4]; [apply not_begins; discriminate|apply not_begins; discriminate|exact E|].
  apply app_inv_head in E4.
  assert (Nw : ~ begins [sp] (w ++ trail ++ q)).
  { destruct W as (ds & es & -> & Np & _). intros [x X]. apply Nsp. destruct path as [|c path]; [now destruct Np|]. cbn in X. apply (f_equal (hd "0"%char)) in X. cbn in X. subst c. eexists. reflexivity. }
  destruct (spaces_unique [] gap (home u rest) (w ++ trail ++ q)) as [<- E5]; [constructor|exact G|apply not_begins; discriminate|exact Nw|exact E4|].
  rewrite home_app in E5. destruct (line_prefix_of u rest w trail q U2 T S' E5) as (z & Ez & Er).
  destruct (where_alike u v z line column path shown w U V Ez W An) as (path' & W' & An').
  exists lead, [], ((L "/home/" ++ v ++ ["/"%char]) ++ z), trail, ((L "/home/" ++ v ++ ["/"%char]) ++ z), path', shown, line, column.
  split; [rewrite (home_app v rest), Er, <- !app_assoc; reflexivity|]. split; [exact Ld|]. split; [constructor|]. split; [exact T|].
  split; [apply (without_home u z); [rewrite <- Ez; exact Wb|exact V]|]. split; [exact S'|]. split; [exact W'|]. split; [exact An'|]. rewrite NF.
  split; [exact E1|]. split; [exact E2|]. split; [exact E3|]. split; [reflexivity|]. apply not_begins. discriminate.
Qed.
(** Words are determined up to the first space. *)
Lemma word_unique a b x y : ~ In sp a -> ~ In sp b -> a ++ sp :: x = b ++ sp :: y -> a = b /\ x = y.
Proof.
  revert b. induction a as [|c a IH]; intros [|d b] A B E; cbn in E.
  - injection E as ->. auto.
  - injection E as <- _. exfalso. apply B. now left.
  - injection E as -> _. exfalso. apply A. now left.
  - injection E as -> E. destruct (IH b) as [-> ->]; auto; intros J; [apply A|apply B]; now right.
Qed.
Lemma paren_unique a b x y : ~ In "("%char a -> ~ In "("%char b -> a ++ "("%char :: x = b ++ "("%char :: y -> a = b /\ x = y.
Proof.
  revert b. induction a as [|c a IH]; intros [|d b] A B E; cbn in E.
  - injection E as ->. auto.
  - injection E as <- _. exfalso. apply B. now left.
  - injection E as -> _. exfalso. apply A. now left.
  - injection E as -> E. destruct (IH b) as [-> ->]; auto; intros J; [apply A|apply B]; now right.
Qed.
Lemma js_call s s' f q : js_call_alike s s' -> jf_function_name f <> None -> sr_js_frame_parse s = Ok (f, q) -> sr_js_frame_parse s' = Ok (f, q).
Proof.
  intros (lead & name & ignored & u & v & rest & -> & -> & Ld & Nn & Wn & Wi & U & V) NF H. apply js_frame_iff in H. apply js_frame_iff.
  destruct H as (lead2 & gap & body & trail & w & path & shown & line & column & E & L2 & G & T & Wb & S' & W & An & E1 & E2 & E3 & M).
  destruct (jf_function_name f) as [name2|] eqn:Ef; [|now destruct NF]. destruct M as (ignored2 & -> & Nn2 & Wn2 & Wi2).
  assert (U2 : ~ In nl u) by (apply (without_in _ _ _ U); right; now left).
  assert (S1 : forall a r, a <> [] -> ~ In sp a -> ~ begins [sp] (a ++ r)).
  { intros a r Na Sa. destruct a as [|c a]; [now destruct Na|]. apply not_begins. intros ->. apply Sa. now left. }
  assert (Sn : ~ In sp name) by (apply (without_in _ _ _ Wn); now left). assert (Sn2 : ~ In sp name2) by (apply (without_in _ _ _ Wn2); now left).
  destruct (spaces_unique lead lead2 (L "at " ++ name ++ L " " ++ ignored ++ L "(" ++ home u rest)
    (L "at " ++ gap ++ (name2 ++ L " " ++ ignored2 ++ L "(" ++ w ++ L ")") ++ trail ++ q) Ld L2) as [<- E4]; [apply not_begins; discriminate|apply not_begins; discriminate|exact E|]. apply app_inv_head in E4.
  rewrite <- !app_assoc in E4.
  destruct (spaces_unique [] gap (name ++ L " " ++ ignored ++ L "(" ++ home u rest) (name2 ++ L " " ++ ignored2 ++ L "(" ++ w ++ L ")" ++ trail ++ q)) as [<- E5];
    [constructor|exact G|now apply S1|now apply S1|exact E4|].
  destruct (word_unique name name2 _ _ Sn Sn2 E5) as [<- E6].
  destruct (paren_unique ignored ignored2 (home u rest) (w ++ L ")" ++ trail ++ q)) as [<- E7]; [apply (without_in _ _ _ Wi); now left|apply (without_in _ _ _ Wi2); now left|exact E6|].
  rewrite home_app in E7.
  assert (K : exists z, w = (L "/home/" ++ u ++ ["/"%char]) ++ z /\ rest = z ++ L ")" ++ trail ++ q).
  { destruct (line_prefix_of u rest (w ++ L ")") trail q U2 T S') as (z & Ez & Er); [rewrite E7, <- !app_assoc; reflexivity|].
    destruct (@exists_last _ z) as (z' & c & ->).
    - intros ->. rewrite app_nil_r, !app_assoc in Ez. apply app_inj_tail in Ez. destruct Ez as [_ Ez]. discriminate Ez.
    - rewrite !app_assoc in Ez. apply app_inj_tail in Ez. destruct Ez as [-> <-]. exists z'. split; [now rewrite <- !app_assoc|]. now rewrite Er, <- !app_assoc. }
  destruct K as (z & Ez & Er). destruct (where_alike u v z line column path shown w U V Ez W An) as (path' & W' & An').
  set (w' := (L "/home/" ++ v ++ ["/"%char]) ++ z) in *.
  exists lead, [], (name ++ L " " ++ ignored ++ L "(" ++ w' ++ L ")"), trail, w', path', shown, line, column.
  split; [rewrite (home_app v rest), Er; unfold w'; rewrite <- !app_assoc; reflexivity|]. split; [exact Ld|]. split; [constructor|]. split; [exact T|].
  split. { unfold without in *. rewrite !Forall_app in *. destruct Wb as (B1 & B2 & B3 & B4 & B5 & B6). split; [exact B1|]. split; [exact B2|]. split; [exact B3|]. split; [exact B4|]. split; [|exact B6].
           apply (without_home u z); [|exact V]. rewrite <- Ez. exact B5. }
  split; [exact S'|]. split; [exact W'|]. split; [exact An'|]. split; [exact E1|]. split; [exact E2|]. split; [exact E3|].
  rewrite Ef. exists ignored. split; [reflexivity|]. auto.
Qed.
