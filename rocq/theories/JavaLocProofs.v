(** * Proofs about the Java locations: the parsers with a location are the parsers without. *)
From Verif Require Import Base Types UtilsSpec UtilsModel UtilsProofs RpmSpec RpmProofs ParseSpec ParseModel ParseProofs PyParseSpec JavaParseModel JavaParseSpec JavaParseProofs JavaParseProofs2 LocParseModel LocParseSpec LocParseProofs JavaLocModel JavaLocSpec.
Open Scope nat_scope.

Lemma sure_advance s : sure (advance s).
Proof. destruct s; discriminate. Qed.
Lemma sure_advance_by n s : sure (advance_by n s).
Proof. unfold advance_by, sure. destruct (_ <? _); discriminate. Qed.
Global Hint Resolve sure_advance sure_advance_by : sure.
Lemma forget_past {B} s l (f : str -> location -> outcome B) (g : str -> res B) : (forall s l, forget (f s l) = g s) -> forget (past s l f) = bind (advance s) g.
Proof. intros H. apply forget_see; [auto with sure|]. intros x _. apply H. Qed.
Lemma until_fst chars s l : fst (until chars s l) = snd (sr_skip_char_cspan chars s).
Proof. unfold until. destruct (sr_skip_char_cspan chars s). reflexivity. Qed.
Ltac go_until := unfold until; match goal with |- context[sr_skip_char_cspan ?c ?s] => let k := fresh "kk" in let q := fresh "qq" in destruct (sr_skip_char_cspan c s) as [k q] end; cbn beta iota.
Theorem forget_java_url s l : forget (java_url_loc s l) = sr_java_frame_parse_frame_url s.
Proof.
  unfold java_url_loc, sr_java_frame_parse_frame_url. go_until. destruct (negb _); [reflexivity|]. apply forget_past. intros c l1. go_until.
  apply forget_then.
  - destruct (Ascii.eqb _ ":"); [|reflexivity]. apply forget_then.
    + destruct (starts_with _ _); [|reflexivity]. apply forget_past. intros c2 l2. go_until. destruct (negb _); reflexivity.
    + intros [c2|[[m c2] stop]] l2; [reflexivity|]. apply forget_then.
      * destruct (negb _); [reflexivity|]. apply forget_past. reflexivity.
      * intros [m2 c3] l3. go_until. reflexivity.
  - intros [c2|[path c2]] l2; [reflexivity|]. destruct (_ && _); [|reflexivity]. go_until. reflexivity.
Qed.
Theorem forget_java_frame s l : forget (java_frame_loc s l) = sr_java_frame_parse s.
Proof.
  unfold java_frame_loc, sr_java_frame_parse. destruct (sr_strstr_location s (L "at")) as [[c [ln co]]| |]; try reflexivity. cbn [bind]. apply forget_see; [auto with sure|]. intros c1 _.
  unfold white. cbn beta iota zeta. go_until. apply forget_then.
  - destruct (Ascii.eqb _ "("); [|reflexivity]. apply forget_past. intros c2 l2. go_until. destruct (if length c2 =? _ then _ else _) as [nat file]. destruct (Ascii.eqb _ ":"); [|reflexivity].
    apply forget_past. intros c3 l3. destruct (sr_parse_uint32 c3) as [[[n k] r]|]; reflexivity.
  - intros [[[nat file] fl] c2] l2. apply forget_then; [apply forget_java_url|]. intros [path m] l3. destruct (strchrnul m nl) as [a b]. destruct (Ascii.eqb (cur b) nl); [|reflexivity].
    apply forget_see; [auto with sure|]. reflexivity.
Qed.
Lemma forget_java_lines fuel : forall s l, forget (java_lines_loc fuel s l) = java_lines_loop fuel s.
Proof.
  induction fuel as [|fuel IH]; intros s l; [reflexivity|]. cbn [java_lines_loc java_lines_loop]. destruct (at_end s); [reflexivity|]. unfold white. cbn beta iota zeta.
  repeat (destruct (starts_with _ _); [reflexivity|]). apply forget_then; [apply forget_java_frame|]. intros [f q] l2. apply forget_then; [apply IH|]. intros [[fs how] q2] l3. reflexivity.
Qed.
Lemma to_next_line_fst s l : fst (to_next_line s l) = JavaParseModel.next_line s.
Proof.
  unfold to_next_line, JavaParseModel.next_line, sr_skip_to_next_line_location. destruct (sr_skip_char_cspan [nl] s) as [n b]. destruct b as [|c b]; [reflexivity|]. destruct (Ascii.eqb c nl); reflexivity.
Qed.
Lemma forget_indented fuel : forall s l, forget (skip_indented_loc fuel s l) = skip_indented_lines fuel s.
Proof.
  induction fuel as [|fuel IH]; intros s l; [reflexivity|]. cbn [skip_indented_loc skip_indented_lines]. destruct (is_space (cur s)); [|reflexivity].
  pose proof (to_next_line_fst s l) as H. destruct (to_next_line s l) as [s' l']. cbn in H. subst s'. apply IH.
Qed.
Lemma forget_after s l : forget (after_exception_loc s l) = after_exception s.
Proof.
  unfold after_exception_loc, after_exception. pose proof (to_next_line_fst s l) as H. destruct (to_next_line s l) as [s' l']. cbn [fst] in H. subst s'. unfold white. cbn beta iota zeta.
  apply forget_then.
  - destruct (starts_with _ _); [|reflexivity]. match goal with |- context[to_next_line ?a ?b] => pose proof (to_next_line_fst a b) as H; destruct (to_next_line a b) as [s2 l2] end. cbn [fst] in H. subst s2. apply forget_indented.
  - intros r l2. destruct (starts_with _ _); [|reflexivity]. apply forget_see; [auto with sure|]. reflexivity.
Qed.
Lemma forget_head s l : forget (java_head_loc s l) = head_model s.
Proof.
  unfold java_head_loc, head_model, white. cbn beta iota zeta. go_until. destruct (_ =? _); [reflexivity|]. apply forget_then.
  - destruct (Ascii.eqb _ ":"); [apply forget_past; intros c2 l2|]; go_until; reflexivity.
  - intros [m c2] l2. destruct (Ascii.eqb _ nl); [|reflexivity]. apply forget_see; [auto with sure|]. reflexivity.
Qed.
Theorem forget_java_exception fuel : forall s l, forget (java_exception_loc fuel s l) = sr_java_frame_parse_exception fuel s.
Proof.
  induction fuel as [|fuel IH]; intros s l; [reflexivity|]. rewrite exception_split. cbn [java_exception_loc]. apply forget_then; [apply forget_head|]. intros [[name m] c] l2. cbn zeta.
  apply forget_then; [apply forget_java_lines|]. intros [[fs how] c2] l3. apply forget_then.
  - destruct how; [reflexivity|apply forget_after|]. apply forget_see; [auto with sure|]. reflexivity.
  - intros [[i|] c3] l4; [|reflexivity]. apply forget_then; [apply IH|]. intros [fs2 c4] l5. reflexivity.
Qed.
Theorem forget_java_thread s l : forget (java_thread_loc s l) = sr_java_thread_parse s.
Proof.
  unfold java_thread_loc, sr_java_thread_parse. destruct (sr_skip_string _ s) as [[|n] c]; cbn beta iota zeta.
  - apply forget_then; [reflexivity|]. intros [name c2] l2. apply forget_then; [apply forget_java_exception|]. intros [fs c3] l3. reflexivity.
  - apply forget_then.
    + go_until. destruct (negb _); [reflexivity|]. apply forget_see; [auto with sure|]. reflexivity.
    + intros [name c2] l2. apply forget_then; [apply forget_java_exception|]. intros [fs c3] l3. reflexivity.
Qed.
Theorem forget_java s l : forget (java_stacktrace_loc s l) = sr_java_stacktrace_parse s.
Proof. apply forget_then; [apply forget_java_thread|]. intros [t r] l2. reflexivity. Qed.
