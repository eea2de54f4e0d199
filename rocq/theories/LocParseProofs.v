(** * Proofs about the locations: the parsers with a location are the parsers without. *)
From Verif Require Import Base Types UtilsSpec UtilsModel UtilsProofs JsonModel ParseSpec ParseModel ParseProofs RubyParseModel RubyParseSpec RubyParseProofs JsParseModel JsParseSpec JsParseProofs LocParseModel LocParseSpec.
Open Scope nat_scope.

Definition forget {A} (o : outcome A) : res A := match o with Took x _ => Ok x | Refused _ => Fail | Broken => UB end.
Definition sure {A} (e : res A) : Prop := e <> Fail.
Lemma forget_see {A B} (e : res A) (f : A -> outcome B) (g : A -> res B) : sure e -> (forall x, e = Ok x -> forget (f x) = g x) -> forget (see e f) = bind e g.
Proof. intros H Hf. destruct e; [cbn; auto|exfalso; exact (H eq_refl)|reflexivity]. Qed.
Lemma forget_then {A B} (o : outcome A) (f : A -> location -> outcome B) (e : res A) (g : A -> res B) : forget o = e -> (forall x l, forget (f x l) = g x) -> forget (and_then o f) = bind e g.
Proof. intros <- H. destruct o; cbn; auto. Qed.
Lemma sure_byte buf i : sure (byte_at buf i).
Proof. unfold byte_at, sure. repeat destruct (_ <? _) || destruct (_ =? _); try discriminate. all: destruct (nth_error _ _) || idtac; discriminate. Qed.
Lemma sure_text buf i : sure (text_at buf i).
Proof. unfold text_at, sure. destruct (_ <? _); discriminate. Qed.
Lemma sure_prev i : sure (prev i).
Proof. destruct i; discriminate. Qed.
Lemma sure_bind {A B} (e : res A) (f : A -> res B) : sure e -> (forall x, sure (f x)) -> sure (bind e f).
Proof. intros He Hf. destruct e as [x| |]; cbn; [apply Hf|destruct (He eq_refl)|discriminate]. Qed.
Lemma sure_Ok {A} (x : A) : sure (Ok x). Proof. discriminate. Qed.
Lemma sure_UB {A} : sure (@UB A). Proof. discriminate. Qed.
Global Hint Resolve sure_byte sure_text sure_prev sure_Ok sure_UB : sure.
Lemma sure_spaces buf lo cursor : sure (back_spaces buf lo cursor).
Proof.
  induction cursor as [|p IH]; rewrite back_spaces_eq; destruct (lo <? _); auto with sure; (apply sure_bind; [auto with sure|]; intros c; destruct (Ascii.eqb c sp); auto with sure).
Qed.
Lemma sure_back test buf p : sure (back_while test buf p).
Proof. induction p as [|p IH]; cbn [back_while]; auto with sure. apply sure_bind; [auto with sure|]. intros c. destruct (test c); auto with sure. Qed.
Lemma digits_back_eq buf lo token : digits_back buf lo token =
  if lo <? token then
    do c <- byte_at buf token;
    if Ascii.eqb c ":" then Ok (true, token) else if negb (is_digit c) then Ok (false, token) else match token with O => UB | S p => digits_back buf lo p end
  else Ok (true, token).
Proof. destruct token; reflexivity. Qed.
Lemma sure_digits buf lo token : sure (digits_back buf lo token).
Proof.
  induction token as [|p IH]; rewrite digits_back_eq; destruct (lo <? _); auto with sure; (apply sure_bind; [auto with sure|]; intros c; destruct (Ascii.eqb c ":"), (is_digit c); cbn [negb]; auto with sure).
Qed.
Global Hint Resolve sure_spaces sure_back sure_digits : sure.
Lemma digits_forget buf lo token : back_digits buf lo token = do (ok, t) <- digits_back buf lo token; if ok then Ok t else Fail.
Proof.
  induction token as [|p IH]; rewrite back_digits_eq, digits_back_eq; destruct (lo <? _); try reflexivity; destruct (byte_at buf _) as [c| |]; cbn [bind]; try reflexivity; destruct (Ascii.eqb c ":"), (is_digit c); cbn [negb bind]; auto.
Qed.
Lemma bind_assoc {A B C} (e : res A) (f : A -> res B) (g : B -> res C) : bind (bind e f) g = bind e (fun x => bind (f x) g).
Proof. destruct e; reflexivity. Qed.
Lemma forget_where buf lo cursor l : forget (js_where_loc buf lo cursor l) = js_where buf lo cursor.
Proof.
  unfold js_where_loc, js_where. rewrite digits_forget, bind_assoc. apply forget_see; [auto with sure|]. intros [ok t] _. destruct ok; cbn [negb bind]; [|reflexivity].
  destruct (t =? lo); [reflexivity|]. apply forget_see; [auto with sure|]. intros text _. destruct (sr_parse_uint32 text) as [[[lc n] r]|]; [|reflexivity].
  apply forget_see; [auto with sure|]. intros t2 _. rewrite digits_forget, bind_assoc. apply forget_see; [auto with sure|]. intros [ok t3] _. destruct ok; cbn [negb bind]; [|reflexivity].
  destruct (t3 =? lo); [reflexivity|]. apply forget_see; [auto with sure|]. intros text2 _. destruct (sr_parse_uint32 text2) as [[[fl n2] r2]|]; reflexivity.
Qed.
Lemma forget_function s l : forget (js_function_loc s l) = js_function s.
Proof.
  unfold js_function_loc, js_function. destruct (sr_skip_char_cspan [sp; nl] s) as [n s1]. destruct (_ || _); [reflexivity|]. destruct (sr_skip_char_cspan _ s1) as [n2 s2]. destruct (_ || _); [reflexivity|].
  apply forget_see; [auto with sure|]. reflexivity.
Qed.
Theorem forget_js_frame s l : forget (js_frame_v8_loc s l) = sr_js_frame_parse_v8 s.
Proof.
  unfold js_frame_v8_loc, sr_js_frame_parse_v8. destruct (sr_skip_char_span [sp] s) as [n s1]. destruct (sr_skip_string _ s1) as [[|k] s2]; [reflexivity|]. destruct (sr_skip_char_span [sp] s2) as [n3 s3].
  apply forget_see; [auto with sure|]. intros c1 _. apply forget_see; [auto with sure|]. intros c2 _. apply forget_see; [auto with sure|]. intros c _.
  apply forget_then.
  - destruct (Ascii.eqb c ")"); [|reflexivity]. apply forget_then; [apply forget_function|]. intros [name s4] l'. apply forget_see; [auto with sure|]. reflexivity.
  - intros [[fn s4] c4] l'. apply forget_then; [apply forget_where|]. intros [[f a] b] l''. destruct (sr_skip_char_cspan [nl] s4). reflexivity.
Qed.
Lemma forget_js_frames fuel : forall s l, forget (js_frames_loc fuel s l) = js_frames_loop fuel s.
Proof.
  induction fuel as [|fuel IH]; intros s l; [reflexivity|]. cbn [js_frames_loc js_frames_loop]. destruct s as [|c s]; [reflexivity|]. apply forget_then; [apply forget_js_frame|].
  intros [f t] l'. destruct (sr_skip_char nl t) as [b u]. destruct (_ && _); [reflexivity|]. apply forget_then; [apply IH|]. intros [fs v] l''. reflexivity.
Qed.
Theorem forget_js s l : forget (js_stacktrace_loc s l) = sr_js_stacktrace_parse s.
Proof.
  unfold js_stacktrace_loc, js_stacktrace_v8_loc, sr_js_stacktrace_parse. destruct (sr_parse_char_cspan [":"%char; nl] s) as [[name t]|] eqn:E.
  - apply cspan_iff in E as (-> & Hne & _). destruct (negb _); [reflexivity|]. destruct (Nat.eqb_spec (length name) 0) as [E|_]; [destruct name; [congruence|discriminate E]|].
    destruct (sr_skip_string (L ": ") t) as [[|k] u]; [reflexivity|]. destruct (sr_skip_to_next_line_location u (_, _)) as [[ok v] [ln col]] eqn:E1.
    destruct (sr_skip_to_next_line_location u (1, 0)%Z) as [[ok2 v2] lc2] eqn:E2.
    assert (ok = ok2 /\ v = v2) as [-> ->].
    { unfold sr_skip_to_next_line_location in E1, E2. destruct (sr_skip_char_cspan [nl] u) as [? [|x r]]; [injection E1 as <- <-; injection E2 as <- <-; auto|].
      destruct (Ascii.eqb x nl); injection E1 as <- <-; injection E2 as <- <-; auto. }
    destruct ok2; cbn [negb]; [|reflexivity]. rewrite <- (forget_js_frames _ v2 (mk_location ln col (message (sr_location_add l 0 (Z.of_nat (length name)))))).
    destruct (js_frames_loc _ _ _) as [[fs w] l'| |]; reflexivity.
  - destruct (negb _); reflexivity.
Qed.

(** ** Ruby *)
Lemma forget_rescues fuel : forall s level l, forget (rescues_loc fuel s level l) = skip_rescues fuel s level.
Proof. induction fuel as [|fuel IH]; intros s level l; [reflexivity|]. cbn [rescues_loc skip_rescues]. destruct (sr_skip_string _ s) as [[|k] t]; [reflexivity|apply IH]. Qed.
Lemma forget_blocks s l : forget (blocks_loc s l) = skip_blocks s.
Proof.
  unfold blocks_loc, skip_blocks. destruct (sr_skip_string (L "block in ") s) as [[|k] t]; [|reflexivity]. destruct (sr_skip_string (L "block (") t) as [[|k] u]; [reflexivity|].
  destruct (sr_parse_uint32 u) as [[[v n] w]|]; [|reflexivity]. destruct (sr_skip_string _ w) as [[|k2] x]; reflexivity.
Qed.
Theorem forget_ruby_frame s l : forget (ruby_frame_loc s l) = sr_ruby_frame_parse s.
Proof.
  unfold ruby_frame_loc, sr_ruby_frame_parse. destruct (sr_parse_char_cspan (L "`") s) as [[buf t]|]; [|reflexivity]. destruct (length buf <? _); [reflexivity|]. destruct (negb _); [reflexivity|].
  apply forget_see; [auto with sure|]. intros p _. destruct (sr_parse_uint32 _) as [[[v n] w]|]; [|reflexivity]. destruct p as [|p]; [reflexivity|].
  apply forget_see; [auto with sure|]. intros c _. destruct (negb _); [reflexivity|]. destruct (sr_skip_char "`" t) as [[|] u]; [|reflexivity].
  apply forget_then; [apply forget_rescues|]. intros [rl x] l1. apply forget_then; [apply forget_blocks|]. intros [bl y] l2. destruct (sr_skip_char "<" y) as [sf z].
  destruct (sr_parse_char_cspan (L "'>") z) as [[name z1]|]; [|reflexivity]. destruct (if sf then _ else _) as [[|] z2]; [|reflexivity]. destruct (sr_skip_char "'" z2) as [[|] z3]; reflexivity.
Qed.
Lemma forget_ruby_frames fuel : forall s l, forget (ruby_frames_loc fuel s l) = ruby_frames_loop fuel s.
Proof.
  induction fuel as [|fuel IH]; intros s l; [reflexivity|]. cbn [ruby_frames_loc ruby_frames_loop]. destruct s as [|c s]; [reflexivity|]. destruct (sr_skip_string _ (c :: s)) as [[|k] t]; [reflexivity|].
  apply forget_then; [apply forget_ruby_frame|]. intros [f u] l'. destruct (sr_skip_char nl u) as [b v]. destruct (_ && _); [reflexivity|]. apply forget_then; [apply IH|]. intros [fs w] l''. reflexivity.
Qed.
Theorem forget_ruby s l : forget (ruby_stacktrace_loc s l) = sr_ruby_stacktrace_parse s.
Proof.
  unfold ruby_stacktrace_loc, sr_ruby_stacktrace_parse. rewrite <- (forget_ruby_frame s l). destruct (ruby_frame_loc s l) as [[f t] l1|l1|]; cbn [forget bind]; [|reflexivity..].
  destruct (sr_skip_string (L ": ") t) as [[|k] u]; [reflexivity|]. destruct (sr_parse_char_cspan [tab] u) as [[buf v]|]; [|reflexivity].
  destruct (length buf) as [|p]; [reflexivity|]. apply forget_see; [auto with sure|]. intros c _. destruct (negb _); [reflexivity|]. destruct p as [|p]; [reflexivity|].
  apply forget_see; [auto with sure|]. intros c2 _. destruct (negb _); [reflexivity|]. apply forget_see; [auto with sure|]. intros q _. destruct (skipn q _); [reflexivity|]. destruct q as [|q]; [reflexivity|].
  apply forget_see; [auto with sure|]. intros c3 _. destruct (negb _); [reflexivity|]. apply forget_then; [apply forget_ruby_frames|]. intros [fs w] l2. reflexivity.
Qed.
