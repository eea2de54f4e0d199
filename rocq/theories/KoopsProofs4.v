(** * Usual frame lines and module lists are read back. *)
From Verif Require Import Base Types UtilsSpec UtilsModel UtilsProofs ParseSpec ParseModel ParseProofs RubyParseProofs JsParseProofs PyParseProofs JavaParseModel KoopsModel KoopsSpec KoopsProofs KoopsProofs2 KoopsProofs3.
Open Scope nat_scope.

Lemma gap_here c s : ~ blank_char c -> gap (c :: s) (c :: s).
Proof. intros N. exists []. split; [reflexivity|]. split; [constructor|exact N]. Qed.
Lemma gap_one c s : ~ blank_char c -> gap (sp :: c :: s) (c :: s).
Proof. intros N. exists [sp]. split; [reflexivity|]. split; [constructor; [left; reflexivity|constructor]|exact N]. Qed.
Lemma gap_ws ws s : Forall blank_char ws -> match s with [] => True | c :: _ => ~ blank_char c end -> gap (ws ++ s) s.
Proof. intros F N. exists ws. auto. Qed.
Lemma blank_not c : c <> sp -> c <> tab -> ~ blank_char c.
Proof. intros H1 H2 [H|H]; contradiction. Qed.
Ltac notblank := apply blank_not; discriminate.
Lemma name_head name : name_word name -> exists c n, name = c :: n /\ ~ blank_char c.
Proof.
  intros [NE W]. destruct name as [|c n]; [congruence|]. exists c, n. split; [reflexivity|]. inversion W as [|? ? Wc _]; subst.
  intros [->| ->]; apply Wc; [left|right; left]; reflexivity.
Qed.
Lemma address_head s a r : address s a r -> begins (L "[") s.
Proof. intros (q & [[-> _]|[-> _]]); eexists; reflexivity. Qed.
Lemma begins_head c s t : begins [c] (s ++ t) -> s <> [] -> begins [c] s.
Proof. intros [r E] N. destruct s as [|x s]; [congruence|]. injection E as -> _. exists s. reflexivity. Qed.
Lemma not_hex_plus c : In c (L "+/ >]" ++ [nl; tab]) -> hexadecimal_digit c = None.
Proof. cbn. intuition (subst; reflexivity). Qed.
Lemma run_then ds v c r : hexadecimal64 ds v -> hexadecimal_digit c = None -> hex_run (ds ++ c :: r) v (c :: r).
Proof. intros H N. exists ds. split; [reflexivity|]. split; [exact H|]. cbn. rewrite N. congruence. Qed.
Lemma number_then ds v c r : hexadecimal64 ds v -> hexadecimal_digit c = None -> number (L "0x" ++ ds ++ c :: r) (Z.of_N v) (c :: r).
Proof. intros H N. left. exists v. split; [|reflexivity]. exists (ds ++ c :: r). split; [reflexivity|]. apply run_then; assumption. Qed.
Lemma no_0x name t n r : function_word name -> ~ hex_0x (name ++ L "+" ++ t) n r.
Proof.
  intros (W & N0 & _) (q & E & _). destruct name as [|c name]; [destruct W; congruence|]. injection E as -> E. destruct name as [|c name]; [discriminate|].
  injection E as -> E. apply N0. exists name. reflexivity.
Qed.
Definition module_part (m : option str) : str := match m with None => [] | Some w => L " [" ++ w ++ L "]" end.
Lemma usual_function name os o ls l m r : function_word name -> hexadecimal64 os o -> hexadecimal64 ls l ->
  match m with None => True | Some w => w <> [] /\ without (sp :: tab :: nl :: L "]") w end -> begins [nl] r ->
  function (name ++ L "+0x" ++ os ++ L "/0x" ++ ls ++ module_part m ++ r) (Some name, Z.of_N o, Z.of_N l, m) r.
Proof.
  intros W Ho Hl Hm [r0 ->]. cbn [app]. exists false, (name ++ L "+0x" ++ os ++ L "/0x" ++ ls ++ module_part m ++ nl :: r0). split.
  { right. split; [|auto]. intros B. apply begins_head in B; [|destruct W as [[W _] _]; exact W]. destruct W as (_ & _ & _ & _ & W & _). exact (W B). }
  right. split; [intros n t; apply (no_0x name (L "0x" ++ os ++ L "/0x" ++ ls ++ module_part m ++ nl :: r0) n t W)|].
  exists name, (Z.of_N o), (Z.of_N l), m, (L "0x" ++ os ++ L "/0x" ++ ls ++ module_part m ++ nl :: r0), (L "0x" ++ ls ++ module_part m ++ nl :: r0), (module_part m ++ nl :: r0),
    (match m with None => nl :: r0 | Some w => L "[" ++ w ++ L "]" ++ nl :: r0 end), (nl :: r0), (nl :: r0).
  split; [reflexivity|]. split; [apply W|]. split; [apply number_then; [exact Ho|reflexivity]|].
  split; [destruct m as [w|]; cbn [module_part app]; [apply (number_then ls l " "); [exact Hl|reflexivity]|apply (number_then ls l nl); [exact Hl|reflexivity]]|].
  split; [destruct m as [w|]; [change (module_part (Some w) ++ nl :: r0) with (sp :: "["%char :: (w ++ L "]") ++ nl :: r0); rewrite <- app_assoc; apply gap_one; notblank|apply gap_here; notblank]|].
  split; [destruct m as [w|]|].
  - left. exists w. split; [|reflexivity]. split; [reflexivity|exact Hm].
  - right. split; [intros w q (E & _); discriminate|auto].
  - split; [apply gap_here; notblank|]. split; reflexivity.
Qed.
Lemma usual_line_split ds question name os ls m r : usual_line ds question name os ls m ++ r =
  L "[<" ++ ds ++ L ">] " ++ (if question then L "? " else []) ++ name ++ L "+0x" ++ os ++ L "/0x" ++ ls ++ module_part m ++ r.
Proof. unfold usual_line. repeat rewrite <- app_assoc. reflexivity. Qed.
Lemma usual_address ds a r : hexadecimal64 ds a -> address (L "[<" ++ ds ++ L ">]" ++ r) a r.
Proof. intros H. exists (ds ++ L ">]" ++ r). left. split; [reflexivity|]. apply run_then; [exact H|reflexivity]. Qed.
Lemma usual_line_frame line f rest : usual_line_of line f -> frame_text (line ++ nl :: rest) f rest.
Proof.
  intros (ds & a & question & name & os & o & ls & l & m & -> & Ha & Ho & Hl & W & Hm & ->). rewrite usual_line_split.
  set (tail := name ++ L "+0x" ++ os ++ L "/0x" ++ ls ++ module_part m ++ nl :: rest).
  set (q := (if question then L "? " else []) ++ tail).
  assert (GT : gap tail tail).
  { destruct (name_head _ (proj1 W)) as (c & n & -> & Hc). subst tail. cbn [app]. apply gap_here, Hc. }
  assert (GQ : gap (sp :: q) q).
  { subst q. destruct question; [apply gap_one; notblank|]. cbn [app]. destruct (name_head _ (proj1 W)) as (c & n & -> & Hc). subst tail. cbn [app]. apply gap_one, Hc. }
  assert (NE : name <> []) by apply (proj1 W).
  assert (NT : forall c, ~ begins [c] name -> ~ begins [c] tail) by (intros c H B; apply H; apply (begins_head _ _ _ B NE)).
  destruct W as (W & W0 & WB & WQ & WP & WD).
  assert (W' : function_word name) by (repeat (split; [assumption|]); assumption).
  change (L ">] " ++ q) with (L ">]" ++ sp :: q).
  assert (A : address (L "[<" ++ ds ++ L ">]" ++ sp :: q) a (sp :: q)) by (apply usual_address, Ha).
  assert (G0 : gap (L "[<" ++ ds ++ L ">]" ++ sp :: q) (L "[<" ++ ds ++ L ">]" ++ sp :: q)) by (apply gap_here; notblank).
  set (t := L "[<" ++ ds ++ L ">]" ++ sp :: q) in *.
  assert (MQ : exists t5, maybe "?" q question t5 /\ gap t5 tail).
  { subst q. destruct question.
    - exists (sp :: tail). split; [left; auto|]. destruct (name_head _ W) as (c & n & -> & Hc). subst tail. cbn [app]. apply gap_one, Hc.
    - exists tail. split; [right; split; [apply NT, WQ|auto]|exact GT]. }
  destruct MQ as (t5 & MQ & GT5).
  right. split; [|right; split].
  - intros g r (sp0 & b & fn & t0 & t1 & t2 & t3 & t4 & t6 & t7 & t8 & t9 & dot & unreliable & G1 & A1 & G2 & A2 & _).
    rewrite (gap_fun _ _ _ G1 G0) in A1. destruct (address_fun _ _ _ _ _ A1 A) as [_ ->]. rewrite (gap_fun _ _ _ G2 GQ) in A2. apply address_head in A2.
    subst q. destruct question; [destruct A2 as [x E]; discriminate|]. exact (NT _ WB A2).
  - intros g r (b & b' & name' & g' & t0 & t1 & t2 & t3 & t4 & t6 & t7 & t8 & t9 & t10 & question' & G1 & A1 & G2 & Q & G3 & E & _).
    rewrite (gap_fun _ _ _ G1 G0) in A1. destruct (address_fun _ _ _ _ _ A1 A) as [_ ->]. rewrite (gap_fun _ _ _ G2 GQ) in Q.
    apply maybe_iff in Q, MQ. rewrite Q in MQ. injection MQ as -> ->. rewrite (gap_fun _ _ _ G3 GT5) in E. apply (NT _ WP). rewrite E. eexists. reflexivity.
  - exists t, false, t. split; [exact G0|]. split; [right; split; [intros [x E]; discriminate|auto]|]. left. exists a, (sp :: q). split; [exact A|].
    exists question, (Some name), (Z.of_N o), (Z.of_N l), m, m, 0%Z, unnamed, q, t5, tail, (nl :: rest), (nl :: rest), (nl :: rest), (nl :: rest), (nl :: rest), (nl :: rest).
    split; [exact GQ|]. split; [exact MQ|]. split; [exact GT5|]. split; [apply usual_function; [exact W'|exact Ho|exact Hl|exact Hm|exists rest; reflexivity]|].
    split; [apply gap_here; notblank|]. split; [left; split; [intros [x E]; discriminate|auto]|]. split; [destruct m as [w|]; [split; reflexivity|right; split; [intros w x (E & _); discriminate|auto]]|].
    split; [reflexivity|]. split; [reflexivity|]. split; [left; reflexivity|]. reflexivity.
Qed.
Lemma usual_special line f : usual_line_of line f -> on_stack None f = f.
Proof. intros (ds & a & question & name & os & o & ls & l & m & _ & _ & _ & _ & _ & _ & ->). reflexivity. Qed.
Lemma usual_begins line f rest : usual_line_of line f -> exists r, line ++ rest = "["%char :: "<"%char :: r.
Proof. intros (ds & a & question & name & os & o & ls & l & m & -> & _). rewrite usual_line_split. eexists. reflexivity. Qed.
Lemma timestamp_app s r x : timestamp s r -> timestamp (s ++ x) (r ++ x).
Proof. intros (ws & ds & es & -> & H). exists ws, ds, es. split; [|exact H]. repeat rewrite <- app_assoc. reflexivity. Qed.
Lemma stamped_past line f rest : stamped_line line f -> exists u, usual_line_of u f /\ past_timestamp (line ++ nl :: rest) (u ++ nl :: rest).
Proof.
  intros (stamp & ws & u & -> & ST & WS & U). exists u. split; [exact U|]. destruct (usual_begins u f (nl :: rest) U) as (r & E). repeat rewrite <- app_assoc.
  assert (G : gap (u ++ nl :: rest) (u ++ nl :: rest)) by (rewrite E; apply gap_here; notblank).
  assert (GW : gap (ws ++ u ++ nl :: rest) (u ++ nl :: rest)) by (apply gap_ws; [exact WS|rewrite E; notblank]).
  destruct ST as [->|T].
  - cbn [app]. exists (u ++ nl :: rest), (u ++ nl :: rest). split; [exact GW|]. split; [|exact G]. right. split; [|reflexivity]. rewrite E.
    intros q (w & ds & es & E2 & W & N & D & _). injection E2 as E2. destruct w as [|c w].
    + destruct ds as [|d ds]; [congruence|]. injection E2 as <- _. inversion D as [|? ? Hd _]; subst. apply Hd. reflexivity.
    + injection E2 as <- _. inversion W as [|? ? Hc _]; subst. cbn in Hc. intuition discriminate.
  - apply (timestamp_app _ _ (ws ++ u ++ nl :: rest)) in T. cbn [app] in T. exists (stamp ++ ws ++ u ++ nl :: rest), (ws ++ u ++ nl :: rest).
    split; [|split; [left; exact T|exact GW]]. destruct T as (w & ds & es & -> & _). apply gap_here. notblank.
Qed.
(** Frame lines are read in order, whatever comes after them. *)
Lemma stamped_head line f rest : stamped_line line f -> ~ begins [nl] (line ++ rest).
Proof.
  intros (stamp & ws & u & -> & ST & WS & U). repeat rewrite <- app_assoc. destruct (usual_begins u f rest U) as (r & ->). destruct ST as [->|(w & ds & es & -> & _)]; [|intros [x E]; discriminate].
  cbn [app]. destruct ws as [|c ws]; [intros [x E]; discriminate|]. inversion WS as [|? ? Wc _]; subst. destruct Wc as [->| ->]; intros [x E]; discriminate.
Qed.
Lemma frame_lines lines fs : Forall2 stamped_line lines fs -> forall ms ip done rest p', ~ begins [nl] rest ->
  oops_lines (ms, ip, None, done ++ fs) rest p' -> oops_lines (ms, ip, None, done) (lines_text lines ++ rest) p'.
Proof.
  induction 1 as [|line f lines fs SL F IH]; intros ms ip done rest p' NB OS; [rewrite app_nil_r in OS; exact OS|].
  unfold lines_text. cbn [map concat]. fold (lines_text lines). repeat rewrite <- app_assoc. cbn [app]. destruct (stamped_past line f (lines_text lines ++ rest) SL) as (u & U & PT).
  destruct (usual_begins u f (nl :: lines_text lines ++ rest) U) as (r & E).
  assert (G : gap (u ++ nl :: lines_text lines ++ rest) (u ++ nl :: lines_text lines ++ rest)) by (rewrite E; apply gap_here; notblank).
  pose proof (usual_line_frame u f (lines_text lines ++ rest) U) as FT. set (t := u ++ nl :: lines_text lines ++ rest) in *. clearbody t. subst t.
  eapply os_line with (b := false); [destruct line; discriminate|exact PT| | | |].
  - intros [x E]. discriminate.
  - apply ol_frame with (label' := None) (t := "["%char :: "<"%char :: r); [| | |exact FT].
    + intros _ l q (t0 & q' & sd & r' & G' & E & _). rewrite (gap_fun _ _ _ G' G) in E. discriminate.
    + intros _ g q (t0 & G' & [(t1 & t2 & t3 & t4 & t5 & w & E & _)|(t1 & t2 & t3 & t4 & t5 & t6 & t7 & a & qu & fn & E & _)]); rewrite (gap_fun _ _ _ G' G) in E; discriminate.
    + exists None, ("["%char :: "<"%char :: r). split; right.
      * split; [|auto]. intros q (t0 & op & tag & cl & G' & E & [NE OP] & _). rewrite (gap_fun _ _ _ G' G) in E. destruct op as [|c op]; [congruence|]. injection E as <- _.
        inversion OP as [|? ? Hc _]; subst. destruct Hc as [Hc|[]]. discriminate.
      * split; [|auto]. intros w q (t0 & G' & E & _). rewrite (gap_fun _ _ _ G' G) in E. discriminate.
  - right. split; [|split; reflexivity]. destruct F as [|line2 f2 lines fs SL2 F]; [exact NB|]. unfold lines_text. cbn [map concat]. repeat rewrite <- app_assoc. apply (stamped_head _ _ _ SL2).
  - rewrite (usual_special _ _ U). apply IH; [exact NB|]. rewrite <- app_assoc. exact OS.
Qed.
Theorem frames_in_order lines fs t rest : Forall2 stamped_line lines fs -> sr_koops_stacktrace_parse (lines_text lines) = Ok (t, rest) ->
  ks_frames t = fs /\ ks_modules t = None /\ rest = [].
Proof.
  intros F H. pose proof (frame_lines _ _ F None false [] [] (None, false, None, fs)) as OS. rewrite app_nil_r in OS.
  specialize (OS ltac:(intros [x E]; discriminate) (os_end _)). destruct (koops_parse_cases (lines_text lines)) as (ms & ip & label & fs' & line & r & OS' & _ & _ & _ & E).
  rewrite H in E. apply ok_inj in E. injection E as -> ->. cbn [ks_frames ks_modules]. apply (lines_fun _ _ _ _ OS) in OS'. injection OS' as <- <- <- <-. auto.
Qed.

(** ** Module lists *)
Lemma module_head m : module_name m -> exists c n, m = c :: n /\ ~ blank_char c.
Proof.
  intros [NE W]. destruct m as [|c n]; [congruence|]. exists c, n. split; [reflexivity|]. inversion W as [|? ? Wc _]; subst.
  intros [->| ->]; apply Wc; [left|right; left]; reflexivity.
Qed.
Lemma words_stop ms q : no_module (spaced_words ms ++ nl :: q).
Proof. destruct ms as [|m ms]; cbn; auto 10. Qed.
Lemma words_list ms : Forall module_name ms -> forall done q, list_ends q -> done <> [] \/ ms = [] ->
  exists spaced r, spaces_then (spaced_words ms ++ nl :: q) spaced r /\ module_list spaced done r (done ++ ms) (nl :: q).
Proof.
  induction 1 as [|m ms M F IH]; intros done q LE C.
  - exists false, (nl :: q). split; [split; [apply gap_here; notblank|split; reflexivity]|]. rewrite app_nil_r. apply ml_over, LE.
  - destruct (IH (done ++ [m]) q LE) as (sd & r & ST & ML); [left; destruct done; discriminate|]. destruct (module_head _ M) as (c & n & E & Hc).
    exists true, (m ++ spaced_words ms ++ nl :: q). unfold spaced_words. cbn [map concat]. fold (spaced_words ms). rewrite <- app_assoc. cbn [app]. split.
    + split; [rewrite E; cbn [app]; apply gap_one, Hc|]. split; [discriminate|]. intros E2. exfalso. apply (f_equal (@length ascii)) in E2. cbn [length] in E2. lia.
    + eapply ml_name; [reflexivity|exact M|apply words_stop|exact ST|]. rewrite <- app_assoc in ML. exact ML.
Qed.
Lemma words_list0 ms q : Forall module_name ms -> list_ends q -> exists spaced r, spaces_then (spaced_words ms ++ nl :: q) spaced r /\ module_list spaced [] r ms (nl :: q).
Proof.
  intros F LE. destruct ms as [|m ms]; [destruct (words_list [] F [] q LE) as (sd & r & H); [auto|]; eauto|].
  inversion F as [|? ? M F']; subst. destruct (words_list ms F' [m] q LE) as (sd & r & ST & ML); [left; discriminate|]. destruct (module_head _ M) as (c & n & E & Hc).
  exists true, (m ++ spaced_words ms ++ nl :: q). unfold spaced_words. cbn [map concat]. fold (spaced_words ms). rewrite <- app_assoc. cbn [app]. split.
  - split; [rewrite E; cbn [app]; apply gap_one, Hc|]. split; [discriminate|]. intros E2. exfalso. apply (f_equal (@length ascii)) in E2. cbn [length] in E2. lia.
  - eapply ml_name; [reflexivity|exact M|apply words_stop|exact ST|exact ML].
Qed.
Theorem modules_listed ms q : Forall module_name ms -> list_ends q ->
  sr_koops_stacktrace_parse_modules (L "Modules linked in:" ++ spaced_words ms ++ nl :: q) = Ok (ms, nl :: q).
Proof.
  intros F LE. apply modules_text_eval. destruct (words_list0 ms q F LE) as (sd & r & ST & ML).
  exists (L "Modules linked in:" ++ spaced_words ms ++ nl :: q), (spaced_words ms ++ nl :: q), sd, r. split; [apply gap_here; notblank|]. split; [reflexivity|]. split; assumption.
Qed.
