(** * The gdb parser reads usual stack traces back. *)
From Verif Require Import Base Types UtilsModel UtilsSpec UtilsProofs ParseSpec ParseProofs RubyParseProofs JsParseProofs PyParseProofs KoopsSpec KoopsProofs KoopsProofs2
  GdbParseModel GdbParseSpec GdbParseProofs GdbParseProofs2 GdbParseProofs3 GdbParseProofs4 GdbParseProofs5 GdbParseProofs6.
Open Scope nat_scope.

Definition word_char (c : ascii) : Prop := alnum_char c \/ c = "_"%char.
Lemma word_name space c : word_char c -> name_char space c.
Proof. intros [H| ->]; [left; exact H|]. right. left. cbn. tauto. Qed.
Lemma word_not_sp : ~ word_char sp.
Proof. intros [H|H]; [apply alnum_iff, mem_In in H; discriminate H|discriminate H]. Qed.
Lemma prefix_without_sp (p name r : str) : ~ In sp p -> begins p (name ++ sp :: r) -> begins p name.
Proof.
  revert name. induction p as [|c p IH]; intros name Hp [q E]; [exists name; reflexivity|]. destruct name as [|x name].
  - injection E as E _. exfalso. apply Hp. left. symmetry. exact E.
  - injection E as -> E. destruct (IH name) as [u ->]; [intros H; apply Hp; right; exact H|exists q; exact E|]. exists u. reflexivity.
Qed.
Lemma operator_no_sp : ~ In sp (L "operator").
Proof. intros H. apply mem_In in H. discriminate H. Qed.
Lemma word_run name r : Forall word_char name -> (forall a b, name <> a ++ L "operator" ++ b) -> run false name (sp :: r).
Proof.
  induction name as [|c name IH]; intros Hf Ho.
  - apply run_stop. apply name_char_false. reflexivity.
  - inversion Hf as [|x y Hc Hf']; subst. apply run_char.
    + intros v u E (o & g & -> & _). assert (Hb : begins (L "operator") ((c :: name) ++ sp :: r)) by (cbn [app]; rewrite E, <- !app_assoc; eexists; reflexivity).
      apply prefix_without_sp in Hb as [b Hb]; [|exact operator_no_sp]. exact (Ho [] b Hb).
    + apply word_name. exact Hc.
    + apply IH; [exact Hf'|]. intros a b ->. exact (Ho (c :: a) b eq_refl).
Qed.
Lemma word_parts name r : Forall word_char name -> (forall a b, name <> a ++ L "operator" ++ b) -> parts false false name (sp :: r).
Proof.
  intros Hf Ho. destruct name as [|c name]; [constructor|]. rewrite <- (app_nil_r (c :: name)). apply p_run; [discriminate| |discriminate|constructor]. apply word_run; assumption.
Qed.
Lemma word_function name r : function_word name -> function_name (name ++ L " (" ++ r) name None (L " (" ++ r).
Proof.
  intros (Hn & Hf & Hd & _ & Ho). right. split.
  - intros [q E]. destruct name as [|c name]; [congruence|]. injection E as -> _. inversion Hf as [|x y [H|H] _]; [apply alnum_iff, mem_In in H; discriminate H|discriminate H].
  - exists name, sp, ("("%char :: r), [], sp, ("("%char :: r). split; [reflexivity|]. split; [|split; [|split; [|left]]].
    + destruct name as [|c name]; [congruence|]. destruct (ascii_dec c "o") as [->|Hc].
      * right. split; [left; exists name; reflexivity|]. apply word_parts; assumption.
      * left. exists c, name. split; [reflexivity|]. inversion Hf as [|x y Hx Hf']; subst. split.
        -- split; [|exact Hc]. destruct Hx as [Hx| ->]; [right; exact Hx|left; cbn; tauto].
        -- apply word_parts; [exact Hf'|]. intros a b ->. exact (Ho (c :: a) b eq_refl).
    + left. reflexivity.
    + right. split; [intros [q E]; discriminate E|]. auto.
    + split; [apply name_char_false; reflexivity|]. rewrite app_nil_r. auto.
Qed.
Lemma plain_args a r : without (dquote :: nl :: L "()") a -> args 0 false (a ++ L ")" ++ r) r.
Proof.
  intros H. induction H as [|c a Hc H IH]; [apply a_end|]. cbn [app]. apply a_char; [|exact IH]. intros Hi. apply Hc. destruct Hi as [Hi|Hi]; [left; exact Hi|right; right; exact Hi].
Qed.
Lemma word_call name a r : function_word name -> without (dquote :: nl :: L "()") a -> function_call (name ++ L " (" ++ a ++ L ")" ++ r) name None r.
Proof.
  intros Hn Ha. exists (L " (" ++ a ++ L ")" ++ r), (a ++ L ")" ++ r). split; [apply word_function; exact Hn|]. split; [|apply plain_args; exact Ha].
  exists [sp]. split; [reflexivity|]. split; [discriminate|]. split; [repeat constructor|]. split; intros [q E]; discriminate E.
Qed.
Lemma hex_first ds n : hexadecimal64 ds n -> Forall (fun c => hexadecimal_digit c <> None) ds /\ ds <> [].
Proof.
  intros [H _]. induction H as [c d Hd|s v c d Hn [IH1 IH2] Hd].
  - split; [|discriminate]. repeat constructor. congruence.
  - split; [|destruct s; discriminate]. apply Forall_app. split; [exact IH1|]. repeat constructor. congruence.
Qed.
Lemma word_first name : function_word name -> exists c t, name = c :: t /\ word_char c /\ c <> "0"%char.
Proof.
  intros (Hn & Hf & Hd & _ & _). destruct name as [|c name]; [congruence|]. exists c, name. inversion Hf as [|x y Hx _]; subst. split; [reflexivity|]. split; [exact Hx|]. intros ->. apply Hd. cbn. discriminate.
Qed.
Lemma one_space r : ~ begins [sp] r -> spaces_to (sp :: r) r.
Proof. intros H. exists 0. split; [reflexivity|exact H]. Qed.
Lemma word_located a v name arguments r : address_value a v -> function_word name -> without (dquote :: nl :: L "()") arguments ->
  located_call (address_word a ++ name ++ L " (" ++ arguments ++ L ")" ++ r) v name None r.
Proof.
  intros Ha Hn Hr. destruct (word_first _ Hn) as (c & t & En & Hc & H0). destruct a as [ds|]; cbn [address_word address_value] in *.
  - destruct Ha as (n & Hd & ->). left. exists n, (name ++ L " (" ++ arguments ++ L ")" ++ r). split; [|split; [apply word_call; assumption|reflexivity]].
    exists (L " in " ++ name ++ L " (" ++ arguments ++ L ")" ++ r), (L " " ++ name ++ L " (" ++ arguments ++ L ")" ++ r), (name ++ L " (" ++ arguments ++ L ")" ++ r).
    split; [|split; [|split; [|left; split; [|reflexivity]]]].
    + exists (ds ++ L " in " ++ name ++ L " (" ++ arguments ++ L ")" ++ r). split; [rewrite <- !app_assoc; reflexivity|]. exists ds. split; [reflexivity|]. split; [exact Hd|]. cbn. intros H. apply H. reflexivity.
    + apply one_space. intros [q E]. discriminate E.
    + apply one_space. rewrite En. intros [q E]. injection E as -> _. exact (word_not_sp Hc).
    + intros Hv. change (L " (" ++ arguments ++ L ")" ++ r) with (sp :: L "(" ++ arguments ++ L ")" ++ r) in Hv. apply prefix_without_sp in Hv; [|intros H; apply mem_In in H; discriminate H].
      destruct Hn as (_ & _ & _ & H & _). exact (H Hv).
  - subst v. right. cbn [app]. split; [|split; [apply word_call; assumption|reflexivity]]. intros n q (u & E & _). rewrite En in E. injection E as -> _. congruence.
Qed.
Lemma no_digit_then c r : decimal_digit c = None -> ~ starts_with_digit (c :: r).
Proof. cbn. congruence. Qed.
Lemma word_location file ls l r : file <> [] -> Forall file_char file -> ~ shared_object file -> number32 ls l -> ~ starts_with_digit r ->
  file_location (L " at " ++ file ++ L ":" ++ ls ++ r) (Some file) (Z.of_N l) r.
Proof.
  intros Hn Hf Hs Hl Hr. destruct file as [|c file]; [congruence|].
  exists (L "at " ++ (c :: file) ++ L ":" ++ ls ++ r), (L " " ++ (c :: file) ++ L ":" ++ ls ++ r), ((c :: file) ++ L ":" ++ ls ++ r), (c :: file), (L ":" ++ ls ++ r).
  split; [|split; [left; reflexivity|split; [|split; [reflexivity|split; [exact Hn|split; [exact Hf|split; [|split; [right; auto|]]]]]]]].
  - exists [sp]. split; [reflexivity|]. split; [discriminate|]. split; [repeat constructor|]. split; intros [q E]; discriminate E.
  - apply one_space. intros [q E]. injection E as -> _. inversion Hf as [|x y H _]; subst. apply file_char_iff, mem_In in H. discriminate H.
  - intros H. apply file_char_iff, mem_In in H. discriminate H.
  - left. exists l, (ls ++ r). split; [reflexivity|]. split; [|reflexivity]. exists ls. auto.
Qed.
Lemma line_header line f r : frame_line_of line f -> ~ starts_with_digit r -> frame_header (line ++ r) f r.
Proof.
  intros (ns & n & a & v & name & arguments & file & ls & l & -> & Hn & Ha & Hw & Hr & Hf1 & Hf2 & Hf3 & Hl & ->) Hd. unfold frame_line.
  exists n, (address_word a ++ name ++ L " (" ++ arguments ++ L ")" ++ L " at " ++ file ++ L ":" ++ ls ++ r). split.
  - exists (ns ++ L "  " ++ address_word a ++ name ++ L " (" ++ arguments ++ L ")" ++ L " at " ++ file ++ L ":" ++ ls ++ r), (L "  " ++ address_word a ++ name ++ L " (" ++ arguments ++ L ")" ++ L " at " ++ file ++ L ":" ++ ls ++ r).
    split; [rewrite <- !app_assoc; reflexivity|]. split.
    + exists ns. split; [reflexivity|]. split; [exact Hn|]. apply no_digit_then. reflexivity.
    + exists 1. split; [reflexivity|]. destruct a as [ds|]; cbn [address_word]; [intros [q E]; discriminate E|]. destruct (word_first _ Hw) as (c & t & -> & Hc & _). intros [q E]. injection E as -> _. exact (word_not_sp Hc).
  - left. exists v, name, None, (L " at " ++ file ++ L ":" ++ ls ++ r), (Some file), (Z.of_N l). split; [apply word_located; assumption|]. split; [|reflexivity]. left. apply word_location; assumption.
Qed.
Lemma numeral_no ds n c : number32 ds n -> decimal_digit c = None -> ~ In c ds.
Proof. intros [H _] Hc Hi. apply numeral_run in H as [H _]. rewrite Forall_forall in H. apply (H c Hi). exact Hc. Qed.
Lemma forall_no (P : ascii -> Prop) s c : Forall P s -> ~ P c -> ~ In c s.
Proof. intros H N Hi. rewrite Forall_forall in H. exact (N (H c Hi)). Qed.
Lemma not_in_app {A} (c : A) a b : ~ In c a -> ~ In c b -> ~ In c (a ++ b).
Proof. intros Ha Hb H. apply in_app_or in H as [H|H]; contradiction. Qed.
Lemma lit_no c s : mem c s = false -> ~ In c s.
Proof. intros H Hi. apply mem_In in Hi. congruence. Qed.
Lemma line_no_nl line f : frame_line_of line f -> ~ In nl line.
Proof.
  intros (ns & n & a & v & name & arguments & file & ls & l & -> & Hn & Ha & Hw & Hr & Hf1 & Hf2 & Hf3 & Hl & ->). unfold frame_line.
  repeat apply not_in_app; try (apply lit_no; reflexivity).
  - eapply numeral_no; [exact Hn|reflexivity].
  - destruct a as [ds|]; cbn [address_word address_value] in *; [|intros []]. destruct Ha as (m & Hd & _). apply hex_first in Hd as [Hd _].
    apply not_in_app; [apply lit_no; reflexivity|]. apply not_in_app; [|apply lit_no; reflexivity]. eapply forall_no; [exact Hd|]. intros H. apply H. reflexivity.
  - destruct Hw as (_ & Hw & _). eapply forall_no; [exact Hw|]. intros [H|H]; [apply alnum_iff, mem_In in H; discriminate H|discriminate H].
  - intros H. unfold without in Hr. rewrite Forall_forall in Hr. apply (Hr nl H). right. left. reflexivity.
  - eapply forall_no; [exact Hf2|]. intros H. apply file_char_iff, mem_In in H. discriminate H.
  - eapply numeral_no; [exact Hl|reflexivity].
Qed.
Lemma line_start line f : frame_line_of line f -> exists t, line = L "#" ++ t.
Proof. intros (ns & n & a & v & name & arguments & file & ls & l & -> & _). eexists. reflexivity. Qed.
(** The next entry after a line *)
Lemma entry_after line r pre q : ~ In nl line -> line ++ r = pre ++ q -> entry_at q -> exists u, pre = line ++ u /\ r = u ++ q.
Proof.
  intros Hn E He. apply app_eq_app in E as (u & [[-> ->]|[-> ->]]); [|eauto].
  destruct u as [|c u]; [exists []; rewrite !app_nil_r; auto|]. exfalso.
  assert (c = nl) as -> by (destruct He as [[x H]|[x H]]; injection H as -> _; reflexivity). apply Hn. apply in_or_app. right. left. reflexivity.
Qed.
Lemma next_here line r : ~ In nl line -> entry_at (nl :: r) -> next_entry (line ++ nl :: r) r.
Proof.
  intros Hn He. left. exists line. split; [reflexivity|]. split; [exact He|]. intros p q E Hq. destruct (entry_after _ _ _ _ Hn E Hq) as (u & -> & _). rewrite app_length. lia.
Qed.
Lemma next_second line r : ~ In nl line -> ~ entry_at (nl :: nl :: r) -> entry_at (nl :: r) -> next_entry (line ++ nl :: nl :: r) r.
Proof.
  intros Hn N He. left. exists (line ++ [nl]). split; [rewrite <- app_assoc; reflexivity|]. split; [exact He|]. intros p q E Hq. destruct (entry_after _ _ _ _ Hn E Hq) as (u & -> & Eu).
  destruct u as [|c u]; [cbn in Eu; subst q; contradiction|]. rewrite !app_length. cbn [length]. lia.
Qed.
Lemma quiet_no_entry s p q : quiet s -> s = p ++ q -> ~ entry_at q.
Proof. intros H E. specialize (H p q E). unfold entry_at. tauto. Qed.
Lemma next_none line s : ~ In nl line -> quiet (nl :: s) -> next_entry (line ++ nl :: s) [].
Proof.
  intros Hn Hs. right. split; [|reflexivity]. intros p q E.
  assert (N : ~ entry_at q); [|unfold entry_at in N; tauto].
  intros Hq. destruct (entry_after _ _ _ _ Hn E Hq) as (u & -> & Eu). exact (quiet_no_entry _ _ _ Hs Eu Hq).
Qed.
Lemma nl_nl r : ~ entry_at (nl :: nl :: r).
Proof. intros [[x E]|[x E]]; discriminate E. Qed.
Lemma nl_hash r : entry_at (nl :: L "#" ++ r).
Proof. left. exists r. reflexivity. Qed.
(** What may follow the frames of a block: no more entries, or an empty line and a thread *)
Definition block_end (s r : str) : Prop := (quiet (nl :: s) /\ r = []) \/ (s = nl :: r /\ begins (L "Thread") r).
Lemma no_frame_end s r : block_end s r -> frames_text r [] r.
Proof.
  intros H. apply ft_end; [intros f q [[x (n & t & (t1 & t2 & E & _) & _)] _]|intros (n & t & (t1 & t2 & E & _) & _)]; destruct H as [[_ ->]|[_ [q' ->]]]; discriminate E.
Qed.
Lemma frames_back lines frames s r : Forall2 frame_line_of lines frames -> lines <> [] -> block_end s r -> frames_text (concat (map (fun l => l ++ [nl]) lines) ++ s) frames r.
Proof.
  intros H Hn He. induction H as [|line f lines frames Hl H IH]; [congruence|]. cbn [map concat]. rewrite <- !app_assoc. cbn [app].
  pose proof (line_no_nl _ _ Hl) as Hno. pose proof (line_header line f) as Hh. destruct lines as [|line2 lines].
  - inversion H. subst. cbn [map concat app]. apply (ft_more _ f r); [|exact (no_frame_end _ _ He)]. split.
    + exists (nl :: s). apply Hh; [exact Hl|]. apply no_digit_then. reflexivity.
    + destruct He as [[Hq ->]|[-> [q ->]]]; [apply next_none; assumption|]. apply next_second; [exact Hno|apply nl_nl|]. right. exists q. reflexivity.
  - apply (ft_more _ f (concat (map (fun l => l ++ [nl]) (line2 :: lines)) ++ s)); [|apply IH; discriminate]. split.
    + eexists. apply Hh; [exact Hl|]. apply no_digit_then. reflexivity.
    + apply next_here; [exact Hno|]. inversion H as [|x y u w Hxy]; subst. destruct (line_start _ _ Hxy) as [t ->]. cbn [map concat]. rewrite <- !app_assoc. apply nl_hash.
Qed.
Lemma no_lwp_here t n r : ~ lwp (L "(Thread " ++ t) n r.
Proof. intros (q & E & _). discriminate E. Qed.
Lemma title_back ns n ids ts tid r : number32 ns n -> ids <> [] -> Forall (fun c => hexadecimal_digit c <> None) ids -> number32 ts tid ->
  thread_start (title_line ns ids ts ++ nl :: r) (Z.of_N n) (Z.of_N tid) r.
Proof.
  intros Hn Hi1 Hi2 Ht. unfold title_line. rewrite <- !app_assoc. left. split; [eexists; reflexivity|].
  exists n, (L " " ++ ns ++ L " (Thread 0x" ++ ids ++ L " (LWP " ++ ts ++ L ")):" ++ nl :: r), (ns ++ L " (Thread 0x" ++ ids ++ L " (LWP " ++ ts ++ L ")):" ++ nl :: r),
    (L " (Thread 0x" ++ ids ++ L " (LWP " ++ ts ++ L ")):" ++ nl :: r), (L "(Thread 0x" ++ ids ++ L " (LWP " ++ ts ++ L ")):" ++ nl :: r), no_tid, (L "(Thread 0x" ++ ids ++ L " (LWP " ++ ts ++ L ")):" ++ nl :: r).
  split; [reflexivity|]. split; [|split; [|split; [reflexivity|split; [|split; [|right]]]]].
  - apply one_space. destruct Hn as [Hn _]. apply numeral_run in Hn as [Hn Hn']. destruct ns as [|c ns]; [congruence|]. intros [q E]. injection E as -> _. inversion Hn as [|x y H _]. apply H. reflexivity.
  - exists ns. split; [reflexivity|]. split; [exact Hn|]. apply no_digit_then. reflexivity.
  - apply one_space. intros [q E]. discriminate E.
  - right. split; [|auto]. intros m q H. exact (no_lwp_here (L "0x" ++ ids ++ L " (LWP " ++ ts ++ L ")):" ++ nl :: r) m q H).
  - exists (L "0x" ++ ids ++ L " (LWP " ++ ts ++ L ")):" ++ nl :: r), (L " (LWP " ++ ts ++ L ")):" ++ nl :: r), (L "(LWP " ++ ts ++ L ")):" ++ nl :: r).
    split; [reflexivity|]. split; [|split; [left; apply one_space; intros [q E]; discriminate E|]].
    + left. exists ids. split; [reflexivity|]. split; [exact Hi1|]. split; [exact Hi2|]. intros H. apply H. reflexivity.
    + left. exists tid. split; [|reflexivity]. exists (ts ++ L ")):" ++ nl :: r). split; [reflexivity|]. exists ts. split; [reflexivity|]. split; [exact Ht|]. apply no_digit_then. reflexivity.
Qed.
Lemma block_start text t : thread_block text t -> exists q, text = nl :: L "Thread " ++ q.
Proof. intros (ns & n & ids & ts & tid & lines & frames & -> & _). unfold title_line. rewrite <- !app_assoc. eexists. reflexivity. Qed.
Lemma blocks_end blocks threads rest : Forall2 thread_block blocks threads -> quiet (nl :: rest) ->
  exists r, block_end (concat blocks ++ rest) r /\ ((blocks = [] /\ r = []) \/ concat blocks ++ rest = nl :: r).
Proof.
  intros H Hq. destruct H as [|b t blocks threads Hb H]; [exists []; split; [left; auto|left; auto]|]. destruct (block_start _ _ Hb) as [q ->]. cbn [concat app].
  exists (((L "Thread " ++ q) ++ concat blocks) ++ rest). split; [|right; reflexivity]. right. split; [reflexivity|]. eexists. rewrite <- !app_assoc. reflexivity.
Qed.
Lemma blocks_back blocks threads rest : Forall2 thread_block blocks threads -> quiet (nl :: rest) ->
  exists r, block_end (concat blocks ++ rest) r /\ threads_text r threads [] /\ ((blocks = [] /\ r = []) \/ concat blocks ++ rest = nl :: r).
Proof.
  intros H Hq. induction H as [|b t blocks threads Hb H IH].
  - exists []. split; [left; auto|]. split; [|auto]. apply tt_end.
    + intros t r (n & d & q & fs & [[[u E] _]|(_ & _ & _ & ->)] & Hf & Hn & _); [discriminate E|]. inversion Hf; subst; [congruence|]. destruct H as [[x (m & v & (t1 & t2 & E & _) & _)] _]. discriminate E.
    + intros (n & d & q & [[[u E] _]|(_ & _ & _ & ->)] & Hf); [discriminate E|]. inversion Hf; subst; [destruct H as (m & v & (t1 & t2 & E & _) & _); discriminate E|]. destruct H as [[x (m & v & (t1 & t2 & E & _) & _)] _]. discriminate E.
  - destruct IH as (r & He & Ht & _). destruct (blocks_end (b :: blocks) (t :: threads) rest) as (r' & He' & [[X _]|Er]); [constructor; assumption|exact Hq|discriminate X|].
    exists r'. split; [exact He'|]. split; [|right; exact Er]. apply (tt_more _ t r); [|exact Ht].
    destruct Hb as (ns & n & ids & ts & tid & lines & frames & -> & H1 & H2 & H3 & H4 & H5 & H6 & ->).
    cbn [concat app] in Er. rewrite <- !app_assoc in Er. cbn [app] in Er. apply (f_equal (@tl ascii)) in Er. cbn [tl] in Er. subst r'.
    exists (Z.of_N n), (Z.of_N tid), (concat (map (fun l => l ++ [nl]) lines) ++ concat blocks ++ rest), frames.
    split; [apply title_back; assumption|]. split; [apply frames_back; assumption|]. split; [|reflexivity]. destruct H6; [congruence|discriminate].
Qed.
Lemma entry_first word pre r : ~ In nl pre -> begins (nl :: word) (nl :: r) -> first_entry word (pre ++ nl :: r) r.
Proof.
  intros Hn Hb. exists pre. split; [reflexivity|]. split; [exact Hb|]. intros p q E [x ->]. cbn [app] in E. destruct (le_lt_dec (length pre) (length p)) as [H|H]; [exact H|]. exfalso. apply Hn.
  apply app_eq_app in E as (u & [[-> E]|[-> _]]); [|rewrite app_length in H; lia]. destruct u as [|c u]; [rewrite app_nil_r in H; lia|]. injection E as <- _. apply in_or_app. right. left. reflexivity.
Qed.
Lemma entry_bound word pre s r : first_entry word (pre ++ s) r -> ~ In nl pre -> length r < length s.
Proof.
  intros (p & E & _ & _) Hn. apply app_eq_app in E as (u & [[-> E]|[-> ->]]).
  - destruct u as [|c u]; [cbn in E; subst s; cbn; lia|]. injection E as <- _. exfalso. apply Hn. apply in_or_app. right. left. reflexivity.
  - rewrite app_length. cbn [length]. lia.
Qed.
Lemma line_frame line f r : frame_line_of line f -> begins (L "Thread") r -> gdb_frame_text (line ++ nl :: nl :: r) f r.
Proof.
  intros Hl [q ->]. pose proof (line_no_nl _ _ Hl) as Hno. split.
  - eexists. apply line_header; [exact Hl|]. apply no_digit_then. reflexivity.
  - apply next_second; [exact Hno|apply nl_nl|]. right. exists q. reflexivity.
Qed.
Theorem usual_trace_parses text crash threads : usual_trace text crash threads -> sr_gdb_stacktrace_parse_threads text = Ok (crash, threads, []).
Proof.
  intros (pre & first & blocks & rest & -> & Hp & Hn & Hb & Hq & H). apply trace_exact. destruct (blocks_back _ _ _ Hb Hq) as (r & He & Ht & [[X _]|Er]); [congruence|].
  assert (Hts : threads <> []) by (destruct Hb; [congruence|discriminate]). exists r. split; [|split; [exact Ht|exact Hts]].
  assert (Hr : exists q, r = L "Thread " ++ q).
  { destruct Hb as [|b t blocks threads Hb _]; [congruence|]. destruct (block_start _ _ Hb) as [q ->]. cbn [concat app] in Er. apply (f_equal (@tl ascii)) in Er. cbn [tl] in Er. subst r. rewrite <- !app_assoc. eexists. reflexivity. }
  destruct Hr as [q ->]. rewrite Er. destruct H as [[-> ->]|(line & f & -> & Hl & ->)].
  - right. split; [|reflexivity]. cbn [app]. split.
    + apply entry_first; [exact Hp|]. exists q. reflexivity.
    + intros u Hu. apply entry_bound in Hu; [|exact Hp]. cbn [length] in Hu |- *. lia.
  - left. exists (line ++ nl :: nl :: L "Thread " ++ q), f. cbn [app]. rewrite <- !app_assoc. cbn [app]. split; [|split; [|reflexivity]].
    + destruct (line_start _ _ Hl) as [t ->]. split.
      * apply entry_first; [exact Hp|]. exists (t ++ nl :: nl :: L "Thread " ++ q). reflexivity.
      * intros u Hu. destruct Hu as (p & E & Hbg & Hm). destruct Hbg as [x Ex]. injection Ex as ->.
        replace (pre ++ nl :: (L "#" ++ t) ++ nl :: nl :: L "Thread " ++ q) with ((pre ++ [nl]) ++ (L "#" ++ t) ++ nl :: nl :: L "Thread " ++ q) in E by (rewrite <- app_assoc; reflexivity).
        apply app_eq_app in E as (v & [[E1 E2]|[-> E2]]).
        -- destruct v as [|c v]; [discriminate E2|]. injection E2 as <- E2. destruct v as [|c v].
           ++ cbn [app] in E2. discriminate E2.
           ++ exfalso. assert (Hx : In nl pre); [|exact (Hp Hx)]. change (p ++ nl :: c :: v) with (p ++ [nl] ++ c :: v) in E1.
              destruct (exists_last (l := c :: v)) as (w & y & Ey); [discriminate|]. rewrite Ey in E1. rewrite !app_assoc in E1. apply app_inj_tail in E1 as [-> _]. apply in_or_app. left. apply in_or_app. right. left. reflexivity.
        -- destruct v as [|c v]; [discriminate E2|]. rewrite E2, app_length. cbn [length]. lia.
    + apply line_frame; [exact Hl|]. eexists. reflexivity.
Qed.
