(** * Timestamps, taint flags and module lists of an oops. *)
From Verif Require Import Base Types UtilsSpec UtilsModel UtilsProofs ParseSpec ParseModel ParseProofs RubyParseProofs JavaParseModel KoopsModel KoopsSpec KoopsProofs.
Open Scope nat_scope.

Lemma span_eval set (P : ascii -> Prop) a b : (forall c, In c set <-> P c) -> Forall P a -> match b with [] => True | c :: _ => ~ P c end ->
  sr_skip_char_span set (a ++ b) = (length a, b).
Proof.
  intros E H N. apply skip_span_iff. exists a. split; [reflexivity|]. split; [reflexivity|]. split; [eapply Forall_impl; [|exact H]; intros c; apply E|].
  destruct b as [|c b]; [exact Logic.I|]. rewrite E. exact N.
Qed.
Lemma span_inv set (P : ascii -> Prop) s n b : (forall c, In c set <-> P c) -> sr_skip_char_span set s = (n, b) ->
  exists a, s = a ++ b /\ n = length a /\ Forall P a /\ match b with [] => True | c :: _ => ~ P c end.
Proof.
  intros E H. apply skip_span_iff in H as (a & -> & -> & H & N). exists a. split; [reflexivity|]. split; [reflexivity|].
  split; [eapply Forall_impl; [|exact H]; intros c; apply E|]. destruct b as [|c b]; [exact Logic.I|]. rewrite <- E. exact N.
Qed.
Lemma digits_in c : In c digits10 <-> digit_char c.
Proof.
  unfold digit_char. split.
  - intros H. destruct (digits10_dec c H) as [d ->]. discriminate.
  - destruct (decimal_digit c) as [d|] eqn:E; [|congruence]. intros _. apply (digit_val_dec c d E).
Qed.
Definition sr_space_list : str := sp :: tab :: ascii_of_nat 13 :: nl :: ascii_of_nat 11 :: ascii_of_nat 12 :: [].
Lemma spaces_in c : In c sr_space_list <-> any_space c.
Proof. unfold any_space, sr_space_list. cbn [In]. tauto. Qed.
Lemma timestamp_iff s r : sr_koops_skip_timestamp s = Some r <-> timestamp s r.
Proof.
  unfold sr_koops_skip_timestamp, timestamp, sr_skip_uint. fold sr_space_list. split.
  - intros H. destruct (sr_skip_char "[" s) as [b s1] eqn:E1. apply maybe_iff in E1 as [[-> ->]|(_ & _ & ->)]; [|discriminate]. cbn [negb] in H.
    destruct (sr_skip_char_span sr_space_list s1) as [n1 s2] eqn:E2. apply (span_inv _ _ _ _ _ spaces_in) in E2 as (ws & -> & _ & W & _).
    destruct (sr_skip_char_span digits10 s2) as [n2 s3] eqn:E3. apply (span_inv _ _ _ _ _ digits_in) in E3 as (ds & -> & -> & D & _).
    destruct (length ds =? 0) eqn:N1; [discriminate|].
    destruct (sr_skip_char "." s3) as [b s4] eqn:E4. apply maybe_iff in E4 as [[-> ->]|(_ & _ & ->)]; [|discriminate]. cbn [negb] in H.
    destruct (sr_skip_char_span digits10 s4) as [n3 s5] eqn:E5. apply (span_inv _ _ _ _ _ digits_in) in E5 as (es & -> & -> & D2 & _).
    destruct (length es =? 0) eqn:N2; [discriminate|].
    destruct (sr_skip_char "]" s5) as [b s6] eqn:E6. apply maybe_iff in E6 as [[-> ->]|(_ & _ & ->)]; [|discriminate]. cbn [negb] in H. injection H as <-.
    exists ws, ds, es. split; [reflexivity|]. split; [exact W|]. split; [destruct ds; discriminate|]. split; [exact D|]. split; [destruct es; discriminate|exact D2].
  - intros (ws & ds & es & -> & W & N1 & D & N2 & D2).
    change (sr_skip_char "[" (L "[" ++ ws ++ ds ++ L "." ++ es ++ L "]" ++ r)) with (true, ws ++ ds ++ L "." ++ es ++ L "]" ++ r). cbn [negb].
    rewrite (span_eval _ _ _ _ spaces_in) by (exact W || (destruct ds as [|c ds]; [congruence|]; inversion D as [|? ? Hc _]; subst; cbn [app]; intros [H|[H|[H|[H|[H|[H|[]]]]]]]; subst c; apply Hc; reflexivity)).
    rewrite (span_eval _ _ _ _ digits_in) by (exact D || (cbn [app L list_ascii_of_string]; intros H; apply H; reflexivity)).
    destruct ds as [|c ds]; [congruence|]. cbn [length Nat.eqb].
    change (sr_skip_char "." (L "." ++ es ++ L "]" ++ r)) with (true, es ++ L "]" ++ r). cbn [negb].
    rewrite (span_eval _ _ _ _ digits_in) by (exact D2 || (cbn [app L list_ascii_of_string]; intros H; apply H; reflexivity)).
    destruct es as [|c' es]; [congruence|]. reflexivity.
Qed.
Lemma timestamp_fun s r r' : timestamp s r -> timestamp s r' -> r = r'.
Proof. intros H H'. apply timestamp_iff in H, H'. congruence. Qed.
Lemma timestamp_none s : sr_koops_skip_timestamp s = None <-> forall r, ~ timestamp s r.
Proof.
  split; [intros H r H'; apply timestamp_iff in H'; congruence|].
  intros H. destruct (sr_koops_skip_timestamp s) as [r|] eqn:E; [|reflexivity]. exfalso. apply (H r), timestamp_iff, E.
Qed.
Lemma timestamp_le s r : timestamp s r -> length r <= length s.
Proof. intros (ws & ds & es & -> & _). repeat rewrite app_length. lia. Qed.

(** ** Taint flags *)
Lemma strstr_none needle s : strstr needle s = None <-> forall pre post, s = pre ++ post -> ~ begins needle post.
Proof.
  induction s as [|c s IH].
  - cbn [strstr]. destruct (starts_with needle []) eqn:E.
    + split; [discriminate|]. intros H. apply starts_with_iff in E. exfalso. apply (H [] [] eq_refl). exact E.
    + split; [|reflexivity]. intros _ pre post E2 B. symmetry in E2. apply app_eq_nil in E2 as [_ ->]. apply starts_with_iff in B. congruence.
  - cbn [strstr]. destruct (starts_with needle (c :: s)) eqn:E.
    + split; [discriminate|]. intros H. apply starts_with_iff in E. exfalso. apply (H [] (c :: s) eq_refl). exact E.
    + rewrite IH. split.
      * intros H pre post E2 B. destruct pre as [|x pre]; [cbn in E2; subst post; apply starts_with_iff in B; congruence|]. injection E2 as _ E2. exact (H _ _ E2 B).
      * intros H pre post -> B. exact (H (c :: pre) post eq_refl B).
Qed.
Lemma strstr_some needle s t : strstr needle s = Some t <-> exists pre, first_split (fun u => begins needle u) s pre t.
Proof.
  induction s as [|c s IH].
  - cbn [strstr]. destruct (starts_with needle []) eqn:E.
    + apply starts_with_iff in E. split.
      * intros H. injection H as <-. exists []. split; [reflexivity|]. split; [exact E|]. intros; cbn; lia.
      * intros (pre & E2 & _). symmetry in E2. apply app_eq_nil in E2 as [_ ->]. reflexivity.
    + split; [discriminate|]. intros (pre & E2 & B & _). symmetry in E2. apply app_eq_nil in E2 as [_ ->]. apply starts_with_iff in B. congruence.
  - cbn [strstr]. destruct (starts_with needle (c :: s)) eqn:E.
    + apply starts_with_iff in E. split.
      * intros H. injection H as <-. exists []. split; [reflexivity|]. split; [exact E|]. intros; cbn; lia.
      * intros (pre & E2 & _ & M). specialize (M [] (c :: s) eq_refl E). destruct pre; [|cbn in M; lia]. cbn in E2. congruence.
    + rewrite IH. split.
      * intros (pre & -> & B & M). exists (c :: pre). split; [reflexivity|]. split; [exact B|]. intros pre' post' E2 B'.
        destruct pre' as [|x pre']; [cbn in E2; subst post'; apply starts_with_iff in B'; congruence|]. injection E2 as _ E2. cbn. specialize (M _ _ E2 B'). lia.
      * intros (pre & E2 & B & M). destruct pre as [|x pre]; [cbn in E2; subst t; apply starts_with_iff in B; congruence|]. injection E2 as -> E2.
        exists pre. split; [exact E2|]. split; [exact B|]. intros pre' post' -> B'. specialize (M (x :: pre') post' eq_refl B'). cbn in M. lia.
Qed.
Definition letter_or_space (c : ascii) : Prop := c = sp \/ (65 <= code c <= 90)%N.
Lemma set_flag_nth c : forall i letter name flags, nth_error taint_flags i = Some (letter, name) -> length flags = 16 ->
  (nth_error (set_flag c flags) i = Some true <-> nth_error flags i = Some true \/ c = letter).
Proof.
  unfold set_flag. assert (U : NoDup (map fst taint_flags)).
  { unfold taint_flags. cbn [map fst]. repeat (constructor; [cbn [In]; intros H; repeat (destruct H as [H|H]; [discriminate|]); destruct H|]). constructor. }
  change 16 with (length taint_flags). revert U. induction taint_flags as [|[l n] table IH]; intros U i letter name flags Hi Hl; [destruct i; discriminate|].
  destruct flags as [|b flags]; [discriminate|]. inversion U as [|? ? U1 U2]; subst. injection Hl as Hl. destruct (Ascii.eqb_spec c l) as [->|NE].
  - destruct i as [|i]; cbn [nth_error] in *.
    + injection Hi as <- <-. split; [auto|reflexivity].
    + split; [auto|]. intros [H|H]; [exact H|]. exfalso. apply U1. subst l. change letter with (fst (letter, name)). apply in_map. apply (nth_error_In _ i), Hi.
  - destruct i as [|i]; cbn [nth_error] in *.
    + injection Hi as <- <-. split; [auto|]. intros [H|H]; [exact H|congruence].
    + apply (IH U2 _ letter name); assumption.
Qed.
Lemma set_flag_length c flags : length flags = 16 -> length (set_flag c flags) = 16.
Proof.
  unfold set_flag. change 16 with (length taint_flags). revert flags. induction taint_flags as [|[l n] table IH]; intros flags Hl; [exact Hl|].
  destruct flags as [|b flags]; [discriminate|]. injection Hl as Hl. destruct (Ascii.eqb c l); cbn [length]; [f_equal; exact Hl|f_equal; apply IH, Hl].
Qed.
Lemma taint_loop_flags : forall letters r, Forall letter_or_space letters -> match r with [] => True | c :: _ => c <> sp /\ ~ (65 <= code c <= 90)%N end ->
  forall flags, length flags = 16 -> length (taint_loop (letters ++ r) flags) = 16 /\
    forall i letter name, nth_error taint_flags i = Some (letter, name) ->
      (nth_error (taint_loop (letters ++ r) flags) i = Some true <-> nth_error flags i = Some true \/ In letter letters).
Proof.
  induction letters as [|c letters IH]; intros r F N flags Hl.
  - cbn [app]. assert (E : taint_loop r flags = flags).
    { destruct r as [|c r]; [reflexivity|]. destruct N as [N1 N2]. cbn [taint_loop cur hd].
      replace ((code "A" <=? code c)%N && (code c <=? code "Z")%N) with false.
      - destruct (Ascii.eqb_spec c sp); [contradiction|reflexivity].
      - symmetry. apply not_true_iff_false. intros H. apply andb_true_iff in H as [H1 H2]. apply N.leb_le in H1, H2. apply N2. split; assumption. }
    rewrite E. split; [exact Hl|]. intros i letter name _. cbn [In]. tauto.
  - inversion F as [|? ? Hc F']; subst. cbn [app taint_loop cur hd].
    destruct ((code "A" <=? code c)%N && (code c <=? code "Z")%N) eqn:E.
    + destruct (IH r F' N (set_flag c flags) (set_flag_length c flags Hl)) as [Hl' HI]. split; [exact Hl'|]. intros i letter name Hi.
      rewrite (HI _ _ _ Hi), (set_flag_nth c _ _ _ flags Hi Hl). cbn [In]. tauto.
    + destruct Hc as [->|Hc].
      * rewrite Ascii.eqb_refl. cbn [negb]. destruct (IH r F' N flags Hl) as [Hl' HI]. split; [exact Hl'|]. intros i letter name Hi. rewrite (HI _ _ _ Hi). cbn [In].
        split; [tauto|]. intros [H|[H|H]]; [auto| |auto]. exfalso. subst letter. apply nth_error_In in Hi. unfold taint_flags in Hi. cbn [In] in Hi.
        repeat (destruct Hi as [Hi|Hi]; [discriminate|]). destruct Hi.
      * exfalso. apply andb_false_iff in E as [E|E]; apply N.leb_gt in E; destruct Hc as [Hc1 Hc2]; [change (code "A") with 65%N in E|change (code "Z") with 90%N in E]; lia.
Qed.
Lemma letters_split s : exists letters r, s = letters ++ r /\ Forall letter_or_space letters /\ match r with [] => True | c :: _ => c <> sp /\ ~ (65 <= code c <= 90)%N end.
Proof.
  induction s as [|c s (letters & r & -> & F & N)]; [exists [], []; split; [reflexivity|]; split; [constructor|exact Logic.I]|].
  destruct (Ascii.eqb_spec c sp) as [->|NE].
  - exists (sp :: letters), r. split; [reflexivity|]. split; [constructor; [left; reflexivity|exact F]|exact N].
  - destruct ((65 <=? code c)%N && (code c <=? 90)%N) eqn:E.
    + apply andb_true_iff in E as [E1 E2]. apply N.leb_le in E1, E2. exists (c :: letters), r. split; [reflexivity|]. split; [constructor; [right; split; assumption|exact F]|exact N].
    + exists [], (c :: letters ++ r). split; [reflexivity|]. split; [constructor|]. split; [exact NE|]. intros [H1 H2]. apply N.leb_le in H1, H2. rewrite H1, H2 in E. discriminate.
Qed.
Lemma first_split_fun P s a b a' b' : first_split P s a b -> first_split P s a' b' -> a = a' /\ b = b'.
Proof.
  intros (-> & Hb & M) (E & Hb' & M'). specialize (M _ _ E Hb'). specialize (M' _ _ eq_refl Hb). assert (length a = length a') as Hl by lia.
  assert (firstn (length a) (a ++ b) = firstn (length a) (a' ++ b')) as F by (rewrite E; reflexivity). rewrite firstn_app_exact, Hl, firstn_app_exact in F. subst a'.
  split; [reflexivity|]. apply app_inv_head in E. exact E.
Qed.
Lemma run_fun (P : ascii -> Prop) a r a' r' : Forall P a -> Forall P a' -> match r with [] => True | c :: _ => ~ P c end -> match r' with [] => True | c :: _ => ~ P c end ->
  a ++ r = a' ++ r' -> a = a' /\ r = r'.
Proof.
  revert a'. induction a as [|c a IH]; intros [|c' a'] F F' N N' E; cbn [app] in E.
  - auto.
  - subst r. inversion F'; contradiction.
  - subst r'. inversion F; contradiction.
  - injection E as -> E. inversion F; inversion F'; subst. destruct (IH a') as [-> ->]; auto.
Qed.
Lemma not_letter_iff c : ~ letter_or_space c <-> c <> sp /\ ~ (65 <= code c <= 90)%N.
Proof. unfold letter_or_space. tauto. Qed.
Lemma letters_fun s l l' : taint_letters s l -> taint_letters s l' -> l = l'.
Proof.
  intros (pre & r & FS & F & N) (pre' & r' & FS' & F' & N'). destruct (first_split_fun _ _ _ _ _ _ FS FS') as [_ E]. apply app_inv_head in E.
  apply (run_fun letter_or_space l r l' r' F F') in E as [E _]; [exact E| |]; [destruct r|destruct r']; try exact Logic.I; apply not_letter_iff; assumption.
Qed.
Lemma taint_cases s :
  (exists letters, taint_letters s letters /\ fst (parse_taint_flags s no_taint) = true /\ length (snd (parse_taint_flags s no_taint)) = 16 /\
     forall i letter name, nth_error taint_flags i = Some (letter, name) -> (nth_error (snd (parse_taint_flags s no_taint)) i = Some true <-> In letter letters)) \/
  ((forall letters, ~ taint_letters s letters) /\ parse_taint_flags s no_taint = (false, no_taint)).
Proof.
  unfold parse_taint_flags. destruct (strstr (L "Tainted: ") s) as [t|] eqn:E.
  - left. apply strstr_some in E as (pre & FS). destruct FS as (E1 & [u E2] & M). subst t. destruct (letters_split u) as (letters & r & -> & F & N). exists letters.
    split; [exists pre, r; split; [|split; assumption]; split; [exact E1|split; [eexists; reflexivity|exact M]]|]. split; [reflexivity|].
    change (skipn 9 (L "Tainted: " ++ letters ++ r)) with (letters ++ r). cbn [snd].
    destruct (taint_loop_flags letters r F N no_taint eq_refl) as [Hl HI]. split; [exact Hl|]. intros i letter name Hi. rewrite (HI _ _ _ Hi). split; [|auto].
    intros [H|H]; [|exact H]. exfalso. unfold no_taint in H. apply nth_error_In in H. apply repeat_spec in H. discriminate.
  - right. split; [|reflexivity]. intros letters (pre & r & (E1 & B & _) & _). exact (proj1 (strstr_none _ s) E _ _ E1 B).
Qed.
Theorem taint_exact s i letter name : nth_error taint_flags i = Some (letter, name) ->
  (nth_error (snd (parse_taint_flags s no_taint)) i = Some true <-> exists letters, taint_letters s letters /\ In letter letters).
Proof.
  intros Hi. destruct (taint_cases s) as [(letters & T & _ & _ & H)|[N E]].
  - rewrite (H _ _ _ Hi). split; [eauto|]. intros (l & T' & H'). rewrite (letters_fun _ _ _ T T'). exact H'.
  - rewrite E. cbn [snd]. split; [|intros (l & T & _); destruct (N _ T)]. intros H. exfalso. unfold no_taint in H. apply nth_error_In, repeat_spec in H. discriminate.
Qed.
Theorem taint_length s : length (snd (parse_taint_flags s no_taint)) = 16.
Proof. destruct (taint_cases s) as [(l & _ & _ & H & _)|[_ ->]]; [exact H|reflexivity]. Qed.

(** ** Modules *)
Lemma seps_in c : In c (L " :") <-> In c (L " :").
Proof. reflexivity. Qed.
Lemma hex_in c : In c hexdigits <-> hexadecimal_digit c <> None.
Proof.
  split; [intros H; destruct (hexdigits_hex c H) as [d ->]; discriminate|].
  destruct (hexadecimal_digit c) as [d|] eqn:E; [|congruence]. intros _. apply (digit_val_hex c d E).
Qed.
Lemma keyword_number_cases k s : k <> [] -> Forall (fun c => ~ digit_char c) (L " :") ->
  (counted k s /\ exists r, keyword_number k s = (true, r)) \/ (~ counted k s /\ exists r, past_keyword k s r /\ keyword_number k s = (false, r)).
Proof.
  intros K _. unfold keyword_number. destruct (skip_string_cases k s) as [(r & -> & E)|[N E]]; rewrite E.
  - replace (length k =? 0) with false by (destruct k; [congruence|reflexivity]).
    destruct (sr_skip_char_span (L " :") r) as [n q] eqn:E2. apply (span_inv _ _ _ _ _ seps_in) in E2 as (sep & -> & -> & F & NQ).
    assert (PK : past_keyword k (k ++ sep ++ q) q) by (right; exists sep; split; [reflexivity|split; assumption]).
    assert (FC : counted k (k ++ sep ++ q) -> sep <> [] /\ exists d t, q = d :: t /\ digit_char d).
    { intros (sep' & d & t & E3 & NE & F' & D). apply app_inv_head in E3. apply (run_fun (fun c => In c (L " :")) _ _ _ _ F F') in E3 as [-> ->]; [split; [exact NE|eauto]|exact NQ|].
      cbn [L list_ascii_of_string In]. intros [H|[H|[]]]; subst d; apply D; reflexivity. }
    destruct (length sep =? 0) eqn:E3.
    + right. apply Nat.eqb_eq in E3. destruct sep; [|discriminate]. split; [intros C; destruct (FC C) as [C' _]; congruence|]. eexists. split; [exact PK|reflexivity].
    + destruct (sr_skip_char_span digits10 q) as [n r] eqn:E4. apply (span_inv _ _ _ _ _ digits_in) in E4 as (ds & -> & -> & D & ND). destruct ds as [|d ds].
      * right. cbn [length Nat.eqb negb]. split.
        -- intros C. destruct (FC C) as (_ & d & t & E5 & Dd). cbn [app] in E5. subst r. contradiction.
        -- exists r. split; [exact PK|reflexivity].
      * left. inversion D; subst. split; [|eexists; reflexivity]. exists sep, d, (ds ++ r). split; [reflexivity|]. split; [destruct sep; discriminate|]. split; assumption.
  - right. cbn [Nat.eqb]. split; [intros (sep & d & t & -> & _); apply N; eexists; reflexivity|]. exists s. split; [left; auto|reflexivity].
Qed.
Lemma past_fun k s r r' : k <> [] -> past_keyword k s r -> past_keyword k s r' -> r = r'.
Proof.
  intros K [[N ->]|(sep & -> & F & NR)] [[N' ->]|(sep' & E & F' & NR')].
  - reflexivity.
  - exfalso. apply N. subst s. eexists. reflexivity.
  - exfalso. apply N'. eexists. reflexivity.
  - apply app_inv_head in E. apply (run_fun (fun c => In c (L " :")) _ _ _ _ F F' NR NR') in E as [_ E]. exact E.
Qed.
Lemma continues_iff s : module_list_continues s = false <-> list_ends s.
Proof.
  unfold module_list_continues, list_ends. destruct (sr_koops_skip_timestamp s) as [r|] eqn:E1.
  - apply timestamp_iff in E1. split; [eauto|reflexivity].
  - pose proof (proj1 (timestamp_none s) E1) as NT.
    destruct (skip_string_cases (L "Pid: ") s) as [(r & -> & E)|[NP E]]; rewrite E.
    + split; [|reflexivity]. intros _. right. left. eexists. reflexivity.
    + cbn [Nat.eqb negb]. assert (K1 : L "CPU" <> []) by discriminate. assert (K2 : L "irq event stamp" <> []) by discriminate. assert (ND : Forall (fun c => ~ digit_char c) (L " :")) by (repeat constructor; intros H; apply H; reflexivity).
      destruct (keyword_number_cases (L "CPU") s) as [[C (r & E2)]|(NC & r & PK & E2)]; [discriminate|exact ND| |]; rewrite E2.
      * split; [auto|reflexivity].
      * destruct (keyword_number_cases (L "irq event stamp") r) as [[C (r2 & E3)]|(NC2 & r2 & PK2 & E3)]; [discriminate|exact ND| |]; rewrite E3.
        -- split; [|reflexivity]. intros _. right. right. right. exists r. split; [exact PK|]. left. exact C.
        -- assert (FR : (exists r0, timestamp s r0) \/ begins (L "Pid: ") s \/ counted (L "CPU") s \/
              (exists r0, past_keyword (L "CPU") s r0 /\ (counted (L "irq event stamp") r0 \/
                exists q d t, past_keyword (L "irq event stamp") r0 q /\ q = L "CR2: " ++ d :: t /\ hexadecimal_digit d <> None)) ->
              exists d t, r2 = L "CR2: " ++ d :: t /\ hexadecimal_digit d <> None).
           { intros [[r0 H]|[H|[H|(r0 & H & [H'|(q & d & t & H' & -> & D)])]]]; [destruct (NT _ H)|contradiction|contradiction| |].
             - rewrite (past_fun _ _ _ _ K1 H PK) in H'. contradiction.
             - rewrite (past_fun _ _ _ _ K1 H PK) in H'. rewrite <- (past_fun _ _ _ _ K2 H' PK2). eauto. }
           destruct (skip_string_cases (L "CR2: ") r2) as [(r3 & -> & E4)|[N4 E4]]; rewrite E4.
           ++ change (length (L "CR2: ") =? 0) with false. cbn iota. unfold sr_skip_hexadecimal_uint.
              destruct (sr_skip_char_span hexdigits r3) as [n r4] eqn:E5. apply (span_inv _ _ _ _ _ hex_in) in E5 as (ds & -> & -> & D & NR). destruct ds as [|d ds].
              ** cbn [length Nat.eqb]. split; [discriminate|]. intros H. exfalso. apply FR in H as (d & t & E6 & Dd). apply app_inv_head in E6. cbn [app] in E6. subst r4. contradiction.
              ** cbn [length Nat.eqb]. split; [|reflexivity]. intros _. right. right. right. exists r. split; [exact PK|]. right. exists (L "CR2: " ++ (d :: ds) ++ r4), d, (ds ++ r4).
                 split; [exact PK2|]. split; [reflexivity|]. inversion D; assumption.
           ++ cbn [Nat.eqb]. split; [discriminate|]. intros H. exfalso. apply FR in H as (d & t & -> & _). apply N4. eexists. reflexivity.
Qed.
Lemma continues_true s : module_list_continues s = true <-> ~ list_ends s.
Proof. rewrite <- continues_iff. destruct (module_list_continues s); split; congruence. Qed.

Lemma spaces_then_iff s n r : sr_skip_char_span blanks s = (n, r) -> spaces_then s (negb (n =? 0)) r.
Proof.
  intros H. split; [apply gap_span; eauto|]. apply skip_span_iff in H as (ws & -> & -> & _). destruct ws as [|c ws]; cbn [length Nat.eqb negb app].
  - split; reflexivity.
  - split; [discriminate|]. intros H. exfalso. assert (length r = length (c :: ws ++ r)) by congruence. cbn [length] in *. rewrite app_length in *. lia.
Qed.
Lemma spaces_then_eval s b r : spaces_then s b r -> exists n, sr_skip_char_span blanks s = (n, r) /\ (n =? 0) = negb b.
Proof.
  intros [G H]. apply gap_span in G as (n & E). exists n. split; [exact E|]. apply spaces_then_iff in E as [_ E].
  destruct (n =? 0) eqn:En; cbn [negb] in E; destruct b; cbn [negb]; try reflexivity.
  - exfalso. destruct H as [_ H]. specialize (H (proj1 E eq_refl)). discriminate.
  - exfalso. destruct E as [_ E]. specialize (E (proj1 H eq_refl)). discriminate.
Qed.
Lemma store_ok size (l : list str) : length l < size -> store size l = Ok tt.
Proof. intros H. unfold store. apply Nat.ltb_lt in H. rewrite H. reflexivity. Qed.
Lemma grown (l : list str) size m : length l < size -> let size' := if length l =? size - 1 then size * 2 else size in length l < size' /\ length (l ++ [m]) < size'.
Proof. intros H. cbv zeta. rewrite app_length. cbn [length]. destruct (Nat.eqb_spec (length l) (size - 1)); lia. Qed.
Lemma removelast_snoc {A} (l : list A) x : removelast (l ++ [x]) = l.
Proof. apply removelast_last. Qed.
Lemma no_module_cspan s : no_module s -> sr_parse_char_cspan module_stop s = None.
Proof. intros H. apply cspan_none. exact H. Qed.
Lemma module_name_cspan m q : module_name m -> no_module q -> sr_parse_char_cspan module_stop (m ++ q) = Some (m, q).
Proof. intros [NE W] H. apply cspan_iff. split; [reflexivity|]. split; [exact NE|]. split; [exact W|exact H]. Qed.
Lemma gap_spaces_le s b r : spaces_then s b r -> length r <= length s.
Proof. intros [G _]. apply gap_le, G. Qed.
Lemma modules_eval spaced ms s ms' rest : module_list spaced ms s ms' rest -> forall fuel size ws, length s < fuel -> length ms < size -> (ws =? 0) = negb spaced ->
  modules_loop fuel size ms ws s = Ok (ms', rest).
Proof.
  induction 1 as [spaced ms s m q spaced' r ms' rest -> M NM ST ML IH|ms m q t u spaced' r ms' rest NL -> M NM ST ML IH|ms m q NL NM NB|spaced ms q spaced' r ms' rest NL C ST ML IH|spaced ms q LE|spaced ms s NM NB];
    intros fuel size ws F SZ W; (destruct fuel as [|fuel]; [lia|]); cbn [modules_loop].
  - rewrite module_name_cspan by assumption. cbv zeta. destruct (grown ms size m SZ) as [S1 S2]. rewrite store_ok by exact S1. cbn [bind].
    pose proof (gap_spaces_le _ _ _ ST) as Hle. apply spaces_then_eval in ST as (n & E & En). rewrite E. apply IH; [|exact S2|exact En].
    rewrite app_length in F. destruct m; [destruct M; congruence|]. cbn [length] in F. lia.
  - rewrite no_module_cspan by (cbn; auto 10). change (Ascii.eqb (cur (nl :: t ++ u)) nl) with true. cbn iota. cbn [advance bind].
    rewrite (proj2 (continues_true _) NL). cbn [negb].
    assert (NS : Ascii.eqb (cur (t ++ u)) sp = false).
    { destruct t as [|c t]; [destruct M; congruence|]. cbn [app cur hd]. destruct (Ascii.eqb_spec c sp) as [->|]; [|reflexivity]. exfalso. destruct M as [_ M]. inversion M as [|? ? Hc _]; subst. apply Hc. left. reflexivity. }
    cbv zeta. rewrite NS, W, app_length. cbn [negb length andb]. replace (0 <? length ms + 1) with true by (symmetry; apply Nat.ltb_lt; lia). cbn [andb].
    rewrite module_name_cspan by assumption. pose proof (gap_spaces_le _ _ _ ST) as Hle. apply spaces_then_eval in ST as (n & E & En). rewrite E. rewrite removelast_snoc, last_last.
    apply IH; [|rewrite app_length in *; cbn [length] in *; lia|exact En]. cbn [length] in F. rewrite app_length in F. lia.
  - rewrite no_module_cspan by (cbn; auto 10). change (Ascii.eqb (cur (nl :: q)) nl) with true. cbn iota. cbn [advance bind].
    rewrite (proj2 (continues_true _) NL). cbn [negb]. cbv zeta.
    assert (NS : Ascii.eqb (cur q) sp = false).
    { destruct q as [|c q]; [reflexivity|]. cbn [cur hd]. destruct (Ascii.eqb_spec c sp) as [->|]; [|reflexivity]. exfalso. apply NB. exists q. reflexivity. }
    rewrite NS, W, app_length. cbn [negb length andb]. replace (0 <? length ms + 1) with true by (symmetry; apply Nat.ltb_lt; lia). cbn [andb].
    rewrite no_module_cspan by exact NM. rewrite store_ok by exact SZ. reflexivity.
  - rewrite no_module_cspan by (cbn; auto 10). change (Ascii.eqb (cur (nl :: q)) nl) with true. cbn iota. cbn [advance bind].
    rewrite (proj2 (continues_true _) NL). cbn [negb]. cbv zeta.
    replace (negb (Ascii.eqb (cur q) sp) && (ws =? 0) && (0 <? length ms)) with false.
    + pose proof (gap_spaces_le _ _ _ ST) as Hle. apply spaces_then_eval in ST as (n & E & En). rewrite E. apply IH; [cbn [length] in F; lia|exact SZ|exact En].
    + symmetry. rewrite W. destruct C as [->|[->|[t ->]]]; [rewrite andb_false_r; reflexivity|apply andb_false_r|reflexivity].
  - rewrite no_module_cspan by (cbn; auto 10). change (Ascii.eqb (cur (nl :: q)) nl) with true. cbn iota. cbn [advance bind].
    rewrite (proj2 (continues_iff _) LE). cbn [negb]. rewrite store_ok by exact SZ. reflexivity.
  - rewrite no_module_cspan by exact NM. replace (Ascii.eqb (cur s) nl) with false; [rewrite store_ok by exact SZ; reflexivity|].
    symmetry. destruct s as [|c s]; [reflexivity|]. cbn [cur hd]. apply ascii_eqb_false. intros ->. apply NB. exists s. reflexivity.
Qed.
Lemma module_or_stop s : (exists m q, s = m ++ q /\ module_name m /\ no_module q) \/ no_module s.
Proof.
  destruct (sr_parse_char_cspan module_stop s) as [[m q]|] eqn:E.
  - apply cspan_iff in E as (-> & NE & W & N). left. exists m, q. split; [reflexivity|]. split; [split; assumption|exact N].
  - right. apply cspan_none in E. exact E.
Qed.
Lemma spaces_then_total s : exists b r, spaces_then s b r.
Proof. destruct (sr_skip_char_span blanks s) as [n r] eqn:E. eexists _, r. apply (spaces_then_iff _ _ _ E). Qed.
Lemma list_ends_dec s : list_ends s \/ ~ list_ends s.
Proof. destruct (module_list_continues s) eqn:E; [right; apply continues_true, E|left; apply continues_iff, E]. Qed.
Lemma modules_total : forall n s, length s <= n -> forall spaced ms, exists ms' rest, module_list spaced ms s ms' rest.
Proof.
  induction n as [|n IH]; intros s Hn spaced ms.
  { destruct s; [|cbn in Hn; lia]. exists ms, []. apply ml_stop; [exact Logic.I|]. intros [r E]. discriminate. }
  destruct (module_or_stop s) as [(m & q & -> & M & NM)|NM].
  - destruct (spaces_then_total q) as (b & r & ST). destruct (IH r) with (spaced := b) (ms := ms ++ [m]) as (ms' & rest & ML).
    + pose proof (gap_spaces_le _ _ _ ST). rewrite app_length in Hn. destruct m; [destruct M; congruence|]. cbn [length] in Hn. lia.
    + exists ms', rest. eapply ml_name; [reflexivity|exact M|exact NM|exact ST|exact ML].
  - destruct (begins_dec [nl] s) as [[q ->]|NB]; [|exists ms, s; apply ml_stop; assumption]. cbn [app] in *. cbn [length] in Hn.
    destruct (list_ends_dec q) as [LE|NL]; [exists ms, (nl :: q); apply ml_over, LE|].
    assert (K : spaced = true \/ ms = [] \/ begins (L " ") q -> exists ms' rest, module_list spaced ms (nl :: q) ms' rest).
    { intros C. destruct (spaces_then_total q) as (b & r & ST). destruct (IH r) with (spaced := b) (ms := ms) as (ms' & rest & ML).
      - pose proof (gap_spaces_le _ _ _ ST). lia.
      - exists ms', rest. eapply ml_next; [exact NL|exact C|exact ST|exact ML]. }
    destruct spaced; [apply K; auto|]. destruct (begins_dec (L " ") q) as [B|NB]; [apply K; auto|].
    destruct (snoc_cases ms) as [->|(ms0 & m & ->)]; [apply K; auto|]. destruct (module_or_stop q) as [(t & u & -> & M & NM')|NM'].
    + destruct (spaces_then_total u) as (b & r & ST). destruct (IH r) with (spaced := b) (ms := ms0 ++ [m ++ t]) as (ms' & rest & ML).
      * pose proof (gap_spaces_le _ _ _ ST). rewrite app_length in Hn. lia.
      * exists ms', rest. eapply ml_cut; [exact NL|reflexivity|exact M|exact NM'|exact ST|exact ML].
    + exists (ms0 ++ [m]), q. apply ml_cut_short; assumption.
Qed.
Lemma keyword_modules s : (exists q, s = L "Modules linked in:" ++ q /\ sr_skip_string (L "Modules linked in:") s = (18, q)) \/
  (~ begins (L "Modules linked in:") s /\ sr_skip_string (L "Modules linked in:") s = (0, s)).
Proof. destruct (skip_string_cases (L "Modules linked in:") s) as [(r & E & H)|H]; [left; eauto|right; exact H]. Qed.
Lemma modules_text_eval s ms rest : modules_text s ms rest -> sr_koops_stacktrace_parse_modules s = Ok (ms, rest).
Proof.
  intros (t0 & q & spaced & r & G & -> & ST & ML). unfold sr_koops_stacktrace_parse_modules. rewrite (gap_eval _ _ G).
  destruct (keyword_modules (L "Modules linked in:" ++ q)) as [(q' & E & H)|[H _]]; [|exfalso; apply H; eexists; reflexivity]. apply app_inv_head in E. subst q'. rewrite H.
  cbn [Nat.eqb]. apply spaces_then_eval in ST as (n & E & En). rewrite E.
  rewrite (modules_eval _ _ _ _ _ ML) by (cbn [length]; (lia || exact En)). reflexivity.
Qed.
Lemma modules_text_cases s : (exists ms rest, modules_text s ms rest /\ sr_koops_stacktrace_parse_modules s = Ok (ms, rest)) \/
  ((forall ms rest, ~ modules_text s ms rest) /\ sr_koops_stacktrace_parse_modules s = Fail).
Proof.
  destruct (keyword_modules (skip_blanks s)) as [(q & E & H)|[N H]].
  - left. destruct (spaces_then_total q) as (b & r & ST). destruct (modules_total (length r) r (le_n _) b []) as (ms & rest & ML). exists ms, rest.
    assert (M : modules_text s ms rest) by (exists (skip_blanks s), q, b, r; split; [apply gap_self|]; split; [exact E|]; split; assumption).
    split; [exact M|apply modules_text_eval, M].
  - right. split.
    + intros ms rest (t0 & q & b & r & G & E & _). apply N. apply gap_eval in G. rewrite E in G. exists q. exact G.
    + unfold sr_koops_stacktrace_parse_modules. rewrite H. reflexivity.
Qed.
Theorem modules_exact s ms rest : sr_koops_stacktrace_parse_modules s = Ok (ms, rest) <-> modules_text s ms rest.
Proof.
  split; [|apply modules_text_eval]. intros H. destruct (modules_text_cases s) as [(ms' & rest' & M & E)|[_ E]]; [|congruence].
  rewrite E in H. apply ok_inj in H. injection H as <- <-. exact M.
Qed.
Theorem modules_safe s : sr_koops_stacktrace_parse_modules s <> UB.
Proof. destruct (modules_text_cases s) as [(ms & rest & _ & E)|[_ E]]; congruence. Qed.
Lemma module_list_le spaced ms s ms' rest : module_list spaced ms s ms' rest -> length rest <= length s.
Proof.
  induction 1; subst; cbn [length]; repeat rewrite app_length;
    repeat match goal with H : spaces_then _ _ _ |- _ => apply gap_spaces_le in H end; try lia.
Qed.
Lemma modules_le s ms rest : modules_text s ms rest -> length rest < length s.
Proof.
  intros (t0 & q & b & r & G & -> & ST & ML). apply module_list_le in ML. apply gap_spaces_le in ST. apply gap_le in G. rewrite app_length in G.
  change (length (L "Modules linked in:")) with 18 in G. lia.
Qed.
