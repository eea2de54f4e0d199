(** * The gdb parser: source files, frames. *)
From Verif Require Import Base Types UtilsModel UtilsSpec UtilsProofs ParseSpec ParseProofs JsParseProofs PyParseProofs KoopsSpec KoopsProofs KoopsProofs2
  GdbParseModel GdbParseSpec GdbParseProofs GdbParseProofs2 GdbParseProofs3 GdbParseProofs4.
From Verif Require KoopsModel.
Open Scope nat_scope.

(** ** Files *)
Lemma file_char_iff c : In c (sr_alnum ++ L "_/\+.-") <-> file_char c.
Proof. unfold file_char. rewrite in_app_iff, alnum_iff. tauto. Qed.
Lemma file_span s : (exists name r, s = name ++ r /\ name <> [] /\ Forall file_char name /\ match r with [] => True | c :: _ => ~ file_char c end /\
    sr_parse_char_span (sr_alnum ++ L "_/\+.-") s = Some (name, r)) \/
  (match s with [] => True | c :: _ => ~ file_char c end /\ sr_parse_char_span (sr_alnum ++ L "_/\+.-") s = None).
Proof.
  pose proof (parse_span_contract (sr_alnum ++ L "_/\+.-") s) as H. destruct (sr_parse_char_span _ s) as [[name r]|].
  - destruct H as [(-> & Hf & Hr) Hn]. left. exists name, r. split; [reflexivity|]. split; [exact Hn|]. split; [|split; [|reflexivity]].
    + eapply Forall_impl; [|exact Hf]. intros c. apply file_char_iff.
    + destruct r as [|c r]; [exact Logic.I|]. rewrite <- file_char_iff. exact Hr.
  - right. split; [|reflexivity]. destruct H as (_ & _ & H). destruct s as [|c s]; [exact Logic.I|]. rewrite <- file_char_iff. exact H.
Qed.
Lemma file_span_eval name r : name <> [] -> Forall file_char name -> match r with [] => True | c :: _ => ~ file_char c end ->
  sr_parse_char_span (sr_alnum ++ L "_/\+.-") (name ++ r) = Some (name, r).
Proof.
  intros Hn Hf Hr. destruct (file_span (name ++ r)) as [(n & q & E & _ & Hf' & Hr' & ->)|[H _]].
  - destruct (run_fun file_char name r n q) as [-> ->]; auto.
  - destruct name as [|c name]; [congruence|]. inversion Hf. contradiction.
Qed.
Lemma so_end t : str_eqb (skipn (length t - 3) t) (L ".so") = true <-> exists a, t = a ++ L ".so".
Proof.
  rewrite str_eqb_eq. split.
  - intros E. exists (firstn (length t - 3) t). rewrite <- E. symmetry. apply firstn_skipn.
  - intros [a ->]. rewrite app_length. change (length (L ".so")) with 3. replace (length a + 3 - 3) with (length a) by lia. apply skipn_app_exact.
Qed.
Lemma shared_object_iff file : is_shared_object file = true <-> shared_object file.
Proof.
  unfold is_shared_object, shared_object. destruct (KoopsModel.strstr (L "/lib") file) as [t|] eqn:E.
  - apply strstr_some in E as [pre Hp].
    assert (K : match KoopsModel.strstr (L ".so.") t with Some _ => true | None => str_eqb (skipn (length t - 3) t) (L ".so") end = true <-> (exists a b, t = a ++ L ".so." ++ b) \/ exists a, t = a ++ L ".so").
    { destruct (KoopsModel.strstr (L ".so.") t) as [u|] eqn:Eu.
      - apply strstr_some in Eu as (a & Ea & [b ->] & _). split; [intros _; left; eauto|reflexivity].
      - rewrite so_end. split; [auto|]. intros [(a & b & ->)|H]; [|exact H]. exfalso. apply (proj1 (strstr_none _ _) Eu a (L ".so." ++ b) eq_refl). exists b. reflexivity. }
    rewrite K. split.
    + intros H. exists pre, t. auto.
    + intros (pre' & t' & Hp' & H). destruct (first_split_fun _ _ _ _ _ _ Hp Hp') as [_ ->]. exact H.
  - split; [discriminate|]. intros (pre & t & (Ef & Hb & _) & _). exfalso. exact (proj1 (strstr_none _ _) E _ _ Ef Hb).
Qed.
Lemma shared_option name file : file = (if is_shared_object name then None else Some name) <-> (shared_object name /\ file = None) \/ (~ shared_object name /\ file = Some name).
Proof.
  rewrite <- shared_object_iff. destruct (is_shared_object name); split.
  - auto.
  - intros [[_ ->]|[H _]]; [reflexivity|congruence].
  - intros ->. right. split; [discriminate|reflexivity].
  - intros [[H _]|[_ ->]]; [discriminate|reflexivity].
Qed.
Lemma at_not_from s t u : s = L "at" ++ t -> s = L "from" ++ u -> False.
Proof. intros -> E. discriminate E. Qed.
Lemma file_location_iff s file line r : sr_gdb_frame_parse_file_location s = Some (file, line, r) <-> file_location s file line r.
Proof.
  unfold sr_gdb_frame_parse_file_location, file_location. split.
  - destruct (spaces_nl_cases s) as [(n & t1 & H1 & ->)|[_ ->]]; cbn [Nat.eqb]; [|discriminate].
    assert (W : forall n' t2, (let '(n0, r0) := sr_skip_string (L "at") t1 in if n0 =? 0 then sr_skip_string (L "from") t1 else (n0, r0)) = (n', t2) -> (n' =? 0) = false -> t1 = L "at" ++ t2 \/ t1 = L "from" ++ t2).
    { intros n' t2. destruct (skip_string_cases (L "at") t1) as [(u & -> & ->)|[_ ->]].
      - change (length (L "at") =? 0) with false. cbv iota. intros E _. injection E as _ <-. auto.
      - cbn [Nat.eqb]. destruct (skip_string_cases (L "from") t1) as [(u & -> & ->)|[_ ->]].
        + intros E _. injection E as _ <-. auto.
        + intros E K. injection E as <- _. discriminate K. }
    destruct (sr_skip_string (L "at") t1) as [n0 r0]. destruct (if n0 =? 0 then sr_skip_string (L "from") t1 else (n0, r0)) as [n' t2]. destruct (n' =? 0) eqn:En; [discriminate|].
    specialize (W n' t2 eq_refl En).
    destruct (spaces_cases t2) as [(k & t3 & H3 & ->)|[_ ->]]; cbn [Nat.eqb]; [|discriminate].
    destruct (file_span t3) as [(name & t4 & -> & Hn & Hf & Hr & ->)|[_ ->]]; [|discriminate].
    intros H. exists t1, t2, (name ++ t4), name, t4. split; [exact H1|]. split; [exact W|]. split; [exact H3|]. repeat (split; [assumption || reflexivity|]).
    destruct (skip_char_cases ":" t4) as [(t5 & -> & E)|[Hb E]]; rewrite E in H.
    + destruct (decimal_cases t5) as [(v & m & q & Hd & Ed)|[_ Ed]]; rewrite Ed in H; [|discriminate]. injection H as <- <- <-. split; [apply shared_option; reflexivity|]. left. exists v, t5. auto.
    + injection H as <- <- <-. split; [apply shared_option; reflexivity|]. right. auto.
  - intros (t1 & t2 & t3 & name & t4 & H1 & W & H3 & -> & Hn & Hf & Hr & Hs & H). apply spaces_nl_eval in H1 as [n ->]. cbn [Nat.eqb].
    assert (E : exists m, (let '(n0, r0) := sr_skip_string (L "at") t1 in if n0 =? 0 then sr_skip_string (L "from") t1 else (n0, r0)) = (S m, t2)).
    { destruct W as [->| ->].
      - rewrite skip_lit. exists 1. reflexivity.
      - rewrite (skip_not (L "at")) by (intros [q E]; discriminate E). cbn [Nat.eqb]. rewrite skip_lit. exists 3. reflexivity. }
    destruct E as [m E]. destruct (sr_skip_string (L "at") t1) as [n0 r0]. rewrite E. cbn [Nat.eqb]. apply spaces_eval in H3 as [k ->]. cbn [Nat.eqb].
    rewrite (file_span_eval _ _ Hn Hf Hr). apply shared_option in Hs. destruct H as [(v & t5 & -> & Hd & ->)|(Hb & -> & ->)].
    + change (L ":" ++ t5) with (":"%char :: t5). rewrite skip_char_here. cbv iota. apply decimal_iff in Hd as [l ->]. subst file. reflexivity.
    + destruct (skip_char_cases ":" t4) as [(t5 & -> & _)|[_ ->]]; [exfalso; apply Hb; exists t5; reflexivity|]. subst file. reflexivity.
Qed.
Lemma location_cases s : (exists file line r, file_location s file line r /\ sr_gdb_frame_parse_file_location s = Some (file, line, r)) \/
  ((forall file line r, ~ file_location s file line r) /\ sr_gdb_frame_parse_file_location s = None).
Proof.
  destruct (sr_gdb_frame_parse_file_location s) as [[[f l] r]|] eqn:E.
  - left. exists f, l, r. split; [apply file_location_iff; exact E|reflexivity].
  - right. split; [|reflexivity]. intros f l r H. apply file_location_iff in H. congruence.
Qed.

(** ** Headers *)
Lemma frame_start_iff s n r : sr_gdb_frame_parse_frame_start s = Some (Z.of_N n, r) <-> frame_start s n r.
Proof.
  unfold sr_gdb_frame_parse_frame_start, frame_start. split.
  - destruct (skip_char_cases "#" s) as [(t1 & -> & ->)|[_ ->]]; cbn [negb]; [|discriminate].
    destruct (decimal_cases t1) as [(v & k & t2 & Hd & ->)|[_ ->]]; [|discriminate].
    destruct (spaces_cases t2) as [(m & q & Hs & ->)|[_ ->]]; cbn [Nat.eqb]; [|discriminate]. intros E. injection E as E <-. assert (v = n) as -> by lia. exists t1, t2. auto.
  - intros (t1 & t2 & -> & Hd & Hs). change (L "#" ++ t1) with ("#"%char :: t1). rewrite skip_char_here. cbn [negb]. apply decimal_iff in Hd as [k ->]. apply spaces_eval in Hs as [m ->]. reflexivity.
Qed.
Lemma frame_start_some s x r : sr_gdb_frame_parse_frame_start s = Some (x, r) -> exists n, x = Z.of_N n /\ frame_start s n r.
Proof.
  intros E. assert (exists n, x = Z.of_N n) as [n ->].
  { unfold sr_gdb_frame_parse_frame_start in E. destruct (sr_skip_char "#" s) as [[] t]; cbn [negb] in E; [|discriminate].
    destruct (sr_parse_uint32 t) as [[[v k] q]|]; [|discriminate]. destruct (sr_skip_char_sequence sp q) as [m u]. destruct (m =? 0); [discriminate|]. injection E as <- _. eauto. }
  exists n. split; [reflexivity|]. apply frame_start_iff. exact E.
Qed.
Lemma frame_start_fun s n r n' r' : frame_start s n r -> frame_start s n' r' -> n = n' /\ r = r'.
Proof. intros H H'. apply frame_start_iff in H, H'. rewrite H in H'. injection H' as E ->. split; [lia|reflexivity]. Qed.
Lemma located_fun s a n t r a' n' t' r' : located_call s a n t r -> located_call s a' n' t' r' -> a = a' /\ n = n' /\ t = t' /\ r = r'.
Proof. intros H H'. apply located_eval in H, H'. rewrite H in H'. injection H' as -> -> -> ->. auto. Qed.
Lemma located_not_off s a n t r : located_call s a n t r -> ~ located_call_off s.
Proof. intros H H'. apply located_eval in H. apply located_off_eval in H' as [b H']. congruence. Qed.
Lemma location_fun s f l r f' l' r' : file_location s f l r -> file_location s f' l' r' -> f = f' /\ l = l' /\ r = r'.
Proof. intros H H'. apply file_location_iff in H, H'. rewrite H in H'. injection H' as -> -> ->. auto. Qed.
Definition signal_text : str := L "<signal handler called>".
Lemma signal_no_call s n t r : begins signal_text s -> ~ function_call s n t r.
Proof.
  intros [q ->] (u & v & H & _). destruct H as [(E & _)|(_ & w & c & x & added & c1 & t1 & E & Hw & _)]; [discriminate E|].
  destruct Hw as [(y & w' & -> & [Hy _] & _)|[[[w' ->]|[w' ->]] _]]; [|discriminate E|discriminate E]. injection E as <- _. apply start_iff in Hy. discriminate Hy.
Qed.
Lemma call_of_angle s n t r : function_call s n t r -> ~ begins signal_text s.
Proof. intros H Hb. exact (signal_no_call _ _ _ _ Hb H). Qed.
Theorem header_cases s :
  match sr_gdb_frame_parse_header s with
  | Ok (f, r) => frame_header s f r
  | UB => frame_header_off s
  | Fail => (forall f r, ~ frame_header s f r) /\ ~ frame_header_off s
  end.
Proof.
  unfold sr_gdb_frame_parse_header. destruct (sr_gdb_frame_parse_frame_start s) as [[x t]|] eqn:E0.
  2:{ split; [intros f r (n & t & H & _)|intros (n & t & H & _)]; apply frame_start_iff in H; congruence. }
  apply frame_start_some in E0 as (n & -> & H0).
  destruct (sr_gdb_frame_parse_address_in_function t) as [a x] eqn:E1. apply located_cases in E1 as [Ha H1]. destruct x as [[[name type] u]| |].
  - destruct (location_cases u) as [(file & line & r & Hl & ->)|[Hl ->]].
    + exists n, t. split; [exact H0|]. left. exists a, name, type, u, file, line. auto.
    + exists n, t. split; [exact H0|]. left. exists a, name, type, u, None, no_line. split; [exact H1|]. split; [right; auto|reflexivity].
  - destruct H1 as [H1 H1'].
    destruct (call_cases t) as [(name & type & u & Hc & ->)|[[Hc ->]|(Hc & Hc' & ->)]].
    + destruct (location_cases u) as [(file & line & r & Hl & ->)|[Hl ->]].
      * exists n, t. split; [exact H0|]. right. split; [exact H1|]. split; [exact H1'|]. exists a. split; [exact Ha|]. left. exists name, type, u, file, line. auto.
      * split.
        -- intros f r (n' & t' & H0' & H). destruct (frame_start_fun _ _ _ _ _ H0 H0') as [<- <-].
           destruct H as [(b & nm & ty & v & fi & li & Hb & _)|(_ & _ & b & _ & [(nm & ty & v & fi & li & Hv & Hl' & _)|(Hs & _)])].
           ++ exact (H1 _ _ _ _ Hb).
           ++ destruct (call_fun _ _ _ _ _ _ _ Hc Hv) as (_ & _ & ->). exact (Hl _ _ _ Hl').
           ++ eapply call_of_angle; [exact Hc|]. exists r. exact Hs.
        -- intros (n' & t' & H0' & H). destruct (frame_start_fun _ _ _ _ _ H0 H0') as [<- <-]. destruct H as [H|[_ H]]; [exact (H1' H)|exact (call_not_off _ _ _ _ Hc H)].
    + exists n, t. split; [exact H0|]. right. auto.
    + destruct (skip_string_cases (L "<signal handler called>") t) as [(r & -> & ->)|[Hs ->]].
      * change (0 <? length (L "<signal handler called>")) with true. cbv iota. exists n, (L "<signal handler called>" ++ r). split; [exact H0|]. right. split; [exact H1|]. split; [exact H1'|].
        exists a. split; [exact Ha|]. right. auto.
      * cbn [Nat.ltb Nat.leb]. split.
        -- intros f r (n' & t' & H0' & H). destruct (frame_start_fun _ _ _ _ _ H0 H0') as [<- <-].
           destruct H as [(b & nm & ty & v & fi & li & Hb & _)|(_ & _ & b & _ & [(nm & ty & v & fi & li & Hv & Hl' & _)|(Hs' & _)])].
           ++ exact (H1 _ _ _ _ Hb).
           ++ exact (Hc _ _ _ Hv).
           ++ apply Hs. exists r. exact Hs'.
        -- intros (n' & t' & H0' & H). destruct (frame_start_fun _ _ _ _ _ H0 H0') as [<- <-]. destruct H as [H|[_ H]]; [exact (H1' H)|exact (Hc' H)].
  - exists n, t. split; [exact H0|]. left. exact H1.
Qed.
Lemma header_fun s f r f' r' : frame_header s f r -> frame_header s f' r' -> f = f' /\ r = r'.
Proof.
  intros (n & t & H0 & H) (n' & t' & H0' & H'). destruct (frame_start_fun _ _ _ _ _ H0 H0') as [<- <-].
  destruct H as [(a & nm & ty & u & fi & li & Hc & Hl & ->)|(N & _ & a & Ha & H)];
  destruct H' as [(a' & nm' & ty' & u' & fi' & li' & Hc' & Hl' & ->)|(N' & _ & a' & Ha' & H')].
  - destruct (located_fun _ _ _ _ _ _ _ _ _ Hc Hc') as (-> & -> & -> & ->).
    destruct Hl as [Hl|(Hl & -> & -> & ->)], Hl' as [Hl'|(Hl' & -> & -> & ->)].
    + destruct (location_fun _ _ _ _ _ _ _ Hl Hl') as (-> & -> & ->). auto.
    + exfalso. exact (Hl' _ _ _ Hl).
    + exfalso. exact (Hl _ _ _ Hl').
    + auto.
  - exfalso. exact (N' _ _ _ _ Hc).
  - exfalso. exact (N _ _ _ _ Hc').
  - rewrite (address_read_fun _ _ _ Ha Ha') in *.
    destruct H as [(nm & ty & u & fi & li & Hc & Hl & ->)|(Hs & ->)], H' as [(nm' & ty' & u' & fi' & li' & Hc' & Hl' & ->)|(Hs' & ->)].
    + destruct (call_fun _ _ _ _ _ _ _ Hc Hc') as (-> & -> & ->). destruct (location_fun _ _ _ _ _ _ _ Hl Hl') as (-> & -> & ->). auto.
    + exfalso. eapply call_of_angle; [exact Hc|]. exists r'. exact Hs'.
    + exfalso. eapply call_of_angle; [exact Hc'|]. exists r. exact Hs.
    + rewrite Hs in Hs'. apply app_inv_head in Hs'. auto.
Qed.
Lemma header_not_off s f r : frame_header s f r -> ~ frame_header_off s.
Proof.
  intros (n & t & H0 & H) (n' & t' & H0' & H'). destruct (frame_start_fun _ _ _ _ _ H0 H0') as [<- <-].
  destruct H as [(a & nm & ty & u & fi & li & Hc & _ & _)|(N & No & a & Ha & H)], H' as [Ho|[N' Ho]].
  - exact (located_not_off _ _ _ _ _ Hc Ho).
  - exact (N' _ _ _ _ Hc).
  - exact (No Ho).
  - destruct H as [(nm & ty & u & fi & li & Hc & _)|(Hs & _)]; [exact (call_not_off _ _ _ _ Hc Ho)|].
    destruct Ho as [Ho|(nm & ty & u & Hn & _)].
    + destruct Ho as [_ [Ho|(v & c & x & ad & c1 & t1 & E & Hv & _)]].
      * destruct Ho as [(c & q & E & [Hc _] & _)|[[[q E]|[q E]] _]]; rewrite E in Hs; try discriminate Hs. injection Hs as -> _. apply start_iff in Hc. discriminate Hc.
      * rewrite E in Hs. destruct Hv as [(y & w' & -> & [Hy _] & _)|[[[w' ->]|[w' ->]] _]]; [|discriminate Hs|discriminate Hs]. injection Hs as -> _. apply start_iff in Hy. discriminate Hy.
    + destruct Hn as [(E & _)|(_ & w & c & x & added & c1 & t1 & E & Hw & _)]; [rewrite E in Hs; discriminate Hs|].
      rewrite E in Hs. destruct Hw as [(y & w' & -> & [Hy _] & _)|[[[w' ->]|[w' ->]] _]]; [|discriminate Hs|discriminate Hs]. injection Hs as -> _. apply start_iff in Hy. discriminate Hy.
Qed.
Theorem header_exact s : (forall f r, sr_gdb_frame_parse_header s = Ok (f, r) <-> frame_header s f r) /\ (sr_gdb_frame_parse_header s = UB <-> frame_header_off s).
Proof.
  pose proof (header_cases s) as H. destruct (sr_gdb_frame_parse_header s) as [[f r]| |].
  - split; [intros g q; split; [intros E; injection E as <- <-; exact H|]|split; [discriminate|]].
    + intros H'. destruct (header_fun _ _ _ _ _ H H') as [-> ->]. reflexivity.
    + intros H'. exfalso. exact (header_not_off _ _ _ H H').
  - destruct H as [H1 H2]. split; [intros g q|]; (split; [discriminate|]); [intros H; exfalso; exact (H1 _ _ H)|contradiction].
  - split; [intros g q; split; [discriminate|]|split; auto]. intros H'. exfalso. exact (header_not_off _ _ _ H' H).
Qed.

(** ** Frames *)
Definition entry_at (t : str) : Prop := begins (nl :: L "#") t \/ begins (nl :: L "Thread") t.
Lemma entry_test t : starts_with (nl :: L "#") t || starts_with (nl :: L "Thread") t = true <-> entry_at t.
Proof. rewrite orb_true_iff, !starts_with_iff. reflexivity. Qed.
Lemma find_cases s : (exists pre r, first_split entry_at s pre (nl :: r) /\ findfirstabnul s (nl :: L "#") (nl :: L "Thread") = nl :: r) \/
  ((forall pre t, s = pre ++ t -> ~ entry_at t) /\ findfirstabnul s (nl :: L "#") (nl :: L "Thread") = []).
Proof.
  induction s as [|c s IH].
  - right. split; [|reflexivity]. intros pre t E. destruct pre; [|discriminate E]. cbn in E. subst t. intros [[r E]|[r E]]; discriminate E.
  - cbn [findfirstabnul]. destruct (starts_with (nl :: L "#") (c :: s) || starts_with (nl :: L "Thread") (c :: s)) eqn:E.
    + left. apply entry_test in E as He. assert (c = nl) as -> by (destruct He as [[r Er]|[r Er]]; injection Er as -> _; reflexivity).
      exists [], s. split; [|destruct (starts_with (nl :: L "#") (nl :: s)); [reflexivity|]; cbn [orb] in E; rewrite E; reflexivity].
      split; [reflexivity|]. split; [exact He|]. intros; cbn; lia.
    + assert (He : ~ entry_at (c :: s)) by (intros H; apply entry_test in H; congruence). apply orb_false_iff in E as [-> ->].
      destruct IH as [(pre & r & (-> & Hr & M) & ->)|[H ->]].
      * left. exists (c :: pre), r. split; [|reflexivity]. split; [reflexivity|]. split; [exact Hr|]. intros [|x p] q Eq Hq; [cbn in Eq; subst q; contradiction|].
        injection Eq as <- Eq. specialize (M p q Eq Hq). cbn [length]. lia.
      * right. split; [|reflexivity]. intros [|x p] q Eq; [cbn in Eq; subst q; exact He|]. injection Eq as <- Eq. exact (H p q Eq).
Qed.
Definition skip_entry (s : str) : str := match findfirstabnul s (nl :: L "#") (nl :: L "Thread") with [] => [] | _ :: r => r end.
Lemma next_entry_iff s r : skip_entry s = r <-> next_entry s r.
Proof.
  unfold skip_entry, next_entry. fold entry_at. destruct (find_cases s) as [(pre & q & H & ->)|[H ->]].
  - split.
    + intros <-. left. exists pre. exact H.
    + intros [[pre' H']|[N _]]; [destruct (first_split_fun _ _ _ _ _ _ H H') as [_ E]; congruence|].
      exfalso. destruct H as (E & He & _). destruct (N _ _ E) as [N1 N2]. destruct He; contradiction.
  - split.
    + intros <-. right. split; [|reflexivity]. intros p t E. specialize (H p t E). unfold entry_at in H. tauto.
    + intros [[pre' (E & He & _)]|[_ ->]]; [exfalso; exact (H _ _ E He)|reflexivity].
Qed.
Lemma frame_steps s : sr_gdb_frame_parse s = do (f, q) <- sr_gdb_frame_parse_header s; Ok (f, skip_entry s).
Proof. unfold sr_gdb_frame_parse, skip_entry. destruct (sr_gdb_frame_parse_header s) as [[f q]| |]; [|reflexivity|reflexivity]. cbn [bind]. destruct (findfirstabnul _ _ _); reflexivity. Qed.
Theorem frame_exact s : (forall f r, sr_gdb_frame_parse s = Ok (f, r) <-> gdb_frame_text s f r) /\ (sr_gdb_frame_parse s = UB <-> frame_header_off s).
Proof.
  destruct (header_exact s) as [H1 H2]. rewrite frame_steps. unfold gdb_frame_text. split; [intros f r; split|split].
  - destruct (sr_gdb_frame_parse_header s) as [[g q]| |]; cbn [bind]; [|discriminate|discriminate]. intros E. injection E as <- <-. split; [exists q; apply H1; reflexivity|apply next_entry_iff; reflexivity].
  - intros [[q H] Hn]. apply H1 in H. rewrite H. cbn [bind]. apply next_entry_iff in Hn. rewrite Hn. reflexivity.
  - destruct (sr_gdb_frame_parse_header s) as [[g q]| |]; cbn [bind]; [discriminate|discriminate|]. intros _. apply H2. reflexivity.
  - intros H. apply H2 in H. rewrite H. reflexivity.
Qed.
