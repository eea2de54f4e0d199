(** * Proofs about the V8 parser. *)
From Verif Require Import Base Types UtilsSpec UtilsModel UtilsProofs JsonModel RpmProofs4 TextModel ParseSpec ParseModel ParseProofs RubyParseProofs JsParseModel JsParseSpec.
Open Scope nat_scope.

Notation digits := (Forall (fun c => is_digit c = true)).
Lemma byte_at_mid pre c post : byte_at (pre ++ c :: post) (length pre) = Ok c.
Proof. rewrite byte_at_app. reflexivity. Qed.
Lemma back_digits_eq buf lo token : back_digits buf lo token =
  if lo <? token then
    do c <- byte_at buf token;
    if Ascii.eqb c ":" then Ok token else if negb (is_digit c) then Fail else match token with O => UB | S p => back_digits buf lo p end
  else Ok token.
Proof. destruct token; reflexivity. Qed.
(** Going back over digits in [w]. *)
Lemma back_digits_ok pre w post : forall token, S token = length pre + length w -> w <> [] ->
  (exists a ds, a <> [] /\ w = a ++ ":"%char :: ds /\ digits ds /\ back_digits (pre ++ w ++ post) (length pre) token = Ok (length pre + length a)) \/
  ((forall a ds, a <> [] -> w = a ++ ":"%char :: ds -> ~ digits ds) /\
   (back_digits (pre ++ w ++ post) (length pre) token = Ok (length pre) \/ back_digits (pre ++ w ++ post) (length pre) token = Fail)).
Proof.
  revert post. induction w as [|c w IH] using rev_ind; intros post token Ht Hne; [congruence|]. rewrite app_length in Ht. cbn [length] in Ht.
  assert (token = length (pre ++ w)) by (rewrite app_length; lia). clear Ht. subst token.
  assert (Eb : byte_at (pre ++ (w ++ [c]) ++ post) (length (pre ++ w)) = Ok c).
  { replace (pre ++ (w ++ [c]) ++ post) with ((pre ++ w) ++ c :: post) by (rewrite <- !app_assoc; reflexivity). apply byte_at_mid. }
  pose proof (back_digits_eq (pre ++ (w ++ [c]) ++ post) (length pre) (length (pre ++ w))) as U.
  destruct w as [|x w].
  - right. split. { intros a ds Ha E Hd. destruct a as [|y [|z a]]; [congruence|discriminate E|discriminate E]. }
    left. rewrite app_nil_r, Nat.ltb_irrefl in U. rewrite app_nil_r. exact U.
  - set (w' := x :: w) in *. assert (Hl : length pre <? length (pre ++ w') = true) by (apply Nat.ltb_lt; rewrite app_length; cbn; lia).
    rewrite Hl, Eb in U. cbn [bind] in U.
    destruct (Ascii.eqb c ":") eqn:Ec.
    + apply Ascii.eqb_eq in Ec. subst c. left. exists w', []. split; [discriminate|]. split; [reflexivity|]. split; [constructor|]. rewrite U, app_length. reflexivity.
    + assert (Hnc : c <> ":"%char) by (intros ->; discriminate).
      assert (Hsplit : forall a ds, w' ++ [c] = a ++ ":"%char :: ds -> exists ds', ds = ds' ++ [c] /\ w' = a ++ ":"%char :: ds').
      { intros a ds E. destruct (snoc_cases ds) as [->|(ds' & y & ->)].
        - exfalso. apply app_inj_tail in E as [_ E]. congruence.
        - rewrite app_comm_cons, app_assoc in E. apply app_inj_tail in E as [E ->]. eauto. }
      destruct (is_digit c) eqn:Ed; cbn [negb] in U.
      * destruct (length (pre ++ w')) as [|p] eqn:Ep; [cbn in Hl; discriminate|].
        destruct (IH (c :: post) p) as [(a & ds & Ha & Ew & Hds & Ebk)|[Hno Ebk]]; [rewrite app_length in Ep; lia|discriminate| |].
        -- left. exists a, (ds ++ [c]). split; [exact Ha|]. split; [rewrite Ew, <- app_assoc; reflexivity|]. split; [apply Forall_app; auto|]. rewrite U, <- app_assoc. exact Ebk.
        -- right. split; [intros a ds Ha E Hds; destruct (Hsplit _ _ E) as (ds' & -> & E'); apply Forall_app in Hds as [Hds _]; exact (Hno _ _ Ha E' Hds)|].
           rewrite U, <- app_assoc. exact Ebk.
      * right. split; [|right; exact U]. intros a ds Ha E Hds. destruct (Hsplit _ _ E) as (ds' & -> & E'). apply Forall_app in Hds as [_ Hds]. inversion Hds; congruence.
Qed.
Lemma text_at_app a b : text_at (a ++ b) (length a) = Ok b.
Proof. unfold text_at. rewrite app_length. destruct (Nat.ltb_spec (length a + length b) (length a)); [lia|]. rewrite skipn_app_exact. reflexivity. Qed.
Lemma number32_digits ds v : number32 ds v -> digits ds.
Proof. intros [Hn _]. apply numeral_run in Hn as [Hn _]. eapply Forall_impl; [|exact Hn]. intros y Hy. apply is_digit_iff. exact Hy. Qed.
Lemma number32_nonempty ds v : number32 ds v -> ds <> [].
Proof. intros [Hn _]. apply numeral_run in Hn as [_ Hn]. exact Hn. Qed.
Lemma uint32_run ds r : digits ds -> ~ starts_with_digit r ->
  (exists v, number32 ds v /\ sr_parse_uint32 (ds ++ r) = Some (v, length ds, r)) \/ ((forall v, ~ number32 ds v) /\ sr_parse_uint32 (ds ++ r) = None).
Proof.
  intros Hd Hr. destruct (sr_parse_uint32 (ds ++ r)) as [[[v n] r']|] eqn:E.
  - left. exists v. pose proof E as E'. apply uint32_iff in E as (run & E & Hn & -> & Hr'). pose proof (number32_digits _ _ Hn) as Hrun.
    assert (run = ds /\ r' = r) as [-> ->]; [|auto]. clear E' Hn v. revert run E Hrun. induction ds as [|x ds IH]; intros [|y run] E Hrun; cbn in E.
    + auto.
    + subst r. exfalso. apply Hr. cbn. inversion Hrun; subst. apply is_digit_iff. assumption.
    + subst r'. exfalso. apply Hr'. cbn. inversion Hd; subst. apply is_digit_iff. assumption.
    + injection E as -> E. inversion Hd; inversion Hrun; subst. destruct (IH H2 run E H6) as [-> ->]. auto.
  - right. split; [|reflexivity]. intros v Hn. rewrite uint32_none in E. exact (Hr (E _ _ _ eq_refl Hn)).
Qed.
Lemma last_colon a ds a' ds' : digits ds -> digits ds' -> a ++ ":"%char :: ds = a' ++ ":"%char :: ds' -> a = a' /\ ds = ds'.
Proof.
  intros Hd Hd' E. apply (f_equal (@rev _)) in E. rewrite !rev_app_distr in E. cbn in E. rewrite <- !app_assoc in E. cbn in E.
  assert (N : forall l, digits l -> ~ In ":"%char (rev l)) by (intros l Hl Hi; apply in_rev in Hi; rewrite Forall_forall in Hl; specialize (Hl _ Hi); discriminate).
  apply app_at_unique in E as [E1 E2]; auto. apply (f_equal (@rev _)) in E1, E2. rewrite !rev_involutive in E1, E2. auto.
Qed.
Lemma where_iff pre w post cursor x line col : S cursor = length pre + length w -> ~ starts_with_digit post ->
  (js_where (pre ++ w ++ post) (length pre) cursor = Ok (x, line, col) <-> exists path shown, js_where_text w path line col /\ anonymized path shown /\ x = Some shown) /\
  js_where (pre ++ w ++ post) (length pre) cursor <> UB.
Proof.
  intros Hc Hpost. unfold js_where. destruct w as [|x0 w0].
  { assert (Eb : back_digits (pre ++ [] ++ post) (length pre) cursor = Ok cursor) by (rewrite back_digits_eq; replace (length pre <? cursor) with false by (symmetry; apply Nat.ltb_ge; cbn in Hc; lia); reflexivity).
    rewrite Eb. cbn [bind]. destruct (Nat.eqb_spec cursor (length pre)) as [E|E]; [cbn in Hc; lia|]. replace (cursor + 1) with (length pre) by (cbn in Hc; lia).
    rewrite text_at_app. cbn [bind app]. destruct (uint32_run [] post) as [(v & Hn & _)|[_ En]]; [constructor|exact Hpost|destruct (number32_nonempty _ _ Hn eq_refl)|]. cbn [app] in En. rewrite En.
    split; [|discriminate]. split; [discriminate|]. intros (path & shown & (ds & es & E1 & Hp & _) & _). destruct path; [congruence|discriminate E1]. }
  set (w := x0 :: w0) in *. assert (Hw : w <> []) by discriminate. clearbody w.
  assert (No : forall (P : Prop), (forall a es, a <> [] -> w = a ++ ":"%char :: es -> ~ digits es) -> (exists path shown, js_where_text w path line col /\ anonymized path shown /\ x = Some shown) -> P).
  { intros P H (path & shown & (ds & es & E & Hp & Hds & Hes) & _). exfalso. apply (H (path ++ L ":" ++ ds) es); [destruct path; discriminate|rewrite <- !app_assoc; exact E|exact (number32_digits _ _ Hes)]. }
  destruct (back_digits_ok pre w post cursor Hc Hw) as [(a & es & Ha & Ew & Hes & Eb)|[Hno Eb]].
  2:{ destruct Eb as [Eb|Eb]; rewrite Eb; cbn [bind]; rewrite ?Nat.eqb_refl; (split; [split; [discriminate|apply No; exact Hno]|discriminate]). }
  rewrite Eb. cbn [bind]. destruct (Nat.eqb_spec (length pre + length a) (length pre)) as [E|_]; [destruct a; [congruence|cbn in E; lia]|].
  assert (Et : text_at (pre ++ w ++ post) (length pre + length a + 1) = Ok (es ++ post)).
  { rewrite Ew. replace (pre ++ (a ++ ":"%char :: es) ++ post) with ((pre ++ a ++ [":"%char]) ++ es ++ post) by (rewrite <- !app_assoc; reflexivity).
    replace (length pre + length a + 1) with (length (pre ++ a ++ [":"%char])) by (rewrite !app_length; cbn; lia). apply text_at_app. }
  rewrite Et. cbn [bind]. destruct (uint32_run es post Hes Hpost) as [(v & Hv & Ev)|[Hv Ev]]; rewrite Ev.
  2:{ split; [|discriminate]. split; [discriminate|]. intros (path & shown & (ds & es' & E & Hp & Hds & Hes') & _). exfalso. rewrite Ew in E. change (path ++ L ":" ++ ds ++ L ":" ++ es') with (path ++ (":"%char :: ds ++ ":"%char :: es')) in E.
      rewrite app_comm_cons, app_assoc in E. apply last_colon in E as [_ ->]; [|assumption|exact (number32_digits _ _ Hes')]. exact (Hv _ Hes'). }
  destruct (length pre + length a) as [|t] eqn:Elen; [destruct a; [congruence|cbn in Elen; lia]|]. cbn [prev bind].
  assert (Ebuf : pre ++ w ++ post = pre ++ a ++ (":"%char :: es ++ post)) by (rewrite Ew, <- !app_assoc; reflexivity). rewrite Ebuf.
  assert (Inv : forall path, js_where_text w path line col -> exists ds, a = path ++ ":"%char :: ds /\ path <> [] /\ number32 ds line /\ number32 es col).
  { intros path (ds & es' & E & Hp & Hds & Hes'). rewrite Ew in E. change (path ++ L ":" ++ ds ++ L ":" ++ es') with (path ++ (":"%char :: ds ++ ":"%char :: es')) in E.
    rewrite app_comm_cons, app_assoc in E. apply last_colon in E as [-> ->]; [|assumption|exact (number32_digits _ _ Hes')]. eauto. }
  destruct (back_digits_ok pre a (":"%char :: es ++ post) t) as [(p & ds & Hp & Ea & Hds & Eb2)|[Hno Eb2]]; [lia|exact Ha| |].
  2:{ destruct Eb2 as [Eb2|Eb2]; rewrite Eb2; cbn [bind]; rewrite ?Nat.eqb_refl; (split; [split; [discriminate|]|discriminate]).
      all: intros (path & shown & H & _); exfalso; apply Inv in H as (ds & Ea & Hp & Hds & _); exact (Hno _ _ Hp Ea (number32_digits _ _ Hds)). }
  rewrite Eb2. cbn [bind]. destruct (Nat.eqb_spec (length pre + length p) (length pre)) as [E|_]; [destruct p; [congruence|cbn in E; lia]|].
  assert (Et2 : text_at (pre ++ a ++ ":"%char :: es ++ post) (length pre + length p + 1) = Ok (ds ++ ":"%char :: es ++ post)).
  { rewrite Ea. replace (pre ++ (p ++ ":"%char :: ds) ++ ":"%char :: es ++ post) with ((pre ++ p ++ [":"%char]) ++ ds ++ ":"%char :: es ++ post) by (rewrite <- !app_assoc; reflexivity).
    replace (length pre + length p + 1) with (length (pre ++ p ++ [":"%char])) by (rewrite !app_length; cbn; lia). apply text_at_app. }
  rewrite Et2. cbn [bind]. destruct (uint32_run ds (":"%char :: es ++ post) Hds) as [(u & Hu & Eu)|[Hu Eu]]; [cbn; intros H; apply H; reflexivity| |]; rewrite Eu.
  2:{ split; [|discriminate]. split; [discriminate|]. intros (path & shown & H & _). exfalso. apply Inv in H as (ds' & Ea' & _ & Hds' & _). rewrite Ea in Ea'.
      apply last_colon in Ea' as [_ ->]; [exact (Hu _ Hds')|assumption|exact (number32_digits _ _ Hds')]. }
  split; [|discriminate]. replace (length pre + length p - length pre) with (length p) by lia. rewrite skipn_app_exact, Ea, <- app_assoc, firstn_app_exact.
  destruct (anonymized_ok p) as (shown & Es & Hs). rewrite Es. split.
  - intros H. injection H as <- <- <-. exists p, shown. split; [|auto]. exists ds, es. split; [rewrite Ew, Ea, <- !app_assoc; reflexivity|]. auto.
  - intros (path & shown' & H & Hs' & ->). apply Inv in H as (ds' & Ea' & _ & Hds' & Hes'). rewrite Ea in Ea'. apply last_colon in Ea' as [-> ->]; [|assumption|exact (number32_digits _ _ Hds')].
    rewrite (number32_fun _ _ _ Hu Hds'), (number32_fun _ _ _ Hv Hes'), (anonymized_fun _ _ _ Hs Hs'). reflexivity.
Qed.
(** The last character of the line. *)
Lemma back_spaces_eq buf lo cursor : back_spaces buf lo cursor =
  if lo <? cursor then
    do c <- byte_at buf cursor; if Ascii.eqb c sp then match cursor with O => UB | S p => back_spaces buf lo p end else Ok cursor
  else Ok cursor.
Proof. destruct cursor; reflexivity. Qed.
Lemma back_spaces_ok pre x w post : x <> sp -> exists b c t, x :: w = b ++ c :: t /\ spaces t /\ c <> sp /\
  back_spaces (pre ++ (x :: w) ++ post) (length pre) (length pre + length w) = Ok (length pre + length b).
Proof.
  intros Hx. revert post. induction w as [|y w IH] using rev_ind; intros post.
  - exists [], x, []. repeat split; auto; [constructor|]. rewrite back_spaces_eq. cbn [length]. rewrite Nat.add_0_r, Nat.ltb_irrefl. reflexivity.
  - rewrite back_spaces_eq. rewrite app_length. cbn [length]. destruct (Nat.ltb_spec (length pre) (length pre + (length w + 1))); [|lia].
    replace (pre ++ (x :: w ++ [y]) ++ post) with ((pre ++ x :: w) ++ y :: post) by (rewrite <- !app_assoc; cbn; rewrite <- app_assoc; reflexivity).
    replace (length pre + (length w + 1)) with (length (pre ++ x :: w)) by (rewrite app_length; cbn; lia). rewrite byte_at_mid. cbn [bind].
    destruct (Ascii.eqb_spec y sp) as [->|Hy].
    + destruct (length (pre ++ x :: w)) as [|p] eqn:E; [rewrite app_length in E; cbn in E; lia|]. destruct (IH (sp :: post)) as (b & c & t & Ew & Ht & Hc & Eb).
      exists b, c, (t ++ [sp]). split; [rewrite app_comm_cons, Ew, <- app_assoc; reflexivity|]. split; [apply Forall_app; split; [exact Ht|repeat constructor]|]. split; [exact Hc|].
      rewrite <- Eb. rewrite <- app_assoc. f_equal. rewrite app_length in E. cbn in E. lia.
    + exists (x :: w), y, []. split; [reflexivity|]. split; [constructor|]. split; [exact Hy|]. rewrite app_length. reflexivity.
Qed.
Lemma without_In set s : without set s -> forall c, In c s -> ~ In c set.
Proof. intros H. apply Forall_forall. exact H. Qed.
Lemma without_incl s set set' : (forall c, In c set -> In c set') -> without set' s -> without set s.
Proof. intros H. apply Forall_impl. intros c Hc Hi. exact (Hc (H _ Hi)). Qed.
Lemma without_one c s : without [c] s <-> ~ In c s.
Proof.
  unfold without. rewrite Forall_forall. split; [intros H Hi; exact (H _ Hi (or_introl eq_refl))|]. intros H x Hx [->|[]]. contradiction.
Qed.
Lemma skip_cspan_val set a b : without set a -> stops_at set b -> sr_skip_char_cspan set (a ++ b) = (length a, b).
Proof. intros Ha Hb. apply skip_cspan_iff. exists a. auto. Qed.
Lemma function_iff line rest name s3 : ~ In nl line -> stops_at [nl] rest ->
  (js_function (line ++ rest) = Ok (name, s3) <->
   exists ign u, line = name ++ L " " ++ ign ++ L "(" ++ u /\ s3 = u ++ rest /\ name <> [] /\ without [sp] name /\ without (L "(") ign) /\
  js_function (line ++ rest) <> UB.
Proof.
  intros Hl Hr. unfold js_function. destruct (sr_skip_char_cspan [sp; nl] (line ++ rest)) as [n s1] eqn:E1. apply skip_cspan_iff in E1 as (nm & E1 & -> & Hn & Hs1).
  rewrite E1, firstn_app_exact.
  (* uniqueness of the decomposition *)
  assert (Uq : forall name ign u, line = name ++ L " " ++ ign ++ L "(" ++ u -> without [sp] name -> name = nm /\ s1 = L " " ++ ign ++ L "(" ++ u ++ rest).
  { intros name' ign u E Hw. rewrite E, <- !app_assoc in E1.
    assert (S1 : sr_skip_char_cspan [sp; nl] (nm ++ s1) = (length nm, s1)) by (apply skip_cspan_val; assumption).
    assert (S2 : sr_skip_char_cspan [sp; nl] (name' ++ L " " ++ ign ++ L "(" ++ u ++ rest) = (length name', L " " ++ ign ++ L "(" ++ u ++ rest)).
    { apply skip_cspan_val; [|left; reflexivity]. apply Forall_forall. intros c Hc [<-|[<-|[]]]; [exact (without_In _ _ Hw _ Hc (or_introl eq_refl))|]. apply Hl. rewrite E. apply in_or_app. auto. }
    rewrite E1 in S2. rewrite S1 in S2. injection S2 as _ ->. split; [|reflexivity]. apply app_inv_tail in E1. auto. }
  destruct nm as [|n0 nm0].
  { cbn [length Nat.eqb orb]. split; [|discriminate]. split; [discriminate|]. intros (ign & u & E & _ & Hne & Hw & _). destruct (Uq _ _ _ E Hw) as [-> _]. congruence. }
  set (nm := n0 :: nm0) in *. cbn [length Nat.eqb orb]. replace (length nm =? 0) with false by reflexivity. cbn [orb].
  destruct (Ascii.eqb_spec (cur s1) sp) as [Es|Es]; cbn [negb].
  2:{ split; [|discriminate]. split; [discriminate|]. intros (ign & u & E & _ & Hne & Hw & _). destruct (Uq _ _ _ E Hw) as [_ ->]. exfalso. apply Es. reflexivity. }
  destruct s1 as [|c s1]; [discriminate Es|]. cbn in Es. subst c.
  destruct (sr_skip_char_cspan ["("%char; nl] (sp :: s1)) as [n s2] eqn:E2. apply skip_cspan_iff in E2 as (g & E2 & -> & Hg & Hs2).
  destruct g as [|g0 g]. { cbn in E2. subst s2. cbn in Hs2. destruct Hs2 as [H|[H|[]]]; discriminate H. }
  injection E2 as <- E2. cbn [length Nat.eqb orb].
  assert (Ug : forall name ign u, line = name ++ L " " ++ ign ++ L "(" ++ u -> without [sp] name -> without (L "(") ign -> ign = g /\ s2 = L "(" ++ u ++ rest).
  { intros name' ign u E Hw Hi. destruct (Uq _ _ _ E Hw) as [-> E3]. injection E3 as E3. rewrite E2 in E3. change (g ++ s2 = ign ++ L "(" ++ u ++ rest) in E3.
    assert (S1 : sr_skip_char_cspan ["("%char; nl] (g ++ s2) = (length g, s2)) by (apply skip_cspan_val; [inversion Hg; assumption|assumption]).
    assert (S2 : sr_skip_char_cspan ["("%char; nl] (ign ++ L "(" ++ u ++ rest) = (length ign, L "(" ++ u ++ rest)).
    { apply skip_cspan_val; [|left; reflexivity]. apply Forall_forall. intros c Hc [<-|[<-|[]]]; [exact (without_In _ _ Hi _ Hc (or_introl eq_refl))|]. apply Hl. rewrite E. apply in_or_app. right. apply in_or_app. right. apply in_or_app. auto. }
    rewrite E3, S2 in S1. injection S1 as _ <-. split; [|reflexivity]. symmetry. apply app_inv_tail in E3. exact E3. }
  destruct (Ascii.eqb_spec (cur s2) "(") as [Es|Es]; cbn [negb].
  2:{ split; [|discriminate]. split; [discriminate|]. intros (ign & u & E & _ & Hne & Hw & Hi). destruct (Ug _ _ _ E Hw Hi) as [_ ->]. exfalso. apply Es. reflexivity. }
  destruct s2 as [|c s2]; [discriminate Es|]. cbn in Es. subst c. change (text_at ("("%char :: s2) 1) with (Ok s2). cbn [bind]. split; [|discriminate]. split.
  - intros H. injection H as <- <-. exists g.
    (* the parenthesis is inside the line *)
    assert (Hline : exists u, line = nm ++ L " " ++ g ++ L "(" ++ u /\ s2 = u ++ rest).
    { rewrite E2 in E1. replace (nm ++ sp :: g ++ "("%char :: s2) with ((nm ++ sp :: g ++ ["("%char]) ++ s2) in E1 by (rewrite <- !app_assoc; cbn; rewrite <- app_assoc; reflexivity).
      apply app_eq_app in E1 as (l & [[Ea Eb]|[Ea Eb]]).
      - exists l. split; [rewrite Ea, <- !app_assoc; cbn; rewrite <- app_assoc; reflexivity|exact Eb].
      - destruct l as [|l0 l].
        + exists []. rewrite app_nil_r in Ea. split; [rewrite <- Ea; reflexivity|]. cbn in Eb. auto.
        + exfalso. rewrite Eb in Hr. cbn in Hr. destruct Hr as [<-|[]].
          assert (Hin : In nl (nm ++ sp :: g ++ ["("%char])) by (rewrite Ea; apply in_or_app; right; left; reflexivity).
          apply in_app_or in Hin as [Hin|[Hin|Hin]]; [exact (without_In _ _ Hn _ Hin (or_intror (or_introl eq_refl)))|discriminate Hin|].
          apply in_app_or in Hin as [Hin|[Hin|[]]]; [|discriminate Hin]. inversion Hg; subst. exact (without_In _ _ H2 _ Hin (or_intror (or_introl eq_refl))). }
    destruct Hline as (u & Eu & ->). exists u. split; [exact Eu|]. split; [reflexivity|]. split; [discriminate|]. split; [eapply without_incl; [|exact Hn]; cbn; tauto|].
    inversion Hg; subst. eapply without_incl; [|eassumption]. cbn. tauto.
  - intros (ign & u & E & -> & Hne & Hw & Hi). destruct (Uq _ _ _ E Hw) as [-> _]. destruct (Ug _ _ _ E Hw Hi) as [_ E3]. injection E3 as ->. reflexivity.
Qed.
(** What is on the line after "at ". *)
Definition line_text (line : str) (f : js_frame) : Prop :=
  exists body trail w path shown ln col,
    line = body ++ trail /\ spaces trail /\ js_where_text w path ln col /\ anonymized path shown /\
    jf_file_name f = Some shown /\ jf_file_line f = Z.of_N ln /\ jf_line_column f = Z.of_N col /\
    match jf_function_name f with
    | Some name => exists ignored, body = name ++ L " " ++ ignored ++ L "(" ++ w ++ L ")" /\ name <> [] /\ without [sp] name /\ without (L "(") ignored
    | None => body = w /\ ~ begins (L " ") w
    end.
Lemma skip_span_val set a b : Forall (fun c => In c set) a -> match b with [] => True | c :: _ => ~ In c set end -> sr_skip_char_span set (a ++ b) = (length a, b).
Proof. intros Ha Hb. apply skip_span_iff. exists a. auto. Qed.
Lemma spaces_span a : spaces a <-> Forall (fun c => In c [sp]) a.
Proof. split; apply Forall_impl; intros c H; [left; symmetry; exact H|]. destruct H as [H|[]]. symmetry. exact H. Qed.
Lemma index_app {A} (a b : list A) : length (a ++ b) - length b = length a.
Proof. rewrite app_length. lia. Qed.
Lemma spaces_tail_unique b c t b' c' t' : spaces t -> spaces t' -> c <> sp -> c' <> sp -> b ++ c :: t = b' ++ c' :: t' -> b = b' /\ c = c' /\ t = t'.
Proof.
  intros Ht Ht' Hc Hc' E. revert t' Ht' E. induction t as [|x t IH] using rev_ind; intros t' Ht' E; destruct (snoc_cases t') as [->|(t2 & y & ->)].
  - apply app_inj_tail in E as [-> ->]. auto.
  - exfalso. rewrite app_comm_cons, app_assoc in E. apply app_inj_tail in E as [_ E]. apply Forall_app in Ht' as [_ Ht']. inversion Ht'; congruence.
  - exfalso. rewrite app_comm_cons, app_assoc in E. apply app_inj_tail in E as [_ E]. apply Forall_app in Ht as [_ Ht]. inversion Ht; congruence.
  - rewrite !app_comm_cons, !app_assoc in E. apply app_inj_tail in E as [E ->]. apply Forall_app in Ht as [Ht _]. apply Forall_app in Ht' as [Ht' _].
    destruct (IH Ht t2 Ht' E) as (-> & -> & ->). auto.
Qed.
Lemma where_text_last w path ln col : js_where_text w path ln col -> exists b c, w = b ++ [c] /\ is_digit c = true.
Proof.
  intros (ds & es & -> & _ & _ & He). pose proof (number32_digits _ _ He) as Hd. pose proof (number32_nonempty _ _ He) as Hn. destruct (snoc_cases es) as [->|(es' & c & ->)]; [congruence|].
  apply Forall_app in Hd as [_ Hd]. inversion Hd; subst. exists (path ++ L ":" ++ ds ++ L ":" ++ es'), c. split; [rewrite <- !app_assoc; reflexivity|assumption].
Qed.
Lemma paren_after b t x u : spaces t -> b ++ ")"%char :: t = x ++ L "(" ++ u -> exists w, u = w ++ ")"%char :: t /\ b = x ++ L "(" ++ w.
Proof.
  intros Ht E. rewrite app_assoc in E. apply app_eq_app in E as (l & [[E1 E2]|[E1 E2]]).
  - exists l. split; [exact E2|]. rewrite E1, <- app_assoc. reflexivity.
  - destruct l as [|l0 l].
    + exists []. cbn in E2. rewrite app_nil_r in E1. rewrite <- E2, <- E1. split; [reflexivity|]. rewrite app_nil_r. reflexivity.
    + exfalso. injection E2 as <- E2. destruct (snoc_cases l) as [->|(l' & y & ->)].
      * apply app_inj_tail in E1 as [_ E1]. discriminate.
      * rewrite app_comm_cons, app_assoc in E1. apply app_inj_tail in E1 as [_ <-]. rewrite E2 in Ht. apply Forall_app in Ht as [Ht _]. apply Forall_app in Ht as [_ Ht]. inversion Ht; discriminate.
Qed.
Lemma parse_line lead gap line rest f r : spaces lead -> spaces gap -> ~ In nl line -> stops_at [nl] rest -> ~ begins (L " ") line ->
  (sr_js_frame_parse_v8 (lead ++ L "at " ++ gap ++ line ++ rest) = Ok (f, r) <-> r = rest /\ line_text line f) /\
  sr_js_frame_parse_v8 (lead ++ L "at " ++ gap ++ line ++ rest) <> UB.
Proof.
  intros Hlead Hgap Hnl Hrest Hb. unfold sr_js_frame_parse_v8.
  set (input := lead ++ L "at " ++ gap ++ line ++ rest).
  assert (E1 : sr_skip_char_span [sp] input = (length lead, L "at " ++ gap ++ line ++ rest)).
  { apply skip_span_val; [apply spaces_span; exact Hlead|]. cbn. intros [H|[]]. discriminate H. }
  rewrite E1. destruct (skip_string_cases (L "at ") (L "at " ++ gap ++ line ++ rest)) as [(q & Eq & ->)|[Hn _]]; [|exfalso; apply Hn; eexists; reflexivity].
  apply app_inv_head in Eq. subst q. change (length (L "at ")) with 3. cbv iota beta.
  assert (E2 : sr_skip_char_span [sp] (gap ++ line ++ rest) = (length gap, line ++ rest)).
  { apply skip_span_val; [apply spaces_span; exact Hgap|]. destruct line as [|c line]; cbn; [destruct rest as [|c rest]; [auto|]; cbn in Hrest; destruct Hrest as [<-|[]]; intros [H|[]]; discriminate H|].
    intros [<-|[]]. apply Hb. eexists. reflexivity. }
  rewrite E2. clear E1 E2.
  assert (E3 : strchrnul (line ++ rest) nl = (line, rest)).
  { destruct rest as [|c rest]; [rewrite app_nil_r; destruct (strchrnul line nl) as [a b] eqn:Es; apply strchrnul_spec in Es as (-> & _ & Hs); destruct b as [|c b]; [rewrite app_nil_r; reflexivity|subst c; exfalso; apply Hnl; apply in_or_app; right; left; reflexivity]|].
    destruct Hrest as [<-|[]]. apply strchrnul_found. exact Hnl. }
  rewrite E3. cbn [snd]. clear E3. set (pre := lead ++ L "at " ++ gap).
  assert (Ein : input = pre ++ line ++ rest) by (unfold input, pre; rewrite <- !app_assoc; reflexivity). rewrite Ein.
  assert (Ei1 : length (pre ++ line ++ rest) - length rest = length pre + length line) by (rewrite !app_length; lia). rewrite Ei1.
  assert (Hpre : exists p, pre = p ++ [sp]).
  { unfold pre. destruct (snoc_cases gap) as [->|(g & c & ->)].
    - exists (lead ++ L "at"). rewrite app_nil_r, <- app_assoc. reflexivity.
    - exists (lead ++ L "at " ++ g). apply Forall_app in Hgap as [_ Hgap]. inversion Hgap; subst. rewrite <- !app_assoc. reflexivity. }
  destruct Hpre as (p & Ep).
  assert (Estop : ~ starts_with_digit rest) by (destruct rest as [|c rest]; [intros []|]; destruct Hrest as [<-|[]]; intros H; apply H; reflexivity).
  destruct line as [|x line'].
  { cbn [length]. rewrite Nat.add_0_r. assert (Epr : prev (length pre) = Ok (length p)) by (rewrite Ep, app_length; cbn [length]; rewrite Nat.add_1_r; reflexivity). rewrite Epr. cbn [bind].
    change ([] ++ rest) with rest. rewrite index_app. rewrite back_spaces_eq. assert (Hlt : length pre <? length p = false) by (apply Nat.ltb_ge; rewrite Ep, app_length; lia). rewrite Hlt. cbn [bind].
    assert (Eb : byte_at (pre ++ rest) (length p) = Ok sp) by (rewrite Ep; apply byte_at_last). rewrite Eb. cbn [bind]. change (Ascii.eqb sp ")") with false. cbv iota. cbn [bind]. rewrite ?index_app.
    assert (Hc : S (length p) = length pre + length (@nil ascii)) by (rewrite Ep, app_length; cbn; lia).
    pose proof (fun x ln col => where_iff pre [] rest (length p) x ln col Hc Estop) as W. cbn [app] in W.
    destruct (js_where (pre ++ rest) (length pre) (length p)) as [[[x ln] col]| |] eqn:Ew; cbn [bind].
    - exfalso. destruct (W x ln col) as [[W1 _] _]. destruct (W1 eq_refl) as (path & shown & H & _). apply where_text_last in H as (b & c & H & _). destruct b; discriminate H.
    - split; [|discriminate]. split; [discriminate|]. intros [_ (body & trail & w & path & shown & ln & col & E & _ & Hw & _ & _ & _ & _ & Hf)]. exfalso.
      apply where_text_last in Hw as (b & c & -> & _). destruct body as [|]; [|discriminate E]. destruct (jf_function_name f) as [nm|]; [destruct Hf as (? & Hf & Hne & _); destruct nm; [congruence|discriminate Hf]|destruct Hf as [Hf _]; destruct b; discriminate Hf].
    - exfalso. exact (proj2 (W None 0%N 0%N) eq_refl). }
  assert (Hx : x <> sp) by (intros ->; apply Hb; eexists; reflexivity).
  cbn [length]. rewrite Nat.add_succ_r. cbn [prev bind]. rewrite index_app.
  destruct (back_spaces_ok pre x line' rest Hx) as (b & c & t & El & Ht & Hc & Ebs). rewrite Ebs. cbn [bind]. clear Ebs Ei1.
  set (line := x :: line') in *.
  assert (Ebc : byte_at (pre ++ line ++ rest) (length pre + length b) = Ok c).
  { rewrite El. replace (pre ++ (b ++ c :: t) ++ rest) with ((pre ++ b) ++ c :: t ++ rest) by (rewrite <- !app_assoc; reflexivity). rewrite <- app_length. apply byte_at_mid. }
  rewrite Ebc. cbn [bind].
  destruct (Ascii.eqb_spec c ")") as [->|Hcp].
  - (* with a function *)
    assert (Hform : line_text line f <-> exists name ign u w path shown ln col, line = name ++ L " " ++ ign ++ L "(" ++ u /\ u = w ++ ")"%char :: t /\ name <> [] /\ without [sp] name /\ without (L "(") ign /\
              js_where_text w path ln col /\ anonymized path shown /\ f = mk_js_frame (Some shown) (Z.of_N ln) (Z.of_N col) (Some name)).
    { split.
      - intros (body & trail & w & path & shown & ln & col & E & Htr & Hw & Ha & F1 & F2 & F3 & F4). destruct f as [f1 f2 f3 [name|]]; cbn [jf_file_name jf_file_line jf_line_column jf_function_name] in F1, F2, F3, F4; subst f1 f2 f3.
        + destruct F4 as (ign & -> & Hne & Hsp & Hi). exists name, ign, (w ++ L ")" ++ trail), w, path, shown, ln, col.
          assert (E' : b ++ ")"%char :: t = (name ++ L " " ++ ign ++ L "(" ++ w) ++ ")"%char :: trail) by (rewrite <- El, E, <- !app_assoc; reflexivity).
          apply spaces_tail_unique in E' as (_ & _ & <-); [|assumption|assumption|discriminate|discriminate].
          split; [rewrite E, <- !app_assoc; reflexivity|]. repeat split; assumption.
        + destruct F4 as [-> _]. exfalso. destruct (where_text_last _ _ _ _ Hw) as (b' & c' & -> & Hd). rewrite El, <- app_assoc in E.
          apply spaces_tail_unique in E as (_ & <- & _); [discriminate Hd|assumption|assumption|discriminate|intros ->; discriminate Hd].
      - intros (name & ign & u & w & path & shown & ln & col & E & -> & Hne & Hsp & Hi & Hw & Ha & ->).
        exists (name ++ L " " ++ ign ++ L "(" ++ w ++ L ")"), t, w, path, shown, ln, col. split; [rewrite E, <- !app_assoc; reflexivity|]. repeat (split; [assumption || reflexivity|]). exists ign. repeat split; assumption. }
    pose proof (fun name s3 => function_iff line rest name s3 Hnl Hrest) as Fn. destruct (js_function (line ++ rest)) as [[name s3]| |] eqn:Ef; cbn [bind].
    + destruct (proj1 (proj1 (Fn name s3)) eq_refl) as (ign & u & E & -> & Hne & Hsp & Hi).
      assert (E' : b ++ ")"%char :: t = (name ++ L " " ++ ign) ++ L "(" ++ u) by (rewrite <- El, E, <- !app_assoc; reflexivity).
      destruct (paren_after _ _ _ _ Ht E') as (w & Eu & Eb).
      destruct (length pre + length b) as [|cu] eqn:Ecu; [rewrite Ep, app_length in Ecu; cbn in Ecu; lia|]. cbn [prev bind].
      set (pre2 := pre ++ name ++ L " " ++ ign ++ L "(").
      assert (Ebuf : pre ++ line ++ rest = pre2 ++ w ++ ")"%char :: t ++ rest) by (unfold pre2; rewrite E, Eu, <- !app_assoc; reflexivity).
      assert (Eidx : length (pre ++ line ++ rest) - length (u ++ rest) = length pre2).
      { replace (pre ++ line ++ rest) with (pre2 ++ u ++ rest) by (unfold pre2; rewrite E, <- !app_assoc; reflexivity). apply index_app. }
      rewrite Eidx, Ebuf.
      assert (Hcur : S cu = length pre2 + length w) by (rewrite <- Ecu, Eb; unfold pre2; rewrite !app_length; lia).
      pose proof (fun x ln col => where_iff pre2 w (")"%char :: t ++ rest) cu x ln col Hcur (fun H => H eq_refl)) as W.
      assert (Uni : forall name' ign' u', line = name' ++ L " " ++ ign' ++ L "(" ++ u' -> name' <> [] -> without [sp] name' -> without (L "(") ign' -> name' = name /\ u' = u).
      { intros name' ign' u' E3 H1 H2 H3. assert (Q : Ok (name, u ++ rest) = Ok (name', u' ++ rest)) by (apply Fn; exists ign', u'; auto). injection Q as -> Q. apply app_inv_tail in Q. auto. }
      assert (Erest : sr_skip_char_cspan [nl] (u ++ rest) = (length u, rest)) by (apply skip_cspan_val; [apply without_one; intros Hin; apply Hnl; rewrite E; do 4 (apply in_or_app; right); exact Hin|exact Hrest]).
      destruct (js_where (pre2 ++ w ++ ")"%char :: t ++ rest) (length pre2) cu) as [[[xf ln] col]| |] eqn:Ew; cbn [bind].
      * rewrite Erest. destruct (proj1 (proj1 (W xf ln col)) eq_refl) as (path & shown & Hw & Ha & ->). split; [|discriminate]. split.
        -- intros H. injection H as <- <-. split; [reflexivity|]. apply Hform. exists name, ign, u, w, path, shown, ln, col. repeat split; assumption.
        -- intros [-> H]. apply Hform in H as (name' & ign' & u' & w' & path' & shown' & ln' & col' & E3 & Eu' & H1 & H2 & H3 & Hw' & Ha' & ->). destruct (Uni _ _ _ E3 H1 H2 H3) as [-> ->].
           rewrite Eu in Eu'. apply app_inv_tail in Eu'. subst w'. assert (Q : Ok (Some shown, ln, col) = Ok (Some shown', ln', col')) by (apply W; eauto). injection Q as <- <- <-. reflexivity.
      * split; [|discriminate]. split; [discriminate|]. intros [_ H]. exfalso. apply Hform in H as (name' & ign' & u' & w' & path' & shown' & ln' & col' & E3 & Eu' & H1 & H2 & H3 & Hw' & Ha' & ->). destruct (Uni _ _ _ E3 H1 H2 H3) as [-> ->].
        rewrite Eu in Eu'. apply app_inv_tail in Eu'. subst w'. assert (Q : Fail = Ok (Some shown', ln', col')) by (apply W; eauto). discriminate Q.
      * exfalso. exact (proj2 (W None 0%N 0%N) eq_refl).
    + split; [|discriminate]. split; [discriminate|]. intros [_ H]. exfalso. apply Hform in H as (name' & ign' & u' & w' & path' & shown' & ln' & col' & E3 & Eu' & H1 & H2 & H3 & Hw' & Ha' & ->).
      assert (Q : Fail = Ok (name', u' ++ rest)) by (apply Fn; exists ign', u'; auto). discriminate Q.
    + exfalso. exact (proj2 (Fn [] []) eq_refl).
  - (* without *)
    cbn [bind]. rewrite index_app. set (w := b ++ [c]).
    assert (Ebuf : pre ++ line ++ rest = pre ++ w ++ t ++ rest) by (unfold w; rewrite El, <- !app_assoc; reflexivity). rewrite Ebuf.
    assert (Hcur : S (length pre + length b) = length pre + length w) by (unfold w; rewrite app_length; cbn; lia).
    assert (Hst : ~ starts_with_digit (t ++ rest)) by (destruct t as [|y t]; [exact Estop|]; inversion Ht; subst; intros H; apply H; reflexivity).
    pose proof (fun x ln col => where_iff pre w (t ++ rest) (length pre + length b) x ln col Hcur Hst) as W.
    assert (Hnb : ~ begins (L " ") w) by (intros [z Ez]; apply Hb; exists (z ++ t); rewrite El; replace (b ++ c :: t) with (w ++ t) by (unfold w; rewrite <- app_assoc; reflexivity); rewrite Ez, <- app_assoc; reflexivity).
    assert (Hform : line_text line f <-> exists path shown ln col, js_where_text w path ln col /\ anonymized path shown /\ f = mk_js_frame (Some shown) (Z.of_N ln) (Z.of_N col) None).
    { split.
      - intros (body & trail & w' & path & shown & ln & col & E & Htr & Hw & Ha & F1 & F2 & F3 & F4). destruct f as [f1 f2 f3 [name|]]; cbn [jf_file_name jf_file_line jf_line_column jf_function_name] in F1, F2, F3, F4; subst f1 f2 f3.
        + destruct F4 as (ign & -> & Hne & Hsp & Hi). exfalso.
          assert (E' : b ++ c :: t = (name ++ L " " ++ ign ++ L "(" ++ w') ++ ")"%char :: trail) by (rewrite <- El, E, <- !app_assoc; reflexivity).
          apply spaces_tail_unique in E' as (_ & -> & _); [congruence|assumption|assumption|assumption|discriminate].
        + destruct F4 as [-> Hb']. destruct (where_text_last _ _ _ _ Hw) as (b' & c' & -> & Hd). rewrite El, <- app_assoc in E.
          apply spaces_tail_unique in E as (-> & -> & _); [|assumption|assumption|assumption|intros ->; discriminate Hd]. exists path, shown, ln, col. auto.
      - intros (path & shown & ln & col & Hw & Ha & ->). exists w, t, w, path, shown, ln, col. split; [unfold w; rewrite El, <- app_assoc; reflexivity|]. repeat (split; [assumption || reflexivity|]). auto. }
    assert (Erest : sr_skip_char_cspan [nl] (line ++ rest) = (length line, rest)) by (apply skip_cspan_val; [apply without_one; exact Hnl|exact Hrest]).
    destruct (js_where (pre ++ w ++ t ++ rest) (length pre) (length pre + length b)) as [[[xf ln] col]| |] eqn:Ew; cbn [bind].
    + rewrite Erest. destruct (proj1 (proj1 (W xf ln col)) eq_refl) as (path & shown & Hw & Ha & ->). split; [|discriminate]. split.
      * intros H. injection H as <- <-. split; [reflexivity|]. apply Hform. exists path, shown, ln, col. auto.
      * intros [-> H]. apply Hform in H as (path' & shown' & ln' & col' & Hw' & Ha' & ->). assert (Q : Ok (Some shown, ln, col) = Ok (Some shown', ln', col')) by (apply W; eauto). injection Q as <- <- <-. reflexivity.
    + split; [|discriminate]. split; [discriminate|]. intros [_ H]. exfalso. apply Hform in H as (path' & shown' & ln' & col' & Hw' & Ha' & ->). assert (Q : Fail = Ok (Some shown', ln', col')) by (apply W; eauto). discriminate Q.
    + exfalso. exact (proj2 (W None 0%N 0%N) eq_refl).
Qed.
Lemma split_input s :
  (exists lead gap line rest, s = lead ++ L "at " ++ gap ++ line ++ rest /\ spaces lead /\ spaces gap /\ ~ In nl line /\ stops_at [nl] rest /\ ~ begins (L " ") line) \/
  (sr_js_frame_parse_v8 s = Fail /\ forall lead r, spaces lead -> s <> lead ++ L "at " ++ r).
Proof.
  destruct (sr_skip_char_span [sp] s) as [n s1] eqn:E1. pose proof E1 as E1'. apply skip_span_iff in E1 as (lead & -> & -> & Hlead & H1). apply spaces_span in Hlead.
  destruct (skip_string_cases (L "at ") s1) as [(r & -> & _)|[Hn Er]].
  - left. destruct (sr_skip_char_span [sp] r) as [n s2] eqn:E2. apply skip_span_iff in E2 as (gap & -> & -> & Hgap & H2). apply spaces_span in Hgap.
    destruct (strchrnul s2 nl) as [line rest] eqn:E3. apply strchrnul_spec in E3 as (-> & Hl & Hr). exists lead, gap, line, rest. split; [reflexivity|]. split; [exact Hlead|]. split; [exact Hgap|].
    split; [exact Hl|]. split; [destruct rest; [exact Logic.I|left; symmetry; exact Hr]|]. intros [z ->]. apply H2. left. reflexivity.
  - right. unfold sr_js_frame_parse_v8. rewrite E1', Er. split; [reflexivity|]. intros lead' r Hl' E. apply Hn.
    assert (E2 : sr_skip_char_span [sp] (lead ++ s1) = (length lead', L "at " ++ r)).
    { rewrite E. apply skip_span_val; [apply spaces_span; exact Hl'|]. intros [H|[]]. discriminate H. }
    rewrite E1' in E2. injection E2 as _ ->. eexists. reflexivity.
Qed.
Theorem js_frame_not_UB s : sr_js_frame_parse_v8 s <> UB.
Proof.
  destruct (split_input s) as [(lead & gap & line & rest & -> & H1 & H2 & H3 & H4 & H5)|[-> _]]; [|discriminate].
  exact (proj2 (parse_line lead gap line rest js_frame_new [] H1 H2 H3 H4 H5)).
Qed.
Lemma frame_text_line s f rest : js_frame_text s f rest <->
  exists lead gap line, s = lead ++ L "at " ++ gap ++ line ++ rest /\ spaces lead /\ spaces gap /\ ~ In nl line /\ stops_at [nl] rest /\ ~ begins (L " ") line /\ line_text line f.
Proof.
  split.
  - intros (lead & gap & body & trail & w & path & shown & ln & col & E & H1 & H2 & H3 & Hn & Hr & Hw & Ha & F1 & F2 & F3 & F4). exists lead, gap, (body ++ trail).
    split; [rewrite <- app_assoc; exact E|]. split; [exact H1|]. split; [exact H2|]. split.
    { rewrite in_app_iff. intros [Hi|Hi]; [apply without_one in Hn; contradiction|]. pose proof (proj1 (Forall_forall _ _) H3 _ Hi) as H6. discriminate H6. }
    split; [exact Hr|]. split; [|exists body, trail, w, path, shown, ln, col; repeat (split; [assumption || reflexivity|]); assumption].
    destruct (where_text_last _ _ _ _ Hw) as (b & c & Ew & _). destruct (jf_function_name f) as [name|].
    + destruct F4 as (ign & -> & Hne & Hsp & _). destruct name as [|x name]; [congruence|]. intros [z Ez]. injection Ez as -> _. inversion Hsp; subst. apply H4. left. reflexivity.
    + destruct F4 as [-> Hb]. intros [z Ez]. apply Hb. destruct w as [|x w]; [destruct b; discriminate Ew|]. injection Ez as -> _. eexists. reflexivity.
  - intros (lead & gap & line & E & H1 & H2 & Hn & Hr & Hb & (body & trail & w & path & shown & ln & col & -> & H3 & Hw & Ha & F1 & F2 & F3 & F4)).
    exists lead, gap, body, trail, w, path, shown, ln, col. rewrite <- app_assoc in E. repeat (split; [assumption|]). split; [apply without_one; intros Hi; apply Hn; apply in_or_app; auto|]. repeat (split; [assumption|]). assumption.
Qed.
Theorem js_frame_iff s f rest : sr_js_frame_parse_v8 s = Ok (f, rest) <-> js_frame_text s f rest.
Proof.
  rewrite frame_text_line. split.
  - intros E. destruct (split_input s) as [(lead & gap & line & rest' & -> & H1 & H2 & H3 & H4 & H5)|[Hf _]]; [|congruence].
    apply (proj1 (parse_line lead gap line rest' f rest H1 H2 H3 H4 H5)) in E as [-> E]. exists lead, gap, line. repeat (split; [assumption || reflexivity|]). exact E.
  - intros (lead & gap & line & -> & H1 & H2 & H3 & H4 & H5 & H6). apply (proj1 (parse_line lead gap line rest f rest H1 H2 H3 H4 H5)). auto.
Qed.
Lemma js_frame_shorter s f rest : sr_js_frame_parse_v8 s = Ok (f, rest) -> length rest < length s /\ stops_at [nl] rest.
Proof.
  intros H. apply js_frame_iff, frame_text_line in H as (lead & gap & line & -> & _ & _ & _ & Hr & _). split; [|exact Hr]. rewrite !app_length. change (length (L "at ")) with 3. lia.
Qed.
Lemma js_frames_total fuel : forall s, length s < fuel -> js_frames_loop fuel s <> UB.
Proof.
  induction fuel as [|fuel IH]; intros s Hs; [lia|]. cbn [js_frames_loop]. destruct s as [|c0 s0]; [discriminate|]. set (s := c0 :: s0) in *. clearbody s.
  pose proof (js_frame_not_UB s). destruct (sr_js_frame_parse_v8 s) as [[f t]| |] eqn:Ef; cbn [bind]; [|discriminate|contradiction]. apply js_frame_shorter in Ef as [Ef _].
  destruct (skip_char_cases nl t) as [(u & -> & Eu)|[_ Eu]]; rewrite Eu; cbn [negb andb].
  - assert (js_frames_loop fuel u <> UB) by (apply IH; cbn [length] in Ef; lia). destruct (js_frames_loop fuel u) as [[? ?]| |]; [discriminate|discriminate|contradiction].
  - destruct t as [|c t]; cbn [negb]; [|discriminate]. assert (js_frames_loop fuel [] <> UB) by (apply IH; cbn [length] in Ef |- *; lia).
    destruct (js_frames_loop fuel []) as [[? ?]| |]; [discriminate|discriminate|contradiction].
Qed.
Lemma js_frames_end fuel : forall s fs rest, js_frames_loop fuel s = Ok (fs, rest) -> rest = [].
Proof.
  induction fuel as [|fuel IH]; intros s fs rest; [discriminate|]. cbn [js_frames_loop]. destruct s as [|c0 s0]; [intros H; injection H; auto|].
  destruct (sr_js_frame_parse_v8 _) as [[f t]| |]; cbn [bind]; [|discriminate..].
  destruct (sr_skip_char nl t) as [b u]. destruct (_ && _); [discriminate|]. destruct (js_frames_loop fuel u) as [[l z]| |] eqn:E; cbn [bind]; [|discriminate..].
  intros H. injection H as _ <-. exact (IH _ _ _ E).
Qed.
Lemma js_frames_iff fuel : forall s fs, length s < fuel -> (js_frames_loop fuel s = Ok (fs, []) <-> js_frames_text s fs).
Proof.
  assert (Hne : forall s f r, js_frame_text s f r -> s <> []).
  { intros s f r H ->. apply js_frame_iff in H. discriminate H. }
  induction fuel as [|fuel IH]; intros s fs Hs; [lia|]. cbn [js_frames_loop]. destruct s as [|c0 s0].
  { split; [intros H; injection H as <-; constructor|]. inversion 1; subst; [reflexivity|destruct (Hne _ _ _ H0 eq_refl)|destruct (Hne _ _ _ H0 eq_refl)]. }
  set (s := c0 :: s0) in *. split.
  - destruct (sr_js_frame_parse_v8 s) as [[f t]| |] eqn:Ef; cbn [bind]; [|discriminate..]. pose proof (js_frame_shorter _ _ _ Ef) as [Hlt _]. apply js_frame_iff in Ef.
    destruct (skip_char_cases nl t) as [(u & -> & Eu)|[_ Eu]]; rewrite Eu; cbn [negb andb].
    + destruct (js_frames_loop fuel u) as [[l z]| |] eqn:El; cbn [bind]; [|discriminate..]. intros Hx. injection Hx as <- ->.
      apply IH in El; [|cbn [length] in *; lia]. exact (jft_cons _ _ _ _ Ef El).
    + destruct t as [|c t]; cbn [negb]; [|discriminate]. destruct fuel as [|fuel]; [cbn [length] in *; lia|]. cbn. intros Hx. injection Hx as <-. exact (jft_last _ _ Ef).
  - intros H. assert (Hs0 : s <> []) by discriminate. clearbody s. destruct H as [|s f Hf|s f rest fs Hf Hr].
    + congruence.
    + apply js_frame_iff in Hf. rewrite Hf. cbn [bind]. destruct fuel as [|fuel]; [destruct s; [congruence|cbn in *; lia]|]. reflexivity.
    + apply js_frame_iff in Hf. rewrite Hf. cbn [bind]. pose proof (js_frame_shorter _ _ _ Hf) as [Hlt _].
      change (sr_skip_char nl (nl :: rest)) with (true, rest). cbv iota beta. cbn [negb andb].
      apply IH in Hr; [|cbn [length] in *; lia]. rewrite Hr. reflexivity.
Qed.
Lemma next_line_iff s lc ok r lc' : sr_skip_to_next_line_location s lc = (ok, r, lc') -> if ok then exists m, s = m ++ nl :: r /\ ~ In nl m else ~ In nl s.
Proof.
  unfold sr_skip_to_next_line_location. destruct (sr_skip_char_cspan [nl] s) as [n s1] eqn:E. apply skip_cspan_iff in E as (m & -> & _ & Hm & Hs). apply without_one in Hm.
  destruct s1 as [|c s1]; [intros H; injection H as <- <- _; rewrite app_nil_r; exact Hm|]. destruct Hs as [<-|[]]. change (Ascii.eqb nl nl) with true. cbv iota. intros H. injection H as <- <- _. eauto.
Qed.
Theorem js_not_UB s : sr_js_stacktrace_parse s <> UB.
Proof.
  unfold sr_js_stacktrace_parse. destruct (match sr_parse_char_cspan _ s with Some _ => _ | None => _ end) as [x t]. destruct (negb _); [discriminate|]. destruct x as [x|]; [|discriminate].
  destruct (sr_skip_string _ t) as [[|n] u]; [discriminate|]. destruct (sr_skip_to_next_line_location u _) as [[ok v] lc]. destruct (negb ok); [discriminate|].
  assert (js_frames_loop (S (length v)) v <> UB) by (apply js_frames_total; lia). destruct (js_frames_loop _ v) as [[? ?]| |]; [discriminate|discriminate|contradiction].
Qed.
Theorem js_end s t rest : sr_js_stacktrace_parse s = Ok (t, rest) -> rest = [].
Proof.
  unfold sr_js_stacktrace_parse. destruct (match sr_parse_char_cspan _ s with Some _ => _ | None => _ end) as [x q]. destruct (negb _); [discriminate|]. destruct x as [x|]; [|discriminate].
  destruct (sr_skip_string _ q) as [[|n] u]; [discriminate|]. destruct (sr_skip_to_next_line_location u _) as [[ok v] lc]. destruct (negb ok); [discriminate|].
  destruct (js_frames_loop _ v) as [[? ?]| |] eqn:E; cbn [bind]; [|discriminate..]. intros H. injection H as _ <-. exact (js_frames_end _ _ _ _ E).
Qed.
Theorem js_iff s t : sr_js_stacktrace_parse s = Ok (t, []) <-> js_text s t.
Proof.
  unfold sr_js_stacktrace_parse. split.
  - destruct (sr_parse_char_cspan [":"%char; nl] s) as [[name q]|] eqn:E.
    2:{ destruct (negb _); discriminate. }
    apply cspan_iff in E as (-> & Hne & Hw & Hs). destruct (negb _); [discriminate|].
    destruct (skip_string_cases (L ": ") q) as [(u & -> & Eu)|[_ Eu]]; rewrite Eu; [|discriminate]. change (length (L ": ")) with 2. cbv iota beta.
    destruct (sr_skip_to_next_line_location u _) as [[ok v] lc] eqn:En. apply next_line_iff in En. destruct ok; cbn [negb]; [|discriminate]. destruct En as (m & -> & Hm).
    destruct (js_frames_loop _ v) as [[fs z]| |] eqn:Ef; cbn [bind]; [|discriminate..]. intros H. injection H as <- ->. apply js_frames_iff in Ef; [|lia].
    exists name, m, v, fs. repeat (split; [assumption || reflexivity|]). split; [apply without_one; exact Hm|]. auto.
  - intros (class & m & rest & fs & -> & Hne & Hw & Hm & Hfs & ->).
    assert (E : sr_parse_char_cspan [":"%char; nl] (class ++ L ": " ++ m ++ nl :: rest) = Some (class, L ": " ++ m ++ nl :: rest)) by (apply cspan_iff; repeat split; auto; left; reflexivity).
    rewrite E. change (negb (Ascii.eqb (cur (L ": " ++ m ++ nl :: rest)) ":")) with false. cbv iota.
    destruct (skip_string_cases (L ": ") (L ": " ++ m ++ nl :: rest)) as [(u & Eq & ->)|[Hn _]]; [|exfalso; apply Hn; eexists; reflexivity].
    apply app_inv_head in Eq. subst u. change (length (L ": ")) with 2. cbv iota beta.
    destruct (sr_skip_to_next_line_location (m ++ nl :: rest) _) as [[ok v] lc] eqn:En. apply next_line_iff in En. apply without_one in Hm.
    destruct ok; [|exfalso; apply En; apply in_or_app; right; left; reflexivity]. destruct En as (m' & Em & Hm'). apply app_at_unique in Em as [_ ->]; auto. cbn [negb].
    apply (js_frames_iff (S (length v))) in Hfs; [|lia]. rewrite Hfs. reflexivity.
Qed.
(** A written frame is read back. *)
Lemma print_N_no n c : is_digit c = false -> ~ In c (print_N n).
Proof. apply print_N_not. Qed.
Theorem js_frame_roundtrip f text rest : js_showable f -> sr_js_frame_append_to_str f = Ok text -> stops_at [nl] rest -> sr_js_frame_parse_v8 (text ++ rest) = Ok (f, rest).
Proof.
  intros (Hl & Hc & (file & Ef & Hfne & Hfnl & Hh & Hfs) & Hn) Et Hr. apply js_frame_iff. unfold sr_js_frame_append_to_str in Et. rewrite Ef in Et. cbn [percent_s bind] in Et. apply ok_inj in Et.
  set (w := file ++ L ":" ++ dec (jf_file_line f) ++ L ":" ++ dec (jf_line_column f)).
  assert (Hw : js_where_text w file (Z.to_N (jf_file_line f)) (Z.to_N (jf_line_column f))).
  { exists (dec (jf_file_line f)), (dec (jf_line_column f)). split; [reflexivity|]. split; [exact Hfne|]. split; apply print_number32; lia. }
  assert (Hwn : ~ In nl w).
  { unfold w, dec. rewrite !in_app_iff. intros [H|[[H|[]]|[H|[[H|[]]|H]]]]; try discriminate H; [contradiction|revert H; apply print_N_no; reflexivity..]. }
  assert (Ha : anonymized file file) by (right; split; [intros u r _ ->; apply Hh; eexists; reflexivity|reflexivity]).
  destruct (jf_function_name f) as [name|] eqn:En.
  - destruct (Hn name eq_refl) as (Hne & Hnn & Hns).
    exists [], [], (name ++ L " " ++ [] ++ L "(" ++ w ++ L ")"), [], w, file, file, (Z.to_N (jf_file_line f)), (Z.to_N (jf_line_column f)).
    split; [rewrite <- Et; unfold w; rewrite <- !app_assoc; reflexivity|]. do 3 (split; [constructor|]).
    split. { apply without_one. rewrite !in_app_iff. intros [H|[[H|[]]|[[]|[[H|[]]|[H|[H|[]]]]]]]; try discriminate H; contradiction. }
    split; [exact Hr|]. split; [exact Hw|]. split; [exact Ha|]. split; [exact Ef|]. split; [lia|]. split; [lia|]. rewrite En.
    exists []. split; [reflexivity|]. split; [exact Hne|]. split; [apply without_one; exact Hns|constructor].
  - exists [], [], w, [], w, file, file, (Z.to_N (jf_file_line f)), (Z.to_N (jf_line_column f)).
    split; [rewrite <- Et; unfold w; rewrite <- !app_assoc; reflexivity|]. do 3 (split; [constructor|]). split; [apply without_one; exact Hwn|]. split; [exact Hr|]. split; [exact Hw|]. split; [exact Ha|].
    split; [exact Ef|]. split; [lia|]. split; [lia|]. rewrite En. split; [reflexivity|]. intros [z E]. apply (Hfs eq_refl). destruct file as [|x file]; [congruence|]. injection E as -> _. eexists. reflexivity.
Qed.
Theorem js_roundtrip class message fs texts : class <> [] -> without [":"%char; nl] class -> without [nl] message ->
  Forall js_showable fs -> Forall2 (fun f t => sr_js_frame_append_to_str f = Ok t) fs texts ->
  sr_js_stacktrace_parse (class ++ L ": " ++ message ++ [nl] ++ concat (map (fun t => L "    " ++ t ++ [nl]) texts)) = Ok (mk_js_stacktrace (Some class) fs 1, []).
Proof.
  intros Hne Hc Hm Hfs Ht. apply js_iff. exists class, message, (concat (map (fun t => L "    " ++ t ++ [nl]) texts)), fs. repeat (split; [assumption || reflexivity|]). split; [|reflexivity].
  induction Ht as [|f t fs ts Hf Ht IH]; [constructor|]. inversion Hfs; subst. cbn [map concat]. apply (jft_cons _ f (concat (map (fun t => L "    " ++ t ++ [nl]) ts))); [|apply IH; assumption].
  assert (R : js_frame_text (t ++ nl :: concat (map (fun t => L "    " ++ t ++ [nl]) ts)) f (nl :: concat (map (fun t => L "    " ++ t ++ [nl]) ts))) by (apply js_frame_iff, js_frame_roundtrip; auto; left; reflexivity).
  destruct R as (lead & gap & body & trail & w & path & shown & ln & col & E & H3 & R). exists (L "    " ++ lead), gap, body, trail, w, path, shown, ln, col.
  split; [rewrite <- !app_assoc; rewrite <- E; reflexivity|]. split; [apply Forall_app; split; [repeat constructor|exact H3]|exact R].
Qed.
