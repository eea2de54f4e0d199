(** * Proofs about the locations: Ruby frames. *)
From Verif Require Import Base Types UtilsSpec UtilsModel UtilsProofs JsonModel JsonReaders ParseSpec ParseModel ParseProofs RubyParseModel RubyParseSpec RubyParseProofs JsParseProofs LocParseModel LocParseSpec LocParseProofs LocParseProofs2.
Open Scope nat_scope.

Definition moved (l : location) (n : nat) (lost : Z) (l' : location) : Prop := line l' = line l /\ column l' = (column l + Z.of_nat n - lost)%Z.
Definition placed (l l' : location) (n : nat) (short : Z) (why : str) : Prop := l' = mk_location (line l) (column l + Z.of_nat n - short) (Some why).
Lemma rescues_place fuel : forall s level l, length s < fuel -> exists n after x l', s = concat (repeat (L "rescue in ") n) ++ after /\ ~ begins (L "rescue in ") after /\
  rescues_loc fuel s level l = Took (x, after) l' /\ moved l (length (concat (repeat (L "rescue in ") n))) 0 l'.
Proof.
  induction fuel as [|fuel IH]; intros s level l Hl; [lia|]. cbn [rescues_loc].
  destruct (skip_string_cases (L "rescue in ") s) as [(r & -> & E)|[H E]]; rewrite E.
  - change (length (L "rescue in ")) with 10. cbv beta iota.
    destruct (IH r ((level + 1) mod two32)%Z (right l (Z.of_nat 10))) as (n & after & x & l' & -> & Hnb & Hr & Hm1 & Hm2); [rewrite app_length in Hl; change (length (L "rescue in ")) with 10 in Hl; lia|].
    exists (S n), after, x, l'. split; [cbn [repeat concat]; rewrite <- app_assoc; reflexivity|]. split; [exact Hnb|]. split; [exact Hr|]. split; [exact Hm1|]. rewrite Hm2. cbn [right column repeat concat]. rewrite app_length.
    change (length (L "rescue in ")) with 10. lia.
  - exists 0, s, level, l. split; [reflexivity|]. split; [exact H|]. split; [reflexivity|]. split; [reflexivity|]. cbn. lia.
Qed.
Lemma blocks_place s l n : ~ begins (L "rescue in ") s ->
  match blocks_loc s l with
  | Took (_, after) l' => exists levels lost, s = levels ++ after /\ ruby_level_text (concat (repeat (L "rescue in ") n) ++ levels) after lost /\ moved l (length levels) lost l'
  | Refused l' => exists suf, s = L "block (" ++ suf /\ (forall ds v rest, number32 ds v -> suf <> ds ++ L " levels) in " ++ rest) /\
      placed l l' (length (L "block (")) 0 (L "Unable to parse block depth.")
  | Broken => False
  end.
Proof.
  intros Hresc. unfold blocks_loc. destruct (skip_string_cases (L "block in ") s) as [(r & -> & E)|[H E]]; rewrite E.
  - change (length (L "block in ")) with 9. cbv beta iota. exists (L "block in "), 1%Z. split; [reflexivity|]. split; [exists n; right; left; auto|]. split; [reflexivity|]. cbn [right column]. change (length (L "block in ")) with 9. change (length (L "block in")) with 8. lia.
  - destruct (skip_string_cases (L "block (") s) as [(r & -> & E2)|[H2 E2]]; rewrite E2.
    2:{ exists [], 0%Z. split; [reflexivity|]. split; [exists n; left; rewrite app_nil_r; auto 6|]. split; [reflexivity|]. cbn. lia. }
    change (length (L "block (")) with 7. cbv beta iota.
    assert (P : forall suf, (forall ds v rest, number32 ds v -> suf <> ds ++ L " levels) in " ++ rest) -> exists suf', L "block (" ++ suf = L "block (" ++ suf' /\ (forall ds v rest, number32 ds v -> suf' <> ds ++ L " levels) in " ++ rest) /\
       placed l (says (right l (Z.of_nat 7)) (L "Unable to parse block depth.")) 7 0 (L "Unable to parse block depth.")).
    { intros suf Hs. exists suf. split; [reflexivity|]. split; [exact Hs|]. unfold placed, says, right. cbn [line column]. f_equal. lia. }
    destruct (sr_parse_uint32 r) as [[[v k] r2]|] eqn:E3.
    + pose proof E3 as E3'. apply uint32_iff in E3 as (ds & -> & Hn & -> & Hd). destruct (skip_string_cases (L " levels) in ") r2) as [(r3 & -> & E4)|[H4 E4]]; rewrite E4.
      * change (length (L " levels) in ")) with 12. cbv beta iota. exists (L "block (" ++ ds ++ L " levels) in "), 0%Z. split; [rewrite <- !app_assoc; reflexivity|].
        split; [exists n; right; right; exists ds, v; auto|]. split; [reflexivity|]. cbn [right column]. rewrite !app_length. change (length (L "block (")) with 7. change (length (L " levels) in ")) with 12. lia.
      * apply P. intros ds' v' rest Hn' Ex.
        assert (U : sr_parse_uint32 (ds ++ r2) = Some (v', length ds', L " levels) in " ++ rest)) by (rewrite Ex; apply uint32_iff; exists ds'; repeat split; try apply Hn'; apply levels_not_digit).
        rewrite E3' in U. injection U as _ _ ->. apply H4. eexists. reflexivity.
    + apply P. intros ds v rest Hn ->. rewrite uint32_none in E3. exact (levels_not_digit _ (E3 _ _ _ eq_refl Hn)).
Qed.
(** The head: FILE:LINE:in, before the backtick. *)
Lemma not_ends_in buf : length buf < 4 -> ~ ends (L ":in ") buf.
Proof. intros H [r ->]. rewrite app_length in H. change (length (L ":in ")) with 4 in H. lia. Qed.
Lemma last_not_digit a : (a = [] \/ exists a' c, a = a' ++ [c] /\ is_digit c = false) -> forall b c, a = b ++ [c] -> decimal_digit c = None.
Proof. intros [->|(a' & c' & -> & H)] b c E; [destruct b; discriminate E|]. apply app_inj_tail in E as [_ ->]. apply is_digit_none. exact H. Qed.
Lemma placed_more l l1 l' n m short why : moved l n 0 l1 -> placed l1 l' m short why -> placed l l' (n + m) short why.
Proof. unfold placed. intros [-> ->] ->. f_equal. lia. Qed.
Definition tail_loc (file_name : option str) (file_line : N) (s : str) (l : location) : outcome (ruby_frame * str) :=
  and_then (rescues_loc (S (length s)) s 0 l) (fun '(rescue_level, s) l =>
  and_then (blocks_loc s l) (fun '(block_level, s) l =>
  let '(special_function, s) := sr_skip_char "<" s in
  let l := if special_function then right l 1 else l in
  match sr_parse_char_cspan (L "'>") s with
  | None => Refused (says l no_quote)
  | Some (function_name, s) =>
    let l := right l (Z.of_nat (length function_name)) in
    match (if special_function then sr_skip_char ">" s else (true, s)) with
    | (false, _) => Refused (says l (L "Unable to find the "">"" character delimiting the function name."))
    | (true, s) =>
      let l := if special_function then right l 1 else l in
      match sr_skip_char "'" s with
      | (false, _) => Refused (says l no_quote)
      | (true, s) => Took (mk_ruby_frame file_name (Z.of_N file_line) special_function (Some function_name) block_level rescue_level, s) (right l 1)
      end
    end
  end)).
Lemma tail_place head x ln s l : ruby_where head ->
  match tail_loc x ln s l with
  | Took (_, rest) l' => exists levels lost text name special, s = levels ++ text /\ ruby_level_text levels text lost /\ ruby_name text name special rest /\ moved l (length s - length rest) lost l'
  | Refused l' => exists why pre suf short, s = pre ++ suf /\ ruby_frame_wrong why (head ++ L "`" ++ pre) suf short /\ placed l l' (length pre) short why
  | Broken => False
  end.
Proof.
  intros Hh. unfold tail_loc. destruct (rescues_place (S (length s)) s 0 l) as (n & after & rl & l1 & -> & Hnb0 & -> & Hm1 & Hm2); [lia|]. cbn [and_then]. set (resc := concat (repeat (L "rescue in ") n)) in *.
  pose proof (blocks_place after l1 n Hnb0) as B. fold resc in B. destruct (blocks_loc after l1) as [[bl t] l2|l2|]; cbn [and_then]; [| |exact B].
  2:{ destruct B as (suf & -> & Hs & ->). eexists _, (resc ++ L "block ("), suf, 0%Z. split; [rewrite <- app_assoc; reflexivity|]. split; [apply rfw_depth; assumption|].
      unfold placed. rewrite Hm1, Hm2, app_length. f_equal. lia. }
  destruct B as (blk & lost & -> & Hlev & Hb1 & Hb2). set (levels := resc ++ blk) in *.
  assert (Hc : column l2 = (column l + Z.of_nat (length levels) - lost)%Z) by (unfold levels; rewrite Hb2, Hm2, app_length; lia).
  assert (Hl : line l2 = line l) by congruence. replace (resc ++ blk ++ t) with (levels ++ t) by (unfold levels; rewrite <- app_assoc; reflexivity). clear Hnb0 Hm1 Hm2 Hb1 Hb2. clearbody levels. clear resc blk n.
  destruct (skip_char_cases "<" t) as [(u & -> & E1)|[Hlt E1]]; rewrite E1.
  - destruct (sr_parse_char_cspan (L "'>") u) as [[name v]|] eqn:E2.
    2:{ apply cspan_none in E2. eexists _, (levels ++ L "<"), u, lost. split; [rewrite <- app_assoc; reflexivity|]. split; [apply (rfw_name head levels lost (L "<") u); auto|].
        unfold placed, says, right. cbn [line column]. rewrite Hl, Hc, app_length. change (length (L "<")) with 1. f_equal. lia. }
    apply cspan_iff in E2 as (-> & Hne & Hw & Hs). destruct (skip_char_cases ">" v) as [(w & -> & E3)|[Hgt E3]]; rewrite E3.
    2:{ eexists _, (levels ++ L "<" ++ name), v, lost. split; [rewrite <- !app_assoc; reflexivity|]. split; [apply rfw_bracket; auto; destruct v as [|c v]; [exact Logic.I|]; destruct Hs as [<-|[<-|[]]]; [left; reflexivity|exfalso; apply Hgt; eexists; reflexivity]|].
        unfold placed, says, right. cbn [line column]. rewrite Hl, Hc, !app_length. change (length (L "<")) with 1. f_equal. lia. }
    destruct (skip_char_cases "'" w) as [(z & -> & E4)|[Hq E4]]; rewrite E4.
    2:{ eexists _, (levels ++ L "<" ++ name ++ L ">"), w, lost. split; [rewrite <- !app_assoc; reflexivity|]. split; [apply rfw_quote_special; auto|].
        unfold placed, says, right. cbn [line column]. rewrite Hl, Hc, !app_length. change (length (L "<")) with 1. change (length (L ">")) with 1. f_equal. lia. }
    exists levels, lost, (L "<" ++ name ++ L ">'" ++ z), name, true. split; [reflexivity|]. split; [exact Hlev|]. split; [split; [exact Hne|]; split; [exact Hw|]; reflexivity|].
    split; [cbn [right line]; exact Hl|]. cbn [right column]. rewrite Hc, !app_length. cbn [length]. rewrite !app_length. cbn [length]. lia.
  - destruct (sr_parse_char_cspan (L "'>") t) as [[name v]|] eqn:E2.
    2:{ apply cspan_none in E2. eexists _, (levels ++ []), t, lost. split; [rewrite app_nil_r; reflexivity|]. split; [apply rfw_name; auto|].
        unfold placed, says, right. cbn [line column]. rewrite Hl, Hc, app_nil_r. reflexivity. }
    apply cspan_iff in E2 as (-> & Hne & Hw & Hs). assert (Hnb : ~ begins (L "<") name) by (intros [z ->]; apply Hlt; eexists; reflexivity).
    destruct (skip_char_cases "'" v) as [(z & -> & E4)|[Hq E4]]; rewrite E4.
    2:{ eexists _, (levels ++ name), v, lost. split; [rewrite <- !app_assoc; reflexivity|]. split; [apply rfw_quote; auto; destruct v as [|c v]; [exact Logic.I|]; destruct Hs as [<-|[<-|[]]]; [exfalso; apply Hq; eexists; reflexivity|left; reflexivity]|].
        unfold placed, says, right. cbn [line column]. rewrite Hl, Hc, !app_length. f_equal. lia. }
    exists levels, lost, (name ++ L "'" ++ z), name, false. split; [reflexivity|]. split; [exact Hlev|]. split; [split; [exact Hne|]; split; [exact Hw|]; split; [reflexivity|exact Hnb]|].
    split; [cbn [right line]; exact Hl|]. cbn [right column]. rewrite Hc, !app_length. cbn [length]. lia.
Qed.
Lemma ruby_frame_place s l :
  match ruby_frame_loc s l with
  | Took (_, rest) l' => exists head levels lost text name special, s = head ++ L "`" ++ levels ++ text /\ ruby_where head /\ ruby_level_text levels text lost /\ ruby_name text name special rest /\
      moved l (length s - length rest) lost l'
  | Refused l' => exists why pre suf short, s = pre ++ suf /\ ruby_frame_wrong why pre suf short /\ placed l l' (length pre) short why
  | Broken => False
  end.
Proof.
  unfold ruby_frame_loc. destruct (sr_parse_char_cspan (L "`") s) as [[buf t]|] eqn:E.
  2:{ apply cspan_none in E. exists no_backtick, [], s, 0%Z. split; [reflexivity|]. split; [apply rfw_start; exact E|]. unfold placed, says. f_equal. cbn. lia. }
  apply cspan_iff in E as (-> & Hne & Hw & Ht). set (l1 := right l (Z.of_nat (length buf))). assert (Hm : moved l (length buf) 0 l1) by (split; [reflexivity|unfold l1; cbn [right column]; lia]). clearbody l1.
  change (length (L ":in ")) with 4. cbv zeta.
  assert (NoIn : ~ ends (L ":in ") buf -> exists why pre suf short, buf ++ t = pre ++ suf /\ ruby_frame_wrong why pre suf short /\
            placed l (says (right l1 (- Z.of_nat 4)) (L "Unable to find ':in ' preceding the backtick character.")) (length pre) short why).
  { intros Hno. eexists _, buf, t, 4%Z. split; [reflexivity|]. split; [apply rfw_in; assumption|]. destruct Hm as [Hm1 Hm2]. unfold placed, says, right. cbn [line column]. rewrite Hm1, Hm2. f_equal. lia. }
  destruct (Nat.ltb_spec (length buf) 4) as [Hl|Hl]; [apply NoIn; apply not_ends_in; exact Hl|].
  set (p := length buf - 4). destruct (str_eqb (skipn p buf) (L ":in ")) eqn:Es; cbn [negb].
  2:{ apply NoIn. intros [r ->]. assert (Hp : p = length r) by (unfold p; rewrite app_length; change (length (L ":in ")) with 4; lia). rewrite Hp, skipn_app_exact in Es.
      assert (str_eqb (L ":in ") (L ":in ") = true) by reflexivity. congruence. }
  clear NoIn. apply str_eqb_eq in Es. assert (Ebuf : buf = firstn p buf ++ L ":in ") by (rewrite <- Es; symmetry; apply firstn_skipn).
  assert (Hp : length (firstn p buf) = p) by (rewrite firstn_length; lia). set (b := firstn p buf) in *. clearbody b. rewrite <- Hp. clear Hp Hl Es. clearbody p. subst buf. clear p.
  destruct (back_while_ok is_digit b []) as (a & d & -> & Hd & Ha & Eb). rewrite app_nil_r in Eb. rewrite Eb. cbn [see]. rewrite skipn_app_exact.
  apply without_app in Hw as [Hw Hw2]. apply without_app in Hw as [Hwa Hwd]. rewrite <- (app_assoc a d (L ":in ")) in Hm |- *.
  destruct (uint32_run d []) as [(v & Hv & Ev)|[Hv Ev]]; [exact Hd|intros []| |]; rewrite app_nil_r in Ev; rewrite Ev.
  2:{ eexists _, (a ++ d ++ L ":in "), t, 0%Z. split; [reflexivity|]. split; [apply rfw_number; [exact Hwa|apply digits_all; exact Hd|apply last_not_digit; exact Ha|exact Hv|exact Ht]|].
      destruct Hm as [Hm1 Hm2]. unfold placed, says. rewrite Hm1, Hm2. reflexivity. }
  assert (NoColon : (forall b c, a = b ++ [c] -> decimal_digit c = None /\ c <> ":"%char) -> exists why pre suf short, (a ++ d ++ L ":in ") ++ t = pre ++ suf /\ ruby_frame_wrong why pre suf short /\
            placed l (says (right l1 (- Z.of_nat (length d))) (L "Unable to fin the ':' character preceding the line number")) (length pre) short why).
  { intros Hno. eexists _, (a ++ d ++ L ":in "), t, (Z.of_nat (length d)). split; [reflexivity|]. split; [apply (rfw_colon a d v); assumption|]. destruct Hm as [Hm1 Hm2]. unfold placed, says, right. cbn [line column]. rewrite Hm1, Hm2. f_equal. lia. }
  pose proof (last_not_digit _ Ha) as Hlast. destruct Ha as [->|(a' & c & -> & Hc)].
  { apply NoColon. intros b c E. destruct b; discriminate E. }
  rewrite app_length. cbn [length]. rewrite Nat.add_1_r. rewrite byte_at_last. cbn [see].
  destruct (Ascii.eqb_spec c ":") as [->|Hc2]; cbn [negb].
  2:{ apply NoColon. intros b c' E. split; [apply (Hlast b); exact E|]. apply app_inj_tail in E as [_ <-]. exact Hc2. }
  clear NoColon. set (head := (a' ++ [":"%char]) ++ d ++ L ":in ") in *.
  assert (Hwh : ruby_where head).
  { exists a', d, v. split; [unfold head; rewrite <- !app_assoc; reflexivity|]. split; [exact Hv|]. unfold head. apply without_app. split; [exact Hwa|]. apply without_app. auto. }
  destruct (skip_char_cases "`" t) as [(q & -> & Eq)|[Hq Eq]]; rewrite Eq.
  2:{ assert (t = []) as ->. { destruct t as [|y t]; [reflexivity|]. exfalso. destruct Ht as [<-|[]]. apply Hq. eexists. reflexivity. }
      eexists _, head, [], 0%Z. split; [reflexivity|]. split; [apply rfw_backtick; exact Hwh|]. destruct Hm as [Hm1 Hm2]. unfold placed, says. rewrite Hm1, Hm2. reflexivity. }
  set (fn := anonymize_path _). pose proof (tail_place head fn v q (right l1 1) Hwh) as T. unfold tail_loc in T.
  match type of T with match ?x with _ => _ end => destruct x as [[f rest] l'|l'|] end; [| |exact T].
  - destruct T as (levels & lost & text & name & special & -> & H1 & H2 & H3 & H4). exists head, levels, lost, text, name, special. split; [reflexivity|]. split; [exact Hwh|]. split; [exact H1|]. split; [exact H2|].
    destruct Hm as [Hm1 Hm2]. split; [rewrite H3; exact Hm1|]. rewrite H4. cbn [right column]. rewrite Hm2.
    assert (Hr : length rest <= length (levels ++ text)) by (destruct H2 as (_ & _ & H2); destruct special; [rewrite H2|destruct H2 as [-> _]]; rewrite !app_length; lia).
    rewrite (app_length head). cbn [length]. lia.
  - destruct T as (why & pre & suf & short & -> & H1 & ->). exists why, (head ++ L "`" ++ pre), suf, short. split; [rewrite <- !app_assoc; reflexivity|]. split; [exact H1|].
    destruct Hm as [Hm1 Hm2]. unfold placed. cbn [right line column]. rewrite Hm1, Hm2, !app_length. change (length (L "`")) with 1. f_equal. lia.
Qed.
