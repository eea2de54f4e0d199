(** * Proofs about the locations: JavaScript. *)
From Verif Require Import Base Types UtilsSpec UtilsModel UtilsProofs JsonModel ParseSpec ParseModel ParseProofs RubyParseProofs JsParseModel JsParseSpec JsParseProofs LocParseModel LocParseSpec LocParseProofs.
Open Scope nat_scope.

Lemma digits_all ds : digits ds <-> all_digits ds.
Proof. unfold all_digits. split; apply Forall_impl; intros c; apply is_digit_iff. Qed.
Lemma digits_back_ok pre w post : forall token, S token = length pre + length w -> w <> [] ->
  (exists a ds, a <> [] /\ w = a ++ ":"%char :: ds /\ digits ds /\ digits_back (pre ++ w ++ post) (length pre) token = Ok (true, length pre + length a)) \/
  (exists c ds, w = c :: ds /\ digits ds /\ digits_back (pre ++ w ++ post) (length pre) token = Ok (true, length pre)) \/
  (exists a c ds, a <> [] /\ w = a ++ c :: ds /\ is_digit c = false /\ c <> ":"%char /\ digits ds /\ digits_back (pre ++ w ++ post) (length pre) token = Ok (false, length pre + length a)).
Proof.
  revert post. induction w as [|c w IH] using rev_ind; intros post token Ht Hne; [congruence|]. rewrite app_length in Ht. cbn [length] in Ht.
  assert (token = length (pre ++ w)) by (rewrite app_length; lia). clear Ht. subst token.
  assert (Eb : byte_at (pre ++ (w ++ [c]) ++ post) (length (pre ++ w)) = Ok c).
  { replace (pre ++ (w ++ [c]) ++ post) with ((pre ++ w) ++ c :: post) by (rewrite <- !app_assoc; reflexivity). apply byte_at_mid. }
  pose proof (digits_back_eq (pre ++ (w ++ [c]) ++ post) (length pre) (length (pre ++ w))) as U.
  destruct w as [|x w].
  - right. left. exists c, []. split; [reflexivity|]. split; [constructor|]. rewrite app_nil_r, Nat.ltb_irrefl in U. rewrite app_nil_r. exact U.
  - set (w' := x :: w) in *. assert (Hl : length pre <? length (pre ++ w') = true) by (apply Nat.ltb_lt; rewrite app_length; cbn; lia).
    rewrite Hl, Eb in U. cbn [bind] in U.
    destruct (Ascii.eqb c ":") eqn:Ec.
    + apply Ascii.eqb_eq in Ec. subst c. left. exists w', []. split; [discriminate|]. split; [reflexivity|]. split; [constructor|]. rewrite U, app_length. reflexivity.
    + assert (Hnc : c <> ":"%char) by (intros ->; discriminate).
      destruct (is_digit c) eqn:Ed; cbn [negb] in U.
      * destruct (length (pre ++ w')) as [|p] eqn:Ep; [cbn in Hl; discriminate|].
        destruct (IH (c :: post) p) as [(a & ds & Ha & Ew & Hds & Ebk)|[(c0 & ds & Ew & Hds & Ebk)|(a & c0 & ds & Ha & Ew & Hc & Hc2 & Hds & Ebk)]]; [rewrite app_length in Ep; lia|discriminate| | |].
        -- left. exists a, (ds ++ [c]). split; [exact Ha|]. split; [rewrite Ew, <- app_assoc; reflexivity|]. split; [apply Forall_app; auto|]. rewrite U, <- app_assoc. exact Ebk.
        -- right. left. exists c0, (ds ++ [c]). split; [rewrite Ew; reflexivity|]. split; [apply Forall_app; auto|]. rewrite U, <- app_assoc. exact Ebk.
        -- right. right. exists a, c0, (ds ++ [c]). split; [exact Ha|]. split; [rewrite Ew, <- app_assoc; reflexivity|]. repeat (split; [assumption|]). split; [apply Forall_app; auto|]. rewrite U, <- app_assoc. exact Ebk.
      * right. right. exists w', c, []. split; [discriminate|]. split; [reflexivity|]. repeat (split; [assumption|]). split; [constructor|]. rewrite U, app_length. reflexivity.
Qed.
Definition shifted (l l' : location) (n : nat) (why : str) : Prop := l' = mk_location (line l) (column l + Z.of_nat n) (Some why).
Lemma is_digit_none c : is_digit c = false -> decimal_digit c = None.
Proof. intros H. destruct (decimal_digit c) eqn:E; [|reflexivity]. assert (is_digit c = true) by (apply is_digit_iff; congruence). congruence. Qed.
Lemma shift_add l n z why : z = Z.of_nat n -> shifted l (says (sr_location_add l 0 z) why) n why.
Proof. intros ->. unfold shifted, says, sr_location_add, loc_add. cbn. reflexivity. Qed.
Lemma shift_0 l why : shifted l (says l why) 0 why.
Proof. unfold shifted, says. rewrite Z.add_0_r. reflexivity. Qed.
Lemma where_loc pre w post cursor l : S cursor = length pre + length w -> ~ starts_with_digit post ->
  match js_where_loc (pre ++ w ++ post) (length pre) cursor l with
  | Took _ l' => l' = l
  | Refused l' => exists why u v, w = u ++ v /\ js_where_wrong why u v /\ shifted l l' (length u) why
  | Broken => False
  end.
Proof.
  intros Hc Hpost. unfold js_where_loc. destruct w as [|x0 w0].
  { assert (Eb : digits_back (pre ++ [] ++ post) (length pre) cursor = Ok (true, cursor)) by (rewrite digits_back_eq; replace (length pre <? cursor) with false by (symmetry; apply Nat.ltb_ge; cbn in Hc; lia); reflexivity).
    rewrite Eb. cbn [see negb]. destruct (Nat.eqb_spec cursor (length pre)) as [E|E]; [cbn in Hc; lia|]. replace (cursor + 1) with (length pre) by (cbn in Hc; lia).
    rewrite text_at_app. cbn [see app]. destruct (uint32_run [] post) as [(v & Hn & _)|[_ En]]; [constructor|exact Hpost|destruct (number32_nonempty _ _ Hn eq_refl)|]. cbn [app] in En. rewrite En.
    exists (L "Failed to parse line column."), [], []. split; [reflexivity|]. split; [constructor|]. apply shift_add. unfold gap. cbn. lia. }
  set (w := x0 :: w0) in *. assert (Hw : w <> []) by discriminate. clearbody w.
  destruct (digits_back_ok pre w post cursor Hc Hw) as [(a & es & Ha & Ew & Hes & Eb)|[(c & ds & Ew & Hds & Eb)|(a & c & ds & Ha & Ew & Hd & Hc2 & Hds & Eb)]]; rewrite Eb; cbn [see negb].
  2:{ rewrite Nat.eqb_refl. eexists _, [], w. split; [reflexivity|]. split; [rewrite Ew; constructor; apply digits_all; exact Hds|apply shift_0]. }
  2:{ eexists _, (a ++ [c]), ds. split; [rewrite Ew, <- app_assoc; reflexivity|]. split; [constructor; [exact Ha|apply is_digit_none; exact Hd|exact Hc2|apply digits_all; exact Hds]|].
      apply shift_add. unfold gap. rewrite app_length. cbn. lia. }
  destruct (Nat.eqb_spec (length pre + length a) (length pre)) as [E|_]; [destruct a; [congruence|cbn in E; lia]|].
  assert (Et : text_at (pre ++ w ++ post) (length pre + length a + 1) = Ok (es ++ post)).
  { rewrite Ew. replace (pre ++ (a ++ ":"%char :: es) ++ post) with ((pre ++ a ++ [":"%char]) ++ es ++ post) by (rewrite <- !app_assoc; reflexivity).
    replace (length pre + length a + 1) with (length (pre ++ a ++ [":"%char])) by (rewrite !app_length; cbn; lia). apply text_at_app. }
  rewrite Et. cbn [see]. destruct (uint32_run es post Hes Hpost) as [(v & Hv & Ev)|[Hv Ev]]; rewrite Ev.
  2:{ eexists _, (a ++ L ":"), es. split; [rewrite Ew, <- app_assoc; reflexivity|]. split; [constructor; [exact Ha|apply digits_all; exact Hes|exact Hv]|].
      apply shift_add. unfold gap. rewrite app_length. cbn. lia. }
  destruct (length pre + length a) as [|t] eqn:Elen; [destruct a; [congruence|cbn in Elen; lia]|]. cbn [prev see].
  assert (Ebuf : pre ++ w ++ post = pre ++ a ++ (":"%char :: es ++ post)) by (rewrite Ew, <- !app_assoc; reflexivity). rewrite Ebuf.
  destruct (digits_back_ok pre a (":"%char :: es ++ post) t) as [(p & ds & Hp & Ea & Hds & Eb2)|[(c & ds & Ea & Hds & Eb2)|(p & c & ds & Hp & Ea & Hd & Hc2 & Hds & Eb2)]]; [lia|exact Ha| | |]; rewrite Eb2; cbn [see negb].
  2:{ rewrite Nat.eqb_refl. eexists _, [], w. split; [reflexivity|]. split; [rewrite Ew, Ea; apply (jww_no_line c ds es v); [apply digits_all; exact Hds|exact Hv]|apply shift_0]. }
  2:{ eexists _, (p ++ [c]), (ds ++ L ":" ++ es). split; [rewrite Ew, Ea, <- !app_assoc; reflexivity|]. split; [apply (jww_line_symbol p c ds es v); [exact Hp|apply is_digit_none; exact Hd|exact Hc2|apply digits_all; exact Hds|exact Hv]|].
      apply shift_add. unfold gap. rewrite app_length. cbn. lia. }
  destruct (Nat.eqb_spec (length pre + length p) (length pre)) as [E|_]; [destruct p; [congruence|cbn in E; lia]|].
  assert (Et2 : text_at (pre ++ a ++ ":"%char :: es ++ post) (length pre + length p + 1) = Ok (ds ++ ":"%char :: es ++ post)).
  { rewrite Ea. replace (pre ++ (p ++ ":"%char :: ds) ++ ":"%char :: es ++ post) with ((pre ++ p ++ [":"%char]) ++ ds ++ ":"%char :: es ++ post) by (rewrite <- !app_assoc; reflexivity).
    replace (length pre + length p + 1) with (length (pre ++ p ++ [":"%char])) by (rewrite !app_length; cbn; lia). apply text_at_app. }
  rewrite Et2. cbn [see]. destruct (uint32_run ds (":"%char :: es ++ post) Hds) as [(u & Hu & Eu)|[Hu Eu]]; [cbn; intros H; apply H; reflexivity| |]; rewrite Eu; [reflexivity|].
  eexists _, (p ++ L ":"), (ds ++ L ":" ++ es). split; [rewrite Ew, Ea, <- !app_assoc; reflexivity|]. split; [apply (jww_line p ds es v); [exact Hp|apply digits_all; exact Hds|exact Hu|exact Hv]|].
  apply shift_add. unfold gap. rewrite app_length. cbn. lia.
Qed.
Lemma shifted_more l l1 l' n m k why : line l1 = line l -> column l1 = (column l + Z.of_nat n)%Z -> shifted l1 l' m why -> k = n + m -> shifted l l' k why.
Proof. unfold shifted. intros -> -> -> ->. f_equal. lia. Qed.
(** The function and the parenthesis. *)
Lemma function_loc ln rest l : ~ In nl ln -> stops_at [nl] rest -> ~ begins (L " ") ln -> ln <> [] ->
  match js_function_loc (ln ++ rest) l with
  | Took (name, s3) l' => exists ignored u, ln = name ++ L " " ++ ignored ++ L "(" ++ u /\ s3 = u ++ rest /\ name <> [] /\ without [sp; nl] name /\ without (L "(" ++ [nl]) ignored /\
      line l' = line l /\ column l' = (column l + Z.of_nat (length (name ++ L " " ++ ignored ++ L "(")))%Z
  | Refused l' => (without [sp; nl] ln /\ shifted l l' 0 (L "White space right behind function name not found.")) \/
      (exists name body, ln = name ++ L " " ++ body /\ name <> [] /\ without [sp; nl] name /\ without (L "(" ++ [nl]) body /\
         shifted l l' (length name) (L "Opening brace following function name not found."))
  | Broken => False
  end.
Proof.
  intros Hnl Hrest Hb Hne. unfold js_function_loc. destruct (sr_skip_char_cspan [sp; nl] (ln ++ rest)) as [n s1] eqn:E1. apply skip_cspan_iff in E1 as (name & E1 & -> & Hname & H1).
  assert (Hn0 : name <> []).
  { intros ->. cbn [app] in E1. destruct ln as [|c ln]; [congruence|]. subst s1. destruct H1 as [<-|[<-|[]]]; [apply Hb; eexists; reflexivity|apply Hnl; left; reflexivity]. }
  assert (Hn1 : length name =? 0 = false) by (destruct name; [congruence|reflexivity]). rewrite Hn1. cbn [orb].
  destruct (Ascii.eqb_spec (cur s1) sp) as [Hsp|Hsp]; cbn [negb].
  2:{ left. split; [|apply shift_0]. assert (ln = name) as ->; [|exact Hname].
      apply app_eq_app in E1 as (x & [[E E2]|[E E2]]).
      - destruct x as [|c x]; [rewrite app_nil_r in E; exact E|]. exfalso. subst s1. cbn in H1, Hsp. destruct H1 as [<-|[<-|[]]]; [congruence|]. apply Hnl. rewrite E. apply in_or_app. right. left. reflexivity.
      - destruct x as [|c x]; [rewrite app_nil_r in E; symmetry; exact E|]. exfalso. rewrite E2 in Hrest. destruct Hrest as [<-|[]]. apply (without_In _ _ Hname nl); [rewrite E; apply in_or_app; right; left; reflexivity|right; left; reflexivity]. }
  destruct s1 as [|c s1]; [discriminate Hsp|]. cbn in Hsp. subst c.
  assert (exists body, ln = name ++ sp :: body /\ s1 = body ++ rest) as (body & -> & ->).
  { apply app_eq_app in E1 as (x & [[E E2]|[E E2]]).
    - destruct x as [|c x]; [exfalso; cbn in E2; rewrite <- E2 in Hrest; destruct Hrest as [H|[]]; discriminate H|]. injection E2 as <- ->. eauto.
    - exfalso. destruct x as [|c x]; [cbn in E2; rewrite E2 in Hrest; destruct Hrest as [H|[]]; discriminate H|]. rewrite E2 in Hrest. destruct Hrest as [<-|[]].
      apply (without_In _ _ Hname nl); [rewrite E; apply in_or_app; right; left; reflexivity|right; left; reflexivity]. }
  clear E1 H1. rewrite <- app_assoc, firstn_app_exact. clear Hb.
  destruct (sr_skip_char_cspan ["("%char; nl] (sp :: body ++ rest)) as [n2 s2] eqn:E2. apply skip_cspan_iff in E2 as (ig & E2 & -> & Hig & H2).
  assert (Hig0 : exists ignored, ig = sp :: ignored) by (destruct ig as [|c ig]; [cbn [app] in E2; subst s2; destruct H2 as [H2|[H2|[]]]; discriminate H2|injection E2 as <- _; eauto]).
  destruct Hig0 as (ignored & ->). injection E2 as E2. cbn [length Nat.eqb orb].
  assert (Hnlb : ~ In nl body) by (intros H; apply Hnl; apply in_or_app; right; right; exact H).
  assert (Hig' : without (L "(" ++ [nl]) ignored) by (inversion Hig; subst; assumption).
  destruct (Ascii.eqb_spec (cur s2) "(") as [Hp|Hp]; cbn [negb].
  - destruct s2 as [|c s2]; [discriminate Hp|]. cbn in Hp. subst c.
    assert (exists u, body = ignored ++ "("%char :: u /\ s2 = u ++ rest) as (u & -> & ->).
    { apply app_eq_app in E2 as (x & [[E E3]|[E E3]]).
      - destruct x as [|c x]; [exfalso; cbn in E3; rewrite <- E3 in Hrest; destruct Hrest as [H|[]]; discriminate H|]. injection E3 as <- ->. eauto.
      - exfalso. destruct x as [|c x]; [cbn in E3; rewrite E3 in Hrest; destruct Hrest as [H|[]]; discriminate H|]. rewrite E3 in Hrest. destruct Hrest as [<-|[]].
        apply (without_In _ _ Hig' nl); [rewrite E; apply in_or_app; right; left; reflexivity|right; left; reflexivity]. }
    unfold text_at. cbn [length Nat.ltb Nat.leb skipn see]. exists ignored, u. repeat (split; [reflexivity || assumption|]). unfold sr_location_add, loc_add. cbn [fst snd Z.ltb line column Z.compare].
    rewrite !app_length. cbn [length]. change (length (L " ")) with 1. change (length (L "(")) with 1. lia.
  - right. exists name, body. split; [reflexivity|]. split; [exact Hn0|]. split; [exact Hname|]. split; [|apply shift_add; reflexivity].
    assert (body = ignored) as ->; [|exact Hig'].
    apply app_eq_app in E2 as (x & [[E E3]|[E E3]]).
    + destruct x as [|c x]; [rewrite app_nil_r in E; exact E|]. exfalso. subst s2. cbn in H2, Hp. destruct H2 as [<-|[<-|[]]]; [congruence|]. apply Hnlb. rewrite E. apply in_or_app. right. left. reflexivity.
    + destruct x as [|c x]; [rewrite app_nil_r in E; symmetry; exact E|]. exfalso. rewrite E3 in Hrest. destruct Hrest as [<-|[]]. apply (without_In _ _ Hig' nl); [rewrite E; apply in_or_app; right; left; reflexivity|right; left; reflexivity].
Qed.
