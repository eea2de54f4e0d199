(** * Proofs about the locations: JavaScript frames and stack traces. *)
From Verif Require Import Base Types UtilsSpec UtilsModel UtilsProofs JsonModel ParseSpec ParseModel ParseProofs RubyParseProofs JsParseModel JsParseSpec JsParseProofs LocParseModel LocParseSpec LocParseProofs LocParseProofs2.
Open Scope nat_scope.

Lemma spaces_no_nl s : spaces s -> ~ In nl s.
Proof. unfold spaces. rewrite Forall_forall. intros H Hi. apply H in Hi. discriminate Hi. Qed.
Lemma not_in_app {A} (x : A) a b : ~ In x a -> ~ In x b -> ~ In x (a ++ b).
Proof. intros Ha Hb H. apply in_app_or in H as [H|H]; contradiction. Qed.
Lemma not_in_parts {A} (x : A) a b : ~ In x (a ++ b) -> ~ In x a /\ ~ In x b.
Proof. intros H. split; intros Hi; apply H; apply in_or_app; auto. Qed.
Lemma without_nl_name name : without [sp; nl] name -> ~ In nl name.
Proof. intros H Hi. apply (without_In _ _ H nl Hi). right. left. reflexivity. Qed.
Lemma without_nl_ignored ig : without (L "(" ++ [nl]) ig -> ~ In nl ig.
Proof. intros H Hi. apply (without_In _ _ H nl Hi). right. left. reflexivity. Qed.
Lemma at_no_nl : ~ In nl (L "at ").
Proof. intros H. cbn in H. repeat destruct H as [H|H]; try discriminate H; exact H. Qed.
Lemma frame_loc s l :
  match js_frame_v8_loc s l with
  | Took (_, rest) l' => exists ln, s = ln ++ rest /\ ~ In nl ln /\ line l' = line l /\ column l' = (column l + Z.of_nat (length ln))%Z
  | Refused l' => exists why u v, s = u ++ v /\ ~ In nl u /\ js_frame_wrong why u v /\ shifted l l' (length u) why
  | Broken => False
  end.
Proof.
  unfold js_frame_v8_loc. destruct (sr_skip_char_span [sp] s) as [n s1] eqn:E1. apply skip_span_iff in E1 as (lead & -> & -> & Hlead & H1). apply spaces_span in Hlead.
  destruct (skip_string_cases (L "at ") s1) as [(s2 & -> & E2)|[Hn E2]]; rewrite E2.
  2:{ exists (L "Expected frame beginning."), lead, s1. split; [reflexivity|]. split; [apply spaces_no_nl; exact Hlead|]. split; [|apply shift_add; reflexivity].
      constructor; [exact Hlead| |exact Hn]. intros [z ->]. apply H1. left. reflexivity. }
  change (length (L "at ")) with 3. cbv iota. clear E2 H1.
  destruct (sr_skip_char_span [sp] s2) as [n s3] eqn:E2. apply skip_span_iff in E2 as (g & -> & -> & Hgap & H2). apply spaces_span in Hgap.
  destruct (strchrnul s3 nl) as [ln rest] eqn:E3. apply strchrnul_spec in E3 as (-> & Hnl & Hr). cbn [snd].
  assert (Hrest : stops_at [nl] rest) by (destruct rest; [exact Logic.I|left; symmetry; exact Hr]). clear Hr.
  assert (Hb : ~ begins (L " ") ln) by (intros [z ->]; apply H2; left; reflexivity).
  set (pre := lead ++ L "at " ++ g). replace (lead ++ L "at " ++ g ++ ln ++ rest) with (pre ++ ln ++ rest) by (unfold pre; rewrite <- !app_assoc; reflexivity).
  set (l1 := sr_location_add (sr_location_add l 0 (Z.of_nat (length lead))) 0 (Z.of_nat (3 + length g))).
  assert (Hl1 : line l1 = line l) by reflexivity.
  assert (Hc1 : column l1 = (column l + Z.of_nat (length pre))%Z).
  { unfold l1, pre, sr_location_add, loc_add. cbn [fst snd line column]. change (1 <? 0)%Z with false. cbv iota. cbn [line column]. rewrite !app_length. change (length (L "at ")) with 3. lia. }
  clearbody l1.
  assert (Hop : js_opened pre []) by (exists lead, g; split; [exact Hlead|]; split; [exact Hgap|]; left; auto).
  assert (Hpnl : ~ In nl pre) by (unfold pre; apply not_in_app; [apply spaces_no_nl; exact Hlead|apply not_in_app; [apply at_no_nl|apply spaces_no_nl; exact Hgap]]).
  assert (Estop : ~ starts_with_digit rest) by (destruct rest as [|c rest]; [intros []|]; destruct Hrest as [<-|[]]; intros H; apply H; reflexivity).
  assert (Ei1 : length (pre ++ ln ++ rest) - length rest = length pre + length ln) by (rewrite !app_length; lia). rewrite Ei1.
  assert (Hpre : exists p, pre = p ++ [sp]).
  { unfold pre. destruct (snoc_cases g) as [->|(g' & c & ->)].
    - exists (lead ++ L "at"). rewrite app_nil_r, <- app_assoc. reflexivity.
    - exists (lead ++ L "at " ++ g'). apply Forall_app in Hgap as [_ Hgap]. inversion Hgap; subst. rewrite <- !app_assoc. reflexivity. }
  destruct Hpre as (p & Ep). clear H2.
  destruct ln as [|x ln'].
  { cbn [length]. rewrite Nat.add_0_r. assert (Epr : prev (length pre) = Ok (length p)) by (rewrite Ep, app_length; cbn [length]; rewrite Nat.add_1_r; reflexivity). rewrite Epr. cbn [see].
    change ([] ++ rest) with rest. rewrite index_app. rewrite back_spaces_eq. assert (Hlt : length pre <? length p = false) by (apply Nat.ltb_ge; rewrite Ep, app_length; lia). rewrite Hlt. cbn [see].
    assert (Eb : byte_at (pre ++ rest) (length p) = Ok sp) by (rewrite Ep; apply byte_at_last). rewrite Eb. cbn [see]. change (Ascii.eqb sp ")") with false. cbv iota. cbn [and_then]. rewrite ?index_app.
    assert (Hc : S (length p) = length pre + length (@nil ascii)) by (rewrite Ep, app_length; cbn; lia).
    pose proof (where_loc pre [] rest (length p) l1 Hc Estop) as W. cbn [app] in W.
    destruct (js_where_loc (pre ++ rest) (length pre) (length p) l1) as [[[f a] b] l'|l'|]; cbn [and_then].
    - subst l'. destruct (sr_skip_char_cspan [nl] rest) as [k r] eqn:Ek. apply skip_cspan_iff in Ek as (z & -> & -> & Hz & Hr). exists (pre ++ z). split; [rewrite <- app_assoc; reflexivity|].
      split; [apply not_in_app; [exact Hpnl|apply without_one; exact Hz]|]. cbn [right line column]. split; [exact Hl1|]. rewrite Hc1, app_length. lia.
    - destruct W as (why & u & v & E & Hw & Hs). symmetry in E. apply app_eq_nil in E as [-> ->]. exists why, (pre ++ []), ([] ++ rest). split; [rewrite app_nil_r; reflexivity|]. split; [rewrite app_nil_r; exact Hpnl|].
      split; [|apply (shifted_more l l1 l' (length pre) 0 _ why Hl1 Hc1 Hs); rewrite app_nil_r; lia].
      apply (jfw_where why pre [] [] [] rest Hop); [exists [], rest; repeat split; [constructor|exact Hrest]|constructor|exact Hw|]. intros _.
      split; [intros [z Ez]; destruct z; discriminate Ez|]. split; [intros [z Ez]; destruct z; discriminate Ez|]. intros [z Ez]. discriminate Ez.
    - exact W. }
  assert (Hx : x <> sp) by (intros ->; apply Hb; eexists; reflexivity).
  cbn [length]. rewrite Nat.add_succ_r. cbn [prev see]. rewrite index_app.
  destruct (back_spaces_ok pre x ln' rest Hx) as (b & c & t & El & Ht & Hc & Ebs). rewrite Ebs. cbn [see]. clear Ebs Ei1.
  set (ln := x :: ln') in *. assert (Hlne : ln <> []) by discriminate. clearbody ln. clear x ln' Hx.
  assert (Ebc : byte_at (pre ++ ln ++ rest) (length pre + length b) = Ok c).
  { rewrite El. replace (pre ++ (b ++ c :: t) ++ rest) with ((pre ++ b) ++ c :: t ++ rest) by (rewrite <- !app_assoc; reflexivity). rewrite <- app_length. apply byte_at_mid. }
  rewrite Ebc. cbn [see]. clear Ebc.
  destruct (Ascii.eqb_spec c ")") as [->|Hcp].
  - pose proof (function_loc ln rest l1 Hnl Hrest Hb Hlne) as F. destruct (js_function_loc (ln ++ rest) l1) as [[name s4] l2|l2|]; cbn [and_then].
    + destruct F as (ig & u & E & -> & Hne & Hsp & Hi & Hl2 & Hc2).
      assert (E' : b ++ ")"%char :: t = (name ++ L " " ++ ig) ++ L "(" ++ u) by (rewrite <- El, E, <- !app_assoc; reflexivity).
      destruct (paren_after _ _ _ _ Ht E') as (w & Eu & Eb).
      destruct (length pre + length b) as [|cu] eqn:Ecu; [rewrite Ep, app_length in Ecu; cbn in Ecu; lia|]. cbn [prev see and_then].
      set (pre2 := pre ++ name ++ L " " ++ ig ++ L "(").
      assert (Ebuf : pre ++ ln ++ rest = pre2 ++ w ++ ")"%char :: t ++ rest) by (unfold pre2; rewrite E, Eu, <- !app_assoc; reflexivity).
      assert (Eidx : length (pre ++ ln ++ rest) - length (u ++ rest) = length pre2).
      { replace (pre ++ ln ++ rest) with (pre2 ++ u ++ rest) by (unfold pre2; rewrite E, <- !app_assoc; reflexivity). apply index_app. }
      rewrite Eidx, Ebuf.
      assert (Hcur : S cu = length pre2 + length w) by (rewrite <- Ecu, Eb; unfold pre2; rewrite !app_length; lia).
      assert (Hl2' : line l2 = line l) by congruence.
      assert (Hc2' : column l2 = (column l + Z.of_nat (length pre2))%Z) by (rewrite Hc2, Hc1; unfold pre2; rewrite (app_length pre); lia).
      assert (Hop2 : js_opened pre2 (L ")")).
      { exists lead, g. split; [exact Hlead|]. split; [exact Hgap|]. right. exists name, ig. split; [unfold pre2, pre; rewrite <- !app_assoc; reflexivity|]. auto. }
      assert (Hln : ~ In nl (name ++ L " " ++ ig ++ L "(") /\ ~ In nl u) by (apply not_in_parts; rewrite <- !app_assoc; rewrite <- E; exact Hnl). destruct Hln as [Hln1 Hln2].
      assert (Hp2 : ~ In nl pre2) by (apply not_in_app; assumption).
      pose proof (where_loc pre2 w (")"%char :: t ++ rest) cu l2 Hcur (fun H => H eq_refl)) as W.
      destruct (js_where_loc (pre2 ++ w ++ ")"%char :: t ++ rest) (length pre2) cu l2) as [[[f a] b2] l'|l'|]; cbn [and_then]; [| |exact W].
      * subst l'. assert (Erest : sr_skip_char_cspan [nl] (u ++ rest) = (length u, rest)) by (apply skip_cspan_val; [apply without_one; exact Hln2|exact Hrest]). rewrite Erest.
        exists (pre2 ++ u). split; [rewrite Eu, <- !app_assoc; reflexivity|]. split; [apply not_in_app; assumption|]. cbn [right line column]. split; [exact Hl2'|]. rewrite Hc2', app_length. lia.
      * destruct W as (why & x & y & Ew & Hw & Hs). subst w. rewrite Eu in Hln2. apply not_in_parts in Hln2 as [Hln3 _].
        exists why, (pre2 ++ x), (y ++ ")"%char :: t ++ rest). split; [rewrite <- !app_assoc; reflexivity|]. split; [apply not_in_app; [exact Hp2|apply not_in_parts in Hln3; tauto]|].
        split; [|apply (shifted_more l l2 l' (length pre2) (length x) _ why Hl2' Hc2' Hs); apply app_length].
        apply (jfw_where why pre2 (L ")") x y (")"%char :: t ++ rest) Hop2); [exists t, rest; auto|apply without_one; exact Hln3|exact Hw|discriminate].
    + destruct F as [[Hw Hs]|(name & body & E & Hne & Hsp & Hi & Hs)].
      * assert (t = []) as ->. { destruct t as [|y t]; [reflexivity|]. exfalso. inversion Ht; subst. apply (without_In _ _ Hw sp); [apply in_or_app; right; right; left; reflexivity|left; reflexivity]. }
        exists (L "White space right behind function name not found."), pre, (ln ++ rest). split; [reflexivity|]. split; [exact Hpnl|]. split; [|apply (shifted_more l l1 l2 (length pre) 0 _ _ Hl1 Hc1 Hs); lia].
        constructor; [exact Hop|exists b; exact El|exact Hw|exact Hrest].
      * exists (L "Opening brace following function name not found."), (pre ++ name), (L " " ++ body ++ rest). split; [rewrite E, <- !app_assoc; reflexivity|].
        split; [apply not_in_app; [exact Hpnl|apply without_nl_name; exact Hsp]|].
        split; [|apply (shifted_more l l1 l2 (length pre) (length name) _ _ Hl1 Hc1 Hs); apply app_length].
        apply (jfw_brace pre name body t rest); auto. exists b. rewrite <- E. exact El.
    + exact F.
  - cbn [and_then]. rewrite index_app. set (w := b ++ [c]).
    assert (Ebuf : pre ++ ln ++ rest = pre ++ w ++ t ++ rest) by (unfold w; rewrite El, <- !app_assoc; reflexivity).
    assert (Hcur : S (length pre + length b) = length pre + length w) by (unfold w; rewrite app_length; cbn; lia).
    assert (Hst : ~ starts_with_digit (t ++ rest)) by (destruct t as [|y t]; [exact Estop|]; inversion Ht; subst; intros H; apply H; reflexivity).
    pose proof (where_loc pre w (t ++ rest) (length pre + length b) l1 Hcur Hst) as W. rewrite <- Ebuf in W.
    destruct (js_where_loc (pre ++ ln ++ rest) (length pre) (length pre + length b) l1) as [[[f a] b2] l'|l'|]; cbn [and_then]; [| |exact W].
    + subst l'. assert (Erest : sr_skip_char_cspan [nl] (ln ++ rest) = (length ln, rest)) by (apply skip_cspan_val; [apply without_one; exact Hnl|exact Hrest]). rewrite Erest.
      exists (pre ++ ln). split; [rewrite <- app_assoc; reflexivity|]. split; [apply not_in_app; assumption|]. cbn [right line column]. split; [exact Hl1|]. rewrite Hc1, app_length. lia.
    + destruct W as (why & x & y & Ew & Hw & Hs). assert (Ewl : ln = w ++ t) by (unfold w; rewrite El, <- app_assoc; reflexivity). rewrite Ew in Ewl.
      rewrite Ewl in Hnl. apply not_in_parts in Hnl as [Hln3 _].
      exists why, (pre ++ x), (y ++ t ++ rest). split; [rewrite Ewl, <- !app_assoc; reflexivity|]. split; [apply not_in_app; [exact Hpnl|apply not_in_parts in Hln3; tauto]|].
      split; [|apply (shifted_more l l1 l' (length pre) (length x) _ why Hl1 Hc1 Hs); apply app_length].
      apply (jfw_where why pre [] x y (t ++ rest) Hop); [exists t, rest; auto|apply without_one; exact Hln3|exact Hw|]. intros _. rewrite <- Ew. unfold w.
      split; [intros [z Ez]; apply app_inj_tail in Ez as [_ Ez]; contradiction|]. split; [intros [z Ez]; apply app_inj_tail in Ez as [_ Ez]; contradiction|].
      intros [z Ez]. apply Hb. exists (z ++ t). rewrite Ewl, <- Ew. unfold w. rewrite Ez, <- app_assoc. reflexivity.
Qed.
Lemma frame_text_parts ln f r : js_frame_text (ln ++ nl :: r) f (nl :: r) -> ~ In nl ln /\ forall after, js_frame_text (ln ++ nl :: after) f (nl :: after).
Proof.
  intros (lead & g & body & trail & w & path & shown & n & col & E & H1 & H2 & H3 & H4 & H5 & H). rewrite !app_assoc in E. apply app_inv_tail in E. rewrite <- !app_assoc in E. split.
  - subst ln. apply not_in_app; [apply spaces_no_nl; exact H1|]. apply not_in_app; [apply at_no_nl|]. apply not_in_app; [apply spaces_no_nl; exact H2|]. apply not_in_app; [apply without_one; exact H4|apply spaces_no_nl; exact H3].
  - intros after. exists lead, g, body, trail, w, path, shown, n, col. split; [rewrite E, <- !app_assoc; reflexivity|]. repeat (split; [assumption|]). exact H.
Qed.
Lemma frames_loc fuel : forall s l, length s < fuel -> column l = 0%Z ->
  match js_frames_loc fuel s l with
  | Took _ _ => True
  | Refused l' => exists why lines fs u v, s = lines ++ u ++ v /\ js_lines lines fs /\ ~ In nl u /\ js_frame_wrong why u v /\
      l' = mk_location (line l + Z.of_nat (length fs)) (Z.of_nat (length u)) (Some why)
  | Broken => False
  end.
Proof.
  induction fuel as [|fuel IH]; intros s l Hs Hl; [lia|]. cbn [js_frames_loc]. destruct s as [|c0 s0]; [exact Logic.I|]. set (s := c0 :: s0) in *. clearbody s. clear c0 s0.
  pose proof (frame_loc s l) as F. pose proof (forget_js_frame s l) as G. destruct (js_frame_v8_loc s l) as [[f t] l1|l1|]; cbn [and_then forget] in G |- *; [| |exact F].
  2:{ destruct F as (why & u & v & -> & Hu & Hw & ->). exists why, [], [], u, v. split; [reflexivity|]. split; [constructor|]. split; [exact Hu|]. split; [exact Hw|]. rewrite Hl. f_equal; cbn [length]; lia. }
  symmetry in G. pose proof (js_frame_shorter _ _ _ G) as [Hlt Hstop]. apply js_frame_iff in G. destruct F as (ln & -> & Hln & Hl1 & Hc1).
  destruct (skip_char_cases nl t) as [(r & -> & Eu)|[Hno Eu]]; rewrite Eu; cbn [negb andb].
  - apply frame_text_parts in G as [_ G]. specialize (IH r (next_line l1)). destruct (js_frames_loc fuel r (next_line l1)) as [[fs z] l2|l2|]; cbn [and_then]; [exact Logic.I| |].
    + destruct IH as (why & lines & fs & u & v & -> & Hlines & Hu & Hw & ->); [cbn [length] in Hlt; lia|reflexivity|]. exists why, (ln ++ nl :: lines), (f :: fs), u, v.
      split; [rewrite <- app_assoc; reflexivity|]. split; [constructor; assumption|]. split; [exact Hu|]. split; [exact Hw|]. f_equal. cbn [next_line line length]. lia.
    + apply IH; [cbn [length] in Hlt; lia|reflexivity].
  - destruct t as [|c t]; cbn [negb]; [|exfalso; cbn in Hstop; destruct Hstop as [<-|[]]; exact (Hno (ex_intro _ t eq_refl))].
    destruct fuel; [cbn [length] in *; lia|]. exact Logic.I.
Qed.
Lemma lines_count lines fs : js_lines lines fs -> count_occ ascii_dec lines nl = length fs /\ (lines = [] \/ exists b, lines = b ++ [nl]).
Proof.
  induction 1 as [|ln f rest fs H Hr [IH1 IH2]]; [cbn; auto|]. specialize (H []). apply frame_text_parts in H as [H _]. split.
  - rewrite count_occ_app. cbn [count_occ]. destruct (ascii_dec nl nl); [|congruence]. rewrite (proj1 (count_occ_not_In ascii_dec _ _) H), IH1. reflexivity.
  - right. destruct IH2 as [->|[b ->]]; [exists ln; reflexivity|]. exists (ln ++ nl :: b). rewrite <- app_assoc. reflexivity.
Qed.
Lemma pos_first pre : ~ In nl pre -> pos_of pre 1 (Z.of_nat (length pre)).
Proof. intros H. exists [], pre. split; [reflexivity|]. split; [exact H|]. split; [auto|]. rewrite (proj1 (count_occ_not_In ascii_dec _ _) H). auto. Qed.
Lemma class_no_nl class : without [":"%char; nl] class -> ~ In nl class.
Proof. intros H Hi. apply (without_In _ _ H nl Hi). right. left. reflexivity. Qed.
Lemma js_v8_loc s :
  match js_stacktrace_v8_loc s sr_location_init with
  | Took _ _ => True
  | Refused l' => exists why pre suf short, s = pre ++ suf /\ js_wrong why pre suf short /\ pos_of pre (line l') (column l' + short) /\ message l' = Some why
  | Broken => False
  end.
Proof.
  unfold js_stacktrace_v8_loc. destruct (sr_parse_char_cspan [":"%char; nl] s) as [[name t]|] eqn:E.
  - apply cspan_iff in E as (-> & Hne & Hname & Ht). destruct (Nat.eqb_spec (length name) 0) as [E|_]; [destruct name; [congruence|discriminate E]|].
    destruct (Ascii.eqb_spec (cur t) ":") as [Hc|Hc]; cbn [negb].
    2:{ exists (L "Unable to find the colon right behind exception type."), [], (name ++ t), 0%Z. split; [reflexivity|]. split; [|split; [apply (pos_first []); intros []|reflexivity]].
        constructor; [exact Hname|]. destruct t as [|c t]; [exact Logic.I|]. destruct Ht as [<-|[<-|[]]]; [contradiction|left; reflexivity]. }
    destruct t as [|c t]; [discriminate Hc|]. cbn in Hc. subst c. clear Ht. pose proof (class_no_nl _ Hname) as Hcn.
    destruct (skip_string_cases (L ": ") (":"%char :: t)) as [(m & Em & E)|[Hno E]]; rewrite E.
    2:{ exists (L "Exception type not followed by white space."), name, (":"%char :: t), 0%Z. split; [reflexivity|].
        split; [constructor; [exact Hne|exact Hname|intros [z ->]; apply Hno; eexists; reflexivity]|]. split; [|reflexivity].
        cbn [says line column sr_location_add loc_add sr_location_init fst snd]. change (1 <? 0)%Z with false. cbv iota. cbn [line column]. rewrite Z.add_0_r. exact (pos_first _ Hcn). }
    change (length (L ": ")) with 2. cbv iota. injection Em as ->.
    set (l1 := sr_location_add sr_location_init 0 (Z.of_nat (length name))). assert (Hl1 : line l1 = 1%Z /\ column l1 = Z.of_nat (length name)) by (split; reflexivity). clearbody l1. destruct Hl1 as [Hl1 Hc1].
    unfold sr_skip_to_next_line_location. destruct (sr_skip_char_cspan [nl] m) as [k m2] eqn:Ek. apply skip_cspan_iff in Ek as (msg & -> & -> & Hmsg & Hm2). pose proof (proj1 (without_one _ _) Hmsg) as Hmn.
    cbn [fst snd]. destruct m2 as [|c m2].
    + cbn [negb]. rewrite app_nil_r. exists (L "Stack trace does not include any frames."), (name ++ L ": " ++ msg), [], 2%Z. split; [rewrite app_nil_r; reflexivity|]. split; [constructor; assumption|].
      split; [|reflexivity]. cbn [says line column]. rewrite Hl1, Hc1. replace (Z.of_nat (length name) + Z.of_nat (length msg) + 2)%Z with (Z.of_nat (length (name ++ L ": " ++ msg))) by (rewrite !app_length; change (length (L ": ")) with 2; lia).
      apply pos_first. apply not_in_app; [exact Hcn|]. apply not_in_app; [|exact Hmn]. intros [H|[H|[]]]; discriminate H.
    + destruct Hm2 as [<-|[]]. change (Ascii.eqb nl nl) with true. cbv iota. cbn [negb].
      set (l2 := mk_location _ _ _). pose proof (frames_loc (S (length m2)) m2 l2 (Nat.lt_succ_diag_r _) eq_refl) as F. destruct (js_frames_loc _ m2 l2) as [[fs z] l3|l3|]; cbn [and_then]; [exact Logic.I| |exact F].
      destruct F as (why & lines & fs & u & v & -> & Hlines & Hu & Hw & ->). exists why, (name ++ L ": " ++ msg ++ nl :: lines ++ u), v, 0%Z. split; [rewrite <- !app_assoc; cbn [app]; rewrite <- ?app_assoc; reflexivity|].
      split; [apply (jw_frame why name msg lines fs u v); assumption|]. split; [|reflexivity]. cbn [line column l2]. destruct (lines_count _ _ Hlines) as [Hn Hend].
      exists (name ++ L ": " ++ msg ++ nl :: lines), u. split; [rewrite <- !app_assoc; cbn [app]; rewrite <- ?app_assoc; reflexivity|]. split; [exact Hu|]. split; [|split; [|lia]].
      * right. destruct Hend as [->|[b ->]]; [exists (name ++ L ": " ++ msg); rewrite <- !app_assoc; reflexivity|]. exists (name ++ L ": " ++ msg ++ nl :: b). rewrite <- !app_assoc. cbn [app]. rewrite <- ?app_assoc. reflexivity.
      * assert (Hsep : ~ In nl (L ": ")) by (intros [H|[H|[]]]; discriminate H). rewrite Hl1, !count_occ_app. cbn [count_occ]. destruct (ascii_dec nl nl); [|congruence]. rewrite count_occ_app, Hn.
        rewrite (proj1 (count_occ_not_In ascii_dec _ _) Hcn), (proj1 (count_occ_not_In ascii_dec _ _) Hmn), (proj1 (count_occ_not_In ascii_dec _ _) Hu), (proj1 (count_occ_not_In ascii_dec _ _) Hsep). lia.
  - apply cspan_none in E. destruct (Ascii.eqb_spec (cur s) ":") as [Hc|Hc]; cbn [negb].
    + destruct s as [|c s]; [discriminate Hc|]. cbn in Hc. subst c. exists (L "Zero length exception type."), [], (":"%char :: s), 0%Z. split; [reflexivity|]. split; [constructor|]. split; [apply (pos_first []); intros []|reflexivity].
    + exists (L "Unable to find the colon right behind exception type."), [], s, 0%Z. split; [reflexivity|]. split; [|split; [apply (pos_first []); intros []|reflexivity]].
      apply (jw_colon [] s); [constructor|]. destruct s as [|c s]; [exact Logic.I|]. destruct E as [<-|[<-|[]]]; [contradiction|left; reflexivity].
Qed.
Lemma any_frame_loc s l : match js_frame_loc s l with
  | Took (_, rest) l' => exists ln, s = ln ++ rest /\ ~ In nl ln /\ line l' = line l /\ column l' = (column l + Z.of_nat (length ln))%Z
  | Refused l' => exists why u v, s = u ++ v /\ ~ In nl u /\ js_frame_wrong why u v /\ l' = mk_location (line l) (column l + Z.of_nat (length u)) (Some (L "The frame does not match any JavaScript dialect"))
  | Broken => False
  end.
Proof.
  unfold js_frame_loc. pose proof (frame_loc s l) as F. destruct (js_frame_v8_loc s l) as [[f rest] l'|l'|]; [exact F| |exact F].
  destruct F as (why & u & v & E & N & W & ->). exists why, u, v. repeat split; assumption.
Qed.
