(** * Proofs about the Python parser. *)
From Verif Require Import Base Types UtilsSpec UtilsModel UtilsProofs JsonModel RpmProofs4 ParseSpec ParseModel ParseProofs RubyParseProofs JsParseProofs PyParseModel PyParseSpec.
Open Scope nat_scope.

Lemma skip_lit p r : sr_skip_string p (p ++ r) = (length p, r).
Proof.
  destruct (skip_string_cases p (p ++ r)) as [(q & E & ->)|[Hn _]]; [|exfalso; apply Hn; eexists; reflexivity]. apply app_inv_head in E. subst. reflexivity.
Qed.
Lemma strip_brackets_on name : strip_brackets (L "<" ++ name ++ L ">") = (true, name).
Proof.
  unfold strip_brackets. change (L "<" ++ name ++ L ">") with ("<"%char :: name ++ [">"%char]). cbn [length Nat.ltb Nat.leb andb nth]. rewrite Nat.sub_succ, Nat.sub_0_r.
  rewrite app_length. cbn [length]. rewrite Nat.add_1_r. cbn [nth]. rewrite app_nth2, Nat.sub_diag by lia. cbn [nth firstn skipn]. rewrite firstn_app_exact. reflexivity.
Qed.
Lemma strip_brackets_inv text name special : strip_brackets text = (special, name) -> if special then text = L "<" ++ name ++ L ">" else name = text.
Proof.
  unfold strip_brackets. destruct text as [|c t]; [intros H; injection H as <- <-; reflexivity|]. cbn [length Nat.ltb Nat.leb andb nth]. rewrite Nat.sub_succ, Nat.sub_0_r.
  destruct (Ascii.eqb_spec c "<") as [->|Hc]; cbn [andb]; [|intros H; injection H as <- <-; reflexivity].
  destruct (snoc_cases t) as [->|(u & d & ->)]; [intros H; injection H as <- <-; reflexivity|].
  rewrite app_length. cbn [length]. rewrite Nat.add_1_r. cbn [nth]. rewrite app_nth2, Nat.sub_diag by lia. cbn [nth].
  destruct (Ascii.eqb_spec d ">") as [->|Hd]; [|intros H; injection H as <- <-; reflexivity]. cbn [firstn skipn]. rewrite firstn_app_exact. intros H. injection H as <- <-. reflexivity.
Qed.
Lemma brackets_iff text name special : strip_brackets text = (special, name) <-> bracketed text name special.
Proof.
  split.
  - intros E. pose proof (strip_brackets_inv _ _ _ E) as H. destruct special; [exact H|]. split; [exact H|]. intros inner ->. rewrite strip_brackets_on in E. discriminate.
  - destruct special; cbn [bracketed]; [intros ->; apply strip_brackets_on|]. intros [-> H]. destruct (strip_brackets text) as [b n] eqn:E. pose proof (strip_brackets_inv _ _ _ E) as Hi.
    destruct b; [destruct (H _ Hi)|subst; reflexivity].
Qed.
Lemma brackets_total text : exists name special, strip_brackets text = (special, name) /\ bracketed text name special.
Proof. destruct (strip_brackets text) as [sp n] eqn:E. exists n, sp. split; [reflexivity|]. apply brackets_iff. exact E. Qed.
(** The function. *)
Definition py_function (s : str) : option (bool * str * str) :=
  match sr_skip_string (L ", in ") s with
  | (O, s) => if negb (Ascii.eqb (cur s) nl) then None else Some (true, L "syntax", s)
  | (_, s) =>
    match sr_parse_char_cspan [nl] s with
    | None => None
    | Some (function_name, s) => let '(special, function_name) := strip_brackets function_name in Some (special, function_name, s)
    end
  end.
Lemma py_function_iff s special name r : py_function s = Some (special, name, r) <-> py_function_text s name special r.
Proof.
  unfold py_function, py_function_text. destruct (skip_string_cases (L ", in ") s) as [(u & -> & E)|[Hn E]]; rewrite E.
  - change (length (L ", in ")) with 5. cbv iota beta. split.
    + destruct (sr_parse_char_cspan [nl] u) as [[text v]|] eqn:Ec; [|discriminate]. apply cspan_iff in Ec as (-> & Hne & Hw & Hs).
      destruct (strip_brackets text) as [b n] eqn:Eb. apply brackets_iff in Eb. intros H. injection H as <- <- <-. left. exists text. auto.
    + intros [(text & Eu & Hne & Hw & Hs & Hb)|([z Ez] & _)]; [|discriminate Ez]. apply app_inv_head in Eu. subst u.
      assert (Ec : sr_parse_char_cspan [nl] (text ++ r) = Some (text, r)) by (apply cspan_iff; auto). rewrite Ec. apply brackets_iff in Hb. rewrite Hb. reflexivity.
  - destruct (Ascii.eqb_spec (cur s) nl) as [Ec|Ec]; cbn [negb].
    + destruct s as [|c s]; [discriminate Ec|]. cbn in Ec. subst c. split.
      * intros H. injection H as <- <- <-. right. split; [eexists; reflexivity|]. auto.
      * intros [(text & Eu & _)|(_ & -> & -> & ->)]; [discriminate Eu|reflexivity].
    + split; [discriminate|]. intros [(text & -> & _)|([z ->] & _)]; [exfalso; apply Hn; eexists; reflexivity|]. exfalso. apply Ec. reflexivity.
Qed.
(** The source line. *)
Definition py_source (s : str) : option str * str :=
  match sr_skip_string (L "    ") s with
  | (4, s) =>
    match sr_parse_char_cspan [nl] s with
    | Some (contents, s) => (Some contents, snd (sr_skip_char nl s))
    | None => (None, s)
    end
  | (_, s) => (None, s)
  end.
Lemma py_source_iff s c r : py_source s = (c, r) <-> py_source_text s c r.
Proof.
  unfold py_source, py_source_text. destruct (skip_string_cases (L "    ") s) as [(u & -> & E)|[Hn E]]; rewrite E.
  - change (length (L "    ")) with 4. cbv iota beta. destruct (sr_parse_char_cspan [nl] u) as [[text v]|] eqn:Ec.
    + apply cspan_iff in Ec as (-> & Hne & Hw & Hs). destruct v as [|y v]; [|destruct Hs as [<-|[]]].
      * change (snd (sr_skip_char nl [])) with (@nil ascii). split.
        -- intros H. injection H as <- <-. split; [exact Hne|]. split; [exact Hw|]. right. rewrite app_nil_r. auto.
        -- destruct c as [line|].
           ++ intros (_ & Hw' & [H|[H ->]]); apply app_inv_head in H; rewrite app_nil_r in H.
              ** exfalso. apply without_one in Hw. apply Hw. rewrite H. apply in_or_app. right. left. reflexivity.
              ** subst. reflexivity.
           ++ intros [[H Hs']|[_ H]]; [|exfalso; apply H; eexists; reflexivity]. exfalso. apply app_inv_head in H. rewrite app_nil_r in H. subst text. destruct r as [|y r]; [congruence|]. destruct Hs' as [<-|[]]. inversion Hw; subst. apply H1. left. reflexivity.
      * change (snd (sr_skip_char nl (nl :: v))) with v. split.
        -- intros H. injection H as <- <-. auto.
        -- destruct c as [line|].
           ++ intros (_ & Hw' & [H|[H ->]]); apply app_inv_head in H; apply without_one in Hw, Hw'.
              ** apply app_at_unique in H as [-> ->]; auto.
              ** exfalso. apply Hw'. rewrite <- H. apply in_or_app. right. left. reflexivity.
           ++ intros [[H Hs']|[_ H]]; [|exfalso; apply H; eexists; reflexivity]. exfalso. apply app_inv_head in H. subst r. destruct text as [|y r]; [congruence|]. destruct Hs' as [<-|[]]. inversion Hw; subst. apply H1. left. reflexivity.
    + apply cspan_none in Ec. split.
      * intros H. injection H as <- <-. left. auto.
      * destruct c as [line|].
        -- intros (Hne & Hw & H). exfalso. destruct line as [|y line]; [congruence|]. assert (exists z, u = y :: z) as (z & ->) by (destruct H as [H|[H _]]; apply app_inv_head in H; subst u; eexists; reflexivity).
           destruct Ec as [<-|[]]. inversion Hw; subst. apply H2. left. reflexivity.
        -- intros [[H Hs']|[_ H]]; [|exfalso; apply H; eexists; reflexivity]. apply app_inv_head in H. subst. reflexivity.
  - split.
    + intros H. injection H as <- <-. right. auto.
    + destruct c as [line|]; [intros (_ & _ & [->|[-> _]]); exfalso; apply Hn; eexists; reflexivity|]. intros [[-> _]|[-> _]]; [exfalso; apply Hn; eexists; reflexivity|reflexivity].
Qed.
(** The frame proper. *)
Definition py_body (input : str) : option (python_frame * str) :=
  match sr_skip_string (L "  File """) input with
  | (O, _) => None
  | (_, s) =>
    match sr_parse_char_cspan [dquote] s with
    | None => None
    | Some (file_name, s) =>
      let '(special_file, file_name) := strip_brackets file_name in
      match sr_skip_string (L """, line ") s with
      | (O, _) => None
      | (_, s) =>
        match sr_parse_uint32 s with
        | None => None
        | Some (file_line, _, s) =>
          match py_function s with
          | None => None
          | Some (special_function, function_name, s) =>
            let '(line_contents, s) := py_source (snd (sr_skip_char nl s)) in
            Some (mk_python_frame special_file (anonymize_path (Some file_name)) (Z.of_N file_line) special_function (Some function_name) line_contents, s)
          end
        end
      end
    end
  end.
Lemma frame_split input : sr_python_frame_parse input =
  do input <- (if is_error_location_line input then match sr_skip_char_cspan [nl] input with (_, []) => UB | (_, _ :: s) => Ok s end else Ok input);
  Ok (match py_body input with Some (f, s) => (Some f, s) | None => (None, input) end).
Proof.
  unfold sr_python_frame_parse. destruct (if is_error_location_line input then _ else _) as [i| |]; cbn [bind]; [|reflexivity..]. unfold py_body, py_function, py_source.
  destruct (sr_skip_string _ i) as [[|n] s]; [reflexivity|]. destruct (sr_parse_char_cspan _ s) as [[fn s1]|]; [|reflexivity]. destruct (strip_brackets fn) as [b fi].
  destruct (sr_skip_string _ s1) as [[|n1] s2]; [reflexivity|]. destruct (sr_parse_uint32 s2) as [[[fl n2] s3]|]; [|reflexivity].
  destruct (match sr_skip_string (L ", in ") s3 with (O, _) => _ | (S _, _) => _ end) as [[[b2 f2] s4]|]; [|reflexivity]. destruct (sr_skip_char nl s4) as [b3 s5]. cbn [snd].
  destruct (match sr_skip_string (L "    ") s5 with (_, _) => _ end) as [lc s6]. reflexivity.
Qed.
Lemma function_rest s name special r : py_function_text s name special r -> stops_at [nl] r.
Proof. intros [(text & _ & _ & _ & H & _)|([z ->] & -> & _)]; [exact H|left; reflexivity]. Qed.
Lemma py_body_iff s f rest : py_body s = Some (f, rest) <-> py_frame_text s f rest.
Proof.
  assert (Hnext : forall r, stops_at [nl] r -> r = nl :: snd (sr_skip_char nl r) \/ (r = [] /\ snd (sr_skip_char nl r) = [])).
  { intros [|c r] H; [right; auto|]. destruct H as [<-|[]]. left. reflexivity. }
  unfold py_body. split.
  - destruct (skip_string_cases (L "  File """) s) as [(u & -> & E)|[_ E]]; rewrite E; [|discriminate]. change (length (L "  File """)) with 8. cbv iota beta.
    destruct (sr_parse_char_cspan [dquote] u) as [[path u1]|] eqn:Ep; [|discriminate]. apply cspan_iff in Ep as (-> & Hne & Hw & Hs).
    destruct (strip_brackets path) as [b inner] eqn:Eb. apply brackets_iff in Eb.
    destruct (skip_string_cases (L """, line ") u1) as [(u2 & -> & E2)|[_ E2]]; rewrite E2; [|discriminate]. change (length (L """, line ")) with 8. cbv iota beta.
    destruct (sr_parse_uint32 u2) as [[[ln n] u3]|] eqn:El; [|discriminate]. apply uint32_iff in El as (ds & -> & Hn & _ & _).
    destruct (py_function u3) as [[[b2 name] u4]|] eqn:Ef; [|discriminate]. apply py_function_iff in Ef. destruct (py_source (snd (sr_skip_char nl u4))) as [c u5] eqn:Es. apply py_source_iff in Es.
    destruct (anonymized_ok inner) as (shown & -> & Ha). intros H. injection H as <- <-. exists path, inner, shown, ds, ln, name, u3, (snd (sr_skip_char nl u4)).
    cbn [pf_special_file pf_file_name pf_file_line pf_special_function pf_function_name pf_line_contents]. repeat (split; [assumption || reflexivity|]).
    split; [exists u4; split; [exact Ef|]; apply Hnext; exact (function_rest _ _ _ _ Ef)|]. auto.
  - intros (path & inner & shown & ds & ln & name & after & below & -> & Hne & Hw & Hn & Hb & Ha & F1 & F2 & (r & Hf & Hr) & F3 & Hs).
    rewrite skip_lit. change (length (L "  File """)) with 8. cbv iota beta.
    assert (Ep : sr_parse_char_cspan [dquote] (path ++ L """, line " ++ ds ++ after) = Some (path, L """, line " ++ ds ++ after)) by (apply cspan_iff; repeat split; auto; left; reflexivity).
    rewrite Ep. apply brackets_iff in Hb. rewrite Hb. rewrite skip_lit. change (length (L """, line ")) with 8. cbv iota beta.
    assert (Hd : ~ starts_with_digit after) by (destruct Hf as [(text & -> & _)|([z ->] & _)]; intros H; apply H; reflexivity).
    assert (El : sr_parse_uint32 (ds ++ after) = Some (ln, length ds, after)) by (apply uint32_iff; exists ds; auto). rewrite El.
    pose proof Hf as Hf'. apply py_function_iff in Hf'. rewrite Hf'. assert (Eb : snd (sr_skip_char nl r) = below) by (destruct Hr as [->|[-> ->]]; reflexivity). rewrite Eb.
    apply py_source_iff in Hs. rewrite Hs. apply anonymize_iff in Ha. rewrite Ha. destruct f. cbn in F1, F2, F3 |- *. subst. reflexivity.
Qed.
(** The pointers line. *)
Lemma error_line_iff s : is_error_location_line s = true <-> pointers s \/ exists p q, s = p ++ nl :: q /\ pointers p.
Proof.
  induction s as [|c s IH]; [split; [left; constructor|reflexivity]|]. cbn [is_error_location_line]. destruct (Ascii.eqb_spec c nl) as [->|Hc].
  - split; [|reflexivity]. intros _. right. exists [], s. split; [reflexivity|constructor].
  - assert (Hin : In c (L " ^~") <-> negb (Ascii.eqb c sp) && negb (Ascii.eqb c "^") && negb (Ascii.eqb c "~") = false).
    { destruct (Ascii.eqb_spec c sp) as [->|H1]; [cbn; intuition|]. destruct (Ascii.eqb_spec c "^") as [->|H2]; [cbn; intuition|]. destruct (Ascii.eqb_spec c "~") as [->|H3]; [cbn; intuition|].
      cbn. split; [intros [H|[H|[H|[]]]]; exfalso; [apply H1|apply H2|apply H3]; symmetry; exact H|discriminate]. }
    destruct (negb _ && _ && _).
    + split; [discriminate|]. intros [H|(p & q & E & H)]; [inversion H; subst; apply Hin in H2; discriminate|]. destruct p as [|x p]; [injection E as -> _; congruence|]. injection E as <- _. inversion H; subst. apply Hin in H2. discriminate.
    + assert (Hi : In c (L " ^~")) by (apply Hin; reflexivity). rewrite IH. split.
      * intros [H|(p & q & -> & H)]; [left; constructor; assumption|]. right. exists (c :: p), q. split; [reflexivity|constructor; assumption].
      * intros [H|(p & q & E & H)]; [left; inversion H; assumption|]. right. destruct p as [|x p]; [injection E as -> _; congruence|]. injection E as _ ->. exists p, q. split; [reflexivity|inversion H; assumption].
Qed.
Lemma pointers_no_nl p : pointers p -> ~ In nl p.
Proof. intros H Hi. pose proof (proj1 (Forall_forall _ _) H _ Hi) as Hn. cbn in Hn. intuition discriminate. Qed.
Definition pass (s : str) : res str := if is_error_location_line s then match sr_skip_char_cspan [nl] s with (_, []) => UB | (_, _ :: r) => Ok r end else Ok s.
Lemma pass_cases s : (exists r, py_passed s r /\ pass s = Ok r) \/ (pointers s /\ pass s = UB).
Proof.
  unfold pass. destruct (is_error_location_line s) eqn:E.
  - apply error_line_iff in E as [H|(p & q & -> & H)].
    + right. split; [exact H|]. rewrite <- (app_nil_r s). rewrite skip_cspan_val; [reflexivity|apply without_one, pointers_no_nl; exact H|exact Logic.I].
    + left. exists q. split; [left; exists p; auto|]. rewrite skip_cspan_val; [reflexivity|apply without_one, pointers_no_nl; exact H|left; reflexivity].
  - left. exists s. split; [|reflexivity]. right. split; [reflexivity|]. split.
    + intros H. assert (is_error_location_line s = true) by (apply error_line_iff; auto). congruence.
    + intros p q -> H. assert (is_error_location_line (p ++ nl :: q) = true) by (apply error_line_iff; eauto). congruence.
Qed.
Lemma passed_fun s r r' : py_passed s r -> py_passed s r' -> r = r'.
Proof.
  intros [(p & -> & Hp)|(-> & Hn & H)] [(p' & E & Hp')|(-> & Hn' & H')]; [|destruct (H' _ _ eq_refl Hp)|destruct (H _ _ E Hp')|reflexivity].
  apply app_at_unique in E as [_ ->]; [reflexivity|apply pointers_no_nl; assumption..].
Qed.
Lemma passed_not_pointers s r : py_passed s r -> ~ pointers s.
Proof.
  intros [(p & -> & Hp)|(-> & Hn & H)]; [|exact Hn]. intros Hs. apply (pointers_no_nl _ Hs). apply in_or_app. right. left. reflexivity.
Qed.
Lemma pass_iff s r : pass s = Ok r <-> py_passed s r.
Proof.
  destruct (pass_cases s) as [(r' & Hr & E)|[Hp E]]; rewrite E.
  - split; [intros H; injection H as <-; exact Hr|]. intros H. rewrite (passed_fun _ _ _ Hr H). reflexivity.
  - split; [discriminate|]. intros H. destruct (passed_not_pointers _ _ H Hp).
Qed.
Lemma passed_length s r : py_passed s r -> length r <= length s.
Proof. intros [(p & -> & _)|(-> & _)]; [rewrite app_length; cbn; lia|lia]. Qed.
Lemma body_shorter s f r : py_frame_text s f r -> length r < length s.
Proof.
  intros (path & inner & shown & ds & ln & name & after & below & -> & _ & _ & _ & _ & _ & _ & _ & (q & Hf & Hr) & _ & Hs).
  assert (length r <= length below). { destruct (pf_line_contents f) as [line|]; cbn [py_source_text] in Hs; [destruct Hs as (_ & _ & [->|[-> ->]])|destruct Hs as [[-> _]|[-> _]]]; rewrite ?app_length; cbn; lia. }
  assert (length below <= length q) by (destruct Hr as [->|[-> ->]]; cbn; lia).
  assert (length q <= length after) by (destruct Hf as [(text & -> & _)|(_ & -> & _)]; rewrite ?app_length; lia). rewrite !app_length. change (length (L "  File """)) with 8. lia.
Qed.
Lemma frame_cases s : (exists r f q, py_passed s r /\ py_frame_text r f q /\ sr_python_frame_parse s = Ok (Some f, q)) \/
  (exists r, py_passed s r /\ (forall f q, ~ py_frame_text r f q) /\ sr_python_frame_parse s = Ok (None, r)) \/
  (pointers s /\ sr_python_frame_parse s = UB).
Proof.
  rewrite frame_split. fold (pass s). destruct (pass_cases s) as [(r & Hr & ->)|[Hp ->]]; cbn [bind]; [|right; right; auto].
  destruct (py_body r) as [[f q]|] eqn:E; [left; exists r, f, q; apply py_body_iff in E; auto|]. right. left. exists r. split; [exact Hr|]. split; [|reflexivity].
  intros f q H. apply py_body_iff in H. congruence.
Qed.
Lemma frames_loop_cases fuel : forall s acc, length s < fuel ->
  (exists fs rest, py_frames_text s fs rest /\ python_frames_loop fuel s acc = Ok (rev fs ++ acc, rest)) \/ (py_runs_out s /\ python_frames_loop fuel s acc = UB).
Proof.
  induction fuel as [|fuel IH]; intros s acc Hs; [lia|]. cbn [python_frames_loop]. destruct (frame_cases s) as [(r & f & q & Hr & Hf & ->)|[(r & Hr & Hn & ->)|[Hp ->]]]; cbn [bind].
  - pose proof (passed_length _ _ Hr). pose proof (body_shorter _ _ _ Hf). destruct (IH q (f :: acc)) as [(fs & rest & Hfs & E)|[Ho E]]; [lia| |].
    + left. exists (f :: fs), rest. split; [exact (pft_cons _ _ _ _ _ _ Hr Hf Hfs)|]. rewrite E. cbn [rev]. rewrite <- app_assoc. reflexivity.
    + right. split; [exact (pro_later _ _ _ _ Hr Hf Ho)|exact E].
  - left. exists [], r. split; [constructor; assumption|reflexivity].
  - right. split; [constructor; exact Hp|reflexivity].
Qed.
Lemma frame_text_fun s f q f' q' : py_frame_text s f q -> py_frame_text s f' q' -> f = f' /\ q = q'.
Proof. intros H H'. apply py_body_iff in H, H'. rewrite H in H'. injection H' as -> ->. auto. Qed.
Lemma frames_text_fun s fs rest : py_frames_text s fs rest -> forall fs' rest', py_frames_text s fs' rest' -> fs = fs' /\ rest = rest'.
Proof.
  induction 1 as [s r Hr Hn|s r f q fs rest Hr Hf Hfs IH]; intros fs' rest' H'; inversion H' as [s' r' Hr' Hn'|s' r' f' q' fs2 rest2 Hr' Hf' Hfs']; subst; rewrite (passed_fun _ _ _ Hr' Hr) in *.
  - auto.
  - destruct (Hn _ _ Hf').
  - destruct (Hn' _ _ Hf).
  - destruct (frame_text_fun _ _ _ _ _ Hf Hf') as [<- <-]. destruct (IH _ _ Hfs') as [-> ->]. auto.
Qed.
Lemma runs_out_excl s fs rest : py_frames_text s fs rest -> ~ py_runs_out s.
Proof.
  induction 1 as [s r Hr Hn|s r f q fs rest Hr Hf Hfs IH]; intros Ho; inversion Ho as [p Hp|s' r' f' q' Hr' Hf' Ho']; subst; try (exact (passed_not_pointers _ _ Hr Hp)); rewrite (passed_fun _ _ _ Hr' Hr) in *.
  - exact (Hn _ _ Hf').
  - destruct (frame_text_fun _ _ _ _ _ Hf Hf') as [<- <-]. exact (IH Ho').
Qed.
Lemma strstr_first hay needle : (exists r lc, sr_strstr_location hay needle = Ok (r, lc) /\ first_at needle hay r) \/ (sr_strstr_location hay needle = Fail /\ forall r, ~ first_at needle hay r).
Proof.
  pose proof (strstr_location_correct hay needle) as H. destruct (sr_strstr_location hay needle) as [[r [l c]]| |]; [|right|contradiction].
  - left. exists r, (l, c). split; [reflexivity|]. destruct H as (pre & (E & Hb & Hm) & _). exists pre. auto.
  - split; [reflexivity|]. intros r (a & E & [q ->] & _). exact (H _ _ E).
Qed.
Lemma first_at_fun needle s r r' : first_at needle s r -> first_at needle s r' -> r = r'.
Proof.
  intros (a & E & Hb & Hm) (a' & E' & Hb' & Hm'). pose proof (Hm _ _ E' Hb'). pose proof (Hm' _ _ E Hb). assert (Hl : length a = length a') by lia.
  rewrite E in E'. clear - E' Hl. revert a' Hl E'. induction a as [|x a IH]; intros [|y a'] Hl E; try discriminate Hl; [exact E|]. injection E as _ E. injection Hl as Hl. exact (IH _ Hl E).
Qed.
Definition py_found (input : str) : res str :=
  match sr_strstr_location (snd (sr_skip_char nl input)) header with
  | Ok (s, _) => Ok (skipn (length header) s)
  | UB => UB
  | Fail =>
    do (s, _) <- sr_strstr_location input (L "invalid syntax (");
    do (s, _) <- sr_strstr_location s (L "  File """);
    Ok s
  end.
Lemma found_cases s : (exists r, py_start s r /\ py_found s = Ok r) \/ ((forall r, ~ py_start s r) /\ py_found s = Fail).
Proof.
  assert (Hs1 : (s = nl :: snd (sr_skip_char nl s) \/ (snd (sr_skip_char nl s) = s /\ ~ begins [nl] s))).
  { destruct (skip_char_cases nl s) as [(q & -> & E)|[Hn E]]; rewrite E; auto. }
  assert (Hu : forall s1, (s = nl :: s1 \/ (s1 = s /\ ~ begins [nl] s)) -> s1 = snd (sr_skip_char nl s)).
  { intros s1 H. destruct (skip_char_cases nl s) as [(q & -> & E)|[Hn E]]; rewrite E; cbn [snd].
    - destruct H as [H|[-> H]]; [injection H as <-; reflexivity|]. exfalso. apply H. eexists. reflexivity.
    - destruct H as [->|[-> _]]; [exfalso; apply Hn; eexists; reflexivity|reflexivity]. }
  unfold py_found. set (s1 := snd (sr_skip_char nl s)) in *.
  destruct (strstr_first s1 header) as [(r & lc & -> & Hr)|[-> Hn]].
  - left. pose proof Hr as (a & _ & [q ->] & _). exists q. split; [|rewrite skipn_app_exact; reflexivity]. exists s1. auto.
  - destruct (strstr_first s (L "invalid syntax (")) as [(q & lc & -> & Hq)|[-> Hn2]]; cbn [bind].
    + destruct (strstr_first q (L "  File """)) as [(r & lc2 & -> & Hr)|[-> Hn3]]; cbn [bind].
      * left. exists r. split; [|reflexivity]. exists s1. split; [exact Hs1|]. right. split; [exact Hn|]. exists q. auto.
      * right. split; [|reflexivity]. intros r (s2 & H2 & H). rewrite (Hu _ H2) in H. destruct H as [H|[_ (q' & H3 & H4)]]; [destruct (Hn _ H)|].
        rewrite (first_at_fun _ _ _ _ H3 Hq) in H4. destruct (Hn3 _ H4).
    + right. split; [|reflexivity]. intros r (s2 & H2 & H). rewrite (Hu _ H2) in H. destruct H as [H|[_ (q' & H3 & H4)]]; [destruct (Hn _ H)|]. destruct (Hn2 _ H3).
Qed.
Lemma start_fun s r r' : py_start s r -> py_start s r' -> r = r'.
Proof.
  intros (s1 & H1 & H) (s2 & H2 & H').
  assert (s1 = s2) as <-. { destruct H1 as [->|[-> N1]], H2 as [E2|[E2 N2]]; subst; auto; try (injection E2 as ->; reflexivity); exfalso; [apply N2|apply N1]; eexists; reflexivity. }
  destruct H as [H|[Hn (q & H3 & H4)]], H' as [H'|[Hn' (q' & H3' & H4')]].
  - apply (app_inv_head header). exact (first_at_fun _ _ _ _ H H').
  - destruct (Hn' _ H).
  - destruct (Hn _ H').
  - rewrite (first_at_fun _ _ _ _ H3' H3) in H4'. exact (first_at_fun _ _ _ _ H4 H4').
Qed.
Lemma parse_split input : sr_python_stacktrace_parse input =
  do s <- py_found input;
  do (frames, s) <- python_frames_loop (S (length s)) s [];
  match frames with
  | [] => Fail
  | _ =>
    match sr_parse_char_cspan [":"%char; nl] s with
    | None => Fail
    | Some (exception_name, s) => Ok (mk_python_stacktrace (Some exception_name) frames, s)
    end
  end.
Proof. unfold sr_python_stacktrace_parse, py_found. destruct (sr_skip_char nl input) as [b s]. reflexivity. Qed.
Theorem py_iff s t rest : sr_python_stacktrace_parse s = Ok (t, rest) <-> py_text s t rest.
Proof.
  rewrite parse_split. destruct (found_cases s) as [(r & Hr & ->)|[Hn ->]]; cbn [bind].
  2:{ split; [discriminate|]. intros (r & fs & class & after & H & _). destruct (Hn _ H). }
  destruct (frames_loop_cases (S (length r)) r []) as [(fs & after & Hfs & ->)|[Ho ->]]; [lia| |]; cbn [bind].
  2:{ split; [discriminate|]. intros (r' & fs & class & after & H & Hfs & _). rewrite (start_fun _ _ _ H Hr) in Hfs. destruct (runs_out_excl _ _ _ Hfs Ho). }
  rewrite app_nil_r. split.
  - destruct (rev fs) as [|f0 fr] eqn:Er; [discriminate|]. destruct (sr_parse_char_cspan _ after) as [[class q]|] eqn:Ec; [|discriminate]. apply cspan_iff in Ec as (-> & Hne & Hw & Hs).
    intros H. injection H as <- <-. exists r, fs, class, (class ++ q). rewrite <- Er. repeat (split; [assumption || reflexivity|]). split; [intros ->; discriminate Er|]. repeat (split; [assumption || reflexivity|]). reflexivity.
  - intros (r' & fs' & class & after' & H & Hfs' & Hne & -> & Hc & Hw & Hs & ->). rewrite (start_fun _ _ _ H Hr) in Hfs'. destruct (frames_text_fun _ _ _ Hfs _ _ Hfs') as [<- ->].
    assert (Ec : sr_parse_char_cspan [":"%char; nl] (class ++ rest) = Some (class, rest)) by (apply cspan_iff; auto). rewrite Ec.
    destruct (rev fs) as [|f0 fr] eqn:Er; [|reflexivity]. apply (f_equal (@rev _)) in Er. rewrite rev_involutive in Er. cbn in Er. congruence.
Qed.
Theorem py_UB_iff s : sr_python_stacktrace_parse s = UB <-> exists r, py_start s r /\ py_runs_out r.
Proof.
  rewrite parse_split. destruct (found_cases s) as [(r & Hr & ->)|[Hn ->]]; cbn [bind].
  2:{ split; [discriminate|]. intros (r & H & _). destruct (Hn _ H). }
  destruct (frames_loop_cases (S (length r)) r []) as [(fs & after & Hfs & ->)|[Ho ->]]; [lia| |]; cbn [bind].
  - split.
    + destruct (rev fs ++ []); [discriminate|]. destruct (sr_parse_char_cspan _ after) as [[class q]|]; discriminate.
    + intros (r' & H & Ho). rewrite (start_fun _ _ _ H Hr) in Ho. destruct (runs_out_excl _ _ _ Hfs Ho).
  - split; [eauto|reflexivity].
Qed.
(** The formatted text is read back. *)
Lemma shown_py f file name q : py_showable f file name -> (pf_line_contents f = None -> ~ begins (L "    ") q) -> py_frame_text (py_show_frame print_N f file name ++ q) f q.
Proof.
  intros (Hf & Hn & Hl & Hq & Hh & Hp & Hnl & Hpn & Hc) Hnext. unfold py_show_frame.
  assert (Hbr : forall special nm, py_plain special nm -> bracketed (py_bracket special nm) nm special /\ py_bracket special nm <> []).
  { intros [|] nm H; [split; [reflexivity|discriminate]|]. destruct (H eq_refl) as [H1 H2]. split; [split; [reflexivity|exact H2]|exact H1]. }
  assert (Hin : forall special nm c, c <> "<"%char -> c <> ">"%char -> ~ In c nm -> ~ In c (py_bracket special nm)).
  { intros [|] nm c H1 H2 H3; [|exact H3]. unfold py_bracket. rewrite !in_app_iff. intros [[H|[]]|[H|[H|[]]]]; auto. }
  destruct (Hbr _ _ Hp) as [Hb1 Hb2]. destruct (Hbr _ _ Hpn) as [Hb3 Hb4].
  exists (py_bracket (pf_special_file f) file), file, file, (print_N (Z.to_N (pf_file_line f))), (Z.to_N (pf_file_line f)), name,
    (L ", in " ++ py_bracket (pf_special_function f) name ++ nl :: match pf_line_contents f with Some line => L "    " ++ line ++ [nl] | None => [] end ++ q),
    (match pf_line_contents f with Some line => L "    " ++ line ++ [nl] | None => [] end ++ q).
  split; [rewrite <- !app_assoc; reflexivity|]. split; [exact Hb2|]. split; [apply without_one, Hin; [discriminate|discriminate|exact Hq]|]. split; [apply print_number32; lia|]. split; [exact Hb1|].
  split; [right; split; [intros u r _ ->; apply Hh; eexists; reflexivity|reflexivity]|]. split; [exact Hf|]. split; [lia|].
  split. { eexists. split; [|left; reflexivity]. left. exists (py_bracket (pf_special_function f) name). split; [reflexivity|]. split; [exact Hb4|]. split; [apply without_one, Hin; [discriminate|discriminate|exact Hnl]|]. split; [left; reflexivity|exact Hb3]. }
  split; [exact Hn|]. destruct (pf_line_contents f) as [line|] eqn:El.
  - destruct (Hc line eq_refl) as [H1 H2]. split; [exact H1|]. split; [apply without_one; exact H2|]. left. rewrite <- !app_assoc. reflexivity.
  - right. split; [reflexivity|]. apply Hnext. reflexivity.
Qed.
Lemma shown_begins f text q : py_shows print_N f text -> begins (L "  File """) (text ++ q).
Proof. intros [f' file name _|f' file name line p _ _ _]; unfold py_show_frame; rewrite <- !app_assoc; eexists; reflexivity. Qed.
Lemma file_passed s : begins (L "  File """) s -> py_passed s s.
Proof.
  intros [q ->]. right. split; [reflexivity|].
  assert (Hno : forall p, begins (L "  F") p -> ~ pointers p). { intros p [z ->] H. inversion H as [|? ? _ H1]; subst. inversion H1 as [|? ? _ H2]; subst. inversion H2 as [|? ? H3 _]; subst. cbn in H3. intuition discriminate. }
  split; [apply Hno; eexists; reflexivity|]. intros p r E. apply Hno. assert (Hn : begins (L "  F") (p ++ nl :: r)) by (rewrite <- E; eexists; reflexivity).
  apply (begins_app_without _ _ _ _ Hn). cbn. intuition discriminate.
Qed.
Definition pending (pend : str) : Prop := pend = [] \/ exists p, pend = p ++ [nl] /\ pointers p.
Lemma pending_passed pend s : pending pend -> py_passed s s -> py_passed (pend ++ s) s.
Proof. intros [->|(p & -> & Hp)] H; [exact H|]. left. exists p. rewrite <- app_assoc. auto. Qed.
Lemma shown_split f text : py_shows print_N f text -> exists file name pend, py_showable f file name /\ text = py_show_frame print_N f file name ++ pend /\ pending pend /\ (pf_line_contents f = None -> pend = []).
Proof.
  intros [f' file name H|f' file name line p H E Hp]; exists file, name; [exists []|exists (p ++ [nl])]; (split; [exact H|]).
  - rewrite app_nil_r. split; [reflexivity|]. split; [left; reflexivity|reflexivity].
  - split; [reflexivity|]. split; [right; eauto|congruence].
Qed.
Theorem py_roundtrip fs texts class rest : Forall2 (py_shows print_N) fs texts -> fs <> [] ->
  without [":"%char; nl] class -> (exists c r, class = c :: r /\ ~ In c (L " ^~")) -> stops_at [":"%char; nl] rest ->
  sr_python_stacktrace_parse (header ++ concat texts ++ class ++ rest) = Ok (mk_python_stacktrace (Some class) (rev fs), rest).
Proof.
  intros Hfs Hne Hw (c & r & -> & Hc) Hs. apply py_iff. exists (concat texts ++ (c :: r) ++ rest), fs, (c :: r), ((c :: r) ++ rest).
  split. { exists (header ++ concat texts ++ (c :: r) ++ rest). split; [right; split; [reflexivity|]; intros [z E]; discriminate E|]. left. exists []. split; [reflexivity|]. split; [eexists; reflexivity|]. intros; cbn; lia. }
  split; [|split; [exact Hne|]; repeat (split; [first [assumption|reflexivity|discriminate]|]); reflexivity].
  assert (Hend : forall pend, pending pend -> py_frames_text (pend ++ (c :: r) ++ rest) [] ((c :: r) ++ rest)).
  { intros pend Hp. apply pft_end.
    - apply pending_passed; [exact Hp|]. right. split; [reflexivity|]. split; [intros H; inversion H; contradiction|]. intros p q E H. destruct p as [|x p]; [|injection E as <- _; inversion H; contradiction].
      injection E as -> _. inversion Hw as [|? ? H2 ?]; subst. apply H2. right. left. reflexivity.
    - intros f q (path & inner & shown & ds & ln & name & after & below & E & _). injection E as -> _. apply Hc. left. reflexivity. }
  clear Hne. change (concat texts ++ (c :: r) ++ rest) with ([] ++ concat texts ++ (c :: r) ++ rest). assert (Hp : pending []) by (left; reflexivity). revert Hp. generalize (@nil ascii) as pend.
  induction Hfs as [|f t fs ts Hf Hfs IH]; intros pend Hp; [exact (Hend _ Hp)|]. cbn [concat]. rewrite <- (app_assoc t).
  pose proof (file_passed _ (shown_begins _ _ (concat ts ++ (c :: r) ++ rest) Hf)) as Hpass.
  destruct (shown_split _ _ Hf) as (file & name & pend' & Hsh & -> & Hp' & Hno). eapply pft_cons; [apply pending_passed; [exact Hp|exact Hpass]| |].
  - rewrite <- app_assoc. apply shown_py; [exact Hsh|]. intros El [z E]. rewrite (Hno El) in E. cbn [app] in E. destruct Hfs as [|g u gs us Hg Hgs].
    + cbn in E. injection E as -> _. apply Hc. left. reflexivity.
    + cbn [concat] in E. rewrite <- (app_assoc u) in E. destruct (shown_begins _ _ (concat us ++ (c :: r) ++ rest) Hg) as [y Ey]. change (c :: r ++ rest) with ((c :: r) ++ rest) in E. rewrite Ey in E. discriminate E.
  - exact (IH _ Hp').
Qed.
Theorem py_frame_UB_iff s : sr_python_frame_parse s = UB <-> pointers s.
Proof.
  destruct (frame_cases s) as [(r & f & q & Hr & _ & ->)|[(r & Hr & _ & ->)|[Hp ->]]]; [| |tauto]; (split; [discriminate|intros H; destruct (passed_not_pointers _ _ Hr H)]).
Qed.
Theorem py_frame_iff s f q : sr_python_frame_parse s = Ok (Some f, q) <-> exists r, py_passed s r /\ py_frame_text r f q.
Proof.
  destruct (frame_cases s) as [(r & f' & q' & Hr & Hf & ->)|[(r & Hr & Hn & ->)|[Hp ->]]]; split; try discriminate.
  - intros H. injection H as <- <-. eauto.
  - intros (r' & Hr' & Hf'). rewrite (passed_fun _ _ _ Hr' Hr) in Hf'. destruct (frame_text_fun _ _ _ _ _ Hf Hf') as [<- <-]. reflexivity.
  - intros (r' & Hr' & Hf'). rewrite (passed_fun _ _ _ Hr' Hr) in Hf'. destruct (Hn _ _ Hf').
  - intros (r' & Hr' & Hf'). destruct (passed_not_pointers _ _ Hr' Hp).
Qed.
