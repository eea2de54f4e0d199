(** * Proofs: the dso_list file. *)
From Verif Require Import Base Types UtilsModel UtilsSpec UtilsProofs NormSpec CmpModel TextProofs TextProofs2 RpmModel RpmSpec RpmProofs.
Open Scope nat_scope.

Lemma sp_no_line line p : ~ In sp line -> ~ dso_line line p.
Proof.
  intros H (library & text & middle & digits & junk & name & n & version & release & architecture & time & -> & _).
  apply H, in_or_app. right. now left.
Qed.
Lemma skip_nospace u : ~ In sp u -> exists lib, ~ In nl lib /\ ~ In sp lib /\
  forall rest ls ps, lines (lib ++ rest) ls -> dso_lines ls ps -> exists ls', lines (u ++ rest) ls' /\ dso_lines ls' ps.
Proof.
  intros H. assert (K : exists k, length u < k) by (exists (S (length u)); lia). destruct K as [k K].
  revert u H K. induction k as [|k IH]; intros u H K; [lia|].
  pose proof (strchr_cases u nl) as C. destruct (strchr u nl) as [i|].
  - destruct C as (a & b & -> & <- & Ha). destruct (IH b) as (lib & H1 & H2 & H3).
    + intros X. apply H, in_or_app. right; now right.
    + rewrite app_length in K. cbn [length] in K. lia.
    + exists lib. split; [assumption|]. split; [assumption|]. intros rest ls ps L1 L2. destruct (H3 rest ls ps L1 L2) as (ls' & L3 & L4).
      exists (a :: ls'). split.
      * replace ((a ++ nl :: b) ++ rest) with (a ++ nl :: (b ++ rest)) by (rewrite <- app_assoc; reflexivity). now constructor.
      * apply dso_bad; [|assumption]. intros p. apply sp_no_line. intros X. apply H, in_or_app. now left.
  - exists u. split; [assumption|]. split; [assumption|]. intros rest ls ps L1 L2. now exists ls.
Qed.
Lemma infix_app_r (w a b : str) : infix w b -> infix w (a ++ b).
Proof. intros (x & y & ->). exists (a ++ x), y. now rewrite <- app_assoc. Qed.
Lemma infix_firstn k (s : str) : infix (firstn k s) s.
Proof. exists [], (skipn k s). cbn [app]. now rewrite firstn_skipn. Qed.

(** What is known of a line whose first space is followed by [b]. *)
Lemma dso_line_parts lib b p : ~ In sp lib -> dso_line (lib ++ sp :: b) p ->
  exists text c last m digits junk name n version release architecture time,
    b = text ++ sp :: c /\ ~ In sp text /\ b = m ++ sp :: last /\ ~ In sp last /\ 2 <= length text /\
    is_nevra text name n version release architecture /\ last = digits ++ junk /\
    decimal digits time /\ (time < 18446744073709551615)%N /\ (forall c r, junk = c :: r -> decimal_digit c = None) /\
    p = mk_rpm_package (Some name) (Z.of_N n) (Some version) (Some release) (Some architecture) (Z.of_N time) ROLE_UNKNOWN [].
Proof.
  intros Hlib (library & text & middle & digits & junk & name & n & version & release & architecture & time &
    E & H1 & H2 & H3 & H4 & H5 & H6 & H7 & H8 & H9 & H10).
  cbn [app] in E. apply split_first in E as [<- ->]; try assumption.
  assert (X : exists m, text ++ sp :: middle ++ digits ++ junk = m ++ sp :: digits ++ junk).
  { destruct H4 as [->|[m ->]]; [exists text; reflexivity|]. exists (text ++ sp :: m). cbn [app]. now rewrite <- !app_assoc. }
  destruct X as [m X].
  exists text, (middle ++ digits ++ junk), (digits ++ junk), m, digits, junk, name, n, version, release, architecture, time.
  rewrite X at 2. repeat split; auto.
Qed.
Lemma dso_line_no_second lib b p : ~ In sp lib -> ~ In sp b -> ~ dso_line (lib ++ sp :: b) p.
Proof.
  intros Hl Hb H. apply dso_line_parts in H as (text & c & _ & _ & _ & _ & _ & _ & _ & _ & _ & _ & -> & _); [|assumption].
  apply Hb, in_or_app. right; now left.
Qed.
Lemma from_char_none c s : ~ In c s -> from_char c s = None.
Proof. intros H. unfold from_char. now rewrite strchr_none. Qed.
Lemma from_char_app a c b : ~ In c a -> from_char c (a ++ c :: b) = Some (c :: b).
Proof. intros H. unfold from_char. rewrite strchr_app by assumption. cbn [option_map]. f_equal. now apply skipn_at. Qed.
Lemma dso_loop_none fuel : dso_loop fuel None = Ok [].
Proof. destruct fuel; reflexivity. Qed.
Lemma in_sp_nl a b : In sp (a ++ nl :: b) -> In sp a \/ In sp b.
Proof. intros H. apply in_app_or in H as [H|[H|H]]; auto. discriminate. Qed.
Lemma lines_nl rest ls ps : lines (nl :: rest) ls -> dso_lines ls ps -> exists ls', lines rest ls' /\ dso_lines ls' ps.
Proof.
  intros H K. inversion H as [s N E|l s r N R E].
  - elim N. now left.
  - destruct l as [|c l]; [|injection E as -> E; elim N; now left]. injection E as ->. subst ls.
    inversion K as [|? p ? qs A B C D|? ? qs A B C D]; subst.
    + elim (sp_no_line [] p); auto.
    + exists r. auto.
Qed.
Lemma last_number last :
  match sr_parse_uint64 last with
  | Some (v, _, _) => exists digits junk, last = digits ++ junk /\ decimal digits v /\ (v < 18446744073709551615)%N /\
      (forall c r, junk = c :: r -> decimal_digit c = None)
  | None => forall digits junk v, last = digits ++ junk -> decimal digits v -> (v < 18446744073709551615)%N ->
      ~ (forall c r, junk = c :: r -> decimal_digit c = None)
  end.
Proof.
  pose proof (parse_uint64_correct last) as H. destruct (sr_parse_uint64 last) as [[[v k] rest]|].
  - destruct H as (run & (E & Hr & Hrest) & Hn & _ & Hv). exists run, rest. split; [assumption|]. split; [assumption|].
    split; [assumption|]. intros c r ->. unfold is_numeral_char in Hrest. destruct (decimal_digit c); [elim Hrest; discriminate|reflexivity].
  - intros digits junk v E Hn Hv Hj. apply (H digits junk v); try assumption. split; [assumption|]. split.
    + apply decimal_digits in Hn as [_ Hn]. eapply Forall_impl; [|exact Hn]. intros c. apply is_digit_iff.
    + destruct junk as [|c r]; [exact Logic.I|]. unfold is_numeral_char. rewrite (Hj c r eq_refl). auto.
Qed.

Definition dso_ok (t : str) (r : res (list rpm_package)) : Prop :=
  match r with
  | Ok ps => ~ hazard t /\ exists ls, lines t ls /\ dso_lines ls ps
  | Fail => False
  | UB => hazard t
  end.
Lemma hazard_space t : hazard t -> In sp t.
Proof. intros (a & b & w & y & -> & _). apply in_or_app; right. apply in_or_app; right. now left. Qed.
Lemma app_split {A} (a b c d : list A) : a ++ b = c ++ d -> (exists e, c = a ++ e /\ b = e ++ d) \/ (exists e, a = c ++ e /\ d = e ++ b).
Proof.
  revert c. induction a as [|x a IH]; intros [|y c] E; cbn [app] in E.
  - left. now exists [].
  - left. exists (y :: c). auto.
  - right. exists (x :: a). auto.
  - injection E as -> E. destruct (IH c E) as [(e & -> & ->)|(e & -> & ->)]; [left|right]; now exists e.
Qed.
Lemma hazard_step u pos : ~ In sp u -> hazard (u ++ sp :: pos) ->
  (exists w y, pos = w ++ sp :: y /\ ~ In sp w /\ bad_epoch w) \/ (exists b rest, pos = b ++ nl :: rest /\ ~ In nl b /\ hazard (nl :: rest)).
Proof.
  intros Hu (pre & lib & w & y & E & Hpre & Hl1 & Hl2 & Hw & Hbad).
  rewrite app_assoc in E. apply app_split in E as [(e & E1 & E2)|(e & E1 & E2)].
  - destruct e as [|c e].
    { cbn [app] in E2. injection E2 as ->. left. now exists w, y. }
    cbn [app] in E2. injection E2 as <- E2. right.
    apply app_split in E1 as [(f & E1 & E3)|(f & E1 & E3)].
    { elim Hl2. rewrite E3. apply in_or_app. right; now left. }
    destruct f as [|d f]; [elim Hl2; cbn [app] in E3; rewrite <- E3; now left|]. cbn [app] in E3. injection E3 as <- E3.
    destruct Hpre as [->|[q Eq]]; [destruct u; discriminate|].
    assert (Z : exists z, f = z ++ [nl]).
    { rewrite E1 in Eq. destruct f as [|x f _] using rev_ind.
      - apply app_inj_tail in Eq as [_ Eq]. discriminate.
      - exists f. change (u ++ sp :: f ++ [x]) with (u ++ (sp :: f) ++ [x]) in Eq. rewrite app_assoc in Eq. apply app_inj_tail in Eq as [_ ->]. reflexivity. }
    destruct Z as [z Z].
    pose proof (strchr_cases pos nl) as C. destruct (strchr pos nl) as [k|].
    2:{ elim C. rewrite E2, E3, Z. rewrite <- !app_assoc. apply in_or_app. right; now left. }
    destruct C as (b & rest & Eb & _ & Hb). exists b, rest. split; [assumption|]. split; [assumption|].
    rewrite Eb, E3, <- app_assoc in E2. apply app_split in E2 as [(g & G1 & G2)|(g & G1 & G2)].
    + destruct g as [|h g].
      { rewrite app_nil_r in G1. elim Hb. rewrite <- G1, Z. apply in_or_app. right; now left. }
      exists (h :: g), lib, w, y. split; [assumption|]. split; [|auto]. right.
      rewrite Z in G1. destruct (h :: g) as [|x g' _] eqn:Eg using rev_ind; [discriminate|].
      rewrite app_assoc in G1. apply app_inj_tail in G1 as [_ <-]. now exists g'.
    + elim Hb. rewrite G1, Z. apply in_or_app; left. apply in_or_app; right. now left.
  - destruct e as [|c e].
    { cbn [app] in E2. injection E2 as E2. subst pos. left. now exists w, y. }
    cbn [app] in E2. injection E2 as <- E2. elim Hu. rewrite E1. apply in_or_app. right; now left.
Qed.
Lemma hazard_more u b rest : hazard (nl :: rest) -> hazard (u ++ sp :: b ++ nl :: rest).
Proof.
  intros (pre & lib & w & y & E & Hpre & Hl1 & Hl2 & Hw & Hbad).
  exists ((u ++ sp :: b) ++ pre), lib, w, y. split; [rewrite <- app_assoc, <- E, <- app_assoc; reflexivity|]. split; [|auto].
  right. destruct Hpre as [->|[q ->]].
  - destruct lib as [|c lib]; [discriminate|]. cbn [app] in E. injection E as E _. subst c. elim Hl1. now left.
  - exists ((u ++ sp :: b) ++ q). now rewrite app_assoc.
Qed.
Lemma hazard_here u w y : ~ In sp u -> ~ In sp w -> bad_epoch w -> hazard (u ++ sp :: w ++ sp :: y).
Proof.
  intros Hu Hw Hb. pose proof (strrchr_cases u nl) as C. destruct (strrchr u nl) as [k|].
  - destruct C as (a & lib & -> & _ & Hl). exists (a ++ [nl]), lib, w, y. split; [rewrite <- !app_assoc; reflexivity|].
    split; [right; now exists a|]. split; [assumption|]. split; [|auto]. intros X. apply Hu, in_or_app. right; now right.
  - exists [], u, w, y. auto 10.
Qed.
Lemma bad_epoch_long w : bad_epoch w -> 2 <= length w.
Proof.
  intros (n & e & v & r & a & (-> & _) & _). rewrite !app_length. change (length (L "-")) with 1. change (length (L ".")) with 1. lia.
Qed.
Lemma dso_loop_ok fuel : forall t, length t < fuel -> dso_ok t (dso_loop fuel (Some t)).
Proof.
  induction fuel as [|fuel IH]; intros t Hf; [lia|].
  destruct t as [|c0 t0].
  { split; [intros X; elim (hazard_space _ X)|]. exists []. split; [apply lines_last; intros []|apply dso_none]. }
  remember (c0 :: t0) as t eqn:Et.
  assert (St : dso_loop (S fuel) (Some t) = match from_char sp t with
      | None => dso_loop fuel None
      | Some at_space =>
        let pos := skipn 1 at_space in
        match strchr pos sp with
        | None => dso_loop fuel (from_char nl pos)
        | Some len =>
          if len <=? 1 then dso_loop fuel (from_char nl pos)
          else
            match sr_rpm_package_parse_nevra (firstn len pos) with
            | Dangling => UB
            | Rejected => dso_loop fuel (from_char nl pos)
            | Accepted name epoch version release architecture =>
              match strchr pos nl with
              | None => Ok []
              | Some eol =>
                let line := firstn eol pos in
                match strrchr line sp with
                | None => dso_loop fuel (from_char nl pos)
                | Some i =>
                  match sr_parse_uint64 (skipn (i + 1) line) with
                  | None => dso_loop fuel (from_char nl pos)
                  | Some (install_time, _, _) =>
                    do rest <- dso_loop fuel (from_char nl pos);
                    Ok (mk_rpm_package (Some name) (Z.of_N epoch) (Some version) (Some release) (Some architecture)
                          (Z.of_N install_time) ROLE_UNKNOWN [] :: rest)
                  end
                end
              end
            end
        end
      end) by now rewrite Et.
  rewrite St. clear St Et c0 t0.
  destruct (in_dec ascii_dec sp t) as [Hin|Hn].
  2:{ rewrite from_char_none, dso_loop_none by assumption. split; [intros X; now apply Hn, hazard_space|].
      destruct (skip_nospace t Hn) as (lib & L1 & L2 & L3). destruct (L3 [] [] []) as (ls & A & B).
      - rewrite app_nil_r. now constructor.
      - constructor.
      - rewrite app_nil_r in A. exists ls. auto. }
  pose proof (strchr_cases t sp) as C. destruct (strchr t sp) as [i|]; [|contradiction].
  destruct C as (u & pos & -> & _ & Hu). clear Hin i.
  rewrite from_char_app by assumption. cbn [skipn]. cbv zeta.
  destruct (skip_nospace u Hu) as (lib & L1 & L2 & L3).
  assert (Hfirst : forall len, strchr pos sp = Some len -> sr_rpm_package_parse_nevra (firstn len pos) = Dangling ->
            dso_ok (u ++ sp :: pos) UB).
  { intros len El Ed. pose proof (strchr_cases pos sp) as C. rewrite El in C. destruct C as (a & b & -> & <- & Ha).
    rewrite firstn_app, firstn_all, Nat.sub_diag in Ed. cbn [firstn] in Ed. rewrite app_nil_r in Ed.
    apply hazard_here; try assumption. now apply nevra_dangling. }
  assert (NH : (forall len, strchr pos sp = Some len -> sr_rpm_package_parse_nevra (firstn len pos) = Dangling -> False) ->
            hazard (u ++ sp :: pos) -> exists b rest, pos = b ++ nl :: rest /\ ~ In nl b /\ hazard (nl :: rest)).
  { intros H X. apply hazard_step in X as [(w & y & -> & Hw & Hb)|X]; [exfalso|exact X|exact Hu].
    apply (H (length w)); [now apply strchr_app|]. rewrite firstn_app, firstn_all, Nat.sub_diag. cbn [firstn]. rewrite app_nil_r.
    now apply nevra_dangling. }
  assert (Short : forall len, len <= 1 -> sr_rpm_package_parse_nevra (firstn len pos) <> Dangling).
  { intros len Hl E. apply nevra_dangling, bad_epoch_long in E. rewrite firstn_length in E. lia. }
  destruct (in_dec ascii_dec nl pos) as [Hin|Hn].
  2:{ (* the last line *)
      assert (E : (forall len, strchr pos sp = Some len -> sr_rpm_package_parse_nevra (firstn len pos) = Dangling -> False) ->
                dso_ok (u ++ sp :: pos) (Ok [])).
      { intros H. split.
        - intros X. apply (NH H) in X as (b & rest & -> & _). apply Hn, in_or_app. right; now left.
        - cbn. apply (L3 (sp :: pos) [] []); [constructor; intros X; apply in_app_or in X as [X|[X|X]]; [auto|discriminate|auto]|constructor]. }
      rewrite from_char_none, dso_loop_none by assumption. rewrite (strchr_none pos nl) by assumption.
      destruct (strchr pos sp) as [len|] eqn:El; [|apply E; congruence].
      destruct (Nat.leb_spec len 1); [apply E; intros k [= <-]; now apply Short|].
      destruct (sr_rpm_package_parse_nevra (firstn len pos)) eqn:Ed; [| |now apply (Hfirst len)]; apply E; intros k [= <-]; congruence. }
  pose proof (strchr_cases pos nl) as C. destruct (strchr pos nl) as [eol|] eqn:Eeol; [|contradiction].
  destruct C as (b & rest & -> & <- & Hb). clear Hin.
  rewrite from_char_app by assumption.
  assert (Fb : firstn (length b) (b ++ nl :: rest) = b) by (rewrite firstn_app, firstn_all, Nat.sub_diag; cbn [firstn]; apply app_nil_r).
  rewrite Fb.
  assert (IHr : dso_ok (nl :: rest) (dso_loop fuel (Some (nl :: rest)))).
  { apply IH. rewrite app_length in Hf. cbn [length] in Hf. rewrite app_length in Hf. cbn [length] in *. lia. }
  assert (Lb : ~ In nl (lib ++ sp :: b)) by (intros X; apply in_app_or in X as [X|[X|X]]; [auto|discriminate|auto]).
  assert (NH2 : (forall len, strchr (b ++ nl :: rest) sp = Some len -> sr_rpm_package_parse_nevra (firstn len (b ++ nl :: rest)) = Dangling -> False) ->
            ~ hazard (nl :: rest) -> ~ hazard (u ++ sp :: b ++ nl :: rest)).
  { intros H N X. apply (NH H) in X as (b' & rest' & E & Hb' & X). apply split_first in E as [_ <-]; auto. }
  assert (Skip : (forall len, strchr (b ++ nl :: rest) sp = Some len -> sr_rpm_package_parse_nevra (firstn len (b ++ nl :: rest)) = Dangling -> False) ->
            (forall p, ~ dso_line (lib ++ sp :: b) p) -> dso_ok (u ++ sp :: b ++ nl :: rest) (dso_loop fuel (Some (nl :: rest)))).
  { intros H Bad. destruct (dso_loop fuel (Some (nl :: rest))) as [ps| |]; cbn in IHr |- *.
    - destruct IHr as (N & ls & A & B). split; [apply NH2; assumption|]. apply (lines_nl _ _ _ A) in B as (ls' & A' & B').
      apply (L3 (sp :: b ++ nl :: rest) ((lib ++ sp :: b) :: ls') ps).
      + replace (lib ++ sp :: b ++ nl :: rest) with ((lib ++ sp :: b) ++ nl :: rest) by (rewrite <- app_assoc; reflexivity). now constructor.
      + now apply dso_bad.
    - exact IHr.
    - now apply hazard_more. }
  destruct (in_dec ascii_dec sp b) as [Hsp|Hsp].
  2:{ (* one space only in the line *)
      assert (Bad : forall p, ~ dso_line (lib ++ sp :: b) p) by (intros p; now apply dso_line_no_second).
      destruct (strchr (b ++ nl :: rest) sp) as [len|] eqn:El; [|apply Skip; [congruence|assumption]].
      destruct (Nat.leb_spec len 1); [apply Skip; [intros k [= <-]; now apply Short|assumption]|].
      destruct (sr_rpm_package_parse_nevra (firstn len _)) eqn:Ed.
      - rewrite strrchr_none by assumption. apply Skip; [|assumption]. intros k [= <-]; congruence.
      - apply Skip; [|assumption]. intros k [= <-]; congruence.
      - now apply (Hfirst len). }
  pose proof (strchr_cases b sp) as C. destruct (strchr b sp) as [len|]; [|contradiction]. destruct C as (n & c & Eb & <- & Hn).
  assert (El : strchr (b ++ nl :: rest) sp = Some (length n)).
  { rewrite Eb. rewrite <- app_assoc. cbn [app]. now apply strchr_app. }
  assert (Fn : firstn (length n) (b ++ nl :: rest) = n).
  { rewrite Eb, <- app_assoc, firstn_app, firstn_all, Nat.sub_diag. cbn [firstn]. apply app_nil_r. }
  rewrite El in Hfirst, Skip, NH2 |- *. rewrite Fn.
  assert (Uniq : forall text c' , b = text ++ sp :: c' -> ~ In sp text -> text = n).
  { intros text c' E H. rewrite Eb in E. apply split_first in E as [-> _]; auto. }
  destruct (Nat.leb_spec (length n) 1) as [Hlen|Hlen].
  { apply Skip; [intros k [= <-]; now apply Short|]. intros p Hp. apply dso_line_parts in Hp as (text & c' & _ & _ & _ & _ & _ & _ & _ & _ & _ & _ & E & H & _ & _ & H5 & _); [|assumption].
    rewrite (Uniq _ _ E H) in H5. lia. }
  destruct (sr_rpm_package_parse_nevra n) as [name epoch version release architecture| |] eqn:En.
  - assert (ND : forall len, Some (length n) = Some len -> sr_rpm_package_parse_nevra (firstn len (b ++ nl :: rest)) = Dangling -> False)
      by (intros k [= <-]; rewrite Fn; congruence).
    pose proof (strrchr_cases b sp) as C. destruct (strrchr b sp) as [j|]; [|contradiction].
    destruct C as (m & last & Em & <- & Hlast).
    assert (Sl : skipn (length m + 1) b = last).
    { rewrite Em. change (m ++ sp :: last) with (m ++ [sp] ++ last). rewrite app_assoc. apply skipn_at. rewrite app_length. reflexivity. }
    rewrite Sl. pose proof (last_number last) as Hnum.
    destruct (sr_parse_uint64 last) as [[[time k] rest']|].
    + destruct Hnum as (digits & junk & Elast & Hd & Ht & Hj).
      set (p := mk_rpm_package _ _ _ _ _ _ _ _).
      assert (Good : dso_line (lib ++ sp :: b) p).
      { assert (M : exists middle, (middle = [] \/ exists q, middle = q ++ [sp]) /\ c = middle ++ last).
        { rewrite Em in Eb. clear - Eb Hn Hlast. revert n Eb Hn. induction m as [|x m IHm]; intros [|y n] E Hn; cbn [app] in E.
          - injection E as ->. exists []. auto.
          - injection E as <- E. exfalso. apply Hn. now left.
          - injection E as -> <-. exists (m ++ [sp]). split; [right; now exists m|]. now rewrite <- app_assoc.
          - injection E as -> E. apply (IHm n); [assumption|]. intros X; apply Hn. now right. }
        destruct M as (middle & M1 & M2).
        exists lib, n, middle, digits, junk, name, epoch, version, release, architecture, time.
        apply nevra_accepted in En.
        split; [rewrite Eb, M2, Elast; reflexivity|]. rewrite <- Elast. repeat split; auto. }
      destruct (dso_loop fuel (Some (nl :: rest))) as [ps| |]; cbn [bind].
      * destruct IHr as (N & ls & A & B). split; [now apply NH2|]. apply (lines_nl _ _ _ A) in B as (ls' & A' & B').
        cbn. apply (L3 (sp :: b ++ nl :: rest) ((lib ++ sp :: b) :: ls') (p :: ps)).
        -- replace (lib ++ sp :: b ++ nl :: rest) with ((lib ++ sp :: b) ++ nl :: rest) by (rewrite <- app_assoc; reflexivity). now constructor.
        -- now apply dso_good.
      * exact IHr.
      * now apply hazard_more.
    + apply Skip; [exact ND|]. intros p Hp.
      apply dso_line_parts in Hp as (text & c' & last' & m' & digits & junk & ? & ? & ? & ? & ? & time & _ & _ & E & H & _ & _ & E2 & Hd & Ht & Hj & _); [|assumption].
      rewrite Em in E. apply split_last in E as [_ <-]; try assumption. eapply Hnum; eassumption.
  - apply Skip; [intros k [= <-]; rewrite Fn; congruence|]. intros p Hp.
    apply dso_line_parts in Hp as (text & c' & _ & _ & _ & _ & ? & ? & ? & ? & ? & _ & E & H & _ & _ & _ & Hnv & _); [|assumption].
    rewrite (Uniq _ _ E H) in Hnv. apply nevra_accepted in Hnv. congruence.
  - apply (Hfirst (length n)); [reflexivity|]. now rewrite Fn.
Qed.
Theorem dso_correct text :
  match sr_abrt_parse_dso_list text with
  | Ok ps => ~ hazard text /\ exists ls, lines text ls /\ dso_lines ls ps
  | Fail => False
  | UB => hazard text
  end.
Proof. exact (dso_loop_ok (S (length text)) text (Nat.lt_succ_diag_r _)). Qed.

(** The line specification determines the packages. *)
Lemma lines_fun t ls : lines t ls -> forall ls', lines t ls' -> ls = ls'.
Proof.
  induction 1 as [s N|l s r N R IH]; intros ls' H'; inversion H' as [s' N' E|l' s' r' N' R' E]; subst; auto.
  - elim N. apply in_or_app; right; now left.
  - elim N'. apply in_or_app; right; now left.
  - apply split_first in E as [-> ->]; try assumption. f_equal. now apply IH.
Qed.
Lemma numeral_unique digits junk v digits' junk' v' :
  digits ++ junk = digits' ++ junk' -> decimal digits v -> decimal digits' v' ->
  (forall c r, junk = c :: r -> decimal_digit c = None) -> (forall c r, junk' = c :: r -> decimal_digit c = None) -> v = v'.
Proof.
  intros E D D' J J'.
  assert (M : forall d j w, decimal d w -> (forall c r, j = c :: r -> decimal_digit c = None) -> max_run (is_numeral_char decimal_digit) (d ++ j) d j).
  { intros d j w H K. split; [reflexivity|]. split.
    - apply decimal_digits in H as [_ H]. eapply Forall_impl; [|exact H]. intros c. apply is_digit_iff.
    - destruct j as [|c r]; [exact Logic.I|]. unfold is_numeral_char. rewrite (K c r eq_refl). auto. }
  pose proof (M _ _ _ D J) as M1. pose proof (M _ _ _ D' J') as M2. rewrite <- E in M2.
  destruct (max_run_unique _ _ _ _ _ _ M1 M2) as [-> _]. apply decimal_horner in D, D'. congruence.
Qed.
Lemma dso_line_fun line p q : dso_line line p -> dso_line line q -> p = q.
Proof.
  intros Hp Hq. pose proof Hp as (lib & x1 & x2 & x3 & x4 & x5 & x6 & x7 & x8 & x9 & x10 & E & Hl & _).
  rewrite E in Hp, Hq. cbn [app] in Hp, Hq.
  apply dso_line_parts in Hp as (t1 & c1 & l1 & m1 & d1 & j1 & n1 & k1 & v1 & r1 & a1 & w1 & A1 & B1 & C1 & D1 & E1 & F1 & G1 & H1 & I1 & J1 & ->); [|assumption].
  apply dso_line_parts in Hq as (t2 & c2 & l2 & m2 & d2 & j2 & n2 & k2 & v2 & r2 & a2 & w2 & A2 & B2 & C2 & D2 & E2 & F2 & G2 & H2 & I2 & J2 & ->); [|assumption].
  rewrite A1 in A2. apply split_first in A2 as [<- _]; try assumption.
  rewrite C1 in C2. apply split_last in C2 as [_ <-]; try assumption.
  apply nevra_accepted in F1, F2. rewrite F1 in F2. injection F2 as <- <- <- <- <-.
  rewrite G1 in G2. now rewrite (numeral_unique _ _ _ _ _ _ G2 H1 H2 J1 J2).
Qed.
Lemma dso_lines_fun ls ps : dso_lines ls ps -> forall qs, dso_lines ls qs -> ps = qs.
Proof.
  induction 1 as [|l p r ps A B IH|l r ps A B IH]; intros qs H; inversion H; subst; auto.
  - f_equal; [eapply dso_line_fun; eassumption|auto].
  - elim (H2 p). assumption.
  - elim (A p). assumption.
Qed.

(** ** Formatted files *)
Lemma dso_good_step fuel u n middle digits junk name epoch version release architecture time rest :
  ~ In sp u -> ~ In nl n -> ~ In sp n -> 2 <= length n -> sr_rpm_package_parse_nevra n = Accepted name epoch version release architecture ->
  ~ In nl middle -> (middle = [] \/ exists q, middle = q ++ [sp]) -> ~ In nl (digits ++ junk) -> ~ In sp (digits ++ junk) ->
  decimal digits time -> (time < 18446744073709551615)%N -> (forall c r, junk = c :: r -> decimal_digit c = None) ->
  dso_loop (S fuel) (Some (u ++ sp :: n ++ sp :: middle ++ digits ++ junk ++ nl :: rest)) =
  do ps <- dso_loop fuel (Some (nl :: rest));
  Ok (mk_rpm_package (Some name) (Z.of_N epoch) (Some version) (Some release) (Some architecture) (Z.of_N time) ROLE_UNKNOWN [] :: ps).
Proof.
  intros Hu N1 N2 Hlen Hn M1 M2 D1 D2 Hd Ht Hj.
  set (b := n ++ sp :: middle ++ digits ++ junk).
  assert (E : n ++ sp :: middle ++ digits ++ junk ++ nl :: rest = b ++ nl :: rest).
  { unfold b. rewrite <- !app_assoc. cbn [app]. now rewrite <- !app_assoc. }
  rewrite E. remember (u ++ sp :: b ++ nl :: rest) as t eqn:Et.
  assert (Fs : from_char sp t = Some (sp :: b ++ nl :: rest)) by (rewrite Et; now apply from_char_app).
  assert (Nb : ~ In nl b).
  { unfold b. intros X. apply in_app_or in X as [X|[X|X]]; [auto|discriminate|]. apply in_app_or in X as [X|X]; auto. }
  assert (El : strchr (b ++ nl :: rest) sp = Some (length n)).
  { unfold b. rewrite <- app_assoc. cbn [app]. now apply strchr_app. }
  assert (Fn : firstn (length n) (b ++ nl :: rest) = n).
  { unfold b. rewrite <- app_assoc, firstn_app, firstn_all, Nat.sub_diag. cbn [firstn]. apply app_nil_r. }
  assert (Eo : strchr (b ++ nl :: rest) nl = Some (length b)) by now apply strchr_app.
  assert (Fb : firstn (length b) (b ++ nl :: rest) = b) by (rewrite firstn_app, firstn_all, Nat.sub_diag; cbn [firstn]; apply app_nil_r).
  assert (X : exists m, b = m ++ sp :: digits ++ junk).
  { unfold b. destruct M2 as [->|[m ->]]; [exists n; reflexivity|]. exists (n ++ sp :: m). cbn [app]. now rewrite <- !app_assoc. }
  destruct X as [m Em].
  assert (Er : strrchr b sp = Some (length m)) by (rewrite Em; now apply strrchr_app).
  assert (Sl : skipn (length m + 1) b = digits ++ junk).
  { rewrite Em. change (m ++ sp :: digits ++ junk) with (m ++ [sp] ++ digits ++ junk). rewrite app_assoc. apply skipn_at. rewrite app_length. reflexivity. }
  assert (Pu : exists k r, sr_parse_uint64 (digits ++ junk) = Some (time, k, r)).
  { pose proof (last_number (digits ++ junk)) as H. destruct (sr_parse_uint64 (digits ++ junk)) as [[[v k] r]|].
    - destruct H as (d & j & Ed & H1 & H2 & H3). exists k, r. now rewrite (numeral_unique _ _ _ _ _ _ Ed Hd H1 Hj H3).
    - elim (H digits junk time); auto. }
  destruct Pu as (k & r & Pu).
  destruct t as [|c0 t0]; [destruct u; discriminate|].
  cbn [dso_loop]. rewrite Fs. cbn [skipn]. cbv zeta. rewrite El, Fn. replace (length n <=? 1) with false by (symmetry; apply Nat.leb_gt; lia).
  rewrite Hn, Eo, Fb, Er, Sl, Pu. rewrite from_char_app by assumption. reflexivity.
Qed.
