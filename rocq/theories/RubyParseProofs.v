(** * Proofs about the Ruby parser. *)
From Verif Require Import Base Types UtilsSpec UtilsModel UtilsProofs JsonModel RpmProofs4 ParseSpec ParseModel ParseProofs RubyParseModel RubyParseSpec.
Open Scope nat_scope.

Lemma iter_r {A} (g : A -> A) n x : Nat.iter (S n) g x = Nat.iter n g (g x).
Proof. induction n as [|n IH]; [reflexivity|]. change (g (Nat.iter (S n) g x) = g (Nat.iter n g (g x))). f_equal. exact IH. Qed.
Lemma rescues_ok fuel : forall s level, length s < fuel -> exists n after, s = concat (repeat (L "rescue in ") n) ++ after /\
  ~ begins (L "rescue in ") after /\ skip_rescues fuel s level = Ok (Nat.iter n (fun l => (l + 1) mod two32)%Z level, after).
Proof.
  induction fuel as [|fuel IH]; intros s level Hl; [lia|]. cbn [skip_rescues].
  destruct (skip_string_cases (L "rescue in ") s) as [(r & -> & E)|[H E]]; rewrite E.
  - change (length (L "rescue in ")) with 10. cbv beta iota.
    destruct (IH r ((level + 1) mod two32)%Z) as (n & after & -> & Ha & Hr); [rewrite app_length in Hl; change (length (L "rescue in ")) with 10 in Hl; lia|].
    exists (S n), after. split; [cbn [repeat concat]; rewrite <- app_assoc; reflexivity|]. split; [exact Ha|]. rewrite Hr.
    rewrite iter_r. reflexivity.
  - exists 0, s. auto.
Qed.
Lemma iter_mod n : Nat.iter n (fun l => (l + 1) mod two32)%Z 0%Z = (Z.of_nat n mod 2 ^ 32)%Z.
Proof.
  induction n as [|n IH]; [reflexivity|]. cbn [Nat.iter nat_rect]. unfold Nat.iter in IH. rewrite IH. change two32 with (2 ^ 32)%Z.
  rewrite Z.add_mod_idemp_l by lia. f_equal. lia.
Qed.

(** The parts after the backtick determine each other. *)
Lemma rescues_unique n : forall m a b, concat (repeat (L "rescue in ") n) ++ a = concat (repeat (L "rescue in ") m) ++ b ->
  ~ begins (L "rescue in ") a -> ~ begins (L "rescue in ") b -> n = m /\ a = b.
Proof.
  induction n as [|n IH]; intros [|m] a b E Ha Hb; cbn [repeat concat] in E; rewrite ?app_nil_l, <- ?app_assoc in E.
  - auto.
  - exfalso. apply Ha. eexists. exact E.
  - exfalso. apply Hb. eexists. symmetry. exact E.
  - apply app_inv_head in E. destruct (IH m a b E Ha Hb) as [-> ->]. auto.
Qed.
Lemma not_block s : begins (L "block in ") s -> begins (L "block (") s -> False.
Proof. intros [a ->] [b E]. discriminate E. Qed.
Lemma levels_not_digit t : ~ starts_with_digit (L " levels) in " ++ t).
Proof. cbn. intros H. apply H. reflexivity. Qed.
Lemma blocks_iff s level rest : skip_blocks s = Ok (level, rest) <->
  (s = L "block in " ++ rest /\ level = 1%Z) \/
  (exists ds v, s = L "block (" ++ ds ++ L " levels) in " ++ rest /\ number32 ds v /\ level = Z.of_N v) \/
  (s = rest /\ ~ begins (L "block in ") s /\ ~ begins (L "block (") s /\ level = 0%Z).
Proof.
  unfold skip_blocks. destruct (skip_string_cases (L "block in ") s) as [(r & -> & E)|[H E]]; rewrite E.
  - change (length (L "block in ")) with 9. cbv beta iota. split.
    + intros Hx. injection Hx as <- <-. left. auto.
    + intros [[Hx ->]|[(ds & v & Hx & _)|(_ & Hn & _)]]; [apply app_inv_head in Hx; subst; reflexivity|discriminate Hx|].
      exfalso. apply Hn. eexists. reflexivity.
  - destruct (skip_string_cases (L "block (") s) as [(r & -> & E2)|[H2 E2]]; rewrite E2.
    + change (length (L "block (")) with 7. cbv beta iota. destruct (sr_parse_uint32 r) as [[[v n] r2]|] eqn:E3.
      * apply uint32_iff in E3 as (ds & -> & Hn & -> & Hd). destruct (skip_string_cases (L " levels) in ") r2) as [(r3 & -> & E4)|[H4 E4]]; rewrite E4.
        -- change (length (L " levels) in ")) with 12. cbv beta iota. split.
           ++ intros Hx. injection Hx as <- <-. right. left. exists ds, v. auto.
           ++ intros [[Hx ->]|[(ds' & v' & Hx & Hn' & ->)|(_ & _ & Hn' & _)]]; [discriminate Hx| |exfalso; apply Hn'; eexists; reflexivity].
              apply app_inv_head in Hx.
              assert (U : sr_parse_uint32 (ds ++ L " levels) in " ++ r3) = Some (v', length ds', L " levels) in " ++ rest))
                by (rewrite Hx; apply uint32_iff; exists ds'; repeat split; try apply Hn'; apply levels_not_digit).
              assert (U2 : sr_parse_uint32 (ds ++ L " levels) in " ++ r3) = Some (v, length ds, L " levels) in " ++ r3))
                by (apply uint32_iff; exists ds; repeat split; try apply Hn; apply levels_not_digit).
              rewrite U2 in U. injection U as -> _ U. subst. reflexivity.
        -- split; [discriminate|]. intros [[Hx ->]|[(ds' & v' & Hx & Hn' & ->)|(_ & _ & Hn' & _)]]; [discriminate Hx| |exfalso; apply Hn'; eexists; reflexivity].
           exfalso. apply app_inv_head in Hx.
           assert (U : sr_parse_uint32 (ds ++ r2) = Some (v', length ds', L " levels) in " ++ rest))
             by (rewrite Hx; apply uint32_iff; exists ds'; repeat split; try apply Hn'; apply levels_not_digit).
           assert (U2 : sr_parse_uint32 (ds ++ r2) = Some (v, length ds, r2)) by (apply uint32_iff; exists ds; repeat split; try apply Hn; exact Hd).
           rewrite U2 in U. injection U as _ _ U. apply H4. eexists. exact U.
      * split; [discriminate|]. intros [[Hx ->]|[(ds' & v' & Hx & Hn' & ->)|(_ & _ & Hn' & _)]]; [discriminate Hx| |exfalso; apply Hn'; eexists; reflexivity].
        exfalso. apply app_inv_head in Hx. subst r. rewrite uint32_none in E3. apply (levels_not_digit rest). exact (E3 _ _ _ eq_refl Hn').
    + split.
      * intros Hx. injection Hx as <- <-. right. right. auto.
      * intros [[-> _]|[(ds & v & -> & _)|(-> & _ & _ & ->)]]; [exfalso; apply H; eexists; reflexivity|exfalso; apply H2; eexists; reflexivity|reflexivity].
Qed.
Lemma blocks_not_UB s : skip_blocks s <> UB.
Proof.
  unfold skip_blocks. destruct (sr_skip_string (L "block in ") s) as [[|] ?]; [|discriminate]. destruct (sr_skip_string (L "block (") _) as [[|] ?]; [discriminate|].
  destruct (sr_parse_uint32 _) as [[[? ?] r]|]; [|discriminate]. destruct (sr_skip_string (L " levels) in ") r) as [[|] ?]; discriminate.
Qed.

(** One frame. *)
Lemma name_iff text name special rest : ruby_name text name special rest <->
  exists s1 s2 s3, sr_skip_char "<" text = (special, s1) /\ sr_parse_char_cspan (L "'>") s1 = Some (name, s2) /\
    (if special then sr_skip_char ">" s2 else (true, s2)) = (true, s3) /\ sr_skip_char "'" s3 = (true, rest).
Proof.
  split.
  - intros (Hne & Hw & H). destruct special.
    + subst text. exists (name ++ L ">'" ++ rest), (L ">'" ++ rest), (L "'" ++ rest). split; [reflexivity|]. split; [|split; reflexivity].
      apply cspan_iff. repeat split; auto. cbn. auto.
    + destruct H as [-> Hb]. exists (name ++ L "'" ++ rest), (L "'" ++ rest), (L "'" ++ rest). split; [|split; [|split; reflexivity]].
      * destruct (skip_char_cases "<" (name ++ L "'" ++ rest)) as [(r & E & _)|[_ E]]; [|exact E]. exfalso. apply Hb.
        destruct name as [|c name]; [congruence|]. injection E as -> _. eexists. reflexivity.
      * apply cspan_iff. repeat split; auto. cbn. auto.
  - intros (s1 & s2 & s3 & H1 & H2 & H3 & H4). apply cspan_iff in H2 as (-> & Hne & Hw & Hs). split; [exact Hne|]. split; [exact Hw|].
    destruct (skip_char_cases "'" s3) as [(r & -> & E)|[_ E]]; rewrite E in H4; [|discriminate]. injection H4 as ->.
    destruct (skip_char_cases "<" text) as [(t & -> & E1)|[Hn E1]]; rewrite E1 in H1; injection H1 as <- E2; subst.
    + destruct (skip_char_cases ">" s2) as [(u & -> & E2)|[_ E2]]; rewrite E2 in H3; [|discriminate]. injection H3 as ->. reflexivity.
    + injection H3 as ->. split; [reflexivity|]. intros [u ->]. apply Hn. eexists. reflexivity.
Qed.
Lemma levels_iff q rescue block text : ruby_levels q rescue block text <->
  exists s, skip_rescues (S (length q)) q 0 = Ok (rescue, s) /\ skip_blocks s = Ok (block, text).
Proof.
  destruct (rescues_ok (S (length q)) q 0%Z) as (n & after & Eq & Hb & E); [lia|]. rewrite E, iter_mod. split.
  - intros (n' & after' & Eq' & Hb' & -> & H). rewrite Eq in Eq'. destruct (rescues_unique _ _ _ _ Eq' Hb Hb') as [<- <-].
    exists after. split; [reflexivity|]. apply blocks_iff. exact H.
  - intros (s & E1 & E2). injection E1 as <- <-. exists n, after. split; [exact Eq|]. split; [exact Hb|]. split; [reflexivity|]. apply blocks_iff. exact E2.
Qed.
Lemma without_app set a b : without set (a ++ b) <-> without set a /\ without set b.
Proof. apply Forall_app. Qed.
Lemma number32_without set ds v : number32 ds v -> Forall (fun c => decimal_digit c = None) set -> without set ds.
Proof.
  intros [H _] Hs. apply numeral_run in H as [H _]. eapply Forall_impl; [|exact H]. intros c Hc Hi. rewrite Forall_forall in Hs. exact (Hc (Hs _ Hi)).
Qed.
Lemma number32_fun ds v w : number32 ds v -> number32 ds w -> v = w.
Proof.
  intros H1 H2. assert (A1 : sr_parse_uint32 ds = Some (v, length ds, [])) by (apply uint32_iff; exists ds; rewrite app_nil_r; auto).
  assert (A2 : sr_parse_uint32 ds = Some (w, length ds, [])) by (apply uint32_iff; exists ds; rewrite app_nil_r; auto). congruence.
Qed.
(** The part before the backtick. *)
Definition ruby_head (buf : str) : res (option str * N) :=
  if length buf <? length (L ":in ") then Fail else
  let p := length buf - length (L ":in ") in
  if negb (str_eqb (skipn p buf) (L ":in ")) then Fail else
  let buf := firstn p buf in
  do p <- back_while is_digit buf p;
  match sr_parse_uint32 (skipn p buf) with
  | None => Fail
  | Some (file_line, _, _) =>
    match p with
    | O => Fail
    | S p => do c <- byte_at buf p; if negb (Ascii.eqb c ":") then Fail else Ok (anonymize_path (Some (firstn p buf)), file_line)
    end
  end.
Lemma head_iff buf x line : ruby_head buf = Ok (x, line) <->
  exists path ds shown, buf = path ++ L ":" ++ ds ++ L ":in " /\ number32 ds line /\ anonymized path shown /\ x = Some shown.
Proof.
  unfold ruby_head. change (length (L ":in ")) with 4. destruct (Nat.ltb_spec (length buf) 4) as [Hl|Hl].
  - split; [discriminate|]. intros (path & ds & shown & -> & _). rewrite !app_length in Hl. change (length (L ":in ")) with 4 in Hl. lia.
  - cbv zeta. set (p := length buf - 4). destruct (str_eqb (skipn p buf) (L ":in ")) eqn:E; cbn [negb].
    + apply str_eqb_eq in E. rewrite <- (firstn_skipn p buf). rewrite E.
      assert (Hp : length (firstn p buf) = p) by (rewrite firstn_length; lia).
      set (b := firstn p buf) in *. clearbody b. rewrite <- Hp. rewrite firstn_app_exact. clear E Hp Hl. clearbody p.
      destruct (back_while_ok is_digit b []) as (a & d & -> & Hd & Ha & Eb). rewrite app_nil_r in Eb. rewrite Eb. cbn [bind].
      rewrite skipn_app_exact. destruct Ha as [->|(a' & c & -> & Hc)].
      * cbn [length app]. destruct (sr_parse_uint32 d) as [[[? ?] ?]|]; split; try discriminate; intros (path & ds & shown & Ex & _); exfalso.
        all: assert (Hi : In ":"%char d) by (change (L ":in ") with ([":"%char; "i"%char; "n"%char; " "%char]) in Ex;
          replace (path ++ L ":" ++ ds ++ [":"%char; "i"%char; "n"%char; " "%char]) with ((path ++ L ":" ++ ds) ++ [":"%char; "i"%char; "n"%char; " "%char]) in Ex by (rewrite <- !app_assoc; reflexivity);
          apply app_inv_tail in Ex; rewrite Ex; apply in_or_app; right; left; reflexivity);
          rewrite Forall_forall in Hd; specialize (Hd _ Hi); discriminate.
      * rewrite app_length. cbn [length]. rewrite Nat.add_1_r.
        assert (Eb2 : byte_at ((a' ++ [c]) ++ d) (length a') = Ok c) by (rewrite <- app_assoc; rewrite byte_at_app; reflexivity).
        rewrite Eb2. cbn [bind]. rewrite <- app_assoc, firstn_app_exact. split.
        -- destruct (sr_parse_uint32 d) as [[[v n] r]|] eqn:Eu; [|discriminate]. destruct (Ascii.eqb c ":") eqn:Ec; [|discriminate].
           apply Ascii.eqb_eq in Ec. subst c. cbn [negb]. destruct (anonymized_ok a') as (shown & Es & Hs). rewrite Es.
           intros Hx. injection Hx as <- <-. apply uint32_iff in Eu as (run & -> & Hn & -> & Hr). exists a', run, shown.
           assert (r = []). { destruct r as [|y r]; [reflexivity|]. exfalso. apply Hr. cbn. apply Forall_app in Hd as [_ Hd]. inversion Hd; subst. apply is_digit_iff. assumption. }
           subst r. rewrite app_nil_r. split; [rewrite <- !app_assoc; reflexivity|]. auto.
        -- intros (path & ds & shown & Ex & Hn & Hs & ->).
           assert (Ey : a' ++ [c] ++ d = path ++ [":"%char] ++ ds).
           { apply (app_inv_tail (L ":in ")). rewrite <- !app_assoc in *. exact Ex. }
           assert (Hds : Forall (fun c => is_digit c = true) ds).
           { destruct Hn as [Hn _]. apply numeral_run in Hn as [Hn _]. eapply Forall_impl; [|exact Hn]. intros y Hy. apply is_digit_iff. exact Hy. }
           assert (a' = path /\ c = ":"%char /\ d = ds) as (-> & -> & ->).
           { clear - Ey Hd Hc Hds. assert (Hc2 : is_digit ":" = false) by reflexivity. revert path Ey. induction a' as [|y a' IH]; intros [|z path] Ey.
             - injection Ey as -> ->. auto.
             - exfalso. injection Ey as -> ->. apply Forall_app in Hd as [_ Hd]. inversion Hd; subst. discriminate.
             - exfalso. injection Ey as -> <-. apply Forall_app in Hds as [_ Hds]. inversion Hds; subst. congruence.
             - injection Ey as -> Ey. destruct (IH _ Ey) as (-> & -> & ->). auto. }
           assert (Eu : sr_parse_uint32 ds = Some (line, length ds, [])) by (apply uint32_iff; exists ds; rewrite app_nil_r; auto).
           rewrite Eu. cbn [negb Ascii.eqb]. change (negb (Ascii.eqb ":" ":")) with false. cbv iota. apply anonymize_iff in Hs. rewrite Hs. reflexivity.
    + split; [discriminate|]. intros (path & ds & shown & -> & _). exfalso. assert (p = length (path ++ L ":" ++ ds)).
      { unfold p. rewrite !app_length. change (length (L ":in ")) with 4. lia. }
      rewrite H in E. replace (path ++ L ":" ++ ds ++ L ":in ") with ((path ++ L ":" ++ ds) ++ L ":in ") in E by (rewrite <- !app_assoc; reflexivity).
      rewrite skipn_app_exact, str_eqb_refl in E. discriminate.
Qed.
Lemma back_while_Ok test buf p : p <= length buf -> exists q, back_while test buf p = Ok q /\ q <= p.
Proof.
  intros Hp. destruct (back_while_ok test (firstn p buf) (skipn p buf)) as (a & d & E & _ & _ & Eb). rewrite firstn_skipn, firstn_length, Nat.min_l in Eb by exact Hp.
  exists (length a). split; [exact Eb|]. apply (f_equal (@length _)) in E. rewrite firstn_length, Nat.min_l, app_length in E by exact Hp. lia.
Qed.
Lemma byte_at_Ok buf p : p <= length buf -> exists c, byte_at buf p = Ok c.
Proof. intros Hp. unfold byte_at. destruct (Nat.ltb_spec (length buf) p); [lia|]. eauto. Qed.
Lemma head_not_UB buf : ruby_head buf <> UB.
Proof.
  unfold ruby_head. change (length (L ":in ")) with 4. destruct (Nat.ltb_spec (length buf) 4); [discriminate|]. cbv zeta.
  destruct (negb _); [discriminate|]. set (p := length buf - 4). assert (Hp : length (firstn p buf) = p) by (rewrite firstn_length; lia).
  destruct (back_while_Ok is_digit (firstn p buf) p) as (q & E & Hq); [lia|]. rewrite E. cbn [bind].
  destruct (sr_parse_uint32 _) as [[[? ?] ?]|]; [|discriminate]. destruct q as [|q]; [discriminate|].
  destruct (byte_at_Ok (firstn p buf) q) as (c & Ec); [lia|]. rewrite Ec. cbn [bind]. destruct (negb _); discriminate.
Qed.
(** The rest of the frame, after the backtick. *)
Definition ruby_tail (file_name : option str) (file_line : N) (s : str) : res (ruby_frame * str) :=
  do (rescue_level, s) <- skip_rescues (S (length s)) s 0;
  do (block_level, s) <- skip_blocks s;
  let '(special_function, s) := sr_skip_char "<" s in
  match sr_parse_char_cspan (L "'>") s with
  | None => Fail
  | Some (function_name, s) =>
    match (if special_function then sr_skip_char ">" s else (true, s)) with
    | (false, _) => Fail
    | (true, s) =>
      match sr_skip_char "'" s with
      | (false, _) => Fail
      | (true, s) => Ok (mk_ruby_frame file_name (Z.of_N file_line) special_function (Some function_name) block_level rescue_level, s)
      end
    end
  end.
Lemma frame_split input : sr_ruby_frame_parse input =
  match sr_parse_char_cspan (L "`") input with
  | None => Fail
  | Some (buf, s) => do (x, line) <- ruby_head buf; match sr_skip_char "`" s with (false, _) => Fail | (true, s) => ruby_tail x line s end
  end.
Proof.
  unfold sr_ruby_frame_parse, ruby_head, ruby_tail. destruct (sr_parse_char_cspan (L "`") input) as [[buf s]|]; [|reflexivity].
  destruct (length buf <? length (L ":in ")); [reflexivity|]. cbv zeta. destruct (negb _); [reflexivity|].
  destruct (back_while _ _ _) as [p| |]; cbn [bind]; [|reflexivity..]. destruct (sr_parse_uint32 _) as [[[? ?] ?]|]; [|reflexivity].
  destruct p as [|p]; [reflexivity|]. destruct (byte_at _ _) as [c| |]; cbn [bind]; [|reflexivity..]. destruct (negb _); reflexivity.
Qed.
Lemma tail_not_UB x line s : ruby_tail x line s <> UB.
Proof.
  unfold ruby_tail. destruct (rescues_ok (S (length s)) s 0%Z) as (n & after & _ & _ & E); [lia|]. rewrite E. cbn [bind].
  pose proof (blocks_not_UB after). destruct (skip_blocks after) as [[l t]| |]; cbn [bind]; [|discriminate|contradiction].
  destruct (sr_skip_char "<" t) as [sp u]. destruct (sr_parse_char_cspan _ u) as [[f v]|]; [|discriminate].
  destruct (if sp then _ else _) as [[|] w]; [|discriminate]. destruct (sr_skip_char "'" w) as [[|] ?]; discriminate.
Qed.
Lemma frame_not_UB s : sr_ruby_frame_parse s <> UB.
Proof.
  rewrite frame_split. destruct (sr_parse_char_cspan (L "`") s) as [[buf r]|]; [|discriminate]. pose proof (head_not_UB buf).
  destruct (ruby_head buf) as [[x line]| |]; cbn [bind]; [|discriminate|contradiction]. destruct (sr_skip_char "`" r) as [[|] t]; [apply tail_not_UB|discriminate].
Qed.
Lemma tail_iff x line q f rest : ruby_tail x line q = Ok (f, rest) <->
  exists name_text name, ruby_levels q (rf_rescue_level f) (rf_block_level f) name_text /\ ruby_name name_text name (rf_special_function f) rest /\
    rf_file_name f = x /\ rf_file_line f = Z.of_N line /\ rf_function_name f = Some name.
Proof.
  unfold ruby_tail. split.
  - destruct (skip_rescues _ q 0) as [[r s1]| |] eqn:E1; cbn [bind]; [|discriminate..].
    destruct (skip_blocks s1) as [[b s2]| |] eqn:E2; cbn [bind]; [|discriminate..].
    destruct (sr_skip_char "<" s2) as [sp s3] eqn:E3. destruct (sr_parse_char_cspan _ s3) as [[name s4]|] eqn:E4; [|discriminate].
    destruct (if sp then _ else _) as [[|] s5] eqn:E5; [|discriminate]. destruct (sr_skip_char "'" s5) as [[|] s6] eqn:E6; [|discriminate].
    intros H. injection H as <- <-. exists s2, name. cbn. split; [apply levels_iff; eauto|]. split; [apply name_iff; exists s3, s4, s5; auto|]. auto.
  - intros (s2 & name & Hl & Hn & <- & El & Ef). apply levels_iff in Hl as (s1 & -> & E2). cbn [bind]. rewrite E2. cbn [bind].
    apply name_iff in Hn as (s3 & s4 & s5 & -> & -> & -> & ->). rewrite <- El, <- Ef. destruct f. reflexivity.
Qed.
Theorem frame_iff s f rest : sr_ruby_frame_parse s = Ok (f, rest) <-> ruby_frame_text s f rest.
Proof.
  rewrite frame_split. split.
  - destruct (sr_parse_char_cspan (L "`") s) as [[buf r]|] eqn:E; [|discriminate]. apply cspan_iff in E as (-> & Hne & Hw & Hs).
    destruct (ruby_head buf) as [[x line]| |] eqn:Eh; cbn [bind]; [|discriminate..]. apply head_iff in Eh as (path & ds & shown & -> & Hn & Ha & ->).
    destruct (skip_char_cases "`" r) as [(q & -> & Eq)|[_ Eq]]; rewrite Eq; [|discriminate]. intros H. apply tail_iff in H as (nt & name & H1 & H2 & H3 & H4 & H5).
    exists path, shown, ds, line, q, nt, name. split; [rewrite <- !app_assoc; reflexivity|]. apply Forall_app in Hw as [Hw _]. repeat split; auto; apply Hn || apply H2.
  - intros (path & shown & ds & line & q & nt & name & -> & Hw & Hn & Ha & Hl & Hnm & H3 & H4 & H5).
    assert (E : sr_parse_char_cspan (L "`") (path ++ L ":" ++ ds ++ L ":in `" ++ q) = Some (path ++ L ":" ++ ds ++ L ":in ", "`"%char :: q)).
    { apply cspan_iff. split; [rewrite <- !app_assoc; reflexivity|]. split; [destruct path; discriminate|]. split; [|left; reflexivity].
      apply without_app. split; [exact Hw|]. apply without_app. split; [repeat constructor; intros [H|[]]; discriminate|].
      apply without_app. split; [|repeat constructor; intros [H|[]]; discriminate].
      eapply number32_without; [exact Hn|]. repeat constructor. }
    rewrite E. assert (Eh : ruby_head (path ++ L ":" ++ ds ++ L ":in ") = Ok (Some shown, line)) by (apply head_iff; exists path, ds, shown; auto).
    rewrite Eh. cbn [bind]. change (sr_skip_char "`" ("`"%char :: q)) with (true, q). cbv iota. apply tail_iff. exists nt, name. auto.
Qed.
Lemma frame_shorter s f rest : sr_ruby_frame_parse s = Ok (f, rest) -> length rest < length s.
Proof.
  intros H. apply frame_iff in H as (path & shown & ds & line & q & nt & name & -> & _ & _ & _ & (n & after & -> & _ & _ & Hb) & (_ & _ & Hn) & _).
  rewrite !app_length. assert (length nt <= length after) by (destruct Hb as [[-> _]|[(? & ? & -> & _)|[-> _]]]; rewrite ?app_length; lia).
  assert (length rest <= length nt) by (destruct (rf_special_function f); [subst nt|destruct Hn as [-> _]]; rewrite !app_length; lia).
  change (length (L ":in `")) with 5. lia.
Qed.
(** The frames after the first. *)
Lemma frames_total fuel : forall s, length s < fuel -> ruby_frames_loop fuel s <> UB.
Proof.
  induction fuel as [|fuel IH]; intros s Hs; [lia|]. cbn [ruby_frames_loop]. destruct s as [|c0 s0]; [discriminate|]. set (s := c0 :: s0) in *.
  destruct (skip_string_cases (tab :: L "from ") s) as [(r & E & ->)|[_ ->]]; [|discriminate].
  change (length (tab :: L "from ")) with 6. cbv iota beta. rewrite E in Hs. rewrite app_length in Hs. pose proof (frame_not_UB r).
  destruct (sr_ruby_frame_parse r) as [[f t]| |] eqn:Ef; cbn [bind]; [|discriminate|contradiction]. apply frame_shorter in Ef.
  destruct (skip_char_cases nl t) as [(u & -> & Eu)|[_ Eu]]; rewrite Eu; cbn [negb andb].
  - assert (ruby_frames_loop fuel u <> UB) by (apply IH; cbn in Ef; lia). destruct (ruby_frames_loop fuel u) as [[? ?]| |]; [discriminate|discriminate|contradiction].
  - destruct t as [|c t]; cbn [negb]; [|discriminate]. assert (ruby_frames_loop fuel [] <> UB) by (apply IH; cbn in *; lia).
    destruct (ruby_frames_loop fuel []) as [[? ?]| |]; [discriminate|discriminate|contradiction].
Qed.
Lemma frames_end fuel : forall s fs rest, ruby_frames_loop fuel s = Ok (fs, rest) -> rest = [].
Proof.
  induction fuel as [|fuel IH]; intros s fs rest; [discriminate|]. cbn [ruby_frames_loop]. destruct s as [|c0 s0]; [intros H; injection H; auto|].
  destruct (sr_skip_string _ _) as [[|n] r]; [discriminate|]. destruct (sr_ruby_frame_parse r) as [[f t]| |]; cbn [bind]; [|discriminate..].
  destruct (sr_skip_char nl t) as [b u]. destruct (_ && _); [discriminate|]. destruct (ruby_frames_loop fuel u) as [[l z]| |] eqn:E; cbn [bind]; [|discriminate..].
  intros H. injection H as _ <-. exact (IH _ _ _ E).
Qed.
Lemma frames_iff fuel : forall s fs, length s < fuel -> (ruby_frames_loop fuel s = Ok (fs, []) <-> ruby_frames_text s fs).
Proof.
  induction fuel as [|fuel IH]; intros s fs Hs; [lia|]. cbn [ruby_frames_loop]. destruct s as [|c0 s0].
  { split; [intros H; injection H as <-; constructor|]. inversion 1; reflexivity. }
  set (s := c0 :: s0) in *. split.
  - destruct (skip_string_cases (tab :: L "from ") s) as [(r & E & ->)|[_ ->]]; [|discriminate].
    change (length (tab :: L "from ")) with 6. cbv iota beta. rewrite E in *. rewrite app_length in Hs.
    destruct (sr_ruby_frame_parse r) as [[f t]| |] eqn:Ef; cbn [bind]; [|discriminate..]. pose proof (frame_shorter _ _ _ Ef). apply frame_iff in Ef.
    destruct (skip_char_cases nl t) as [(u & -> & Eu)|[_ Eu]]; rewrite Eu; cbn [negb andb].
    + destruct (ruby_frames_loop fuel u) as [[l z]| |] eqn:El; cbn [bind]; [|discriminate..]. intros Hx. injection Hx as <- ->.
      apply IH in El; [|cbn in *; lia]. exact (rft_cons _ _ _ _ Ef El).
    + destruct t as [|c t]; cbn [negb]; [|discriminate]. destruct fuel as [|fuel]; [cbn in *; lia|]. cbn. intros Hx. injection Hx as <-. exact (rft_last _ _ Ef).
  - intros H. assert (Hne : s <> []) by discriminate. clearbody s. assert (G : forall r, sr_skip_string (tab :: L "from ") (tab :: L "from " ++ r) = (6, r)).
    { intros r. destruct (skip_string_cases (tab :: L "from ") (tab :: L "from " ++ r)) as [(r' & E & ->)|[Hn _]]; [|exfalso; apply Hn; eexists; reflexivity].
      change (tab :: L "from " ++ r) with ((tab :: L "from ") ++ r) in E. apply app_inv_head in E. subst. reflexivity. }
    destruct H as [|s f Hf|s f rest fs Hf Hr].
    + congruence.
    + rewrite G. apply frame_iff in Hf. rewrite Hf. cbn [bind]. destruct fuel as [|fuel]; [cbn in *; lia|]. reflexivity.
    + rewrite G. apply frame_iff in Hf. rewrite Hf. cbn [bind]. pose proof (frame_shorter _ _ _ Hf).
      change (sr_skip_char nl (nl :: rest)) with (true, rest). cbv iota beta. cbn [negb andb].
      apply IH in Hr; [|cbn in *; lia]. rewrite Hr. reflexivity.
Qed.

(** The whole. *)
Definition ruby_class (buf : str) : res str :=
  match length buf with
  | O => Fail
  | S p =>
    do c <- byte_at buf p;
    if negb (Ascii.eqb c nl) then Fail else
    match p with
    | O => Fail
    | S p =>
      do c <- byte_at buf p;
      if negb (Ascii.eqb c ")") then Fail else
      let buf := firstn p buf in
      do p <- back_while (fun c => negb (Ascii.eqb c "(")) buf p;
      let exception_name := skipn p buf in
      match exception_name with
      | [] => Fail
      | _ =>
        match p with
        | O => Fail
        | S p => do c <- byte_at buf p; if negb (Ascii.eqb c "(") then Fail else Ok exception_name
        end
      end
    end
  end.
Lemma byte_at_last a c b : byte_at ((a ++ [c]) ++ b) (length a) = Ok c.
Proof. rewrite <- app_assoc, byte_at_app. reflexivity. Qed.
Lemma snoc_cases {A} (l : list A) : l = [] \/ exists a c, l = a ++ [c].
Proof. induction l using rev_ind; [left|right]; eauto. Qed.
Lemma class_iff buf class : ruby_class buf = Ok class <->
  exists message, buf = message ++ L "(" ++ class ++ L ")" ++ [nl] /\ class <> [] /\ ~ In "("%char class.
Proof.
  assert (Hsh : forall m cl, m ++ L "(" ++ cl ++ L ")" ++ [nl] = ((m ++ L "(" ++ cl) ++ [")"%char]) ++ [nl]) by (intros; rewrite <- !app_assoc; reflexivity).
  unfold ruby_class. destruct (snoc_cases buf) as [->|(b1 & c1 & ->)].
  { split; [discriminate|]. intros (m & E & _). destruct m; discriminate E. }
  rewrite app_length. cbn [length]. rewrite Nat.add_1_r. pose proof (byte_at_last b1 c1 []) as E0. rewrite app_nil_r in E0. rewrite E0. cbn [bind].
  destruct (Ascii.eqb c1 nl) eqn:E1; cbn [negb].
  2:{ split; [discriminate|]. intros (m & E & _). exfalso. rewrite Hsh in E. apply app_inj_tail in E as [_ ->]. discriminate. }
  apply Ascii.eqb_eq in E1. subst c1. destruct (snoc_cases b1) as [->|(b2 & c2 & ->)].
  { split; [discriminate|]. intros (m & E & _). exfalso. rewrite Hsh in E. apply app_inj_tail in E as [E _]. apply (f_equal (@length _)) in E. rewrite !app_length in E. cbn in E. lia. }
  rewrite app_length. cbn [length]. rewrite Nat.add_1_r, byte_at_last. cbn [bind].
  destruct (Ascii.eqb c2 ")") eqn:E2; cbn [negb].
  2:{ split; [discriminate|]. intros (m & E & _). exfalso. rewrite Hsh in E. apply app_inj_tail in E as [E _]. apply app_inj_tail in E as [_ ->]. discriminate. }
  apply Ascii.eqb_eq in E2. subst c2. rewrite <- app_assoc, firstn_app_exact. cbv zeta.
  assert (Hsh2 : forall m cl, b2 ++ [")"%char] ++ [nl] = m ++ L "(" ++ cl ++ L ")" ++ [nl] <-> b2 = m ++ L "(" ++ cl).
  { intros m cl. split; [|intros ->; rewrite <- !app_assoc; reflexivity]. rewrite Hsh. rewrite app_assoc. intros E. apply app_inv_tail in E. apply app_inv_tail in E. exact E. }
  destruct (back_while_ok (fun c => negb (Ascii.eqb c "(")) b2 []) as (a & d & -> & Hd & Ha & Eb). rewrite app_nil_r in Eb. rewrite Eb. cbn [bind]. rewrite skipn_app_exact.
  assert (Hin : ~ In "("%char d) by (intros Hi; rewrite Forall_forall in Hd; specialize (Hd _ Hi); discriminate).
  assert (U : forall m cl, ~ In "("%char cl -> a ++ d = m ++ L "(" ++ cl -> a = m ++ L "(" /\ d = cl).
  { intros m cl Hcl E. destruct Ha as [->|(a' & c & -> & Hc)].
    - exfalso. apply Hin. cbn in E. rewrite E. apply in_or_app. right. left. reflexivity.
    - apply Bool.negb_false_iff, Ascii.eqb_eq in Hc. subst c. rewrite <- app_assoc in E. apply (f_equal (@rev _)) in E. rewrite !rev_app_distr in E. cbn in E. rewrite <- !app_assoc in E. cbn in E.
      apply app_at_unique in E as [E1 E2]; [|rewrite <- in_rev; assumption..]. apply (f_equal (@rev _)) in E1, E2. rewrite !rev_involutive in E1, E2. subst. auto. }
  split.
  - destruct d as [|x d]; [discriminate|]. destruct Ha as [->|(a' & c & -> & Hc)]; [discriminate|]. rewrite app_length. cbn [length]. rewrite Nat.add_1_r, byte_at_last. cbn [bind].
    apply Bool.negb_false_iff in Hc. rewrite Hc. cbn [negb]. apply Ascii.eqb_eq in Hc. subst c. intros Hx. apply ok_inj in Hx. subst class.
    exists a'. split; [apply Hsh2; rewrite <- app_assoc; reflexivity|]. split; [discriminate|exact Hin].
  - intros (m & E & Hne & Hcl). apply Hsh2 in E. destruct (U _ _ Hcl E) as [-> ->]. destruct class as [|x class]; [congruence|].
    rewrite app_length. cbn [length L]. change (length (L "(")) with 1. rewrite Nat.add_1_r. change (L "(") with ["("%char]. rewrite byte_at_last. reflexivity.
Qed.
Lemma class_not_UB buf : ruby_class buf <> UB.
Proof.
  unfold ruby_class. destruct (length buf) as [|p] eqn:E; [discriminate|]. destruct (byte_at_Ok buf p) as (c & ->); [lia|]. cbn [bind]. destruct (negb _); [discriminate|].
  destruct p as [|p]; [discriminate|]. destruct (byte_at_Ok buf p) as (c2 & ->); [lia|]. cbn [bind]. destruct (negb _); [discriminate|]. cbv zeta.
  assert (Hp : length (firstn p buf) = p) by (rewrite firstn_length; lia). destruct (back_while_Ok (fun c => negb (Ascii.eqb c "(")) (firstn p buf) p) as (q & -> & Hq); [lia|]. cbn [bind].
  destruct (skipn q _); [discriminate|]. destruct q as [|q]; [discriminate|]. destruct (byte_at_Ok (firstn p buf) q) as (c3 & ->); [lia|]. cbn [bind]. destruct (negb _); discriminate.
Qed.
Lemma ruby_split input : sr_ruby_stacktrace_parse input =
  do (frame, s) <- sr_ruby_frame_parse input;
  match sr_skip_string (L ": ") s with
  | (O, _) => Fail
  | (_, s) =>
    match sr_parse_char_cspan [tab] s with
    | None => Fail
    | Some (buf, s) =>
      do class <- ruby_class buf;
      do (frames, s) <- ruby_frames_loop (S (length s)) s;
      Ok (mk_ruby_stacktrace (Some class) (frame :: frames), s)
    end
  end.
Proof.
  unfold sr_ruby_stacktrace_parse, ruby_class. destruct (sr_ruby_frame_parse input) as [[f s]| |]; cbn [bind]; [|reflexivity..].
  destruct (sr_skip_string _ s) as [[|n] t]; [reflexivity|]. destruct (sr_parse_char_cspan _ t) as [[buf u]|]; [|reflexivity].
  destruct (length buf) as [|p]; [reflexivity|]. destruct (byte_at buf p) as [c| |]; cbn [bind]; [|reflexivity..]. destruct (negb _); [reflexivity|].
  destruct p as [|p]; [reflexivity|]. destruct (byte_at buf p) as [c2| |]; cbn [bind]; [|reflexivity..]. destruct (negb _); [reflexivity|]. cbv zeta.
  destruct (back_while _ _ _) as [q| |]; cbn [bind]; [|reflexivity..]. destruct (skipn q _) as [|x l]; [reflexivity|]. destruct q as [|q]; [reflexivity|].
  destruct (byte_at (firstn p buf) q) as [c3| |]; cbn [bind]; [|reflexivity..]. destruct (negb _); reflexivity.
Qed.
Theorem ruby_not_UB s : sr_ruby_stacktrace_parse s <> UB.
Proof.
  rewrite ruby_split. pose proof (frame_not_UB s). destruct (sr_ruby_frame_parse s) as [[f t]| |]; cbn [bind]; [|discriminate|contradiction].
  destruct (sr_skip_string _ t) as [[|n] u]; [discriminate|]. destruct (sr_parse_char_cspan _ u) as [[buf r]|]; [|discriminate].
  pose proof (class_not_UB buf). destruct (ruby_class buf); cbn [bind]; [|discriminate|contradiction].
  assert (ruby_frames_loop (S (length r)) r <> UB) by (apply frames_total; lia). destruct (ruby_frames_loop _ r) as [[? ?]| |]; [discriminate|discriminate|contradiction].
Qed.
Theorem ruby_iff s t : sr_ruby_stacktrace_parse s = Ok (t, []) <-> ruby_text s t.
Proof.
  rewrite ruby_split. split.
  - destruct (sr_ruby_frame_parse s) as [[f after]| |] eqn:Ef; cbn [bind]; [|discriminate..]. apply frame_iff in Ef.
    destruct (skip_string_cases (L ": ") after) as [(r & -> & E)|[_ E]]; rewrite E; [|discriminate]. change (length (L ": ")) with 2. cbv iota beta.
    destruct (sr_parse_char_cspan [tab] r) as [[buf u]|] eqn:Ec; [|discriminate]. apply cspan_iff in Ec as (-> & Hne & Hw & Hs).
    destruct (ruby_class buf) as [class| |] eqn:Ecl; cbn [bind]; [|discriminate..]. apply class_iff in Ecl as (m & -> & Hcne & Hcl).
    destruct (ruby_frames_loop _ u) as [[fs z]| |] eqn:Efs; cbn [bind]; [|discriminate..]. intros Hx. injection Hx as <- ->. apply frames_iff in Efs; [|lia].
    exists f, (L ": " ++ m ++ L "(" ++ class ++ L ")" ++ nl :: u), m, class, u, fs. rewrite <- !app_assoc in Ef.
    apply without_app in Hw as [Hm Hw]. apply without_app in Hw as [_ Hw]. apply without_app in Hw as [Hw _]. repeat (split; [assumption || reflexivity|]). auto.
  - intros (f & after & m & class & rest & fs & Hf & -> & Hm & Hw & Hs & Hne & Hcl & Hfs & ->). apply frame_iff in Hf. rewrite Hf. cbn [bind].
    destruct (skip_string_cases (L ": ") (L ": " ++ m ++ L "(" ++ class ++ L ")" ++ nl :: rest)) as [(r & E & ->)|[Hn _]]; [|exfalso; apply Hn; eexists; reflexivity].
    apply app_inv_head in E. subst r. change (length (L ": ")) with 2. cbv iota beta.
    assert (Ec : sr_parse_char_cspan [tab] (m ++ L "(" ++ class ++ L ")" ++ nl :: rest) = Some (m ++ L "(" ++ class ++ L ")" ++ [nl], rest)).
    { apply cspan_iff. split; [rewrite <- !app_assoc; reflexivity|]. split; [destruct m; discriminate|]. split; [|exact Hs].
      apply without_app. split; [exact Hm|]. apply without_app. split; [repeat constructor; intros [H|[]]; discriminate|]. apply without_app. split; [exact Hw|].
      repeat constructor; intros [H|[]]; discriminate. }
    rewrite Ec. assert (Ecl : ruby_class (m ++ L "(" ++ class ++ L ")" ++ [nl]) = Ok class) by (apply class_iff; exists m; auto). rewrite Ecl. cbn [bind].
    apply (frames_iff (S (length rest))) in Hfs; [|lia]. rewrite Hfs. reflexivity.
Qed.
Theorem ruby_end s t rest : sr_ruby_stacktrace_parse s = Ok (t, rest) -> rest = [].
Proof.
  rewrite ruby_split. destruct (sr_ruby_frame_parse s) as [[f after]| |]; cbn [bind]; [|discriminate..].
  destruct (sr_skip_string _ after) as [[|n] u]; [discriminate|]. destruct (sr_parse_char_cspan _ u) as [[buf r]|]; [|discriminate].
  destruct (ruby_class buf); cbn [bind]; [|discriminate..]. destruct (ruby_frames_loop _ r) as [[fs z]| |] eqn:E; cbn [bind]; [|discriminate..].
  intros H. injection H as _ <-. exact (frames_end _ _ _ _ E).
Qed.
(** The formatted text is read back. *)
Lemma print_number32 n : (n < 2 ^ 32)%N -> number32 (print_N n) n.
Proof. intros H. split; [apply print_N_decimal|]. change (2 ^ 32)%N with 4294967296%N in H. lia. Qed.
Lemma begins_app_without p a c b : begins p (a ++ c :: b) -> ~ In c p -> begins p a.
Proof.
  intros [r E] Hc. revert a E. induction p as [|x p IH]; intros a E; [exists a; reflexivity|]. destruct a as [|y a].
  - injection E as <- _. exfalso. apply Hc. left. reflexivity.
  - injection E as -> E. destruct (IH (fun H => Hc (or_intror H)) a E) as [r' ->]. exists r'. reflexivity.
Qed.
Lemma shown_frame f text rest : ruby_shows print_N f text -> ruby_frame_text (text ++ rest) f rest.
Proof.
  intros [f' file name (Hf & Hn & Hl & Hb & Hr & Hw & Hh & Hne & Hq & Hre & Hbl)]. clear f. rename f' into f. unfold ruby_show_frame.
  assert (Hq3 : without (L "'>") name) by (eapply Forall_impl; [|exact Hq]; intros c H Hi; apply H; cbn in *; tauto).
  assert (Hlt : ~ begins (L "<") name) by (intros [r ->]; inversion Hq as [|c l H1 H2]; apply H1; cbn; tauto).
  set (nt := (if rf_special_function f then L "<" ++ name ++ L ">" else name) ++ L "'" ++ rest).
  assert (Hnt : forall p, ~ In "'"%char p -> ~ begins (L "<") p -> p <> [] -> begins p nt -> begins p name).
  { intros p Hp Hp2 Hp3. unfold nt. destruct (rf_special_function f).
    - intros [r E]. destruct p as [|x p]; [congruence|]. injection E as <- _. exfalso. apply Hp2. eexists. reflexivity.
    - intros H. exact (begins_app_without p name "'" rest H Hp). }
  assert (Hnr : ~ begins (L "rescue in ") nt).
  { intros H. apply Hre. apply Hnt; [cbn; intuition discriminate|intros [? E]; discriminate E|discriminate|exact H]. }
  assert (Hnb : forall x, In x [L "block in "; L "block ("] -> ~ begins x nt).
  { intros x Hx H. apply Hbl. assert (begins x name). { apply Hnt; [|intros [? E]; destruct Hx as [<-|[<-|[]]]; discriminate E| |exact H]; destruct Hx as [<-|[<-|[]]]; cbn; try (intuition discriminate); discriminate. }
    destruct H0 as [r ->]. destruct Hx as [<-|[<-|[]]]; eexists; reflexivity. }
  exists file, file, (print_N (Z.to_N (rf_file_line f))), (Z.to_N (rf_file_line f)),
    (concat (repeat (L "rescue in ") (Z.to_nat (rf_rescue_level f))) ++
      (if (rf_block_level f =? 0)%Z then [] else if (rf_block_level f =? 1)%Z then L "block in " else L "block (" ++ print_N (Z.to_N (rf_block_level f)) ++ L " levels) in ") ++ nt), nt, name.
  split; [unfold nt; rewrite <- !app_assoc; reflexivity|]. split; [exact Hw|]. split; [apply print_number32; lia|].
  split. { right. split; [|reflexivity]. intros u r _ ->. apply Hh. eexists. reflexivity. }
  split.
  { exists (Z.to_nat (rf_rescue_level f)). eexists. split; [reflexivity|].
    split. { destruct (Z.eqb_spec (rf_block_level f) 0); [exact Hnr|]. destruct (Z.eqb_spec (rf_block_level f) 1); intros [r E]; discriminate E. }
    split; [rewrite Z2Nat.id by lia; rewrite Z.mod_small by lia; reflexivity|].
    destruct (Z.eqb_spec (rf_block_level f) 0).
    - right. right. split; [reflexivity|]. split; [apply Hnb; left; reflexivity|]. split; [apply Hnb; right; left; reflexivity|assumption].
    - destruct (Z.eqb_spec (rf_block_level f) 1); [left; auto|]. right. left. exists (print_N (Z.to_N (rf_block_level f))), (Z.to_N (rf_block_level f)).
      split; [rewrite <- !app_assoc; reflexivity|]. split; [apply print_number32; lia|lia]. }
  split. { split; [exact Hne|]. split; [exact Hq3|]. unfold nt. destruct (rf_special_function f); [rewrite <- !app_assoc; reflexivity|]. auto. }
  split; [exact Hf|]. split; [lia|exact Hn].
Qed.
Theorem ruby_roundtrip f text fs texts message class : ruby_shows print_N f text -> Forall2 (ruby_shows print_N) fs texts ->
  without [tab] message -> without [tab] class -> class <> [] -> ~ In "("%char class ->
  sr_ruby_stacktrace_parse (ruby_show_trace message class text texts) = Ok (mk_ruby_stacktrace (Some class) (f :: fs), []).
Proof.
  intros Hf Hfs Hm Hc Hne Hp. apply ruby_iff. unfold ruby_show_trace.
  exists f, (L ": " ++ (message ++ [sp]) ++ L "(" ++ class ++ L ")" ++ nl :: concat (map (fun t => tab :: L "from " ++ t ++ [nl]) texts)), (message ++ [sp]), class, (concat (map (fun t => tab :: L "from " ++ t ++ [nl]) texts)), fs.
  split. { rewrite <- (app_assoc message). apply shown_frame. exact Hf. }
  split; [reflexivity|]. split. { apply without_app. split; [exact Hm|]. repeat constructor. intros [H|[]]. discriminate. }
  split; [exact Hc|]. split; [destruct texts; cbn; auto|]. split; [exact Hne|]. split; [exact Hp|]. split; [|reflexivity].
  induction Hfs as [|x tx l lt Hx Hl IH]; [constructor|]. cbn [map concat]. rewrite <- app_comm_cons, <- !app_assoc. eapply rft_cons; [apply shown_frame; exact Hx|exact IH].
Qed.
