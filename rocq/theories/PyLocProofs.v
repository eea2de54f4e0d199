(** * Proofs about the Python locations: frames. *)
From Verif Require Import Base Types UtilsSpec UtilsModel UtilsProofs JsonModel RpmProofs4 ParseSpec ParseModel ParseProofs RubyParseProofs JsParseProofs PyParseModel PyParseSpec PyParseProofs LocParseModel LocParseSpec LocParseProofs PyLocModel PyLocSpec.
Open Scope nat_scope.

Definition body_loc (input : str) (l : location) : outcome (option python_frame * str) :=
  match sr_skip_string (L "  File """) input with
  | (O, _) => Took (None, input) (says l (L "Frame header not found."))
  | (_, s) =>
    let l := right l 8 in
    match sr_parse_char_cspan [dquote] s with
    | None => Took (None, input) (says l (L "Unable to find the '""' character identifying the beginning of file name."))
    | Some (file_name, s) =>
      let '(special_file, file_name) := strip_brackets file_name in
      match anonymize_path (Some file_name) with
      | None => Broken
      | Some file_name =>
        let l := right l (Z.of_nat (length file_name)) in
        match sr_skip_string (L """, line ") s with
        | (O, _) => Took (None, input) (says l (L "Line separator not found."))
        | (_, s) =>
          let l := right l 8 in
          match sr_parse_uint32 s with
          | None => Took (None, input) (says l (L "Line number not found."))
          | Some (file_line, n, s) =>
            let l := right l (Z.of_nat n) in
            match (match sr_skip_string (L ", in ") s with
                   | (O, s) => if negb (Ascii.eqb (cur s) nl) then inr (says l (L "Function name separator not found.")) else inl (true, L "syntax", s, l)
                   | (_, s) =>
                     let l := right l 5 in
                     match sr_parse_char_cspan [nl] s with
                     | None => inr (says l (L "Unable to find the newline character identifying the end of function name."))
                     | Some (function_name, s) =>
                       let l := right l (Z.of_nat (length function_name)) in
                       let '(special, function_name) := strip_brackets function_name in inl (special, function_name, s, l)
                     end
                   end) with
            | inr l => Took (None, input) l
            | inl (special_function, function_name, s, l) =>
              let '(newline, s) := sr_skip_char nl s in
              let l := if newline then sr_location_add l 1 0 else l in
              let '(line_contents, s, l) := match sr_skip_string (L "    ") s with
                                         | (4, s) =>
                                           match sr_parse_char_cspan [nl] s with
                                           | Some (contents, s) => let '(newline, s) := sr_skip_char nl s in (Some contents, s, if newline then sr_location_add l 1 0 else l)
                                           | None => (None, s, l)
                                           end
                                         | (_, s) => (None, s, l)
                                         end in
              Took (Some (mk_python_frame special_file (Some file_name) (Z.of_N file_line) special_function (Some function_name) line_contents), s) l
            end
          end
        end
      end
    end
  end.
Lemma frame_loc_split s l : python_frame_loc s l = see (pass s) (fun i => body_loc i l).
Proof. reflexivity. Qed.
Lemma add_one l : sr_location_add l 1 0 = l.
Proof. destruct l. unfold sr_location_add. cbn. f_equal. lia. Qed.
Lemma right_right l a b : right (right l a) b = right l (a + b).
Proof. unfold right. cbn. f_equal. lia. Qed.
Lemma right_0 l : right l 0 = l.
Proof. destruct l. unfold right. cbn. f_equal. lia. Qed.
Lemma anonymize_some s : exists t, anonymize_path (Some s) = Some t.
Proof. destruct (anonymized_ok s) as (t & E & _). exists t. exact E. Qed.
Lemma forget_body s l : forget (body_loc s l) = Ok (match py_body s with Some (f, q) => (Some f, q) | None => (None, s) end).
Proof.
  unfold body_loc, py_body. destruct (sr_skip_string _ s) as [[|n] s1]; [reflexivity|]. cbv zeta. destruct (sr_parse_char_cspan _ s1) as [[fn s2]|]; [|reflexivity]. destruct (strip_brackets fn) as [b fi].
  destruct (anonymize_some fi) as [t Ht]. rewrite Ht. destruct (sr_skip_string _ s2) as [[|n1] s3]; [reflexivity|]. destruct (sr_parse_uint32 s3) as [[[fl n2] s4]|]; [|reflexivity].
  unfold py_function. destruct (sr_skip_string (L ", in ") s4) as [[|n3] s5].
  - destruct (negb _); [reflexivity|]. destruct (sr_skip_char nl s5) as [b3 s6]. cbn [snd]. unfold py_source. destruct (sr_skip_string (L "    ") s6) as [[|[|[|[|[|k]]]]] s7]; try reflexivity.
    destruct (sr_parse_char_cspan [nl] s7) as [[c s8]|]; [|reflexivity]. destruct (sr_skip_char nl s8) as [b4 s9]. reflexivity.
  - destruct (sr_parse_char_cspan [nl] s5) as [[fu s6]|]; [|reflexivity]. destruct (strip_brackets fu) as [b2 f2]. destruct (sr_skip_char nl s6) as [b3 s7]. cbn [snd]. unfold py_source.
    destruct (sr_skip_string (L "    ") s7) as [[|[|[|[|[|k]]]]] s8]; try reflexivity. destruct (sr_parse_char_cspan [nl] s8) as [[c s9]|]; [|reflexivity]. destruct (sr_skip_char nl s9) as [b4 s10]. reflexivity.
Qed.
Theorem forget_py_frame s l : forget (python_frame_loc s l) = sr_python_frame_parse s.
Proof.
  rewrite frame_loc_split, frame_split. fold (pass s). apply forget_see; [|intros i _; apply forget_body]. unfold sure, pass. destruct (is_error_location_line s); [|discriminate]. destruct (sr_skip_char_cspan [nl] s) as [n [|c q]]; discriminate.
Qed.
(** The end of a frame does not move the location. *)
Ltac tail_loc s := let b := fresh "b" in let s1 := fresh "s" in destruct (sr_skip_char nl s) as [b s1]; cbv zeta;
  match goal with |- context [if b then sr_location_add ?l 1 0 else ?l] => replace (if b then sr_location_add l 1 0 else l) with l by (destruct b; rewrite ?add_one; reflexivity) end;
  let k := fresh "k" in let s2 := fresh "s" in destruct (sr_skip_string (L "    ") s1) as [k s2]; destruct k as [|[|[|[|[|k]]]]]; try (eexists _, _; reflexivity);
  let c := fresh "c" in let s3 := fresh "s" in destruct (sr_parse_char_cspan [nl] s2) as [[c s3]|]; [|eexists _, _; reflexivity];
  let b2 := fresh "b" in let s4 := fresh "s" in destruct (sr_skip_char nl s3) as [b2 s4]; destruct b2; rewrite ?add_one; eexists _, _; reflexivity.
Lemma body_cases s : (exists w, py_width s w /\ forall l, exists f q, body_loc s l = Took (Some f, q) (right l (Z.of_nat w))) \/
  (exists why, py_frame_wrong why s /\ forall l, exists n, body_loc s l = Took (None, s) (says (right l (Z.of_nat n)) why)).
Proof.
  unfold body_loc. destruct (skip_string_cases (L "  File """) s) as [(u & -> & E)|[Hn E]]; rewrite E.
  2:{ right. eexists. split; [apply fw_header; exact Hn|]. intros l. exists 0. rewrite right_0. reflexivity. }
  change (length (L "  File """)) with 8. cbv iota zeta. destruct (sr_parse_char_cspan [dquote] u) as [[path u1]|] eqn:Ep.
  2:{ apply cspan_none in Ep. right. eexists. split; [apply (fw_name _ u); split; [reflexivity|split; [constructor|exact Ep]]|]. intros l. exists 8. reflexivity. }
  apply cspan_iff in Ep as (-> & Hne & Hw & Hs). destruct (strip_brackets path) as [b inner] eqn:Eb. apply brackets_iff in Eb. destruct (anonymized_ok inner) as (shown & Hsh & Ha). rewrite Hsh.
  destruct (skip_string_cases (L """, line ") u1) as [(u2 & -> & E2)|[N2 E2]]; rewrite E2.
  2:{ right. eexists. split; [apply (fw_line _ path u1); [split; auto|exact Hne|exact N2]|]. intros l. exists (8 + length shown). rewrite right_right. repeat f_equal. lia. }
  change (length (L """, line ")) with 8. cbv iota zeta. destruct (sr_parse_uint32 u2) as [[[ln n] u3]|] eqn:El.
  2:{ right. eexists. split; [apply (fw_number _ path u2); [split; auto|exact Hne|]|]. { intros ds r v. exact (proj1 (uint32_none u2) El ds r v). } intros l. exists (16 + length shown). rewrite !right_right. repeat f_equal. lia. }
  apply uint32_iff in El as (ds & -> & Hd & -> & Nd). assert (Num : py_numbered (L "  File """ ++ path ++ L """, line " ++ ds ++ u3) path ds u3) by (exists ln; split; [split; auto|auto]).
  destruct (skip_string_cases (L ", in ") u3) as [(u4 & -> & E4)|[N4 E4]]; rewrite E4.
  - change (length (L ", in ")) with 5. cbv iota zeta. destruct (sr_parse_char_cspan [nl] u4) as [[fu u5]|] eqn:Ef.
    + apply cspan_iff in Ef as (-> & Hfne & Hfw & Hfs). destruct (strip_brackets fu) as [b2 name]. left. exists (16 + length shown + length ds + (5 + length fu)). split.
      { exists path, inner, b, shown, ds, (L ", in " ++ fu ++ u5), (5 + length fu). split; [exact Num|]. split; [exact Eb|]. split; [exact Ha|]. split; [left; exists fu, u5; auto 10|reflexivity]. }
      intros l. rewrite !right_right. match goal with |- context [right l ?z] => replace (right l z) with (right l (Z.of_nat (16 + length shown + length ds + (5 + length fu)))) by (f_equal; lia) end. tail_loc u5.
    + apply cspan_none in Ef. right. eexists. split; [eapply fw_function; [exact Num|exact Ef]|]. intros l. exists (16 + length shown + length ds + 5). rewrite !right_right. repeat f_equal. lia.
  - destruct (Ascii.eqb (cur u3) nl) eqn:En; cbn [negb].
    + apply Ascii.eqb_eq in En. left. exists (16 + length shown + length ds + 0). split.
      { exists path, inner, b, shown, ds, u3, 0. split; [exact Num|]. split; [exact Eb|]. split; [exact Ha|]. split; [right; split; [destruct u3 as [|c3 u3]; [discriminate En|]; cbn in En; subst c3; exists u3; reflexivity|reflexivity]|reflexivity]. }
      intros l. rewrite !right_right. match goal with |- context [right l ?z] => replace (right l z) with (right l (Z.of_nat (16 + length shown + length ds + 0))) by (f_equal; lia) end. tail_loc u3.
    + apply Ascii.eqb_neq in En. right. eexists. split; [eapply fw_in; [exact Num|exact N4|intros [z Hz]; rewrite Hz in En; exact (En eq_refl)]|]. intros l. exists (16 + length shown + length ds). rewrite !right_right. repeat f_equal. lia.
Qed.

Lemma skip_fails p s : ~ begins p s -> sr_skip_string p s = (0, s).
Proof. intros H. destruct (skip_string_cases p s) as [(r & -> & _)|[_ E]]; [destruct H; eexists; reflexivity|exact E]. Qed.
Lemma skip_takes p r : sr_skip_string p (p ++ r) = (length p, r).
Proof. apply skip_lit. Qed.
Lemma path_fun s p q p' q' : py_path s p q -> py_path s p' q' -> p = p' /\ q = q'.
Proof.
  intros (-> & Hw & Hs) (E & Hw' & Hs'). apply app_inv_head in E. assert (A : sr_skip_char_cspan [dquote] (p ++ q) = (length p, q)) by (apply skip_cspan_iff; eauto).
  assert (A' : sr_skip_char_cspan [dquote] (p ++ q) = (length p', q')) by (apply skip_cspan_iff; eauto). rewrite A in A'. injection A' as Hl <-. apply app_inv_tail in E. auto.
Qed.
Lemma numbered_fun s p ds a p' ds' a' : py_numbered s p ds a -> py_numbered s p' ds' a' -> p = p' /\ ds = ds' /\ a = a'.
Proof.
  intros (n & Hp & _ & Hd & Ha) (n' & Hp' & _ & Hd' & Ha'). destruct (path_fun _ _ _ _ _ Hp Hp') as [<- E]. apply app_inv_head in E.
  assert (A : sr_parse_uint32 (ds ++ a) = Some (n, length ds, a)) by (apply uint32_iff; eauto). assert (A' : sr_parse_uint32 (ds ++ a) = Some (n', length ds', a')) by (apply uint32_iff; exists ds'; auto).
  rewrite A in A'. injection A' as _ _ <-. apply app_inv_tail in E. auto.
Qed.
Lemma bracketed_fun t n b n' b' : bracketed t n b -> bracketed t n' b' -> n = n' /\ b = b'.
Proof. intros H H'. apply brackets_iff in H, H'. rewrite H in H'. injection H' as -> ->. auto. Qed.
Lemma anonymized_fun t a b : anonymized t a -> anonymized t b -> a = b.
Proof. intros H H'. apply anonymize_iff in H, H'. congruence. Qed.
Theorem width_fun s w w' : py_width s w -> py_width s w' -> w = w'.
Proof.
  intros (p & i & b & sh & ds & a & fw & Hn & Hb & Ha & Hf & ->) (p' & i' & b' & sh' & ds' & a' & fw' & Hn' & Hb' & Ha' & Hf' & ->).
  destruct (numbered_fun _ _ _ _ _ _ _ Hn Hn') as (<- & <- & <-). destruct (bracketed_fun _ _ _ _ _ Hb Hb') as [<- _]. rewrite (anonymized_fun _ _ _ Ha Ha'). f_equal.
  destruct Hf as [(t & r & -> & Nt & Hw & Hs & ->)|[[z Ez] ->]], Hf' as [(t' & r' & E & Nt' & Hw' & Hs' & ->)|[[z' E'] ->]]; try reflexivity; try (rewrite ?Ez, ?E' in *; discriminate).
  apply app_inv_head in E. assert (A : sr_parse_char_cspan [nl] (t ++ r) = Some (t, r)) by (apply cspan_iff; auto). assert (A' : sr_parse_char_cspan [nl] (t ++ r) = Some (t', r')) by (apply cspan_iff; auto).
  rewrite A in A'. injection A' as <- <-. reflexivity.
Qed.
Lemma path_eval s path q : py_path s path q -> path <> [] -> exists u, s = L "  File """ ++ u /\ sr_parse_char_cspan [dquote] u = Some (path, q).
Proof. intros (-> & Hw & Hs) Hn. eexists. split; [reflexivity|]. apply cspan_iff. auto. Qed.
Lemma body_wrong why s l : py_frame_wrong why s -> exists l', body_loc s l = Took (None, s) l' /\ message l' = Some why.
Proof.
  intros H. unfold body_loc. destruct H as [s Hn|s q (-> & _ & Hs)|s path q Hp Hne Hn|s path q Hp Hne Hn|s path ds after (n & Hp & Hne & Hd & Ha) Hi Hl|s path ds after (n & Hp & Hne & Hd & Ha) Hs].
  - rewrite (skip_fails _ _ Hn). eexists. split; reflexivity.
  - rewrite skip_takes. change (length (L "  File """)) with 8. cbv iota zeta. change ([] ++ q) with q. rewrite (proj2 (cspan_none _ _) Hs). eexists. split; reflexivity.
  - destruct (path_eval _ _ _ Hp Hne) as (u & -> & E). rewrite skip_takes. change (length (L "  File """)) with 8. cbv iota zeta. rewrite E. destruct (strip_brackets path) as [b i]. destruct (anonymize_some i) as [t ->].
    rewrite (skip_fails _ _ Hn). eexists. split; reflexivity.
  - destruct (path_eval _ _ _ Hp Hne) as (u & -> & E). rewrite skip_takes. change (length (L "  File """)) with 8. cbv iota zeta. rewrite E. destruct (strip_brackets path) as [b i]. destruct (anonymize_some i) as [t ->].
    rewrite skip_takes. change (length (L """, line ")) with 8. cbv iota zeta. rewrite (proj2 (uint32_none q)) by exact Hn. eexists. split; reflexivity.
  - destruct (path_eval _ _ _ Hp Hne) as (u & -> & E). rewrite skip_takes. change (length (L "  File """)) with 8. cbv iota zeta. rewrite E. destruct (strip_brackets path) as [b i]. destruct (anonymize_some i) as [t ->].
    rewrite skip_takes. change (length (L """, line ")) with 8. cbv iota zeta. rewrite (proj2 (uint32_iff (ds ++ after) n (length ds) after)) by eauto. rewrite (skip_fails _ _ Hi).
    destruct (Ascii.eqb (cur after) nl) eqn:En; [|eexists; split; reflexivity]. apply Ascii.eqb_eq in En. destruct Hl. destruct after as [|c z]; [discriminate En|]. cbn in En. subst c. exists z. reflexivity.
  - destruct (path_eval _ _ _ Hp Hne) as (u & -> & E). rewrite skip_takes. change (length (L "  File """)) with 8. cbv iota zeta. rewrite E. destruct (strip_brackets path) as [b i]. destruct (anonymize_some i) as [t ->].
    rewrite skip_takes. change (length (L """, line ")) with 8. cbv iota zeta. rewrite (proj2 (uint32_iff (ds ++ L ", in " ++ after) n (length ds) (L ", in " ++ after))) by eauto.
    rewrite skip_takes. change (length (L ", in ")) with 5. cbv iota zeta. rewrite (proj2 (cspan_none _ _) Hs). eexists. split; reflexivity.
Qed.
Theorem frame_wrong_fun why why' s : py_frame_wrong why s -> py_frame_wrong why' s -> why = why'.
Proof. intros H H'. destruct (body_wrong _ _ sr_location_init H) as (l & E & M), (body_wrong _ _ sr_location_init H') as (l' & E' & M'). rewrite E in E'. injection E' as <-. congruence. Qed.
Theorem frame_wrong_none why s f q : py_frame_wrong why s -> ~ py_frame_text s f q.
Proof. intros H Hf. apply py_body_iff in Hf. destruct (body_wrong _ _ sr_location_init H) as (l & E & _). pose proof (forget_body s sr_location_init) as F. rewrite E, Hf in F. discriminate F. Qed.
Theorem frame_or_wrong s : (exists f q, py_frame_text s f q) \/ (exists why, py_frame_wrong why s).
Proof.
  destruct (body_cases s) as [(w & _ & H)|(why & H & _)]; [|eauto]. left. destruct (H sr_location_init) as (f & q & E). exists f, q. apply py_body_iff.
  pose proof (forget_body s sr_location_init) as F. rewrite E in F. cbn [forget] in F. destruct (py_body s) as [[f' q']|]; [|discriminate F]. injection F as -> ->. reflexivity.
Qed.
(** What the reader of a frame tells. *)
Lemma frame_loc_some s r f q w l : py_passed s r -> py_frame_text r f q -> py_width r w -> python_frame_loc s l = Took (Some f, q) (right l (Z.of_nat w)).
Proof.
  intros Hr Hf Hw. rewrite frame_loc_split. rewrite (proj2 (pass_iff _ _) Hr). cbn [see]. pose proof (forget_body r l) as F. rewrite (proj2 (py_body_iff _ _ _) Hf) in F.
  destruct (body_cases r) as [(w' & Hw' & H)|(why & H & _)]; [|destruct (frame_wrong_none _ _ _ _ H Hf)]. rewrite <- (width_fun _ _ _ Hw Hw') in H. destruct (H l) as (f' & q' & E). rewrite E in *. injection F as -> ->. reflexivity.
Qed.
Lemma frame_loc_none s r why l : py_passed s r -> py_frame_wrong why r -> exists l', python_frame_loc s l = Took (None, r) l' /\ message l' = Some why.
Proof. intros Hr Hw. rewrite frame_loc_split. rewrite (proj2 (pass_iff _ _) Hr). cbn [see]. exact (body_wrong _ _ l Hw). Qed.
Lemma width_iff s : (exists w, py_width s w) <-> exists f q, py_frame_text s f q.
Proof.
  split.
  - intros [w Hw]. destruct (body_cases s) as [(w' & Hw' & H)|(why & H & _)].
    + destruct (frame_or_wrong s) as [G|[why G]]; [exact G|]. destruct (body_wrong _ _ sr_location_init G) as (l' & E & _), (H sr_location_init) as (f & q & E'). rewrite E in E'. discriminate E'.
    + exfalso. destruct Hw as (p & i & b & sh & ds & a & fw & Hn & _ & _ & Hf & _). destruct H as [s Hh|s q Hp|s path q Hp Hne Hq|s path q Hp Hne Hq|s path ds' after Hn' Hi Hl|s path ds' after Hn' Hs].
      * destruct Hn as (n & (-> & _) & _). apply Hh. eexists. reflexivity.
      * destruct Hn as (n & Hp' & Hne & _). destruct (path_fun _ _ _ _ _ Hp' Hp) as [-> _]. exact (Hne eq_refl).
      * destruct Hn as (n & Hp' & _). destruct (path_fun _ _ _ _ _ Hp' Hp) as [_ <-]. apply Hq. eexists. reflexivity.
      * destruct Hn as (n & Hp' & _ & Hd & Ha). destruct (path_fun _ _ _ _ _ Hp' Hp) as [_ E]. apply app_inv_head in E. subst q. exact (Ha (Hq _ _ _ eq_refl Hd)).
      * destruct (numbered_fun _ _ _ _ _ _ _ Hn Hn') as (_ & _ & <-). destruct Hf as [(t & r & -> & _)|[Hb _]]; [|exact (Hl Hb)]. apply Hi. eexists. reflexivity.
      * destruct (numbered_fun _ _ _ _ _ _ _ Hn Hn') as (_ & _ & ->). destruct Hf as [(t & r & E & Nt & Hw & _)|[[z Hz] _]]; [|discriminate Hz]. apply app_inv_head in E. subst after.
        destruct t as [|c t]; [exact (Nt eq_refl)|]. inversion Hw as [|? ? Hc _]; subst. exact (Hc Hs).
  - intros (f & q & Hf). destruct (body_cases s) as [(w' & Hw' & H)|(why & H & _)]; [eauto|destruct (frame_wrong_none _ _ _ _ H Hf)].
Qed.
