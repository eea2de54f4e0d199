(** * Proofs about short texts (C54). *)
From Verif Require Import Base Types JsonSpec JsonModel JsonProofs NormModel NormSpec NormProofs NormProofs2 CrashModel TextModel TextSpec TextProofs TextProofs2.
Open Scope Z_scope.

Lemma append_ok f : printable f -> exists x, sr_frame_append_to_str f = Ok x.
Proof.
  destruct f as [f|f|f|f|f|f|f]; cbn [printable sr_frame_append_to_str]; intros H; eauto; [|tauto|].
  - unfold sr_core_frame_append_to_str. destruct (cf_function_name f); eauto. destruct (cf_build_id f); cbn [percent_s bind]; eauto.
    destruct H as [H|H]; elim H; reflexivity.
  - unfold sr_js_frame_append_to_str. destruct (jf_file_name f); cbn [percent_s bind]; eauto. elim H; reflexivity.
Qed.
(** ** What a frame's line shows *)
Lemma infix_refl (s : str) : infix s s.
Proof. exists [], []. rewrite app_nil_r. reflexivity. Qed.
Lemma infix_l (w a b : str) : infix w a -> infix w (a ++ b).
Proof. intros (x & y & ->). exists x, (y ++ b). rewrite <- !app_assoc. reflexivity. Qed.
Lemma infix_r (w a b : str) : infix w b -> infix w (a ++ b).
Proof. intros (x & y & ->). exists (a ++ x), y. rewrite <- !app_assoc. reflexivity. Qed.
Lemma infix_c (w b : str) c : infix w b -> infix w (c :: b).
Proof. apply (infix_r w [c] b). Qed.
Ltac finds := solve [assumption | apply infix_refl | apply infix_l; finds | apply infix_r; finds].
Lemma bracket_infix b s : infix s (bracket b s).
Proof. destruct b; unfold bracket; finds. Qed.
Ltac finds2 := cbn beta iota; solve [assumption | apply infix_refl | apply bracket_infix | apply infix_c; finds2 | apply infix_l; finds2 | apply infix_r; finds2].
Lemma append_shows f x : sr_frame_append_to_str f = Ok x -> Forall (fun w => infix w x) (frame_shows f).
Proof.
  destruct f as [f|f|f|f|f|f|f]; cbn [sr_frame_append_to_str frame_shows]; intros E.
  - unfold sr_core_frame_append_to_str in E. destruct (cf_function_name f) as [n|].
    + injection E as <-. constructor; [finds2|constructor].
    + destruct (cf_build_id f) as [b|]; [|discriminate]. cbn [percent_s bind] in E. injection E as <-. constructor; [finds2|constructor].
  - injection E as <-. unfold sr_python_frame_append_to_str. rewrite Forall_app. split.
    + destruct (pf_function_name f); constructor; [finds2|constructor].
    + destruct (pf_file_name f); constructor; [finds2|constructor].
  - injection E as <-. unfold sr_koops_frame_append_to_str. rewrite Forall_app. split.
    + destruct (kf_function_name f); constructor; [finds2|constructor].
    + destruct (kf_module_name f); constructor; [finds2|constructor].
  - injection E as <-. unfold sr_java_frame_append_to_str. rewrite Forall_app. destruct (vf_is_exception f).
    + split; [destruct (vf_name f)|destruct (vf_message f)]; constructor; (finds2 || constructor).
    + rewrite Forall_app. split; [destruct (vf_name f); constructor; (finds2 || constructor)|]. split.
      * destruct (vf_class_path f); constructor; (finds2 || constructor).
      * destruct (vf_is_native f); [constructor|]. destruct (vf_file_name f); constructor; (finds2 || constructor).
  - discriminate.
  - injection E as <-. unfold sr_ruby_frame_append_to_str. rewrite Forall_app. split.
    + destruct (rf_function_name f); constructor; [finds2|constructor].
    + destruct (rf_file_name f); constructor; [finds2|constructor].
  - unfold sr_js_frame_append_to_str in E. destruct (jf_file_name f) as [n|]; [|discriminate]. cbn [percent_s bind] in E.
    injection E as <-. rewrite Forall_app. split.
    + destruct (jf_function_name f); constructor; [finds2|constructor].
    + constructor; [finds2|constructor].
Qed.
Lemma gdb_append_shows v f : Forall (fun w => infix w (sr_gdb_frame_append_to_str v f))
  (if v then frame_shows (FGdb f) else match gf_function_name f with Some n => [n] | None => [] end).
Proof.
  unfold sr_gdb_frame_append_to_str. destruct v; cbn [frame_shows].
  - rewrite Forall_app. split; [destruct (gf_function_name f)|destruct (gf_source_file f)]; constructor; (finds2 || constructor).
  - destruct (gf_function_name f); constructor; (finds2 || constructor).
Qed.
(** ** One line per frame *)
Lemma lit_no_nl s : forallb (fun c => negb (Ascii.eqb c nl)) s = true -> no_newline s.
Proof.
  intros H K. rewrite forallb_forall in H. apply H in K. rewrite Ascii.eqb_refl in K. discriminate.
Qed.
Lemma slash_in c s : In c (after_last_slash s) -> In c s.
Proof.
  unfold after_last_slash. rewrite <- in_rev. intros H. rewrite in_rev.
  assert (S : forall p l, In c (fst (span p l)) -> In c l).
  { intros p l. induction l as [|x l IH]; cbn [span]; [tauto|]. destruct (p x); [|intros []].
    destruct (span p l) as [a b]. cbn [fst] in *. intros [->|K]; [left; reflexivity|right; auto]. }
  exact (S _ _ H).
Qed.
Lemma nl_cons c (s : str) : c <> nl -> no_newline s -> no_newline (c :: s).
Proof. intros H K [E|E]; [congruence|exact (K E)]. Qed.
Ltac oneline := repeat first
  [ assumption | (apply nl_cons; [discriminate|]) | apply nl_L | apply dec_no_nl | (apply lit_no_nl; reflexivity)
  | (intros K; apply slash_in in K; revert K; assumption) ].
Lemma bracket_no_nl b s : no_newline s -> no_newline (bracket b s).
Proof. intros H. destruct b; unfold bracket; oneline. Qed.
Lemma rescue_no_nl n : no_newline (concat (repeat (L "rescue in ") n)).
Proof. induction n as [|n IH]; cbn [repeat concat]; [intros []|]. oneline. Qed.
Lemma append_one_line f x : sr_frame_append_to_str f = Ok x -> frame_one_line f -> no_newline x.
Proof.
  destruct f as [f|f|f|f|f|f|f]; cbn [sr_frame_append_to_str frame_one_line]; intros E H; opens.
  - unfold sr_core_frame_append_to_str in E. destruct (cf_function_name f), (cf_file_name f), (cf_build_id f);
      cbn [percent_s bind one_line] in *; try discriminate; injection E as <-; oneline.
  - injection E as <-. unfold sr_python_frame_append_to_str.
    destruct (pf_function_name f), (pf_file_name f), (pf_file_line f =? 0); cbn [one_line] in *; oneline; apply bracket_no_nl; oneline.
  - injection E as <-. unfold sr_koops_frame_append_to_str.
    destruct (kf_function_name f), (kf_module_name f), (kf_special_stack f), (kf_reliable f); cbn [one_line] in *; oneline.
  - injection E as <-. unfold sr_java_frame_append_to_str.
    destruct (vf_is_exception f); [destruct (vf_name f), (vf_message f); cbn [one_line] in *; oneline|].
    destruct (vf_name f), (vf_is_native f), (vf_file_name f), (vf_file_line f =? 0), (vf_class_path f) as [p|]; cbn [one_line] in *;
      try destruct (Nat.ltb (position "/" p) (position ":" p)); oneline.
  - discriminate.
  - injection E as <-. unfold sr_ruby_frame_append_to_str. apply nl_L; [apply rescue_no_nl|].
    destruct (rf_block_level f =? 1), (1 <? rf_block_level f), (rf_function_name f), (rf_file_name f), (rf_file_line f =? 0);
      cbn [one_line] in *; oneline; apply bracket_no_nl; oneline.
  - unfold sr_js_frame_append_to_str in E. destruct (jf_file_name f), (jf_function_name f); cbn [percent_s bind one_line] in *; try discriminate;
      injection E as <-; oneline.
Qed.
Lemma gdb_append_one_line v f : frame_one_line (FGdb f) -> no_newline (sr_gdb_frame_append_to_str v f).
Proof.
  cbn [frame_one_line]. intros H. opens. unfold sr_gdb_frame_append_to_str.
  destruct v, (gf_function_type f), (gf_function_name f), (gf_source_file f), (gf_source_line f =? uint32_max), (gf_signal_handler_called f);
    cbn [one_line] in *; oneline.
Qed.
Lemma count_app c a b : count c (a ++ b) = (count c a + count c b)%nat.
Proof. unfold count. rewrite filter_app, app_length. reflexivity. Qed.
Lemma count_none c s : ~ In c s -> count c s = O.
Proof.
  unfold count. intros H. induction s as [|d s IH]; [reflexivity|]. cbn [filter]. destruct (Ascii.eqb_spec c d) as [->|N].
  - elim H. left; reflexivity.
  - apply IH. intros K. apply H. right. exact K.
Qed.
Lemma numbered_lines i l t : numbered i l t -> Forall no_newline l -> count nl t = length l.
Proof.
  induction 1 as [i|i d x l t D N IH]; intros F; [reflexivity|]. inversion F; subst.
  rewrite !count_app, IH by assumption. rewrite (count_none nl x) by assumption.
  assert (Hd : no_newline d).
  { destruct D as [D _]. apply jdigits_all in D as [D _]. intros K. rewrite Forall_forall in D. exact (D _ K eq_refl). }
  rewrite (count_none nl d) by exact Hd. reflexivity.
Qed.
(** ** The loop *)
Definition remaining {A} (n i : Z) (l : list A) : list A := if n =? 0 then l else firstn (Z.to_nat (Z.max 1 (n - i))) l.
Lemma short_loop : forall l i n, 0 <= i -> Forall printable (remaining n i l) ->
  exists texts out, Forall2 (fun f x => sr_frame_append_to_str f = Ok x) (remaining n i l) texts /\
    short_text_loop l i n = Ok out /\ numbered (i + 1) texts out.
Proof.
  induction l as [|f l IH]; intros i n Hi Pl.
  - exists [], []. unfold remaining. rewrite firstn_nil. destruct (n =? 0); repeat split; constructor.
  - assert (Pf : printable f).
    { revert Pl. unfold remaining. destruct (n =? 0); [|destruct (Z.to_nat (Z.max 1 (n - i))) eqn:Z; [lia|cbn [firstn]]];
        intros Pl; inversion Pl; assumption. }
    cbn [short_text_loop]. cbn zeta. destruct (append_ok f Pf) as (x & Ex). rewrite Ex. cbn [bind].
    destruct (negb (n =? 0) && (n <=? i + 1)) eqn:B.
    + apply andb_prop in B as [B1 B2]. apply negb_true_iff in B1. apply Z.eqb_neq in B1. apply Z.leb_le in B2.
      exists [x]. eexists. split; [|split; [reflexivity|]].
      * unfold remaining. destruct (Z.eqb_spec n 0); [lia|]. replace (Z.to_nat (Z.max 1 (n - i))) with 1%nat by lia. cbn [firstn].
        constructor; [assumption|constructor].
      * replace (L "#" ++ dec (i + 1) ++ L " " ++ x ++ [nl]) with (L "#" ++ dec (i + 1) ++ L " " ++ x ++ [nl] ++ []) by reflexivity.
        constructor; [apply dec_ok; lia|constructor].
    + assert (Pl' : Forall printable (remaining n (i + 1) l)).
      { revert Pl. unfold remaining. destruct (Z.eqb_spec n 0) as [K|K]; [intros Pl; inversion Pl; assumption|].
        assert (B' : i + 1 < n) by (destruct (Z.leb_spec n (i + 1)); [cbn in B; discriminate|assumption]).
        replace (Z.to_nat (Z.max 1 (n - i))) with (S (Z.to_nat (Z.max 1 (n - (i + 1))))) by lia. cbn [firstn].
        intros Pl; inversion Pl; assumption. }
      destruct (IH (i + 1) n ltac:(lia) Pl') as (ts & out & F & E & N). rewrite E. cbn [bind].
      exists (x :: ts). eexists. split; [|split; [reflexivity|]].
      * revert F. unfold remaining. destruct (Z.eqb_spec n 0) as [K|K]; [intros F; constructor; assumption|].
        assert (B' : i + 1 < n) by (destruct (Z.leb_spec n (i + 1)); [cbn in B; discriminate|assumption]).
        replace (Z.to_nat (Z.max 1 (n - i))) with (S (Z.to_nat (Z.max 1 (n - (i + 1))))) by lia. cbn [firstn].
        intros F. constructor; assumption.
      * rewrite <- !app_assoc. constructor; [apply dec_ok; lia|assumption].
Qed.
Theorem short_text_ok s t n : (forall g, s <> SGdb g) -> sr_stacktrace_find_crash_thread s = Some t ->
  Forall printable (displayed n (sr_thread_frames t)) ->
  exists texts out, Forall2 (fun f x => sr_frame_append_to_str f = Ok x) (displayed n (sr_thread_frames t)) texts /\
    sr_stacktrace_to_short_text s n = Ok (Some out) /\ numbered 1 texts out.
Proof.
  intros G C P. assert (E : sr_stacktrace_to_short_text s n = stacktrace_to_short_text s n).
  { destruct s; try reflexivity. elim (G s). reflexivity. }
  rewrite E. unfold stacktrace_to_short_text. rewrite C.
  assert (P' : Forall printable (remaining n 0 (sr_thread_frames t))) by (unfold remaining; rewrite Z.sub_0_r; exact P).
  destruct (short_loop (sr_thread_frames t) 0 n (Z.le_refl 0) P') as (ts & out & F & L & N). rewrite L. cbn [bind].
  exists ts, out. split; [|split; [reflexivity|exact N]]. revert F. unfold remaining, displayed. rewrite Z.sub_0_r. tauto.
Qed.
Theorem gdb_short_text s i t n o : sr_gdb_stacktrace_find_crash_thread s = Some i -> nth_error (gs_threads s) i = Some t ->
  sr_gdb_thread_get_optimized t (gs_libs s) n = Ok o -> 0 <= gt_number t ->
  exists num len texts, decnum (gt_number t) num /\ decnum (Z.of_nat (length (gt_frames o))) len /\
    sr_stacktrace_to_short_text (SGdb s) n =
      Ok (Some (unlines ((L "Thread no. " ++ num ++ L " (" ++ len ++ L " frames)") :: texts))) /\
    Forall2 (fun f x => Forall (fun w => infix w x) (frame_shows (FGdb f)) /\ (frame_one_line (FGdb f) -> no_newline x)) (gt_frames o) texts /\
    (0 < n -> Z.of_nat (length texts) <= n).
Proof.
  intros C T O N. exists (dec (gt_number t)), (dec (Z.of_nat (length (gt_frames o)))), (map (sr_gdb_frame_append_to_str true) (gt_frames o)).
  split; [apply dec_ok; assumption|]. split; [apply dec_ok; lia|].
  cbn [sr_stacktrace_to_short_text]. unfold sr_gdb_stacktrace_to_short_text. rewrite C, T, O. cbn [bind].
  assert (On : gt_number o = gt_number t).
  { unfold sr_gdb_thread_get_optimized in O. destruct (gs_libs s); cbn [bind] in O; [injection O as <-; reflexivity|].
    destruct (sr_gdb_thread_set_libnames _ _); try discriminate. cbn [bind] in O. injection O as <-. reflexivity. }
  split; [|split].
  - unfold sr_gdb_thread_append_to_str. rewrite On, unlines_cons. unfold unlines. rewrite map_map.
    rewrite <- !app_assoc. reflexivity.
  - generalize (gt_frames o). induction l as [|f l IH]; cbn [map]; constructor; [|exact IH].
    split; [apply (gdb_append_shows true)|apply gdb_append_one_line].
  - intros Hn. rewrite map_length. unfold sr_gdb_thread_get_optimized in O.
    assert (B : (0 <? n)%Z = true) by (apply Z.ltb_lt; assumption). rewrite B in O.
    destruct (gs_libs s); cbn [bind] in O; [|destruct (sr_gdb_thread_set_libnames _ _); try discriminate; cbn [bind] in O];
      injection O as <-; cbn [gt_frames]; rewrite firstn_length; lia.
Qed.
Theorem short_text_none s n : sr_stacktrace_find_crash_thread s = None -> (forall g, s <> SGdb g) \/
    (exists g, s = SGdb g /\ sr_gdb_stacktrace_find_crash_thread g = None) ->
  sr_stacktrace_to_short_text s n = Ok None.
Proof.
  intros C [G|(g & -> & E)].
  - assert (E : sr_stacktrace_to_short_text s n = stacktrace_to_short_text s n) by (destruct s; try reflexivity; elim (G s); reflexivity).
    rewrite E. unfold stacktrace_to_short_text. rewrite C. reflexivity.
  - cbn [sr_stacktrace_to_short_text]. unfold sr_gdb_stacktrace_to_short_text. rewrite E. reflexivity.
Qed.
(** ** Text of all threads *)
Theorem gdb_text_lines s : exists texts,
  sr_gdb_stacktrace_to_text s false = unlines (concat (map (fun l => L "Thread" :: l) texts)) /\
  Forall2 (fun t l => Forall2 (fun f x => Forall (fun w => infix w x) match gf_function_name f with Some n => [n] | None => [] end /\
                                 (frame_one_line (FGdb f) -> no_newline x)) (gt_frames t) l) (gs_threads s) texts.
Proof.
  exists (map (fun t => map (sr_gdb_frame_append_to_str false) (gt_frames t)) (gs_threads s)). split.
  - unfold sr_gdb_stacktrace_to_text. cbn [app]. replace (match gs_crash s with Some _ | _ => [] end) with (@nil ascii) by (destruct (gs_crash s); reflexivity).
    cbn [app]. induction (gs_threads s) as [|t l IH]; [reflexivity|]. cbn [map concat]. rewrite IH.
    unfold sr_gdb_thread_append_to_str at 1. rewrite unlines_app, unlines_cons. unfold unlines at 2. rewrite (map_map (sr_gdb_frame_append_to_str false) (fun x => x ++ [nl])).
    rewrite <- !app_assoc. reflexivity.
  - induction (gs_threads s) as [|t l IH]; cbn [map]; constructor; [|exact IH].
    induction (gt_frames t) as [|f r IH2]; cbn [map]; constructor; [|exact IH2].
    split; [apply (gdb_append_shows false)|apply gdb_append_one_line].
Qed.
