(** * Locations in gdb texts: threads and stack traces. *)
From Verif Require Import Base Types UtilsModel UtilsSpec UtilsProofs ParseModel ParseSpec ParseProofs JsonModel JsParseProofs PyParseProofs KoopsSpec KoopsProofs KoopsProofs2
  GdbParseModel GdbParseSpec GdbParseProofs GdbParseProofs2 GdbParseProofs3 GdbParseProofs4 GdbParseProofs5 GdbParseProofs6 LocParseModel LocParseProofs GdbLocModel GdbLocSpec GdbLocProofs GdbLocProofs2 GdbLocProofs3 GdbLocProofs4.
Open Scope nat_scope.

(** ** Threads *)
Lemma add_moved_init l u m : line m = line (moved sr_location_init u) -> column m = column (moved sr_location_init u) -> add_location l m = moved l u.
Proof. intros E1 E2. unfold add_location. rewrite E1, E2, <- (moved_add l u). unfold moved. change (line sr_location_init) with 1%Z. change (column sr_location_init) with 0%Z. destruct (eat_all (1%Z, 0%Z) u) as [a b]. reflexivity. Qed.
Lemma frames_at fuel : forall s above l, length s < fuel -> match frames_loop fuel s with
  | Ok (fs, r) => exists fl' v, frames_counts above s v /\ gdb_frames_loc fuel s (moved sr_location_init above) l = Took (fs, r, fl') (moved l v) /\ (fs = [] -> v = [] /\ exists why u, frame_wrong why s u /\ message fl' = Some why)
  | Fail => False
  | UB => gdb_frames_loc fuel s (moved sr_location_init above) l = Broken
  end.
Proof.
  induction fuel as [|fuel IH]; intros s above l Hl; [lia|]. cbn [frames_loop gdb_frames_loc]. pose proof (gdb_frame_at s (moved sr_location_init above)) as A. destruct (frame_cases s) as [(f & r & Hf & E)|[[Hf E]|(Hf & Hn & E)]]; rewrite E in *.
  - destruct A as (h & c & Hh & Hc & ->). rewrite moved_app. rewrite (add_moved_init l (above ++ h ++ c)) by reflexivity. pose proof (frame_shorter _ _ _ Hf) as Hs. specialize (IH r (above ++ h ++ c) (moved l (above ++ h ++ c))). destruct (frames_loop fuel r) as [[fs q]| |]; cbn [bind].
    + destruct IH as (fl' & v & Hv & -> & _); [lia|]. cbn [and_then]. exists fl', ((above ++ h ++ c) ++ v). split; [eapply fc_more; eassumption|]. rewrite moved_app. split; [reflexivity|discriminate].
    + destruct IH; lia.
    + rewrite IH by lia. reflexivity.
  - rewrite A. reflexivity.
  - destruct A as (why & u & Hw & ->). eexists _, []. rewrite moved_nil. split; [apply fc_end; exact Hf|]. split; [reflexivity|]. intros _. split; [reflexivity|]. exists why, u. auto.
Qed.
Lemma says_eq l why fl : message fl = Some why -> mk_location (line l) (column l) (message fl) = says l why.
Proof. intros ->. reflexivity. Qed.
Lemma gdb_thread_at s l : match sr_gdb_thread_parse s with
  | Ok (t, r) => exists number tid q p v, thread_start s number tid q /\ s = p ++ q /\ frames_counts [] q v /\ gdb_thread_loc s l = Took (t, r) (moved l (p ++ v))
  | Fail => exists why u, thread_wrong why s u /\ gdb_thread_loc s l = Refused (says (moved l u) why)
  | UB => gdb_thread_loc s l = Broken
  end.
Proof.
  unfold sr_gdb_thread_parse, gdb_thread_loc. pose proof (title_at s l) as A. destruct (thread_header s) as [[[number tid] q]|] eqn:E.
  2:{ destruct A as (why & u & Hw & ->). exists why, u. split; [apply hw_title; exact Hw|reflexivity]. }
  apply thread_start_iff in E. destruct A as (p & Ep & ->). cbn [and_then]. pose proof (frames_at (S (length q)) q [] (moved l p) ltac:(lia)) as F. rewrite moved_nil in F.
  destruct (frames_loop (S (length q)) q) as [[fs r]| |]; cbn [bind]; [|destruct F|rewrite F; reflexivity]. destruct F as (fl' & v & Hv & -> & F). cbn [and_then]. destruct fs as [|f fs]; [|exists number, tid, q, p, v; rewrite moved_app; auto].
  destruct (F eq_refl) as (-> & why & u & Hw & Hm). exists why, p. split; [|rewrite moved_nil, (says_eq _ _ _ Hm); reflexivity]. eapply hw_frame; eassumption.
Qed.
Lemma thread_wrong_at why s u l : thread_wrong why s u -> gdb_thread_loc s l = Refused (says (moved l u) why).
Proof.
  intros [why' s' u' H|why' s' number tid u' q v Hs Es Hw]; unfold gdb_thread_loc.
  - rewrite (title_wrong_at _ _ _ _ H). reflexivity.
  - pose proof (title_at s' l) as A. apply thread_start_iff in Hs. rewrite Hs in A. destruct A as (p & Ep & ->). rewrite Es in Ep. apply app_inv_tail in Ep as <-. cbn [and_then gdb_frames_loc].
    rewrite (frame_refused_at _ _ _ _ Hw). reflexivity.
Qed.
Lemma threads_loc_at fuel : forall s l, length s < fuel -> match threads_loop fuel s with
  | Ok (ts, r) => exists l', gdb_threads_loc fuel s l = Took (ts, r) l' /\ (ts = [] -> exists why u, thread_wrong why s u /\ l' = says (moved l u) why)
  | Fail => False
  | UB => gdb_threads_loc fuel s l = Broken
  end.
Proof.
  induction fuel as [|fuel IH]; intros s l Hl; [lia|]. cbn [threads_loop gdb_threads_loc]. pose proof (gdb_thread_at s l) as A. destruct (thread_cases s) as [(t & r & Ht & E)|[[Ht E]|(Ht & Hn & E)]]; rewrite E in *.
  - destruct A as (number & tid & q0 & p0 & v0 & _ & _ & _ & ->). apply thread_shorter in Ht. specialize (IH r (moved l (p0 ++ v0))). destruct (threads_loop fuel r) as [[ts q]| |]; cbn [bind].
    + destruct IH as (l'' & -> & _); [lia|]. cbn [and_then]. exists l''. split; [reflexivity|discriminate].
    + destruct IH; lia.
    + rewrite IH by lia. reflexivity.
  - rewrite A. reflexivity.
  - destruct A as (why & u & Hw & ->). eexists. split; [reflexivity|]. intros _. eauto.
Qed.

(** ** Stack traces *)
Lemma newline_moved l pre ln col : pos_of pre ln col -> sr_location_add l (ln + 1) 0 = moved l (pre ++ [nl]).
Proof.
  intros H. apply pos_of_eat_all in H. rewrite <- (moved_add l (pre ++ [nl])). rewrite eat_all_app, H. reflexivity.
Qed.
Lemma entry_loc_cases word s : (exists r p ln, first_entry word s r /\ s = p ++ r /\ entry_loc s word = Ok (Some (r, ln)) /\ forall l, sr_location_add l ln 0 = moved l p) \/ (no_entry word s /\ entry_loc s word = Ok None).
Proof.
  unfold entry_loc. pose proof (strstr_location_correct s (nl :: word)) as H. destruct (sr_strstr_location s (nl :: word)) as [[post [ln c]]| |]; [|right|contradiction].
  - left. destruct H as (pre & H & Hp). pose proof H as (E & [q Eq] & _). cbn [app] in Eq. subst post. exists (word ++ q), (pre ++ [nl]), (ln + 1)%Z. split; [exists pre; exact H|].
    split; [rewrite <- app_assoc; exact E|]. split; [reflexivity|]. intros l. eapply newline_moved. exact Hp.
  - split; [|reflexivity]. intros r (pre & -> & [q E] & _). exact (H pre q (f_equal (app pre) E)).
Qed.
Definition crash_loc (f : str) (l : location) : outcome (option gdb_frame * str) := and_then (gdb_frame_loc f l) (fun '(f, s) l => Took (Some f, s) l).
Lemma trace_header_at s l :
  (exists p t, crash_frame_at s t /\ s = p ++ t /\ gdb_trace_header_loc s l = crash_loc t (moved l p) /\ sr_gdb_stacktrace_parse_header s = do (f, r) <- sr_gdb_frame_parse t; Ok (Some f, r)) \/
  (exists p t, threads_at s t /\ s = p ++ t /\ gdb_trace_header_loc s l = Took (None, t) (moved l p) /\ sr_gdb_stacktrace_parse_header s = Ok (None, t)) \/
  (no_entry (L "#") s /\ no_entry (L "Thread ") s /\ gdb_trace_header_loc s l = Refused (says l (L "No frame and no thread found.")) /\ sr_gdb_stacktrace_parse_header s = Fail).
Proof.
  unfold gdb_trace_header_loc, sr_gdb_stacktrace_parse_header, crash_loc.
  destruct (entry_loc_cases (L "Thread ") s) as [(th & p & ln & Ht & Ep & -> & Hp)|[Ht ->]]; cbn [see];
    (destruct (entry_cases (L "Thread ") s) as [(th' & Ht' & ->)|[Ht' ->]]; cbn [bind]; [try (exfalso; exact (Ht _ Ht'))|try (exfalso; exact (Ht' _ Ht))]); try rewrite (first_entry_fun _ _ _ _ Ht' Ht) in *;
    (destruct (entry_loc_cases (L "#") s) as [(f & p' & ln' & Hf & Ef & -> & Hf')|[Hf ->]]; cbn [see]);
    (destruct (entry_cases (L "#") s) as [(f2 & Hf2 & ->)|[Hf2 ->]]; cbn [bind]; [try (exfalso; exact (Hf _ Hf2))|try (exfalso; exact (Hf2 _ Hf))]); try rewrite (first_entry_fun _ _ _ _ Hf2 Hf) in *.
  - destruct (Nat.ltb_spec (length th) (length f)) as [Hl|Hl].
    + left. exists p', f. split; [split; [exact Hf|]; intros u Hu; rewrite (first_entry_fun _ _ _ _ Hu Ht); exact Hl|]. split; [exact Ef|]. rewrite Hf'. auto.
    + right. left. exists p, th. split; [split; [exact Ht|]; intros u Hu; rewrite (first_entry_fun _ _ _ _ Hu Hf); exact Hl|]. split; [exact Ep|]. rewrite Hp. auto.
  - right. left. exists p, th. split; [split; [exact Ht|]; intros u Hu; exfalso; exact (Hf _ Hu)|]. split; [exact Ep|]. rewrite Hp. auto.
  - left. exists p', f. split; [split; [exact Hf|]; intros u Hu; exfalso; exact (Ht _ Hu)|]. split; [exact Ef|]. rewrite Hf'. auto.
  - right. right. auto.
Qed.
Lemma gdb_trace_at s l : match sr_gdb_stacktrace_parse_threads s with
  | Ok x => exists l', gdb_trace_loc s l = Took x l'
  | Fail => exists why u, trace_wrong why s u /\ gdb_trace_loc s l = Refused (says (moved l u) why)
  | UB => gdb_trace_loc s l = Broken
  end.
Proof.
  unfold sr_gdb_stacktrace_parse_threads, gdb_trace_loc. destruct (trace_header_at s l) as [(p & t & Hc & Ep & -> & ->)|[(p & t & Ht & Ep & -> & ->)|(H1 & H2 & -> & ->)]].
  - unfold crash_loc. pose proof (gdb_frame_at t (moved l p)) as A. destruct (frame_cases t) as [(f & r & Hf & E)|[[Hf E]|(Hf & Hn & E)]]; rewrite E in *; cbn [bind].
    + destruct A as (h & c & Hh & Ec & ->). cbn [and_then]. rewrite moved_app. pose proof (threads_loc_at (S (length r)) r (moved l (p ++ h ++ c)) ltac:(lia)) as T.
      destruct (threads_loop (S (length r)) r) as [[ts q]| |]; cbn [bind]; [|destruct T|rewrite T; reflexivity]. destruct T as (l' & -> & T). cbn [and_then]. destruct ts as [|x ts]; [|eexists; reflexivity].
      destruct (T eq_refl) as (why & v & Hw & ->). exists why, (p ++ h ++ c ++ v). split; [eapply gw_after; eassumption|]. rewrite moved_app, <- !app_assoc. reflexivity.
    + rewrite A. reflexivity.
    + destruct A as (why & u & Hw & ->). exists why, (p ++ u). split; [eapply gw_crash; eassumption|]. rewrite moved_app. reflexivity.
  - cbn [bind and_then]. pose proof (threads_loc_at (S (length t)) t (moved l p) ltac:(lia)) as T.
    destruct (threads_loop (S (length t)) t) as [[ts q]| |]; cbn [bind]; [|destruct T|rewrite T; reflexivity]. destruct T as (l' & -> & T). cbn [and_then]. destruct ts as [|x ts]; [|eexists; reflexivity].
    destruct (T eq_refl) as (why & v & Hw & ->). exists why, (p ++ v). split; [eapply gw_threads; eassumption|]. rewrite moved_app. reflexivity.
  - cbn [bind and_then]. eexists _, []. split; [apply gw_none; assumption|]. rewrite moved_nil. reflexivity.
Qed.
Lemma threads_refused fuel s why u l : thread_wrong why s u -> gdb_threads_loc (S fuel) s l = Took ([], s) (says (moved l u) why).
Proof. intros H. cbn [gdb_threads_loc]. rewrite (thread_wrong_at _ _ _ _ H). reflexivity. Qed.
Lemma trace_wrong_at why s u l : trace_wrong why s u -> gdb_trace_loc s l = Refused (says (moved l u) why).
Proof.
  intros [s' H1 H2|why' s' p t v Es Hc Hw|why' s' p t v Es Ht Hw|why' s' p t f h c r v Es Hc Hf Ec Hh Hw]; unfold gdb_trace_loc.
  - destruct (trace_header_at s' l) as [(p & t & [Hc _] & _)|[(p & t & [Ht _] & _)|(_ & _ & -> & _)]]; [exfalso; exact (H1 _ Hc)|exfalso; exact (H2 _ Ht)|]. rewrite moved_nil. reflexivity.
  - destruct (trace_header_at s' l) as [(p' & t' & Hc' & Ep & -> & _)|[(p' & t' & Ht' & _)|(H1 & _)]]; [|exfalso; exact (crash_not_threads _ _ _ Hc Ht')|exfalso; exact (H1 _ (proj1 Hc))].
    rewrite (first_entry_fun _ _ _ _ (proj1 Hc') (proj1 Hc)) in *. assert (p' = p) as -> by (rewrite Es in Ep; apply app_inv_tail in Ep; congruence).
    unfold crash_loc. rewrite (frame_refused_at _ _ _ _ Hw), moved_app. reflexivity.
  - destruct (trace_header_at s' l) as [(p' & t' & Hc' & _)|[(p' & t' & Ht' & Ep & -> & _)|(_ & H1 & _)]]; [exfalso; exact (crash_not_threads _ _ _ Hc' Ht)| |exfalso; exact (H1 _ (proj1 Ht))].
    rewrite (first_entry_fun _ _ _ _ (proj1 Ht') (proj1 Ht)) in *. assert (p' = p) as -> by (rewrite Es in Ep; apply app_inv_tail in Ep; congruence).
    cbn [and_then]. rewrite (threads_refused _ _ _ _ _ Hw). cbn [and_then]. rewrite moved_app. reflexivity.
  - destruct (trace_header_at s' l) as [(p' & t' & Hc' & Ep & -> & _)|[(p' & t' & Ht' & _)|(H1 & _)]]; [|exfalso; exact (crash_not_threads _ _ _ Hc Ht')|exfalso; exact (H1 _ (proj1 Hc))].
    rewrite (first_entry_fun _ _ _ _ (proj1 Hc') (proj1 Hc)) in *. assert (p' = p) as -> by (rewrite Es in Ep; apply app_inv_tail in Ep; congruence).
    unfold crash_loc. rewrite (frame_counts_at _ _ _ _ _ _ Hf Hh Ec). cbn [and_then]. rewrite (threads_refused _ _ _ _ _ Hw). cbn [and_then]. rewrite !moved_app, <- !app_assoc. reflexivity.
Qed.

(** ** The theorems *)
Definition told (ln col : Z) (why : str) : str := L "Line " ++ print_Z ln ++ L ", column " ++ print_Z col ++ L ": " ++ why.
Lemma forget_gdb s l : forget (gdb_trace_loc s l) = sr_gdb_stacktrace_parse_threads s.
Proof. pose proof (gdb_trace_at s l) as A. destruct (sr_gdb_stacktrace_parse_threads s) as [x| |]; [destruct A as [l' ->]|destruct A as (why & u & _ & ->)|rewrite A]; reflexivity. Qed.
Lemma forget_gdb_thread s l : forget (gdb_thread_loc s l) = sr_gdb_thread_parse s.
Proof. pose proof (gdb_thread_at s l) as A. destruct (sr_gdb_thread_parse s) as [[x r]| |]; [destruct A as (number & tid & q & p & v & _ & _ & _ & ->)|destruct A as (why & u & _ & ->)|rewrite A]; reflexivity. Qed.
Lemma forget_gdb_frame s l : forget (gdb_frame_loc s l) = sr_gdb_frame_parse s.
Proof. pose proof (gdb_frame_at s l) as A. destruct (sr_gdb_frame_parse s) as [[x r]| |]; [destruct A as (h & c & _ & _ & ->)|destruct A as (why & u & _ & ->)|rewrite A]; reflexivity. Qed.
Theorem gdb_error text m : parse_wrapper gdb_trace_loc text = Ok (inr m) <-> exists why u ln col, trace_wrong why text u /\ pos_of u ln col /\ m = told ln col why.
Proof.
  unfold parse_wrapper. split.
  - intros E. pose proof (gdb_trace_at text sr_location_init) as A. destruct (sr_gdb_stacktrace_parse_threads text) as [[x r]| |].
    + destruct A as [l' A]. rewrite A in E. discriminate.
    + destruct A as (why & u & Hw & A). rewrite A in E. injection E as <-. exists why, u, (line (moved sr_location_init u)), (column (moved sr_location_init u)). split; [exact Hw|]. split; [apply pos_moved|reflexivity].
    + rewrite A in E. discriminate.
  - intros (why & u & ln & col & Hw & Hp & ->). rewrite (trace_wrong_at _ _ _ _ Hw), (moved_pos _ _ _ Hp). reflexivity.
Qed.
Lemma says_inj a b why why' : says a why = says b why' -> line a = line b /\ column a = column b /\ why = why'.
Proof. unfold says. intros E. assert (K : Some why = Some why') by (change (Some why) with (message (mk_location (line a) (column a) (Some why))); rewrite E; reflexivity).
  split; [change (line a) with (line (mk_location (line a) (column a) (Some why))); rewrite E; reflexivity|]. split; [change (column a) with (column (mk_location (line a) (column a) (Some why))); rewrite E; reflexivity|congruence].
Qed.
Lemma refused_fun why u why' u' ln col ln' col' : Refused (says (moved sr_location_init u) why) = (Refused (says (moved sr_location_init u') why') : outcome (option gdb_frame * list gdb_thread * str)) ->
  pos_of u ln col -> pos_of u' ln' col' -> why = why' /\ ln = ln' /\ col = col'.
Proof.
  intros E P P'. assert (K : says (moved sr_location_init u) why = says (moved sr_location_init u') why') by congruence. rewrite (moved_pos _ _ _ P), (moved_pos _ _ _ P') in K. apply says_inj in K as (K1 & K2 & K3). auto.
Qed.
Theorem gdb_one text why u why' u' ln col ln' col' : trace_wrong why text u -> trace_wrong why' text u' -> pos_of u ln col -> pos_of u' ln' col' -> why = why' /\ ln = ln' /\ col = col'.
Proof.
  intros H H'. apply refused_fun. rewrite <- (trace_wrong_at _ _ _ sr_location_init H), <- (trace_wrong_at _ _ _ sr_location_init H'). reflexivity.
Qed.
Theorem gdb_total text :
  (exists crash ts rest, parse_wrapper gdb_trace_loc text = Ok (inl (crash, ts)) /\ trace_text text crash ts rest /\ forall why u, ~ trace_wrong why text u) \/
  (exists why u ln col, parse_wrapper gdb_trace_loc text = Ok (inr (told ln col why)) /\ trace_wrong why text u /\ pos_of u ln col /\ forall crash ts rest, ~ trace_text text crash ts rest) \/
  (parse_wrapper gdb_trace_loc text = UB /\ trace_off text).
Proof.
  unfold parse_wrapper. pose proof (gdb_trace_at text sr_location_init) as A. destruct (trace_exact text) as [T1 T2]. destruct (sr_gdb_stacktrace_parse_threads text) as [[[crash ts] rest]| |] eqn:E.
  - left. destruct A as [l' A]. exists crash, ts, rest. rewrite A. split; [reflexivity|]. split; [apply T1; reflexivity|]. intros why u H. rewrite (trace_wrong_at _ _ _ _ H) in A. discriminate.
  - right. left. destruct A as (why & u & Hw & A). exists why, u, (line (moved sr_location_init u)), (column (moved sr_location_init u)). rewrite A. split; [reflexivity|]. split; [exact Hw|]. split; [apply pos_moved|].
    intros crash ts rest H. apply T1 in H. discriminate.
  - right. right. rewrite A. split; [reflexivity|]. apply T2. reflexivity.
Qed.
(** Frames and threads, wherever the location stands *)
Lemma moved_counts l u : counts_to (line l) (column l) u (line (moved l u)) (column (moved l u)).
Proof.
  exists (fst (eat_all (1%Z, 0%Z) u)), (snd (eat_all (1%Z, 0%Z) u)). split; [apply eat_all_pos|]. rewrite <- (moved_add l u). unfold sr_location_add, loc_add. pose proof (eat_all_fst (1%Z, 0%Z) u) as F. cbn [fst] in F.
  destruct (eat_all (1%Z, 0%Z) u) as [a b]. cbn [fst snd] in *. destruct (Z.ltb_spec 1 a) as [H|H]; cbn [line column]; [right|left]; split; try lia; (split; lia).
Qed.
Lemma moved_eq l u : exists ln col, counts_to (line l) (column l) u ln col /\ moved l u = mk_location ln col (message l).
Proof. exists (line (moved l u)), (column (moved l u)). split; [apply moved_counts|]. rewrite <- (moved_message l u). symmetry. apply location_eta. Qed.
Theorem frame_told s l : match gdb_frame_loc s l with
  | Took (f, r) l' => gdb_frame_text s f r /\ exists h c ln col, header_counts s h /\ s = c ++ r /\ counts_to (line l) (column l) (h ++ c) ln col /\ l' = mk_location ln col (message l)
  | Refused l' => (forall f r, ~ gdb_frame_text s f r) /\ exists why u ln col, frame_wrong why s u /\ counts_to (line l) (column l) u ln col /\ l' = mk_location ln col (Some why)
  | Broken => frame_header_off s
  end.
Proof.
  pose proof (gdb_frame_at s l) as A. destruct (frame_cases s) as [(f & r & Hf & E)|[[Hf E]|(Hf & Hn & E)]]; rewrite E in A.
  - destruct A as (h & c & H1 & H2 & ->). destruct (moved_eq l (h ++ c)) as (ln & col & K & ->). split; [exact Hf|]. exists h, c, ln, col. auto.
  - rewrite A. exact Hf.
  - destruct A as (why & u & Hw & ->). destruct (moved_eq l u) as (ln & col & K & ->). split; [exact Hf|]. exists why, u, ln, col. auto.
Qed.
Theorem thread_told s l : match gdb_thread_loc s l with
  | Took (t, r) l' => thread_text s t r /\ exists number tid q p v ln col, thread_start s number tid q /\ s = p ++ q /\ frames_counts [] q v /\ counts_to (line l) (column l) (p ++ v) ln col /\ l' = mk_location ln col (message l)
  | Refused l' => (forall t r, ~ thread_text s t r) /\ exists why u ln col, thread_wrong why s u /\ counts_to (line l) (column l) u ln col /\ l' = mk_location ln col (Some why)
  | Broken => thread_off s
  end.
Proof.
  pose proof (gdb_thread_at s l) as A. destruct (thread_cases s) as [(t & r & Ht & E)|[[Ht E]|(Ht & Hn & E)]]; rewrite E in A.
  - destruct A as (number & tid & q & p & v & H1 & H2 & H3 & ->). destruct (moved_eq l (p ++ v)) as (ln & col & K & ->). split; [exact Ht|]. exists number, tid, q, p, v, ln, col. auto.
  - rewrite A. exact Ht.
  - destruct A as (why & u & Hw & ->). destruct (moved_eq l u) as (ln & col & K & ->). split; [exact Ht|]. exists why, u, ln, col. auto.
Qed.
(** ** True places *)
Lemma flat_app a b : flat (a ++ b) = flat a ++ flat b.
Proof. apply map_app. Qed.
Lemma flat_flat v : flat (flat v) = flat v.
Proof. unfold flat. rewrite map_map. apply map_ext. intros c. destruct (Ascii.eqb c nl) eqn:E; [reflexivity|]. rewrite E. reflexivity. Qed.
Lemma name_prefix s u r : name_counts s u r -> exists p, s = p ++ r /\ flat u = flat p.
Proof.
  intros [(-> & ->)|(Hq & v & c & t & added & c1 & t1 & -> & Hv & Hc & Hk & H)]; [exists (L "??"); auto|].
  assert (K : exists k, c :: t = k ++ c1 :: t1 /\ added = k). { destruct Hk as [(-> & _ & ->)|(_ & -> & -> & ->)]; eexists; (split; [|reflexivity]); reflexivity. }
  destruct K as (k & -> & ->). destruct H as [(_ & -> & ->)|(w & c2 & t2 & -> & _ & _ & [(_ & -> & ->)|(-> & _ & ->)])].
  - exists (v ++ k). rewrite !flat_app, flat_flat, <- app_assoc. auto.
  - exists (v ++ k ++ c1 :: w). split; [rewrite <- !app_assoc; reflexivity|]. rewrite !flat_app, flat_flat. cbn [flat map]. fold (flat (flat w)). rewrite flat_flat. reflexivity.
  - exists (v ++ k ++ c1 :: w ++ c2 :: L "const"). split; [rewrite <- !app_assoc; cbn [app]; rewrite <- app_assoc; reflexivity|]. rewrite !flat_app, flat_flat.
    change (flat (c1 :: flat w ++ c2 :: L "const")) with (flat [c1] ++ flat (flat w ++ c2 :: L "const")). change (flat (c1 :: w ++ c2 :: L "const")) with (flat [c1] ++ flat (w ++ c2 :: L "const")). rewrite !flat_app, flat_flat. reflexivity.
Qed.
Lemma call_prefix s u r : call_counts s u r -> exists p, s = p ++ r /\ flat u = flat p.
Proof.
  intros (v & t & w & x & Hv & -> & _ & _ & ->). destruct (name_prefix _ _ _ Hv) as (p & -> & E). exists (p ++ w). rewrite !flat_app, E, <- app_assoc. auto.
Qed.
Lemma frame_prefix why s u : frame_wrong why s u -> exists p r, s = p ++ r /\ flat u = flat p.
Proof.
  intros [s' H|s' p n t v r Es Hs Hn Hv Hf|s' p n t Es Hs Hn H1 H2 H3].
  - exists [], s'. auto.
  - destruct (call_prefix _ _ _ Hv) as (q & -> & E). exists (p ++ q), r. rewrite !flat_app, E, <- app_assoc. auto.
  - exists p, t. auto.
Qed.
Lemma title_prefix why s u : title_wrong why s u -> exists r, s = u ++ r.
Proof. intros [t H|u' t1 t2 E H1 H2|u' n t1 t2 t3 E H1 H2 H3|u' s' tid t E H1 H2|u' s' t E H1 H2|u' s' tid t E H1 H2 H3|u' s' t E H1 H2]; eexists; first [exact E|reflexivity]. Qed.
Lemma thread_prefix why s u : thread_wrong why s u -> exists r, s = u ++ r.
Proof. intros [why' s' u' H|why' s' number tid u' q v Hs Es Hw]; [eapply title_prefix; exact H|exists q; exact Es]. Qed.
Theorem place_true why text u : trace_wrong why text u -> (forall t, ~ crash_frame_at text t) -> exists rest, text = u ++ rest.
Proof.
  intros [s' H1 H2|why' s' p t v Es Hc Hw|why' s' p t v Es Ht Hw|why' s' p t f h c r v Es Hc Hf Ec Hh Hw] Hn; try (exfalso; exact (Hn _ Hc)).
  - exists s'. reflexivity.
  - destruct (thread_prefix _ _ _ Hw) as [r ->]. exists r. rewrite <- app_assoc. exact Es.
Qed.
Theorem place_flat why text u t : trace_wrong why text u -> crash_frame_at text t -> (forall f r, ~ gdb_frame_text t f r) -> exists u' rest, text = u' ++ rest /\ flat u = flat u'.
Proof.
  intros [s' H1 H2|why' s' p t' v Es Hc Hw|why' s' p t' v Es Ht Hw|why' s' p t' f h c r v Es Hc Hf Ec Hh Hw] Ht0 Hn.
  - exists [], s'. auto.
  - destruct (frame_prefix _ _ _ Hw) as (q & r & -> & E). exists (p ++ q), r. rewrite !flat_app, E, <- app_assoc. auto.
  - exfalso. exact (crash_not_threads _ _ _ Ht0 Ht).
  - exfalso. rewrite (first_entry_fun _ _ _ _ (proj1 Hc) (proj1 Ht0)) in Hf. exact (Hn _ _ Hf).
Qed.
