(** * Proofs: the debug commands. *)
From Verif Require Import Base Types CmpModel CmpSpec CmpProofs UtilsModel UtilsSpec UtilsProofs JsonSpec JsonTypesModel RpmModel RpmSpec SystemModel SystemSpec
  JsonProofs NormTables NormModel NormSpec NormProofs NormProofs2 TextModel TextSpec TextProofs TextProofs2 UnwindModel FileModel FileSpec AbrtModel
  CliModel CliSpec CliProofs CliProofs2.
Open Scope nat_scope.

(** ** Nothing is removed from a thread without source files *)
Definition patterned (t : list (str * list str)) : bool := forallb (fun r => forallb (fun p => negb (Nat.eqb (length p) 0)) (snd r)) t.
Lemma match_empty files : forallb (fun p => negb (Nat.eqb (length p) 0)) files = true -> file_match (Some []) files = false.
Proof.
  intros H. cbn [file_match]. induction files as [|f files IH]; [reflexivity|]. cbn [forallb existsb] in *. apply andb_true_iff in H as [H1 H2].
  rewrite (IH H2), orb_false_r. destruct f; [discriminate|reflexivity].
Qed.
Lemma any_empty t fn : patterned t = true -> any_call t fn (Some []) = false.
Proof.
  intros H. unfold any_call. induction t as [|[n files] t IH]; [reflexivity|]. cbn [patterned forallb existsb fst snd] in *.
  apply andb_true_iff in H as [H1 H2]. rewrite (IH H2), orb_false_r. unfold call_match. destruct fn as [f|]; [|reflexivity].
  destruct (str_eqb f n); [now apply match_empty|reflexivity].
Qed.
Lemma exit_patterned : patterned gdb_exit_table = true. Proof. vm_compute. reflexivity. Qed.
Lemma arch_patterned : forallb (fun f => patterned (arch_variants f)) arch_functions = true. Proof. vm_compute. reflexivity. Qed.
Lemma listed_empty t fn : listed t fn (Some []) -> exists n files, fn = Some n /\ In (n, files) t /\ In [] files.
Proof.
  intros (n & files & p & s & I & F & E & P & (a & b & X)). injection E as <-. symmetry in X. apply app_eq_nil in X as [_ X]. apply app_eq_nil in X as [-> _].
  exists n, files. auto.
Qed.
Definition no_source (f : gdb_frame) : Prop := gf_source_file f = Some [] /\ gf_address f <> 0%Z.
Definition kept_name (f : gdb_frame) : Prop := forall n, gf_function_name f = Some n -> ~ removed_everywhere n.
Lemma exit_none f : no_source f -> sr_gdb_is_exit_frame f = false.
Proof.
  intros [H _]. unfold sr_gdb_is_exit_frame. assert (X := any_empty gdb_exit_table (gf_function_name f) exit_patterned).
  unfold any_call, call_match in X. unfold sr_gdb_frame_calls_func. rewrite H. exact X.
Qed.
Lemma removable_none f : no_source f -> kept_name f -> gdb_removable f = false.
Proof.
  intros [H _] K. unfold gdb_removable. destruct (sr_gdb_frame_is_removable _ _) eqn:E; [|reflexivity]. exfalso.
  apply removable_iff in E. rewrite H in E. apply listed_empty in E as (n & files & E & I & J). apply (K n E). exists files. auto.
Qed.
Lemma above_none f : no_source f -> kept_name f -> gdb_removable_with_above f = false.
Proof.
  intros H K. unfold gdb_removable_with_above. rewrite exit_none by assumption. destruct H as [H _].
  unfold is_removable_glibc_with_above. destruct (any_call _ _ _) eqn:E; [|reflexivity]. exfalso.
  apply any_call_iff in E. rewrite H in E. apply listed_empty in E as (n & files & E & I & J). apply (K n E). exists files. auto.
Qed.
Lemma rename_none f : no_source f -> gdb_rename f = f.
Proof.
  intros [H _]. unfold gdb_rename, find_new_function_name_glibc. rewrite H.
  destruct (find _ arch_functions) as [n|] eqn:E; [|reflexivity]. exfalso. apply find_some in E as [I E].
  assert (A := proj1 (forallb_forall _ _) arch_patterned n I). cbv beta in A. rewrite any_empty in E by exact A. discriminate.
Qed.
Lemma null_none f : no_source f -> gdb_null_frame f = false.
Proof. intros [_ H]. unfold gdb_null_frame. apply Z.eqb_neq in H. now rewrite H. Qed.
Lemma norm_no_source l : Forall no_source l -> Forall kept_name (map sr_normalize_gdb_frame l) -> sr_normalize_gdb_frames l = merge_recursive gdb_same_call (map sr_normalize_gdb_frame l).
Proof.
  intros F K. unfold sr_normalize_gdb_frames.
  assert (F0 := proj1 (Forall_forall _ _) F). rewrite cut_none by (intros x Hx; now apply exit_none, F0).
  assert (G : Forall no_source (map sr_normalize_gdb_frame l)).
  { rewrite Forall_map. eapply Forall_impl; [|exact F]. intros f [H1 H2]. unfold sr_normalize_gdb_frame. rewrite H1. split; assumption. }
  revert G K. generalize (map sr_normalize_gdb_frame l). clear l F F0. intros l G K.
  assert (R : map gdb_rename l = l).
  { clear -G. induction G as [|f l H G IH]; cbn [map]; [reflexivity|]. now rewrite IH, rename_none. }
  rewrite R, sweep_none.
  2:{ rewrite Forall_forall in G, K |- *. intros f Hf. split; [apply removable_none|apply above_none]; auto. }
  cbn [app]. assert (G0 := proj1 (Forall_forall _ _) G).
  rewrite drop_first_none by (intros x r ->; apply null_none, G0; now left).
  rewrite drop_last_none; [reflexivity|]. intros r x ->. apply null_none, G0, in_or_app. right. now left.
Qed.
Definition short_name (n : str) : str := match remove_prefixes (Some n) with Some m => m | None => [] end.
Lemma short_ok n : remove_prefixes (Some n) = Some (short_name n) /\ shortened n (short_name n).
Proof.
  destruct (remove_prefixes_ok n) as (x & E & _). unfold short_name. rewrite E. split; [reflexivity|].
  assert (D : (exists p q r, dropped_prefix p q /\ n = p ++ r) \/ prefix_free (Some n)).
  { destruct (starts_with (L "IA__gdk") n) eqn:S1; [left; apply starts_with_iff in S1 as [r ->]; exists (L "IA__gdk"), (L "gdk"), r; split; [constructor|reflexivity]|].
    destruct (starts_with (L "IA__g_") n) eqn:S2; [left; apply starts_with_iff in S2 as [r ->]; exists (L "IA__g_"), (L "g_"), r; split; [constructor|reflexivity]|].
    destruct (starts_with (L "IA__gtk") n) eqn:S3; [left; apply starts_with_iff in S3 as [r ->]; exists (L "IA__gtk"), (L "gtk"), r; split; [constructor|reflexivity]|].
    destruct (starts_with (L "__GI_") n) eqn:S4; [left; apply starts_with_iff in S4 as [r ->]; exists (L "__GI_"), [], r; split; [constructor|reflexivity]|].
    right. intros s r H. injection H as <-. assert (NS : forall w y, starts_with w y = false -> y <> w ++ r).
    { intros w y E1 E2. rewrite (proj2 (starts_with_iff w y)) in E1; [discriminate|eauto]. }
    repeat split; now apply NS. }
  destruct D as [(p & q & r & D & ->)|D].
  - left. exists p, q, r. split; [exact D|]. split; [reflexivity|]. rewrite (remove_prefixes_one _ _ _ D) in E. congruence.
  - right. split; [exact D|]. rewrite remove_prefixes_stable in E by exact D. congruence.
Qed.
Definition with_name (n : str) (f : gdb_frame) : Prop := gf_function_name f = Some n /\ gf_function_type f = None /\ gf_signal_handler_called f = false.
Lemma same_names a b f g : with_name a f -> with_name b g -> gdb_same_call f g = true <-> a = b /\ a <> L "??".
Proof.
  intros [H1 _] [H2 _]. rewrite gdb_same_iff. unfold gdb_recursive. rewrite H1, H2. split.
  - intros [E N]. split; [congruence|]. intros ->. congruence.
  - intros [-> N]. split; [reflexivity|congruence].
Qed.
Lemma merge_collapsed names : forall frames, Forall2 with_name names frames ->
  exists shown, collapsed names shown /\ Forall2 with_name shown (merge_recursive gdb_same_call frames).
Proof.
  intros frames H. destruct H as [|n f names frames Hn H]; [exists []; split; constructor|]. cbn [merge_recursive].
  assert (G : forall n f, with_name n f -> exists shown, collapsed (n :: names) (n :: shown) /\ Forall2 with_name shown (merge_from gdb_same_call f frames)).
  { clear n f Hn. induction H as [|n2 f2 names frames Hn2 H IH]; intros n f Hn.
    - exists []. split; constructor.
    - cbn [merge_from]. destruct (gdb_same_call f f2) eqn:E.
      + apply (same_names n n2 f f2 Hn Hn2) in E as [<- N]. destruct (IH n f Hn) as (shown & C & M). exists shown. split; [now constructor|exact M].
      + destruct (IH n2 f2 Hn2) as (shown & C & M). exists (n2 :: shown). split; [|now constructor].
        constructor; [|exact C]. destruct (list_eq_dec ascii_dec n n2) as [->|N]; [|now left]. right.
        destruct (list_eq_dec ascii_dec n2 (L "??")) as [->|N]; [reflexivity|].
        assert (X : gdb_same_call f f2 = true) by (apply (same_names n2 n2 f f2 Hn Hn2); auto). congruence. }
  destruct (G n f Hn) as (shown & C & M). exists (n :: shown). split; [exact C|constructor; assumption].
Qed.
Lemma listing_names text frames : listing text frames -> exists names, map gf_function_name frames = map Some names /\
  Forall2 with_name names frames /\ Forall no_source frames.
Proof.
  induction 1 as [|fn f N NI NF|fn lib f NI NL NF|fn lib f rest fs NI NL NF Li IH].
  - exists []. repeat split; constructor.
  - exists [fn]. apply named_frame_iff in NF. subst. repeat split; repeat constructor. discriminate.
  - exists [fn]. apply named_frame_iff in NF. subst. repeat split; repeat constructor. discriminate.
  - destruct IH as (names & E & F & G). exists (fn :: names). apply named_frame_iff in NF. subst. cbn [map]. rewrite E.
    split; [reflexivity|]. split; constructor; auto; [repeat split|split; [reflexivity|discriminate]].
Qed.
Lemma shown_text names frames : Forall2 with_name names frames ->
  sr_gdb_thread_append_to_str false (mk_gdb_thread (gt_number gdb_thread_new) (gt_tid gdb_thread_new) frames) ++ [nl] = thread_text names.
Proof.
  intros H. unfold sr_gdb_thread_append_to_str, thread_text, line. cbn [gt_frames]. rewrite <- !app_assoc. f_equal. f_equal. f_equal. f_equal.
  induction H as [|n f names frames (H1 & H2 & H3) H IH]; cbn [map concat]; [reflexivity|]. rewrite IH. f_equal.
  unfold sr_gdb_frame_append_to_str. rewrite H1, H2, H3. cbn [app L]. now rewrite app_nil_r.
Qed.
Lemma map_short names frames : Forall2 with_name names frames -> Forall no_source frames ->
  exists shorts, Forall2 shortened names shorts /\ Forall2 with_name shorts (map sr_normalize_gdb_frame frames).
Proof.
  intros H F. induction H as [|n f names frames (H1 & H2 & H3) H IH]; [exists []; split; constructor|].
  inversion F as [|? ? [F1 F1'] F2]; subst. destruct (IH F2) as (shorts & A & B). exists (short_name n :: shorts).
  destruct (short_ok n) as [E S]. split; [now constructor|]. cbn [map]. constructor; [|exact B].
  unfold sr_normalize_gdb_frame. rewrite F1. unfold with_name, gdb_with_name. cbn. rewrite H1. auto.
Qed.
