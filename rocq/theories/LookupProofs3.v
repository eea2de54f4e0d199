(** * Proofs: unstrip output and the conversion of gdb stacktraces. *)
From Verif Require Import Base Types UtilsModel UtilsSpec UtilsProofs RpmSpec RpmProofs LookupModel LookupSpec LookupProofs.
Open Scope nat_scope.

(** ** Totality *)
Lemma skip_ws_len s : length (sr_skip_whitespace s) <= length s.
Proof. destruct (skip_ws_split s) as (b & E & _). rewrite E at 2. rewrite app_length. lia. Qed.
Lemma skip_nonws_len s : length (sr_skip_non_whitespace s) <= length s.
Proof. destruct (skip_nonws_split s) as (b & E & _). rewrite E at 2. rewrite app_length. lia. Qed.
Lemma span_len p s a b : span p s = (a, b) -> length b <= length s.
Proof. intros H. apply span_spec in H as (-> & _). rewrite app_length. lia. Qed.
Lemma scan_hex_len s z r : scan_hex s = Some (z, r) -> length r <= length s.
Proof. intros H. apply scan_hex_sound in H as (b & n & -> & _). rewrite !app_length. lia. Qed.
Lemma eat_line_len s : s <> [] -> length (eat_line s) < length s.
Proof.
  induction s as [|c s IH]; [congruence|]. intros _. cbn [eat_line length]. destruct (Ascii.eqb c nl); [lia|]. destruct s; [cbn; lia|].
  assert (length (eat_line (a :: s)) < length (a :: s)) by (apply IH; discriminate). lia.
Qed.
Lemma eat_line_le s : length (eat_line s) <= length s.
Proof. destruct s; [reflexivity|]. pose proof (eat_line_len (a :: s) ltac:(discriminate)). lia. Qed.
Lemma scan_range_len s a b r : scan_range s = Some (a, b, r) -> length r < length s.
Proof.
  unfold scan_range. destruct (starts_with (L "0x") s) eqn:E; [|discriminate]. apply starts_with_iff in E as [t ->].
  change (skipn 2 (L "0x" ++ t)) with t. destruct (scan_hex t) as [[z u]|] eqn:E1; [|discriminate]. apply scan_hex_len in E1.
  destruct (starts_with (L "+0x") u) eqn:E2; [|discriminate]. apply starts_with_iff in E2 as [v ->]. change (skipn 3 (L "+0x" ++ v)) with v.
  destruct (scan_hex v) as [[y w]|] eqn:E3; [|discriminate]. apply scan_hex_len in E3. intros H. injection H as _ _ <-.
  pose proof (skip_ws_len w). rewrite app_length in *. cbn [length L list_ascii_of_string] in *. lia.
Qed.
Lemma fields_len a b s e r : unstrip_fields a b s = (e, r) -> length r <= length s.
Proof.
  unfold unstrip_fields. destruct (span is_hex s) as [bid s1] eqn:E1. apply span_len in E1.
  pose proof (skip_ws_len (sr_skip_non_whitespace s1)). pose proof (skip_nonws_len s1).
  destruct (span _ (sr_skip_whitespace (sr_skip_non_whitespace s1))) as [fn s2] eqn:E2. apply span_len in E2.
  pose proof (skip_ws_len s2). pose proof (skip_nonws_len (sr_skip_whitespace s2)). pose proof (skip_ws_len (sr_skip_non_whitespace (sr_skip_whitespace s2))).
  destruct (span _ (sr_skip_whitespace (sr_skip_non_whitespace (sr_skip_whitespace s2)))) as [mn s3] eqn:E3. apply span_len in E3.
  intros H'. injection H' as _ <-. lia.
Qed.
Theorem unstrip_total fuel : forall text, length text <= fuel -> exists es, unstrip_loop fuel text = Ok es.
Proof.
  induction fuel as [|fuel IH]; intros text H.
  - destruct text; [exists []; reflexivity|cbn in H; lia].
  - destruct text as [|c text]; [exists []; reflexivity|]. cbn [unstrip_loop].
    destruct (scan_range (c :: text)) as [[[a b] r]|] eqn:E.
    + apply scan_range_len in E. destruct (unstrip_fields a b r) as [e r'] eqn:E'. apply fields_len in E'.
      destruct (IH (eat_line r')) as [es Ees]; [pose proof (eat_line_le r'); lia|]. exists (e :: es). rewrite Ees. reflexivity.
    + apply IH. pose proof (eat_line_len (c :: text) ltac:(discriminate)). lia.
Qed.

(** ** Well-formed output *)
Lemma plain_hex d n : hexadecimal d n -> (n < 18446744073709551616)%N -> hex_number d (Z.of_N n).
Proof.
  intros H Hn. exists [], [], d, n. split; [reflexivity|]. split; [auto|]. split; [auto|]. split; [assumption|]. right. left. split; [lia|]. split; [discriminate|reflexivity].
Qed.
Lemma sp_space : space_char sp. Proof. now left. Qed.
Lemma nl_space : space_char nl. Proof. right. right. now left. Qed.
Lemma eat_rest rest tail : ~ In nl rest -> eat_line (rest ++ tail) = eat_line tail.
Proof.
  induction rest as [|c rest IH]; intros H; [reflexivity|]. cbn [app eat_line]. destruct (Ascii.eqb_spec c nl) as [->|]; [elim H; now left|]. apply IH. intros X. apply H. now right.
Qed.
Lemma hex_nonspace d n : hexadecimal d n -> match d with [] => False | c :: _ => ~ space_char c end.
Proof. intros H. apply hex_horner in H as (_ & Hne & Hd). destruct d; [congruence|]. inversion_clear Hd. now apply hex_not_space. Qed.
Lemma word_first w s : word w -> match w ++ s with [] => True | c :: _ => ~ space_char c end.
Proof. intros [Hn Hw]. destruct w; [congruence|]. inversion_clear Hw. assumption. Qed.
Lemma line_step e line tail : unstrip_line e line -> (tail = [] \/ exists t, tail = nl :: t) ->
  exists s, scan_range (line ++ tail) = Some (un_start e, un_length e, s) /\ exists r, unstrip_fields (un_start e) (un_length e) s = (e, r) /\ eat_line r = eat_line tail.
Proof.
  intros (start & n & size & m & address & debug & rest & -> & Hn & Ln & En & Hm & Lm & Em & Hb & Ha & Wb & Wf & Wd & Wm & Hr & Nr) Ht.
  rewrite <- !app_assoc. set (t4 := rest ++ tail). set (t3 := un_mod_name e ++ t4). set (t2 := debug ++ [sp] ++ t3). set (t1 := un_file_name e ++ [sp] ++ t2).
  exists (un_build_id e ++ address ++ [sp] ++ t1). split.
  - unfold scan_range. change (starts_with (L "0x") (L "0x" ++ start ++ L "+0x" ++ size ++ [sp] ++ un_build_id e ++ address ++ [sp] ++ t1)) with true. cbv iota.
    change (skipn 2 (L "0x" ++ start ++ L "+0x" ++ size ++ [sp] ++ un_build_id e ++ address ++ [sp] ++ t1)) with (start ++ L "+0x" ++ size ++ [sp] ++ un_build_id e ++ address ++ [sp] ++ t1).
    assert (E1 := scan_hex_complete [] start (Z.of_N n) (L "+0x" ++ size ++ [sp] ++ un_build_id e ++ address ++ [sp] ++ t1) (Forall_nil _) (plain_hex _ _ Hn Ln)).
    cbn [app] in E1 |- *. rewrite E1 by (cbn; repeat split; discriminate).
    change (starts_with (L "+0x") (L "+0x" ++ size ++ sp :: un_build_id e ++ address ++ sp :: t1)) with true. cbv iota.
    change (skipn 3 (L "+0x" ++ size ++ sp :: un_build_id e ++ address ++ sp :: t1)) with (size ++ sp :: un_build_id e ++ address ++ sp :: t1).
    assert (E2 := scan_hex_complete [] size (Z.of_N m) (sp :: un_build_id e ++ address ++ sp :: t1) (Forall_nil _) (plain_hex _ _ Hm Lm)).
    cbn [app] in E2. rewrite E2 by (cbn; repeat split; discriminate).
    change (sp :: un_build_id e ++ address ++ sp :: t1) with ([sp] ++ un_build_id e ++ address ++ sp :: t1). rewrite skip_ws_eval.
    + now rewrite En, Em.
    + constructor; [exact sp_space|constructor].
    + rewrite app_assoc. now apply word_first.
  - exists t4. split.
    + unfold unstrip_fields. rewrite span_unique.
      2:{ eapply Forall_impl; [|exact Hb]. intros c. apply is_hex_iff. }
      2:{ destruct address as [|c address]; [reflexivity|]. cbn [app]. destruct (is_hex c) eqn:E; [|reflexivity]. apply is_hex_iff in E. now rewrite (Ha c address eq_refl) in E. }
      rewrite skip_nonws_eval; [|destruct Wb as [_ Wb]; apply Forall_app in Wb as [_ Wb]; exact Wb|exact sp_space].
      unfold t1. rewrite skip_ws_eval; [|constructor; [exact sp_space|constructor]|now apply word_first].
      rewrite span_nonws; [|apply Wf|exact sp_space]. unfold t2.
      rewrite skip_ws_eval; [|constructor; [exact sp_space|constructor]|now apply word_first].
      rewrite skip_nonws_eval; [|apply Wd|exact sp_space]. unfold t3.
      rewrite skip_ws_eval; [|constructor; [exact sp_space|constructor]|now apply word_first].
      rewrite span_nonws; [destruct e; reflexivity|apply Wm|]. unfold t4. destruct rest as [|c rest]; [|exact (Hr c rest eq_refl)].
      destruct Ht as [->|[t ->]]; [exact Logic.I|exact nl_space].
    + now apply eat_rest.
Qed.
Lemma other_scan line tail : other_line line -> (tail = [] \/ exists t, tail = nl :: t) -> scan_range (line ++ tail) = None.
Proof.
  intros [Hn Ho] Ht. unfold scan_range. destruct (starts_with (L "0x") (line ++ tail)) eqn:E; [|reflexivity]. exfalso. apply starts_with_iff in E as [r E].
  destruct line as [|c [|c' line]].
  - destruct Ht as [->|[t ->]]; discriminate.
  - destruct Ht as [->|[t ->]]; discriminate.
  - cbn in E. injection E as -> -> E. apply (Ho line). reflexivity.
Qed.
Lemma line_nonempty e line : unstrip_line e line -> line <> [].
Proof. intros (start & n & size & m & address & debug & rest & -> & _). discriminate. Qed.
Theorem unstrip_correct text es : unstrip_output text es -> forall fuel, length text <= fuel -> unstrip_loop fuel text = Ok es.
Proof.
  induction 1 as [|e line H|line H|e line text es H HO IH|line text es H HO IH]; intros fuel Hf.
  - destruct fuel; reflexivity.
  - pose proof (line_nonempty _ _ H) as NE. destruct line as [|c line]; [congruence|]. destruct fuel as [|fuel]; [cbn in Hf; lia|]. cbn [unstrip_loop].
    destruct (line_step _ _ [] H ltac:(now left)) as (s & E1 & r & E2 & E3). rewrite app_nil_r in E1. rewrite E1, E2, E3. cbn [eat_line]. destruct fuel; reflexivity.
  - destruct line as [|c line]; [destruct fuel; reflexivity|]. destruct fuel as [|fuel]; [cbn in Hf; lia|]. cbn [unstrip_loop].
    pose proof (other_scan _ [] H ltac:(now left)) as E. rewrite app_nil_r in E. rewrite E. destruct H as [Hn _].
    rewrite <- (app_nil_r (c :: line)), eat_rest by assumption. cbn [eat_line]. destruct fuel; reflexivity.
  - destruct fuel as [|fuel]; [rewrite app_length in Hf; cbn in Hf; lia|].
    destruct (line_step _ _ (nl :: text) H ltac:(right; eexists; reflexivity)) as (s & E1 & r & E2 & E3). cbn [eat_line] in E3. change (Ascii.eqb nl nl) with true in E3. cbv iota in E3.
    assert (K : unstrip_loop (S fuel) (line ++ nl :: text) = Ok (e :: es)); [|exact K].
    destruct (line ++ nl :: text) as [|c l] eqn:EL; [destruct line; discriminate|]. cbn [unstrip_loop]. rewrite E1, E2, E3.
    rewrite IH; [reflexivity|]. rewrite <- EL, app_length in Hf. cbn [length] in Hf. lia.
  - destruct fuel as [|fuel]; [rewrite app_length in Hf; cbn in Hf; lia|].
    pose proof (other_scan _ (nl :: text) H ltac:(right; eexists; reflexivity)) as E. destruct H as [Hn _].
    pose proof (eat_rest line (nl :: text) Hn) as E3. cbn [eat_line] in E3. change (Ascii.eqb nl nl) with true in E3. cbv iota in E3.
    destruct (line ++ nl :: text) as [|c l] eqn:EL; [destruct line; discriminate|]. cbn [unstrip_loop]. rewrite E, E3.
    apply IH. rewrite <- EL, app_length in Hf. cbn [length] in Hf. lia.
Qed.

(** ** Conversion *)
Lemma frames_ub unstrip frames : frames <> [] -> core_frames_of_gdb unstrip frames = UB.
Proof.
  induction frames as [|f [|f' frames] IH]; [congruence|reflexivity|]. intros _. cbn [core_frames_of_gdb] in *. rewrite IH by discriminate. reflexivity.
Qed.
Lemma threads_ok unstrip threads :
  core_threads_of_gdb unstrip threads = if existsb (fun t => match gt_frames t with [] => false | _ => true end) threads then UB
    else Ok (map (fun _ => mk_core_thread []) threads).
Proof.
  induction threads as [|t threads IH]; [reflexivity|]. cbn [core_threads_of_gdb existsb map]. destruct (gt_frames t) as [|f frames] eqn:E.
  - cbn [core_frames_of_gdb bind orb]. rewrite IH. destruct (existsb _ threads); reflexivity.
  - rewrite frames_ub by discriminate. reflexivity.
Qed.
Theorem create_ub gdb text es : sr_unstrip_parse text = Ok es -> es <> [] ->
  sr_core_stacktrace_create (Some gdb) text = UB <-> exists t, In t (gs_threads gdb) /\ gt_frames t <> [].
Proof.
  intros E Hne. unfold sr_core_stacktrace_create. rewrite E. cbn [bind]. destruct es as [|e es]; [congruence|]. rewrite threads_ok.
  destruct (existsb _ (gs_threads gdb)) eqn:X.
  - split; [intros _|reflexivity]. apply existsb_exists in X as (t & Ht & Hf). exists t. split; [assumption|]. destruct (gt_frames t); [discriminate|discriminate].
  - split; [discriminate|]. intros (t & Ht & Hf). assert (existsb (fun t => match gt_frames t with [] => false | _ => true end) (gs_threads gdb) = true); [|congruence].
    apply existsb_exists. exists t. split; [assumption|]. destruct (gt_frames t); [congruence|reflexivity].
Qed.
Theorem create_empty gdb text es : sr_unstrip_parse text = Ok es -> es <> [] -> (forall t, In t (gs_threads gdb) -> gt_frames t = []) ->
  exists core, sr_core_stacktrace_create (Some gdb) text = Ok core /\ Forall2 (fun t c => length (ct_frames c) = length (gt_frames t)) (gs_threads gdb) (cs_threads core).
Proof.
  intros E Hne H. unfold sr_core_stacktrace_create. rewrite E. cbn [bind]. destruct es as [|e es]; [congruence|]. rewrite threads_ok.
  destruct (existsb _ (gs_threads gdb)) eqn:X.
  - apply existsb_exists in X as (t & Ht & Hf). rewrite (H t Ht) in Hf. discriminate.
  - eexists. split; [reflexivity|]. cbn [cs_threads]. clear E X. induction (gs_threads gdb) as [|t l IH]; constructor.
    + rewrite (H t) by now left. reflexivity.
    + apply IH. intros u Hu. apply H. now right.
Qed.
