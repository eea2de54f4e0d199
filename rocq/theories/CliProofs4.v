(** * Proofs: runs of the debug commands, and all runs. *)
From Verif Require Import Base Types CmpModel CmpSpec CmpProofs UtilsModel UtilsSpec UtilsProofs JsonSpec JsonTypesModel RpmModel RpmSpec SystemModel SystemSpec
  JsonProofs NormTables NormModel NormSpec NormProofs NormProofs2 TextModel TextSpec TextProofs TextProofs2 UnwindModel FileModel FileSpec AbrtModel
  CliModel CliSpec CliProofs CliProofs2 CliProofs3.
Open Scope nat_scope.

Lemma selected_names l names : Forall2 with_name names l -> exists shown, Forall2 with_name shown (sr_normalize_gdb_frames l).
Proof.
  intros H. destruct (gdb_selection l) as (k & Sub & F).
  assert (A : Forall (fun f => exists n, with_name n f) l). { clear -H. induction H; constructor; eauto. }
  assert (B := sub_Forall _ _ _ Sub A). clear A H. revert F. generalize (sr_normalize_gdb_frames l). intros r F. clear l names Sub. revert B.
  induction F as [|f g k r (C & T & _ & _ & _ & Sg & _) F IH]; intros B; [exists []; constructor|].
  inversion B as [|? ? (n & H1 & H2 & H3) B']; subst. destruct (IH B') as [shown S]. rewrite H1 in C.
  destruct (gf_function_name g) as [y|] eqn:E; [|contradiction]. exists (y :: shown). constructor; [|exact S].
  split; [exact E|]. split; congruence.
Qed.

Section Program.
Variable tokener : str -> option json.
Variable qsort : (rpm_package -> rpm_package -> Z) -> list rpm_package -> list rpm_package.
Variable sha1 : str -> str.
Variable addrmodule : Z -> option module.
Variable cxa_demangle : str -> option str.
Variable realpath : str -> option str.
Variables package_name package_version : str.
Variable m : machine.
Notation run := (main tokener qsort sha1 addrmodule cxa_demangle realpath package_name package_version m).
Notation text_of file := (sr_file_to_string (m_reading m file)).

(** ** debug normalize *)
Lemma run_normalize path file more : run (path :: L "debug" :: L "normalize" :: file :: more) =
  match text_of file with
  | None => Ok (explains [])
  | Some text =>
    do frames <- normalize_frames (length text) text;
    Ok (prints (sr_gdb_thread_append_to_str false (sr_normalize_gdb_thread (mk_gdb_thread (gt_number gdb_thread_new) (gt_tid gdb_thread_new) frames)) ++ [nl]))
  end.
Proof. reflexivity. Qed.
Lemma normalize_unreadable path file more : text_of file = None -> run (path :: L "debug" :: L "normalize" :: file :: more) = Ok (explains []).
Proof. intros H. rewrite run_normalize, H. reflexivity. Qed.
Lemma normalize_run path file more text frames : text_of file = Some text -> listing text frames ->
  exists shown, map gf_function_name (sr_normalize_gdb_frames frames) = map Some shown /\
    run (path :: L "debug" :: L "normalize" :: file :: more) = Ok (prints (thread_text shown)).
Proof.
  intros H Li. rewrite run_normalize, H. rewrite (listing_normalize _ _ Li _ (le_n _)). cbn [bind].
  destruct (listing_names _ _ Li) as (names & _ & W & _). destruct (selected_names _ _ W) as [shown S]. exists shown. split.
  - clear -S. induction S as [|n f a b [H _] S IH]; cbn [map]; [reflexivity|]. now rewrite H, IH.
  - unfold sr_normalize_gdb_thread. cbn [gt_frames gt_number gt_tid]. now rewrite <- (shown_text _ _ S).
Qed.
Lemma normalize_exact path file more text frames names : text_of file = Some text -> listing text frames ->
  map gf_function_name frames = map Some names -> (forall n s, In n names -> shortened n s -> ~ removed_everywhere s) ->
  exists shorts shown, Forall2 shortened names shorts /\ collapsed shorts shown /\
    run (path :: L "debug" :: L "normalize" :: file :: more) = Ok (prints (thread_text shown)).
Proof.
  intros H Li E K. rewrite run_normalize, H. rewrite (listing_normalize _ _ Li _ (le_n _)). cbn [bind].
  destruct (listing_names _ _ Li) as (names' & E' & W & N). assert (names' = names).
  { rewrite E in E'. clear -E'. revert names' E'. induction names as [|x a IH]; intros [|y b] E; cbn in E; try discriminate; [reflexivity|].
    injection E as -> E. f_equal. now apply IH. }
  subst names'. destruct (map_short _ _ W N) as (shorts & S & W2). destruct (merge_collapsed _ _ W2) as (shown & C & W3).
  exists shorts, shown. split; [exact S|]. split; [exact C|]. unfold sr_normalize_gdb_thread. cbn [gt_frames gt_number gt_tid].
  rewrite norm_no_source; [now rewrite <- (shown_text _ _ W3)|exact N|].
  clear -S W2 K. revert S. generalize (map sr_normalize_gdb_frame frames) W2. clear frames W2. intros frames W2 S. revert names K S.
  induction W2 as [|n f shorts frames [H _] W2 IH]; intros [|x names] K S; inversion S as [|? ? ? ? S1 S2]; subst; constructor.
  - intros n' E. rewrite H in E. injection E as <-. apply (K x); [now left|assumption].
  - apply (IH names); [|assumption]. intros a b I. apply K. now right.
Qed.

(** ** debug duphash *)
Lemma duphash_normal t n prefix : exists clear, sr_thread_get_duphash sha1 t n prefix 2 = Ok (Some clear) /\
  sr_thread_get_duphash sha1 t n prefix 1 = Ok (Some (sha1 clear)).
Proof.
  unfold sr_thread_get_duphash. change (flag_nonormalize 2) with false. change (flag_nonormalize 1) with false.
  assert (X : exists t', sr_thread_normalize t = Ok t').
  { destruct t as [c|p|k|j|g|r|js]; cbn [sr_thread_normalize]; eauto. destruct (koops_normalize_ok (ks_frames k)) as (a & r & _ & -> & _). cbn [bind]. eauto. }
  destruct X as [t' ->]. cbn [bind]. change (flag_koops_compat 2) with false. change (flag_koops_compat 1) with false. cbn [andb].
  change (flag_nohash 2) with true. change (flag_nohash 1) with false. cbv iota. eexists. split; [reflexivity|].
  assert (D : forall l k buf, duphash_loop 2 l k buf = duphash_loop 1 l k buf).
  { induction l as [|f l IH]; intros k buf; [reflexivity|]. cbn [duphash_loop]. destruct f; cbn [frame_duphash_text]; now rewrite IH. }
  rewrite D. reflexivity.
Qed.
Lemma run_duphash path type_name file more : run (path :: L "debug" :: L "duphash" :: type_name :: file :: more) =
  if Nat.eqb (sr_report_type_from_string (Some type_name)) 0 then Ok (says (L "Invalid report type " ++ type_name))
  else
    match text_of file with
    | None => Ok (explains [])
    | Some text =>
      match sr_stacktrace_parse tokener (sr_report_type_from_string (Some type_name)) text with
      | UB => UB
      | Fail => Ok (explains [])
      | Ok s =>
        match sr_stacktrace_find_crash_thread s with
        | None => Ok (says (L "Cannot find crash thread"))
        | Some t => do clear <- sr_thread_get_duphash sha1 t 3 (hd_error more) 2;
                    match clear with
                    | None => Ok (says (L "Computing duphash failed"))
                    | Some clear => do hash <- sr_thread_get_duphash sha1 t 3 (hd_error more) 1;
                                    match hash with
                                    | None => Ok (mk_outcome (L "Cleartext:" ++ [nl] ++ clear ++ [nl]) [Line (L "Computing duphash failed")] 1 [])
                                    | Some hash => Ok (prints ((L "Cleartext:" ++ [nl] ++ clear ++ [nl]) ++ L "Hash: " ++ hash ++ [nl]))
                                    end
                    end
        end
      end
    end.
Proof. destruct more; reflexivity. Qed.
Definition hash_text (clear : str) : str := line (L "Cleartext:") ++ line clear ++ line (L "Hash: " ++ sha1 clear).
Lemma hash_text_ok clear : (L "Cleartext:" ++ [nl] ++ clear ++ [nl]) ++ L "Hash: " ++ sha1 clear ++ [nl] = hash_text clear.
Proof. unfold hash_text, line. now rewrite <- !app_assoc. Qed.
Lemma duphash_ok path type_name file more text s t : sr_report_type_from_string (Some type_name) <> 0 -> text_of file = Some text ->
  sr_stacktrace_parse tokener (sr_report_type_from_string (Some type_name)) text = Ok s -> sr_stacktrace_find_crash_thread s = Some t ->
  exists clear, sr_thread_get_duphash sha1 t 3 (hd_error more) 2 = Ok (Some clear) /\ sr_thread_get_duphash sha1 t 3 (hd_error more) 1 = Ok (Some (sha1 clear)) /\
    run (path :: L "debug" :: L "duphash" :: type_name :: file :: more) = Ok (prints (hash_text clear)).
Proof.
  intros N H P T. destruct (duphash_normal t 3 (hd_error more)) as (clear & C1 & C2). exists clear. split; [exact C1|]. split; [exact C2|].
  rewrite run_duphash. apply Nat.eqb_neq in N. rewrite N, H, P, T, C1. cbn [bind]. rewrite C2. cbn [bind]. now rewrite hash_text_ok.
Qed.
Lemma duphash_bad path type_name file more :
  (sr_report_type_from_string (Some type_name) = 0 -> run (path :: L "debug" :: L "duphash" :: type_name :: file :: more) = Ok (says (L "Invalid report type " ++ type_name))) /\
  (sr_report_type_from_string (Some type_name) <> 0 -> text_of file = None -> run (path :: L "debug" :: L "duphash" :: type_name :: file :: more) = Ok (explains [])) /\
  (forall text, sr_report_type_from_string (Some type_name) <> 0 -> text_of file = Some text ->
     (sr_stacktrace_parse tokener (sr_report_type_from_string (Some type_name)) text = Fail -> run (path :: L "debug" :: L "duphash" :: type_name :: file :: more) = Ok (explains [])) /\
     forall s, sr_stacktrace_parse tokener (sr_report_type_from_string (Some type_name)) text = Ok s -> sr_stacktrace_find_crash_thread s = None ->
       run (path :: L "debug" :: L "duphash" :: type_name :: file :: more) = Ok (says (L "Cannot find crash thread"))).
Proof.
  rewrite run_duphash. split; [intros ->; reflexivity|]. split; [intros N H; apply Nat.eqb_neq in N; rewrite N, H; reflexivity|].
  intros text N H. apply Nat.eqb_neq in N. rewrite N, H. split; [intros ->; reflexivity|intros s -> ->; reflexivity].
Qed.
Lemma duphash_ub path type_name file more : run (path :: L "debug" :: L "duphash" :: type_name :: file :: more) = UB <->
  sr_report_type_from_string (Some type_name) <> 0 /\ exists text, text_of file = Some text /\ sr_stacktrace_parse tokener (sr_report_type_from_string (Some type_name)) text = UB.
Proof.
  rewrite run_duphash. destruct (Nat.eqb_spec (sr_report_type_from_string (Some type_name)) 0) as [E|E].
  - split; [discriminate|]. intros [N _]. contradiction.
  - destruct (text_of file) as [text|].
    2:{ split; [discriminate|]. intros [_ (x & Hx & _)]. discriminate. }
    destruct (sr_stacktrace_parse _ _ _) as [s| |] eqn:P.
    + split; [|intros [_ (x & Hx & K)]; injection Hx as <-; congruence]. destruct (sr_stacktrace_find_crash_thread s) as [t|]; [|discriminate].
      destruct (duphash_normal t 3 (hd_error more)) as (clear & C1 & C2). rewrite C1. cbn [bind]. rewrite C2. discriminate.
    + split; [discriminate|]. intros [_ (x & Hx & K)]. injection Hx as <-. congruence.
    + split; [|reflexivity]. intros _. split; [exact E|]. eauto.
Qed.

(** ** debug unwind-from-hook *)
Lemma run_hook path exe t s : run [path; L "debug"; L "unwind-from-hook"; exe; t; s] =
    let '(tid, end1) := strtoul_end t in
    if negb (Nat.eqb (length end1) 0) then Ok (says (L "Wrong tid"))
    else
      let '(signum, end2) := strtoul_end s in
      if negb (Nat.eqb (length end2) 0) then Ok (says (L "Wrong signal number"))
      else
        match m_hook m (to_int tid) exe (to_int signum) with
        | None => Ok (explains (L "Unwind failed: "))
        | Some st =>
          if negb (m_localtime m) then Ok (explains (L "localtime: "))
          else
            match m_filename m with
            | None => Ok (says (L "stftime failed"))
            | Some file =>
              let '(states, ok) := sr_string_to_file (m_writing m file) (m_disk m file) (core_stacktrace_to_json st ++ [nl]) in
              Ok (if ok then wrote file states else not_written file states (L "Failed to write stacktrace: "))
            end
        end.
Proof. reflexivity. Qed.
Lemma hook_tid path exe t s : (forall v, ~ argument t v) -> run [path; L "debug"; L "unwind-from-hook"; exe; t; s] = Ok (says (L "Wrong tid")).
Proof.
  intros H. rewrite run_hook. apply strtoul_end_bad in H. destruct (strtoul_end t) as [v r]. cbn [snd] in H. destruct r; [congruence|reflexivity].
Qed.
Lemma hook_signal path exe t v s : argument t v -> (forall w, ~ argument s w) -> run [path; L "debug"; L "unwind-from-hook"; exe; t; s] = Ok (says (L "Wrong signal number")).
Proof.
  intros A H. rewrite run_hook. apply strtoul_end_iff in A. rewrite A. cbn [length Nat.eqb negb]. apply strtoul_end_bad in H. destruct (strtoul_end s) as [w r].
  cbn [snd] in H. destruct r; [congruence|reflexivity].
Qed.
Lemma hook_run path exe t s v w tid signum : argument t v -> becomes_int v tid -> argument s w -> becomes_int w signum ->
  match m_hook m tid exe signum, m_localtime m, m_filename m with
  | None, _, _ => run [path; L "debug"; L "unwind-from-hook"; exe; t; s] = Ok (explains (L "Unwind failed: "))
  | Some _, false, _ => run [path; L "debug"; L "unwind-from-hook"; exe; t; s] = Ok (explains (L "localtime: "))
  | Some _, true, None => run [path; L "debug"; L "unwind-from-hook"; exe; t; s] = Ok (says (L "stftime failed"))
  | Some st, true, Some file => exists states ok,
      sr_string_to_file (m_writing m file) (m_disk m file) (line (core_stacktrace_to_json st)) = (states, ok) /\
      run [path; L "debug"; L "unwind-from-hook"; exe; t; s] =
        Ok (if ok then wrote file states else not_written file states (L "Failed to write stacktrace: "))
  end.
Proof.
  intros A1 B1 A2 B2. apply strtoul_end_iff in A1, A2. apply to_int_iff in B1, B2. rewrite run_hook, A1, A2. cbn [length Nat.eqb negb]. rewrite B1, B2.
  destruct (m_hook m tid exe signum) as [st|]; [|reflexivity]. destruct (m_localtime m); cbn [negb]; [|reflexivity].
  destruct (m_filename m) as [file|]; [|reflexivity]. unfold line. destruct (sr_string_to_file _ _ _) as [states ok]. eauto.
Qed.
Lemma hook_count path args : length args <> 3 -> run (path :: L "debug" :: L "unwind-from-hook" :: args) =
  Ok (mk_outcome [] [Line (L "Wrong number of arguments."); Line (L "Usage: satyr debug unwind-from-hook <executable> <tid> <signal>")] 1 []).
Proof. intros H. destruct args as [|a [|b [|c [|d args]]]]; cbn in H; try lia; reflexivity. Qed.

(** ** All runs *)
(** [args] is everything after the name of the program. *)
Definition plain (name : str) (args : list str) (o : outcome) : Prop :=
  (o_status o = 0 \/ o_status o = 1) /\
  (o_status o = 0 <-> o_err o = []) /\
  (o_status o = 1 -> o_out o = [] \/ o_out o = hint name) /\
  (o_files o <> [] -> o_out o = [] /\ ((exists dir more, args = L "abrt-create-core-stacktrace" :: dir :: more) \/
                                      exists exe t s, args = [L "debug"; L "unwind-from-hook"; exe; t; s])).
Lemma plain_prints name args out : plain name args (prints out).
Proof. split; [now left|]. split; [split; reflexivity|]. split; [discriminate|]. intros H. cbn in H. congruence. Qed.
Lemma plain_fails name args e l : plain name args (mk_outcome [] (e :: l) 1 []).
Proof. split; [now right|]. split; [split; discriminate|]. split; [now left|]. intros H. cbn in H. congruence. Qed.
Lemma plain_misused name args e l : plain name args (misused name (e :: l)).
Proof. split; [now right|]. split; [split; discriminate|]. split; [now right|]. intros H. cbn in H. congruence. Qed.
Lemma str_case a b : {str_eqb a b = true /\ a = b} + {str_eqb a b = false /\ a <> b}.
Proof. destruct (str_eqb a b) eqn:E; [left|right]; split; auto; [now apply str_eqb_eq|now apply str_eqb_neq]. Qed.
Lemma all_runs path name command args o : called path name -> run (path :: command :: args) = Ok o ->
  command = L "abrt-report-dir" /\ o = mk_outcome [] [Line (L "Not implemented.")] 0 [] \/
  command <> L "abrt-report-dir" /\ plain name (command :: args) o.
Proof.
  intros Hc H.
  assert (U : forall e l, short_usage_and_exit (basename path) (e :: l) = Ok o -> plain name (command :: args) o).
  { intros e l K. apply called_iff in Hc. unfold short_usage_and_exit in K. rewrite Hc, hint_ok in K. injection K as <-. apply plain_misused. }
  destruct (str_case command (L "abrt-report-dir")) as [[_ ->]|[_ N]]; [left; split; [reflexivity|change (abrt_report_dir = Ok o) in H; injection H as <-; reflexivity]|right; split; [exact N|]].
  destruct (str_case command (L "abrt-print-report-from-dir")) as [[_ ->]|[E1 _]].
  { destruct args as [|dir more]; [apply (U _ _ H)|]. rewrite run_print in H.
    destruct (sr_abrt_print_report_from_dir _ _ _ _ _ _) as [t| |]; [injection H as <-; apply plain_prints| |discriminate].
    destruct (snd _); [|discriminate]. injection H as <-. apply plain_fails. }
  destruct (str_case command (L "abrt-create-core-stacktrace")) as [[_ ->]|[E2 _]].
  { destruct args as [|dir more]; [apply (U _ _ H)|]. rewrite run_create in H.
    destruct (create_core_stacktrace _ _ _ _ _ _ _ _) as [[states ok]| |]; try discriminate. cbn [bind] in H. injection H as <-.
    destruct ok; (split; [cbn; auto|]); (split; [cbn; split; auto; discriminate|]); (split; [now left|]); intros _; split; try reflexivity; left; eauto. }
  destruct (str_case command (L "debug")) as [[_ ->]|[E3 _]].
  { destruct args as [|sub more]; [apply (U _ _ H)|].
    destruct (str_case sub (L "normalize")) as [[_ ->]|[F1 _]].
    { destruct more as [|file more]; [apply (U _ _ H)|]. rewrite run_normalize in H. destruct (text_of file); [|injection H as <-; apply plain_fails].
      destruct (normalize_frames _ _); try discriminate. cbn [bind] in H. injection H as <-. apply plain_prints. }
    destruct (str_case sub (L "duphash")) as [[_ ->]|[F2 _]].
    { destruct more as [|type_name [|file more]]; [apply (U _ _ H)|apply (U _ _ H)|]. rewrite run_duphash in H.
      destruct (Nat.eqb _ 0); [injection H as <-; apply plain_fails|]. destruct (text_of file) as [text|]; [|injection H as <-; apply plain_fails].
      destruct (sr_stacktrace_parse _ _ _) as [s| |]; [|injection H as <-; apply plain_fails|discriminate].
      destruct (sr_stacktrace_find_crash_thread s) as [t|]; [|injection H as <-; apply plain_fails].
      destruct (duphash_normal t 3 (hd_error more)) as (clear & C1 & C2). rewrite C1 in H. cbn [bind] in H. rewrite C2 in H. cbn [bind] in H.
      injection H as <-. apply plain_prints. }
    destruct (str_case sub (L "unwind-from-hook")) as [[_ ->]|[F3 _]].
    { destruct more as [|exe [|t [|s [|x more]]]]; try (rewrite hook_count in H by (cbn; lia); injection H as <-; apply plain_fails).
      rewrite run_hook in H. destruct (strtoul_end t) as [v e1]. destruct (negb _); [injection H as <-; apply plain_fails|].
      destruct (strtoul_end s) as [w e2]. destruct (negb _); [injection H as <-; apply plain_fails|].
      destruct (m_hook m _ _ _) as [st|]; [|injection H as <-; apply plain_fails].
      destruct (negb _); [injection H as <-; apply plain_fails|]. destruct (m_filename m) as [file|]; [|injection H as <-; apply plain_fails].
      destruct (sr_string_to_file _ _ _) as [states ok]. injection H as <-.
      destruct ok; (split; [cbn; auto|]); (split; [cbn; split; auto; discriminate|]); (split; [now left|]); intros _; split; try reflexivity; right; eauto. }
    change (debug tokener sha1 m (basename path) (sub :: more) = Ok o) in H. unfold debug in H. rewrite F1, F2, F3 in H. apply (U _ _ H). }
  unfold main in H. rewrite E1, E2, E3 in H. rewrite (proj2 (str_eqb_neq _ _) N) in H.
  destruct (str_eqb command (L "--help")); [injection H as <-; apply plain_prints|].
  destruct (str_eqb command (L "--usage")); [injection H as <-; apply plain_prints|].
  destruct (str_eqb command (L "--version")); [injection H as <-; apply plain_prints|]. apply (U _ _ H).
Qed.
(** The commands whose outcome is always defined. *)
Lemma defined path command args : command <> L "abrt-print-report-from-dir" -> (command = L "debug" -> hd_error args <> Some (L "duphash")) ->
  run (path :: command :: args) <> UB.
Proof.
  intros N D. unfold main. rewrite (proj2 (str_eqb_neq _ _) N).
  repeat match goal with |- (if ?c then _ else _) <> UB => destruct c eqn:?; try discriminate end.
  - apply str_eqb_eq in Heqb3. subst. destruct args as [|dir more]; [discriminate|].
    destruct (create_total tokener qsort sha1 addrmodule cxa_demangle realpath package_name package_version m path dir more) as (st & [K|K]);
      rewrite run_create in K; unfold abrt_create_core_stacktrace, sr_abrt_create_core_stacktrace; unfold core_file in K; cbn [sr_build_path map concat app] in *; rewrite ?app_nil_r in *;
      destruct (create_core_stacktrace _ _ _ _ _ _ _ _) as [[? ?]| |]; discriminate.
  - apply str_eqb_eq in Heqb4. subst. specialize (D eq_refl). destruct args as [|sub more]; [discriminate|]. unfold debug.
    destruct (str_eqb sub (L "normalize")).
    { destruct more as [|file more]; [discriminate|]. unfold debug_normalize. destruct (text_of file) as [t|]; [|discriminate].
      destruct (normalize_ok (length t) t (le_n _)) as (fr & -> & _). discriminate. }
    destruct (str_case sub (L "duphash")) as [[_ ->]|[-> _]]; [now elim D|].
    destruct (str_eqb sub (L "unwind-from-hook")); [|discriminate].
    destruct more as [|exe [|t [|s [|x more]]]]; try discriminate. unfold debug_unwind_from_hook.
    destruct (strtoul_end t) as [v e1]. destruct (negb _); [discriminate|]. destruct (strtoul_end s) as [w e2]. destruct (negb _); [discriminate|].
    destruct (m_hook m _ _ _); [|discriminate]. destruct (negb _); [discriminate|]. destruct (m_filename m); [|discriminate].
    destruct (sr_string_to_file _ _ _) as [? []]; discriminate.
Qed.
End Program.

Lemma read_all_iff {A} (f : A -> stacktrace) r s : read_all f r = Ok s <-> exists c rest, s = f c /\ r = Ok (c, rest).
Proof.
  unfold read_all. destruct r as [[c rest]| |]; cbn; split; try discriminate; try (intros (? & ? & ? & ?); discriminate).
  - intros E. injection E as <-. eauto.
  - intros (c' & rest' & -> & E). injection E as <- <-. reflexivity.
Qed.
Lemma parsers tokener text :
  let parsed type s := sr_stacktrace_parse tokener (sr_report_type_from_string (Some type)) text = Ok s in
  (forall s, parsed (L "core") s <-> exists c, s = SCore c /\ sr_core_stacktrace_from_json_text tokener text = Ok c) /\
  (forall s, parsed (L "python") s <-> exists c rest, s = SPython c /\ PyParseModel.sr_python_stacktrace_parse text = Ok (c, rest)) /\
  (forall s, parsed (L "kerneloops") s <-> exists c rest, s = SKoops c /\ KoopsModel.sr_koops_stacktrace_parse text = Ok (c, rest)) /\
  (forall s, parsed (L "java") s <-> exists c rest, s = SJava c /\ JavaParseModel.sr_java_stacktrace_parse text = Ok (c, rest)) /\
  (forall s, parsed (L "gdb") s <-> exists c rest, s = SGdb c /\ GdbLibModel.sr_gdb_stacktrace_parse text = Ok (c, rest)) /\
  (forall s, parsed (L "ruby") s <-> exists c rest, s = SRuby c /\ RubyParseModel.sr_ruby_stacktrace_parse text = Ok (c, rest)) /\
  (forall s, parsed (L "javascript") s <-> exists c rest, s = SJs c /\ JsParseModel.sr_js_stacktrace_parse text = Ok (c, rest)).
Proof.
  intros parsed. split; [|repeat split; apply read_all_iff].
  intros s. unfold parsed. change (sr_report_type_from_string (Some (L "core"))) with 1. cbn [sr_stacktrace_parse].
  destruct (sr_core_stacktrace_from_json_text tokener text) as [c| |]; cbn [bind]; split; try discriminate; try (intros (? & ? & ?); discriminate).
  - intros E. injection E as <-. eauto.
  - intros (c' & -> & E). injection E as <-. reflexivity.
Qed.
