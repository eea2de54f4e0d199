(** * C46: kernel oopses. *)
From Verif Require Import Base Types UtilsSpec ParseSpec ParseProofs KoopsModel KoopsSpec KoopsProofs KoopsProofs2 KoopsProofs3 KoopsProofs4.
Open Scope nat_scope.

(** ** Frames *)
(** The frame parser accepts exactly the frame texts, and returns what they say. *)
Theorem C46_frame_exact s f rest : sr_koops_frame_parse s = Some (f, rest) <-> frame_text s f rest.
Proof. exact (frame_iff s f rest). Qed.
(** A line "[<addr>] ? name+0x12/0x34 [module]" parses to its frame. *)
Theorem C46_frame_roundtrip line f rest : usual_line_of line f -> sr_koops_frame_parse (line ++ nl :: rest) = Some (f, rest).
Proof. intros H. apply frame_iff, usual_line_frame, H. Qed.
(** The timestamp skipper accepts exactly the timestamps. *)
Theorem C46_timestamp_exact s rest : sr_koops_skip_timestamp s = Some rest <-> timestamp s rest.
Proof. exact (timestamp_iff s rest). Qed.
(** Frame lines, with or without timestamps, are all read, in their order. *)
Theorem C46_frames_in_order lines fs : Forall2 stamped_line lines fs ->
  exists t, sr_koops_stacktrace_parse (lines_text lines) = Ok (t, []) /\ ks_frames t = fs.
Proof.
  intros F. destruct (koops_parse_cases (lines_text lines)) as (ms & ip & label & fs' & line & r & _ & _ & _ & _ & E).
  eexists. split; [exact E|]. apply (frames_in_order _ _ _ _ F E).
Qed.

(** ** Taint flags *)
(** A flag is set exactly if its letter is among those after the first "Tainted: ". *)
Theorem C46_taint_exact s i letter name : nth_error taint_flags i = Some (letter, name) ->
  (nth_error (snd (parse_taint_flags s no_taint)) i = Some true <-> exists letters, taint_letters s letters /\ In letter letters).
Proof. exact (taint_exact s i letter name). Qed.

(** ** Modules *)
(** The module parser accepts exactly the module lists; it never writes outside of its array. *)
Theorem C46_modules_exact s ms rest : sr_koops_stacktrace_parse_modules s = Ok (ms, rest) <-> modules_text s ms rest.
Proof. exact (modules_exact s ms rest). Qed.
Theorem C46_modules_safe s : sr_koops_stacktrace_parse_modules s <> UB.
Proof. exact (modules_safe s). Qed.
(** A list "Modules linked in: a b c", of any length, is returned in order. *)
Theorem C46_modules_in_order ms q : Forall module_name ms -> list_ends q ->
  sr_koops_stacktrace_parse_modules (L "Modules linked in:" ++ spaced_words ms ++ nl :: q) = Ok (ms, nl :: q).
Proof. exact (modules_listed ms q). Qed.

(** ** Whole oopses *)
(** Every text is read to its end; the trace has the frames, modules and first line of the text. *)
Theorem C46_parse_exact s t rest : sr_koops_stacktrace_parse s = Ok (t, rest) <->
  rest = [] /\ ks_version t = None /\ ks_raw_oops t = Some s /\ ks_taint t = snd (parse_taint_flags s no_taint) /\
  exists reason, ks_reason t = Some reason /\ oops_text s (ks_frames t) (ks_modules t) reason.
Proof.
  destruct (koops_parse_cases s) as (ms & ip & label & fs & line & r & OS & E & N & ST & H). rewrite H. split.
  - intros H'. apply ok_inj in H'. injection H' as <- <-. cbn. split; [reflexivity|]. split; [reflexivity|]. split; [reflexivity|]. split; [reflexivity|].
    exists line. split; [reflexivity|]. split; [eauto|]. exists r. auto.
  - intros (-> & V & R & T & reason & HR & (ip' & label' & OS') & r' & E' & N' & ST').
    apply (lines_fun _ _ _ _ OS) in OS'. injection OS' as -> _ _ ->. f_equal. f_equal.
    assert (line = reason) as ->; [|destruct t; cbn in *; subst; reflexivity].
    rewrite <- (span_line s line r E N ST). apply (span_line s reason r' E' N' ST').
Qed.
Theorem C46_total s : exists t, sr_koops_stacktrace_parse s = Ok (t, []).
Proof. destruct (koops_parse_cases s) as (ms & ip & label & fs & line & r & _ & _ & _ & _ & H). eauto. Qed.

(** ** Disagreements *)
Definition oops_with_ip : str := L "RIP: 0010:[<1f>]  [<1f>] foo+0x1/0x2" ++ nl :: L "[<2f>] bar+0x1/0x2" ++ nl :: L "[<3f>] baz+0x1/0x2" ++ [nl].
(** A frame on the line after the instruction pointer is lost: that line is skipped together with the pointer's. *)
Theorem C46_after_ip_refuted : exists t, sr_koops_stacktrace_parse oops_with_ip = Ok (t, []) /\
  map kf_function_name (ks_frames t) = [Some (L "foo"); Some (L "baz")].
Proof. eexists. split; [vm_compute; reflexivity|reflexivity]. Qed.
(** The number of an address whose bracket is not closed becomes the address of the frame. *)
Theorem C46_open_address_refuted : exists f, sr_koops_frame_parse (L "[1f+0x1/0x2") = Some (f, []) /\
  (forall a r, ~ address (L "[1f+0x1/0x2") a r) /\ kf_address f = 31%Z /\ kf_function_name f = Some (L "[1f").
Proof.
  eexists. split; [vm_compute; reflexivity|]. split; [|split; reflexivity].
  intros a r H. apply address_iff in H. vm_compute in H. discriminate.
Qed.
(** A line with a bare address and an unclosed parenthesis is a frame. *)
Theorem C46_bare_address_refuted : exists f, sr_koops_frame_parse (L "(0x1f") = Some (f, []) /\ kf_address f = 31%Z /\ kf_function_name f = None /\ kf_reliable f = false.
Proof. eexists. split; [vm_compute; reflexivity|]. split; [reflexivity|]. split; reflexivity. Qed.
(** A function whose name starts like a number is not read as a name. *)
Theorem C46_name_0x_refuted : exists f rest, sr_koops_parse_function (L "0xfun+0x1/0x2") = Some (f, rest) /\ f = unnamed /\ rest = L "un+0x1/0x2".
Proof. eexists _, _. split; [vm_compute; reflexivity|]. split; reflexivity. Qed.
(** A function without offset and length is accepted. *)
Theorem C46_no_numbers_refuted : sr_koops_parse_function (L "fun+/") = Some ((Some (L "fun"), 0%Z, 0%Z, None), []).
Proof. vm_compute. reflexivity. Qed.

Definition line1 : str := L "[  12.5]  [<ffffffff8123>] ? do_it+0x1f/0x2a [ext4]".
Definition line2 : str := L "[<c0de>] main+0x0/0x10".
Definition frame1 : koops_frame := mk_koops_frame 281474976678179 false (Some (L "do_it")) 31 42 (Some (L "ext4")) 0 None 0 0 None None.
Definition frame2 : koops_frame := mk_koops_frame 49374 true (Some (L "main")) 0 16 None 0 None 0 0 None None.
Ltac notin := let H := fresh in intro H; repeat (destruct H as [H|H]; [discriminate|]); destruct H.
Ltac nobegin := let x := fresh in let H := fresh in intros [x H]; discriminate.
Ltac words := repeat (constructor; [notin|]); constructor.
Ltac hexnum v := let H := fresh in let ds := fresh in
  match goal with |- hexadecimal64 ?s _ => assert (H : hex_run s v []) by (apply hex_run_iff; eexists; vm_compute; reflexivity) end;
  destruct H as (ds & H & ?H64 & _); rewrite app_nil_r in H; rewrite H; assumption.
Lemma line1_frame : stamped_line line1 frame1.
Proof.
  exists (L "[  12.5]"), (L "  "), (L "[<ffffffff8123>] ? do_it+0x1f/0x2a [ext4]"). split; [reflexivity|]. split.
  { right. apply timestamp_iff. vm_compute. reflexivity. }
  split; [repeat constructor|].
  exists (L "ffffffff8123"), 281474976678179%N, true, (L "do_it"), (L "1f"), 31%N, (L "2a"), 42%N, (Some (L "ext4")).
  split; [reflexivity|]. split; [hexnum 281474976678179%N|]. split; [hexnum 31%N|]. split; [hexnum 42%N|].
  split; [split; [split; [discriminate|words]|repeat (split; [nobegin|]); nobegin]|]. split; [split; [discriminate|words]|reflexivity].
Qed.
Lemma line2_frame : stamped_line line2 frame2.
Proof.
  exists [], [], line2. split; [reflexivity|]. split; [left; reflexivity|]. split; [constructor|].
  exists (L "c0de"), 49374%N, false, (L "main"), (L "0"), 0%N, (L "10"), 16%N, None.
  split; [reflexivity|]. split; [hexnum 49374%N|]. split; [hexnum 0%N|]. split; [hexnum 16%N|].
  split; [split; [split; [discriminate|words]|repeat (split; [nobegin|]); nobegin]|]. split; [exact Logic.I|reflexivity].
Qed.
Example C46_frames_in_order_nonvacuous : Forall2 stamped_line [line1; line2; line1] [frame1; frame2; frame1].
Proof. repeat (constructor; [apply line1_frame || apply line2_frame|]). constructor. Qed.
Example C46_frame_roundtrip_nonvacuous : exists line f, usual_line_of line f /\ kf_module_name f = Some (L "ext4") /\ kf_reliable f = false.
Proof. destruct line1_frame as (stamp & ws & u & _ & _ & _ & U). exists u, frame1. split; [exact U|]. split; reflexivity. Qed.
Example C46_taint_nonvacuous : taint_letters (L "x Tainted: P  D W (3.1)") (L "P  D W ") /\
  map snd (filter fst (combine (snd (parse_taint_flags (L "x Tainted: P  D W (3.1)") no_taint)) (map snd taint_flags))) = [L "module_proprietary"; L "died_recently"; L "warning"].
Proof.
  split; [|vm_compute; reflexivity]. exists (L "x "), (L "(3.1)"). split; [|split].
  - split; [reflexivity|]. split; [eexists; reflexivity|]. intros pre post E B. destruct pre as [|a [|b pre]].
    + cbn [app] in E. subst post. destruct B as [x B]. discriminate.
    + injection E as _ E. subst post. destruct B as [x B]. discriminate.
    + cbn. lia.
  - repeat (constructor; [first [left; reflexivity|right; vm_compute; split; discriminate]|]). constructor.
  - split; [discriminate|]. vm_compute. intros [H _]. apply H. reflexivity.
Qed.
Example C46_modules_in_order_nonvacuous : Forall module_name [L "ext4"; L "snd_hda"; L "i915"] /\ list_ends (L "Pid: 1, comm: swapper").
Proof.
  split; [repeat (constructor; [split; [discriminate|words]|]); constructor|]. right. left. eexists. reflexivity.
Qed.
(** Two frames on different stacks, a module list cut by a line end, a timestamp. *)
Definition oops_example : str := L "BUG: oops" ++ nl :: L "Modules linked in: ext4 snd_" ++ nl :: L "hda i915" ++ nl :: L "CPU: 0 Tainted: G W" ++ nl ::
  L "[ 1.0]  <IRQ>  [<1f>] ? foo+0x1/0x2 [ext4]" ++ nl :: L "<EOI>  [<2f>] bar+0x3/0x4" ++ [nl].
Example C46_parse_nonvacuous : exists t, sr_koops_stacktrace_parse oops_example = Ok (t, []) /\ ks_reason t = Some (L "BUG: oops") /\
  ks_modules t = Some [L "ext4"; L "snd_hda"; L "i915"] /\ map kf_function_name (ks_frames t) = [Some (L "foo"); Some (L "bar")] /\
  map kf_special_stack (ks_frames t) = [Some (L "IRQ"); None] /\ map kf_reliable (ks_frames t) = [false; true].
Proof. eexists. split; [vm_compute; reflexivity|]. repeat split. Qed.
Print Assumptions C46_frame_exact.
Print Assumptions C46_frame_roundtrip.
Print Assumptions C46_timestamp_exact.
Print Assumptions C46_frames_in_order.
Print Assumptions C46_taint_exact.
Print Assumptions C46_modules_exact.
Print Assumptions C46_modules_safe.
Print Assumptions C46_modules_in_order.
Print Assumptions C46_parse_exact.
Print Assumptions C46_total.
Print Assumptions C46_after_ip_refuted.
Print Assumptions C46_open_address_refuted.
Print Assumptions C46_bare_address_refuted.
Print Assumptions C46_name_0x_refuted.
Print Assumptions C46_no_numbers_refuted.
