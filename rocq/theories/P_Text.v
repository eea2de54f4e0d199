(** * C21, C22, C54: hash texts and short texts. *)
From Verif Require Import Base Types JsonSpec NormModel NormSpec NormProofs NormProofs2 CrashModel TextModel TextSpec TextProofs TextProofs2 TextProofs3.
Open Scope Z_scope.

(** ** C21 *)
(** The hashed text: prefix, header, and the lines of the first n contributing frames. *)
Theorem C21_text : forall sha1 t n prefix flags, Forall frame_unsigned (sr_thread_frames t) ->
  Z.of_nat (length (sr_thread_frames t)) <= 2147483647 ->
  exists l lines text r, considered t flags l /\
    Forall2 key_line (first n (keys (old_koops flags) l)) lines /\
    text = header prefix flags ++ unlines lines /\
    sr_thread_get_duphash sha1 t n prefix flags = Ok r /\
    (r = None <-> old_koops flags = true /\ text = []) /\
    (forall x, r = Some x -> x = if plain_text flags then text else sha1 text).
Proof. exact duphash_text. Qed.
(** Two threads, of any types, that agree on what their first n contributing frames contribute. *)
Theorem C21_same_keys : forall sha1 t u n prefix flags l m, considered t flags l -> considered u flags m ->
  Z.of_nat (length l) <= 2147483647 -> Z.of_nat (length m) <= 2147483647 ->
  first n (keys (old_koops flags) l) = first n (keys (old_koops flags) m) ->
  sr_thread_get_duphash sha1 t n prefix flags = sr_thread_get_duphash sha1 u n prefix flags.
Proof. exact duphash_same_keys. Qed.
(** Frames after the n-th contributing one never matter. *)
Theorem C21_later_frames : forall sha1 t u n prefix flags l m1 m2,
  0 < n -> n <= Z.of_nat (length (keys (old_koops flags) l)) ->
  considered t flags (l ++ m1) -> considered u flags (l ++ m2) ->
  Z.of_nat (length (l ++ m1)) <= 2147483647 -> Z.of_nat (length (l ++ m2)) <= 2147483647 ->
  sr_thread_get_duphash sha1 t n prefix flags = sr_thread_get_duphash sha1 u n prefix flags.
Proof. exact duphash_later_frames. Qed.
(** That is about the frames left by normalization: a frame of the original thread far below can
    still decide which these are. *)
Theorem C21_later_frames_refuted : exists l m1 m2,
  length l = 1%nat /\
  sr_thread_get_duphash (fun x => x) (TGdb (mk_gdb_thread 1 1 (l ++ m1))) 1 None 2 <>
  sr_thread_get_duphash (fun x => x) (TGdb (mk_gdb_thread 1 1 (l ++ m2))) 1 None 2.
Proof.
  exists [fr "work" "w.c" 5], [fr "main" "m.c" 6], [fr "abort" "abort.c" 7; fr "main" "m.c" 6].
  split; [reflexivity|]. vm_compute. discriminate.
Qed.
(** What is above an exit frame does not matter either. *)
Theorem C21_above_exit : forall sha1 num tid l1 e l2 n prefix flags, gdb_exit e -> unnormalized flags = false ->
  sr_thread_get_duphash sha1 (TGdb (mk_gdb_thread num tid (l1 ++ e :: l2))) n prefix flags =
  sr_thread_get_duphash sha1 (TGdb (mk_gdb_thread num tid l2)) n prefix flags.
Proof.
  intros sha1 num tid l1 e l2 n prefix flags He Hf. unfold sr_thread_get_duphash. change (unnormalized flags) with (flag_nonormalize flags) in Hf; rewrite Hf.
  cbn [sr_thread_normalize bind]. unfold sr_normalize_gdb_thread. cbn [gt_frames gt_number gt_tid].
  rewrite (gdb_below_exit l1 e l2 He). reflexivity.
Qed.
(** The text gives the lines back. *)
Theorem C21_lines : forall sha1 t u n prefix flags l m, considered t flags l -> considered u flags m ->
  Z.of_nat (length l) <= 2147483647 -> Z.of_nat (length m) <= 2147483647 ->
  Forall (fun f => forall k x, frame_key (old_koops flags) f = Some k -> key_line k x -> no_newline x) (l ++ m) ->
  Forall frame_unsigned (l ++ m) ->
  plain_text flags = true ->
  sr_thread_get_duphash sha1 t n prefix flags = sr_thread_get_duphash sha1 u n prefix flags ->
  exists lines, Forall2 key_line (first n (keys (old_koops flags) l)) lines /\
                Forall2 key_line (first n (keys (old_koops flags) m)) lines.
Proof. exact duphash_text_lines. Qed.
(** A kernel oops hashed as ABRT did: unreliable frames do not count, and a thread without reliable
    frames has no hash. *)
Definition kf (reliable : bool) (name : string) (address : Z) : koops_frame :=
  mk_koops_frame address reliable (match name with EmptyString => None | _ => Some (list_ascii_of_string name) end) 0 0 None 0 None 0 0 None None.
Definition oops (l : list koops_frame) : thread := TKoops (mk_koops_stacktrace None no_taint None None l None).
Example C21_koops :
  sr_thread_get_duphash (fun x => x) (oops [kf false "a" 1; kf true "b.part" 2; kf false "c" 3; kf true "" 4095; kf true "d" 5]) 2 None 10
    = Ok (Some (unlines [L "b"; L "0xfff"])) /\
  sr_thread_get_duphash (fun x => x) (oops [kf false "a" 1]) 2 None 8 = Ok None /\
  sr_thread_get_duphash (fun x => x) (oops [kf false "a" 1]) 2 None 2 = Ok (Some (unlines [L "Thread"; L "a"])).
Proof. repeat split; vm_compute; reflexivity. Qed.
Example C21_core :
  sr_thread_get_duphash (fun x => L "sha:" ++ x) (TCore (mk_core_thread
     [mk_core_frame 1 (Some (L "abc")) 255 (Some (L "f")) None None true; mk_core_frame 1 None 16 (Some (L "g")) None (Some (L "p")) true;
      mk_core_frame 1 None 16 None None (Some (L "p")) true; mk_core_frame 31 None 0 None None None true]))
     0 (Some (L "pre")) 4
  = Ok (Some (L "sha:pre" ++ unlines [L "Thread"; L "abc+0xff"; L "  g"; L "p+0x10"; L "0x1f"])).
Proof. vm_compute. reflexivity. Qed.
Example C21_others :
  sr_thread_get_duphash (fun x => x) (TGdb (mk_gdb_thread 1 1 [mk_gdb_frame (Some (L "f")) (Some (L "int")) 0 None 0 true 1 None; fr "g" "g.c" 2])) 0 None 6
    = Ok (Some (unlines [L "Thread"; L "  int f <signal handler called>"; L "  g"])) /\
  sr_thread_get_duphash (fun x => x) (TJava (mk_java_thread None [mk_java_frame (Some (L "A.b")) None 0 None false false None;
                                                                 mk_java_frame None None 7 (Some (L "x.jar")) false false None])) 0 None 2
    = Ok (Some (unlines [L "Thread"; L "A.b"; L "x.jar/<unknown>:7"])) /\
  sr_thread_get_duphash (fun x => x) (TPython (mk_python_stacktrace None [mk_python_frame false (Some (L "a.py")) 12 false None None])) 0 None 2
    = Ok (Some (unlines [L "Thread"; L "a.py:12"])).
Proof. repeat split; vm_compute; reflexivity. Qed.
Example C21_hypotheses : exists l, considered (oops [kf false "a" 1; kf true "b" 2]) 0 (l ++ [FKoops (kf true "b" 2)]) /\
  Forall frame_unsigned (l ++ [FKoops (kf true "b" 2)]) /\ length (keys false l) = 1%nat /\
  Forall (fun f => forall k x, frame_key false f = Some k -> key_line k x -> no_newline x) l.
Proof.
  exists [FKoops (kf false "a" 1)]. split; [|split; [|split]].
  - eexists. split; [vm_compute; reflexivity|]. reflexivity.
  - repeat constructor; cbn; lia.
  - reflexivity.
  - repeat constructor. intros k x E K. injection E as <-. inversion K; subst. intros H. vm_compute in H. intuition discriminate.
Qed.

(** ** C22 *)
(** Equal backtrace hashes: the same identity, or a SHA-1 collision. *)
Theorem C22_injective : forall sha1 s t flags, plain s -> plain t -> ~ mixed s t ->
  sr_stacktrace_get_bthash sha1 s flags = sr_stacktrace_get_bthash sha1 t flags ->
  identity_of s = identity_of t \/ plain_text flags = false /\ exists x y, x <> y /\ sha1 x = sha1 y.
Proof. exact bthash_inj. Qed.
(** Members outside the identity make no difference. *)
Theorem C22_determined : forall sha1 s t flags, identity_of s = identity_of t ->
  sr_stacktrace_get_bthash sha1 s flags = sr_stacktrace_get_bthash sha1 t flags.
Proof. exact bthash_determined. Qed.
(** The hash is that of the text. *)
Theorem C22_hash : forall sha1 s,
  sr_stacktrace_get_bthash sha1 s 1 = sha1 (sr_stacktrace_get_bthash sha1 s 2).
Proof. reflexivity. Qed.
Definition gdb_one (f : gdb_frame) : stacktrace := SGdb (mk_gdb_stacktrace [mk_gdb_thread 1 1 [f]] None [] 0).
(** Names with commas, as in C++, can be confused with the neighbouring field. *)
Theorem C22_separator_refuted : exists f g, f <> g /\ no_newline (or_unknown (gf_function_name f)) /\ no_newline (or_unknown (gf_function_type f)) /\
  forall sha1 flags, sr_stacktrace_get_bthash sha1 (gdb_one f) flags = sr_stacktrace_get_bthash sha1 (gdb_one g) flags.
Proof.
  exists (mk_gdb_frame (Some (L "f<a, b>")) (Some (L "int")) 0 None 0 false 1 None),
         (mk_gdb_frame (Some (L "f<a")) (Some (L "b>, int")) 0 None 0 false 1 None).
  split; [discriminate|]. split; [apply lit_no_nl; reflexivity|]. split; [apply lit_no_nl; reflexivity|].
  intros. unfold sr_stacktrace_get_bthash. destruct (flag_nohash flags); reflexivity.
Qed.
(** A field that reads "<unknown>" is the same as a missing one. *)
Theorem C22_placeholder_refuted : exists s t, identity_of s <> identity_of t /\
  forall sha1 flags, sr_stacktrace_get_bthash sha1 s flags = sr_stacktrace_get_bthash sha1 t flags.
Proof.
  exists (SPython (mk_python_stacktrace None [])), (SPython (mk_python_stacktrace (Some (L "<unknown>")) [])).
  split; [discriminate|]. intros. reflexivity.
Qed.
(** Taint flags of a kernel oops are not hashed although a line is written for them. *)
Theorem C22_taint_refuted : exists s t, ks_taint s <> ks_taint t /\
  forall sha1 flags, sr_stacktrace_get_bthash sha1 (SKoops s) flags = sr_stacktrace_get_bthash sha1 (SKoops t) flags.
Proof.
  exists (mk_koops_stacktrace None no_taint None None [] None), (mk_koops_stacktrace None (repeat true 16) None None [] None).
  split; [discriminate|]. intros. reflexivity.
Qed.
(** Nor are function names of core frames. *)
Theorem C22_core_names_refuted : exists s t f g, s = SCore (mk_core_stacktrace 11 None None [mk_core_thread [f]] false) /\
  t = SCore (mk_core_stacktrace 11 None None [mk_core_thread [g]] false) /\ cf_function_name f <> cf_function_name g /\
  forall sha1 flags, sr_stacktrace_get_bthash sha1 s flags = sr_stacktrace_get_bthash sha1 t flags.
Proof.
  exists (SCore (mk_core_stacktrace 11 None None [mk_core_thread [mk_core_frame 1 None 2 (Some (L "f")) None None true]] false)),
         (SCore (mk_core_stacktrace 11 None None [mk_core_thread [mk_core_frame 1 None 2 (Some (L "g")) None None true]] false)),
         (mk_core_frame 1 None 2 (Some (L "f")) None None true), (mk_core_frame 1 None 2 (Some (L "g")) None None true).
  repeat split; discriminate.
Qed.
(** A Python and a Ruby stacktrace can have the same text. *)
Definition mixed_python : stacktrace := SPython (mk_python_stacktrace (Some (L "E")) [mk_python_frame true (Some (L "a")) 2 true (Some (L "0")) (Some (L "3"))]).
Definition mixed_ruby : stacktrace := SRuby (mk_ruby_stacktrace (Some (L "E")) [mk_ruby_frame (Some (L "a")) 1 false (Some (L "2")) 1 3]).
Ltac plain_now := repeat match goal with
  | |- _ /\ _ => split
  | |- Forall _ _ => constructor
  | |- True => exact I
  | |- whole _ => unfold whole
  | |- field _ => split
  | |- no_newline _ => apply lit_no_nl; reflexivity
  | |- _ <> _ => discriminate
  | |- ~ _ => let K := fresh in intros K; vm_compute in K; intuition discriminate
  | |- (_ <= _)%Z => cbn; lia
  | |- frame_plain _ => unfold frame_plain
  | |- _ => progress cbn
  end.
Theorem C22_mixed_refuted : exists s t, plain s /\ plain t /\ identity_of s <> identity_of t /\
  forall sha1 flags, sr_stacktrace_get_bthash sha1 s flags = sr_stacktrace_get_bthash sha1 t flags.
Proof.
  exists mixed_python, mixed_ruby. split; [|split; [|split; [discriminate|]]].
  - unfold plain, mixed_python, frame_plain; cbn. plain_now.
  - unfold plain, mixed_ruby, frame_plain; cbn. plain_now.
  - intros. unfold sr_stacktrace_get_bthash. destruct (flag_nohash flags); [|f_equal]; vm_compute; reflexivity.
Qed.
(** A core stacktrace without threads reads like one with an empty thread. *)
Theorem C22_no_threads_refuted : exists s t, identity_of s <> identity_of t /\
  forall sha1 flags, sr_stacktrace_get_bthash sha1 s flags = sr_stacktrace_get_bthash sha1 t flags.
Proof.
  exists (SCore (mk_core_stacktrace 11 None None [] false)), (SCore (mk_core_stacktrace 11 None None [mk_core_thread []] false)).
  split; [discriminate|]. intros. reflexivity.
Qed.
Definition c22_case : stacktrace :=
  SGdb (mk_gdb_stacktrace [mk_gdb_thread 1 7 [fr "f" "f.c" 255; fr "main" "m.c" 16]; mk_gdb_thread 2 8 [fr "poll" "p.c" 3]] None
          [mk_gdb_sharedlib 4096 8191 0 (Some (L "libc.so.6"))] 0).
Example C22_plain : plain c22_case.
Proof. unfold plain, c22_case, frame_plain; cbn. plain_now. Qed.
Example C22_text : sr_stacktrace_get_bthash (fun x => x) c22_case 0 =
  unlines [L "1000-1fff, libc.so.6"; []; L "Thread 1"; L "f, <unknown>, 0, f.c, 1, 0, 0xff, <unknown>";
           L "main, <unknown>, 0, m.c, 1, 0, 0x10, <unknown>"; []; L "Thread 2"; L "poll, <unknown>, 0, p.c, 1, 0, 0x3, <unknown>"].
Proof. vm_compute. reflexivity. Qed.
Definition c22_core : stacktrace :=
  SCore (mk_core_stacktrace 11 (Some (L "/bin/x")) None [mk_core_thread [mk_core_frame 0 (Some (L "ab+c")) 1 None (Some (L "l")) None true];
           mk_core_thread []] false).
Example C22_core : plain c22_core /\ sr_stacktrace_get_bthash (fun x => x) c22_core 2 =
  unlines [L "Executable: /bin/x"; L "Signal: 11"; []; L "<unknown>, ab+c+0x1, l, <unknown>"; []].
Proof. split; [unfold plain, c22_core, frame_plain; cbn; plain_now|vm_compute; reflexivity]. Qed.

(** ** C54 *)
(** The first n frames of the crash thread, numbered from 1, each line showing the function and its place. *)
Theorem C54_short_text : forall s t n, (forall g, s <> SGdb g) -> sr_stacktrace_find_crash_thread s = Some t ->
  Forall printable (displayed n (sr_thread_frames t)) ->
  exists texts out, sr_stacktrace_to_short_text s n = Ok (Some out) /\ numbered 1 texts out /\
    Forall2 (fun f x => Forall (fun w => infix w x) (frame_shows f)) (displayed n (sr_thread_frames t)) texts /\
    (Forall frame_one_line (displayed n (sr_thread_frames t)) -> count nl out = length (displayed n (sr_thread_frames t))) /\
    (0 < n -> Z.of_nat (length texts) <= n).
Proof.
  intros s t n G C P. destruct (short_text_ok s t n G C P) as (texts & out & F & E & N).
  exists texts, out. split; [assumption|]. split; [assumption|].
  assert (F2 : Forall2 (fun f x => Forall (fun w => infix w x) (frame_shows f)) (displayed n (sr_thread_frames t)) texts /\
               length texts = length (displayed n (sr_thread_frames t)) /\
               (Forall frame_one_line (displayed n (sr_thread_frames t)) -> Forall no_newline texts)).
  { clear -F. induction F as [|f x l texts E F (IH1 & IH2 & IH3)]; [repeat split; constructor|].
    split; [constructor; [apply append_shows; assumption|assumption]|]. cbn [length]. split; [lia|].
    intros H. inversion H; subst. constructor; [eapply append_one_line; eassumption|auto]. }
  destruct F2 as (A & B & D). split; [assumption|]. split.
  - intros H. rewrite <- B. apply (numbered_lines _ _ _ N). auto.
  - intros Hn. rewrite B. unfold displayed. destruct (Z.eqb_spec n 0); [lia|]. rewrite firstn_length. lia.
Qed.
(** No crash thread, no text. *)
Theorem C54_none : forall s n, sr_stacktrace_find_crash_thread s = None -> (forall g, s <> SGdb g) \/
    (exists g, s = SGdb g /\ sr_gdb_stacktrace_find_crash_thread g = None) ->
  sr_stacktrace_to_short_text s n = Ok None.
Proof. exact short_text_none. Qed.
(** For gdb the frames are those of the optimized thread (C27), with their own numbers. *)
Theorem C54_gdb : forall s i t n o, sr_gdb_stacktrace_find_crash_thread s = Some i -> nth_error (gs_threads s) i = Some t ->
  sr_gdb_thread_get_optimized t (gs_libs s) n = Ok o -> 0 <= gt_number t ->
  exists num len texts, decnum (gt_number t) num /\ decnum (Z.of_nat (length (gt_frames o))) len /\
    sr_stacktrace_to_short_text (SGdb s) n =
      Ok (Some (unlines ((L "Thread no. " ++ num ++ L " (" ++ len ++ L " frames)") :: texts))) /\
    Forall2 (fun f x => Forall (fun w => infix w x) (frame_shows (FGdb f)) /\ (frame_one_line (FGdb f) -> no_newline x)) (gt_frames o) texts /\
    (0 < n -> Z.of_nat (length texts) <= n).
Proof. exact gdb_short_text. Qed.
(** The text of a whole gdb stacktrace: every thread, every frame, in order. *)
Theorem C54_gdb_text : forall s, exists texts,
  sr_gdb_stacktrace_to_text s false = unlines (concat (map (fun l => L "Thread" :: l) texts)) /\
  Forall2 (fun t l => Forall2 (fun f x => Forall (fun w => infix w x) match gf_function_name f with Some n => [n] | None => [] end /\
                                 (frame_one_line (FGdb f) -> no_newline x)) (gt_frames t) l) (gs_threads s) texts.
Proof. exact gdb_text_lines. Qed.
(** A JavaScript frame without a file, or a core frame with neither name nor build id, gives NULL to printf. *)
Theorem C54_null_refuted : exists s1 s2,
  sr_stacktrace_to_short_text (SJs s1) 0 = UB /\ sr_stacktrace_to_short_text (SCore s2) 0 = UB.
Proof.
  exists (mk_js_stacktrace None [js_frame_new] 0), (mk_core_stacktrace 11 None None [mk_core_thread [core_frame_new]] false).
  split; vm_compute; reflexivity.
Qed.
(** A negative limit lists one frame. *)
Example C54_negative : sr_stacktrace_to_short_text (SPython (mk_python_stacktrace None
  [mk_python_frame false (Some (L "a.py")) 3 false (Some (L "f")) None; python_frame_new])) (-5) =
  Ok (Some (unlines [L "#1 [a.py:3] f"])).
Proof. vm_compute. reflexivity. Qed.
Example C54_case :
  sr_stacktrace_to_short_text (SPython (mk_python_stacktrace None
    [mk_python_frame true (Some (L "string")) 3 true (Some (L "module")) None; python_frame_new; python_frame_new])) 2 =
    Ok (Some (unlines [L "#1 [<string>:3] <module>"; L "#2  ??"])) /\
  sr_stacktrace_to_short_text (SRuby (mk_ruby_stacktrace None [mk_ruby_frame (Some (L "a.rb")) 3 false (Some (L "f")) 2 1])) 0 =
    Ok (Some (unlines [L "#1 rescue in block (2 levels) in f in a.rb:3"])) /\
  sr_stacktrace_to_short_text (SJs (mk_js_stacktrace None [mk_js_frame (Some (L "a.js")) 3 4 (Some (L "f"))] 0)) 0 =
    Ok (Some (unlines [L "#1 at f (a.js:3:4)"])) /\
  sr_stacktrace_to_short_text (SCore (mk_core_stacktrace 11 None None [mk_core_thread
      [mk_core_frame 1 (Some (L "ab")) 16 None (Some (L "/usr/lib/libx.so")) None true]] false)) 0 =
    Ok (Some (unlines [L "#1 [libx.so] ab+16"])) /\
  sr_stacktrace_to_short_text (SKoops (mk_koops_stacktrace None no_taint None None [mk_koops_frame 1 false (Some (L "f")) 0 0 (Some (L "ext4")) 0 None 0 0 None (Some (L "IRQ"))] None)) 1 =
    Ok (Some (unlines [L "#1 [IRQ] ? f in ext4"])) /\
  sr_stacktrace_to_short_text (SJava (mk_java_stacktrace [mk_java_thread None
      [mk_java_frame (Some (L "A.b")) (Some (L "A.java")) 5 (Some (L "/x.jar")) false false None]])) 1 =
    Ok (Some (unlines [L "#1 " ++ [tab] ++ L "at A.b(A.java:5) [file:/x.jar]"])).
Proof. repeat split; vm_compute; reflexivity. Qed.
Example C54_gdb_case : sr_stacktrace_to_short_text c22_case 1 = Ok None /\
  sr_stacktrace_to_short_text (gdb_one (fr "f" "f.c" 255)) 3 = Ok (Some (unlines [L "Thread no. 1 (1 frames)"; L " #0 f at f.c:1"])).
Proof. split; vm_compute; reflexivity. Qed.

Print Assumptions C21_text.
Print Assumptions C21_same_keys.
Print Assumptions C21_later_frames.
Print Assumptions C21_later_frames_refuted.
Print Assumptions C21_above_exit.
Print Assumptions C21_lines.
Print Assumptions C22_injective.
Print Assumptions C22_determined.
Print Assumptions C22_hash.
Print Assumptions C22_separator_refuted.
Print Assumptions C22_placeholder_refuted.
Print Assumptions C22_taint_refuted.
Print Assumptions C22_core_names_refuted.
Print Assumptions C22_mixed_refuted.
Print Assumptions C22_no_threads_refuted.
Print Assumptions C54_short_text.
Print Assumptions C54_none.
Print Assumptions C54_gdb.
Print Assumptions C54_gdb_text.
Print Assumptions C54_null_refuted.
