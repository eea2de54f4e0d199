(** * Stack traces sent on: what stays the same, and what readers accept. *)
From Verif Require Import Base JsonSpec Types JsonTypesModel JsonTypesSpec JsonRoundtrip JsonRoundtrip2 JsonRoundtrip3 JsonReaders CrashModel TextModel ReportModel JsonKeepSpec JsonKeepProofs JsonKeepProofs2 P_Json ResendSpec ResendProofs.
Open Scope Z_scope.

Lemma frame_twice f : frame_read (frame_read f) = frame_read f.
Proof.
  destruct f as [f|f|f|f|f|f|f]; cbn; [now rewrite core_frame_twice|now rewrite python_frame_twice|now rewrite koops_frame_twice|now rewrite java_frame_twice|reflexivity|now rewrite ruby_frame_twice|now rewrite js_frame_twice].
Qed.
Lemma clip32_small z : fits32 (clip32 z).
Proof. unfold fits32, clip32. lia. Qed.
Lemma clip64_small z : fits64 (clip64 z).
Proof. unfold fits64, clip64. lia. Qed.
Lemma clip_address_small z : fits_address (clip_address z).
Proof. apply clip_address_fits, clip_address_twice. Qed.
Lemma with_name_small o b : with_name o b = true -> o <> None.
Proof. destruct o; [discriminate|]. cbn. discriminate. Qed.
(** After the first hop everything fits. *)
Lemma read_fits f : (forall g, f <> FGdb g) -> dup_fits (frame_read f) /\ bt_fits (frame_read f) /\ short_fits (frame_read f) /\ distance_fits (frame_read f).
Proof.
  intros G. pose proof clip32_small as C32. pose proof clip64_small as C64. pose proof clip_address_small as CA. pose proof with_name_small as W.
  destruct f as [f|f|f|f|f|f|f]; cbn.
  - split; [destruct (cf_build_id f), (cf_function_name f), (cf_fingerprint f); auto|]. auto.
  - split; [auto|]. split; [split; [auto|split; apply W]|]. split; [split; [auto|apply W]|split; apply W].
  - split; [auto|]. split; [repeat split; auto|]. auto.
  - assert (K : fits32 (match vf_file_name f with Some _ => clip32 (vf_file_line f) | None => 0 end) /\
               (vf_file_name f = None -> match vf_file_name f with Some _ => clip32 (vf_file_line f) | None => 0 end = 0)).
    { destruct (vf_file_name f); [split; [auto|discriminate]|split; [unfold fits32; lia|auto]]. }
    auto.
  - now destruct (G f).
  - split; [auto|]. split; [repeat split; auto; apply W|]. split; [repeat split; auto; apply W|apply W].
  - auto.
Qed.
Lemma reason_small s : sendable s -> reason_fits (as_read s).
Proof.
  intros D. destruct s as [s|s|s|s|s|s|s]; cbn [as_read reason_fits].
  - exact Logic.I.
  - intros l f E. unfold python_as_read in E. cbn in E. assert (K : In f (map python_frame_as_read (ps_frames s))) by (rewrite E; apply in_or_app; right; now left).
    apply in_map_iff in K. destruct K as (g & <- & _). apply clip32_small.
  - reflexivity.
  - intros t r l f E F N. assert (K : In f (map java_frame_as_read (java_frames s))).
    { rewrite <- java_frames_read. unfold java_frames. rewrite E. cbn. apply in_or_app. left. rewrite F. apply in_or_app. right. now left. }
    apply in_map_iff in K. destruct K as (g & <- & _). cbn. destruct (vf_file_name g); [apply clip32_small|unfold fits32; lia].
  - exact (proj1 D).
  - intros f l E. unfold ruby_as_read in E. cbn in E. assert (K : In f (map ruby_frame_as_read (rs_frames s))) by (rewrite E; now left).
    apply in_map_iff in K. destruct K as (g & <- & _). apply clip32_small.
  - intros f l E. unfold js_as_read in E. cbn in E. assert (K : In f (map js_frame_as_read (js_frames s))) by (rewrite E; now left).
    apply in_map_iff in K. destruct K as (g & <- & _). split; apply clip32_small.
Qed.
Lemma threads_fit s : sendable s -> Forall (fun t => Forall (fun f => dup_fits f /\ bt_fits f /\ short_fits f /\ distance_fits f) (sr_thread_frames t)) (sr_stacktrace_threads (as_read s)).
Proof.
  intros D. rewrite threads_read. apply List.Forall_map, Forall_forall. intros t T. rewrite frames_read. apply List.Forall_map, Forall_forall. intros f F.
  apply read_fits. exact (in_range_no_gdb s t f (proj1 D) T F).
Qed.
Lemma reads_S n s : reads (S n) s = reads n (as_read s).
Proof. induction n as [|n IH]; [reflexivity|]. cbn [reads]. f_equal. exact IH. Qed.
Lemma frames_settled n s : sendable s -> map sr_thread_frames (sr_stacktrace_threads (reads (S n) s)) = map sr_thread_frames (sr_stacktrace_threads (as_read s)).
Proof.
  intros D. induction n as [|n IH]; [reflexivity|]. rewrite <- IH. cbn [reads]. rewrite !threads_read, !map_map. apply map_ext. intros t.
  rewrite !frames_read, map_map. apply map_ext. apply frame_twice.
Qed.
Lemma bthash_settled n s sha1 flags : sendable s -> sr_stacktrace_get_bthash sha1 (reads (S n) s) flags = sr_stacktrace_get_bthash sha1 (as_read s) flags.
Proof.
  intros D. induction n as [|n IH]; [reflexivity|]. rewrite <- IH. cbn [reads]. apply bthash_read.
  eapply Forall_impl; [|apply (threads_fit (reads n s)), sendable_reads, D]. intros t F. eapply Forall_impl; [|exact F]. cbn. tauto.
Qed.
Lemma reason_settled n s : sendable s -> sr_stacktrace_get_reason (reads (S n) s) = sr_stacktrace_get_reason (as_read s).
Proof. intros D. induction n as [|n IH]; [reflexivity|]. rewrite <- IH. cbn [reads]. apply reason_read, reason_small. now apply sendable_reads. Qed.
Lemma duphash_settled n s i t t' sha1 k prefix flags : sendable s ->
  nth_error (sr_stacktrace_threads (reads (S n) s)) i = Some t -> nth_error (sr_stacktrace_threads (as_read s)) i = Some t' ->
  sr_thread_get_duphash sha1 t k prefix flags = sr_thread_get_duphash sha1 t' k prefix flags.
Proof.
  intros D. revert t. induction n as [|n IH]; intros t T T'; [cbn in T; congruence|].
  change (reads (S (S n)) s) with (as_read (reads (S n) s)) in T. rewrite threads_read, nth_error_map in T.
  destruct (nth_error (sr_stacktrace_threads (reads (S n) s)) i) as [u|] eqn:U; [|discriminate T]. injection T as <-.
  rewrite <- (IH u eq_refl T'). apply duphash_read.
  pose proof (threads_fit (reads n s) (sendable_reads n s D)) as F. rewrite Forall_forall in F. specialize (F u (nth_error_In _ _ U)). eapply Forall_impl; [|exact F]. cbn. tauto.
Qed.
Lemma settled n s : sendable s -> settles s -> reads (S n) s = as_read s.
Proof.
  intros D H. induction n as [|n IH]; [reflexivity|]. change (reads (S (S n)) s) with (as_read (reads (S n) s)). rewrite IH. now apply settles_iff.
Qed.
Lemma settled2 n s : sendable s -> (forall t, s <> SJs t) -> reads (S (S n)) s = reads 2 s.
Proof.
  intros D N. induction n as [|n IH]; [reflexivity|]. change (reads (S (S (S n))) s) with (as_read (reads (S (S n)) s)). rewrite IH.
  change (as_read (reads 2 s)) with (reads 3 s). rewrite third_hop by exact D. destruct s; try reflexivity. now destruct (N s).
Qed.
Lemma period2 n s : sendable s -> (exists t, s = SJs t) -> reads (S (S (S n))) s = reads (S n) s.
Proof.
  intros D (t & E). induction n as [|n IH]; [rewrite third_hop by exact D; now rewrite E|]. cbn [reads] in IH |- *. now rewrite IH.
Qed.

(** ** What is accepted *)
Lemma mod32 z : u32 (z mod two32).
Proof. apply Z.mod_pos_bound. reflexivity. Qed.
Lemma mod64 z : u64 (z mod two64).
Proof. apply Z.mod_pos_bound. reflexivity. Qed.
Lemma reads_u32_range o k d r : u32 d -> reads_u32 o k d r -> u32 r.
Proof. intros D [(_ & ->)|(z & _ & ->)]; [exact D|apply mod32]. Qed.
Lemma reads_u64_range o k d r : u64 d -> reads_u64 o k d r -> u64 r.
Proof. intros D [(_ & ->)|(z & _ & ->)]; [exact D|apply mod64]. Qed.
Lemma reads_list_range {A} o k (item : json -> A -> Prop) (P : A -> Prop) l : (forall v x, item v x -> P x) -> reads_list o k item l -> Forall P l.
Proof.
  intros H [(_ & ->)|(js & _ & F)]; [constructor|]. induction F; constructor; eauto.
Qed.
Lemma u32_0 : u32 0. Proof. unfold u32, two32. lia. Qed.
Lemma u64_0 : u64 0. Proof. unfold u64, two64. lia. Qed.
Lemma u64_max : u64 ulong_max. Proof. unfold u64, ulong_max, two64. lia. Qed.
Lemma accepted_range type v s : sr_stacktrace_from_json type v = Ok (Some s) -> members_in_range s.
Proof.
  unfold sr_stacktrace_from_json.
  assert (K : forall A (f : A -> stacktrace) r, to_option f r = Ok (Some s) -> exists x, r = Ok x /\ s = f x).
  { intros A f [x| |]; cbn; try discriminate. intros E. injection E as <-. eauto. }
  destruct (Nat.eqb _ _); [|destruct (Nat.eqb _ _); [|destruct (Nat.eqb _ _); [|destruct (Nat.eqb _ _); [|destruct (Nat.eqb _ _); [|destruct (Nat.eqb _ _); [|discriminate]]]]]];
    intros H; apply K in H; destruct H as (x & H & ->); cbn [members_in_range].
  - apply C39_core in H. destruct H as (o & _ & S & _ & _ & T). split.
    + destruct S as [(_ & ->)|(z & _ & ->)]; [unfold u16, two16; lia|apply Z.mod_pos_bound; reflexivity].
    + unfold core_frames. assert (F : Forall (fun t => Forall core_frame_range (ct_frames t)) (cs_threads x)).
      { destruct T as [(_ & -> & _)|(l & _ & F & _)]; [constructor|]. clear - F. induction F as [|j t l ts (o & _ & R) _ IH]; constructor; [|exact IH].
        apply (reads_list_range _ _ _ _ _) with (2 := R). intros v f (o' & _ & A & _ & B & _). split; [exact (reads_u64_range _ _ _ _ u64_max A)|exact (reads_u64_range _ _ _ _ u64_max B)]. }
      apply List.Forall_concat, List.Forall_map. exact F.
  - apply C39_python in H. destruct H as (o & _ & _ & R). apply (reads_list_range _ _ _ _ _) with (2 := R). intros w f (o' & _ & _ & _ & _ & A). exact (reads_u32_range _ _ _ _ u32_0 A).
  - apply C39_koops in H. destruct H as ((o & _ & _ & _ & T & _ & R & _) & M). split; [|exact M]. split.
    + destruct T as [(_ & ->)|(l & _ & ->)]; [reflexivity|]. rewrite map_length. reflexivity.
    + apply (reads_list_range _ _ _ _ _) with (2 := R). intros w f (o' & _ & A1 & _ & _ & A2 & A3 & _ & A4 & _ & A5 & A6 & _).
      repeat split; first [apply (reads_u64_range _ _ _ _ u64_0 A1)|apply (reads_u64_range _ _ _ _ u64_0 A2)|apply (reads_u64_range _ _ _ _ u64_0 A3)|apply (reads_u64_range _ _ _ _ u64_0 A4)|apply (reads_u64_range _ _ _ _ u64_0 A5)|apply (reads_u64_range _ _ _ _ u64_0 A6)].
  - apply C39_java in H. destruct H as (o & _ & R). unfold java_range, java_frames. apply List.Forall_concat, List.Forall_map.
    apply (reads_list_range _ _ _ _ _) with (2 := R). intros w t (o' & _ & _ & R'). apply (reads_list_range _ _ _ _ _) with (2 := R'). intros w' f (o'' & _ & _ & _ & A & _). exact (reads_u32_range _ _ _ _ u32_0 A).
  - apply C39_ruby in H. destruct H as (o & _ & _ & R). apply (reads_list_range _ _ _ _ _) with (2 := R). intros w f (o' & _ & _ & _ & A & B & C).
    split; [exact (reads_u32_range _ _ _ _ u32_0 A)|]. split; [exact (reads_u32_range _ _ _ _ u32_0 B)|exact (reads_u32_range _ _ _ _ u32_0 C)].
  - apply C39_js in H. destruct H as (o & _ & _ & R & P). split.
    + destruct P as [(_ & ->)|(p & e & r & _ & _ & _ & _ & _ & ->)]; [exact u32_0|]. destruct (str_eqb _ _), (str_eqb _ _); unfold u32, two32; lia.
    + apply (reads_list_range _ _ _ _ _) with (2 := R). intros w f (o' & _ & _ & _ & A & B). split; [exact (reads_u32_range _ _ _ _ u32_0 A)|exact (reads_u32_range _ _ _ _ u32_0 B)].
Qed.
