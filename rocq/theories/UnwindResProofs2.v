(** * Proofs about UnwindResModel.v: threads, whole core dumps, dying processes *)
From Verif Require Import Base Types UtilsModel UtilsProofs UnwindModel UnwindResModel UnwindResSpec UnwindResProofs.
Open Scope nat_scope.

Section Process.
Variable addrmodule : Z -> option module.
Variable cxa_demangle : str -> option str.
Variable dwfl_errmsg : str.
Local Notation getframes_in := (getframes_in addrmodule cxa_demangle dwfl_errmsg).
Local Notation unwind_thread_in := (unwind_thread_in addrmodule cxa_demangle dwfl_errmsg).
Local Notation getthreads_in := (getthreads_in addrmodule cxa_demangle dwfl_errmsg).
Local Notation getframes := (getframes addrmodule cxa_demangle).
Local Notation unwind_thread := (unwind_thread addrmodule cxa_demangle).
Local Notation getthreads := (getthreads addrmodule cxa_demangle).

(** ** Frames and threads *)
Definition note_blocks (m : option (nat * str)) : list nat := match m with Some (b, _) => [b] | None => [] end.
Lemma free_frames_is : forall l w F E D B S n, is w F E D (map fst l ++ B) S n -> exists w', free_frames l w = Ok w' /\ is w' F E D B S n.
Proof.
  induction l as [|[b f] l IH]; intros w F E D B S n H; cbn [free_frames].
  - exists w. split; [reflexivity|exact H].
  - cbn [map fst app] in H. destruct (free_is _ _ _ _ _ _ _ _ H) as (w1 & E1 & H1). rewrite E1. cbn [bind]. exact (IH _ _ _ _ _ _ _ H1).
Qed.
Lemma thread_free_is t w F E D B S n : is w F E D (thread_blocks t ++ B) S n -> exists w', thread_free t w = Ok w' /\ is w' F E D B S n.
Proof.
  intros H. unfold thread_blocks in H. apply is_perm with (B' := map fst (snd t) ++ fst t :: B) in H; [|apply Permutation_middle].
  unfold thread_free. destruct (free_frames_is _ _ _ _ _ _ _ _ H) as (w1 & E1 & H1). rewrite E1. cbn [bind]. exact (free_is _ _ _ _ _ _ _ _ H1).
Qed.
Lemma threads_free_is : forall l w F E D B S n, is w F E D (concat (map thread_blocks l) ++ B) S n -> exists w', threads_free l w = Ok w' /\ is w' F E D B S n.
Proof.
  induction l as [|t l IH]; intros w F E D B S n H; cbn [threads_free].
  - exists w. split; [reflexivity|exact H].
  - cbn [map concat] in H. rewrite <- app_assoc in H. destruct (thread_free_is _ _ _ _ _ _ _ _ H) as (w1 & E1 & H1). rewrite E1. cbn [bind]. exact (IH _ _ _ _ _ _ _ H1).
Qed.
Lemma getframes_is : forall frames ret w F E D B S n, is w F E D B S n ->
  exists fs r m w', getframes_in frames ret w = Ok (fs, r, m, w') /\ getframes frames ret = (map snd fs, r) /\
    is w' F E D (note_blocks m ++ map fst fs ++ B) S n /\ (m <> None -> r = 1%Z) /\ (ret <> 1%Z -> r = 1%Z -> m <> None).
Proof.
  induction frames as [|[[pc minus]|] frames IH]; intros ret w F E D B S n H; cbn [UnwindResModel.getframes_in UnwindModel.getframes].
  - exists [], ret, None, w. split; [reflexivity|]. split; [reflexivity|]. split; [exact H|]. split; [congruence|intros X Y; congruence].
  - destruct (malloc_is _ _ _ _ _ _ _ H) as (b & w1 & E1 & H1). rewrite E1.
    destruct (opt_str_eqb (cf_function_name (resolve_frame addrmodule cxa_demangle pc minus)) (Some (L "__libc_start_main"))) eqn:Eq.
    + destruct (free_is _ _ _ _ _ _ _ _ H1) as (w2 & E2 & H2). rewrite E2. cbn [bind]. exists [], 2%Z, None, w2. split; [reflexivity|]. split; [reflexivity|]. split; [exact H2|].
      split; [congruence|discriminate].
    + destruct (IH ret _ _ _ _ _ _ _ H1) as (fs & r & m & w2 & E2 & G & H2 & M1 & M2). rewrite E2. cbn [bind]. rewrite G. eexists ((b, _) :: fs), r, m, w2. split; [reflexivity|].
      split; [reflexivity|]. split; [|split; assumption]. eapply is_perm; [|exact H2]. apply Permutation_app_head. cbn [map fst app]. symmetry. apply Permutation_middle.
  - destruct (malloc_is _ _ _ _ _ _ _ H) as (b & w1 & E1 & H1). rewrite E1. eexists [], 1%Z, (Some (b, _)), w1. split; [reflexivity|]. split; [reflexivity|]. split; [exact H1|].
    split; [reflexivity|discriminate].
Qed.
Lemma truncate_is : forall fs k w F E D B S n, is w F E D (map fst fs ++ B) S n ->
  exists fs' w', truncate_in fs k w = Ok (fs', w') /\ truncate_long_thread (map snd fs) k = map snd fs' /\ is w' F E D (map fst fs' ++ B) S n.
Proof.
  induction fs as [|[b f] fs IH]; intros k w F E D B S n H; cbn [truncate_in truncate_long_thread map].
  - exists [], w. split; [reflexivity|]. split; [reflexivity|exact H].
  - cbn [snd fst]. destruct (Nat.ltb CORE_STACKTRACE_FRAME_LIMIT k) eqn:E1.
    + cbn [map fst app] in H. destruct (free_is _ _ _ _ _ _ _ _ H) as (w1 & E2 & H1). rewrite E2. cbn [bind]. exact (IH _ _ _ _ _ _ _ _ H1).
    + exists ((b, f) :: fs), w. split; [reflexivity|]. split; [reflexivity|exact H].
Qed.
Lemma unwind_is u w F E D B S n : is w F E D B S n ->
  exists x m w', unwind_thread_in u w = Ok (x, m, w') /\
    match x with
    | Some t => unwind_thread u = Ok (mk_core_thread (map snd (snd t))) /\ m = None /\ is w' F E D (thread_blocks t ++ B) S n
    | None => unwind_thread u = Fail /\ (u_ret u <> 1%Z -> m <> None) /\ is w' F E D (note_blocks m ++ B) S n
    end.
Proof.
  intros H. unfold UnwindResModel.unwind_thread_in, UnwindModel.unwind_thread. destruct (malloc_is _ _ _ _ _ _ _ H) as (b & w1 & E1 & H1). rewrite E1.
  destruct (getframes_is (u_frames u) (u_ret u) _ _ _ _ _ _ _ H1) as (fs & r & m & w2 & E2 & G & H2 & M1 & M2). rewrite E2. cbn [bind]. rewrite G.
  assert (P : forall x, Permutation (x ++ map fst fs ++ b :: B) (thread_blocks (b, fs) ++ x ++ B)).
  { intros x. unfold thread_blocks. cbn [fst snd app]. transitivity (b :: x ++ map fst fs ++ B).
    - rewrite !app_assoc. symmetry. apply Permutation_middle.
    - constructor. rewrite !app_assoc. apply Permutation_app_tail, Permutation_app_comm. }
  destruct (Z.eqb_spec r 1) as [-> |R1].
  - cbn [orb]. destruct (thread_free_is (b, fs) _ _ _ _ _ _ _ (is_perm _ _ _ _ _ _ _ _ (P (note_blocks m)) H2)) as (w3 & E3 & H3). rewrite E3. cbn [bind]. exists None, m, w3.
    split; [reflexivity|]. split; [reflexivity|]. split; [intros X; exact (M2 X eq_refl)|exact H3].
  - cbn [orb]. assert (Em : m = None) by (destruct m as [y|]; [exfalso; apply R1, M1; discriminate|reflexivity]). subst m. cbn [note_blocks app] in H2.
    destruct (negb (r =? 0)%Z && negb (r =? 2)%Z && negb (r =? -1)%Z) eqn:C.
    + destruct (malloc_is _ _ _ _ _ _ _ H2) as (mb & w3 & E3 & H3). rewrite E3.
      destruct (thread_free_is (b, fs) _ _ _ _ _ _ _ (is_perm _ _ _ _ _ _ _ _ (P [mb]) H3)) as (w4 & E4 & H4). rewrite E4. cbn [bind]. eexists None, (Some (mb, _)), w4.
      split; [reflexivity|]. split; [reflexivity|]. split; [discriminate|exact H4].
    + destruct (truncate_is fs (length fs) _ _ _ _ _ _ _ H2) as (fs' & w3 & E3 & T & H3). rewrite E3. cbn [bind]. exists (Some (b, fs')), None, w3. split; [reflexivity|].
      cbn [snd]. split; [do 2 f_equal; rewrite map_length; exact T|]. split; [reflexivity|]. eapply is_perm; [|exact H3]. unfold thread_blocks. cbn [fst snd app]. symmetry. apply Permutation_middle.
Qed.
Lemma getthreads_is : forall us ret w F E D B S n, is w F E D B S n -> ret <> 1%Z -> Forall (fun u => u_ret u <> 1%Z) us ->
  exists ts r m w', getthreads_in us ret w = Ok (ts, r, m, w') /\ is w' F E D (note_blocks m ++ concat (map thread_blocks ts) ++ B) S n /\ (m <> None <-> r = 1%Z) /\
    (r = 0%Z -> getthreads us ret = Ok (map (fun t => mk_core_thread (map snd (snd t))) ts)) /\ (r <> 0%Z -> getthreads us ret = Fail).
Proof.
  induction us as [|u us IH]; intros ret w F E D B S n H Nr Hu; cbn [UnwindResModel.getthreads_in UnwindModel.getthreads].
  - exists [], ret, None, w. split; [reflexivity|]. split; [exact H|]. split; [split; [congruence|intros ->; contradiction]|]. split.
    + intros ->. reflexivity.
    + intros X. destruct (Z.eqb_spec ret 0); [contradiction|reflexivity].
  - inversion Hu as [|? ? Hx Hus]; subst. destruct (unwind_is u _ _ _ _ _ _ _ H) as (x & m & w1 & E1 & H1). rewrite E1. cbn [bind]. destruct x as [t|].
    + destruct H1 as (U & -> & H1). rewrite U. cbn [bind]. destruct (IH ret _ _ _ _ _ _ _ H1 Nr Hus) as (ts & r & m & w2 & E2 & H2 & M & G0 & G1). rewrite E2. cbn [bind].
      exists (t :: ts), r, m, w2. split; [reflexivity|]. split; [|split; [exact M|split]].
      * eapply is_perm; [|exact H2]. apply Permutation_app_head. cbn [map concat]. rewrite <- !app_assoc. rewrite !app_assoc. apply Permutation_app_tail. apply Permutation_app_comm.
      * intros R. rewrite (G0 R). reflexivity.
      * intros R. rewrite (G1 R). reflexivity.
    + destruct H1 as (U & M & H1). rewrite U. cbn [bind]. exists [], 1%Z, m, w1. split; [reflexivity|]. split; [exact H1|]. split; [split; [reflexivity|intros _; exact (M Hx)]|].
      split; [discriminate|reflexivity].
Qed.
Lemma pass_error_is e m w F E D B S n : m <> None -> is w F E D (note_blocks m ++ B) S n ->
  exists e' w', pass_error e m w = Ok (e', w') /\ told e e' /\ is w' F E D (message_blocks e' ++ B) S n.
Proof.
  intros Hm H. destruct m as [[b t]|]; [|contradiction]. cbn [note_blocks app] in H. unfold pass_error. destruct (set_error_is _ _ _ _ _ _ _ e t H) as (e' & w1 & E1 & T & H1). rewrite E1.
  destruct (free_in _ _ _ _ _ _ _ _ _ _ H1 eq_refl) as (w2 & E2 & H2). rewrite E2. cbn [bind]. exists e', w2. split; [reflexivity|]. split; assumption.
Qed.
Lemma clean_none e : clean (no_error e). Proof. destruct e; [right|left]; reflexivity. Qed.
Lemma told_none e e' : told (no_error e) e' -> told e e'. Proof. destruct e; exact (fun x => x). Qed.
Lemma untold_none e : untold e (no_error e). Proof. destruct e; reflexivity. Qed.

(** ** Core dumps *)
Lemma parse_ok a d f exe e w : sound w -> new_file w (o_open a) -> o_open a <> 0%Z -> honest d ->
  exists r e' w', parse_coredump_in addrmodule cxa_demangle dwfl_errmsg a d f exe e w = Ok (r, e', w') /\
    match r with
    | Some (m, s) => openable a /\ sr_parse_coredump addrmodule cxa_demangle (Some d) exe = Ok s /\ untold e e' /\ holds m s /\ kept w w' (trace_blocks m)
    | None => (openable a -> sr_parse_coredump addrmodule cxa_demangle (Some d) exe = Fail) /\ told e e' /\
        exists leaked, kept w w' (message_blocks e' ++ leaked) /\ (o_getmodules a <> (-1)%Z -> leaked = [])
    end.
Proof.
  intros Sw Nf N0 [Hr Hu]. unfold parse_coredump_in. cbv zeta.
  destruct (open_is a f (no_error e) w Sw (clean_none e) Nf) as (r & e1 & w1 & E1 & H1). rewrite E1. cbn [bind]. destruct r as [ch|].
  2:{ destruct H1 as (No & T & leaked & K & Lk). cbn [core_handle_free bind]. exists None, e1, w1. split; [reflexivity|]. split; [intros X; contradiction|]. split; [exact (told_none _ _ T)|].
      exists leaked. split; assumption. }
  destruct H1 as (Op & -> & Hf & _ & eh & dw & Eh & Ed & Ne & H1). pose proof Op as (_ & Ho & _).
  assert (N : ~ In (ch_fd ch) (fds w)) by (rewrite Hf; destruct Nf as [Nf|Nf]; [lia|exact Nf]). rewrite <- Hf in H1, Ho, N0.
  assert (Rel : forall w2 B, is w2 (ch_fd ch :: fds w) ((eh, ch_fd ch) :: elfs w) ((dw, Some eh) :: dwfls w) (handle_blocks ch ++ B ++ blocks w) (seized w) (fresh w) ->
    exists w3, core_handle_free (Some ch) w2 = Ok w3 /\ kept w w3 B).
  { intros w2 B H. destruct (handle_free_is _ _ _ _ _ _ _ _ _ _ Eh Ed Ne (sound_dwfl _ Sw) (sound_elf _ _ Sw N) H Ho) as (w3 & E3 & H3). exists w3. split; [exact E3|].
    destruct (Z.ltb_spec 0 (ch_fd ch)); [|lia]. apply done. exact H3. }
  assert (Sw2 : forall x y z : list nat, Permutation (x ++ y ++ z) (y ++ x ++ z)) by (intros; rewrite !app_assoc; apply Permutation_app_tail, Permutation_app_comm).
  destruct (cd_attach d) eqn:Ea; cbn [negb].
  2:{ destruct (set_error_is _ _ _ _ _ _ _ (no_error e) (dwfl_failed (L "dwfl_core_file_attach") dwfl_errmsg) H1) as (e2 & w2 & E2 & T & H2). rewrite E2.
      destruct (Rel w2 (message_blocks e2)) as (w3 & E3 & K3). { eapply is_perm; [|exact H2]. apply Sw2. }
      rewrite E3. cbn [bind]. exists None, e2, w3. split; [reflexivity|]. split; [intros _; cbn [sr_parse_coredump]; rewrite Ea; reflexivity|]. split; [exact (told_none _ _ T)|].
      exists []. split; [rewrite app_nil_r; exact K3|reflexivity]. }
  destruct (malloc_is _ _ _ _ _ _ _ H1) as (b & w2 & E2 & H2). rewrite E2.
  destruct (getthreads_is (cd_threads d) (cd_ret d) _ _ _ _ _ _ _ H2 Hr Hu) as (ts & r & m & w3 & E3 & H3 & M & G0 & G1). rewrite E3. cbn [bind].
  destruct (Z.eqb_spec r 0) as [R0|R0]; cbn [negb].
  - specialize (G0 R0). assert (Em : m = None) by (destruct m as [y|]; [exfalso; assert (X : r = 1%Z) by (apply M; discriminate); lia|reflexivity]). subst m. cbn [note_blocks app] in H3.
    assert (X : exists x w4, match exe with Some _ => let '(x, w) := malloc w3 in (Some x, w) | None => (None, w3) end = (x, w4) /\ (x <> None <-> exe <> None) /\
      is w4 (ch_fd ch :: fds w) ((eh, ch_fd ch) :: elfs w) ((dw, Some eh) :: dwfls w) (opt_block x ++ concat (map thread_blocks ts) ++ b :: handle_blocks ch ++ blocks w) (seized w) (fresh w)).
    { destruct exe as [x|].
      - destruct (malloc_is _ _ _ _ _ _ _ H3) as (xb & w4 & E4 & H4). rewrite E4. exists (Some xb), w4. split; [reflexivity|]. split; [split; discriminate|exact H4].
      - exists None, w3. split; [reflexivity|]. split; [tauto|exact H3]. }
    destruct X as (x & w4 & E4 & Hx & H4). rewrite E4.
    destruct (Rel w4 (trace_blocks (b, x, ts))) as (w5 & E5 & K5).
    { eapply is_perm; [|exact H4]. unfold trace_blocks. rewrite app_assoc. transitivity ((b :: opt_block x ++ concat (map thread_blocks ts)) ++ handle_blocks ch ++ blocks w); [|apply Sw2].
      symmetry. apply (Permutation_middle (opt_block x ++ concat (map thread_blocks ts)) (handle_blocks ch ++ blocks w) b). }
    rewrite E5. cbn [bind]. eexists (Some ((b, x, ts), _)), _, w5. split; [reflexivity|]. split; [exact Op|]. split; [|split; [apply untold_none|split; [|exact K5]]].
    + cbn [sr_parse_coredump]. rewrite Ea, G0. cbn [bind]. destruct ts; reflexivity.
    + cbn [holds cs_threads cs_executable]. split; [rewrite map_map; reflexivity|exact Hx].
  - specialize (G1 R0).
    assert (X : exists e4 w4, (if Z.eqb r (-1) then Ok (set_error (no_error e) (dwfl_failed (L "dwfl_getthreads") dwfl_errmsg) w3)
                      else if Z.eqb r 1 then pass_error (no_error e) m w3
                      else Ok (set_error (no_error e) (L "Unknown error in dwfl_getthreads") w3)) = Ok (e4, w4) /\ told (no_error e) e4 /\
      is w4 (ch_fd ch :: fds w) ((eh, ch_fd ch) :: elfs w) ((dw, Some eh) :: dwfls w) (message_blocks e4 ++ concat (map thread_blocks ts) ++ b :: handle_blocks ch ++ blocks w) (seized w) (fresh w)).
    { destruct (Z.eq_dec r 1) as [R1|R1].
      - subst r. cbn [Z.eqb Pos.eqb]. apply pass_error_is; [apply M; reflexivity|exact H3].
      - assert (Em : m = None) by (destruct m as [y|]; [exfalso; apply R1, M; discriminate|reflexivity]). subst m. cbn [note_blocks app] in H3.
        destruct (Z.eqb_spec r (-1)); [|destruct (Z.eqb_spec r 1); [contradiction|]].
        + destruct (set_error_is _ _ _ _ _ _ _ (no_error e) (dwfl_failed (L "dwfl_getthreads") dwfl_errmsg) H3) as (e4 & w4 & E4 & T & H4). rewrite E4. exists e4, w4. repeat split; assumption || apply H4.
        + destruct (set_error_is _ _ _ _ _ _ _ (no_error e) (L "Unknown error in dwfl_getthreads") H3) as (e4 & w4 & E4 & T & H4). rewrite E4. exists e4, w4. repeat split; assumption || apply H4. }
    destruct X as (e4 & w4 & E4 & T & H4). rewrite E4. cbn [bind].
    apply is_perm with (B' := concat (map thread_blocks ts) ++ b :: message_blocks e4 ++ handle_blocks ch ++ blocks w) in H4.
    2:{ rewrite Sw2. apply Permutation_app_head. symmetry. apply Permutation_middle. }
    destruct (threads_free_is _ _ _ _ _ _ _ _ H4) as (w5 & E5 & H5). rewrite E5. cbn [bind]. destruct (free_is _ _ _ _ _ _ _ _ H5) as (w6 & E6 & H6). rewrite E6. cbn [bind].
    destruct (Rel w6 (message_blocks e4)) as (w7 & E7 & K7). { eapply is_perm; [|exact H6]. apply Sw2. }
    rewrite E7. cbn [bind]. exists None, e4, w7. split; [reflexivity|]. split; [intros _; cbn [sr_parse_coredump]; rewrite Ea, G1; reflexivity|]. split; [exact (told_none _ _ T)|].
    exists []. split; [rewrite app_nil_r; exact K7|reflexivity].
Qed.
End Process.
