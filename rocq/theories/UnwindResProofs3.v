(** * Proofs about UnwindResModel.v: dying processes, gdb and libunwind *)
From Verif Require Import Base Types UtilsModel UtilsProofs UnwindModel UnwindResModel UnwindResSpec UnwindResProofs UnwindResProofs2.
Open Scope nat_scope.

Section Process.
Variable addrmodule : Z -> option module.
Variable cxa_demangle : str -> option str.
Variable dwfl_errmsg : str.

Lemma state_free_is w F E D B S n b d : is w F E ((d, None) :: D) (b :: B) S n -> exists w', unwind_state_free (Some (b, Some d)) w = Ok w' /\ is w' F E D B S n.
Proof.
  intros H. unfold unwind_state_free. destruct (dwfl_end_is _ _ _ _ _ _ _ _ _ H) as (w1 & E1 & H1). rewrite E1. cbn [bind]. exact (free_is _ _ _ _ _ _ _ _ H1).
Qed.
Lemma status_iff s : wifstopped s = true -> (at_exit s = true <-> s = (1541 * 256 + 127)%Z).
Proof.
  unfold wifstopped, at_exit. intros W. apply Z.eqb_eq in W. rewrite Z.eqb_eq. rewrite Z.shiftr_div_pow2 by lia. change (Z.lor 5 (Z.shiftl 6 8)) with 1541%Z. change (2 ^ 8)%Z with 256%Z.
  pose proof (Z.div_mod s 256). split; [intros X; lia|intros ->; reflexivity].
Qed.
Lemma without_split x : forall l r, without Z.eqb x l = Some r -> Permutation l (x :: r).
Proof.
  induction l as [|y l IH]; intros r E; [discriminate|]. cbn [without] in E. destruct (Z.eqb_spec x y) as [-> |N].
  - injection E as <-. reflexivity.
  - destruct (without Z.eqb x l) as [r'|] eqn:Er; [|discriminate]. injection E as <-. rewrite (IH r' eq_refl). apply perm_swap.
Qed.
Lemma without_none x : forall l, without Z.eqb x l = None -> ~ In x l.
Proof.
  induction l as [|y l IH]; intros E; [intros []|]. cbn [without] in E. destruct (Z.eqb_spec x y) as [-> |N]; [discriminate|].
  destruct (without Z.eqb x l) as [r'|] eqn:Er; [discriminate|]. intros [X|X]; [congruence|exact (IH eq_refl X)].
Qed.
Lemma prepare_is p msg tid e w : sound w ->
  exists r e' w', hook_prepare dwfl_errmsg p msg tid e w = Ok (r, e', w') /\
    match r with
    | Some (b, d') => exists d l, d' = Some d /\ preparable p w tid /\ untold e e' /\ Permutation (fds w) (0%Z :: l) /\
        is w' l (elfs w) ((d, None) :: dwfls w) (b :: blocks w) (tid :: seized w) (fresh w)
    | None => ~ preparable p w tid /\ told e e' /\ kept_but_traced w w' tid (message_blocks e') /\
        (p_report p <> 0%Z \/ p_report_end p <> 0%Z \/ p_seize p <> 0%Z -> kept w w' (message_blocks e'))
    end.
Proof.
  intros Sw. unfold hook_prepare. cbv zeta. destruct (malloc_is _ _ _ _ _ _ _ (is_self w)) as (b & w1 & E1 & H1). rewrite E1.
  destruct (dwfl_begin_is _ _ _ _ _ _ _ H1) as (d & w2 & E2 & Nd & H2). rewrite E2.
  set (fail := fun (text : str) (w : world) => let '(e, w) := set_error (no_error e) text w in do w <- unwind_state_free (Some (b, Some d)) w; Ok (@None unwind_state, e, w)).
  assert (Fin : forall text w3 F S, is w3 F (elfs w) ((d, None) :: dwfls w) (b :: blocks w) S (fresh w) -> exists e' w', fail text w3 = Ok (None, e', w') /\ told e e' /\
    is w' F (elfs w) (dwfls w) (message_blocks e' ++ blocks w) S (fresh w)).
  { intros text w3 F S H3. unfold fail. destruct (set_error_is _ _ _ _ _ _ _ (no_error e) text H3) as (e' & w4 & E4 & T & H4). rewrite E4.
    apply is_perm with (B' := b :: message_blocks e' ++ blocks w) in H4; [|symmetry; apply Permutation_middle].
    destruct (state_free_is _ _ _ _ _ _ _ _ _ H4) as (w5 & E5 & H5). rewrite E5. cbn [bind]. exists e', w5. split; [reflexivity|]. split; [exact (told_none _ _ T)|exact H5]. }
  assert (Early : forall text, ~ preparable p w tid -> exists r e' w', fail text w2 = Ok (r, e', w') /\
    match r with
    | Some (b, d') => exists d l, d' = Some d /\ preparable p w tid /\ untold e e' /\ Permutation (fds w) (0%Z :: l) /\
        is w' l (elfs w) ((d, None) :: dwfls w) (b :: blocks w) (tid :: seized w) (fresh w)
    | None => ~ preparable p w tid /\ told e e' /\ kept_but_traced w w' tid (message_blocks e') /\
        (p_report p <> 0%Z \/ p_report_end p <> 0%Z \/ p_seize p <> 0%Z -> kept w w' (message_blocks e'))
    end).
  { intros text Np. destruct (Fin text _ _ _ H2) as (e' & w' & Ef & T & H). exists None, e', w'. split; [exact Ef|]. split; [exact Np|]. split; [exact T|]. split.
    - destruct H as [H3 H4 H5 H6 H7 H8]. repeat split; try tauto; assumption.
    - intros _. apply done. exact H. }
  destruct (Z.eqb_spec (p_report p) 0) as [R1|R1]; cbn [negb]; [|apply Early; intros X; apply R1, X].
  destruct (Z.eqb_spec (p_report_end p) 0) as [R2|R2]; cbn [negb]; [|apply Early; intros X; apply R2, X].
  destruct (Z.eqb_spec (p_seize p) 0) as [R3|R3]; cbn [negb]; [|apply Early; intros X; apply R3, X].
  clear Early. cbn [fds elfs dwfls blocks seized fresh].
  assert (Late : forall text w3 F, ~ preparable p w tid -> (F = fds w \/ Permutation (fds w) (0%Z :: F)) ->
    is w3 F (elfs w) ((d, None) :: dwfls w) (b :: blocks w) (tid :: seized w) (fresh w) -> exists r e' w', fail text w3 = Ok (r, e', w') /\
    match r with
    | Some (b, d') => exists d l, d' = Some d /\ preparable p w tid /\ untold e e' /\ Permutation (fds w) (0%Z :: l) /\
        is w' l (elfs w) ((d, None) :: dwfls w) (b :: blocks w) (tid :: seized w) (fresh w)
    | None => ~ preparable p w tid /\ told e e' /\ kept_but_traced w w' tid (message_blocks e') /\
        (p_report p <> 0%Z \/ p_report_end p <> 0%Z \/ p_seize p <> 0%Z -> kept w w' (message_blocks e'))
    end).
  { intros text w3 F Np HF H3. destruct (Fin text _ _ _ H3) as (e' & w' & Ef & T & H). exists None, e', w'. split; [exact Ef|]. split; [exact Np|]. split; [exact T|]. split.
    - destruct H as [I1 I2 I3 I4 I5 I6]. rewrite <- I1 in HF. repeat split; try tauto; assumption.
    - intuition congruence. }
  destruct H2 as [I1 I2 I3 I4 I5 I6]. rewrite I1. destruct (without Z.eqb 0%Z (fds w)) as [l|] eqn:El.
  2:{ apply (Late _ _ (fds w)); [|left; reflexivity|constructor; cbn; congruence || assumption]. intros (_ & _ & _ & X & _). exact (without_none _ _ El X). }
  pose proof (without_split _ _ _ El) as Pl. assert (H3 : is {| fds := l; elfs := elfs w2; dwfls := dwfls w2; blocks := blocks w2; seized := tid :: seized w2; fresh := fresh w2 |}
    l (elfs w) ((d, None) :: dwfls w) (b :: blocks w) (tid :: seized w) (fresh w)) by (constructor; cbn; congruence || assumption).
  destruct (p_wait p) as [got status] eqn:Ew. destruct (Z.eqb_spec got (-1)) as [G|G].
  { apply (Late _ _ l); [|right; exact Pl|exact H3]. intros (_ & _ & _ & _ & X & Y & _). rewrite Ew in Y. cbn in Y. congruence. }
  destruct (Z.eqb_spec got tid) as [G'|G']; cbn [negb].
  2:{ apply (Late _ _ l); [|right; exact Pl|exact H3]. intros (_ & _ & _ & _ & X & Y & _). rewrite Ew in Y. cbn in Y. congruence. }
  destruct (wifstopped status) eqn:Wi; cbn [negb].
  2:{ apply (Late _ _ l); [|right; exact Pl|exact H3]. intros (_ & _ & _ & _ & X & Y & n & Z1 & Z2). rewrite Ew in Z1. cbn in Z1. subst n. subst status. discriminate. }
  destruct (at_exit status) eqn:At; cbn [negb].
  2:{ apply (Late _ _ l); [|right; exact Pl|exact H3]. intros (_ & _ & _ & _ & X & Y & n & Z1 & Z2). rewrite Ew in Z1. cbn in Z1. subst n. subst status. discriminate. }
  apply (status_iff _ Wi) in At. eexists (Some (b, Some d)), _, _. split; [reflexivity|]. exists d, l. split; [reflexivity|]. split; [|split; [apply untold_none|split; [exact Pl|exact H3]]].
  unfold preparable, dying. rewrite Ew. cbn [fst snd]. repeat split; try assumption; try congruence.
  - eapply Permutation_in; [symmetry; exact Pl|left; reflexivity].
  - exists 1541%Z. split; [exact At|reflexivity].
Qed.
Lemma prepare_ok p msg tid e w : sound w ->
  exists r e' w', hook_prepare dwfl_errmsg p msg tid e w = Ok (r, e', w') /\
    match r with
    | Some (b, d') => exists d, d' = Some d /\ preparable p w tid /\ untold e e' /\ prepared w w' tid b d
    | None => ~ preparable p w tid /\ told e e' /\ kept_but_traced w w' tid (message_blocks e') /\
        (p_report p <> 0%Z \/ p_report_end p <> 0%Z \/ p_seize p <> 0%Z -> kept w w' (message_blocks e'))
    end.
Proof.
  intros Sw. destruct (prepare_is p msg tid e w Sw) as (r & e' & w' & E & H). exists r, e', w'. split; [exact E|]. destruct r as [[b d']|]; [|exact H].
  destruct H as (d & l & -> & Pr & U & Pl & [I1 I2 I3 I4 I5 I6]). exists d. split; [reflexivity|]. split; [exact Pr|]. split; [exact U|]. rewrite <- I1 in Pl. repeat split; assumption.
Qed.
Lemma generate_is attach u exe signum b d e w F E D B S n : is w F E ((d, None) :: D) (b :: B) S n -> u_ret u <> 1%Z ->
  exists r e' w', hook_generate addrmodule cxa_demangle dwfl_errmsg attach u exe signum (b, Some d) e w = Ok (r, e', w') /\
    match r with
    | Some (m, s) => fst (sr_core_stacktrace_from_core_hook_generate addrmodule cxa_demangle attach u exe signum) = Ok s /\ holds m s /\
        (attach = true -> e' = e /\ is w' F E D (trace_blocks m ++ B) S n) /\ (attach = false -> told e e' /\ is w' F E D (message_blocks e' ++ trace_blocks m ++ B) S n)
    | None => fst (sr_core_stacktrace_from_core_hook_generate addrmodule cxa_demangle attach u exe signum) = Fail /\ told e e' /\ is w' F E D (message_blocks e' ++ B) S n
    end.
Proof.
  intros H Hu. unfold hook_generate, sr_core_stacktrace_from_core_hook_generate, unwind_state. destruct (malloc_is _ _ _ _ _ _ _ H) as (sb & w1 & E1 & H1). rewrite E1.
  destruct (malloc_is _ _ _ _ _ _ _ H1) as (tb & w2 & E2 & H2). rewrite E2. destruct attach; cbn [negb].
  - destruct (getframes_is addrmodule cxa_demangle dwfl_errmsg (u_frames u) (u_ret u) _ _ _ _ _ _ _ H2) as (fs & r & m & w3 & E3 & G & H3 & M1 & M2). rewrite E3. cbn [bind]. rewrite G.
    destruct ((r =? 0)%Z || (r =? 2)%Z) eqn:C.
    + assert (C' : negb (r =? 0)%Z && negb (r =? 2)%Z = false) by (destruct (r =? 0)%Z, (r =? 2)%Z; cbn in *; congruence). rewrite C'.
      assert (Em : m = None). { destruct m as [y|]; [|reflexivity]. rewrite (M1 ltac:(discriminate)) in C. discriminate. } subst m. cbn [note_blocks app] in H3.
      destruct (truncate_is fs (length fs) _ _ _ _ _ _ _ H3) as (fs' & w4 & E4 & T & H4). rewrite E4. cbn [bind].
      assert (X : exists x w5, match exe with Some _ => let '(x, w) := malloc w4 in (Some x, w) | None => (None, w4) end = (x, w5) /\ (x <> None <-> exe <> None) /\
        is w5 F E ((d, None) :: D) (opt_block x ++ map fst fs' ++ tb :: sb :: b :: B) S n).
      { destruct exe as [x|].
        - destruct (malloc_is _ _ _ _ _ _ _ H4) as (xb & w5 & E5 & H5). rewrite E5. exists (Some xb), w5. split; [reflexivity|]. split; [split; discriminate|exact H5].
        - exists None, w4. split; [reflexivity|]. split; [tauto|exact H4]. }
      destruct X as (x & w5 & E5 & Hx & H5). rewrite E5.
      apply is_perm with (B' := b :: trace_blocks (sb, x, [(tb, fs')]) ++ B) in H5.
      2:{ unfold trace_blocks, thread_blocks. cbn [map concat fst snd app]. rewrite app_nil_r, <- app_assoc. cbn [app]. symmetry.
          transitivity (opt_block x ++ b :: sb :: (tb :: map fst fs') ++ B); [|apply Permutation_app_head; cbn [app]].
          - rewrite perm_swap. transitivity (sb :: opt_block x ++ b :: (tb :: map fst fs') ++ B).
            + constructor. apply Permutation_middle.
            + rewrite Permutation_middle. apply Permutation_app_head. apply perm_swap.
          - rewrite perm_swap. transitivity (sb :: tb :: b :: map fst fs' ++ B); [constructor; apply perm_swap|]. rewrite perm_swap.
            rewrite Permutation_middle. rewrite Permutation_middle. rewrite Permutation_middle. reflexivity. }
      destruct (state_free_is _ _ _ _ _ _ _ _ _ H5) as (w6 & E6 & H6). rewrite E6. cbn [bind]. eexists (Some ((sb, x, [(tb, fs')]), _)), e, w6. split; [reflexivity|].
      split; [|split; [|split; [intros _; split; [reflexivity|exact H6]|discriminate]]].
      * cbn [fst]. do 4 f_equal. rewrite map_length. exact T.
      * cbn [holds cs_threads cs_executable map ct_frames snd]. split; [reflexivity|exact Hx].
    + assert (C' : negb (r =? 0)%Z && negb (r =? 2)%Z = true) by (destruct (r =? 0)%Z, (r =? 2)%Z; cbn in *; congruence). rewrite C'.
      assert (X : exists e4 w4, (if Z.eqb r (-1) then Ok (set_error e (dwfl_failed (L "dwfl_getthread_frames") dwfl_errmsg) w3)
                      else if Z.eqb r 1 then pass_error e m w3
                      else Ok (set_error e (L "Unknown error in dwfl_getthreads") w3)) = Ok (e4, w4) /\ told e e4 /\
        is w4 F E ((d, None) :: D) (message_blocks e4 ++ map fst fs ++ tb :: sb :: b :: B) S n).
      { destruct (Z.eq_dec r 1) as [R1|R1].
        - subst r. cbn [Z.eqb Pos.eqb]. apply pass_error_is; [apply M2; [exact Hu|reflexivity]|exact H3].
        - assert (Em : m = None) by (destruct m as [y|]; [exfalso; apply R1, M1; discriminate|reflexivity]). subst m. cbn [note_blocks app] in H3.
          destruct (Z.eqb_spec r (-1)); [|destruct (Z.eqb_spec r 1); [contradiction|]].
          + destruct (set_error_is _ _ _ _ _ _ _ e (dwfl_failed (L "dwfl_getthread_frames") dwfl_errmsg) H3) as (e4 & w4 & E4 & T & H4). rewrite E4. exists e4, w4. repeat split; assumption || apply H4.
          + destruct (set_error_is _ _ _ _ _ _ _ e (L "Unknown error in dwfl_getthreads") H3) as (e4 & w4 & E4 & T & H4). rewrite E4. exists e4, w4. repeat split; assumption || apply H4. }
      destruct X as (e4 & w4 & E4 & T & H4). rewrite E4. cbn [bind].
      apply is_perm with (B' := concat (map thread_blocks [(tb, fs)]) ++ sb :: b :: message_blocks e4 ++ B) in H4.
      2:{ unfold thread_blocks. cbn [map concat fst snd app]. rewrite app_nil_r. rewrite <- !Permutation_middle. transitivity (tb :: sb :: b :: message_blocks e4 ++ map fst fs ++ B).
          - reflexivity.
          - do 3 constructor. rewrite !app_assoc. apply Permutation_app_tail, Permutation_app_comm. }
      destruct (threads_free_is _ _ _ _ _ _ _ _ H4) as (w5 & E5 & H5). rewrite E5. cbn [bind]. destruct (free_is _ _ _ _ _ _ _ _ H5) as (w6 & E6 & H6). rewrite E6. cbn [bind].
      destruct (state_free_is _ _ _ _ _ _ _ _ _ H6) as (w7 & E7 & H7). rewrite E7. cbn [bind]. exists None, e4, w7. split; [reflexivity|]. split; [reflexivity|]. split; assumption.
  - destruct (set_error_is _ _ _ _ _ _ _ e (dwfl_failed (L "dwfl_linux_proc_attach") dwfl_errmsg) H2) as (e3 & w3 & E3 & T & H3). rewrite E3.
    apply is_perm with (B' := b :: message_blocks e3 ++ [sb; tb] ++ B) in H3.
    2:{ cbn [app]. rewrite <- !Permutation_middle. transitivity (b :: tb :: sb :: message_blocks e3 ++ B); [|constructor; apply perm_swap].
        transitivity (tb :: b :: sb :: message_blocks e3 ++ B); [constructor; apply perm_swap|apply perm_swap]. }
    destruct (state_free_is _ _ _ _ _ _ _ _ _ H3) as (w4 & E4 & H4). rewrite E4. cbn [bind]. eexists (Some ((sb, None, [(tb, [])]), _)), e3, w4. split; [reflexivity|].
    split; [reflexivity|]. split; [split; [reflexivity|tauto]|]. split; [discriminate|]. intros _. split; [exact T|exact H4].
Qed.
Lemma hook_ok p msg attach u tid exe signum e w : sound w -> u_ret u <> 1%Z ->
  exists r e' w', core_hook addrmodule cxa_demangle dwfl_errmsg p msg attach u tid exe signum e w = Ok (r, e', w') /\
    match r with
    | Some (m, s) => preparable p w tid /\ fst (sr_core_stacktrace_from_core_hook_generate addrmodule cxa_demangle attach u exe signum) = Ok s /\ holds m s /\
        (attach = true -> untold e e') /\ (attach = false -> told e e') /\ kept_but_traced w w' tid (message_blocks e' ++ trace_blocks m)
    | None => (preparable p w tid -> fst (sr_core_stacktrace_from_core_hook_generate addrmodule cxa_demangle attach u exe signum) = Fail) /\ told e e' /\
        kept_but_traced w w' tid (message_blocks e')
    end.
Proof.
  intros Sw Hu. unfold core_hook. destruct (prepare_is p msg tid e w Sw) as (r & e1 & w1 & E1 & H1). rewrite E1. cbn [bind]. destruct r as [[b d']|].
  - destruct H1 as (d & l & -> & Pr & U & Pl & H1). destruct (generate_is attach u exe signum b d e1 w1 _ _ _ _ _ _ H1 Hu) as (r & e2 & w2 & E2 & H2). rewrite E2.
    exists r, e2, w2. split; [reflexivity|]. assert (Te : told e1 e2 -> told e e2) by (destruct e; cbn in U; subst e1; exact (fun x => x)). destruct r as [[m s]|].
    + destruct H2 as (G & Ho & A1 & A2). split; [exact Pr|]. split; [exact G|]. split; [exact Ho|]. destruct attach.
      * destruct (A1 eq_refl) as [-> [I1 I2 I3 I4 I5 I6]]. split; [intros _; exact U|]. split; [discriminate|]. rewrite <- I1 in Pl.
        assert (Em : message_blocks e1 = []) by (destruct e; cbn in U; subst e1; reflexivity). rewrite Em. repeat split; try tauto; assumption.
      * destruct (A2 eq_refl) as [T [I1 I2 I3 I4 I5 I6]]. split; [discriminate|]. split; [intros _; exact (Te T)|]. rewrite <- I1 in Pl. rewrite app_assoc in I4. repeat split; try tauto; assumption.
    + destruct H2 as (G & T & [I1 I2 I3 I4 I5 I6]). split; [intros _; exact G|]. split; [exact (Te T)|]. rewrite <- I1 in Pl. repeat split; try tauto; assumption.
  - destruct H1 as (Np & T & K & _). exists None, e1, w1. split; [reflexivity|]. split; [intros X; contradiction|]. split; assumption.
Qed.
End Process.

(** ** gdb and libunwind *)
Lemma make_is make w F E D B S n : only_allocates make -> is w F E D B S n -> exists l w', make w = (l, w') /\ is w' F E D (l ++ B) S n.
Proof.
  intros Hm [I1 I2 I3 I4 I5 I6]. specialize (Hm w). destruct (make w) as [l w']. destruct Hm as (K1 & K2 & K3 & K4 & K5 & K6). exists l, w'. split; [reflexivity|].
  constructor; try congruence; [|lia]. rewrite K5. apply Permutation_app_head. exact I4.
Qed.
Lemma gdb_ok {A} a f (parse : core_handle -> A + str) make e w : sound w -> new_file w (o_open a) -> o_open a <> 0%Z -> (forall x, only_allocates (make x)) -> e <> None ->
  exists r e' w', from_gdb_in a f parse make e w = Ok (r, e', w') /\
    match r with
    | Some (x, l) => openable a /\ untold e e' /\ kept w w' l /\ exists ch, ch_fd ch = o_open a /\ parse ch = inl x
    | None => told e e' /\ exists leaked, kept w w' (message_blocks e' ++ leaked) /\ (o_getmodules a <> (-1)%Z -> leaked = [])
    end.
Proof.
  intros Sw Nf N0 Hm He. destruct e as [e0|]; [|contradiction]. unfold from_gdb_in. cbn [no_error].
  destruct (open_is a f (Some None) w Sw (or_intror eq_refl) Nf) as (r & e1 & w1 & E1 & H1). rewrite E1. cbn [bind]. destruct r as [ch|].
  2:{ destruct H1 as (No & (b & t & ->) & leaked & K & Lk). exists None, (Some (Some (b, t))), w1. split; [reflexivity|]. split; [eexists _, _; reflexivity|]. exists leaked. split; assumption. }
  destruct H1 as (Op & -> & Hf & _ & eh & dw & Eh & Ed & Ne & H1). pose proof Op as (_ & Ho & _).
  assert (N : ~ In (ch_fd ch) (fds w)) by (rewrite Hf; destruct Nf as [Nf|Nf]; [lia|exact Nf]). rewrite <- Hf in H1, Ho, N0.
  assert (Rel : forall w2 B, is w2 (ch_fd ch :: fds w) ((eh, ch_fd ch) :: elfs w) ((dw, Some eh) :: dwfls w) (B ++ handle_blocks ch ++ blocks w) (seized w) (fresh w) ->
    exists w3, core_handle_free (Some ch) w2 = Ok w3 /\ kept w w3 B).
  { intros w2 B H. apply is_perm with (B' := handle_blocks ch ++ B ++ blocks w) in H; [|rewrite !app_assoc; apply Permutation_app_tail, Permutation_app_comm].
    destruct (handle_free_is _ _ _ _ _ _ _ _ _ _ Eh Ed Ne (sound_dwfl _ Sw) (sound_elf _ _ Sw N) H Ho) as (w3 & E3 & H3). exists w3. split; [exact E3|].
    destruct (Z.ltb_spec 0 (ch_fd ch)); [|lia]. apply done. exact H3. }
  destruct (parse ch) as [x|text] eqn:Ep.
  - destruct (make_is _ _ _ _ _ _ _ _ (Hm x) H1) as (l & w2 & E2 & H2). rewrite E2. destruct (Rel _ _ H2) as (w3 & E3 & K3). rewrite E3. cbn [bind]. exists (Some (x, l)), (Some None), w3.
    split; [reflexivity|]. split; [exact Op|]. split; [reflexivity|]. split; [exact K3|]. exists ch. split; [exact Hf|exact Ep].
  - destruct (set_error_is _ _ _ _ _ _ _ (Some None) text H1) as (e2 & w2 & E2 & T & H2). rewrite E2. destruct (Rel _ _ H2) as (w3 & E3 & K3). rewrite E3. cbn [bind]. exists None, e2, w3.
    split; [reflexivity|]. split; [exact T|]. exists []. split; [rewrite app_nil_r; exact K3|reflexivity].
Qed.
Lemma lu_ok {A} a f space accessors (threads : core_handle -> A) make e w : sound w -> new_file w (o_open a) -> o_open a <> 0%Z -> (forall x, only_allocates (make x)) -> e <> None ->
  exists r e' w', lu_parse_in a f space accessors threads make e w = Ok (r, e', w') /\
    match r with
    | Some (x, l) => openable a /\ untold e e' /\ kept w w' l
    | None => told e e' /\ exists leaked, kept w w' (message_blocks e' ++ leaked) /\ (o_getmodules a <> (-1)%Z -> leaked = [])
    end.
Proof.
  intros Sw Nf N0 Hm He. destruct e as [e0|]; [|contradiction]. unfold lu_parse_in. cbn [no_error].
  destruct (open_is a f (Some None) w Sw (or_intror eq_refl) Nf) as (r & e1 & w1 & E1 & H1). rewrite E1. cbn [bind]. destruct r as [ch|].
  2:{ destruct H1 as (No & (b & t & ->) & leaked & K & Lk). exists None, (Some (Some (b, t))), w1. split; [reflexivity|]. split; [eexists _, _; reflexivity|]. exists leaked. split; assumption. }
  destruct H1 as (Op & -> & Hf & _ & eh & dw & Eh & Ed & Ne & H1). pose proof Op as (_ & Ho & _).
  assert (N : ~ In (ch_fd ch) (fds w)) by (rewrite Hf; destruct Nf as [Nf|Nf]; [lia|exact Nf]). rewrite <- Hf in H1, Ho, N0.
  assert (Rel : forall w2 B, is w2 (ch_fd ch :: fds w) ((eh, ch_fd ch) :: elfs w) ((dw, Some eh) :: dwfls w) (B ++ handle_blocks ch ++ blocks w) (seized w) (fresh w) ->
    exists w3, core_handle_free (Some ch) w2 = Ok w3 /\ kept w w3 B).
  { intros w2 B H. apply is_perm with (B' := handle_blocks ch ++ B ++ blocks w) in H; [|rewrite !app_assoc; apply Permutation_app_tail, Permutation_app_comm].
    destruct (handle_free_is _ _ _ _ _ _ _ _ _ _ Eh Ed Ne (sound_dwfl _ Sw) (sound_elf _ _ Sw N) H Ho) as (w3 & E3 & H3). exists w3. split; [exact E3|].
    destruct (Z.ltb_spec 0 (ch_fd ch)); [|lia]. apply done. exact H3. }
  destruct space; cbn [negb].
  2:{ destruct (set_error_is _ _ _ _ _ _ _ (Some None) (L "Failed to create address space") H1) as (e2 & w2 & E2 & T & H2). rewrite E2. destruct (Rel _ _ H2) as (w3 & E3 & K3). rewrite E3. cbn [bind].
      exists None, e2, w3. split; [reflexivity|]. split; [exact T|]. exists []. split; [rewrite app_nil_r; exact K3|reflexivity]. }
  destruct (malloc_is _ _ _ _ _ _ _ H1) as (as_ & w2 & E2 & H2). rewrite E2. destruct accessors; cbn [negb].
  2:{ destruct (set_error_is _ _ _ _ _ _ _ (Some None) (L "Failed to set up core dump accessors for '" ++ f ++ L "'") H2) as (e3 & w3 & E3 & T & H3). rewrite E3.
      destruct (free_in _ _ _ _ _ _ _ _ _ _ H3 eq_refl) as (w4 & E4 & H4). rewrite E4. cbn [bind]. destruct (Rel _ _ H4) as (w5 & E5 & K5). rewrite E5. cbn [bind].
      exists None, e3, w5. split; [reflexivity|]. split; [exact T|]. exists []. split; [rewrite app_nil_r; exact K5|reflexivity]. }
  destruct (malloc_is _ _ _ _ _ _ _ H2) as (ui & w3 & E3 & H3). rewrite E3. destruct (make_is _ _ _ _ _ _ _ _ (Hm (threads ch)) H3) as (l & w4 & E4 & H4). rewrite E4.
  destruct (free_in _ _ _ _ _ _ _ _ _ _ H4 eq_refl) as (w5 & E5 & H5). rewrite E5. cbn [bind]. destruct (free_in _ _ _ _ _ _ _ _ _ _ H5 eq_refl) as (w6 & E6 & H6). rewrite E6. cbn [bind].
  destruct (Rel _ _ H6) as (w7 & E7 & K7). rewrite E7. cbn [bind]. exists (Some (threads ch, l)), (Some None), w7. split; [reflexivity|]. split; [exact Op|]. split; [reflexivity|exact K7].
Qed.

(** ** One after the other *)
Lemma kept_sound w w' new : sound w -> kept w w' new -> sound w'.
Proof.
  intros [S1 S2] (K1 & K2 & K3 & K4 & K5 & K6). split.
  - rewrite K2. eapply Forall_impl; [|exact S1]. intros x [X Y]. rewrite K1. split; [lia|exact Y].
  - rewrite K3. eapply Forall_impl; [|exact S2]. intros [x [y|]] [X Y]; cbn in *; split; lia || exact I.
Qed.
Lemma many_ok addrmodule cxa_demangle dwfl_errmsg : forall l w, sound w ->
  Forall (fun '(a, d, f, exe) => new_file w (o_open a) /\ o_open a <> 0%Z /\ honest d) l ->
  exists rs w' new, one_after_the_other addrmodule cxa_demangle dwfl_errmsg l w = Ok (rs, w') /\ length rs = length l /\ kept w w' new /\
    (Forall (fun '(a, d, f, exe) => o_getmodules a <> (-1)%Z) l ->
     Permutation new (concat (map (fun '(r, e) => match r with Some (m, _) => trace_blocks m | None => message_blocks e end) rs))).
Proof.
  induction l as [|[[[a d] f] exe] l IH]; intros w Sw Hl; cbn [one_after_the_other].
  - exists [], w, []. split; [reflexivity|]. split; [reflexivity|]. split; [repeat split; reflexivity|]. intros _. reflexivity.
  - inversion Hl as [|x y Hh Hl']; subst; destruct Hh as (Nf & N0 & Ho). destruct (parse_ok addrmodule cxa_demangle dwfl_errmsg a d f exe (Some None) w Sw Nf N0 Ho) as (r & e & w1 & E1 & H1). rewrite E1. cbn [bind].
    assert (X : exists new, kept w w1 new /\ (o_getmodules a <> (-1)%Z -> new = match r with Some (m, _) => trace_blocks m | None => message_blocks e end)).
    { destruct r as [[m s]|].
      - destruct H1 as (_ & _ & _ & _ & K). eexists. split; [exact K|reflexivity].
      - destruct H1 as (_ & _ & leaked & K & Lk). eexists. split; [exact K|]. intros G. rewrite (Lk G). apply app_nil_r. }
    destruct X as (new & K & Hn). assert (Hl1 : Forall (fun '(a, d, f, exe) => new_file w1 (o_open a) /\ o_open a <> 0%Z /\ honest d) l).
    { eapply Forall_impl; [|exact Hl']. intros [[[a' d'] f'] exe'] (Z1 & Z2). split; [|exact Z2]. unfold new_file in *. destruct K as (K & _). rewrite K. exact Z1. }
    destruct (IH w1 (kept_sound _ _ _ Sw K) Hl1) as (rs & w2 & new2 & E2 & Ln & K2 & Hn2). rewrite E2. cbn [bind]. exists ((r, e) :: rs), w2, (new2 ++ new). split; [reflexivity|].
    split; [cbn; congruence|]. split.
    + destruct K as (I1 & I2 & I3 & I4 & I5 & I6), K2 as (J1 & J2 & J3 & J4 & J5 & J6). repeat split; try congruence; [|lia]. rewrite J5, I5. rewrite app_assoc. reflexivity.
    + intros G. inversion G as [|x y G1 G2]; subst. cbn [map concat]. rewrite <- (Hn G1), <- (Hn2 G2). apply Permutation_app_comm.
Qed.
Lemma lu_null {A} a f space accessors (threads : core_handle -> A) make w : sound w -> new_file w (o_open a) -> lu_parse_in a f space accessors threads make None w = UB.
Proof.
  intros Sw Nf. unfold lu_parse_in. cbn [no_error]. destruct (open_is a f None w Sw (or_introl eq_refl) Nf) as (r & e1 & w1 & E1 & H1). rewrite E1. cbn [bind].
  assert (X : e1 = None) by (destruct r; [apply H1|destruct H1 as (_ & T & _); exact T]). rewrite X. reflexivity.
Qed.
