(** * Proofs about UnwindResModel.v *)
From Verif Require Import Base Types UtilsModel UtilsProofs UnwindModel UnwindResModel UnwindResSpec.
Open Scope nat_scope.

(** ** The operations *)
Record is (w : world) (F : list Z) (E : list (nat * Z)) (D : list (nat * option nat)) (B : list nat) (S : list Z) (n : nat) : Prop := {
  is_fds : fds w = F; is_elfs : elfs w = E; is_dwfls : dwfls w = D; is_blocks : Permutation (blocks w) B; is_seized : seized w = S; is_fresh : n <= fresh w }.
Lemma is_self w : is w (fds w) (elfs w) (dwfls w) (blocks w) (seized w) (fresh w).
Proof. constructor; reflexivity. Qed.
Lemma is_perm w F E D B B' S n : Permutation B B' -> is w F E D B S n -> is w F E D B' S n.
Proof. intros P [H1 H2 H3 H4 H5 H6]. constructor; try assumption. transitivity B; assumption. Qed.
Lemma malloc_is w F E D B S n : is w F E D B S n -> exists b w', malloc w = (b, w') /\ is w' F E D (b :: B) S n.
Proof. intros [H1 H2 H3 H4 H5 H6]. eexists _, _. split; [reflexivity|]. constructor; cbn; try assumption; [constructor; assumption|lia]. Qed.
Lemma without_perm {A} (eqb : A -> A -> bool) (Heq : forall x y, eqb x y = true <-> x = y) x : forall l B, Permutation l (x :: B) -> exists r, without eqb x l = Some r /\ Permutation r B.
Proof.
  induction l as [|y l IH]; intros B P.
  - apply Permutation_nil in P. discriminate.
  - cbn [without]. destruct (eqb x y) eqn:E.
    + apply Heq in E. subst y. apply Permutation_cons_inv in P. exists l. tauto.
    + assert (Hy : In y (x :: B)) by (eapply Permutation_in; [exact P|left; reflexivity]). destruct Hy as [-> |Hy]; [rewrite (proj2 (Heq y y) eq_refl) in E; discriminate|].
      destruct (in_split _ _ Hy) as (B1 & B2 & ->). assert (P' : Permutation l (x :: B1 ++ B2)).
      { apply Permutation_cons_inv with (a := y). rewrite P. change (x :: B1 ++ y :: B2) with ((x :: B1) ++ y :: B2). symmetry. apply (Permutation_middle (x :: B1) B2 y). }
      destruct (IH _ P') as (r & -> & Pr). exists (y :: r). split; [reflexivity|]. rewrite Pr. apply Permutation_middle.
Qed.
Lemma free_is w F E D B S n b : is w F E D (b :: B) S n -> exists w', free b w = Ok w' /\ is w' F E D B S n.
Proof.
  intros [H1 H2 H3 H4 H5 H6]. destruct (without_perm Nat.eqb Nat.eqb_eq b _ _ H4) as (r & Er & Pr). unfold free. rewrite Er. eexists. split; [reflexivity|]. constructor; assumption.
Qed.
Lemma free_in w F E D B B1 B2 S n b : is w F E D B S n -> B = B1 ++ b :: B2 -> exists w', free b w = Ok w' /\ is w' F E D (B1 ++ B2) S n.
Proof. intros H ->. apply free_is. apply is_perm with (2 := H). symmetry. apply Permutation_middle. Qed.
Lemma elf_begin_is w F E D B S n fd : is w F E D B S n -> exists e w', elf_begin fd w = (e, w') /\ n <= e /\ is w' F ((e, fd) :: E) D B S n.
Proof. intros [H1 H2 H3 H4 H5 H6]. eexists _, _. split; [reflexivity|]. split; [exact H6|]. constructor; cbn; try assumption; [f_equal; assumption|lia]. Qed.
Lemma dwfl_begin_is w F E D B S n : is w F E D B S n -> exists d w', dwfl_begin w = (d, w') /\ n <= d /\ is w' F E ((d, None) :: D) B S n.
Proof. intros [H1 H2 H3 H4 H5 H6]. eexists _, _. split; [reflexivity|]. split; [exact H6|]. constructor; cbn; try assumption; [f_equal; assumption|lia]. Qed.
Lemma opened_is w F E D B S n fd : is w F E D B S n -> is (opened fd w) (fd :: F) E D B S n.
Proof. intros [H1 H2 H3 H4 H5 H6]. constructor; cbn; try assumption. f_equal. assumption. Qed.
Definition dwfl_below (D : list (nat * option nat)) (n : nat) : Prop := Forall (fun x => fst x < n /\ match snd x with Some e => e < n | None => True end) D.
Lemma dwfl_uses_is w F E D B S n d e : is w F E ((d, None) :: D) B S n -> dwfl_below D n -> n <= d -> is (dwfl_uses d e w) F E ((d, Some e) :: D) B S n.
Proof.
  intros [H1 H2 H3 H4 H5 H6] HD Hd. constructor; cbn; try assumption. rewrite H3. cbn. rewrite Nat.eqb_refl. f_equal. clear - HD Hd.
  induction HD as [|x D [Hx _] _ IH]; [reflexivity|]. cbn. rewrite IH. destruct (Nat.eqb_spec (fst x) d); [lia|reflexivity].
Qed.
Lemma dwfl_end_is w F E D B S n d x : is w F E ((d, x) :: D) B S n -> exists w', dwfl_end d w = Ok w' /\ is w' F E D B S n.
Proof. intros [H1 H2 H3 H4 H5 H6]. unfold dwfl_end. rewrite H3. cbn. rewrite Nat.eqb_refl. eexists. split; [reflexivity|]. constructor; try assumption; reflexivity. Qed.
Lemma elf_end_is w F E D B S n e fd : is w F ((e, fd) :: E) D B S n -> dwfl_below D n -> n <= e -> exists w', elf_end e w = Ok w' /\ is w' F E D B S n.
Proof.
  intros [H1 H2 H3 H4 H5 H6] HD He. unfold elf_end. rewrite H3. assert (X : existsb (fun x => match snd x with Some y => Nat.eqb y e | None => false end) D = false).
  { clear - HD He. induction HD as [|x D [_ Hx] _ IH]; [reflexivity|]. cbn. rewrite IH. destruct (snd x) as [y|]; [|reflexivity]. destruct (Nat.eqb_spec y e); [lia|reflexivity]. }
  rewrite X, H2. cbn. rewrite Nat.eqb_refl. eexists. split; [reflexivity|]. constructor; try assumption; reflexivity.
Qed.
Lemma close_is w F E D B S n fd : is w (fd :: F) E D B S n -> Forall (fun x => snd x <> fd) E -> exists w', close fd w = Ok w' /\ is w' F E D B S n.
Proof.
  intros [H1 H2 H3 H4 H5 H6] HE. unfold close. rewrite H2. assert (X : existsb (fun x => Z.eqb (snd x) fd) E = false).
  { clear - HE. induction HE as [|x E Hx _ IH]; [reflexivity|]. cbn. rewrite IH. destruct (Z.eqb_spec (snd x) fd); [contradiction|reflexivity]. }
  rewrite X, H1. cbn. rewrite Z.eqb_refl. eexists. split; [reflexivity|]. constructor; try assumption; reflexivity.
Qed.
Lemma set_error_is w F E D B S n e text : is w F E D B S n -> exists e' w', set_error e text w = (e', w') /\ told e e' /\ is w' F E D (message_blocks e' ++ B) S n.
Proof.
  intros H. destruct e as [m|]; cbn.
  - destruct (malloc_is _ _ _ _ _ _ _ H) as (b & w' & E1 & H'). unfold malloc in E1. injection E1 as <- <-. eexists _, _. split; [reflexivity|]. split; [eexists _, _; reflexivity|exact H'].
  - eexists _, _. split; [reflexivity|]. split; [reflexivity|exact H].
Qed.
(* for the base world *)
Lemma sound_dwfl w : sound w -> dwfl_below (dwfls w) (fresh w). Proof. intros (_ & H). exact H. Qed.
Lemma sound_elf w fd : sound w -> ~ In fd (fds w) -> Forall (fun x => snd x <> fd) (elfs w).
Proof. intros (H & _) N. eapply Forall_impl; [|exact H]. intros x [_ Hx] E. apply N. rewrite <- E. exact Hx. Qed.

(** ** Opening *)
Lemma touch_is : forall ms w F E D B S n, is w F E D B S n ->
  exists l w', touch_modules ms w = (l, w') /\ is w' F E D (segment_blocks l ++ B) S n /\ mapped ms (map (fun s => (mp_start s, mp_file s)) l).
Proof.
  induction ms as [|m ms IH]; intros w F E D B S n H; cbn [touch_modules].
  - eexists [], w. split; [reflexivity|]. split; [exact H|constructor].
  - assert (Skip : ~ with_file m -> exists l w', touch_modules ms w = (l, w') /\ is w' F E D (segment_blocks l ++ B) S n /\ mapped (m :: ms) (map (fun s => (mp_start s, mp_file s)) l)).
    { intros N. destruct (IH _ _ _ _ _ _ _ H) as (l & w' & El & Hl & Ml). exists l, w'. split; [exact El|]. split; [exact Hl|constructor; assumption]. }
    destruct (sg_elf m) eqn:Em; [destruct (sg_file m) as [f|] eqn:Ef|].
    + destruct (malloc_is _ _ _ _ _ _ _ H) as (b & w1 & E1 & H1). rewrite E1. destruct (malloc_is _ _ _ _ _ _ _ H1) as (nm & w2 & E2 & H2). rewrite E2.
      destruct (IH _ _ _ _ _ _ _ H2) as (l & w' & El & Hl & Ml). rewrite El. eexists (mk_mapping b (sg_base m) nm f :: l), w'. split; [reflexivity|]. split; [|constructor; assumption].
      eapply is_perm; [|exact Hl]. unfold segment_blocks. cbn [map concat app mp_name mp_block]. rewrite <- Permutation_middle. constructor. rewrite <- Permutation_middle. constructor. reflexivity.
    + apply Skip. intros [_ N]. congruence.
    + apply Skip. intros [N _]. congruence.
Qed.
Lemma mapped_exists ms l : mapped ms l -> (l <> [] <-> Exists with_file ms).
Proof.
  induction 1 as [|m f ms l H1 H2 M IH|m ms l N M IH].
  - split; [contradiction|intros H; inversion H].
  - split; [intros _; left; split; [assumption|congruence]|discriminate].
  - rewrite IH. split; [intros H; right; exact H|]. intros H. inversion H; subst; [contradiction|assumption].
Qed.
Definition clean (e : errp) : Prop := e = None \/ e = Some None.
Section Fail.
Variables (w0 : world).
Hypothesis Sw : sound w0.
Variables (b : nat) (leak : list nat).
Local Notation base w F E D e' := (is w F E D (message_blocks e' ++ b :: leak ++ blocks w0) (seized w0) (fresh w0)).
Lemma done w B : is w (fds w0) (elfs w0) (dwfls w0) (B ++ blocks w0) (seized w0) (fresh w0) -> kept w0 w B.
Proof. intros [H1 H2 H3 H4 H5 H6]. repeat split; assumption. Qed.
Lemma fail_free_is w e' : base w (fds w0) (elfs w0) (dwfls w0) e' -> exists w', fail_free b e' w = Ok (None, e', w') /\ kept w0 w' (message_blocks e' ++ leak).
Proof.
  intros H. destruct (free_in _ _ _ _ _ _ _ _ _ _ H eq_refl) as (w' & E1 & H1). unfold fail_free. rewrite E1. cbn [bind]. exists w'. split; [reflexivity|]. apply done. rewrite <- app_assoc. exact H1.
Qed.
Lemma fail_close_is w fd e' : ~ In fd (fds w0) -> base w (fd :: fds w0) (elfs w0) (dwfls w0) e' -> exists w', fail_close b fd e' w = Ok (None, e', w') /\ kept w0 w' (message_blocks e' ++ leak).
Proof.
  intros N H. destruct (close_is _ _ _ _ _ _ _ _ H (sound_elf _ _ Sw N)) as (w' & E1 & H1). unfold fail_close. rewrite E1. cbn [bind]. exact (fail_free_is _ _ H1).
Qed.
Lemma fail_elf_is w fd eh e' : ~ In fd (fds w0) -> fresh w0 <= eh -> base w (fd :: fds w0) ((eh, fd) :: elfs w0) (dwfls w0) e' ->
  exists w', fail_elf b fd eh e' w = Ok (None, e', w') /\ kept w0 w' (message_blocks e' ++ leak).
Proof.
  intros N Ne H. destruct (elf_end_is _ _ _ _ _ _ _ _ _ H (sound_dwfl _ Sw) Ne) as (w' & E1 & H1). unfold fail_elf. rewrite E1. cbn [bind]. exact (fail_close_is _ _ _ N H1).
Qed.
Lemma fail_dwfl_is w fd eh d x e' : ~ In fd (fds w0) -> fresh w0 <= eh -> base w (fd :: fds w0) ((eh, fd) :: elfs w0) ((d, x) :: dwfls w0) e' ->
  exists w', fail_dwfl b fd eh d e' w = Ok (None, e', w') /\ kept w0 w' (message_blocks e' ++ leak).
Proof.
  intros N Ne H. destruct (dwfl_end_is _ _ _ _ _ _ _ _ _ H) as (w' & E1 & H1). unfold fail_dwfl. rewrite E1. cbn [bind]. exact (fail_elf_is _ _ _ _ N Ne H1).
Qed.
End Fail.


Lemma open_is a f e w : sound w -> clean e -> new_file w (o_open a) ->
  exists r e' w', open_coredump a f e w = Ok (r, e', w') /\
    match r with
    | Some ch => openable a /\ e' = e /\ ch_fd ch = o_open a /\ mapped (o_modules a) (map (fun s => (mp_start s, mp_file s)) (ch_segments ch)) /\
        exists eh d, ch_eh ch = Some eh /\ ch_dwfl ch = Some d /\ fresh w <= eh /\
          is w' (o_open a :: fds w) ((eh, o_open a) :: elfs w) ((d, Some eh) :: dwfls w) (handle_blocks ch ++ blocks w) (seized w) (fresh w)
    | None => ~ openable a /\ told e e' /\ exists leaked, kept w w' (message_blocks e' ++ leaked) /\ (o_getmodules a <> (-1)%Z -> leaked = [])
    end.
Proof.
  intros Sw Ce Nf. unfold open_coredump.
  destruct (malloc_is _ _ _ _ _ _ _ (is_self w)) as (b & w1 & E1 & H1). rewrite E1.
  assert (Fin : forall e' (x : res (option core_handle * errp * world)) leaked, ~ openable a -> told e e' -> (o_getmodules a <> (-1)%Z -> leaked = []) ->
    (exists w', x = Ok (None, e', w') /\ kept w w' (message_blocks e' ++ leaked)) ->
    exists r e' w', x = Ok (r, e', w') /\
    match r with
    | Some ch => openable a /\ e' = e /\ ch_fd ch = o_open a /\ mapped (o_modules a) (map (fun s => (mp_start s, mp_file s)) (ch_segments ch)) /\
        exists eh d, ch_eh ch = Some eh /\ ch_dwfl ch = Some d /\ fresh w <= eh /\
          is w' (o_open a :: fds w) ((eh, o_open a) :: elfs w) ((d, Some eh) :: dwfls w) (handle_blocks ch ++ blocks w) (seized w) (fresh w)
    | None => ~ openable a /\ told e e' /\ exists leaked, kept w w' (message_blocks e' ++ leaked) /\ (o_getmodules a <> (-1)%Z -> leaked = [])
    end).
  { intros e' x leaked No T Lk (w' & Ex & Kx). exists None, e', w'. split; [exact Ex|]. split; [exact No|]. split; [exact T|]. exists leaked. split; assumption. }
  destruct (o_version a) eqn:Ev; cbn [negb].
  2:{ destruct (set_error_is _ _ _ _ _ _ _ e (elf_failed (L "elf_version") f (o_elf_errmsg a)) H1) as (e' & w2 & E2 & T & H2). rewrite E2.
      apply (Fin e' _ []); [unfold openable; intuition congruence|exact T|reflexivity|]. apply fail_free_is. exact H2. }
  destruct (Z.ltb_spec (o_open a) 0) as [Ho|Ho].
  { destruct (set_error_is _ _ _ _ _ _ _ e (L "Unable to open '" ++ f ++ L "': " ++ o_strerror a) H1) as (e' & w2 & E2 & T & H2). rewrite E2.
    apply (Fin e' _ []); [unfold openable; intuition lia|exact T|reflexivity|]. apply fail_free_is. exact H2. }
  assert (N : ~ In (o_open a) (fds w)) by (destruct Nf as [Nf|Nf]; [lia|exact Nf]). cbv zeta.
  pose proof (opened_is _ _ _ _ _ _ _ (o_open a) H1) as H2.
  destruct (o_elf a) eqn:Ee; cbn [negb].
  2:{ destruct (set_error_is _ _ _ _ _ _ _ e (elf_failed (L "elf_begin") f (o_elf_errmsg a)) H2) as (e' & w3 & E3 & T & H3). rewrite E3.
      apply (Fin e' _ []); [unfold openable; intuition congruence|exact T|reflexivity|]. apply fail_close_is; [exact Sw|exact N|exact H3]. }
  destruct (elf_begin_is _ _ _ _ _ _ _ (o_open a) H2) as (eh & w3 & E3 & Ne & H3). rewrite E3.
  destruct (match o_type a with Some t => Z.eqb t 4 | None => false end) eqn:Et; cbn [negb].
  2:{ destruct (set_error_is _ _ _ _ _ _ _ e (L "File '" ++ f ++ L "' is not a coredump") H3) as (e' & w4 & E4 & T & H4). rewrite E4.
      apply (Fin e' _ []); [|exact T|reflexivity|].
      - intros (_ & _ & _ & Ot & _). rewrite Ot in Et. discriminate.
      - apply fail_elf_is; [exact Sw|exact N|exact Ne|exact H4]. }
  assert (Et' : o_type a = Some 4%Z) by (destruct (o_type a) as [t|]; [apply Z.eqb_eq in Et; congruence|discriminate]).
  destruct (dwfl_begin_is _ _ _ _ _ _ _ H3) as (d & w4 & E4 & Nd & H4). rewrite E4.
  pose proof (dwfl_uses_is _ _ _ _ _ _ _ _ eh H4 (sound_dwfl _ Sw) Nd) as H5.
  destruct (Z.eqb_spec (o_report a) (-1)) as [Er|Er].
  { destruct (set_error_is _ _ _ _ _ _ _ e (dwfl_failed (L "dwfl_core_file_report") (o_dwfl_errmsg a)) H5) as (e' & w6 & E6 & T & H6). rewrite E6.
    apply (Fin e' _ []); [unfold openable; intuition congruence|exact T|reflexivity|]. eapply fail_dwfl_is; [exact Sw|exact N|exact Ne|exact H6]. }
  destruct (Z.eqb_spec (o_report_end a) 0) as [Ed|Ed]; cbn [negb].
  2:{ destruct (set_error_is _ _ _ _ _ _ _ e (dwfl_failed (L "dwfl_report_end") (o_dwfl_errmsg a)) H5) as (e' & w6 & E6 & T & H6). rewrite E6.
    apply (Fin e' _ []); [unfold openable; intuition congruence|exact T|reflexivity|]. eapply fail_dwfl_is; [exact Sw|exact N|exact Ne|exact H6]. }
  destruct (touch_is (o_modules a) _ _ _ _ _ _ _ H5) as (head & w6 & E6 & H6 & M). rewrite E6.
  destruct (Z.eqb_spec (o_getmodules a) (-1)) as [Eg|Eg].
  { destruct (set_error_is _ _ _ _ _ _ _ e (dwfl_failed (L "dwfl_getmodules") (o_dwfl_errmsg a)) H6) as (e' & w7 & E7 & T & H7). rewrite E7.
    apply (Fin e' _ (segment_blocks head)); [unfold openable; intuition congruence|exact T|congruence|]. eapply fail_dwfl_is; [exact Sw|exact N|exact Ne|].
    eapply is_perm; [|exact H7]. apply Permutation_app_head. symmetry. apply Permutation_middle. }
  destruct head as [|s head].
  - assert (No : ~ openable a) by (intros (_ & _ & _ & _ & _ & _ & _ & X); apply (mapped_exists _ _ M) in X; contradiction).
    destruct Ce as [-> | ->].
    + apply (Fin None _ []); [exact No|reflexivity|reflexivity|]. eapply fail_dwfl_is; [exact Sw|exact N|exact Ne|exact H6].
    + destruct (set_error_is _ _ _ _ _ _ _ (Some None) (L "No segments found in coredump '" ++ f ++ L "'") H6) as (e' & w7 & E7 & T & H7). rewrite E7.
      apply (Fin e' _ []); [exact No|exact T|reflexivity|]. eapply fail_dwfl_is; [exact Sw|exact N|exact Ne|exact H7].
  - exists (Some (mk_handle b (o_open a) (Some eh) (Some d) (s :: head))), e, w6. split; [reflexivity|]. split; [|split; [reflexivity|]; split; [reflexivity|]; split; [exact M|]].
    + unfold openable. repeat split; try assumption. apply (mapped_exists _ _ M). discriminate.
    + exists eh, d. split; [reflexivity|]. split; [reflexivity|]. split; [exact Ne|]. eapply is_perm; [|exact H6]. unfold handle_blocks. cbn [ch_block ch_segments app]. symmetry. apply Permutation_middle.
Qed.
Lemma open_ok a f e w : sound w -> clean e -> new_file w (o_open a) ->
  exists r e' w', open_coredump a f e w = Ok (r, e', w') /\
    match r with
    | Some ch => openable a /\ e' = e /\ ch_fd ch = o_open a /\ is_open w w' ch /\ mapped (o_modules a) (map (fun s => (mp_start s, mp_file s)) (ch_segments ch))
    | None => ~ openable a /\ told e e' /\ exists leaked, kept w w' (message_blocks e' ++ leaked) /\ (o_getmodules a <> (-1)%Z -> leaked = [])
    end.
Proof.
  intros Sw Ce Nf. destruct (open_is a f e w Sw Ce Nf) as (r & e' & w' & E & H). exists r, e', w'. split; [exact E|]. destruct r as [ch|]; [|exact H].
  destruct H as (H1 & H2 & H3 & H4 & eh & d & Eh & Ed & _ & [I1 I2 I3 I4 I5 _]). split; [exact H1|]. split; [exact H2|]. split; [exact H3|]. split; [|exact H4].
  exists eh, d. rewrite H3. repeat split; assumption.
Qed.

(** ** Releasing *)
Lemma free_segments_is : forall l w F E D B S n, is w F E D (segment_blocks l ++ B) S n -> exists w', free_segments l w = Ok w' /\ is w' F E D B S n.
Proof.
  induction l as [|s l IH]; intros w F E D B S n H; cbn [free_segments].
  - exists w. split; [reflexivity|exact H].
  - unfold segment_blocks in H. cbn [map concat app] in H. destruct (free_is _ _ _ _ _ _ _ _ H) as (w1 & E1 & H1). rewrite E1. cbn [bind].
    destruct (free_is _ _ _ _ _ _ _ _ H1) as (w2 & E2 & H2). rewrite E2. cbn [bind]. exact (IH _ _ _ _ _ _ _ H2).
Qed.
Lemma handle_free_is w F E D B S n ch eh d : ch_eh ch = Some eh -> ch_dwfl ch = Some d -> n <= eh -> dwfl_below D n -> Forall (fun x => snd x <> ch_fd ch) E ->
  is w (ch_fd ch :: F) ((eh, ch_fd ch) :: E) ((d, Some eh) :: D) (handle_blocks ch ++ B) S n -> (0 <= ch_fd ch)%Z ->
  exists w', core_handle_free (Some ch) w = Ok w' /\ is w' (if (0 <? ch_fd ch)%Z then F else 0%Z :: F) E D B S n.
Proof.
  intros Ee Ed Ne HD HE H Hf. unfold core_handle_free. unfold handle_blocks in H. apply is_perm with (B' := segment_blocks (ch_segments ch) ++ ch_block ch :: B) in H; [|apply Permutation_middle].
  destruct (free_segments_is _ _ _ _ _ _ _ _ H) as (w1 & E1 & H1). rewrite E1. cbn [bind]. rewrite Ed. destruct (dwfl_end_is _ _ _ _ _ _ _ _ _ H1) as (w2 & E2 & H2). rewrite E2. cbn [bind].
  rewrite Ee. destruct (elf_end_is _ _ _ _ _ _ _ _ _ H2 HD Ne) as (w3 & E3 & H3). rewrite E3. cbn [bind]. destruct (Z.ltb_spec 0 (ch_fd ch)) as [L|L].
  - destruct (close_is _ _ _ _ _ _ _ _ H3 HE) as (w4 & E4 & H4). rewrite E4. cbn [bind]. exact (free_is _ _ _ _ _ _ _ _ H4).
  - cbn [bind]. assert (Z0 : ch_fd ch = 0%Z) by lia. rewrite Z0 in H3. exact (free_is _ _ _ _ _ _ _ _ H3).
Qed.
(* opening and releasing at once *)
Lemma open_free a f e w : sound w -> clean e -> new_file w (o_open a) -> o_open a <> 0%Z ->
  forall ch e' w', open_coredump a f e w = Ok (Some ch, e', w') -> exists w'', core_handle_free (Some ch) w' = Ok w'' /\ kept w w'' [].
Proof.
  intros Sw Ce Nf N0 ch e' w' Eo. destruct (open_is a f e w Sw Ce Nf) as (r & e1 & w1 & E1 & H). rewrite E1 in Eo. injection Eo as -> -> ->.
  destruct H as (Op & _ & Hf & _ & eh & d & Eh & Ed & Ne & H). destruct Op as (_ & Ho & _). assert (N : ~ In (o_open a) (fds w)) by (destruct Nf as [Nf|Nf]; [lia|exact Nf]).
  rewrite <- Hf in H, N, Ho, N0. destruct (handle_free_is _ _ _ _ _ _ _ _ _ _ Eh Ed Ne (sound_dwfl _ Sw) (sound_elf _ _ Sw N) H Ho) as (w2 & E2 & H2). exists w2. split; [exact E2|].
  destruct (Z.ltb_spec 0 (ch_fd ch)); [|lia]. apply done. exact H2.
Qed.
