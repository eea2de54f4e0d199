From Verif Require Import Base Types UtilsProofs CmpModel CmpSpec CmpProofs NormModel NormSpec NormProofs CrashModel CrashSpec.
From Coq Require Import QArith.
Close Scope Q_scope.
Open Scope nat_scope.

(** ** Searching *)
Lemma find_index_some {A} (p : A -> bool) l : forall i k, find_index p i l = Some k ->
  exists j t, k = i + j /\ nth_error l j = Some t /\ p t = true /\ forall j' u, j' < j -> nth_error l j' = Some u -> p u = false.
Proof.
  induction l as [|x l IH]; cbn; intros i k H; [discriminate|].
  destruct (p x) eqn:E.
  - injection H as <-. exists 0, x. repeat split; auto; try lia. all: intros; lia.
  - destruct (IH _ _ H) as (j & t & -> & N & P & Q). exists (S j), t. repeat split; auto; try lia.
    intros [|j'] u L N'; [injection N' as <-; exact E|]. apply (Q j'); auto; lia.
Qed.
Lemma find_index_none {A} (p : A -> bool) l : forall i, find_index p i l = None -> forall t, In t l -> p t = false.
Proof.
  induction l as [|x l IH]; cbn; intros i H t I; [contradiction|].
  destruct (p x) eqn:E; [discriminate|]. destruct I as [<-|I]; [exact E|]. eauto.
Qed.
Lemma find_index_first {A} (p : A -> bool) (P : A -> Prop) (R : forall x, p x = true <-> P x) l k :
  find_index p 0 l = Some k -> first P l k.
Proof.
  intros H. destruct (find_index_some _ _ _ _ H) as (j & t & -> & N & Q & M). exists t. repeat split; auto; [now apply R|].
  intros j' u L N' C. apply R in C. rewrite (M j' u L N') in C. discriminate.
Qed.
Lemma find_index_nowhere {A} (p : A -> bool) (P : A -> Prop) (R : forall x, p x = true <-> P x) l :
  find_index p 0 l = None -> nowhere P l.
Proof. intros H t I C. apply R in C. rewrite (find_index_none _ _ _ H t I) in C. discriminate. Qed.

Lemma find_exit_some {F} (exit : F -> bool) l : forall i r,
  (exists k, find_exit_frame exit i l r = Some k) <-> (exists k, r = Some k) \/ exists f, In f l /\ exit f = true.
Proof.
  induction l as [|x l IH]; cbn; intros i r.
  - split; [auto|]. intros [H|(f & [] & _)]. exact H.
  - rewrite IH. destruct (exit x) eqn:E.
    + split; [intros _|intros _; left; eauto]. right. exists x. auto.
    + split.
      * intros [H|(f & I & H)]; [auto|right; eauto].
      * intros [H|(f & [<-|I] & H)]; [auto|congruence|right; eauto].
Qed.
Lemma aborts_iff t : (match sr_glibc_thread_find_exit_frame t with Some _ => true | None => false end) = true <-> aborts t.
Proof.
  unfold sr_glibc_thread_find_exit_frame, aborts. pose proof (find_exit_some sr_gdb_is_exit_frame (gt_frames t) 0 None) as [H K].
  split.
  - destruct (find_exit_frame _ _ _ _); [|discriminate]. intros _. destruct H as [(k & E)|(f & I & E)]; [eauto|discriminate|].
    exists f. split; [exact I|]. now apply gdb_exit_iff.
  - intros (f & I & E). apply gdb_exit_iff in E. destruct K as (k & ->); [right; eauto|reflexivity].
Qed.
Lemma core_aborts_iff t : (match sr_core_thread_find_exit_frame t with Some _ => true | None => false end) = true <-> core_aborts t.
Proof.
  unfold sr_core_thread_find_exit_frame, core_aborts. pose proof (find_exit_some sr_core_thread_is_exit_frame (ct_frames t) 0 None) as [H K].
  split.
  - destruct (find_exit_frame _ _ _ _); [|discriminate]. intros _. destruct H as [(k & E)|(f & I & E)]; [eauto|discriminate|].
    exists f. split; [exact I|]. now apply core_exit_iff.
  - intros (f & I & E). apply core_exit_iff in E. destruct K as (k & ->); [right; eauto|reflexivity].
Qed.

(** ** The matching loop *)
Section Loop.
Variable (req : requirement) (name : str).
Let m (t : gdb_thread) : bool := same_name name t && abort_requirement_satisfied req t.

(* ONE_MATCHING and ABORT_FUNCTION *)
Lemma match_loop_one_some : req <> FIRST_MATCHING -> forall l i best k,
  match_loop req name i l best = Some k ->
  (exists t, best = Some (k, t) /\ forall u, In u l -> m u = false) \/
  (best = None /\ exists j t, k = i + j /\ nth_error l j = Some t /\ m t = true /\ forall j' u, nth_error l j' = Some u -> m u = true -> j' = j).
Proof.
  intros NF. induction l as [|x l IH]; cbn [match_loop]; intros i best k H.
  - destruct best as [[a b]|]; [|discriminate]. cbn in H. injection H as ->. left. exists b. split; auto. intros ? [].
  - fold (m x) in H. destruct (m x) eqn:E.
    + destruct best as [[a b]|].
      * destruct req; [discriminate|discriminate|congruence].
      * destruct (IH _ _ _ H) as [(t & Et & N)|(? & _)]; [|discriminate]. injection Et as <- <-.
        right. split; auto. exists 0, x. repeat split; auto.
        intros [|j'] u N' M; [reflexivity|]. cbn in N'. apply nth_error_In in N'. rewrite (N _ N') in M. discriminate.
    + destruct (IH _ _ _ H) as [(t & -> & N)|(-> & j & t & -> & N & M & U)].
      * left. exists t. split; auto. intros u [<-|I]; auto.
      * right. split; auto. exists (S j), t. repeat split; auto; [lia|].
        intros [|j'] u N' M'; cbn in N'; [injection N' as <-; congruence|]. f_equal. eapply U; eauto.
Qed.
Lemma match_loop_one_none : req <> FIRST_MATCHING -> forall l i best,
  match_loop req name i l best = None ->
  match best with
  | Some _ => exists u, In u l /\ m u = true
  | None => (forall u, In u l -> m u = false) \/
            exists j j' t u, j < j' /\ nth_error l j = Some t /\ nth_error l j' = Some u /\ m t = true /\ m u = true
  end.
Proof.
  intros NF. induction l as [|x l IH]; cbn [match_loop]; intros i best H.
  - destruct best as [[a b]|]; [discriminate|]. left. intros ? [].
  - fold (m x) in H. destruct (m x) eqn:E.
    + destruct best as [[a b]|]; [exists x; split; [left; auto|exact E]|].
      specialize (IH _ _ H). cbn in IH. destruct IH as (u & I & M). right.
      apply In_nth_error in I. destruct I as [j' N]. exists 0, (S j'), x, u. repeat split; auto. lia.
    + specialize (IH _ _ H). destruct best as [[a b]|].
      * destruct IH as (u & I & M). exists u. split; [right; auto|exact M].
      * destruct IH as [N|(j & j' & t & u & L & N & N' & M & M')].
        -- left. intros u [<-|I]; auto.
        -- right. exists (S j), (S j'), t, u. repeat split; auto. lia.
Qed.
End Loop.

Lemma match_first_some name : forall l i best,
  match_loop FIRST_MATCHING name i l best = None <->
  best = None /\ forall u, In u l -> same_name name u = false.
Proof.
  induction l as [|x l IH]; cbn [match_loop abort_requirement_satisfied]; intros i best.
  - destruct best as [[a b]|]; cbn; split; [discriminate|intros [? _]; discriminate|intros _; split; auto; intros ? []|auto].
  - rewrite andb_true_r. destruct (same_name name x) eqn:E.
    + assert (C : (best = None /\ forall u, In u (x :: l) -> same_name name u = false) <-> False).
      { split; [|tauto]. intros [_ H]. rewrite (H x) in E; [discriminate|left; auto]. }
      rewrite C. clear C.
      destruct best as [[a b]|]; [destruct (_ <? _)%Z|]; rewrite IH; split; try tauto; intros [? _]; discriminate.
    + rewrite IH. split; intros [-> H]; split; auto; [intros u [<-|I]; auto|intros u I; apply H; right; auto].
Qed.

Section First.
Variable (name : str) (ok : gdb_thread -> Prop) (eqv : gdb_thread -> gdb_thread -> Prop).
Hypothesis ord : orders ok eqv thread_cmp_dont_compare_number.
Let cmp := thread_cmp_dont_compare_number.
Lemma cmp_refl_neg t u : ok t -> ok u -> (cmp t u < 0 -> cmp u t > 0)%Z /\ (0 <= cmp t u -> cmp u t <= 0)%Z.
Proof. intros Ht Hu. destruct ord as (_ & S & _). specialize (S t u Ht Hu). unfold cmp. split; lia. Qed.
Lemma cmp_self t : ok t -> cmp t t = 0%Z.
Proof. intros H. destruct ord as (_ & S & _). specialize (S t t H H). unfold cmp in *. lia. Qed.
(* strictness carries over *)
Lemma cmp_lt_trans t u v : ok t -> ok u -> ok v -> (cmp t u < 0 -> cmp u v <= 0 -> cmp t v < 0)%Z.
Proof.
  intros Ht Hu Hv A B. destruct ord as (_ & S & T).
  pose proof (T t u v Ht Hu Hv) as T1. pose proof (T u v t Hu Hv Ht) as T2.
  pose proof (S t v Ht Hv) as S1. pose proof (S t u Ht Hu) as S2. unfold cmp in *. lia.
Qed.
Lemma cmp_le_trans t u v : ok t -> ok u -> ok v -> (cmp t u <= 0 -> cmp u v <= 0 -> cmp t v <= 0)%Z.
Proof. intros Ht Hu Hv. destruct ord as (_ & _ & T). now apply T. Qed.

Lemma match_loop_first_spec : forall l i best k,
  Forall ok l -> (match best with Some (_, b) => ok b | None => True end) ->
  match_loop FIRST_MATCHING name i l best = Some k ->
  match best with
  | Some (a, b) => (k = a /\ forall u, In u l -> same_name name u = true -> (cmp b u <= 0)%Z) \/
      (exists j t, k = i + j /\ nth_error l j = Some t /\ same_name name t = true /\ (cmp t b < 0)%Z /\
        forall j' u, nth_error l j' = Some u -> same_name name u = true -> (cmp t u <= 0)%Z /\ (j' < j -> (cmp t u < 0)%Z))
  | None => exists j t, k = i + j /\ nth_error l j = Some t /\ same_name name t = true /\
        forall j' u, nth_error l j' = Some u -> same_name name u = true -> (cmp t u <= 0)%Z /\ (j' < j -> (cmp t u < 0)%Z)
  end.
Proof.
  induction l as [|x l IH]; cbn [match_loop abort_requirement_satisfied]; intros i best k F B H.
  - destruct best as [[a b]|]; [|discriminate]. cbn in H. injection H as ->. left. split; auto. intros ? [].
  - inversion_clear F as [|? ? Hx Fl]. rewrite andb_true_r in H. 
    assert (UP : forall t j, nth_error l j = Some t -> ok t) by (intros t j N; apply (proj1 (Forall_forall _ _) Fl); eapply nth_error_In; eauto).
    destruct (same_name name x) eqn:E.
    + destruct best as [[a b]|].
      * fold cmp in H. destruct (Z.ltb_spec (cmp x b) 0) as [LT|GE].
        -- right. destruct (IH _ (Some (_, x)) _ Fl Hx H) as [(-> & K)|(j & t & -> & N & M & Lt & K)].
           ++ exists 0, x. repeat split; auto; try lia.
              ** destruct j' as [|j']; cbn in H0; [injection H0 as <-; rewrite cmp_self; auto; lia|]. apply K; auto. eapply nth_error_In; eauto.
           ++ exists (S j), t. repeat split; auto; try lia.
              ** apply (cmp_lt_trans t x b (UP _ _ N) Hx B Lt). lia.
              ** destruct j' as [|j']; cbn in H0; [injection H0 as <-; lia|]. eapply K; eauto.
              ** intros L. destruct j' as [|j']; cbn in H0; [injection H0 as <-; lia|]. eapply (proj2 (K _ _ H0 H1)). lia.
        -- assert (BX : (cmp b x <= 0)%Z) by (apply (proj2 (cmp_refl_neg x b Hx B)); lia).
           destruct (IH _ (Some (a, b)) _ Fl B H) as [(-> & K)|(j & t & -> & N & M & Lt & K)].
           ++ left. split; auto. intros u [<-|I] M; auto.
           ++ right. exists (S j), t. repeat split; auto; try lia.
              ** destruct j' as [|j']; cbn in H0; [injection H0 as <-|eapply K; eauto].
                 pose proof (cmp_lt_trans t b x (UP _ _ N) B Hx Lt BX). lia.
              ** intros L. destruct j' as [|j']; cbn in H0; [injection H0 as <-; exact (cmp_lt_trans t b x (UP _ _ N) B Hx Lt BX)|]. eapply (proj2 (K _ _ H0 H1)). lia.
      * destruct (IH _ (Some (_, x)) _ Fl Hx H) as [(-> & K)|(j & t & -> & N & M & Lt & K)].
        -- exists 0, x. repeat split; auto; try lia.
           destruct j' as [|j']; cbn in H0; [injection H0 as <-; rewrite cmp_self; auto; lia|]. apply K; auto. eapply nth_error_In; eauto.
        -- exists (S j), t. repeat split; auto; try lia.
           ++ destruct j' as [|j']; cbn in H0; [injection H0 as <-; lia|]. eapply K; eauto.
           ++ intros L. destruct j' as [|j']; cbn in H0; [injection H0 as <-; lia|]. eapply (proj2 (K _ _ H0 H1)). lia.
    + specialize (IH _ _ _ Fl B H). destruct best as [[a b]|].
      * destruct IH as [(-> & K)|(j & t & -> & N & M & Lt & K)].
        -- left. split; auto. intros u [<-|I] M; [congruence|auto].
        -- right. exists (S j), t. repeat split; auto; try lia.
           ++ destruct j' as [|j']; cbn in H0; [injection H0 as <-; congruence|]. eapply K; eauto.
           ++ intros L. destruct j' as [|j']; cbn in H0; [injection H0 as <-; congruence|]. eapply (proj2 (K _ _ H0 H1)). lia.
      * destruct IH as (j & t & -> & N & M & K). exists (S j), t. repeat split; auto; try lia.
        -- destruct j' as [|j']; cbn in H0; [injection H0 as <-; congruence|]. eapply K; eauto.
        -- intros L. destruct j' as [|j']; cbn in H0; [injection H0 as <-; congruence|]. eapply (proj2 (K _ _ H0 H1)). lia.
Qed.
End First.

(** ** Crash thread of a gdb stacktrace *)
Definition small_frames (s : gdb_stacktrace) : Prop := Forall (fun t => Forall gdb_small (gt_frames t)) (gs_threads s).
Lemma same_name_iff s c n t : gs_crash s = Some c -> gf_function_name c = Some n ->
  (same_name n t = true <-> shows_crash s t).
Proof.
  intros C N. unfold same_name, shows_crash. destruct (gt_frames t) as [|f r].
  - split; [discriminate|]. intros (? & ? & ? & ? & _ & _ & E & _). discriminate.
  - destruct (gf_function_name f) as [m|] eqn:Ef.
    + rewrite Z.eqb_eq, strcmp_zero. split.
      * intros ->. exists c, n, f, r. auto.
      * intros (c' & n' & f' & r' & E1 & E2 & E3 & E4). injection E3 as <- <-. congruence.
    + split; [discriminate|]. intros (c' & n' & f' & r' & E1 & E2 & E3 & E4). injection E3 as <- <-. congruence.
Qed.
Lemma no_crash_name s : (gs_crash s = None \/ exists c, gs_crash s = Some c /\ gf_function_name c = None) -> forall t, ~ shows_crash s t.
Proof. intros [E|(c & E & N)] t (c' & n & f & r & C & K & _); congruence. Qed.

Definition matches (s : gdb_stacktrace) (req : requirement) (t : gdb_thread) : Prop :=
  shows_crash s t /\ (req = ABORT_FUNCTION -> aborts t).
Lemma matches_iff s c n req t : gs_crash s = Some c -> gf_function_name c = Some n ->
  (same_name n t && abort_requirement_satisfied req t = true <-> matches s req t).
Proof.
  intros C N. rewrite andb_true_iff, (same_name_iff s c n t C N). unfold matches.
  destruct req; cbn; rewrite ?aborts_iff; intuition discriminate.
Qed.
Lemma crash_name_cases s : (exists c n, gs_crash s = Some c /\ gf_function_name c = Some n) \/
  (gs_crash s = None \/ exists c, gs_crash s = Some c /\ gf_function_name c = None).
Proof. destruct (gs_crash s) as [c|]; [|auto]. destruct (gf_function_name c) as [n|] eqn:E; [left|right]; eauto. Qed.
Lemma from_frame_eq s c n req : gs_crash s = Some c -> gf_function_name c = Some n ->
  find_crash_thread_from_crash_frame s req = match_loop req n 0 (gs_threads s) None.
Proof. intros C N. unfold find_crash_thread_from_crash_frame. now rewrite C, N. Qed.
Lemma from_frame_none s req : (gs_crash s = None \/ exists c, gs_crash s = Some c /\ gf_function_name c = None) ->
  find_crash_thread_from_crash_frame s req = None.
Proof. intros [E|(c & E & N)]; unfold find_crash_thread_from_crash_frame; rewrite E; auto. now rewrite N. Qed.

Lemma one_some s req i : req <> FIRST_MATCHING -> find_crash_thread_from_crash_frame s req = Some i ->
  only (matches s req) (gs_threads s) i.
Proof.
  intros R H. destruct (crash_name_cases s) as [(c & n & C & N)|K]; [|rewrite (from_frame_none s req K) in H; discriminate].
  rewrite (from_frame_eq s c n req C N) in H. destruct (match_loop_one_some req n R _ _ _ _ H) as [(t & E & _)|(_ & j & t & -> & A & B & U)]; [discriminate|].
  exists t. split; [exact A|]. split; [now apply (matches_iff s c n req t C N)|].
  intros j' u Nu M. apply (U j' u Nu). now apply (matches_iff s c n req u C N).
Qed.
Lemma one_none s req : req <> FIRST_MATCHING -> find_crash_thread_from_crash_frame s req = None ->
  forall i, ~ only (matches s req) (gs_threads s) i.
Proof.
  intros R H i (t & A & B & U). destruct (crash_name_cases s) as [(c & n & C & N)|K].
  - rewrite (from_frame_eq s c n req C N) in H. destruct (match_loop_one_none req n R _ _ _ H) as [K|(j & j' & v & u & L & Nv & Nu & Mv & Mu)].
    + apply (matches_iff s c n req t C N) in B. rewrite K in B; [discriminate|]. eapply nth_error_In; eauto.
    + apply (matches_iff s c n req _ C N) in Mv, Mu. pose proof (U _ _ Nv Mv). pose proof (U _ _ Nu Mu). lia.
  - destruct B as [B _]. exact (no_crash_name s K t B).
Qed.
Lemma only_ext {A} (P Q : A -> Prop) l i : (forall x, P x <-> Q x) -> only P l i -> only Q l i.
Proof. intros E (t & N & Pt & U). exists t. split; [exact N|]. split; [now apply E|]. intros j u Nu Qu. apply (U j u Nu). now apply E. Qed.
Lemma matches_one s t : matches s ONE_MATCHING t <-> shows_crash s t.
Proof. unfold matches. intuition discriminate. Qed.
Lemma matches_abort s t : matches s ABORT_FUNCTION t <-> shows_crash s t /\ aborts t.
Proof. unfold matches. intuition. Qed.

Lemma by_frames_orders : exists eqv, orders (fun t => Forall gdb_small (gt_frames t)) eqv thread_cmp_dont_compare_number.
Proof. eexists. exact (orders_on gt_frames _ _ _ (orders_list _ _ _ (gdb_orders true))). Qed.
Lemma first_some s i : small_frames s -> find_crash_thread_from_crash_frame s FIRST_MATCHING = Some i ->
  least (shows_crash s) by_frames (gs_threads s) i.
Proof.
  intros F H. destruct (crash_name_cases s) as [(c & n & C & N)|K]; [|rewrite (from_frame_none s _ K) in H; discriminate].
  rewrite (from_frame_eq s c n _ C N) in H. destruct by_frames_orders as [eqv O].
  destruct (match_loop_first_spec n _ _ O _ _ None i F Logic.I H) as (j & t & -> & A & B & U).
  exists t. split; [exact A|]. split; [now apply (same_name_iff s c n t C N)|].
  intros j' u Nu M. apply (same_name_iff s c n u C N) in M. exact (U j' u Nu M).
Qed.
Lemma first_none s : find_crash_thread_from_crash_frame s FIRST_MATCHING = None -> nowhere (shows_crash s) (gs_threads s).
Proof.
  intros H t I S. destruct (crash_name_cases s) as [(c & n & C & N)|K]; [|exact (no_crash_name s K t S)].
  rewrite (from_frame_eq s c n _ C N) in H. apply match_first_some in H. destruct H as [_ H].
  apply (same_name_iff s c n t C N) in S. rewrite (H t I) in S. discriminate.
Qed.
(* whatever the numbers, a guess at least shows the crash frame *)
Lemma match_loop_sound req n : forall l i best k,
  match_loop req n i l best = Some k -> option_map fst best = Some k \/
  exists j t, k = i + j /\ nth_error l j = Some t /\ same_name n t = true.
Proof.
  induction l as [|x l IH]; cbn [match_loop]; intros i best k H; [auto|].
  assert (STEP : forall b, match_loop req n (S i) l b = Some k -> b = best \/ (b = Some (i, x) /\ same_name n x = true) ->
    option_map fst best = Some k \/ exists j t, k = i + j /\ nth_error (x :: l) j = Some t /\ same_name n t = true).
  { intros b Hb D. destruct (IH _ _ _ Hb) as [E|(j & t & -> & N & SN)].
    - destruct D as [->|[-> SN]]; [auto|]. cbn in E. injection E as <-. right. exists 0, x. repeat split; auto.
    - right. exists (S j), t. repeat split; auto. lia. }
  destruct (same_name n x && abort_requirement_satisfied req x) eqn:E.
  - apply andb_prop in E. destruct E as [E _].
    destruct best as [[a b]|]; [|eapply STEP; eauto].
    destruct req; try discriminate. destruct (_ <? _)%Z; eapply STEP; eauto.
  - eapply STEP; eauto.
Qed.
Lemma tid_iff s (t : gdb_thread) : (gt_tid t =? gs_crash_tid s)%Z = true <-> gt_tid t = gs_crash_tid s.
Proof. apply Z.eqb_eq. Qed.
Lemma gdb_find_ok s : small_frames s -> gdb_crash_thread s (sr_gdb_stacktrace_find_crash_thread s).
Proof.
  intros F. unfold sr_gdb_stacktrace_find_crash_thread.
  destruct (gs_threads s) as [|t1 [|t2 r]] eqn:T; [now constructor|eapply ct_single; eauto|].
  rewrite <- T. assert (LEN : 2 <= length (gs_threads s)) by (rewrite T; cbn; lia). clear T t1 t2 r.
  assert (MISS : (if (gs_crash_tid s =? uint32_max)%Z then None
             else find_index (fun t => (gt_tid t =? gs_crash_tid s)%Z) 0 (gs_threads s)) = None -> crash_tid_missing s).
  { destruct (Z.eqb_spec (gs_crash_tid s) uint32_max) as [E|E]; [left; exact E|]. intros H. right.
    exact (find_index_nowhere _ _ (tid_iff s) _ H). }
  destruct (if (gs_crash_tid s =? uint32_max)%Z then None else _) as [i|] eqn:E0; cbn [or_else].
  { destruct (Z.eqb_spec (gs_crash_tid s) uint32_max) as [E|E]; [discriminate|]. apply ct_tid; auto.
    exact (find_index_first _ _ (tid_iff s) _ _ E0). }
  specialize (MISS eq_refl). clear E0.
  destruct (find_crash_thread_from_crash_frame s ONE_MATCHING) as [i|] eqn:E1; cbn [or_else].
  { apply ct_unique; auto. eapply only_ext; [apply matches_one|]. apply one_some; [discriminate|exact E1]. }
  assert (N1 : forall j, ~ only (shows_crash s) (gs_threads s) j).
  { intros j O. eapply (one_none s ONE_MATCHING); [discriminate|exact E1|]. eapply only_ext; [|exact O]. intros x. now rewrite matches_one. }
  destruct (find_crash_thread_from_crash_frame s ABORT_FUNCTION) as [i|] eqn:E2; cbn [or_else].
  { apply ct_aborting; auto. eapply only_ext; [apply matches_abort|]. apply one_some; [discriminate|exact E2]. }
  assert (N2 : forall j, ~ only (fun t => shows_crash s t /\ aborts t) (gs_threads s) j).
  { intros j O. eapply (one_none s ABORT_FUNCTION); [discriminate|exact E2|]. eapply only_ext; [|exact O]. intros x. now rewrite matches_abort. }
  destruct (find_crash_thread_from_crash_frame s FIRST_MATCHING) as [i|] eqn:E3.
  - apply ct_guess; auto. now apply first_some.
  - apply ct_nothing; auto. now apply first_none.
Qed.
(* the priorities leave no choice *)
Lemma only_unique {A} (P : A -> Prop) l i j : only P l i -> only P l j -> i = j.
Proof. intros (t & N & Pt & U) (u & N' & Pu & U'). eapply U'; eauto. Qed.
Lemma first_unique {A} (P : A -> Prop) l i j : first P l i -> first P l j -> i = j.
Proof.
  intros (t & N & Pt & U) (u & N' & Pu & U'). destruct (Nat.lt_trichotomy i j) as [L|[E|L]]; auto.
  - destruct (U' _ _ L N Pt). - destruct (U _ _ L N' Pu).
Qed.
Lemma least_unique s i j : small_frames s ->
  least (shows_crash s) by_frames (gs_threads s) i -> least (shows_crash s) by_frames (gs_threads s) j -> i = j.
Proof.
  intros F (t & N & Pt & U) (u & N' & Pu & U'). destruct by_frames_orders as [eqv (_ & S & _)].
  assert (Ot : Forall gdb_small (gt_frames t)) by (unfold small_frames in F; rewrite Forall_forall in F; apply F; eapply nth_error_In; eauto).
  assert (Ou : Forall gdb_small (gt_frames u)) by (unfold small_frames in F; rewrite Forall_forall in F; apply F; eapply nth_error_In; eauto).
  pose proof (S t u Ot Ou) as X. change (thread_cmp_dont_compare_number) with by_frames in X.
  destruct (U _ _ N' Pu) as [A B], (U' _ _ N Pt) as [A' B'].
  destruct (Nat.lt_trichotomy i j) as [L|[E|L]]; auto; [specialize (B' L)|specialize (B L)]; lia.
Qed.
Lemma first_not_nowhere {A} (P : A -> Prop) l i : first P l i -> ~ nowhere P l.
Proof. intros (t & N & Pt & _) H. apply (H t); [eapply nth_error_In; eauto|exact Pt]. Qed.
Lemma only_not_nowhere {A} (P : A -> Prop) l i : only P l i -> ~ nowhere P l.
Proof. intros (t & N & Pt & _) H. apply (H t); [eapply nth_error_In; eauto|exact Pt]. Qed.
Lemma gdb_crash_unique s a b : small_frames s -> gdb_crash_thread s a -> gdb_crash_thread s b -> a = b.
Proof.
  intros F A B. assert (TID : forall i, gs_crash_tid s <> unknown_tid ->
    first (fun t => gt_tid t = gs_crash_tid s) (gs_threads s) i -> ~ crash_tid_missing s).
  { intros i N H [E|E]; [congruence|]. exact (first_not_nowhere _ _ _ H E). }
  assert (O2 : forall i, only (fun t => shows_crash s t /\ aborts t) (gs_threads s) i -> ~ nowhere (shows_crash s) (gs_threads s)).
  { intros i (t & N & [Pt _] & _) H. apply (H t); [eapply nth_error_In; eauto|exact Pt]. }
  assert (O3 : forall i, least (shows_crash s) by_frames (gs_threads s) i -> ~ nowhere (shows_crash s) (gs_threads s)).
  { intros i (t & N & Pt & _) H. apply (H t); [eapply nth_error_In; eauto|exact Pt]. }
  destruct A, B; auto;
  try match goal with H : gs_threads s = _, K : 2 <= length (gs_threads s) |- _ => rewrite H in K; cbn in K; lia end;
  try congruence;
  try match goal with H : first _ _ _, K : crash_tid_missing s |- _ => exfalso; eapply TID; eauto end;
  try match goal with H : only (shows_crash s) _ _, K : forall j, ~ only (shows_crash s) _ j |- _ => exfalso; eapply K; eauto end;
  try match goal with H : only (fun t => _ /\ _) _ _, K : forall j, ~ only (fun t => _ /\ _) _ j |- _ => exfalso; eapply K; eauto end;
  try match goal with H : nowhere _ _ |- _ => exfalso; first [eapply only_not_nowhere; eauto; fail | eapply O2; eauto; fail | eapply O3; eauto; fail] end;
  f_equal; first [eapply first_unique; eauto; fail | eapply only_unique; eauto; fail | eapply least_unique; eauto].
Qed.
Lemma gdb_find_member s i : sr_gdb_stacktrace_find_crash_thread s = Some i ->
  exists t, nth_error (gs_threads s) i = Some t /\
    (gs_threads s = [t] \/ gt_tid t = gs_crash_tid s /\ gs_crash_tid s <> unknown_tid \/ shows_crash s t).
Proof.
  unfold sr_gdb_stacktrace_find_crash_thread.
  destruct (gs_threads s) as [|t1 [|t2 r]] eqn:T; [discriminate|injection 1 as <-; exists t1; auto|].
  rewrite <- T in *. clear T t1 t2 r. intros H.
  destruct (if (gs_crash_tid s =? uint32_max)%Z then None else _) as [k|] eqn:E0; cbn [or_else] in H.
  { injection H as <-. destruct (Z.eqb_spec (gs_crash_tid s) uint32_max) as [E|E]; [discriminate|].
    destruct (find_index_first _ _ (tid_iff s) _ _ E0) as (t & N & P & _). exists t. auto. }
  assert (G : forall req k, find_crash_thread_from_crash_frame s req = Some k -> exists t, nth_error (gs_threads s) k = Some t /\ shows_crash s t).
  { intros req k Hk. destruct (crash_name_cases s) as [(c & n & C & N)|K]; [|rewrite (from_frame_none s _ K) in Hk; discriminate].
    rewrite (from_frame_eq s c n _ C N) in Hk. destruct (match_loop_sound _ _ _ _ _ _ Hk) as [E|(j & t & -> & A & B)]; [discriminate|].
    exists t. split; [exact A|]. now apply (same_name_iff s c n). }
  destruct (find_crash_thread_from_crash_frame s ONE_MATCHING) as [k|] eqn:E1; cbn [or_else] in H.
  { injection H as <-. destruct (G _ _ E1) as (t & A & B). exists t; auto. }
  destruct (find_crash_thread_from_crash_frame s ABORT_FUNCTION) as [k|] eqn:E2; cbn [or_else] in H.
  { injection H as <-. destruct (G _ _ E2) as (t & A & B). exists t; auto. }
  destruct (G _ _ H) as (t & A & B). exists t; auto.
Qed.
