(** * Proofs about stack traces of core dumps. *)
From Verif Require Import Base Types UtilsModel UtilsProofs LookupModel CrashModel UnwindModel UnwindSpec.
Open Scope nat_scope.

Lemma opt_eqb_iff a b : opt_str_eqb a b = true <-> a = b.
Proof.
  destruct a as [a|], b as [b|]; cbn; try (split; congruence). rewrite str_eqb_eq. split; congruence.
Qed.

Section Process.
Variable addrmodule : Z -> option module.
Variable cxa_demangle : str -> option str.
Notation resolve := (resolve_frame addrmodule cxa_demangle).
Notation frame_for := (frame_for addrmodule cxa_demangle).

Lemma shown_iff symbol name : shown_name cxa_demangle symbol name <-> name = match sr_demangle_symbol cxa_demangle symbol with Some d => d | None => symbol end.
Proof.
  unfold shown_name, sr_demangle_symbol. destruct (starts_with (L "_Z") symbol) eqn:E.
  - apply starts_with_iff in E as [r ->]. split.
    + intros [[_ ->]|[-> [->|H]]]; [reflexivity|reflexivity|]. elim (H r). reflexivity.
    + destruct (cxa_demangle _) as [d|] eqn:Ed; intros ->; [left; split; [eauto|auto]|right; auto].
  - split.
    + intros [[[r ->] _]|[-> _]]; [|reflexivity]. exfalso. rewrite (proj2 (starts_with_iff _ _)) in E by eauto. discriminate.
    + intros ->. right. split; [reflexivity|]. right. intros r ->. rewrite (proj2 (starts_with_iff _ _)) in E by eauto. discriminate.
Qed.
Lemma frame_iff ip m f : frame_for ip m f <-> f = resolve ip m.
Proof.
  unfold frame_for, UnwindSpec.frame_for, resolve_frame. fold (w64 (ip - 1)). change 18446744073709551616%Z with two64. fold (w64 (ip - 1)).
  set (code := if m then w64 (ip - 1) else ip). destruct f as [a b o fn fl fp fh]; cbn.
  destruct (addrmodule code) as [md|].
  - split.
    + intros (-> & -> & -> & -> & Hi & Hn). destruct (mod_info md) as [[[mn st] file]|]; destruct Hi as [-> ->];
        (destruct (mod_addrname md code) as [sym|]; [destruct Hn as (nm & -> & Hs); apply shown_iff in Hs; subst nm|subst fn]); destruct (mod_build_id md); reflexivity.
    + destruct (mod_info md) as [[[mn st] file]|]; intros H; injection H as -> -> -> -> -> -> ->;
        (repeat split; auto; [destruct (mod_build_id md); reflexivity|]); (destruct (mod_addrname md code) as [sym|]; [|reflexivity]); eexists; (split; [reflexivity|]); apply shown_iff; reflexivity.
  - split; [intros (-> & -> & -> & -> & -> & -> & ->); reflexivity|intros H; injection H as -> -> -> -> -> -> ->; repeat split; reflexivity].
Qed.

(** ** Frames of a thread *)
Lemma getframes_iff frames ret fs :
  unwinds addrmodule cxa_demangle ret frames fs <->
  exists r, getframes addrmodule cxa_demangle frames ret = (fs, r) /\ (r = 0 \/ r = -1 \/ r = 2)%Z.
Proof.
  revert fs. induction frames as [|[[ip m]|] frames IH]; intros fs; cbn [getframes].
  - split; [intros H; inversion H; subst; eauto|]. intros (r & E & H). injection E as <- <-. constructor. exact H.
  - destruct (opt_str_eqb _ _) eqn:E.
    + apply opt_eqb_iff in E. split.
      * intros H. inversion H as [|? ? f ? Hf Hs|? ? f ? ? Hf Hs]; subst.
        -- exists 2%Z. auto.
        -- apply frame_iff in Hf. subst f. elim Hs. exact E.
      * intros (r & Er & H). injection Er as <- <-. eapply un_start; [apply frame_iff; reflexivity|exact E].
    + assert (Hne : cf_function_name (resolve ip m) <> Some libc_start) by (intros H; apply opt_eqb_iff in H; unfold libc_start in H; congruence). split.
      * intros H. inversion H as [|? ? f ? Hf Hs|? ? f ? fs' Hf Hs Hr]; subst; apply frame_iff in Hf; subst f; [congruence|].
        apply IH in Hr as (r & -> & Hr). eauto.
      * destruct (getframes _ _ frames ret) as [fs' r']. intros (r & Er & H). injection Er as <- <-.
        apply un_frame; [apply frame_iff; reflexivity|exact Hne|]. apply IH. eauto.
  - split; [intros H; inversion H|]. intros (r & E & H). injection E as <- <-. exfalso. lia.
Qed.
Lemma truncate_spec (frames : list core_frame) (n : nat) : n = length frames -> truncate_long_thread frames n = skipn (n - 256) frames.
Proof.
  unfold CORE_STACKTRACE_FRAME_LIMIT. revert n. induction frames as [|f r IH]; intros n ->; [reflexivity|]. cbn [truncate_long_thread]. unfold CORE_STACKTRACE_FRAME_LIMIT.
  destruct (Nat.ltb_spec 256 (length (f :: r))) as [H|H].
  - cbn [length] in *. rewrite IH by lia. replace (S (length r) - 256) with (S (S (length r) - 1 - 256)) by lia. cbn [skipn]. f_equal.
  - replace (length (f :: r) - 256) with 0 by lia. reflexivity.
Qed.
Lemma last_of_iff {A} n (l k : list A) : last_of n l k <-> k = skipn (length l - n) l.
Proof.
  unfold last_of. split.
  - intros (d & -> & H). rewrite app_length in *. replace (length d + length k - n) with (length d) by lia. rewrite skipn_app, skipn_all, Nat.sub_diag. reflexivity.
  - intros ->. exists (firstn (length l - n) l). rewrite firstn_skipn. split; [reflexivity|]. rewrite skipn_length. lia.
Qed.
Lemma thread_iff u t : unwind_thread addrmodule cxa_demangle u = Ok t <-> thread_of addrmodule cxa_demangle u t.
Proof.
  unfold unwind_thread, thread_of. destruct (getframes _ _ (u_frames u) (u_ret u)) as [fs r] eqn:E. split.
  - destruct (_ || _) eqn:Er; [discriminate|]. intros H. injection H as <-. exists fs. split.
    + apply getframes_iff. exists r. split; [exact E|]. destruct (Z.eqb_spec r 1), (Z.eqb_spec r 0), (Z.eqb_spec r 2), (Z.eqb_spec r (-1)); cbn in Er; try discriminate; auto.
    + cbn. rewrite truncate_spec by reflexivity. apply last_of_iff. reflexivity.
  - intros (fs' & Hu & Hl). apply getframes_iff in Hu as (r' & E' & Hr). rewrite E in E'. injection E' as <- <-.
    apply last_of_iff in Hl. rewrite truncate_spec by reflexivity. rewrite <- Hl.
    destruct Hr as [-> |[-> | ->]]; destruct t; reflexivity.
Qed.
Lemma thread_not_ub u : unwind_thread addrmodule cxa_demangle u <> UB.
Proof. unfold unwind_thread. destruct (getframes _ _ _ _). destruct (_ || _); discriminate. Qed.
Lemma getthreads_iff us ret ts :
  getthreads addrmodule cxa_demangle us ret = Ok ts <-> ret = 0%Z /\ Forall2 (thread_of addrmodule cxa_demangle) us ts.
Proof.
  revert ts. induction us as [|u us IH]; intros ts; cbn [getthreads].
  - destruct (Z.eqb_spec ret 0); split; [intros H; injection H as <-; auto|intros [_ H]; inversion H; reflexivity|discriminate|intros [H _]; congruence].
  - split.
    + destruct (unwind_thread _ _ u) as [t| |] eqn:E; cbn [bind]; try discriminate. apply thread_iff in E.
      destruct (getthreads _ _ us ret) as [ts'| |]; cbn [bind]; try discriminate. intros H. injection H as <-. destruct (proj1 (IH ts') eq_refl) as [-> Hf]. auto.
    + intros [Hr H]. inversion H as [|? t ? ts' Ht Hts]; subst. apply thread_iff in Ht. rewrite Ht. cbn [bind].
      rewrite (proj2 (IH ts')) by auto. reflexivity.
Qed.
Lemma getthreads_not_ub us ret : getthreads addrmodule cxa_demangle us ret <> UB.
Proof.
  induction us as [|u us IH]; cbn [getthreads]; [destruct (_ =? _)%Z; discriminate|]. pose proof (thread_not_ub u).
  destruct (unwind_thread _ _ u); cbn [bind]; try congruence. destruct (getthreads _ _ us ret); cbn [bind]; congruence.
Qed.
Theorem never_below_start u t : thread_of addrmodule cxa_demangle u t -> Forall (fun f => cf_function_name f <> Some libc_start) (ct_frames t).
Proof.
  intros (fs & Hu & (d & E & _)). assert (H : Forall (fun f => cf_function_name f <> Some libc_start) fs) by (clear E; induction Hu; constructor; auto).
  rewrite E in H. apply Forall_app in H. apply H.
Qed.

(** ** gdb *)
Notation nonsignal := (fun f => negb (gf_signal_handler_called f)).
Lemma skipn_tl {A} n (l : list A) : skipn n (tl l) = skipn (S n) l.
Proof. destruct l; [destruct n; reflexivity|reflexivity]. Qed.
Lemma top_spec frames n top : top_frame_loop frames n top = skipn (length (filter nonsignal frames) - n) top.
Proof.
  revert n top. induction frames as [|f r IH]; intros n top; cbn [top_frame_loop filter]; [reflexivity|].
  destruct (gf_signal_handler_called f); cbn [negb]; [apply IH|]. cbn [length]. destruct n as [|n]; rewrite IH.
  - rewrite skipn_tl. f_equal. lia.
  - f_equal.
Qed.
Theorem from_gdb_frames t : exists dropped kept,
  gt_frames t = dropped ++ kept /\
  length dropped = length (filter nonsignal (gt_frames t)) - 256 /\
  map cf_address (ct_frames (core_thread_from_gdb addrmodule cxa_demangle t)) = map gf_address (filter nonsignal kept) /\
  Forall2 (fun g f => frame_for (gf_address g) false f) (filter nonsignal kept) (ct_frames (core_thread_from_gdb addrmodule cxa_demangle t)).
Proof.
  set (n := length (filter nonsignal (gt_frames t)) - 256). exists (firstn n (gt_frames t)), (skipn n (gt_frames t)).
  rewrite firstn_skipn. split; [reflexivity|]. split.
  { rewrite firstn_length. assert (length (filter nonsignal (gt_frames t)) <= length (gt_frames t)).
    { clear. generalize (gt_frames t). intros l. induction l as [|f r IH]; cbn; [lia|]. destruct (gf_signal_handler_called f); cbn; lia. } lia. }
  unfold core_thread_from_gdb. rewrite top_spec. unfold CORE_STACKTRACE_FRAME_LIMIT. fold n. cbn [ct_frames]. split.
  - rewrite map_map. apply map_ext. intros g. assert (H := proj2 (frame_iff (gf_address g) false _) eq_refl). apply H.
  - generalize (filter nonsignal (skipn n (gt_frames t))). intros l. induction l; constructor; [apply frame_iff; reflexivity|assumption].
Qed.

(** ** libunwind *)
Lemma lu_frame_iff s ip f : lu_frame addrmodule cxa_demangle s ip f <->
  f = let f := resolve ip false in
      match cf_function_name f with
      | Some _ => f
      | None => mk_core_frame (cf_address f) (cf_build_id f) (cf_build_id_offset f) (lu_proc_name s) (cf_file_name f) None true
      end.
Proof.
  unfold lu_frame. assert (Hp : cf_fingerprint (resolve ip false) = None /\ cf_fingerprint_hashed (resolve ip false) = true).
  { assert (H := proj2 (frame_iff ip false _) eq_refl). split; apply H. }
  destruct Hp as [Hp Hh]. cbn zeta. split.
  - intros (g & Hg & ->). apply frame_iff in Hg. subst g. destruct (resolve ip false) as [a b o fn fl fp fh]; cbn in *. subst. destruct fn; reflexivity.
  - intros ->. exists (resolve ip false). split; [apply frame_iff; reflexivity|]. destruct (resolve ip false) as [a b o fn fl fp fh]; cbn in *. subst. destruct fn; reflexivity.
Qed.
Lemma lu_iff count i steps fs : lu_loop addrmodule cxa_demangle count i steps = Ok fs <-> lu_unwinds addrmodule cxa_demangle steps count i fs.
Proof.
  revert i fs. induction count as [|n IH]; intros i fs; cbn [lu_loop].
  - split; [intros H; injection H as <-; constructor|intros H; inversion H; reflexivity].
  - destruct (lu_ip (steps i)) as [ip|] eqn:Ei; [|split; [discriminate|intros H; inversion H; congruence]].
    destruct (Z.eqb_spec ip 0) as [->|Hip].
    { split; [intros H; injection H as <-; apply lu_zero; exact Ei|]. intros H. inversion H as [|? ? H0| ? ? ip' ? H0 Hn| ? ? ip' ? ? H0 Hn]; subst; [reflexivity| |]; rewrite Ei in H0; congruence. }
    pose proof (lu_frame_iff (steps i) ip) as Hf. cbn zeta in Hf. set (f := match cf_function_name (resolve ip false) with Some _ => _ | None => _ end) in *.
    destruct (opt_str_eqb (cf_function_name f) _) eqn:Es.
    { apply opt_eqb_iff in Es. split.
      - intros H. injection H as <-. apply lu_last with ip; auto. apply Hf. reflexivity.
      - intros H. inversion H as [|? ? H0| ? ? ip' g H0 Hn Hg Hor| ? ? ip' g ? H0 Hn Hg Hs]; subst; rewrite Ei in H0; [congruence| |]; injection H0 as <-; apply Hf in Hg; subst g; [reflexivity|].
        elim Hs. exact Es. }
    assert (Hs : cf_function_name f <> Some libc_start) by (intros H; apply opt_eqb_iff in H; unfold libc_start in H; congruence).
    destruct (Z.leb_spec (lu_ret (steps i)) 0) as [Hr|Hr].
    { split.
      - intros H. injection H as <-. apply lu_last with ip; auto. apply Hf. reflexivity.
      - intros H. inversion H as [|? ? H0| ? ? ip' g H0 Hn Hg Hor| ? ? ip' g ? H0 Hn Hg Hs' Hp]; subst; rewrite Ei in H0; [congruence| |]; injection H0 as <-; [apply Hf in Hg; subst g; reflexivity|lia]. }
    split.
    + destruct (lu_loop _ _ n (S i) steps) as [r| |] eqn:El; cbn [bind]; try discriminate. intros H. injection H as <-.
      apply lu_more with ip; auto; [apply Hf; reflexivity|]. apply IH. exact El.
    + intros H. inversion H as [|? ? H0| ? ? ip' g H0 Hn Hg Hor| ? ? ip' g r H0 Hn Hg Hs' Hp Hu]; subst; rewrite Ei in H0; [congruence| |]; injection H0 as <-; apply Hf in Hg; subst g.
      * destruct Hor; [congruence|lia].
      * apply IH in Hu. rewrite Hu. reflexivity.
Qed.
Lemma lu_count steps count i fs : lu_unwinds addrmodule cxa_demangle steps count i fs -> length fs <= count.
Proof. induction 1; cbn; lia. Qed.
Lemma lu_not_ub count i steps : (forall j, lu_ip (steps j) <> None) -> lu_loop addrmodule cxa_demangle count i steps <> UB.
Proof.
  intros H. revert i. induction count as [|n IH]; intros i; cbn [lu_loop]; [discriminate|]. destruct (lu_ip (steps i)) eqn:E; [|elim (H i E)].
  destruct (_ =? 0)%Z; [discriminate|]. destruct (opt_str_eqb _ _); [discriminate|]. destruct (_ <=? 0)%Z; [discriminate|].
  specialize (IH (S i)). destruct (lu_loop _ _ n (S i) steps); cbn [bind]; congruence.
Qed.
Lemma lu_not_fail count i steps : lu_loop addrmodule cxa_demangle count i steps <> Fail.
Proof.
  revert i. induction count as [|n IH]; intros i; cbn [lu_loop]; [discriminate|]. destruct (lu_ip (steps i)) eqn:E; [|discriminate].
  destruct (_ =? 0)%Z; [discriminate|]. destruct (opt_str_eqb _ _); [discriminate|]. destruct (_ <=? 0)%Z; [discriminate|].
  specialize (IH (S i)). destruct (lu_loop _ _ n (S i) steps); cbn [bind]; congruence.
Qed.
End Process.

(** ** Signals *)
Lemma cursig_signed lo hi : let v := (Z.of_N (code lo) + 256 * Z.of_N (code hi))%Z in
  forall s, (s mod 65536 = v /\ -32768 <= s < 32768)%Z <-> s = (if v <? 32768 then v else v - 65536)%Z.
Proof.
  intros v s. assert (Hv : (0 <= v < 65536)%Z).
  { unfold v, code. pose proof (N_ascii_bounded lo). pose proof (N_ascii_bounded hi). lia. }
  split.
  - intros [H1 H2]. pose proof (Z.div_mod s 65536 ltac:(lia)) as E. rewrite H1 in E. assert (Hq : (s / 65536 = 0 \/ s / 65536 = -1)%Z) by lia.
    destruct (Z.ltb_spec v 32768); destruct Hq as [Hq|Hq]; rewrite Hq in E; lia.
  - destruct (Z.ltb_spec v 32768); intros ->; (split; [|lia]).
    + apply Z.mod_small. lia.
    + replace (v - 65536)%Z with (v + (-1) * 65536)%Z by lia. rewrite Z.mod_add by lia. apply Z.mod_small. lia.
Qed.
Lemma split_at {A} n (l : list A) m d : length l = n + 2 + m -> l = firstn n l ++ nth n l d :: nth (S n) l d :: skipn (n + 2) l.
Proof.
  revert l. induction n as [|n IH]; intros l H.
  - destruct l as [|x [|y l]]; try (cbn in H; lia). reflexivity.
  - destruct l as [|x l]; [cbn in H; lia|]. cbn in H. cbn [firstn nth app Nat.add skipn]. f_equal. rewrite (IH l) at 1 by lia. reflexivity.
Qed.
Lemma status_iff n s : process_status n s <->
  n_type n = 1%Z /\ 5 <= n_namesz n /\ exists name desc, n_name n = Some name /\ n_desc n = Some desc /\
    starts_with (L "CORE" ++ [nul]) name = true /\ length desc = 336 /\ s = pr_cursig desc.
Proof.
  unfold process_status. split.
  - intros (H1 & H2 & (rest & H3) & (a & lo & hi & b & H4 & Ha & Hb & Hs)). split; [exact H1|]. split; [exact H2|].
    exists (L "CORE" ++ nul :: rest), (a ++ lo :: hi :: b). split; [exact H3|]. split; [exact H4|].
    split; [apply starts_with_iff; exists rest; reflexivity|]. split; [rewrite app_length; cbn; lia|].
    unfold pr_cursig. rewrite !app_nth2 by lia. rewrite Ha. change (12 - 12) with 0. change (13 - 12) with 1. cbn [nth]. apply cursig_signed. exact Hs.
  - intros (H1 & H2 & name & desc & H3 & H4 & H5 & H6 & ->). split; [exact H1|]. split; [exact H2|]. apply starts_with_iff in H5 as [rest ->].
    split; [exists rest; rewrite <- app_assoc in H3; exact H3|].
    exists (firstn 12 desc), (nth 12 desc nul), (nth 13 desc nul), (skipn 14 desc).
    split; [rewrite H4; f_equal; apply (split_at 12 desc 322 nul); exact H6|]. split; [rewrite firstn_length; lia|]. split; [rewrite skipn_length; lia|].
    apply (cursig_signed (nth 12 desc nul) (nth 13 desc nul)). reflexivity.
Qed.
Lemma status_fun n s s' : process_status n s -> process_status n s' -> s = s'.
Proof.
  intros H H'. apply status_iff in H as (_ & _ & nm & d & E1 & E2 & _ & _ & ->). apply status_iff in H' as (_ & _ & nm' & d' & E1' & E2' & _ & _ & ->). congruence.
Qed.
Lemma note_cases n r : (no_signal n /\ notes_loop (n :: r) = notes_loop r) \/ (exists s, process_status n s /\ s <> 0%Z /\ notes_loop (n :: r) = Some s).
Proof.
  cbn [notes_loop]. destruct (Z.eqb_spec (n_type n) 1) as [H1|H1]; cbn [negb orb]; [|left; split; [|reflexivity]; intros s (H & _); congruence].
  destruct (Nat.ltb_spec (n_namesz n) 5) as [H2|H2]; [left; split; [|reflexivity]; intros s (_ & H & _); lia|].
  destruct (n_name n) as [name|] eqn:E1; [|left; split; [|reflexivity]; intros s (_ & _ & [rest H] & _); congruence].
  destruct (n_desc n) as [desc|] eqn:E2; [|left; split; [|reflexivity]; intros s (_ & _ & _ & a & lo & hi & b & H & _); congruence].
  destruct (Nat.ltb_spec (length name) 5) as [H3|H3].
  { left. split; [|reflexivity]. intros s (_ & _ & [rest H] & _). rewrite H in E1. injection E1 as <-. cbn in H3. lia. }
  destruct (starts_with _ name) eqn:E3; cbn [negb].
  2:{ left. split; [|reflexivity]. intros s (_ & _ & [rest H] & _). rewrite H in E1. injection E1 as <-. rewrite (proj2 (starts_with_iff _ _)) in E3; [discriminate|]. exists rest. reflexivity. }
  destruct (Nat.eqb_spec (length desc) prstatus_size) as [H4|H4]; cbn [negb].
  2:{ left. split; [|reflexivity]. intros s H. apply status_iff in H as (_ & _ & nm & d & _ & E & _ & Hl & _). unfold prstatus_size in H4. congruence. }
  assert (Hst : process_status n (pr_cursig desc)) by (apply status_iff; split; [exact H1|]; split; [exact H2|]; exists name, desc; auto).
  destruct (Z.eqb_spec (pr_cursig desc) 0) as [H5|H5].
  - left. split; [|reflexivity]. intros s Hs. rewrite (status_fun _ _ _ Hs Hst). exact H5.
  - right. exists (pr_cursig desc). auto.
Qed.
Lemma notes_signal notes : match notes_loop notes with Some s => s <> 0%Z /\ exists before n after, notes = before ++ n :: after /\ Forall no_signal before /\ process_status n s | None => Forall no_signal notes end.
Proof.
  induction notes as [|n r IH]; [constructor|]. destruct (note_cases n r) as [[H ->]|(s & Hs & Hn & ->)].
  - destruct (notes_loop r) as [s|]; [|constructor; auto]. destruct IH as [Hs (b & m & a & -> & Hb & Hm)]. split; [exact Hs|].
    exists (n :: b), m, a. split; [reflexivity|]. split; [constructor; auto|exact Hm].
  - split; [exact Hn|]. exists [], n, r. auto.
Qed.
Lemma segments_signal segs : signal_of (all_notes segs) (segments_loop segs).
Proof.
  induction segs as [|seg r IH]; [left; split; [reflexivity|constructor]|]. 
  assert (Hskip : forall s : option (Z * option (list note)), (forall notes, s <> Some (4%Z, Some notes)) ->
    segments_loop (s :: r) = segments_loop r /\ all_notes (s :: r) = all_notes r).
  { intros [[t [notes|]]|] Hn; cbn [all_notes].
    - destruct (Z.eqb_spec t 4) as [->|Ht]; [elim (Hn notes); reflexivity|]. split; [|reflexivity]. cbn [segments_loop]. destruct t as [|[p|[p|[p|p|]|]|]|p]; (reflexivity || congruence).
    - split; [|reflexivity]. cbn [segments_loop]. destruct t as [|[p|[p|[p|p|]|]|]|p]; reflexivity.
    - auto. }
  destruct seg as [[t [notes|]]|]; [destruct (Z.eq_dec t 4) as [->|Ht]| |].
  - cbn [all_notes segments_loop]. change (4 =? 4)%Z with true. cbn iota. pose proof (notes_signal notes) as H. destruct (notes_loop notes) as [s|].
    + destruct H as [Hs (b & m & a & -> & Hb & Hm)]. right. split; [exact Hs|]. exists b, m, (a ++ all_notes r). rewrite <- app_assoc. auto.
    + destruct IH as [[-> H']|[Hs (b & m & a & E & Hb & Hm)]]; [left; split; [reflexivity|]; apply Forall_app; auto|].
      right. split; [exact Hs|]. exists (notes ++ b), m, a. rewrite E, <- app_assoc. split; [reflexivity|]. split; [apply Forall_app; auto|exact Hm].
  - destruct (Hskip (Some (t, Some notes))) as [-> ->]; [congruence|exact IH].
  - destruct (Hskip (Some (t, None))) as [-> ->]; [congruence|exact IH].
  - destruct (Hskip None) as [-> ->]; [congruence|exact IH].
Qed.
Lemma signal_unique notes s s' : signal_of notes s -> signal_of notes s' -> s = s'.
Proof.
  assert (G : forall b n a s, Forall no_signal (b ++ n :: a) -> process_status n s -> s = 0%Z).
  { intros b n a x H. apply Forall_app in H as [_ H]. apply Forall_inv in H. apply H. }
  intros [[-> H]|[Hs (b & n & a & -> & Hb & Hn)]] [[-> H']|[Hs' (b' & n' & a' & E & Hb' & Hn')]].
  - reflexivity.
  - subst notes. elim Hs'. exact (G _ _ _ _ H Hn').
  - elim Hs. exact (G _ _ _ _ H' Hn).
  - revert b' E Hb'. induction b as [|x b IH]; intros [|x' b'] E Hb'; cbn in E; injection E as E1 E2.
    + subst n'. exact (status_fun _ _ _ Hn Hn').
    + subst x'. apply Forall_inv in Hb'. elim Hs. exact (Hb' s Hn).
    + subst x. apply Forall_inv in Hb. elim Hs'. exact (Hb s' Hn').
    + apply (IH (Forall_inv_tail Hb) b' E2 (Forall_inv_tail Hb')).
Qed.

(** ** Whole stack traces *)
Section Traces.
Variable addrmodule : Z -> option module.
Variable cxa_demangle : str -> option str.
Lemma signal_number_iff segs s :
  match segs with None => s = 0%Z | Some l => signal_of (all_notes l) s end <-> s = get_signal_number segs.
Proof.
  destruct segs as [l|]; cbn; [|reflexivity]. pose proof (segments_signal l) as H. split; [intros H'; exact (signal_unique _ _ _ H' H)|intros ->; exact H].
Qed.
Lemma coredump_iff d executable s :
  sr_parse_coredump addrmodule cxa_demangle (Some d) executable = Ok s <->
  cd_attach d = true /\ cd_ret d = 0%Z /\
  Forall2 (thread_of addrmodule cxa_demangle) (cd_threads d) (cs_threads s) /\
  (exists signal, (match cd_segments d with None => signal = 0%Z | Some segments => signal_of (all_notes segments) signal end) /\
     cs_signal s = (signal mod 65536)%Z) /\
  cs_executable s = executable /\ cs_crash_thread s = match cs_threads s with [] => None | _ => Some 0 end /\ cs_only_crash_thread s = false.
Proof.
  unfold sr_parse_coredump. destruct (cd_attach d); [|split; [discriminate|intros [H _]; discriminate]]. split.
  - destruct (getthreads _ _ _ _) as [ts| |] eqn:E; cbn [bind]; try discriminate. intros H. injection H as <-. apply getthreads_iff in E as [Hr Ht].
    cbn. repeat split; auto. eexists. split; [apply signal_number_iff; reflexivity|reflexivity].
  - intros (_ & Hr & Ht & (sg & Hs & Es) & He & Hc & Ho). apply signal_number_iff in Hs. subst sg.
    rewrite (proj2 (getthreads_iff _ _ _ _ _) (conj Hr Ht)). cbn [bind]. destruct s as [a b c ts o]; cbn in *. unfold w16, two16. subst. reflexivity.
Qed.
Lemma coredump_not_ub d executable : sr_parse_coredump addrmodule cxa_demangle d executable <> UB.
Proof.
  unfold sr_parse_coredump. destruct d as [d|]; [|discriminate]. destruct (cd_attach d); [|discriminate].
  pose proof (getthreads_not_ub addrmodule cxa_demangle (cd_threads d) (cd_ret d)). destruct (getthreads _ _ _ _); cbn [bind]; congruence.
Qed.
Lemma getframes_ret frames ret fs r : getframes addrmodule cxa_demangle frames ret = (fs, r) -> (r = 0 \/ r = -1 \/ r = 2)%Z ->
  (r <> -1 <-> ret <> -1 \/ exists k ip m f, nth_error frames k = Some (Some (ip, m)) /\ frame_for addrmodule cxa_demangle ip m f /\ cf_function_name f = Some libc_start)%Z.
Proof.
  revert fs. induction frames as [|[[ip m]|] frames IH]; intros fs; cbn [getframes].
  - intros E _. injection E as <- <-. split; [auto|]. intros [H|(k & ip & m & f & H & _)]; [exact H|destruct k; discriminate].
  - destruct (opt_str_eqb _ _) eqn:Es.
    + apply opt_eqb_iff in Es. intros E _. injection E as <- <-. split; [|lia]. intros _. right.
      exists 0, ip, m. eexists. split; [reflexivity|]. split; [apply frame_iff; reflexivity|exact Es].
    + destruct (getframes _ _ frames ret) as [fs' r'] eqn:Eg. intros E Hr. injection E as <- <-. rewrite (IH fs' eq_refl Hr). split.
      * intros [H|(k & ip' & m' & f & H)]; [auto|]. right. exists (S k), ip', m', f. exact H.
      * intros [H|([|k] & ip' & m' & f & H & Hf & Hn)]; [auto| |right; exists k, ip', m', f; auto].
        cbn in H. injection H as <- <-. apply frame_iff in Hf. subst f. apply opt_eqb_iff in Hn. unfold libc_start in Hn. congruence.
  - intros E H. injection E as <- <-. exfalso. lia.
Qed.
Lemma hook_iff attach u executable signum s :
  sr_core_stacktrace_from_core_hook_generate addrmodule cxa_demangle attach u executable signum = (Ok s, false) <->
  attach = true /\ exists t, cs_threads s = [t] /\ thread_of addrmodule cxa_demangle u t /\
    (u_ret u <> -1 \/ exists k ip m f, nth_error (u_frames u) k = Some (Some (ip, m)) /\ frame_for addrmodule cxa_demangle ip m f /\ cf_function_name f = Some libc_start)%Z /\
    cs_signal s = (Z.max 0 signum mod 65536)%Z /\ cs_executable s = executable /\ cs_crash_thread s = Some 0 /\ cs_only_crash_thread s = true.
Proof.
  unfold sr_core_stacktrace_from_core_hook_generate. destruct attach; [|split; [discriminate|intros [H _]; discriminate]].
  assert (Hsig : (if (0 <? signum)%Z then w16 signum else 0%Z) = (Z.max 0 signum mod 65536)%Z).
  { destruct (Z.ltb_spec 0 signum) as [H|H]; [rewrite Z.max_r by lia; reflexivity|rewrite Z.max_l by lia; reflexivity]. }
  destruct (getframes addrmodule cxa_demangle (u_frames u) (u_ret u)) as [fs r] eqn:E. split.
  - destruct (_ || _) eqn:Er; [|discriminate]. intros H. injection H as <-. assert (Hr : (r = 0 \/ r = 2)%Z).
    { apply orb_true_iff in Er. destruct Er as [Er|Er]; apply Z.eqb_eq in Er; auto. }
    split; [reflexivity|]. eexists. cbn. split; [reflexivity|]. split.
    { exists fs. split; [apply getframes_iff; exists r; split; [exact E|lia]|]. cbn. rewrite truncate_spec by reflexivity. apply last_of_iff. reflexivity. }
    split; [apply (getframes_ret _ _ _ _ E); lia|]. auto.
  - intros [_ (t & Et & (fs' & Hu & Hl) & Hm & Hs & He & Hc & Ho)]. apply getframes_iff in Hu as (r' & E' & Hr). rewrite E in E'. injection E' as <- <-.
    apply (getframes_ret _ _ _ _ E) in Hm; [|exact Hr]. replace ((r =? 0)%Z || (r =? 2)%Z) with true by (destruct Hr as [-> |[-> | ->]]; [reflexivity|lia|reflexivity]).
    apply last_of_iff in Hl. rewrite truncate_spec by reflexivity. rewrite <- Hl, Hsig. destruct s as [a b c ts o]; cbn in *. subst. destruct t; reflexivity.
Qed.
Lemma from_gdb_limit t : Forall (fun f => gf_signal_handler_called f = false) (gt_frames t) ->
  exists kept, last_of 256 (gt_frames t) kept /\
  Forall2 (fun g f => frame_for addrmodule cxa_demangle (gf_address g) false f) kept (ct_frames (core_thread_from_gdb addrmodule cxa_demangle t)).
Proof.
  intros H. assert (F : forall l, Forall (fun f => gf_signal_handler_called f = false) l -> filter (fun f => negb (gf_signal_handler_called f)) l = l).
  { intros l Hl. induction Hl as [|f l Hf _ IH]; [reflexivity|]. cbn. rewrite Hf, IH. reflexivity. }
  destruct (from_gdb_frames addrmodule cxa_demangle t) as (d & k & E & Hd & _ & Hf). rewrite (F _ H) in Hd. rewrite E in H. apply Forall_app in H as [_ H]. rewrite (F _ H) in Hf.
  exists k. split; [|exact Hf]. exists d. split; [exact E|]. rewrite E, app_length in *. lia.
Qed.
Lemma lu_thread_iff thread t : lu_unwind_thread addrmodule cxa_demangle (fst thread) (snd thread) = Ok t <-> lu_thread_of addrmodule cxa_demangle thread t.
Proof.
  unfold lu_thread_of, lu_unwind_thread. destruct thread as [init steps]. cbn [fst snd]. destruct (Z.ltb_spec init 0) as [H|H]; [split; [discriminate|lia]|]. split.
  - destruct (lu_loop _ _ 999 0 steps) as [fs| |] eqn:E; cbn [bind]; try discriminate. intros Ht. injection Ht as <-. split; [exact H|]. apply lu_iff. exact E.
  - intros [_ Ht]. apply lu_iff in Ht. rewrite Ht. destruct t. reflexivity.
Qed.
Lemma lu_threads_iff threads ts : lu_threads addrmodule cxa_demangle threads = Ok ts <-> Forall2 (lu_thread_of addrmodule cxa_demangle) threads ts.
Proof.
  revert ts. induction threads as [|[init steps] r IH]; intros ts; cbn [lu_threads].
  - split; [intros H; injection H as <-; constructor|intros H; inversion H; reflexivity].
  - split.
    + destruct (lu_unwind_thread _ _ init steps) as [t| |] eqn:E; try discriminate. destruct (lu_threads _ _ r) as [ts'| |]; cbn [bind]; try discriminate.
      intros H. injection H as <-. constructor; [apply lu_thread_iff; exact E|apply IH; reflexivity].
    + intros H. inversion H as [|? t ? ts' Ht Hts]; subst. apply lu_thread_iff in Ht. cbn [fst snd] in Ht. rewrite Ht. apply IH in Hts. rewrite Hts. reflexivity.
Qed.
Lemma first_signal_iff cursigs signal : first_signal cursigs signal <-> signal = get_signal_number_libunwind cursigs.
Proof.
  unfold first_signal. induction cursigs as [|s r IH]; cbn [get_signal_number_libunwind].
  - split; [intros [[-> _]|[_ (b & a & E & _)]]; [reflexivity|destruct b; discriminate]|intros ->; left; auto].
  - destruct (Z.eqb_spec s 0) as [->|Hs]; [rewrite <- IH|].
    + split.
      * intros [[-> H]|[Hs (b & a & E & H)]]; [left; split; [reflexivity|exact (Forall_inv_tail H)]|right; split; [exact Hs|]].
        destruct b as [|x b]; cbn in E; injection E as E1 E2; [congruence|]. exists b, a. split; [exact E2|exact (Forall_inv_tail H)].
      * intros [[-> H]|[Hs (b & a & -> & H)]]; [left; split; [reflexivity|constructor; auto]|right; split; [exact Hs|]]. exists (0%Z :: b), a. split; [reflexivity|constructor; auto].
    + split.
      * intros [[-> H]|[Hs' (b & a & E & H)]]; [apply Forall_inv in H; congruence|]. destruct b as [|x b]; cbn in E; injection E as E1 E2; [congruence|].
        apply Forall_inv in H. congruence.
      * intros ->. right. split; [exact Hs|]. exists [], r. auto.
Qed.
Lemma lu_parse_iff threads cursigs executable s :
  lu_parse_coredump addrmodule cxa_demangle (Some threads) cursigs executable = Ok s <->
  Forall2 (lu_thread_of addrmodule cxa_demangle) threads (cs_threads s) /\
  (exists signal, first_signal cursigs signal /\ cs_signal s = (signal mod 65536)%Z) /\
  cs_executable s = executable /\ cs_crash_thread s = match cs_threads s with [] => None | _ => Some 0 end /\ cs_only_crash_thread s = false.
Proof.
  unfold lu_parse_coredump. split.
  - destruct (lu_threads _ _ threads) as [ts| |] eqn:E; cbn [bind]; try discriminate. intros H. injection H as <-. apply lu_threads_iff in E. cbn.
    repeat split; auto. eexists. split; [apply first_signal_iff; reflexivity|reflexivity].
  - intros (Ht & (sg & Hs & Es) & He & Hc & Ho). apply first_signal_iff in Hs. subst sg. apply lu_threads_iff in Ht. rewrite Ht. cbn [bind].
    destruct s as [a b c ts o]; cbn in *. unfold w16, two16. subst. reflexivity.
Qed.
Lemma lu_parse_safe threads cursigs executable :
  Forall (fun '(init, steps) => (0 <= init)%Z /\ forall i, lu_ip (steps i) <> None) threads ->
  exists s, lu_parse_coredump addrmodule cxa_demangle (Some threads) cursigs executable = Ok s /\ length (cs_threads s) = length threads.
Proof.
  intros H. assert (G : exists ts, lu_threads addrmodule cxa_demangle threads = Ok ts /\ length ts = length threads).
  { induction H as [|[init steps] r [Hi Hs] _ (ts & E & Hl)]; [exists []; auto|]. cbn [lu_threads]. unfold lu_unwind_thread.
    destruct (Z.ltb_spec init 0); [lia|]. pose proof (lu_not_ub addrmodule cxa_demangle 999 0 steps Hs). pose proof (lu_not_fail addrmodule cxa_demangle 999 0 steps).
    destruct (lu_loop addrmodule cxa_demangle 999 0 steps) as [fs| |]; try congruence. cbn [bind]. rewrite E. eexists. split; [reflexivity|]. cbn. congruence. }
  destruct G as (ts & E & Hl). unfold lu_parse_coredump. rewrite E. eexists. split; [reflexivity|]. exact Hl.
Qed.
End Traces.
