From Verif Require Import Base HeapModel HeapSpec HeapProofs HeapProofs2 HeapProofs3 HeapListModel HeapListSpec HeapListProofs HeapListProofs3 PyModel PySpec PyProofs.
Open Scope nat_scope.

Lemma addrs_distinct h k (es : list entry) : Forall (fun e => exists n, own h k n e) es -> NoDup (foot es) -> NoDup (map e_addr es).
Proof.
  induction es as [|e es IH]; intros F N; cbn [map]; constructor; inversion F as [|? ? [n O] F']; subst;
    rewrite foot_cons in N; apply NoDup_app_inv in N as (Ne & Nes & D).
  - intros I. apply (D (e_addr e)); [eapply own_foot; exact O|]. eapply addrs_in_foot; [|exact I]. rewrite Forall_forall in F'. exact F'.
  - apply IH; assumption.
Qed.
Lemma distinct_items os k (at_ : entry -> list (option ref)) items es :
  Forall2 (fun r e => alive os r (PyStruct k (e_addr e) (at_ e))) items es -> NoDup (map e_addr es) -> NoDup items.
Proof.
  induction 1 as [|r e items es [n H] F IH]; intros N; constructor; cbn [map] in N; inversion N as [|? ? Na N']; subst.
  - intros I. apply Na. clear - H F I. induction F as [|r' e' items es [m H'] F IH]; [destruct I|]. cbn [map]. destruct I as [->|I]; [left|right; apply IH; exact I].
    destruct (object_fun _ _ _ _ _ _ H H') as [_ E]. injection E as E _. congruence.
  - apply IH. exact N'.
Qed.
Lemma kid_of_frames tk fk : frame_kind tk = Some fk -> kid_ops tk = [(fk, true)].
Proof. destruct tk; cbn; intros H; try discriminate; injection H as <-; reflexivity. Qed.

(** Plain items: nothing to do before linking. *)
Lemma nothing_ok k os h r e : (exists n, own h k n e) -> is_item k (fun _ => []) os r e ->
  exists h', nothing (St os h) r = Ok (St os h', true) /\ (exists n, own h' k n e) /\ same_outside [e_addr e] h h' /\ length h' = length h.
Proof. intros O _. exists h. split; [reflexivity|]. split; [exact O|]. split; [|reflexivity]. intros x _. reflexivity. Qed.
Lemma concat_single (es : list entry) : concat (map (fun e => [e_addr e]) es) = map e_addr es.
Proof. induction es as [|e es IH]; cbn; congruence. Qed.

Lemma link_plain k oe os first s c0 c1 e es items h :
  (forall h1, nth_error h1 s = Some c0 -> exists h2, first h1 (e_addr e) = Ok h2 /\ nth_error h2 s = Some c1 /\ same_outside [s] h1 h2 /\ length h2 = length h1) ->
  Forall2 (fun r e => alive os r (PyStruct k (e_addr e) [])) items (e :: es) ->
  Forall (fun e => exists n, own h k n e) (e :: es) -> NoDup (s :: foot (e :: es)) -> nth_error h s = Some c0 ->
  exists h', link_loop k nothing first oe items None (St os h) = Ok (St os h', true) /\
    nth_error h' s = Some c1 /\ own_list h' k (Some (e_addr e)) (e :: es) /\
    same_outside (s :: map e_addr (e :: es)) h h' /\ length h' = length h.
Proof.
  intros F Fi Fo N Hs. rewrite <- concat_single.
  apply (link_all k nothing oe os (fun _ => []) (fun h e => exists n, own h k n e) (fun e => [e_addr e])) with (c0 := c0); try assumption.
  - intros h1 h2 x [n O] S. exists n. eapply own_same; eassumption.
  - intros h1 x y [n O] [<-|[]]. eapply own_foot; exact O.
  - intros x. left. reflexivity.
  - intros os' h1 r x _ It O _. eapply nothing_ok; eassumption.
  - inversion N as [|? ? _ N']; subst. eapply (distinct_items os k (fun _ => [])); [exact Fi|]. eapply addrs_distinct; eassumption.
Qed.

Lemma frames_prepare_ok os h r tk fk n e l items es at_ :
  alive os r (PyStruct tk (e_addr e) (Some l :: at_)) -> py_list os l fk items es -> unlinked_thread h tk fk n e es -> NoDup (e_foot e) ->
  exists h', frames_prepare (St os h) r = Ok (St os h', true) /\ own h' tk n e /\ same_outside (link_cells e es) h h' /\ length h' = length h.
Proof.
  intros [m Hr] [[ml Hl] Fi] (scal & ps & p & ss & fs & arr & sarr & fa & raw & Hk & Hc & Lp & Os & Oa & Ev & Ef & Fo & He) N.
  unfold frames_prepare. rewrite (obj_ok (St os h) r _ _ Hr). cbn [bind]. rewrite Hk. unfold items_of. rewrite (obj_ok (St os h) l _ _ Hl). cbn [bind].
  pose proof N as N0. rewrite Ef in N. inversion N as [|? ? Na N']; subst. apply NoDup_app_inv in N' as (Nfs & N' & D1). apply NoDup_app_inv in N' as (Nfa & Nfk & D2).
  rewrite !in_app_iff in Na. destruct e as [[a v] f]. cbn [e_addr e_val e_foot fst snd] in *. subst v f.
  destruct es as [|x es].
  - inversion Fi; subst. cbn [link_loop]. exists h. split; [reflexivity|]. split; [|split; [|reflexivity]].
    + rewrite (He eq_refl) in Hc. eapply (own_obj h tk a scal ps ss fs [None] [map e_val []] (foot [])); try eassumption.
      rewrite (kid_of_frames _ _ Hk). change (foot []) with (foot [] ++ []). econstructor; [constructor|discriminate|constructor].
    + intros y _. reflexivity.
  - destruct (link_plain fk true os (fun h a0 => set_frames h a (Some a0)) a (CObj tk scal ps [p] arr raw n) (CObj tk scal ps [Some (e_addr x)] arr raw n) x es items h)
      as (h' & E & Hc' & Ol & S & L); try assumption.
    { intros h1 H1. destruct (set_frames_ok h1 a tk scal ps [] arr raw n p (Some (e_addr x)) H1) as (h2 & E2 & C2 & S2 & L2). exists h2. repeat split; assumption. }
    { constructor; [tauto|exact Nfk]. }
    exists h'. split; [exact E|]. split; [|split; [exact S|exact L]].
    assert (Sep : forall g, (forall y, In y g -> y <> a /\ ~ In y (foot (x :: es))) -> same_on g h h').
    { intros g Hg y Iy. apply S. intros [<-|I]; [destruct (Hg a Iy); congruence|]. destruct (Hg y Iy) as [_ Hy]. apply Hy.
      eapply addrs_in_foot; [|exact I]. rewrite Forall_forall in Fo. exact Fo. }
    eapply (own_obj h' tk a scal ps ss fs [Some (e_addr x)] [map e_val (x :: es)]); [exact Hc'|exact Lp| | |].
    + eapply own_strs_same; [exact Os|]. apply Sep. intros y Iy. split; [intros ->; tauto|]. intros I. apply (D1 y Iy). apply in_app_iff. right. exact I.
    + eapply own_arr_same; [exact Oa|]. apply Sep. intros y Iy. split; [intros ->; tauto|]. exact (D2 y Iy).
    + rewrite (kid_of_frames _ _ Hk). rewrite <- (app_nil_r (foot (x :: es))). econstructor; [exact Ol|discriminate|constructor].
Qed.

(** ** Threads *)
Lemma unlinked_local h h' tk fk n e es : unlinked_thread h tk fk n e es -> same_on (e_foot e) h h' -> unlinked_thread h' tk fk n e es.
Proof.
  intros (scal & ps & p & ss & fs & arr & sarr & fa & raw & Hk & Hc & Lp & Os & Oa & Ev & Ef & Fo & He) S.
  rewrite Ef in S. apply same_on_cons in S as [S0 S]. apply same_on_app in S as [S1 S]. apply same_on_app in S as [S2 S3].
  exists scal, ps, p, ss, fs, arr, sarr, fa, raw. split; [exact Hk|]. split; [rewrite S0; exact Hc|]. split; [exact Lp|].
  split; [eapply own_strs_same; eassumption|]. split; [eapply own_arr_same; eassumption|]. split; [exact Ev|]. split; [exact Ef|]. split; [|exact He].
  rewrite Forall_forall in *. intros f If. destruct (Fo f If) as [m O]. exists m. eapply own_same; [exact O|]. intros x Ix. apply S3. eapply in_foot; eassumption.
Qed.
Lemma unlinked_cells h tk fk n e es x : unlinked_thread h tk fk n e es -> In x (link_cells e es) -> In x (e_foot e).
Proof.
  intros (scal & ps & p & ss & fs & arr & sarr & fa & raw & Hk & Hc & Lp & Os & Oa & Ev & Ef & Fo & He) I. rewrite Ef.
  destruct I as [<-|I]; [left; reflexivity|right]. apply in_app_iff. right. apply in_app_iff. right.
  eapply addrs_in_foot; [|exact I]. rewrite Forall_forall in Fo. exact Fo.
Qed.

Section Threads.
  Variables (tk fk : kind) (os : objects) (l : ref) (ts : list py_thread).
  Hypothesis T : py_threads os l tk fk ts.
  Let in_ts e := exists t, In t ts /\ pt_entry t = e.
  (* the entries are at distinct addresses, so an address names one thread of the list *)
  Variable nodup : NoDup (map (fun t => e_addr (pt_entry t)) ts).

  Definition attrs_of (e : entry) : list (option ref) :=
    match find (fun t => Nat.eqb (e_addr (pt_entry t)) (e_addr e)) ts with Some t => [Some (pt_list t)] | None => [] end.
  Definition frames_of (e : entry) : list entry :=
    match find (fun t => Nat.eqb (e_addr (pt_entry t)) (e_addr e)) ts with Some t => pt_frames t | None => [] end.
  Lemma find_at : forall us t, In t us -> NoDup (map (fun t => e_addr (pt_entry t)) us) ->
    find (fun u => Nat.eqb (e_addr (pt_entry u)) (e_addr (pt_entry t))) us = Some t.
  Proof.
    induction us as [|u us IH]; intros t I N; [destruct I|]. cbn [map] in N. inversion N as [|? ? Nu N']; subst. cbn [find]. destruct I as [->|I].
    - rewrite Nat.eqb_refl. reflexivity.
    - destruct (Nat.eqb_spec (e_addr (pt_entry u)) (e_addr (pt_entry t))) as [E|_]; [|apply IH; assumption].
      exfalso. apply Nu. rewrite E. apply in_map_iff. exists t. split; [reflexivity|exact I].
  Qed.
  Lemma attrs_at t : In t ts -> attrs_of (pt_entry t) = [Some (pt_list t)].
  Proof. intros I. unfold attrs_of. rewrite (find_at ts t I nodup). reflexivity. Qed.
  Lemma frames_at t : In t ts -> frames_of (pt_entry t) = pt_frames t.
  Proof. intros I. unfold frames_of. rewrite (find_at ts t I nodup). reflexivity. Qed.

  Lemma threads_linked first s c0 c1 t us oe h : ts = t :: us ->
    (forall h1, nth_error h1 s = Some c0 -> exists h2, first h1 (e_addr (pt_entry t)) = Ok h2 /\ nth_error h2 s = Some c1 /\ same_outside [s] h1 h2 /\ length h2 = length h1) ->
    unlinked_threads h tk fk ts -> NoDup (s :: foot (map pt_entry ts)) -> nth_error h s = Some c0 ->
    exists h', link_loop tk frames_prepare first oe (map pt_ref ts) None (St os h) = Ok (St os h', true) /\
      nth_error h' s = Some c1 /\ own_list h' tk (Some (e_addr (pt_entry t))) (map pt_entry ts) /\
      same_outside (s :: threads_cells ts) h h' /\ length h' = length h.
  Proof.
    intros Et F U N Hs.
    assert (Ecells : threads_cells ts = concat (map (fun e => link_cells e (frames_of e)) (map pt_entry ts))).
    { unfold threads_cells. rewrite map_map. f_equal. apply map_ext_in. intros u Iu. rewrite (frames_at u Iu). reflexivity. }
    rewrite Ecells. rewrite Et in *. cbn [map]. rewrite <- Et in *.
    destruct T as [[nl Tl] Tt]. rewrite Forall_forall in Tt. unfold unlinked_threads in U. rewrite Forall_forall in U.
    apply (link_all tk frames_prepare oe os attrs_of
             (fun h e => exists u, In u ts /\ pt_entry u = e /\ exists n, unlinked_thread h tk fk n (pt_entry u) (pt_frames u))
             (fun e => link_cells e (frames_of e))) with (c0 := c0); try assumption.
    - intros h1 h2 e (u & Iu & Eu & n & Uu) S. exists u. split; [exact Iu|]. split; [exact Eu|]. exists n. eapply unlinked_local; [exact Uu|]. rewrite Eu. exact S.
    - intros h1 e x (u & Iu & Eu & n & Uu) I. rewrite <- Eu in *. rewrite (frames_at u Iu) in I. eapply unlinked_cells; eassumption.
    - intros e. left. reflexivity.
    - intros os' h1 r e M It (u & Iu & Eu & n & Uu) Ne. rewrite <- Eu in *. unfold is_item in It. rewrite (attrs_at u Iu) in It. rewrite (frames_at u Iu).
      destruct (Tt u Iu) as [_ [Lu Fu]].
      destruct (frames_prepare_ok os' h1 r tk fk n (pt_entry u) (pt_list u) (pt_items u) (pt_frames u) []) as (h' & E & O & S & L); try assumption.
      { split; [eapply alive_more; eassumption|]. eapply Forall2_weaken; [|exact Fu]. intros a b Hab. eapply alive_more; eassumption. }
      exists h'. split; [exact E|]. split; [exists n; exact O|]. split; [exact S|exact L].
    - rewrite <- (map_cons pt_entry t us), <- Et. clear - Tt nodup Et. assert (H : forall vs, incl vs ts -> Forall2 (is_item tk attrs_of os) (map pt_ref vs) (map pt_entry vs)).
      { induction vs as [|v vs IH]; intros I; cbn [map]; constructor; [|apply IH; intros x Ix; apply I; right; exact Ix].
        assert (Iv : In v ts) by (apply I; left; reflexivity). unfold is_item. rewrite (attrs_at v Iv). exact (proj1 (Tt v Iv)). }
      rewrite <- (map_cons pt_ref), <- Et. apply H. apply incl_refl.
    - rewrite <- (map_cons pt_entry t us), <- Et. rewrite Forall_forall. intros e Ie. apply in_map_iff in Ie as (u & Eu & Iu). exists u. split; [exact Iu|]. split; [exact Eu|]. exact (U u Iu).
    - rewrite <- (map_cons pt_entry t us), <- Et. exact N.
    - eapply (distinct_items os tk attrs_of _ (map pt_entry ts)); [|rewrite map_map; exact nodup].
      clear - Tt nodup Et. assert (H : forall vs, incl vs ts -> Forall2 (fun r e => alive os r (PyStruct tk (e_addr e) (attrs_of e))) (map pt_ref vs) (map pt_entry vs)).
      { induction vs as [|v vs IH]; intros I; cbn [map]; constructor; [|apply IH; intros x Ix; apply I; right; exact Ix].
        assert (Iv : In v ts) by (apply I; left; reflexivity). rewrite (attrs_at v Iv). exact (proj1 (Tt v Iv)). }
      rewrite <- ?(map_cons pt_ref), <- ?Et. apply H. apply incl_refl.
  Qed.
End Threads.
