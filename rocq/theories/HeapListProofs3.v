From Coq Require Import Sorting.Sorted.
From Verif Require Import Base Types ParseProofs CmpModel CmpSpec CmpProofs RpmModel RpmSpec RpmProofs2 HeapModel HeapSpec HeapProofs HeapProofs2 HeapProofs3 HeapListModel HeapListSpec HeapListProofs HeapListProofs2.
Open Scope nat_scope.

(** ** Reading a package *)
Definition bare (p : rpm_package) : rpm_package :=
  mk_rpm_package (rp_name p) (rp_epoch p) (rp_version p) (rp_release p) (rp_architecture p) (rp_install_time p) (rp_role p) [].
Lemma get_opt_ok h p s f : own_strs h [p] [s] f -> get_opt h p = Ok s.
Proof.
  intros O. inversion O as [|? ? ? O'|a s' ? ? f0 Ha O']; subst; [reflexivity|]. unfold get_opt, get_str. rewrite (get_live _ _ _ Ha) by discriminate. reflexivity.
Qed.
Lemma package_at_ok h n e p : own h KRpm n e -> is_package (e_val e) p -> package_at h (e_addr e) = Ok (bare p).
Proof.
  intros O P. destruct (package_inv _ _ _ _ O P) as (time & role & a & b & c & d & ss & pc & lc & fs & raw & Hc & -> & R & -> & Os & _).
  unfold package_at. rewrite (get_live _ _ _ Hc) by discriminate. cbn [bind].
  destruct (own_strs_split _ _ _ _ _ Os) as (s1 & ss1 & f1 & g1 & E1 & _ & O1 & P1). injection E1 as <- <-.
  destruct (own_strs_split _ _ _ _ _ P1) as (s2 & ss2 & f2 & g2 & E2 & _ & O2 & P2). injection E2 as <- <-.
  destruct (own_strs_split _ _ _ _ _ P2) as (s3 & ss3 & f3 & g3 & E3 & _ & O3 & P3). injection E3 as <- <-.
  rewrite (get_opt_ok _ _ _ _ O1), (get_opt_ok _ _ _ _ O2), (get_opt_ok _ _ _ _ O3), (get_opt_ok _ _ _ _ P3). cbn [bind].
  unfold bare. now rewrite R.
Qed.
Lemma bare_nevra p q : rpm_cmp_nevra (bare p) (bare q) = rpm_cmp_nevra p q.
Proof. reflexivity. Qed.
Lemma bare_merge p q : package_merge (bare p) (bare q) = package_merge p q.
Proof. reflexivity. Qed.

(** ** Sorting *)
Lemma nodes_ok h k : forall l fuel p, own_list h k p l -> length l <= fuel -> nodes fuel h p = Ok (map e_addr l).
Proof.
  induction l as [|e l IH]; intros fuel p O Lf; inversion O as [|? n ? ? Oe Ol]; subst; [destruct fuel; reflexivity|].
  destruct fuel as [|fuel]; [cbn in Lf; lia|]. cbn [nodes]. rewrite (own_next _ _ _ _ Oe). cbn [bind].
  rewrite (IH fuel n Ol) by (cbn in Lf; lia). reflexivity.
Qed.
Lemma addrs_in_foot h k (l : list entry) : (forall e, In e l -> exists n, own h k n e) -> forall x, In x (map e_addr l) -> In x (foot l).
Proof.
  intros O x I. apply in_map_iff in I as (e & <- & Ie). destruct (O e Ie) as [n Oe]. eapply in_foot; [exact Ie|]. eapply own_foot; exact Oe.
Qed.
Lemma relink_ok k : forall l h, (forall e, In e l -> exists n, own h k n e) -> NoDup (foot l) ->
  exists h', relink h (map e_addr l) = Ok h' /\ own_list h' k (match l with [] => None | e :: _ => Some (e_addr e) end) l /\
    same_outside (map e_addr l) h h' /\ length h' = length h.
Proof.
  induction l as [|e l IH]; intros h O N.
  - exists h. repeat split. constructor.
  - rewrite foot_cons in N. apply NoDup_app_inv in N as (Ne & Nl & D). destruct (O e (or_introl eq_refl)) as [n0 Oe].
    cbn [map relink].
    assert (E : match map e_addr l with [] => None | b :: _ => Some b end = match l with [] => None | e :: _ => Some (e_addr e) end) by (destruct l; reflexivity).
    rewrite E. set (n := match l with [] => None | e :: _ => Some (e_addr e) end) in *.
    destruct (set_next_ok h k n0 e n Oe Ne) as (h1 & E1 & O1 & S1 & L1). rewrite E1. cbn [bind].
    destruct (IH h1) as (h2 & E2 & O2 & S2 & L2); [|exact Nl|].
    { intros x Ix. destruct (O x (or_intror Ix)) as [nx Ox]. exists nx. eapply own_same; [exact Ox|]. intros y Iy. apply S1. intros [<-|[]].
      apply (D (e_addr e)); [eapply own_foot; exact Oe|]. eapply in_foot; eassumption. }
    exists h2. split; [exact E2|]. split; [|split; [|lia]].
    + econstructor; [|exact O2]. eapply own_same; [exact O1|]. intros y Iy. apply S2. intros I. apply (D y Iy).
      eapply addrs_in_foot; [|exact I]. intros x Ix. exact (O x (or_intror Ix)).
    + intros x Hx. cbn [map In] in Hx. rewrite S2 by tauto. apply S1. cbn. tauto.
Qed.
Lemma sorted_values h : forall l ps, Forall2 (fun e p => package_at h (e_addr e) = Ok (bare p)) l ps ->
  StronglySorted (fun x y => (cmp_nevra_qsort_wrapper h x y <= 0)%Z) (map e_addr l) -> StronglySorted (fun p q => (rpm_cmp_nevra p q <= 0)%Z) ps.
Proof.
  intros l ps F. induction F as [|e p l ps H F IH]; intros S; constructor.
  - apply IH. now inversion S.
  - inversion S as [|? ? _ A]; subst. clear - H F A. induction F as [|e' p' l ps H' F IH]; constructor.
    + inversion A; subst. unfold cmp_nevra_qsort_wrapper in *. rewrite H, H', bare_nevra in *. assumption.
    + apply IH. now inversion A.
Qed.
Lemma Forall2_weaken {A B} (R S : A -> B -> Prop) l m : (forall a b, R a b -> S a b) -> Forall2 R l m -> Forall2 S l m.
Proof. intros H F. induction F; constructor; auto. Qed.
Lemma both {A B} (R S : A -> B -> Prop) l m : Forall2 R l m -> Forall2 S l m -> Forall2 (fun a b => R a b /\ S a b) l m.
Proof. intros F. induction F; intros G; inversion G; subst; constructor; auto. Qed.
Lemma package_sort_ok qsort h p l ps : sorts_array qsort -> own_list h KRpm p l -> packages_are l ps -> separate (foot l) -> l <> [] ->
  Forall (fun q => small (rp_epoch q)) ps ->
  exists h' p' l' ps', package_sort qsort h p = Ok (h', p') /\ own_list h' KRpm p' l' /\ packages_are l' ps' /\
    Permutation l l' /\ Permutation ps ps' /\ StronglySorted (fun a b => (rpm_cmp_nevra a b <= 0)%Z) ps' /\
    same_outside (map e_addr l) h h' /\ length h' = length h.
Proof.
  intros Q O P N Hl Sm. unfold package_sort. rewrite (nodes_ok _ _ _ _ _ O (own_list_bound _ _ _ _ O N)). cbn [bind].
  assert (Oe : forall e, In e l -> exists n, own h KRpm n e).
  { intros e I. eapply entry_own; [apply seg_list; exact O|exact I]. }
  assert (At : Forall2 (fun e p => package_at h (e_addr e) = Ok (bare p)) l ps).
  { unfold packages_are in P. clear - P Oe. induction P as [|e p l ps H P IH]; constructor.
    - destruct (Oe e (or_introl eq_refl)) as [n O]. eapply package_at_ok; eassumption.
    - apply IH. intros x I. apply Oe. now right. }
  set (ok := fun a => exists p, package_at h a = Ok (bare p) /\ small (rp_epoch p)).
  destruct (Q ok (fun a b => cmp_nevra_qsort_wrapper h a b = 0%Z) (cmp_nevra_qsort_wrapper h) (map e_addr l)) as [Pm St].
  - split; [reflexivity|]. destruct rpm_nevra_orders as (_ & R2 & R3). unfold cmp_nevra_qsort_wrapper. split.
    + intros x y (px & -> & Sx) (py & -> & Sy). rewrite !bare_nevra. apply R2; assumption.
    + intros x y z (px & -> & Sx) (py & -> & Sy) (pz & -> & Sz). rewrite !bare_nevra. apply R3; assumption.
  - clear - At Sm ok. induction At as [|e p l ps H F IH]; constructor.
    + exists p. split; [exact H|]. now inversion Sm.
    + apply IH. now inversion Sm.
  - destruct (Permutation_map_inv _ _ (Permutation_sym Pm)) as (l' & E & Pl). rewrite E in *.
    destruct (Permutation_Forall2 Pl (both _ _ _ _ P At)) as (ps' & Pp & At'). destruct (relink_ok KRpm l' h) as (h' & E' & O' & So & L').
    { intros e I. apply Oe. eapply Permutation_in; [symmetry; exact Pl|exact I]. }
    { unfold foot. eapply Permutation_NoDup; [|exact N]. unfold foot. clear - Pl. induction Pl; cbn.
      - constructor. - now apply Permutation_app_head. - rewrite !app_assoc. apply Permutation_app_tail, Permutation_app_comm. - etransitivity; eassumption. }
    rewrite E'. cbn [bind]. destruct l' as [|e l']; [apply Permutation_sym, Permutation_nil in Pl; contradiction|].
    cbn [map]. exists h', (Some (e_addr e)), (e :: l'), ps'. split; [reflexivity|]. split; [exact O'|]. split; [|split; [exact Pl|split; [exact Pp|split; [|split; [|exact L']]]]].
    + unfold packages_are. eapply Forall2_weaken; [|exact At']. cbn. tauto.
    + eapply sorted_values; [|exact St]. eapply Forall2_weaken; [|exact At']. cbn. tauto.
    + intros x Hx. apply So. intro I. apply Hx. eapply Permutation_in; [symmetry; apply Permutation_map; exact Pl|exact I].
Qed.

Lemma package_sort_empty qsort h : sorts_array qsort -> package_sort qsort h None = UB.
Proof.
  intros Q. unfold package_sort. replace (nodes (length h) h None) with (@Ok (list addr) []) by (destruct (length h); reflexivity). cbn [bind].
  destruct (Q (fun _ => False) (fun _ _ => True) (cmp_nevra_qsort_wrapper h) []) as [P _]; [repeat split; easy|constructor|].
  apply Permutation_nil in P. rewrite P. reflexivity.
Qed.

(** ** Merging *)
Lemma dup_opt h p s f : own_strs h [p] [s] f -> exists h' q f', g_strdup h p = Ok (h', q) /\ ext h h' /\ own_strs h' [q] [s] f' /\ fresh h h' f'.
Proof.
  intros O. inversion O as [|? ? ? O'|a s' ? ? f0 Ha O']; subst.
  - exists h, None, []. split; [reflexivity|]. split; [apply ext_refl|]. split; [repeat constructor|apply fresh_nil].
  - rewrite (g_strdup_ok _ _ _ Ha). do 3 eexists. split; [reflexivity|]. split; [apply ext_alloc|]. split; [constructor; [apply alloc_at|constructor]|].
    split; [repeat constructor; easy|]. intros x. rewrite app_length. cbn. lia.
Qed.
Lemma ext_strs h h' ps ss f : ext h h' -> own_strs h ps ss f -> own_strs h' ps ss f.
Proof. intros X O. eapply own_strs_same; [exact O|]. apply ext_same_on; [exact X|]. eapply own_strs_valid; exact O. Qed.
Lemma strs_app h ps ss f qs ts g : own_strs h ps ss f -> own_strs h qs ts g -> own_strs h (ps ++ qs) (ss ++ ts) (f ++ g).
Proof. intros O P. induction O; cbn [app]; [exact P|constructor; assumption|constructor; assumption]. Qed.
Lemma merge_none_at h na nb a b p q : own h KRpm na a -> own h KRpm nb b -> is_package (e_val a) p -> is_package (e_val b) q ->
  package_merge p q = None -> package_merge_at h (e_addr a) (e_addr b) = Ok (h, None).
Proof.
  intros Oa Ob Pa Pb E. unfold package_merge_at. rewrite (package_at_ok _ _ _ _ Oa Pa), (package_at_ok _ _ _ _ Ob Pb). cbn [bind]. now rewrite bare_merge, E.
Qed.
Lemma merge_some_at h na nb a b p q m : own h KRpm na a -> own h KRpm nb b -> is_package (e_val a) p -> is_package (e_val b) q ->
  package_merge p q = Some m -> exists h' e, package_merge_at h (e_addr a) (e_addr b) = Ok (h', Some (e_addr e)) /\ ext h h' /\
    own h' KRpm None e /\ is_package (e_val e) m /\ fresh h h' (e_foot e).
Proof.
  intros Oa Ob Pa Pb E. unfold package_merge_at. rewrite (package_at_ok _ _ _ _ Oa Pa), (package_at_ok _ _ _ _ Ob Pb). cbn [bind]. rewrite bare_merge, E.
  destruct (package_inv _ _ _ _ Oa Pa) as (time1 & role1 & a1 & b1 & c1 & d1 & ss1 & pc1 & lc1 & fs1 & raw1 & Hc1 & T1 & R1 & -> & Os1 & _).
  destruct (package_inv _ _ _ _ Ob Pb) as (time2 & role2 & a2 & b2 & c2 & d2 & ss2 & pc2 & lc2 & fs2 & raw2 & Hc2 & T2 & R2 & -> & Os2 & _).
  rewrite (get_live _ _ _ Hc1), (get_live _ _ _ Hc2) by discriminate. cbn [bind]. unfold alloc.
  set (h0 := h ++ [_]). assert (X0 : ext h h0) by apply ext_alloc.
  destruct (own_strs_split _ _ _ _ _ Os1) as (s1 & ss1 & f1 & g1 & E1 & _ & O1 & P1). injection E1 as <- <-.
  destruct (own_strs_split _ _ _ _ _ P1) as (s2 & ss2 & f2 & g2 & E2 & _ & O2 & P2). injection E2 as <- <-.
  destruct (own_strs_split _ _ _ _ _ P2) as (s3 & ss3 & f3 & g3 & E3 & _ & O3 & O4). injection E3 as <- <-.
  destruct (own_strs_split _ _ _ _ _ Os2) as (s5 & ss5 & f5 & g5 & E5 & _ & _ & P5). injection E5 as <- <-.
  destruct (own_strs_split _ _ _ _ _ P5) as (s6 & ss6 & f6 & g6 & E6 & _ & _ & P6). injection E6 as <- <-.
  destruct (own_strs_split _ _ _ _ _ P6) as (s7 & ss7 & f7 & g7 & E7 & _ & _ & O8). injection E7 as <- <-.
  destruct (dup_opt h0 _ _ _ (ext_strs _ _ _ _ _ X0 O1)) as (h1 & q1 & k1 & D1 & X1 & W1 & F1). rewrite D1. cbn [bind].
  assert (Y1 := ext_trans _ _ _ X0 X1).
  destruct (dup_opt h1 _ _ _ (ext_strs _ _ _ _ _ Y1 O2)) as (h2 & q2 & k2 & D2 & X2 & W2 & F2). rewrite D2. cbn [bind].
  assert (Y2 := ext_trans _ _ _ Y1 X2).
  destruct (dup_opt h2 _ _ _ (ext_strs _ _ _ _ _ Y2 O3)) as (h3 & q3 & k3 & D3 & X3 & W3 & F3). rewrite D3. cbn [bind].
  assert (Y3 := ext_trans _ _ _ Y2 X3).
  assert (O9 : exists g, own_strs h [match d1 with Some _ => d1 | None => d2 end] [match rp_architecture p with Some x => Some x | None => rp_architecture q end] g).
  { clear - O4 O8. destruct (rp_architecture p), d1; try solve [inversion O4]; eexists; eassumption. }
  destruct O9 as [g9 O9].
  destruct (dup_opt h3 _ _ _ (ext_strs _ _ _ _ _ Y3 O9)) as (h4 & q4 & k4 & D4 & X4 & W4 & F4). rewrite D4. cbn [bind].
  assert (Y4 := ext_trans _ _ _ X1 (ext_trans _ _ _ X2 (ext_trans _ _ _ X3 X4))).
  assert (Hm : nth_error h4 (length h) = Some (CObj KRpm [0; 0; 0]%Z [None; None; None; None] [None] None [] None)).
  { destruct Y4 as [_ Y4]. rewrite Y4; [apply alloc_at|unfold h0; rewrite app_length; cbn; lia]. }
  rewrite (set_live _ _ _ _ Hm) by discriminate. cbn [bind].
  set (c := CObj KRpm _ _ _ _ _ _). set (h5 := put h4 (length h) c).
  assert (L0 : length h0 = S (length h)) by (unfold h0; rewrite app_length; cbn; lia).
  assert (Ws : own_strs h4 [q1; q2; q3; q4] [rp_name p; rp_version p; rp_release p; match rp_architecture p with Some x => Some x | None => rp_architecture q end] (k1 ++ k2 ++ k3 ++ k4)).
  { change [q1; q2; q3; q4] with ([q1] ++ [q2] ++ [q3] ++ [q4]).
    match goal with |- own_strs _ _ [?x; ?y; ?z; ?t] _ => change [x; y; z; t] with ([x] ++ [y] ++ [z] ++ [t]) end.
    apply strs_app; [eapply ext_strs; [|exact W1]; eapply ext_trans; [exact X2|eapply ext_trans; eassumption]|].
    apply strs_app; [eapply ext_strs; [|exact W2]; eapply ext_trans; eassumption|].
    apply strs_app; [eapply ext_strs; [|exact W3]; assumption|exact W4]. }
  assert (Fr : fresh h0 h4 (k1 ++ k2 ++ k3 ++ k4)).
  { pose proof (proj1 X1); pose proof (proj1 X2); pose proof (proj1 X3); pose proof (proj1 X4).
    apply (fresh_app h0 h1 h4); [lia|exact F1|]. apply (fresh_app h1 h2 h4); [lia|exact F2|]. apply (fresh_app h2 h3 h4); [lia|exact F3|exact F4]. }
  assert (Lm : length h < length h4) by (pose proof (proj1 Y4); lia).
  assert (S5 : same_on (k1 ++ k2 ++ k3 ++ k4) h4 h5).
  { intros x Ix. unfold h5. apply put_other. apply Fr in Ix. lia. }
  exists h5. eexists (length h, Val _ _ _ _, length h :: (k1 ++ k2 ++ k3 ++ k4) ++ [] ++ []). split; [reflexivity|]. split; [|split; [|split]].
  - pose proof (proj1 Y4). split; [unfold h5; rewrite put_length; lia|]. intros x Hx. unfold h5. rewrite put_other by lia.
    destruct Y4 as [_ Y4]. rewrite Y4 by lia. apply X0. exact Hx.
  - eapply own_obj.
    + unfold h5. apply put_same. exact Lm.
    + reflexivity.
    + eapply own_strs_same; eassumption.
    + constructor.
    + change (@nil addr) with (foot [] ++ @nil addr). constructor; [constructor|easy|constructor].
  - cbn [e_val fst snd map].
    assert (Em : m = mk_rpm_package (rp_name p) (rp_epoch p) (rp_version p) (rp_release p) (match rp_architecture p with Some x => Some x | None => rp_architecture q end)
       (if (time1 =? 0)%Z then time2 else time1) (if ((if (role1 =? 0)%Z then role2 else role1) =? 0)%Z then ROLE_UNKNOWN else ROLE_AFFECTED) []).
    { revert E. unfold package_merge. destruct (negb _); [discriminate|]. destruct (negb _); [discriminate|]. match goal with |- (if ?b then _ else _) = _ -> _ => destruct b end; [discriminate|].
      intro E. injection E as <-. rewrite T1, T2, R1, R2. f_equal. destruct (role1 =? 0)%Z eqn:Z1; [reflexivity|]. now rewrite Z1. }
    rewrite Em. constructor. constructor.
  - cbn [e_foot snd]. rewrite !app_nil_r. unfold h5. split.
    + constructor; [|apply Fr]. intro I. apply Fr in I. lia.
    + intro x. rewrite put_length. cbn [In]. destruct Fr as [_ Fr]. rewrite Fr. lia.
Qed.
