From Verif Require Import Base HeapModel HeapSpec HeapProofs HeapProofs2 HeapProofs3 HeapListModel HeapListSpec HeapListProofs HeapListProofs3 PyModel PySpec PyProofs PyProofs2 PyProofs3 PyProofs4 PyProofs6 PyProofs7 PyMethSpec PyMethProofs2 PyGdbSpec PyGdbProofs.
Open Scope nat_scope.

Lemma objects_apart os h tk fk t u nt nu : thread_object os tk fk t -> thread_object os tk fk u -> unlinked_thread h tk fk nt (pt_entry t) (pt_frames t) ->
  unlinked_thread h tk fk nu (pt_entry u) (pt_frames u) -> (forall x, In x (e_foot (pt_entry t)) -> ~ In x (e_foot (pt_entry u))) -> pt_list t <> pt_list u -> refs_apart t u.
Proof.
  intros [[mt Ht] [[mlt Lt] Ft]] [[mu Hu] [[mlu Lu] Fu]] Ut Uu D Nl x.
  assert (Na : e_addr (pt_entry t) <> e_addr (pt_entry u)).
  { intros E. apply (D (e_addr (pt_entry t))); [eapply unlinked_addr; exact Ut|]. rewrite E. eapply unlinked_addr; exact Uu. }
  assert (Clash : forall a n b m c, object os a n b -> object os a m c -> b = c) by (intros a n b m c H1 H2; destruct (object_fun _ _ _ _ _ _ H1 H2); assumption).
  unfold pt_refs. cbn [In]. intros [E|[E|I]] [E'|[E'|I']].
  - subst x. rewrite E' in Hu. pose proof (Clash _ _ _ _ _ Ht Hu) as E. injection E as E _. congruence.
  - subst x. rewrite E' in Lu. pose proof (Clash _ _ _ _ _ Ht Lu) as E. discriminate E.
  - subst x. destruct (Forall2_in _ _ _ Fu _ I') as (f & _ & [m Hf]). pose proof (Clash _ _ _ _ _ Ht Hf) as E. injection E as _ _ E. discriminate E.
  - subst x. rewrite E' in Hu. pose proof (Clash _ _ _ _ _ Lt Hu) as E. discriminate E.
  - congruence.
  - subst x. destruct (Forall2_in _ _ _ Fu _ I') as (f & _ & [m Hf]). pose proof (Clash _ _ _ _ _ Lt Hf) as E. discriminate E.
  - subst x. destruct (Forall2_in _ _ _ Ft _ I) as (f & _ & [m Hf]). pose proof (Clash _ _ _ _ _ Hu Hf) as E. injection E as _ _ E. discriminate E.
  - subst x. destruct (Forall2_in _ _ _ Ft _ I) as (f & _ & [m Hf]). pose proof (Clash _ _ _ _ _ Lu Hf) as E. discriminate E.
  - destruct (Forall2_in _ _ _ Ft _ I) as (f & If & [m Hf]). destruct (Forall2_in _ _ _ Fu _ I') as (g & Ig & [m' Hg]).
    pose proof (Clash _ _ _ _ _ Hf Hg) as E. injection E as E. apply (D (e_addr f)); [eapply frame_foot; eassumption|]. rewrite E. eapply frame_foot; eassumption.
Qed.
Lemma thread_object_same os os' tk fk t : thread_object os tk fk t -> (forall x, In x (pt_refs t) -> nth_error os' x = nth_error os x) -> thread_object os' tk fk t.
Proof.
  intros [[m H] [[ml Hl] F]] G. unfold pt_refs in G. split; [exists m; unfold object; rewrite G by (left; reflexivity); exact H|].
  split; [exists ml; unfold object; rewrite G by (right; left; reflexivity); exact Hl|].
  assert (Gi : forall x, In x (pt_items t) -> nth_error os' x = nth_error os x) by (intros x Ix; apply G; right; right; exact Ix).
  clear - F Gi. revert Gi. induction F as [|a b l k [c Hc] F IHF]; intros Gi; constructor; [|apply IHF; intros x Ix; apply Gi; right; exact Ix].
  exists c. unfold object. rewrite Gi by (left; reflexivity). exact Hc.
Qed.
Lemma thread_lost_same os os' t x : (forall y, In y (pt_refs t) -> nth_error os' y = nth_error os y) -> thread_lost os' t x <-> thread_lost os t x.
Proof.
  intros G. unfold pt_refs in G. unfold thread_lost, object. rewrite (G (pt_ref t)) by (left; reflexivity). rewrite (G (pt_list t)) by (right; left; reflexivity).
  rewrite (dying_combine_same os os'); [tauto|]. intros y Iy. apply G. right. right. exact Iy.
Qed.
Lemma thread_left_same os os' os1 os1' t : thread_left os1 os1' t -> (forall x, In x (pt_refs t) -> nth_error os1 x = nth_error os x) ->
  (forall x, In x (pt_refs t) -> nth_error os1' x = nth_error os' x) -> thread_left os os' t.
Proof.
  intros [T1 T2] E E'. unfold pt_refs in *. split.
  - intros n b Hb. destruct (T1 n b) as [H F]; [unfold object; rewrite E by (left; reflexivity); exact Hb|]. split; [unfold object; rewrite <- E' by (left; reflexivity); exact H|].
    rewrite Forall_forall in *. intros x Ix. rewrite <- E', <- E by (right; exact Ix). apply F. exact Ix.
  - intros b ml Hb Hl. destruct (T2 b ml) as [H G]; [unfold object; rewrite E by (left; reflexivity); exact Hb|unfold object; rewrite E by (right; left; reflexivity); exact Hl|].
    split; [rewrite <- E' by (left; reflexivity); exact H|]. eapply gave_up_same; [exact G| |]; intros x Ix; [apply E|apply E']; right; exact Ix.
Qed.

Lemma threads_released tk fk fuel : forall ts os h, Forall (thread_object os tk fk) ts -> unlinked_threads h tk fk ts -> NoDup (foot (map pt_entry ts)) -> NoDup (map pt_list ts) ->
  exists os' h' f, each_ref (decref_in (S (S (S fuel)))) (St os h) (map Some (map pt_ref ts)) = Ok (St os' h') /\ length os' = length os /\
    Forall (thread_left os os') ts /\ (forall x, ~ In x (concat (map pt_refs ts)) -> nth_error os' x = nth_error os x) /\
    freed_all f h h' /\ (forall x, In x f <-> exists t, In t ts /\ thread_lost os t x).
Proof.
  induction ts as [|t ts IH]; intros os h S U N Nl.
  - exists os, h, []. split; [reflexivity|]. split; [reflexivity|]. split; [constructor|]. split; [reflexivity|]. split; [apply freed_nil|]. intros x. split; [intros []|intros (t & [] & _)].
  - inversion S as [|? ? St S']; subst. inversion U as [|? ? [n Ut] U']; subst. cbn [map] in N, Nl. rewrite foot_cons in N. apply NoDup_app_inv in N as (Nt & N & D).
    inversion Nl as [|? ? Nlt Nl']; subst.
    assert (Ap : forall u, In u ts -> refs_apart t u).
    { intros u Iu. pose proof S' as S2. pose proof U' as U2. unfold unlinked_threads in U2. rewrite Forall_forall in S2, U2. destruct (U2 u Iu) as [m Uu].
      eapply (objects_apart os h tk fk t u n m); try eassumption.
      - exact (S2 u Iu).
      - intros x Ix I. apply (D x Ix). eapply in_foot; [apply in_map; exact Iu|exact I].
      - intros E. apply Nlt. rewrite E. apply in_map. exact Iu. }
    destruct (thread_released fuel os h tk fk n t St Ut Nt) as (os1 & h1 & f1 & E1 & L1 & T1 & G1 & F1 & If1).
    assert (Gu : forall u x, In u ts -> In x (pt_refs u) -> nth_error os1 x = nth_error os x) by (intros u x Iu Ix; apply G1; intros I; exact (Ap u Iu x I Ix)).
    assert (Sub : forall x, In x f1 -> In x (e_foot (pt_entry t))).
    { intros x I. apply If1 in I. eapply lost_in_foot; [|exact Ut|exact I]. destruct St as [_ [_ Ft]]. exact Ft. }
    destruct (IH os1 h1) as (os2 & h2 & f2 & E2 & L2 & K2 & G2 & F2 & If2); [| |exact N|exact Nl'|].
    { rewrite Forall_forall in *. intros u Iu. eapply thread_object_same; [exact (S' u Iu)|]. intros x Ix. exact (Gu u x Iu Ix). }
    { eapply threads_local; [exact U'|]. eapply freed_same_on; [exact F1|]. intros x Ix I. exact (D x (Sub x I) Ix). }
    cbn [map each_ref]. rewrite E1. cbn [bind]. rewrite E2. exists os2, h2, (f1 ++ f2). split; [reflexivity|]. split; [lia|]. split; [|split; [|split]].
    + constructor.
      * eapply thread_left_same; [exact T1|reflexivity|]. intros x Ix. symmetry. apply G2. intros I. apply in_concat in I as (c & Ic & I). apply in_map_iff in Ic as (u & <- & Iu). exact (Ap u Iu x Ix I).
      * rewrite Forall_forall in *. intros u Iu. eapply thread_left_same; [exact (K2 u Iu)| |reflexivity]. intros x Ix. exact (Gu u x Iu Ix).
    + intros x Hx. cbn [map concat] in Hx. rewrite in_app_iff in Hx. rewrite G2 by tauto. apply G1. tauto.
    + eapply freed_app; eassumption.
    + intros x. rewrite in_app_iff, If1, If2. split.
      * intros [H|(u & Iu & H)]; [exists t; split; [left; reflexivity|exact H]|]. exists u. split; [right; exact Iu|]. apply (thread_lost_same os os1); [intros y; exact (Gu u y Iu)|exact H].
      * intros (u & [<-|Iu] & H); [left; exact H|]. right. exists u. split; [exact Iu|]. apply (thread_lost_same os os1); [intros y; exact (Gu u y Iu)|exact H].
Qed.

Lemma threads_given_up os h lt ml tk fk ts : object os lt ml (PyList (map pt_ref ts)) -> 0 < ml -> Forall (thread_object os tk fk) ts ->
  unlinked_threads h tk fk ts -> NoDup (foot (map pt_entry ts)) -> NoDup (lt :: map pt_list ts) ->
  exists os' h' f, decref (St os h) lt = Ok (St os' h') /\ length os' = length os /\ threads_left os os' lt ml ts /\
    (forall x, x <> lt -> (ml = 1 -> ~ In x (concat (map pt_refs ts))) -> nth_error os' x = nth_error os x) /\
    freed_all f h h' /\ (forall x, In x f <-> threads_lost os ml ts x).
Proof.
  intros Hl Hml So U N Nd. inversion Nd as [|? ? Nlin Nll]; subst. unfold threads_lost.
  assert (So' := So). rewrite Forall_forall in So'.
  assert (Clash : forall a n b m c, object os a n b -> object os a m c -> b = c) by (intros a n' b m c H1 H2; destruct (object_fun _ _ _ _ _ _ H1 H2); assumption).
  assert (Nl : forall t, In t ts -> ~ In lt (pt_refs t)).
  { intros t It. destruct (So' t It) as [[m1 H1] [_ H3]]. unfold pt_refs. cbn [In]. intros [E|[E|I]].
    - rewrite E in H1. pose proof (Clash _ _ _ _ _ Hl H1) as X. discriminate X.
    - apply Nlin. rewrite <- E. apply in_map. exact It.
    - destruct (Forall2_in _ _ _ H3 _ I) as (f & _ & [m Hm]). pose proof (Clash _ _ _ _ _ Hl Hm) as X. discriminate X. }
  assert (Nlc : ~ In lt (concat (map pt_refs ts))).
  { intros I. apply in_concat in I as (c & Ic & I). apply in_map_iff in Ic as (t & <- & It). exact (Nl t It I). }
  destruct ml as [|[|ml]]; [lia| |].
  2:{ exists (put_obj os lt (Some (S ml, PyList (map pt_ref ts)))), h, []. split; [unfold decref; apply decref_more; exact Hl|]. split; [apply put_obj_length|]. split; [|split; [|split]].
    - split; [lia|]. intros _. split; [cbn; apply (object_put_same os lt _ _ (S ml, PyList (map pt_ref ts)) Hl)|]. apply Forall_forall. intros x Ix. apply put_obj_other. intros ->. contradiction.
    - intros x Nx _. apply put_obj_other. exact Nx.
    - apply freed_nil.
    - intros x. split; [intros []|intros [? _]; discriminate]. }
  set (lb := PyList (map pt_ref ts)) in *. set (os1 := put_obj os lt (Some (0, lb))).
  assert (G1 : forall x, x <> lt -> nth_error os1 x = nth_error os x) by (intros x N1; apply put_obj_other; exact N1).
  assert (Gt : forall t x, In t ts -> In x (pt_refs t) -> nth_error os1 x = nth_error os x) by (intros t x It Ix; apply G1; intros ->; exact (Nl t It Ix)).
  assert (B3 : ts <> [] -> 3 <= length os).
  { destruct ts as [|t ts']; [congruence|]. intros _. destruct (So' t (or_introl eq_refl)) as [[m1 H1] [[m2 H2] _]].
    assert (Nd3 : NoDup [lt; pt_ref t; pt_list t]).
    { pose proof (Nl t (or_introl eq_refl)) as X. unfold pt_refs in X. cbn [In] in X.
      constructor; [cbn [In]; intros [E|[E|[]]]; apply X; [left|right; left]; exact E|]. constructor; [|constructor; [intros []|constructor]].
      intros [E|[]]. rewrite E in H2. pose proof (Clash _ _ _ _ _ H1 H2) as Y. discriminate Y. }
    apply (NoDup_bound _ (length os) Nd3). intros x [<-|[<-|[<-|[]]]]; eapply object_lt; eassumption. }
  assert (Rel : exists os2 h2 f, each_ref (decref_in (length os)) (St os1 h) (map Some (map pt_ref (rev ts))) = Ok (St os2 h2) /\ length os2 = length os1 /\
    Forall (thread_left os1 os2) ts /\ (forall x, ~ In x (concat (map pt_refs ts)) -> nth_error os2 x = nth_error os1 x) /\
    freed_all f h h2 /\ (forall x, In x f <-> exists t, In t ts /\ thread_lost os1 t x)).
  { destruct ts as [|t0 ts0].
    - exists os1, h, []. split; [reflexivity|]. split; [reflexivity|]. split; [constructor|]. split; [reflexivity|]. split; [apply freed_nil|]. intros x. split; [intros []|intros (t & [] & _)].
    - assert (exists f0, length os = S (S (S f0))) as [f0 E0] by (specialize (B3 ltac:(discriminate)); exists (length os - 3); lia). rewrite E0.
      destruct (threads_released tk fk f0 (rev (t0 :: ts0)) os1 h) as (os2 & h2 & f2 & E2 & L2 & K2 & G2 & F2 & If2).
      { apply Forall_forall. intros t It. apply in_rev in It. eapply thread_object_same; [exact (So' t It)|]. intros x Ix. exact (Gt t x It Ix). }
      { unfold unlinked_threads in *. rewrite Forall_forall in *. intros t It. apply U, in_rev. exact It. }
      { rewrite map_rev. apply foot_rev_nodup. exact N. }
      { rewrite map_rev. apply NoDup_rev. exact Nll. }
      exists os2, h2, f2. split; [exact E2|]. split; [exact L2|]. split; [|split; [|split]].
      + rewrite Forall_forall in *. intros t It. apply K2. apply in_rev. rewrite rev_involutive. exact It.
      + intros x Hx. apply G2. intros I. apply Hx. apply in_concat in I as (c & Ic & I). apply in_map_iff in Ic as (u & <- & Iu). apply in_rev in Iu.
        apply in_concat. exists (pt_refs u). split; [apply in_map; exact Iu|exact I].
      + exact F2.
      + intros x. rewrite If2. split; intros (t & It & H); exists t; (split; [|exact H]); [apply in_rev; exact It|apply in_rev; rewrite rev_involutive; exact It]. }
  destruct Rel as (os2 & h2 & f2 & E2 & L2 & K2 & G2 & F2 & If2).
  assert (Lr : lt < length os) by (eapply object_lt; exact Hl). assert (L1 : length os1 = length os) by (unfold os1; apply put_obj_length).
  exists (put_obj os2 lt None), h2, f2. split.
  { unfold decref. cbn [objs]. remember (length os) as fu. cbn [decref_in]. rewrite (obj_ok (St os h) lt _ _ Hl). cbn [bind]. unfold lb at 1. unfold set_obj. cbn [objs mem].
    fold os1. rewrite <- map_rev, E2. reflexivity. }
  split; [rewrite put_obj_length; lia|]. split; [|split; [|split]].
  - split; [|lia]. intros _. split; [apply put_obj_same; lia|]. rewrite Forall_forall in *. intros t It. eapply thread_left_same; [exact (K2 t It)|intros x; exact (Gt t x It)|].
    intros x Ix. symmetry. apply put_obj_other. intros ->. exact (Nl t It Ix).
  - intros x Nx Ni. rewrite put_obj_other by exact Nx. rewrite G2 by (apply Ni; reflexivity). apply G1. exact Nx.
  - exact F2.
  - intros x. rewrite If2. split.
    + intros (t & It & H). split; [reflexivity|]. exists t. split; [exact It|]. apply (thread_lost_same os os1); [intros y; exact (Gt t y It)|exact H].
    + intros (_ & t & It & H). exists t. split; [exact It|]. apply (thread_lost_same os os1); [intros y; exact (Gt t y It)|exact H].
Qed.
