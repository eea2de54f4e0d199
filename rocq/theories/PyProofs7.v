From Verif Require Import Base HeapModel HeapSpec HeapProofs HeapProofs2 HeapProofs3 HeapListModel HeapListSpec HeapListProofs HeapListProofs3 PyModel PySpec PyProofs PyProofs2 PyProofs3 PyProofs4 PyProofs6.
Open Scope nat_scope.

Lemma combine_fst {A B} (R : A -> B -> Prop) l m : Forall2 R l m -> map fst (combine l m) = l.
Proof. induction 1; cbn; congruence. Qed.
Lemma combine_snd {A B} (R : A -> B -> Prop) l m : Forall2 R l m -> map snd (combine l m) = m.
Proof. induction 1; cbn; congruence. Qed.
Lemma combine_all {A B} (R : A -> B -> Prop) l m : Forall2 R l m -> Forall (fun p => R (fst p) (snd p)) (combine l m).
Proof. induction 1; cbn; constructor; assumption. Qed.
Lemma Forall2_in {A B} (R : A -> B -> Prop) l m : Forall2 R l m -> forall x, In x l -> exists y, In y m /\ R x y.
Proof. induction 1 as [|a b l m H F IH]; intros x I; [destruct I|]. destruct I as [<-|I]; [exists b; split; [left; reflexivity|exact H]|]. destruct (IH x I) as (y & Iy & Hy). exists y. split; [right; exact Iy|exact Hy]. Qed.
Lemma frame_foot h tk fk n e es f : unlinked_thread h tk fk n e es -> In f es -> In (e_addr f) (e_foot e).
Proof. intros U I. eapply unlinked_cells; [exact U|]. right. apply in_map. exact I. Qed.

Definition refs_apart (t u : py_thread) : Prop := forall x, In x (pt_refs t) -> ~ In x (pt_refs u).
Lemma threads_apart os h tk fk t u nt nu : sole_threads os tk fk [t; u] -> unlinked_thread h tk fk nt (pt_entry t) (pt_frames t) ->
  unlinked_thread h tk fk nu (pt_entry u) (pt_frames u) -> (forall x, In x (e_foot (pt_entry t)) -> ~ In x (e_foot (pt_entry u))) -> pt_list t <> pt_list u -> refs_apart t u.
Proof.
  intros S Ut Uu D Nl x. inversion S as [|? ? (Ht & Lt & Ft) S']; subst. inversion S' as [|? ? (Hu & Lu & Fu) _]; subst. clear S S'.
  assert (Fk : fk <> tk).
  { destruct Ut as (? & ? & ? & ? & ? & ? & ? & ? & ? & Hk & _). destruct tk; cbn in Hk; try discriminate; injection Hk as <-; discriminate. }
  assert (Na : e_addr (pt_entry t) <> e_addr (pt_entry u)).
  { intros E. apply (D (e_addr (pt_entry t))); [eapply unlinked_addr; exact Ut|]. rewrite E. eapply unlinked_addr; exact Uu. }
  assert (Clash : forall a n b m c, object os a n b -> object os a m c -> b = c) by (intros a n b m c H1 H2; destruct (object_fun _ _ _ _ _ _ H1 H2); assumption).
  unfold pt_refs. cbn [In]. intros [E|[E|I]] [E'|[E'|I']].
  - subst x. rewrite E' in Hu. pose proof (Clash _ _ _ _ _ Ht Hu) as E. injection E as E _. congruence.
  - subst x. rewrite E' in Lu. pose proof (Clash _ _ _ _ _ Ht Lu) as E. discriminate E.
  - subst x. destruct (Forall2_in _ _ _ Fu _ I') as (f & _ & [m Hf]). pose proof (Clash _ _ _ _ _ Ht Hf) as E. injection E as E _ _. congruence.
  - subst x. rewrite E' in Hu. pose proof (Clash _ _ _ _ _ Lt Hu) as E. discriminate E.
  - congruence.
  - subst x. destruct (Forall2_in _ _ _ Fu _ I') as (f & _ & [m Hf]). pose proof (Clash _ _ _ _ _ Lt Hf) as E. discriminate E.
  - subst x. destruct (Forall2_in _ _ _ Ft _ I) as (f & _ & [m Hf]). pose proof (Clash _ _ _ _ _ Hu Hf) as E. injection E as E _ _. congruence.
  - subst x. destruct (Forall2_in _ _ _ Ft _ I) as (f & _ & [m Hf]). pose proof (Clash _ _ _ _ _ Lu Hf) as E. discriminate E.
  - destruct (Forall2_in _ _ _ Ft _ I) as (f & If & [m Hf]). destruct (Forall2_in _ _ _ Fu _ I') as (g & Ig & [m' Hg]).
    pose proof (Clash _ _ _ _ _ Hf Hg) as E. injection E as E. apply (D (e_addr f)); [eapply frame_foot; eassumption|]. rewrite E. eapply frame_foot; eassumption.
Qed.
Lemma dying_combine_same os os' items es : (forall r, In r items -> nth_error os' r = nth_error os r) -> dying os' (combine items es) = dying os (combine items es).
Proof. intros H. apply dying_same. intros p Ip. apply H. destruct p. eapply in_combine_l; exact Ip. Qed.

Lemma release_threads tk fk fuel : forall ts os h, sole_threads os tk fk ts -> unlinked_threads h tk fk ts -> NoDup (foot (map pt_entry ts)) -> NoDup (map pt_list ts) ->
  exists os' h', each_ref (decref_in (S (S (S fuel)))) (St os h) (map Some (map pt_ref ts)) = Ok (St os' h') /\ length os' = length os /\
    (forall t, In t ts -> nth_error os' (pt_ref t) = Some None /\ nth_error os' (pt_list t) = Some None /\ lost_one os os' (pt_items t)) /\
    (forall x, ~ In x (concat (map pt_refs ts)) -> nth_error os' x = nth_error os x) /\
    exists f, freed_all f h h' /\ (forall x, In x f <-> exists t, In t ts /\ thread_dying os t x).
Proof.
  induction ts as [|t ts IH]; intros os h S U N Nl.
  - exists os, h. split; [reflexivity|]. split; [reflexivity|]. split; [intros t []|]. split; [reflexivity|]. exists []. split; [apply freed_nil|]. intros x. split; [intros []|intros (t & [] & _)].
  - inversion S as [|? ? (Ht & Lt & Ft) S']; subst. inversion U as [|? ? [n Ut] U']; subst. cbn [map] in N, Nl. rewrite foot_cons in N. apply NoDup_app_inv in N as (Nt & N & D).
    inversion Nl as [|? ? Nlt Nl']; subst.
    assert (Ap : forall u, In u ts -> refs_apart t u).
    { intros u Iu. pose proof S' as S2. pose proof U' as U2. unfold sole_threads, unlinked_threads in S2, U2. rewrite Forall_forall in S2, U2. destruct (U2 u Iu) as [m Uu].
      eapply (threads_apart os h tk fk t u n m); try eassumption.
      - constructor; [repeat split; assumption|]. constructor; [exact (S2 u Iu)|constructor].
      - intros x Ix I. apply (D x Ix). eapply in_foot; [apply in_map; exact Iu|exact I].
      - intros E. apply Nlt. rewrite E. apply in_map. exact Iu. }
    destruct (thread_destroyed fuel os h (pt_ref t) (pt_list t) tk fk n (pt_entry t) (combine (pt_items t) (pt_frames t))) as (os1 & h1 & E1 & L1 & Hr1 & Hl1 & Lo1 & G1 & (f1 & F1 & If1)).
    { exact Ht. }
    { rewrite (combine_fst _ _ _ Ft). exact Lt. }
    { exact (combine_all _ _ _ Ft). }
    { rewrite (combine_snd _ _ _ Ft). exact Ut. }
    { exact Nt. }
    rewrite (combine_fst _ _ _ Ft) in Lo1, G1. rewrite (combine_snd _ _ _ Ft) in If1. change (forall x, In x f1 <-> thread_dying os t x) in If1.
    assert (G1' : forall x, ~ In x (pt_refs t) -> nth_error os1 x = nth_error os x).
    { intros x Hx. unfold pt_refs in Hx. cbn [In] in Hx. apply G1; [intros ->; tauto|intros ->; tauto|tauto]. }
    assert (Gu : forall u x, In u ts -> In x (pt_refs u) -> nth_error os1 x = nth_error os x) by (intros u x Iu Ix; apply G1'; intros I; exact (Ap u Iu x I Ix)).
    assert (Sub : forall x, In x f1 -> In x (e_foot (pt_entry t))).
    { intros x I. apply If1 in I. destruct I as [[I _]|I]; [exact I|]. apply dying_in in I. rewrite (combine_snd _ _ _ Ft) in I.
      destruct Ut as (? & ? & ? & ? & ? & ? & ? & ? & ? & _ & _ & _ & _ & _ & _ & Ef & _). rewrite Ef. right. apply in_app_iff. right. apply in_app_iff. right. exact I. }
    destruct (IH os1 h1) as (os2 & h2 & E2 & L2 & K2 & G2 & (f2 & F2 & If2)); [| |exact N|exact Nl'|].
    { unfold sole_threads in *. rewrite Forall_forall in *. intros u Iu. destruct (S' u Iu) as (Hu & Lu & Fu). unfold pt_refs in Gu. split; [|split].
      - unfold object. rewrite (Gu u) by (try exact Iu; left; reflexivity). exact Hu.
      - unfold object. rewrite (Gu u) by (try exact Iu; right; left; reflexivity). exact Lu.
      - assert (Gi : forall x, In x (pt_items u) -> nth_error os1 x = nth_error os x) by (intros x Ix; apply (Gu u x Iu); right; right; exact Ix).
        clear - Fu Gi. revert Gi. induction Fu as [|a b l m [c Hc] F IHF]; intros Gi; constructor; [|apply IHF; intros x Ix; apply Gi; right; exact Ix].
        exists c. unfold object. rewrite Gi by (left; reflexivity). exact Hc. }
    { eapply threads_local; [exact U'|]. eapply freed_same_on; [exact F1|]. intros x Ix I. exact (D x (Sub x I) Ix). }
    cbn [map each_ref]. rewrite E1. cbn [bind]. rewrite E2. exists os2, h2. split; [reflexivity|]. split; [lia|]. split; [|split].
    + assert (Gt : forall x, In x (pt_refs t) -> nth_error os2 x = nth_error os1 x).
      { intros x Ix. apply G2. intros I. apply in_concat in I as (c & Ic & I). apply in_map_iff in Ic as (u & <- & Iu). exact (Ap u Iu x Ix I). }
      intros u [<-|Iu].
      * split; [rewrite Gt by (left; reflexivity); exact Hr1|]. split; [rewrite Gt by (right; left; reflexivity); exact Hl1|]. destruct Lo1 as [Lo1 Lo2]. split.
        -- intros x c b Ix Hx. unfold object. rewrite Gt by (right; right; exact Ix). apply (Lo1 x c b Ix Hx).
        -- intros x b Ix Hx. rewrite Gt by (right; right; exact Ix). apply (Lo2 x b Ix Hx).
      * destruct (K2 u Iu) as (K & Kl & [Lp1 Lp2]). split; [exact K|]. split; [exact Kl|]. split.
        -- intros x c b Ix Hx. apply (Lp1 x c b Ix). unfold object. rewrite (Gu u x Iu) by (right; right; exact Ix). exact Hx.
        -- intros x b Ix Hx. apply (Lp2 x b Ix). unfold object. rewrite (Gu u x Iu) by (right; right; exact Ix). exact Hx.
    + intros x Hx. cbn [map concat] in Hx. rewrite in_app_iff in Hx. rewrite G2 by tauto. apply G1'. tauto.
    + exists (f1 ++ f2). split; [eapply freed_app; eassumption|]. intros x. rewrite in_app_iff, If1, If2. split.
      * intros [H|(u & Iu & H)]; [exists t; split; [left; reflexivity|exact H]|]. exists u. split; [right; exact Iu|].
        destruct H as [H|H]; [left; exact H|right]. rewrite (dying_combine_same os os1) in H; [exact H|]. intros y Iy. apply (Gu u y Iu). right. right. exact Iy.
      * intros (u & [<-|Iu] & H); [left; exact H|]. right. exists u. split; [exact Iu|]. destruct H as [H|H]; [left; exact H|right].
        rewrite (dying_combine_same os os1); [exact H|]. intros y Iy. apply (Gu u y Iu). right. right. exact Iy.
Qed.

Lemma sole_rev os tk fk ts : sole_threads os tk fk ts -> sole_threads os tk fk (rev ts).
Proof. unfold sole_threads. rewrite !Forall_forall. intros H t It. apply H, in_rev. exact It. Qed.
Lemma stack_kind_holder k tk : (k = KCoreStack \/ k = KJavaStack) -> thread_type k = Some tk -> holder k.
Proof. intros [-> | ->] _; split; reflexivity. Qed.
Lemma stack_destroyed_in fuel os h r l k tk fk n e ts : thread_type k = Some tk -> frame_kind tk = Some fk ->
  object os r 1 (PyStruct k (e_addr e) [Some l]) -> object os l 1 (PyList (map pt_ref ts)) -> sole_threads os tk fk ts -> NoDup (map pt_list ts) -> ~ In l (map pt_list ts) ->
  unlinked_stack h k n e ts -> NoDup (e_foot e) -> (ts <> [] -> exists f, fuel = S (S (S f))) ->
  exists os' h', decref_in (S (S fuel)) (St os h) r = Ok (St os' h') /\ length os' = length os /\ nth_error os' r = Some None /\ nth_error os' l = Some None /\
    (forall t, In t ts -> nth_error os' (pt_ref t) = Some None /\ nth_error os' (pt_list t) = Some None /\ lost_one os os' (pt_items t)) /\
    (forall x, x <> r -> x <> l -> ~ In x (concat (map pt_refs ts)) -> nth_error os' x = nth_error os x) /\
    exists f, freed_all f h h' /\ (forall x, In x f <-> own_cells e (map pt_entry ts) x \/ exists t, In t ts /\ thread_dying os t x).
Proof.
  intros Ht Hf Hr Hl So Nll Nlin (tk1 & fk1 & scal & strs & p & ss & fs & arr & sarr & fa & raw & Hk & Htk & Hfk & Hc & Lp & Os & Oa & Ev & Ef & U & He) N Hfu.
  rewrite Ht in Htk. injection Htk as <-. rewrite Hf in Hfk. injection Hfk as <-.
  destruct (stack_kind_holder _ _ Hk Ht) as [Hrel Hfree].
  assert (Nrl : r <> l) by (intros ->; destruct (object_fun _ _ _ _ _ _ Hr Hl) as [_ E]; discriminate E).
  assert (Kt : k <> tk /\ k <> fk).
  { destruct Hk as [-> | ->]; injection Ht as <-; injection Hf as <-; split; discriminate. }
  assert (So' := So). unfold sole_threads in So'. rewrite Forall_forall in So'.
  assert (Clash : forall a n b m c, object os a n b -> object os a m c -> b = c) by (intros a n' b m c H1 H2; destruct (object_fun _ _ _ _ _ _ H1 H2); assumption).
  assert (Nr : forall t, In t ts -> ~ In r (pt_refs t)).
  { intros t It. destruct (So' t It) as (H1 & H2 & H3). unfold pt_refs. cbn [In]. intros [E|[E|I]].
    - rewrite E in H1. pose proof (Clash _ _ _ _ _ Hr H1) as X. injection X as X _ _. destruct Kt. congruence.
    - rewrite E in H2. pose proof (Clash _ _ _ _ _ Hr H2) as X. discriminate X.
    - destruct (Forall2_in _ _ _ H3 _ I) as (f & _ & [m Hm]). pose proof (Clash _ _ _ _ _ Hr Hm) as X. injection X as X _ _. destruct Kt. congruence. }
  assert (Nl : forall t, In t ts -> ~ In l (pt_refs t)).
  { intros t It. destruct (So' t It) as (H1 & H2 & H3). unfold pt_refs. cbn [In]. intros [E|[E|I]].
    - rewrite E in H1. pose proof (Clash _ _ _ _ _ Hl H1) as X. discriminate X.
    - apply Nlin. rewrite <- E. apply in_map. exact It.
    - destruct (Forall2_in _ _ _ H3 _ I) as (f & _ & [m Hm]). pose proof (Clash _ _ _ _ _ Hl Hm) as X. discriminate X. }
  set (body := PyStruct k (e_addr e) [Some l]) in *. set (lb := PyList (map pt_ref ts)) in *.
  set (os1 := put_obj (put_obj os r (Some (0, body))) l (Some (0, lb))).
  assert (G1 : forall x, x <> r -> x <> l -> nth_error os1 x = nth_error os x) by (intros x N1 N2; unfold os1; rewrite !put_obj_other by assumption; reflexivity).
  assert (Gt : forall t x, In t ts -> In x (pt_refs t) -> nth_error os1 x = nth_error os x).
  { intros t x It Ix. apply G1; intros ->; [exact (Nr t It Ix)|exact (Nl t It Ix)]. }
  pose proof N as N0. rewrite Ef in N0. inversion N0 as [|? ? Na N1]; subst. apply NoDup_app_inv in N1 as (Nfs & N1 & D1). apply NoDup_app_inv in N1 as (Nfa & Nfk & D2). rewrite !in_app_iff in Na.
  assert (So1 : sole_threads os1 tk fk ts).
  { apply Forall_forall. intros t It. destruct (So' t It) as (H1 & H2 & H3). unfold object. rewrite (Gt t (pt_ref t) It) by (left; reflexivity). rewrite (Gt t (pt_list t) It) by (right; left; reflexivity).
    split; [exact H1|]. split; [exact H2|]. assert (Gi : forall x, In x (pt_items t) -> nth_error os1 x = nth_error os x) by (intros x Ix; apply (Gt t x It); right; right; exact Ix).
    clear - H3 Gi. revert Gi. induction H3 as [|a b la m [c Hc] F IHF]; intros Gi; constructor; [|apply IHF; intros x Ix; apply Gi; right; exact Ix].
    exists c. unfold object. rewrite Gi by (left; reflexivity). exact Hc. }
  assert (Rel : exists os2 h2, each_ref (decref_in fuel) (St os1 h) (map Some (map pt_ref (rev ts))) = Ok (St os2 h2) /\ length os2 = length os1 /\
    (forall t, In t ts -> nth_error os2 (pt_ref t) = Some None /\ nth_error os2 (pt_list t) = Some None /\ lost_one os os2 (pt_items t)) /\
    (forall x, ~ In x (concat (map pt_refs ts)) -> nth_error os2 x = nth_error os1 x) /\
    exists f, freed_all f h h2 /\ (forall x, In x f <-> exists t, In t ts /\ thread_dying os t x)).
  { destruct ts as [|t0 ts0].
    - exists os1, h. split; [reflexivity|]. split; [reflexivity|]. split; [intros t []|]. split; [reflexivity|]. exists []. split; [apply freed_nil|]. intros x. split; [intros []|intros (t & [] & _)].
    - destruct (Hfu ltac:(discriminate)) as [f0 ->].
      destruct (release_threads tk fk f0 (rev (t0 :: ts0)) os1 h) as (os2 & h2 & E2 & L2 & K2 & G2 & (f2 & F2 & If2)).
      { apply sole_rev. exact So1. }
      { unfold unlinked_threads in *. rewrite Forall_forall in *. intros t It. apply U, in_rev. exact It. }
      { rewrite map_rev. apply foot_rev_nodup. exact Nfk. }
      { rewrite map_rev. apply NoDup_rev. exact Nll. }
      exists os2, h2. split; [exact E2|]. split; [exact L2|]. split; [|split].
      + intros t It. destruct (K2 t ltac:(apply in_rev; rewrite rev_involutive; exact It)) as (K & Kl & [Lp1 Lp2]). split; [exact K|]. split; [exact Kl|]. split.
        * intros x c b Ix Hx. apply (Lp1 x c b Ix). unfold object. rewrite (Gt t x It) by (right; right; exact Ix). exact Hx.
        * intros x b Ix Hx. apply (Lp2 x b Ix). unfold object. rewrite (Gt t x It) by (right; right; exact Ix). exact Hx.
      + intros x Hx. apply G2. intros I. apply Hx. apply in_concat in I as (c & Ic & I). apply in_map_iff in Ic as (u & <- & Iu). apply in_rev in Iu.
        apply in_concat. exists (pt_refs u). split; [apply in_map; exact Iu|exact I].
      + exists f2. split; [exact F2|]. intros x. rewrite If2. split; intros (t & It & H).
        * apply in_rev in It. exists t. split; [exact It|]. destruct H as [H|H]; [left; exact H|right]. rewrite (dying_combine_same os os1) in H; [exact H|]. intros y Iy. apply (Gt t y It). right. right. exact Iy.
        * exists t. split; [apply in_rev; rewrite rev_involutive; exact It|]. destruct H as [H|H]; [left; exact H|right]. rewrite (dying_combine_same os os1); [exact H|]. intros y Iy. apply (Gt t y It). right. right. exact Iy. }
  destruct Rel as (os2 & h2 & E2 & L2 & K2 & G2 & (f2 & F2 & If2)).
  assert (Sub : forall x, In x f2 -> In x (foot (map pt_entry ts))).
  { intros x I. apply If2 in I as (t & It & I). eapply in_foot; [apply in_map; exact It|]. destruct I as [[I _]|I]; [exact I|]. apply dying_in in I.
    destruct (So' t It) as (_ & _ & Ft). rewrite (combine_snd _ _ _ Ft) in I. unfold unlinked_threads in U. rewrite Forall_forall in U. destruct (U t It) as [nt Ut].
    destruct Ut as (? & ? & ? & ? & ? & ? & ? & ? & ? & _ & _ & _ & _ & _ & _ & Eft & _). rewrite Eft. right. apply in_app_iff. right. apply in_app_iff. right. exact I. }
  assert (Hc2 : nth_error h2 (e_addr e) = Some (CObj k scal strs [p] arr raw n)).
  { destruct F2 as (_ & S2 & _). rewrite S2; [exact Hc|]. intros I. apply Sub in I. apply Na. right. right. exact I. }
  assert (Sm : forall g, (forall x, In x g -> ~ In x (foot (map pt_entry ts))) -> same_on g h h2).
  { intros g Hg. eapply freed_same_on; [exact F2|]. intros x Ix I. exact (Hg x Ix (Sub x I)). }
  destruct (empty_freed h2 k (tk, true) n (e_addr e) scal strs ss fs arr sarr fa raw p (kid_of_stack _ _ Hk Ht) Hc2 Lp) as (h3 & h4 & E3 & E4 & F4).
  { eapply own_strs_same; [exact Os|]. apply Sm. intros x Ix I. apply (D1 x Ix). apply in_app_iff. right. exact I. }
  { eapply own_arr_same; [exact Oa|]. apply Sm. exact D2. }
  { constructor; [rewrite in_app_iff; tauto|]. apply NoDup_app2; [exact Nfs|exact Nfa|]. intros x I1 I2. apply (D1 x I1). apply in_app_iff. left. exact I2. }
  assert (Lr : r < length os) by (eapply object_lt; exact Hr). assert (Ll : l < length os) by (eapply object_lt; exact Hl).
  assert (L1 : length os1 = length os) by (unfold os1; rewrite !put_obj_length; reflexivity).
  exists (put_obj (put_obj os2 l None) r None), h4. split.
  { remember (S fuel) as fu eqn:Efu. cbn [decref_in]. rewrite (obj_ok (St os h) r _ _ Hr). cbn [bind]. unfold body at 1. rewrite Hrel. cbn [firstn each_ref]. unfold set_obj at 1. cbn [objs mem].
    rewrite Efu. cbn [decref_in].
    rewrite (obj_ok (St (put_obj os r (Some (0, body))) h) l 1 lb) by (apply object_put; [exact Hl|auto]). cbn [bind]. unfold lb at 1. unfold set_obj. cbn [objs mem].
    fold os1. rewrite <- map_rev, E2. cbn [bind objs mem]. rewrite E3. cbn [bind]. rewrite Hfree, E4. cbn [bind]. reflexivity. }
  split; [rewrite !put_obj_length; lia|]. split; [apply put_obj_same; rewrite put_obj_length; lia|].
  split; [rewrite put_obj_other by auto; apply put_obj_same; lia|]. 
  assert (Gf : forall t x, In t ts -> In x (pt_refs t) -> nth_error (put_obj (put_obj os2 l None) r None) x = nth_error os2 x).
  { intros t x It Ix. rewrite !put_obj_other; [reflexivity| |]; intros ->; [exact (Nl t It Ix)|exact (Nr t It Ix)]. }
  split; [|split].
  - intros t It. destruct (K2 t It) as (K & Kl & [Lp1 Lp2]). split; [rewrite (Gf t) by (try exact It; left; reflexivity); exact K|].
    split; [rewrite (Gf t) by (try exact It; right; left; reflexivity); exact Kl|]. split.
    + intros x c b Ix Hx. unfold object. rewrite (Gf t) by (try exact It; right; right; exact Ix). apply (Lp1 x c b Ix Hx).
    + intros x b Ix Hx. rewrite (Gf t) by (try exact It; right; right; exact Ix). apply (Lp2 x b Ix Hx).
  - intros x N1 N2 N3. rewrite !put_obj_other by assumption. rewrite G2 by exact N3. apply G1; assumption.
  - exists (f2 ++ e_addr e :: fs ++ fa). split; [eapply freed_app; eassumption|].
    intros x. rewrite in_app_iff, If2. unfold own_cells. rewrite Ef. cbn [In]. rewrite !in_app_iff. split.
    + intros [I|[<-|[I|I]]]; [right; exact I| | |]; left.
      * split; [left; reflexivity|]. intros J. apply Na. right. right. exact J.
      * split; [tauto|]. intros J. apply (D1 x I). apply in_app_iff. right. exact J.
      * split; [tauto|]. exact (D2 x I).
    + intros [[I J]|I]; [|left; exact I]. right. tauto.
Qed.

Lemma thread_gone os h r l tk fk n e items es :
  object os r 1 (PyStruct tk (e_addr e) [Some l]) -> object os l 1 (PyList items) -> Forall2 (fun r e => alive os r (PyStruct fk (e_addr e) [])) items es ->
  unlinked_thread h tk fk n e es -> NoDup (e_foot e) ->
  exists os' h', decref (St os h) r = Ok (St os' h') /\ length os' = length os /\ nth_error os' r = Some None /\ nth_error os' l = Some None /\
    lost_one os os' items /\ (forall x, x <> r -> x <> l -> ~ In x items -> nth_error os' x = nth_error os x) /\
    exists f, freed_all f h h' /\ (forall x, In x f <-> own_cells e es x \/ In x (dying os (combine items es))).
Proof.
  intros Hr Hl F U N. assert (B : 2 <= length os).
  { assert (Nd : NoDup [r; l]). { constructor; [|constructor; [intros []|constructor]]. intros [->|[]]. destruct (object_fun _ _ _ _ _ _ Hr Hl) as [_ E]. discriminate E. }
    apply (NoDup_bound [r; l] (length os) Nd). intros x [<-|[<-|[]]]; eapply object_lt; eassumption. }
  unfold decref. cbn [objs]. assert (exists f, S (length os) = S (S (S f))) as [f El] by (exists (length os - 2); lia). rewrite El.
  rewrite <- (combine_fst _ _ _ F) in Hl.
  destruct (thread_destroyed f os h r l tk fk n e (combine items es) Hr Hl (combine_all _ _ _ F)) as (os' & h' & E & L & H1 & H2 & H3 & H4 & H5); [rewrite (combine_snd _ _ _ F); exact U|exact N|].
  rewrite (combine_fst _ _ _ F) in H3, H4. rewrite (combine_snd _ _ _ F) in H5. exists os', h'. repeat (split; [assumption|]). exact H5.
Qed.
Lemma stack_gone os h r l k tk fk n e ts : thread_type k = Some tk -> frame_kind tk = Some fk ->
  object os r 1 (PyStruct k (e_addr e) [Some l]) -> object os l 1 (PyList (map pt_ref ts)) -> sole_threads os tk fk ts -> NoDup (l :: map pt_list ts) ->
  unlinked_stack h k n e ts -> NoDup (e_foot e) ->
  exists os' h', decref (St os h) r = Ok (St os' h') /\ length os' = length os /\ nth_error os' r = Some None /\ nth_error os' l = Some None /\
    (forall t, In t ts -> nth_error os' (pt_ref t) = Some None /\ nth_error os' (pt_list t) = Some None /\ lost_one os os' (pt_items t)) /\
    (forall x, x <> r -> x <> l -> ~ In x (concat (map pt_refs ts)) -> nth_error os' x = nth_error os x) /\
    exists f, freed_all f h h' /\ (forall x, In x f <-> own_cells e (map pt_entry ts) x \/ exists t, In t ts /\ thread_dying os t x).
Proof.
  intros Ht Hf Hr Hl So Nd U N. inversion Nd as [|? ? Nlin Nll]; subst.
  assert (Nrl : r <> l) by (intros ->; destruct (object_fun _ _ _ _ _ _ Hr Hl) as [_ E]; discriminate E).
  assert (B : 2 <= length os).
  { assert (Nd2 : NoDup [r; l]) by (constructor; [intros [E|[]]; congruence|constructor; [intros []|constructor]]).
    apply (NoDup_bound [r; l] (length os) Nd2). intros x [<-|[<-|[]]]; eapply object_lt; eassumption. }
  assert (B4 : ts <> [] -> 4 <= length os).
  { destruct ts as [|t ts]; [congruence|]. intros _. inversion So as [|? ? (H1 & H2 & _) _]; subst.
    assert (Hk : k <> tk) by (destruct U as (? & ? & ? & ? & ? & ? & ? & ? & ? & ? & ? & [-> | ->] & _); injection Ht as <-; discriminate).
    assert (Nd4 : NoDup [r; l; pt_ref t; pt_list t]).
    { assert (Clash : forall a n b m c, object os a n b -> object os a m c -> b = c) by (intros a n' b m c X1 X2; destruct (object_fun _ _ _ _ _ _ X1 X2); assumption).
      repeat constructor; cbn [In]; intros X; repeat destruct X as [X|X]; try exact X; subst.
      - congruence.
      - pose proof (Clash _ _ _ _ _ Hr H1) as E. injection E as E _ _. congruence.
      - pose proof (Clash _ _ _ _ _ Hr H2) as E. discriminate E.
      - pose proof (Clash _ _ _ _ _ Hl H1) as E. discriminate E.
      - apply Nlin. left. reflexivity.
      - rewrite X in H2. pose proof (Clash _ _ _ _ _ H1 H2) as E. discriminate E. }
    apply (NoDup_bound _ (length os) Nd4). intros x [<-|[<-|[<-|[<-|[]]]]]; eapply object_lt; eassumption. }
  unfold decref. cbn [objs]. assert (exists f, S (length os) = S (S f)) as [f El] by (exists (length os - 1); lia). rewrite El.
  apply (stack_destroyed_in f os h r l k tk fk n e ts); try assumption. intros Hne. specialize (B4 Hne). destruct f as [|[|[|f]]]; try lia. exists f. reflexivity.
Qed.
