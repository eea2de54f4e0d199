From Verif Require Import Base Types ParseProofs CmpModel CmpSpec CmpProofs RpmModel RpmSpec RpmProofs2 HeapModel HeapSpec HeapProofs HeapProofs2 HeapProofs3 HeapListModel HeapListSpec HeapListProofs HeapListProofs2 HeapListProofs3.
Open Scope nat_scope.

Lemma link_ok h k p l q n : seg h k p l q -> NoDup (foot l) ->
  exists h' p', match last_addr l with Some q => do h <- set_next h q n; Ok (h, p) | None => Ok (h, n) end = Ok (h', p') /\
    seg h' k p' l n /\ same_outside (foot l) h h' /\ length h' = length h.
Proof.
  intros Sg N. destruct l as [|e l] using rev_ind.
  - exists h, n. repeat split. constructor.
  - clear IHl. rewrite last_addr_snoc. apply seg_app in Sg as (m & S1 & S2). inversion S2 as [|n0 ? ? ? Oe S3]; subst. rewrite foot_app in N |- *. apply NoDup_app_inv in N as (N1 & N2 & D).
    rewrite foot_cons in *. cbn [foot concat map] in N2, D |- *. rewrite app_nil_r in N2.
    destruct (set_next_ok _ _ _ _ n Oe N2) as (h' & E & O' & So & L'). rewrite E. cbn [bind]. exists h', p. split; [reflexivity|].
    assert (Ie := own_foot _ _ _ _ Oe). split; [|split; [|exact L']].
    + apply seg_app. exists (Some (e_addr e)). split; [|econstructor; [exact O'|constructor]]. eapply seg_same; [exact S1|].
      intros x Ix. apply So. intros [<-|[]]. apply (D _ Ix). rewrite in_app_iff. now left.
    + intros x Hx. apply So. intros [<-|[]]. apply Hx. rewrite !in_app_iff. auto.
Qed.
Lemma free_one_at h n e p : own h KRpm n e -> is_package (e_val e) p -> NoDup (e_foot e) ->
  exists h', sr_rpm_package_free h (Some (e_addr e)) false = Ok h' /\ freed_all (e_foot e) h h'.
Proof. exact (sr_package_free_single h n e p). Qed.

Definition uniq_result (h : heap) (l : list entry) (ps : list rpm_package) (h' : heap) (p' : option addr) : Prop :=
  exists l', own_list h' KRpm p' l' /\ packages_are l' ps /\ separate (foot l') /\
    (forall x, In x (foot l') -> In x (foot l) \/ length h <= x < length h') /\
    (forall x, In x (foot l) \/ length h <= x < length h' -> In x (foot l') \/ freed h' x) /\
    (forall x, x < length h -> ~ In x (foot l) -> nth_error h' x = nth_error h x) /\ length h <= length h'.
Lemma uniq_loop_ok : forall l2 fuel h packages l1 e ps1 p ps2,
  own_list h KRpm packages (l1 ++ e :: l2) -> NoDup (foot (l1 ++ e :: l2)) -> packages_are l1 ps1 -> is_package (e_val e) p -> packages_are l2 ps2 ->
  length l2 <= fuel ->
  exists h' p', uniq_loop fuel h packages (last_addr l1) (Some (e_addr e)) = Ok (h', p') /\
    uniq_result h (l1 ++ e :: l2) (ps1 ++ uniq_from p ps2) h' p'.
Proof.
  induction l2 as [|b l2 IH]; intros fuel h packages l1 a ps1 p ps2 O N P1 Pa P2 Lf.
  - assert (O' := O). apply seg_list, seg_app in O' as (m & S1 & S2). inversion S2 as [|n ? ? ? Oa S3]; subst. inversion S3; subst.
    inversion P2; subst. exists h, packages. split.
    + destruct fuel; cbn [uniq_loop]; rewrite (own_next _ _ _ _ Oa); reflexivity.
    + exists (l1 ++ [a]). split; [exact O|]. split; [apply Forall2_app; [exact P1|repeat constructor; exact Pa]|]. split; [exact N|].
      split; [tauto|]. split; [|split; [reflexivity|lia]]. intros x [I|B]; [now left|lia].
  - destruct fuel as [|fuel]; [cbn in Lf; lia|]. inversion P2 as [|? q ? qs Pb P2']; subst.
    assert (O' := O). apply seg_list, seg_app in O' as (m & S1 & S2). inversion S2 as [|n ? ? ? Oa S3]; subst. inversion S3 as [|nb ? ? ? Ob S4]; subst.
    cbn [uniq_loop]. rewrite (own_next _ _ _ _ Oa). cbn [bind]. cbn [uniq_from].
    destruct (package_merge p q) as [mm|] eqn:Em.
    + destruct (merge_some_at _ _ _ _ _ _ _ _ Oa Ob Pa Pb Em) as (h1 & em & E1 & X1 & Oem & Pm & Fm). rewrite E1. cbn [bind].
      rewrite foot_app, !foot_cons in N. apply NoDup_app_inv in N as (N1 & N & D1). apply NoDup_app_inv in N as (Na & N & Da). apply NoDup_app_inv in N as (Nb & N2 & Db).
      assert (V : forall x, In x (foot (l1 ++ a :: b :: l2)) -> x < length h) by (eapply own_list_valid; exact O).
      rewrite foot_app, !foot_cons in V. 
      assert (D1a : forall x, In x (foot l1) -> ~ In x (e_foot a)) by (intros x I J; apply (D1 x I); rewrite !in_app_iff; auto).
      assert (D1b : forall x, In x (foot l1) -> ~ In x (e_foot b)) by (intros x I J; apply (D1 x I); rewrite !in_app_iff; auto).
      assert (D12 : forall x, In x (foot l1) -> ~ In x (foot l2)) by (intros x I J; apply (D1 x I); rewrite !in_app_iff; auto).
      assert (Dab : forall x, In x (e_foot a) -> ~ In x (e_foot b)) by (intros x I J; apply (Da x I); rewrite !in_app_iff; auto).
      assert (Da2 : forall x, In x (e_foot a) -> ~ In x (foot l2)) by (intros x I J; apply (Da x I); rewrite !in_app_iff; auto).
      assert (V1 : forall x, In x (foot l1) -> x < length h) by (intros x I; apply V; rewrite !in_app_iff; auto).
      assert (Va : forall x, In x (e_foot a) -> x < length h) by (intros x I; apply V; rewrite !in_app_iff; auto).
      assert (Vb : forall x, In x (e_foot b) -> x < length h) by (intros x I; apply V; rewrite !in_app_iff; auto).
      assert (V2 : forall x, In x (foot l2) -> x < length h) by (intros x I; apply V; rewrite !in_app_iff; auto).
      assert (Vm : forall x, In x (e_foot em) -> length h <= x < length h1) by (intros x I; apply Fm; exact I).
      assert (Lx := proj1 X1).
      destruct (link_ok h1 KRpm packages l1 (Some (e_addr a)) (Some (e_addr em))) as (h2 & p2 & E2 & Sg2 & So2 & L2); [eapply seg_same; [exact S1|]; apply ext_same_on; [exact X1|assumption]|exact N1|].
      rewrite E2. cbn [bind].
      assert (K2 : forall f, (forall x, In x f -> ~ In x (foot l1)) -> same_on f h1 h2) by (intros f H x I; apply So2, H, I).
      assert (Oa2 : own h2 KRpm (Some (e_addr b)) a).
      { eapply own_same; [eapply own_same; [exact Oa|apply ext_same_on; [exact X1|assumption]]|apply K2; intros x I J; exact (D1a x J I)]. }
      assert (Ob2 : own h2 KRpm nb b).
      { eapply own_same; [eapply own_same; [exact Ob|apply ext_same_on; [exact X1|assumption]]|apply K2; intros x I J; exact (D1b x J I)]. }
      assert (Sg42 : seg h2 KRpm nb l2 None).
      { eapply seg_same; [eapply seg_same; [exact S4|apply ext_same_on; [exact X1|assumption]]|apply K2; intros x I J; exact (D12 x J I)]. }
      assert (Om2 : own h2 KRpm None em).
      { eapply own_same; [exact Oem|apply K2; intros x I J; specialize (Vm x I); specialize (V1 x J); lia]. }
      rewrite (own_next _ _ _ _ Ob2). cbn [bind].
      destruct (set_next_ok h2 KRpm None em nb Om2 (proj1 Fm)) as (h3 & E3 & Om3 & So3 & L3). rewrite E3. cbn [bind].
      assert (Vem : length h <= e_addr em < length h1) by (apply Vm; eapply own_foot; exact Oem).
      assert (K3 : forall f, (forall x, In x f -> x < length h) -> same_on f h2 h3) by (intros f H x I; apply So3; intros [<-|[]]; specialize (H _ I); lia).
      assert (Ob3 : own h3 KRpm nb b) by (eapply own_same; [exact Ob2|apply K3; exact Vb]).
      destruct (free_one_at h3 nb b q Ob3 Pb Nb) as (h4 & E4 & F4). rewrite E4. cbn [bind].
      assert (Oa4 : own h4 KRpm (Some (e_addr b)) a).
      { eapply own_same; [eapply own_same; [exact Oa2|apply K3; exact Va]|eapply freed_same_on; [exact F4|exact Dab]]. }
      destruct (free_one_at h4 (Some (e_addr b)) a p Oa4 Pa Na) as (h5 & E5 & F5). rewrite E5. cbn [bind].
      assert (F45 := freed_app _ _ _ _ _ F4 F5).
      assert (L5 : length h5 = length h1) by (destruct F45 as [-> _]; congruence).
      assert (O5 : own_list h5 KRpm p2 (l1 ++ em :: l2)).
      { apply seg_list, seg_app. exists (Some (e_addr em)). split; [|econstructor].
        - eapply seg_same; [eapply seg_same; [exact Sg2|apply K3; exact V1]|]. eapply freed_same_on; [exact F45|]. intros x I. rewrite in_app_iff. intros [J|J]; [exact (D1b x I J)|exact (D1a x I J)].
        - eapply own_same; [exact Om3|]. eapply freed_same_on; [exact F45|]. intros x I. specialize (Vm x I). rewrite in_app_iff. intros [J|J]; [specialize (Vb x J)|specialize (Va x J)]; lia.
        - eapply seg_same; [eapply seg_same; [exact Sg42|apply K3; exact V2]|]. eapply freed_same_on; [exact F45|]. intros x I. rewrite in_app_iff. intros [J|J]; [exact (Db x J I)|exact (Da2 x J I)]. }
      assert (N5 : NoDup (foot (l1 ++ em :: l2))).
      { rewrite foot_app, foot_cons. apply NoDup_app2; [exact N1| |].
        - apply NoDup_app2; [apply Fm|exact N2|]. intros x I J. specialize (Vm x I). specialize (V2 x J). lia.
        - intros x I. rewrite in_app_iff. intros [J|J]; [specialize (Vm x J); specialize (V1 x I); lia|exact (D12 x I J)]. }
      destruct (IH fuel h5 p2 l1 em ps1 mm qs O5 N5 P1 Pm P2' ltac:(cbn in Lf; lia)) as (h' & p' & E' & l' & O'' & P' & N' & I1 & I2 & I3 & I4).
      exists h', p'. split; [exact E'|]. exists l'. split; [exact O''|]. split; [exact P'|]. split; [exact N'|].
      rewrite foot_app, foot_cons in I1, I2, I3. rewrite !foot_app, !foot_cons.
      split; [|split; [|split; [|lia]]].
      * intros x I. specialize (I1 x I). rewrite !in_app_iff in *. destruct I1 as [[J|[J|J]]|J]; auto; [specialize (Vm x J); right; lia|right; lia].
      * intros x Hx. rewrite !in_app_iff in Hx.
        assert (Fx : In x (e_foot b) \/ In x (e_foot a) -> In x (foot l') \/ freed h' x).
        { intros J. assert (Fr : freed h5 x) by (apply F45; rewrite in_app_iff; exact J).
          right. unfold freed. rewrite I3; [exact Fr|destruct J as [J|J]; [specialize (Vb x J)|specialize (Va x J)]; lia|].
          rewrite !in_app_iff. intros [K|[K|K]].
          - destruct J as [J|J]; [exact (D1b x K J)|exact (D1a x K J)].
          - specialize (Vm x K). destruct J as [J|J]; [specialize (Vb x J)|specialize (Va x J)]; lia.
          - destruct J as [J|J]; [exact (Db x J K)|exact (Da2 x J K)]. }
        destruct Hx as [[J|[J|[J|J]]]|J]; try (apply Fx; tauto); try (apply I2; left; rewrite !in_app_iff; tauto).
        apply I2. rewrite !in_app_iff. destruct (Nat.lt_ge_cases x (length h5)) as [K|K]; [left; right; left; apply Fm; lia|right; lia].
      * intros x Hx Nx. rewrite !in_app_iff in Nx. rewrite I3; [|lia|].
        -- destruct F45 as (_ & So5 & _). rewrite So5 by (rewrite in_app_iff; tauto). rewrite So3 by (cbn; intros [<-|[]]; lia).
           rewrite So2 by tauto. apply X1. exact Hx.
        -- rewrite !in_app_iff. intros [K|[K|K]]; try tauto. specialize (Vm x K). lia.
    + rewrite (merge_none_at _ _ _ _ _ _ _ Oa Ob Pa Pb Em). cbn [bind].
      destruct (IH fuel h packages (l1 ++ [a]) b (ps1 ++ [p]) q qs) as (h' & p' & E' & R).
      * rewrite <- app_assoc. exact O.
      * rewrite <- app_assoc. exact N.
      * apply Forall2_app; [exact P1|repeat constructor; exact Pa].
      * exact Pb.
      * exact P2'.
      * cbn in Lf. lia.
      * exists h', p'. rewrite last_addr_snoc in E'. split; [exact E'|]. rewrite <- !app_assoc in R. exact R.
Qed.
Lemma package_uniq_ok h p l ps : own_list h KRpm p l -> packages_are l ps -> separate (foot l) ->
  exists h' p', package_uniq h p = Ok (h', p') /\ uniq_result h l (sr_rpm_package_uniq ps) h' p'.
Proof.
  intros O P N. assert (B := own_list_bound _ _ _ _ O N). unfold package_uniq. destruct P as [|e q l ps Pe P].
  - inversion O; subst. exists h, None. split; [destruct (length h); reflexivity|]. exists []. repeat split; try constructor; intuition lia.
  - inversion O as [|? n ? ? Oe Ol]; subst. exact (uniq_loop_ok l (length h) h _ [] e [] q ps O N (Forall2_nil _) Pe P ltac:(cbn in B; lia)).
Qed.
