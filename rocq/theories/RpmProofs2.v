(** * Proofs: sorting and merging package lists. *)
From Verif Require Import Base Types CmpModel CmpSpec CmpProofs RpmModel RpmSpec.
From Coq Require Import Sorted.
Open Scope nat_scope.

Lemma nvr_zero p q : (rpm_cmp_nvr p q =? 0)%Z = true <-> rp_name p = rp_name q /\ rp_version p = rp_version q /\ rp_release p = rp_release q.
Proof. rewrite Z.eqb_eq. apply (proj1 rpm_nvr_orders); exact Logic.I. Qed.
Lemma g_strcmp0_zero a b : (g_strcmp0 a b =? 0)%Z = true <-> a = b.
Proof.
  pose (p := mk_rpm_package a 0 None None None 0 ROLE_UNKNOWN []). pose (q := mk_rpm_package b 0 None None None 0 ROLE_UNKNOWN []).
  assert (H := nvr_zero p q). unfold rpm_cmp_nvr in H. cbn in H.
  destruct (g_strcmp0 a b =? 0)%Z eqn:E; [cbn in H; tauto|]. rewrite E in H. intuition congruence.
Qed.
Lemma merge_some p q m : package_merge p q = Some m ->
  same_package p q /\
  m = mk_rpm_package (rp_name p) (rp_epoch p) (rp_version p) (rp_release p)
        (match rp_architecture p with Some a => Some a | None => rp_architecture q end)
        (if (rp_install_time p =? 0)%Z then rp_install_time q else rp_install_time p)
        (match rp_role p with ROLE_UNKNOWN => rp_role q | r => r end) [].
Proof.
  unfold package_merge. intros H.
  destruct (rpm_cmp_nvr p q =? 0)%Z eqn:E1; [|discriminate]. apply nvr_zero in E1 as (? & ? & ?).
  destruct (rp_epoch p =? rp_epoch q)%Z eqn:E2; [|discriminate]. apply Z.eqb_eq in E2. cbn [negb] in H.
  destruct (rp_architecture p) as [a|] eqn:E3.
  - destruct (rp_architecture q) as [b|] eqn:E4.
    + destruct (g_strcmp0 (Some a) (Some b) =? 0)%Z eqn:E5; [|discriminate]. apply g_strcmp0_zero in E5.
      injection H as <-. split; [|reflexivity]. split; [split; auto|]. rewrite E3, E4; auto.
    + injection H as <-. split; [|reflexivity]. split; [split; auto|]. auto.
  - injection H as <-. split; [|reflexivity]. split; [split; auto|]. auto.
Qed.
Lemma merge_none p q : package_merge p q = None -> ~ same_package p q.
Proof.
  unfold package_merge. intros H ((A & B & C & D) & E).
  assert (rpm_cmp_nvr p q =? 0 = true)%Z as X by (apply nvr_zero; auto). rewrite X in H.
  rewrite (proj2 (Z.eqb_eq _ _) D) in H. cbn [negb] in H.
  destruct (rp_architecture p) as [a|]; [|discriminate]. destruct (rp_architecture q) as [b|]; [|discriminate].
  destruct E as [E|[E|E]]; try discriminate. injection E as ->.
  rewrite (proj2 (g_strcmp0_zero _ _) eq_refl) in H. discriminate.
Qed.

(** A single record stands for itself in the stronger sense that allows more to be merged. *)
Definition stands (group : list rpm_package) (m : rpm_package) : Prop :=
  Forall (fun p => same_nevr m p) group /\
  Forall (fun p => rp_architecture p = None \/ rp_architecture p = rp_architecture m) group /\
  first_known rp_architecture None group (rp_architecture m) /\
  first_known rp_install_time 0%Z group (rp_install_time m) /\
  first_known rp_role ROLE_UNKNOWN group (rp_role m).
Lemma first_known_one {A B} (get : A -> B) u (dec : forall x y : B, {x = y} + {x <> y}) a : first_known get u [a] (get a).
Proof.
  destruct (dec (get a) u) as [E|E]; [left; split; [assumption|constructor; auto]|].
  right. split; [assumption|]. exists [], a, []. auto.
Qed.
Lemma first_known_snoc {A B} (get : A -> B) u l v a w :
  first_known get u l v -> (v <> u -> w = v) -> (v = u -> w = get a) -> (forall x y : B, {x = y} + {x <> y}) -> first_known get u (l ++ [a]) w.
Proof.
  intros [(-> & H)|(N & b & x & r & -> & E & H)] H1 H2 dec.
  - rewrite (H2 eq_refl) in *. destruct (dec (get a) u) as [Eu|Eu].
    + left. split; [assumption|]. apply Forall_app. split; [assumption|]. constructor; auto.
    + right. split; [assumption|]. exists l, a, []. auto.
  - rewrite (H1 N). right. split; [assumption|]. exists b, x, (r ++ [a]). rewrite <- app_assoc. auto.
Qed.
Lemma opt_dec (x y : option str) : {x = y} + {x <> y}.
Proof. repeat decide equality. Qed.
Lemma role_dec (x y : package_role) : {x = y} + {x <> y}.
Proof. decide equality. Qed.
Lemma stands_one p : stands [p] p.
Proof.
  split; [constructor; [repeat split|constructor]|]. split; [constructor; [now right|constructor]|].
  split; [apply first_known_one, opt_dec|]. split; [apply first_known_one, Z.eq_dec|apply first_known_one, role_dec].
Qed.
Lemma stands_merge g p q m : stands g p -> package_merge p q = Some m -> stands (g ++ [q]) m.
Proof.
  intros (A & B & C & D & E) H. apply merge_some in H as [((N1 & N2 & N3 & N4) & Ha) ->].
  unfold stands, same_nevr. cbn [rp_name rp_epoch rp_version rp_release rp_architecture rp_install_time rp_role].
  split; [|split; [|split; [|split]]].
  - apply Forall_app. split; [exact A|]. constructor; auto.
  - apply Forall_app. split.
    + eapply Forall_impl; [|exact B]. intros x [Hx|Hx]; [auto|]. cbn beta.
      destruct (rp_architecture p); [right; assumption|left; assumption].
    + constructor; [|constructor]. destruct (rp_architecture p); [|now right]. intuition congruence.
  - eapply first_known_snoc; [exact C|destruct (rp_architecture p); congruence|destruct (rp_architecture p); congruence|apply opt_dec].
  - eapply first_known_snoc; [exact D|destruct (Z.eqb_spec (rp_install_time p) 0); congruence|destruct (Z.eqb_spec (rp_install_time p) 0); congruence|apply Z.eq_dec].
  - eapply first_known_snoc; [exact E|destruct (rp_role p); congruence|destruct (rp_role p); congruence|apply role_dec].
Qed.
Lemma uniq_groups rest : forall g p, stands g p -> (g = [p] \/ 2 <= length g /\ rp_consistency p = []) ->
  exists groups, concat groups = g ++ rest /\ Forall2 merged groups (uniq_from p rest).
Proof.
  induction rest as [|q r IH]; intros g p Hg Hs; cbn [uniq_from].
  - exists [g]. split; [reflexivity|]. constructor; [|constructor].
    destruct Hs as [->|[L2 Hc]]; [now left|]. right. destruct Hg as (? & ? & ? & ? & ?). auto 10.
  - destruct (package_merge p q) as [m|] eqn:E.
    + destruct (IH (g ++ [q]) m) as (groups & H1 & H2).
      * eapply stands_merge; eassumption.
      * right. split; [rewrite app_length; destruct Hs as [->|[L2 _]]; cbn [length]; lia|].
        now apply merge_some in E as [_ ->].
      * exists groups. rewrite <- app_assoc in H1. auto.
    + destruct (IH [q] q (stands_one q) (or_introl eq_refl)) as (groups & H1 & H2).
      exists (g :: groups). cbn [concat app] in *. rewrite H1. split; [reflexivity|]. constructor; [|assumption].
      destruct Hs as [->|[L2 Hc]]; [now left|]. right. destruct Hg as (? & ? & ? & ? & ?). auto 10.
Qed.
Theorem uniq_correct l : exists groups, concat groups = l /\ Forall2 merged groups (sr_rpm_package_uniq l).
Proof.
  destruct l as [|p r]; [exists []; split; [reflexivity|constructor]|].
  apply (uniq_groups r [p] p (stands_one p)). now left.
Qed.

(** Neighbours of the result are different packages. *)
Inductive linked {A} (R : A -> A -> Prop) : list A -> Prop :=
| linked_nil : linked R []
| linked_one x : linked R [x]
| linked_cons x y l : R x y -> linked R (y :: l) -> linked R (x :: y :: l).
Lemma merge_apart p q m x : package_merge p q = Some m -> ~ same_package x p -> ~ same_package x m.
Proof.
  intros H N (K1 & K2). apply merge_some in H as [_ ->]. apply N. unfold same_package, same_nevr in *. cbn in *.
  split; [assumption|]. destruct (rp_architecture p); auto.
Qed.
Lemma uniq_head rest : forall p, exists h t, uniq_from p rest = h :: t /\ (forall x, ~ same_package x p -> ~ same_package x h).
Proof.
  induction rest as [|q r IH]; intros p; cbn [uniq_from]; [exists p, []; auto|].
  destruct (package_merge p q) as [m|] eqn:E; [|exists p, (uniq_from q r); auto].
  destruct (IH m) as (h & t & -> & H). exists h, t. split; [reflexivity|]. intros x Hx. apply H. eapply merge_apart; eassumption.
Qed.
Lemma uniq_from_apart rest : forall p, linked (fun x y => ~ same_package x y) (uniq_from p rest).
Proof.
  induction rest as [|q r IH]; intros p; cbn [uniq_from]; [constructor|].
  destruct (package_merge p q) as [m|] eqn:E; [apply IH|].
  destruct (uniq_head r q) as (h & t & Eh & H). specialize (IH q). rewrite Eh in *. constructor; [|assumption].
  apply H, merge_none, E.
Qed.
Theorem uniq_apart l : linked (fun x y => ~ same_package x y) (sr_rpm_package_uniq l).
Proof. destruct l; [constructor|apply uniq_from_apart]. Qed.

(** ** Sorted lists *)
Definition small_epoch (p : rpm_package) : Prop := small (rp_epoch p).
Definition le (p q : rpm_package) : Prop := (rpm_cmp_nevra p q <= 0)%Z.
Definition cmp3 (p q : rpm_package) : Z := first_nonzero [rpm_cmp_nvr p q; to_int (rp_epoch p - rp_epoch q)].
Lemma cmp3_orders : orders small_epoch same_nevr cmp3.
Proof.
  eapply orders_eqv; [|unfold cmp3; eapply orders_first; [eapply orders_sub; [|apply rpm_nvr_orders]; now intros|step rp_epoch; apply orders_nil]].
  intros; unfold same_nevr; cbn; tauto.
Qed.
Lemma nevra_cmp3 p q : rpm_cmp_nevra p q = if (cmp3 p q =? 0)%Z then g_strcmp0 (rp_architecture p) (rp_architecture q) else cmp3 p q.
Proof.
  unfold rpm_cmp_nevra, cmp3. cbn [first_nonzero].
  assert (X : forall z, (if (z =? 0)%Z then 0%Z else z) = z) by (intros z; destruct (Z.eqb_spec z 0); congruence).
  destruct (rpm_cmp_nvr p q =? 0)%Z eqn:E.
  - destruct (to_int (rp_epoch p - rp_epoch q) =? 0)%Z eqn:E2; [cbn; apply X|]. now rewrite E2.
  - now rewrite E.
Qed.
Lemma le_cmp3 p q : le p q -> (cmp3 p q <= 0)%Z.
Proof. unfold le. rewrite nevra_cmp3. destruct (cmp3 p q =? 0)%Z eqn:E; [apply Z.eqb_eq in E; lia|auto]. Qed.
Lemma le_arch p q : le p q -> cmp3 p q = 0%Z -> (g_strcmp0 (rp_architecture p) (rp_architecture q) <= 0)%Z.
Proof. unfold le. rewrite nevra_cmp3. intros H E. rewrite E in H. exact H. Qed.
Lemma le_trans p q r : small_epoch p -> small_epoch q -> small_epoch r -> le p q -> le q r -> le p r.
Proof. intros. eapply (proj2 (proj2 rpm_nevra_orders)); [| |exact (H1)|eassumption|eassumption]; assumption. Qed.

Lemma merge_key p q m : small_epoch p -> small_epoch q -> le p q -> package_merge p q = Some m ->
  small_epoch m /\ rpm_cmp_nevra m q = 0%Z.
Proof.
  intros Sp Sq Hle H. apply merge_some in H as [((N1 & N2 & N3 & N4) & Ha) ->].
  assert (Sm : small_epoch (mk_rpm_package (rp_name p) (rp_epoch p) (rp_version p) (rp_release p)
        (match rp_architecture p with Some a => Some a | None => rp_architecture q end)
        (if (rp_install_time p =? 0)%Z then rp_install_time q else rp_install_time p)
        (match rp_role p with ROLE_UNKNOWN => rp_role q | r => r end) [])) by exact Sp.
  split; [exact Sm|]. apply (proj1 rpm_nevra_orders); [exact Sm|exact Sq|].
  cbn [rp_name rp_epoch rp_version rp_release rp_architecture]. repeat split; auto.
  assert (C0 : cmp3 p q = 0%Z) by (apply (proj1 cmp3_orders); [assumption|assumption|repeat split; assumption]).
  apply le_arch in Hle; [|assumption]. destruct (rp_architecture p) as [a|]; [|reflexivity].
  destruct Ha as [Ha|[Ha|Ha]]; [discriminate| |congruence]. rewrite Ha in Hle. cbn in Hle. lia.
Qed.
Lemma le_eq_l m q z : small_epoch m -> small_epoch q -> small_epoch z -> rpm_cmp_nevra m q = 0%Z -> le q z -> le m z.
Proof. intros Sm Sq Sz E H. apply (le_trans m q z); try assumption. unfold le. lia. Qed.
Lemma le_eq_r m q z : small_epoch m -> small_epoch q -> small_epoch z -> rpm_cmp_nevra m q = 0%Z -> le z q -> le z m.
Proof.
  intros Sm Sq Sz E H. apply (le_trans z q m); try assumption. unfold le.
  pose proof (proj1 (proj2 rpm_nevra_orders) m q Sm Sq) as K. rewrite E in K. destruct (rpm_cmp_nevra q m); cbn in K; lia.
Qed.
Lemma uniq_sorted rest : forall p, Forall small_epoch (p :: rest) -> StronglySorted le (p :: rest) ->
  StronglySorted le (uniq_from p rest) /\ Forall small_epoch (uniq_from p rest) /\
  (forall x, small_epoch x -> Forall (le x) (p :: rest) -> Forall (le x) (uniq_from p rest)).
Proof.
  induction rest as [|q r IH]; intros p Hs Hl; cbn [uniq_from]; [auto|].
  inversion Hs as [|? ? Sp Hs']; subst. inversion Hl as [|? ? Hl' Hp]; subst.
  inversion Hs' as [|? ? Sq Sr]; subst. inversion Hp as [|? ? Hpq Hpr]; subst. inversion Hl' as [|? ? Hl'' Hq]; subst.
  destruct (package_merge p q) as [m|] eqn:E.
  - destruct (merge_key p q m Sp Sq Hpq E) as [Sm Em].
    destruct (IH m) as (A & B & C).
    + constructor; assumption.
    + constructor; [assumption|]. apply Forall_forall. intros z Hz. apply (le_eq_l m q z); try assumption.
      * eapply Forall_forall in Sr; eassumption.
      * eapply Forall_forall in Hq; eassumption.
    + split; [assumption|]. split; [assumption|]. intros x Sx Hx. inversion Hx as [|? ? X1 X2]; subst. inversion X2 as [|? ? X3 X4]; subst.
      apply C; [assumption|]. constructor; [|assumption]. apply (le_eq_r m q x); assumption.
  - destruct (IH q Hs' Hl') as (A & B & C). split; [|split].
    + constructor; [assumption|]. apply C; assumption.
    + constructor; assumption.
    + intros x Sx Hx. inversion Hx as [|? ? X1 X2]; subst. constructor; [assumption|]. apply C; assumption.
Qed.
Lemma sorted_apart l : Forall small_epoch l -> StronglySorted le l -> linked (fun x y => ~ same_package x y) l ->
  ForallOrdPairs (fun x y => ~ same_package x y) l.
Proof.
  intros Hs Hl Hk. induction Hl as [|a l Hl IH Ha]; constructor.
  - inversion Hs as [|? ? Sa Sl]; subst. inversion Hk as [|? Ex|? b t Hab Hk']; subst; [constructor|].
    apply Forall_forall. intros y Hy (Hn & Har). destruct Hy as [->|Hy]; [apply Hab; split; assumption|].
    inversion Sl as [|? ? Sb St]; subst. inversion Ha as [|? ? Lab _]; subst. inversion Hl as [|? ? _ Lb]; subst.
    assert (Sy : small_epoch y) by (eapply Forall_forall in St; eassumption).
    assert (Lby : le b y) by (eapply Forall_forall in Lb; eassumption).
    assert (Cay : cmp3 a y = 0%Z) by (apply (proj1 cmp3_orders); assumption).
    assert (Cya : cmp3 y a = 0%Z) by (pose proof (proj1 (proj2 cmp3_orders) a y Sa Sy) as K; rewrite Cay in K; destruct (cmp3 y a); cbn in K; lia).
    assert (Cba : (cmp3 b a <= 0)%Z).
    { apply (proj2 (proj2 cmp3_orders) b y a); try assumption; [now apply le_cmp3|lia]. }
    assert (Cab : cmp3 a b = 0%Z).
    { pose proof (le_cmp3 _ _ Lab). pose proof (proj1 (proj2 cmp3_orders) a b Sa Sb) as K.
      revert K Cba H. generalize (cmp3 a b) (cmp3 b a). intros [|u|u] [|v|v]; cbn; lia. }
    assert (Nab : same_nevr a b) by (now apply (proj1 cmp3_orders) in Cab).
    assert (Nby : same_nevr b y) by (unfold same_nevr in *; intuition congruence).
    assert (Cby : cmp3 b y = 0%Z) by (now apply (proj1 cmp3_orders)).
    apply le_arch in Lab; [|assumption]. apply le_arch in Lby; [|assumption].
    destruct (rp_architecture a) as [u|] eqn:Ea; [|apply Hab; split; auto].
    destruct (rp_architecture b) as [v|] eqn:Eb; [|apply Hab; split; auto].
    destruct (rp_architecture y) as [w|] eqn:Ey; [|cbn in Lby; lia].
    destruct Har as [?|[?|Har]]; try discriminate. injection Har as <-.
    apply Hab. split; [assumption|]. right; right. rewrite Ea, Eb. f_equal.
    cbn in Lab, Lby. apply strcmp_zero. pose proof (strcmp_flip u v). lia.
  - apply IH; [now inversion Hs|]. inversion Hk; subst; [constructor|assumption].
Qed.
Theorem uniq_sorted_apart l : Forall small_epoch l -> StronglySorted le l ->
  ForallOrdPairs (fun x y => ~ same_package x y) (sr_rpm_package_uniq l).
Proof.
  intros Hs Hl. destruct l as [|p r]; [constructor|].
  destruct (uniq_sorted r p Hs Hl) as (A & B & _). apply sorted_apart; try assumption. apply uniq_from_apart.
Qed.
Theorem sort_correct qsort l : sorts qsort -> Forall small_epoch l -> l <> [] ->
  exists s, sr_rpm_package_sort qsort l = Ok s /\ Permutation l s /\ StronglySorted (fun p q => (rpm_cmp_nevra p q <= 0)%Z) s.
Proof.
  intros Q Hs N. destruct l as [|p r]; [congruence|]. eexists. split; [reflexivity|].
  apply (Q small_epoch _ rpm_cmp_nevra (p :: r) rpm_nevra_orders Hs).
Qed.
