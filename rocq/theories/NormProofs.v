From Verif Require Import Base Types UtilsModel UtilsProofs CmpModel CmpProofs NormTables NormModel NormSpec.
From Coq Require Import Relations.
Open Scope nat_scope.

(** ** Subsequences *)
Lemma sub_refl {A} : forall l : list A, subseq l l.
Proof. induction l; constructor; assumption. Qed.
Lemma sub_none {A} : forall l : list A, subseq [] l.
Proof. induction l; constructor; assumption. Qed.
Lemma sub_trans {A} : forall a b c : list A, subseq a b -> subseq b c -> subseq a c.
Proof.
  intros a b c H1 H2. revert a H1. induction H2 as [|x b c H IH|x b c H IH]; intros a H1.
  - exact H1.
  - inversion H1; subst; [constructor|apply sub_skip]; auto.
  - apply sub_skip. auto.
Qed.
Lemma sub_app {A} : forall a b c d : list A, subseq a b -> subseq c d -> subseq (a ++ c) (b ++ d).
Proof. intros a b c d H H2. induction H; cbn; [exact H2|constructor; assumption|constructor; assumption]. Qed.
Lemma sub_suffix {A} : forall l1 l2 : list A, subseq l2 (l1 ++ l2).
Proof. intros l1 l2. apply (sub_app [] l1 l2 l2); [apply sub_none|apply sub_refl]. Qed.
Lemma sub_map {A B} : forall (f : A -> B) a b, subseq a b -> subseq (map f a) (map f b).
Proof. intros f a b H. induction H; cbn; constructor; assumption. Qed.
Lemma sub_of_map {A B} : forall (f : A -> B) l x, subseq x (map f l) -> exists m, subseq m l /\ x = map f m.
Proof.
  intros f. induction l as [|y l IH]; intros x H; cbn in H; inversion H; subst.
  - exists []. split; [constructor|reflexivity].
  - destruct (IH _ H2) as (m & S & ->). exists (y :: m). split; [now constructor|reflexivity].
  - destruct (IH _ H2) as (m & S & ->). exists m. split; [now constructor|reflexivity].
Qed.
Lemma sub_in {A} : forall (a b : list A) x, subseq a b -> In x a -> In x b.
Proof. intros a b x H. induction H; cbn; intuition. Qed.
Lemma sub_Forall {A} : forall (P : A -> Prop) a b, subseq a b -> Forall P b -> Forall P a.
Proof. intros P a b H F. apply Forall_forall. intros x Hx. rewrite Forall_forall in F. apply F. eapply sub_in; eassumption. Qed.

(** ** The list steps *)
Section Steps.
Context {F : Type}.
Variables (exit removable above edge : F -> bool) (same : F -> F -> bool).
Lemma find_exit_acc : forall l i r, find_exit_frame exit i l r =
  match find_exit_frame exit 0 l None with Some j => Some (i + j)%nat | None => r end.
Proof.
  induction l as [|f l IH]; intros i r; cbn [find_exit_frame]; [reflexivity|].
  rewrite IH. rewrite (IH 1%nat _). destruct (find_exit_frame exit 0 l None) as [j|].
  - now rewrite <- plus_n_Sm.
  - destruct (exit f); [now rewrite Nat.add_0_r|reflexivity].
Qed.
Lemma cut_cons : forall f l, cut_exit exit (f :: l) =
  if existsb exit l then cut_exit exit l else if exit f then l else f :: l.
Proof.
  intros f l. unfold cut_exit. cbn [find_exit_frame]. rewrite find_exit_acc.
  assert (E : existsb exit l = match find_exit_frame exit 0 l None with Some _ => true | None => false end).
  { clear f. induction l as [|g l IH]; [reflexivity|]. cbn [existsb find_exit_frame]. rewrite find_exit_acc.
    destruct (find_exit_frame exit 0 l None); rewrite IH; destruct (exit g); reflexivity. }
  destruct (find_exit_frame exit 0 l None) as [j|]; rewrite E; [reflexivity|]. destruct (exit f); reflexivity.
Qed.
Lemma cut_none : forall l, (forall x, In x l -> exit x = false) -> cut_exit exit l = l.
Proof.
  induction l as [|f l IH]; intro H; [reflexivity|]. rewrite cut_cons.
  replace (existsb exit l) with false.
  - now rewrite (H f) by now left.
  - symmetry. apply not_true_is_false. intro X. apply existsb_exists in X. destruct X as (x & I & E).
    rewrite (H x) in E by now right. discriminate.
Qed.
Lemma cut_at : forall l1 e l2, exit e = true -> cut_exit exit (l1 ++ e :: l2) = cut_exit exit l2.
Proof.
  induction l1 as [|f l1 IH]; intros e l2 E; cbn [app]; rewrite cut_cons.
  - destruct (existsb exit l2) eqn:X; [reflexivity|]. rewrite E. symmetry. apply cut_none. intros x I.
    apply not_true_is_false. intro Hx. enough (existsb exit l2 = true) by congruence.
    apply existsb_exists. eauto.
  - rewrite existsb_app. cbn [existsb]. rewrite E, orb_true_r. now apply IH.
Qed.
Lemma cut_subseq : forall l, subseq (cut_exit exit l) l.
Proof.
  induction l as [|f l IH]; [constructor|]. rewrite cut_cons. destruct (existsb exit l); [now constructor|].
  destruct (exit f); [constructor|]; apply sub_refl.
Qed.
Lemma sweep_subseq : forall l kept, subseq (sweep removable above kept l) (kept ++ l).
Proof.
  induction l as [|f l IH]; intro kept; cbn [sweep]; [rewrite app_nil_r; apply sub_refl|].
  assert (K : subseq (if above f then [] else kept) kept) by (destruct (above f); [apply sub_none|apply sub_refl]).
  destruct (removable f || above f).
  - eapply sub_trans; [apply IH|]. apply sub_app; [exact K|]. constructor. apply sub_refl.
  - eapply sub_trans; [apply IH|]. rewrite <- app_assoc. apply sub_app; [exact K|apply sub_refl].
Qed.
Lemma sweep_clean : forall l kept, Forall (fun f => removable f = false /\ above f = false) kept ->
  Forall (fun f => removable f = false /\ above f = false) (sweep removable above kept l).
Proof.
  induction l as [|f l IH]; intros kept K; cbn [sweep]; [exact K|].
  assert (K' : Forall (fun f => removable f = false /\ above f = false) (if above f then [] else kept)).
  { destruct (above f); [constructor|exact K]. }
  destruct (removable f || above f) eqn:E; [now apply IH|]. apply IH. apply Forall_app. split; [exact K'|].
  constructor; [|constructor]. now apply orb_false_iff.
Qed.
Lemma sweep_none : forall l kept, Forall (fun f => removable f = false /\ above f = false) l ->
  sweep removable above kept l = kept ++ l.
Proof.
  induction l as [|f l IH]; intros kept K; cbn [sweep]; [now rewrite app_nil_r|].
  inversion K as [|? ? [R A] K']; subst. rewrite R, A. cbn [orb]. rewrite IH by exact K'. now rewrite <- app_assoc.
Qed.
Lemma sweep_below : forall l1 f l2 kept, above f = true -> sweep removable above kept (l1 ++ f :: l2) = sweep removable above [] l2.
Proof.
  induction l1 as [|g l1 IH]; intros f l2 kept A; cbn [app sweep].
  - now rewrite A, orb_true_r.
  - destruct (removable g || above g); now apply IH.
Qed.
Lemma drop_first_subseq : forall l, subseq (drop_first edge l) l.
Proof. destruct l as [|f l]; cbn; [constructor|]. destruct (edge f); [constructor|]; apply sub_refl. Qed.
Lemma drop_last_subseq : forall l, subseq (drop_last edge l) l.
Proof.
  induction l as [|f [|g l] IH]; [constructor|cbn; destruct (edge f); [apply sub_none|apply sub_refl]|].
  change (drop_last edge (f :: g :: l)) with (f :: drop_last edge (g :: l)). now constructor.
Qed.
Lemma merge_from_subseq : forall l p, subseq (merge_from same p l) l.
Proof. induction l as [|f l IH]; intro p; cbn; [constructor|]. destruct (same p f); constructor; apply IH. Qed.
Lemma merge_subseq : forall l, subseq (merge_recursive same l) l.
Proof. destruct l; cbn; constructor. apply merge_from_subseq. Qed.
Lemma merge_from_adj : forall l p l1 a b l2, p :: merge_from same p l = l1 ++ a :: b :: l2 -> same a b = false.
Proof.
  induction l as [|f l IH]; intros p l1 a b l2 H; cbn in H.
  - destruct l1 as [|? [|? ?]]; discriminate H.
  - destruct (same p f) eqn:E; [now apply IH in H|].
    destruct l1 as [|x l1]; [inversion H; subst; exact E|]. injection H as _ H. now apply IH in H.
Qed.
Lemma merge_adj : forall l l1 a b l2, merge_recursive same l = l1 ++ a :: b :: l2 -> same a b = false.
Proof. intros [|f l] l1 a b l2 H; [destruct l1; discriminate H|]. eapply merge_from_adj; exact H. Qed.
Lemma merge_from_none : forall l p, (forall l1 a b l2, p :: l = l1 ++ a :: b :: l2 -> same a b = false) ->
  merge_from same p l = l.
Proof.
  induction l as [|f l IH]; intros p H; cbn; [reflexivity|].
  rewrite (H [] p f l eq_refl). f_equal. apply IH. intros l1 a b l2 E. apply (H (p :: l1) a b l2). now rewrite E.
Qed.
Lemma merge_none : forall l, (forall l1 a b l2, l = l1 ++ a :: b :: l2 -> same a b = false) -> merge_recursive same l = l.
Proof. intros [|f l] H; cbn; [reflexivity|]. now rewrite merge_from_none. Qed.
Lemma drop_first_none : forall l, (forall x r, l = x :: r -> edge x = false) -> drop_first edge l = l.
Proof. intros [|f l] H; cbn; [reflexivity|]. now rewrite (H f l eq_refl). Qed.
Lemma drop_last_none : forall l, (forall r x, l = r ++ [x] -> edge x = false) -> drop_last edge l = l.
Proof.
  induction l as [|f [|g l] IH]; intro H; [reflexivity|cbn; now rewrite (H [] f eq_refl)|].
  change (drop_last edge (f :: g :: l)) with (f :: drop_last edge (g :: l)). f_equal. apply IH.
  intros r x E. apply (H (f :: r) x). cbn. now rewrite <- E.
Qed.
End Steps.

Lemma cut_split : forall {F} (exit : F -> bool) l1 e l2,
  cut_exit exit (l1 ++ e :: l2) = cut_exit exit l2 \/
  cut_exit exit l2 = l2 /\ exists l1', cut_exit exit (l1 ++ e :: l2) = l1' ++ e :: l2.
Proof.
  intros F exit l1 e l2. destruct (existsb exit l2) eqn:X.
  - left. induction l1 as [|f l1 IH]; cbn [app]; rewrite cut_cons; [now rewrite X|].
    rewrite existsb_app. cbn [existsb]. rewrite X, !orb_true_r. exact IH.
  - assert (C2 : cut_exit exit l2 = l2).
    { apply cut_none. intros x I. apply not_true_is_false. intro Hx. rewrite <- not_true_iff_false in X. apply X.
      apply existsb_exists. eauto. }
    induction l1 as [|f l1 IH]; cbn [app]; rewrite cut_cons.
    + rewrite X. destruct (exit e); [left; now rewrite C2|right; split; [exact C2|now exists []]].
    + destruct (existsb exit (l1 ++ e :: l2)); [exact IH|]. right. split; [exact C2|].
      destruct (exit f); [now exists l1|now exists (f :: l1)].
Qed.

(** ** The pipeline both normalizations share *)
Section Pipe.
Context {F : Type}.
Variables (exit removable above edge : F -> bool) (same : F -> F -> bool) (canon post : F -> F).
Definition pipe (l : list F) : list F :=
  merge_recursive same (drop_last edge (drop_first edge (map post (sweep removable above [] (map canon (cut_exit exit l)))))).
Definition clean (f : F) : Prop := removable f = false /\ above f = false.
Lemma pipe_sub_swept : forall l, subseq (pipe l) (map post (sweep removable above [] (map canon (cut_exit exit l)))).
Proof.
  intro l. eapply sub_trans; [apply merge_subseq|]. eapply sub_trans; [apply drop_last_subseq|apply drop_first_subseq].
Qed.
Lemma pipe_sub : forall l, exists m, subseq m l /\ pipe l = map (fun f => post (canon f)) m.
Proof.
  intro l. assert (S : subseq (pipe l) (map post (map canon (cut_exit exit l)))).
  { eapply sub_trans; [apply pipe_sub_swept|]. apply sub_map, (sweep_subseq _ _ _ []). }
  rewrite map_map in S. apply sub_of_map in S. destruct S as (m & S & E).
  exists m. split; [|exact E]. eapply sub_trans; [exact S|apply cut_subseq].
Qed.
Lemma pipe_clean : forall l x, In x (pipe l) -> exists y, x = post y /\ clean y.
Proof.
  intros l x I. apply (sub_in _ _ x (pipe_sub_swept l)) in I. apply in_map_iff in I. destruct I as (y & <- & I).
  exists y. split; [reflexivity|].
  assert (K : Forall clean (sweep removable above [] (map canon (cut_exit exit l)))) by (apply sweep_clean; constructor).
  rewrite Forall_forall in K. now apply K.
Qed.
Lemma pipe_below_exit : forall l1 e l2, exit e = true -> pipe (l1 ++ e :: l2) = pipe l2.
Proof. intros l1 e l2 H. unfold pipe. now rewrite cut_at. Qed.
Lemma pipe_below_above : forall l1 e l2, above (canon e) = true -> pipe (l1 ++ e :: l2) = pipe l2.
Proof.
  intros l1 e l2 H. unfold pipe. destruct (cut_split exit l1 e l2) as [-> |(-> & l1' & ->)]; [reflexivity|].
  rewrite map_app. cbn [map]. now rewrite sweep_below.
Qed.
Lemma pipe_alone : forall l1 e l2, exit e = false -> removable (canon e) = true -> above (canon e) = false ->
  pipe (l1 ++ e :: l2) = pipe (l1 ++ l2).
Proof.
  intros l1 e l2 H1 H2 H3. unfold pipe.
  assert (W : forall m1 kept m2, sweep removable above kept (m1 ++ canon e :: m2) = sweep removable above kept (m1 ++ m2)).
  { induction m1 as [|g m1 IH]; intros kept m2; cbn [app sweep]; [now rewrite H2, H3|].
    destruct (removable g || above g); apply IH. }
  assert (C : cut_exit exit (l1 ++ e :: l2) = cut_exit exit (l1 ++ l2) \/
     exists l1' , cut_exit exit (l1 ++ e :: l2) = l1' ++ e :: l2 /\ cut_exit exit (l1 ++ l2) = l1' ++ l2).
  { destruct (existsb exit l2) eqn:X.
    - left. induction l1 as [|f l1 IH]; cbn [app]; rewrite !cut_cons; [now rewrite X|].
      rewrite !existsb_app. cbn [existsb]. rewrite X, !orb_true_r. exact IH.
    - right. assert (C2 : cut_exit exit l2 = l2).
      { apply cut_none. intros x I. apply not_true_is_false. intro Hx. rewrite <- not_true_iff_false in X. apply X.
        apply existsb_exists. eauto. }
      induction l1 as [|f l1 IH]; cbn [app].
      + exists []. now rewrite cut_cons, X, H1.
      + rewrite !cut_cons, !existsb_app. cbn [existsb]. rewrite H1, X. cbn [orb]. rewrite orb_false_r.
        destruct (existsb exit l1); [exact IH|]. destruct (exit f); [now exists l1|now exists (f :: l1)]. }
  destruct C as [-> |(l1' & -> & ->)]; [reflexivity|]. rewrite !map_app. cbn [map]. now rewrite W.
Qed.
Hypothesis same_trans : forall x y z, same x y = true -> same y z = true -> same x z = true.
Lemma merge_twice : forall k1 p a b k2, same a b = true -> merge_from same p (k1 ++ a :: b :: k2) = merge_from same p (k1 ++ a :: k2).
Proof.
  induction k1 as [|f k1 IH]; intros p a b k2 H; cbn [app merge_from].
  - destruct (same p a) eqn:E; [now rewrite (same_trans _ _ _ E H)|now rewrite H].
  - destruct (same p f); [now apply IH|f_equal; now apply IH].
Qed.
Lemma drop_last_app : forall (k1 k2 : list F) x, drop_last edge (k1 ++ x :: k2) = k1 ++ drop_last edge (x :: k2).
Proof.
  induction k1 as [|f k1 IH]; intros k2 x; [reflexivity|]. cbn [app]. rewrite <- IH.
  destruct k1; reflexivity.
Qed.
Lemma drop_last_cons : forall (x : F) k, edge x = false -> drop_last edge (x :: k) = x :: drop_last edge k.
Proof. intros x [|y k] H; cbn; [now rewrite H|reflexivity]. Qed.
Lemma ends_twice : forall k1 a b k2, edge a = false -> edge b = false -> same a b = true ->
  merge_recursive same (drop_last edge (drop_first edge (k1 ++ a :: b :: k2))) =
  merge_recursive same (drop_last edge (drop_first edge (k1 ++ a :: k2))).
Proof.
  intros k1 a b k2 Ha Hb H.
  assert (D : exists k1', drop_first edge (k1 ++ a :: b :: k2) = k1' ++ a :: b :: k2 /\ drop_first edge (k1 ++ a :: k2) = k1' ++ a :: k2).
  { destruct k1 as [|f k1]; cbn [app drop_first]; [rewrite Ha; now exists []|].
    destruct (edge f); [now exists k1|now exists (f :: k1)]. }
  destruct D as (k1' & -> & ->). rewrite !drop_last_app, !drop_last_cons by assumption.
  destruct k1' as [|f k1']; cbn [app merge_recursive].
  - f_equal. exact (merge_twice [] a a b (drop_last edge k2) H) || (cbn [merge_from]; now rewrite H).
  - f_equal. now apply merge_twice.
Qed.
Lemma sweep_twice_kept : forall a b l2 kept s, 
  sweep removable above (kept ++ a :: b :: s) l2 = sweep removable above (kept ++ a :: s) l2 \/
  exists s', sweep removable above (kept ++ a :: b :: s) l2 = kept ++ a :: b :: s' /\
             sweep removable above (kept ++ a :: s) l2 = kept ++ a :: s'.
Proof.
  intros a b. induction l2 as [|g l2 IH]; intros kept s; cbn [sweep]; [right; now exists s|].
  destruct (above g) eqn:A; [left; reflexivity|]. rewrite orb_false_r. destruct (removable g); [apply IH|].
  rewrite <- !app_assoc. cbn [app]. apply IH.
Qed.
Lemma sweep_twice : forall a b, clean a -> clean b -> forall l1 kept l2,
  sweep removable above kept (l1 ++ a :: b :: l2) = sweep removable above kept (l1 ++ a :: l2) \/
  exists k1 k2, sweep removable above kept (l1 ++ a :: b :: l2) = k1 ++ a :: b :: k2 /\
                sweep removable above kept (l1 ++ a :: l2) = k1 ++ a :: k2.
Proof.
  intros a b [Ra Aa] [Rb Ab]. induction l1 as [|g l1 IH]; intros kept l2; cbn [app sweep].
  - rewrite Ra, Aa, Rb, Ab. cbn [orb]. rewrite <- app_assoc. cbn [app].
    destruct (sweep_twice_kept a b l2 kept []) as [E|(s & E1 & E2)]; [now left|right; eauto].
  - destruct (removable g || above g); apply IH.
Qed.
Lemma pipe_twice : forall l1 a b l2, exit a = false -> exit b = false -> clean (canon a) -> clean (canon b) ->
  edge (post (canon a)) = false -> edge (post (canon b)) = false -> same (post (canon a)) (post (canon b)) = true ->
  pipe (l1 ++ a :: b :: l2) = pipe (l1 ++ a :: l2).
Proof.
  intros l1 a b l2 Xa Xb Ca Cb Ea Eb S. unfold pipe.
  assert (C : cut_exit exit (l1 ++ a :: b :: l2) = cut_exit exit (l1 ++ a :: l2) \/
     exists l1' , cut_exit exit (l1 ++ a :: b :: l2) = l1' ++ a :: b :: l2 /\ cut_exit exit (l1 ++ a :: l2) = l1' ++ a :: l2).
  { destruct (existsb exit l2) eqn:X.
    - left. induction l1 as [|f l1 IH]; cbn [app]; rewrite !cut_cons; cbn [existsb]; [now rewrite X, orb_true_r|].
      rewrite !existsb_app. cbn [existsb]. rewrite X, !orb_true_r. exact IH.
    - right. induction l1 as [|f l1 IH]; cbn [app].
      + exists []. rewrite !cut_cons. cbn [existsb]. now rewrite X, Xa, Xb.
      + rewrite !(cut_cons _ f), !existsb_app. cbn [existsb]. rewrite Xa, Xb, X. cbn [orb]. rewrite orb_false_r.
        destruct (existsb exit l1); [exact IH|]. destruct (exit f); [now exists l1|now exists (f :: l1)]. }
  destruct C as [-> |(l1' & -> & ->)]; [reflexivity|]. rewrite !map_app. cbn [map].
  destruct (sweep_twice _ _ Ca Cb (map canon l1') [] (map canon l2)) as [-> |(k1 & k2 & -> & ->)]; [reflexivity|].
  rewrite !map_app. cbn [map]. now apply ends_twice.
Qed.
Lemma pipe_canon : forall l1 e e' l2, canon e = canon e' -> exit e = false ->
  (exit e' = true -> above (canon e) = true) -> pipe (l1 ++ e :: l2) = pipe (l1 ++ e' :: l2).
Proof.
  intros l1 e e' l2 C Xe Xe'. destruct (exit e') eqn:E'.
  - rewrite pipe_below_above by now apply Xe'. now rewrite pipe_below_exit.
  - unfold pipe. assert (K : cut_exit exit (l1 ++ e :: l2) = cut_exit exit (l1 ++ e' :: l2) \/
      exists l1', cut_exit exit (l1 ++ e :: l2) = l1' ++ e :: l2 /\ cut_exit exit (l1 ++ e' :: l2) = l1' ++ e' :: l2).
    { destruct (existsb exit l2) eqn:X.
      - left. induction l1 as [|f l1 IH]; cbn [app]; rewrite !cut_cons; [now rewrite X|].
        rewrite !existsb_app. cbn [existsb]. rewrite X, !orb_true_r. exact IH.
      - right. induction l1 as [|f l1 IH]; cbn [app].
        + exists []. rewrite !cut_cons. now rewrite X, Xe, E'.
        + rewrite !(cut_cons _ f), !existsb_app. cbn [existsb]. rewrite Xe, E', X. cbn [orb]. rewrite orb_false_r.
          destruct (existsb exit l1); [exact IH|]. destruct (exit f); [now exists l1|now exists (f :: l1)]. }
    destruct K as [-> |(l1' & -> & ->)]; [reflexivity|]. rewrite !map_app. cbn [map]. now rewrite C.
Qed.
Lemma pipe_plain : forall l, (forall x, In x l -> exit x = false) -> (forall x, In x l -> clean (canon x)) ->
  pipe l = merge_recursive same (drop_last edge (drop_first edge (map (fun f => post (canon f)) l))).
Proof.
  intros l H1 H2. unfold pipe. rewrite cut_none by exact H1. rewrite sweep_none.
  - cbn [app]. now rewrite map_map.
  - apply Forall_forall. intros y Hy. apply in_map_iff in Hy. destruct Hy as (x & <- & I). now apply H2.
Qed.
Lemma pipe_first : forall e l, (forall x, In x (e :: l) -> exit x = false) -> (forall x, In x (e :: l) -> clean (canon x)) ->
  edge (post (canon e)) = true -> (forall x r, l = x :: r -> edge (post (canon x)) = false) -> pipe (e :: l) = pipe l.
Proof.
  intros e l H1 H2 E N. rewrite !pipe_plain; auto with datatypes.
  cbn [map drop_first]. rewrite E. f_equal. f_equal. symmetry. apply drop_first_none.
  intros x r X. destruct l as [|y l]; [discriminate X|]. injection X as <- _. eapply N; reflexivity.
Qed.
Lemma pipe_last : forall e l, l <> [] -> (forall x, In x (l ++ [e]) -> exit x = false) ->
  (forall x, In x (l ++ [e]) -> clean (canon x)) ->
  edge (post (canon e)) = true -> (forall r x, l = r ++ [x] -> edge (post (canon x)) = false) -> pipe (l ++ [e]) = pipe l.
Proof.
  intros e l N0 H1 H2 E N. rewrite !pipe_plain by (intros; (apply H1 || apply H2); auto with datatypes).
  rewrite map_app. cbn [map]. set (g := fun f => post (canon f)). change (post (canon e)) with (g e) in *.
  assert (D : forall l', drop_last edge (l' ++ [g e]) = l').
  { intro l'. rewrite drop_last_app. cbn. rewrite E. apply app_nil_r. }
  assert (M : forall m, (forall r x, m = r ++ [x] -> edge (g x) = false) -> drop_last edge (map g m) = map g m).
  { intros m Hm. apply drop_last_none. intros r x X. symmetry in X. apply map_eq_app in X || idtac.
    symmetry in X. destruct (exists_last (l := m)) as (m' & y & ->); [intros ->; destruct r; discriminate X|].
    rewrite map_app in X. apply app_inj_tail in X. destruct X as [_ <-]. eapply Hm. reflexivity. }
  destruct l as [|f l]; [congruence|]. cbn [map app drop_first].
  destruct (edge (g f)) eqn:Ef.
  - rewrite D. rewrite M; [reflexivity|]. intros r x X. apply (N (f :: r) x). now rewrite X.
  - rewrite app_comm_cons, D. change (g f :: map g l) with (map g (f :: l)). now rewrite M.
Qed.
End Pipe.

(** ** Tables *)
Lemma strstr_iff : forall h n, strstr h n = true <-> infix n h.
Proof.
  induction h as [|c h IH]; intro n; cbn [strstr]; rewrite orb_true_iff, starts_with_iff; split.
  - intros [(r & E)|E]; [|discriminate E]. exists [], r. exact E.
  - intros (a & b & E). left. destruct a; [|discriminate E]. exists b. exact E.
  - intros [(r & E)|E]; [exists [], r; exact E|]. apply IH in E. destruct E as (a & b & ->). exists (c :: a), b. reflexivity.
  - intros (a & b & E). destruct a as [|x a]; [left; exists b; exact E|]. right. injection E as -> E. apply IH. exists a, b. exact E.
Qed.
Lemma file_match_iff : forall sf files, file_match sf files = true <-> exists s p, sf = Some s /\ In p files /\ infix p s.
Proof.
  intros sf files. destruct sf as [s|]; cbn.
  - rewrite existsb_exists. split.
    + intros (p & I & E). apply strstr_iff in E. eauto.
    + intros (s' & p & E & I & H). injection E as <-. exists p. split; [exact I|]. now apply strstr_iff.
  - split; [discriminate|]. intros (s & p & E & _). discriminate.
Qed.
Lemma any_call_iff : forall t fn sf, any_call t fn sf = true <-> listed t fn sf.
Proof.
  intros t fn sf. unfold any_call. rewrite existsb_exists. split.
  - intros ((n & files) & I & E). cbn in E. destruct fn as [f|]; [|discriminate E]. cbn in E.
    destruct (str_eqb f n) eqn:Ef; [|discriminate E]. apply str_eqb_eq in Ef. subst n.
    apply file_match_iff in E. destruct E as (s & p & -> & Ip & Hp). exists f, files, p, s. auto.
  - intros (n & files & p & s & I & -> & -> & Ip & Hp). exists (n, files). split; [exact I|]. cbn.
    rewrite str_eqb_refl. apply existsb_exists. exists p. split; [exact Ip|]. now apply strstr_iff.
Qed.
Fixpoint distinct (l : list str) : bool :=
  match l with [] => true | x :: r => negb (existsb (str_eqb x) r) && distinct r end.
Lemma find_unique : forall (t : list (str * list str)) n files, distinct (map fst t) = true ->
  In (n, files) t -> find (fun r => str_eqb (fst r) n) t = Some (n, files).
Proof.
  induction t as [|[m fs] t IH]; intros n files D I; [destruct I|]. cbn [map fst distinct find] in *.
  apply andb_true_iff in D. destruct D as [D1 D2]. destruct I as [E|I].
  - injection E as -> ->. now rewrite str_eqb_refl.
  - destruct (str_eqb m n) eqn:Em; [|now apply IH]. apply str_eqb_eq in Em. subst m.
    apply negb_true_iff in D1. exfalso. enough (existsb (str_eqb n) (map fst t) = true) by congruence.
    apply existsb_exists. exists n. split; [|apply str_eqb_refl]. apply in_map_iff. exists (n, files). auto.
Qed.
Lemma removable_distinct : distinct (map fst removable_table) = true.
Proof. vm_compute. reflexivity. Qed.
Lemma removable_iff : forall fn sf, sr_gdb_frame_is_removable fn sf = true <-> listed removable_table fn sf.
Proof.
  intros fn sf. unfold sr_gdb_frame_is_removable. split.
  - destruct fn as [f|]; [|discriminate]. destruct sf as [s|]; [|discriminate]. unfold in_word_set.
    destruct (find _ removable_table) as [[n files]|] eqn:E; [|discriminate]. apply find_some in E.
    destruct E as [I E]. cbn [fst] in E. apply str_eqb_eq in E. subst n. cbn [snd]. intro M.
    apply file_match_iff in M. destruct M as (s' & p & Es & Ip & Hp). exists f, files, p, s'. auto.
  - intros (n & files & p & s & I & -> & -> & Ip & Hp). unfold in_word_set.
    rewrite (find_unique _ _ _ removable_distinct I). cbn [snd]. apply file_match_iff. eauto.
Qed.

(** ** Names *)
Lemma remove_prefix_stable : forall n p k, starts_with p n = false -> remove_func_prefix (Some n) p k = Some n.
Proof. intros n p k H. cbn. now rewrite H. Qed.
Lemma remove_prefix_yes : forall p r k, k <= length p -> remove_func_prefix (Some (p ++ r)) p k = Some (skipn k p ++ r).
Proof.
  intros p r k Hk. cbn [remove_func_prefix].
  assert (E : starts_with p (p ++ r) = true) by (apply starts_with_iff; eauto). rewrite E.
  rewrite app_length. replace (Nat.ltb (length p + length r) k) with false by (symmetry; apply Nat.ltb_ge; lia).
  now rewrite skipn_app, (proj2 (Nat.sub_0_le k (length p)) Hk).
Qed.
Lemma remove_step : forall p k n, k <= length p ->
  (forall r, simplifies (p ++ r) (skipn k p ++ r)) ->
  exists m, remove_func_prefix (Some n) p k = Some m /\ clos_refl_trans str simplifies n m.
Proof.
  intros p k n Hk S. destruct (starts_with p n) eqn:E.
  - apply starts_with_iff in E. destruct E as [r ->]. exists (skipn k p ++ r). split; [now apply remove_prefix_yes|].
    apply rt_step, S.
  - exists n. split; [now apply remove_prefix_stable|apply rt_refl].
Qed.
Lemma remove_prefixes_ok : forall n, exists m, remove_prefixes (Some n) = Some m /\ clos_refl_trans str simplifies n m.
Proof.
  intro n. unfold remove_prefixes.
  destruct (remove_step (L "IA__gdk") (length (L "IA__")) n) as (m1 & E1 & R1); [cbn; lia|intro r; apply s_gdk|].
  rewrite E1.
  destruct (remove_step (L "IA__g_") (length (L "IA__")) m1) as (m2 & E2 & R2); [cbn; lia|intro r; apply s_g|].
  rewrite E2.
  destruct (remove_step (L "IA__gtk") (length (L "IA__")) m2) as (m3 & E3 & R3); [cbn; lia|intro r; apply s_gtk|].
  rewrite E3.
  destruct (remove_step (L "__GI_") (length (L "__GI_")) m3) as (m4 & E4 & R4); [cbn; lia|intro r; apply s_gi|].
  exists m4. split; [exact E4|]. eapply rt_trans; [exact R1|]. eapply rt_trans; [exact R2|]. eapply rt_trans; eassumption.
Qed.
Lemma remove_prefixes_canonical : forall n, canonical_name n (remove_prefixes n).
Proof. intros [n|]; [|exact I]. destruct (remove_prefixes_ok n) as (m & -> & R). exact R. Qed.
Lemma remove_prefixes_stable : forall n, prefix_free n -> remove_prefixes n = n.
Proof.
  intros [n|] H; [|reflexivity].
  assert (K : forall p, (forall r, n <> p ++ r) -> starts_with p n = false).
  { intros p Hp. apply not_true_is_false. intro E. apply starts_with_iff in E. destruct E as [r E]. exact (Hp r E). }
  unfold remove_prefixes.
  rewrite (remove_prefix_stable n) by (apply K; intro r; apply (H n r eq_refl)).
  rewrite (remove_prefix_stable n) by (apply K; intro r; apply (H n r eq_refl)).
  rewrite (remove_prefix_stable n) by (apply K; intro r; apply (H n r eq_refl)).
  apply remove_prefix_stable, K. intro r. apply (H n r eq_refl).
Qed.
Lemma find_new_ok : forall fn sf n, find_new_function_name_glibc fn sf = Some n ->
  exists f, fn = Some f /\ simplifies f n /\ In n arch_functions.
Proof.
  intros fn sf n H. unfold find_new_function_name_glibc in H. apply find_some in H. destruct H as [I H].
  apply any_call_iff in H. destruct H as (m & files & p & s & Im & -> & _). exists m. split; [reflexivity|].
  split; [|exact I]. unfold arch_variants in Im. apply in_app_or in Im. destruct Im as [Im|Im].
  - apply in_map_iff in Im. destruct Im as (suf & E & Is). injection E as <- _.
    apply s_arch; [exact I|]. unfold arch_suffixes; cbn [In] in Is |- *; tauto.
  - destruct Im as [E|[]]. injection E as <- _. apply s_arch; [exact I|]. unfold arch_suffixes; cbn [In]; tauto.
Qed.
(* a plain libc function name has no architecture-specific variant prefix *)
Lemma arch_no_variant : forall n, In n arch_functions -> starts_with (L "__") n = false.
Proof.
  assert (K : forallb (fun n => negb (starts_with (L "__") n)) arch_functions = true) by (vm_compute; reflexivity).
  intros n I. rewrite forallb_forall in K. apply K in I. now apply negb_true_iff.
Qed.
Lemma find_new_stable : forall n sf, starts_with (L "__") n = false -> find_new_function_name_glibc (Some n) sf = None.
Proof.
  intros n sf H. destruct (find_new_function_name_glibc (Some n) sf) as [m|] eqn:E; [|reflexivity].
  unfold find_new_function_name_glibc in E. apply find_some in E. destruct E as [_ E]. apply any_call_iff in E.
  destruct E as (m' & files & p & s & Im & En & _). injection En as <-.
  exfalso. enough (starts_with (L "__") n = true) by congruence. apply starts_with_iff.
  unfold arch_variants in Im. apply in_app_or in Im. destruct Im as [Im|Im].
  - apply in_map_iff in Im. destruct Im as (suf & E & _). injection E as <- _. exists (m ++ suf). reflexivity.
  - destruct Im as [E|[]]. injection E as <- _. eexists. reflexivity.
Qed.
Lemma canonical_trans : forall a b c, canonical_name a b -> canonical_name b c -> canonical_name a c.
Proof.
  intros [a|] [b|] [c|] H1 H2; cbn in *; try contradiction; try exact I. eapply rt_trans; eassumption.
Qed.
Lemma canonical_refl : forall a, canonical_name a a.
Proof. intros [a|]; cbn; [apply rt_refl|exact I]. Qed.

(** Which names stay as they are. *)
Lemma find_new_simple : forall n sf, simple_name n -> find_new_function_name_glibc n sf = None.
Proof.
  intros n sf H. destruct (find_new_function_name_glibc n sf) as [m|] eqn:E; [|reflexivity].
  apply find_new_ok in E. destruct E as (f & -> & S & _). exfalso. exact (H f m eq_refl S).
Qed.
Lemma remove_prefixes_one : forall p q r, dropped_prefix p q -> remove_prefixes (Some (p ++ r)) = Some (q ++ r).
Proof. intros p q r D. destruct D; cbn; reflexivity. Qed.
Lemma arch_unique : forallb (fun f => forallb (fun s => forallb (fun f' => forallb (fun v =>
    negb (str_eqb (fst v) (L "__" ++ f ++ s)) || str_eqb f f') (arch_variants f')) arch_functions &&
    opt_str_eqb (remove_prefixes (Some (L "__" ++ f ++ s))) (Some (L "__" ++ f ++ s)))
  arch_suffixes) arch_functions = true.
Proof. vm_compute. reflexivity. Qed.
Lemma any_exists : forall {A} (p : A -> bool) l x, In x l -> p x = true -> exists y, find p l = Some y.
Proof.
  intros A p l x I P. destruct (find p l) as [y|] eqn:E; [eauto|]. eapply find_none in E; [|exact I]. congruence.
Qed.
Lemma infix_trans : forall a b c, infix a b -> infix b c -> infix a c.
Proof. intros a b c (x & y & ->) (u & v & ->). exists (u ++ x), (y ++ v). now rewrite <- !app_assoc. Qed.
Lemma find_new_arch : forall func suf file, In func arch_functions -> In suf arch_suffixes -> arch_file func file ->
  find_new_function_name_glibc (Some (L "__" ++ func ++ suf)) (Some file) = Some func /\
  remove_prefixes (Some (L "__" ++ func ++ suf)) = Some (L "__" ++ func ++ suf).
Proof.
  intros func suf file If Is A. pose proof arch_unique as U. rewrite forallb_forall in U. specialize (U _ If).
  rewrite forallb_forall in U. specialize (U _ Is). apply andb_true_iff in U. destruct U as [U P].
  apply opt_str_eqb_eq in P. split; [|exact P]. clear P. rewrite forallb_forall in U.
  assert (M : any_call (arch_variants func) (Some (L "__" ++ func ++ suf)) (Some file) = true).
  { apply any_call_iff. unfold arch_suffixes in Is. cbn [In] in Is.
    assert (C : exists files, In (L "__" ++ func ++ suf, files) (arch_variants func) /\
        (files = [func; L "/sysdeps/"; L "libc.so"] \/ files = [func; L "/sysdeps"; L "libc.so"])).
    { unfold arch_variants. repeat destruct Is as [<-|Is]; [eexists; split; [|left; reflexivity]; apply in_or_app; left;
        apply in_map_iff; eexists; split; [reflexivity|cbn [In]; tauto] .. | eexists; split; [|right; reflexivity];
        apply in_or_app; right; left; reflexivity | destruct Is]. }
    destruct C as (files & Iv & [-> | ->]).
    - destruct A as [A|[A|A]]; (eexists _, _, _, file; split; [exact Iv|]; split; [reflexivity|]; split; [reflexivity|]; split; [|exact A]; cbn [In]; tauto).
    - destruct A as [A|[A|A]].
      + eexists _, _, _, file; split; [exact Iv|]; split; [reflexivity|]; split; [reflexivity|]; split; [|exact A]; cbn [In]; tauto.
      + exists (L "__" ++ func ++ suf), [func; L "/sysdeps"; L "libc.so"], (L "/sysdeps"), file.
        split; [exact Iv|]. split; [reflexivity|]. split; [reflexivity|]. split; [cbn [In]; tauto|].
        eapply infix_trans; [|exact A]. exists [], (L "/"). reflexivity.
      + eexists _, _, _, file; split; [exact Iv|]; split; [reflexivity|]; split; [reflexivity|]; split; [|exact A]; cbn [In]; tauto. }
  unfold find_new_function_name_glibc.
  destruct (any_exists (fun f => any_call (arch_variants f) (Some (L "__" ++ func ++ suf)) (Some file)) arch_functions func If M) as [y E].
  rewrite E. f_equal. apply find_some in E. destruct E as [Iy E]. specialize (U _ Iy). rewrite forallb_forall in U.
  apply any_call_iff in E. destruct E as (n & files & p & s & Iv & En & _). injection En as En.
  specialize (U _ Iv). cbn [fst] in U. rewrite <- En in U. change (negb (str_eqb (L "__" ++ func ++ suf) (L "__" ++ func ++ suf)) || str_eqb func y = true) in U.
  rewrite str_eqb_refl in U. cbn [negb orb] in U. symmetry. now apply str_eqb_eq.
Qed.
Lemma arch_simple_b : forallb (fun f => negb (starts_with (L "__") f) && negb (starts_with (L "IA__g") f)) arch_functions = true.
Proof. vm_compute. reflexivity. Qed.
Lemma not_simple_start : forall s m, simplifies s m -> starts_with (L "__") s = true \/ starts_with (L "IA__g") s = true.
Proof. intros s m H. destruct H; [right|right|right|left|left]; apply starts_with_iff; eexists; reflexivity. Qed.
Lemma arch_simple : forall f, In f arch_functions -> simple_name (Some f).
Proof.
  intros f I s m E S. injection E as <-. pose proof arch_simple_b as K. rewrite forallb_forall in K. apply K in I.
  apply andb_true_iff in I. destruct I as [A B]. apply not_simple_start in S.
  destruct S as [S|S]; rewrite S in *; discriminate.
Qed.

(** ** gdb *)
Definition gdb_canon (f : gdb_frame) : gdb_frame := gdb_rename (sr_normalize_gdb_frame f).
Lemma gdb_with_same : forall f, gdb_with_name f (gf_function_name f) = f.
Proof. intros []. reflexivity. Qed.
Lemma gdb_canon_ok : forall f, gdb_canonical f (gdb_canon f).
Proof.
  intro f. unfold gdb_canon.
  assert (A : gdb_canonical f (sr_normalize_gdb_frame f)).
  { unfold sr_normalize_gdb_frame. destruct (gf_source_file f) eqn:E; unfold gdb_canonical.
    - cbn [gdb_with_name gf_function_name gf_function_type gf_number gf_source_file gf_source_line gf_signal_handler_called gf_address gf_library_name].
      split; [apply remove_prefixes_canonical|tauto].
    - split; [apply canonical_refl|tauto]. }
  set (g := sr_normalize_gdb_frame f) in *. unfold gdb_rename.
  destruct (find_new_function_name_glibc (gf_function_name g) (gf_source_file g)) as [n|] eqn:E; [|exact A].
  destruct A as [A1 A2]. unfold gdb_canonical. split; [|exact A2].
  cbn [gdb_with_name gf_function_name]. eapply canonical_trans; [exact A1|].
  apply find_new_ok in E. destruct E as (m & -> & S & _). apply rt_step, S.
Qed.
Lemma canonical_simple : forall a b, simple_name a -> canonical_name a b -> b = a.
Proof.
  intros [a|] [b|] H C; cbn in C; try contradiction; [|reflexivity]. f_equal.
  apply clos_rt_rt1n in C. inversion C as [|y z S R]; [congruence|]. subst. exfalso. exact (H a y eq_refl S).
Qed.
Lemma gdb_canon_simple : forall f, simple_name (gf_function_name f) -> gdb_canon f = f.
Proof.
  intros f H. destruct (gdb_canon_ok f) as (A & B). apply canonical_simple in A; [|exact H].
  destruct (gdb_canon f), f. cbn in *. destruct B as (? & ? & ? & ? & ? & ? & ?). congruence.
Qed.
Notation gdb_pipe := (pipe sr_gdb_is_exit_frame gdb_removable gdb_removable_with_above gdb_null_frame gdb_same_call gdb_canon (fun f => f)).
Lemma gdb_norm_eq : forall l, sr_normalize_gdb_frames l = gdb_pipe l.
Proof. intro l. unfold sr_normalize_gdb_frames, pipe. now rewrite map_map, map_id. Qed.
Theorem gdb_selection : forall l, exists m, subseq m l /\ Forall2 gdb_canonical m (sr_normalize_gdb_frames l).
Proof.
  intro l. rewrite gdb_norm_eq.
  destruct (pipe_sub sr_gdb_is_exit_frame gdb_removable gdb_removable_with_above gdb_null_frame gdb_same_call gdb_canon (fun f => f) l)
    as (m & S & ->). exists m. split; [exact S|]. clear. induction m; constructor; [apply gdb_canon_ok|assumption].
Qed.
Lemma gdb_same_iff : forall a b, gdb_same_call a b = true <-> gdb_recursive a b.
Proof.
  intros a b. unfold gdb_same_call, gdb_recursive. rewrite andb_true_iff, negb_true_iff, Z.eqb_neq, Z.eqb_eq, !strcmp0_zero.
  unfold unknown. tauto.
Qed.
Lemma gdb_same_trans : forall a b c, gdb_same_call a b = true -> gdb_same_call b c = true -> gdb_same_call a c = true.
Proof. intros a b c. rewrite !gdb_same_iff. unfold gdb_recursive. intuition congruence. Qed.
Theorem gdb_no_recursion : forall l, no_neighbours gdb_recursive (sr_normalize_gdb_frames l).
Proof.
  intros l l1 a b l2 E H. rewrite gdb_norm_eq in E. apply merge_adj in E.
  apply gdb_same_iff in H. congruence.
Qed.
Lemma gdb_exit_iff : forall f, sr_gdb_is_exit_frame f = true <-> gdb_exit f.
Proof. intro f. unfold gdb_exit. rewrite <- any_call_iff. reflexivity. Qed.
Lemma gdb_boring_iff : forall f, clean gdb_removable gdb_removable_with_above f <-> ~ gdb_boring f.
Proof.
  intro f. unfold clean, gdb_boring, gdb_removable, gdb_removable_with_above, is_removable_glibc_with_above.
  rewrite <- removable_iff, <- any_call_iff, <- gdb_exit_iff.
  destruct (sr_gdb_frame_is_removable _ _), (any_call _ _ _), (sr_gdb_is_exit_frame f); cbn; intuition discriminate.
Qed.
Theorem gdb_nothing_boring : forall l, Forall (fun f => ~ gdb_boring f) (sr_normalize_gdb_frames l).
Proof.
  intro l. apply Forall_forall. intros x I. rewrite gdb_norm_eq in I. apply pipe_clean in I.
  destruct I as (y & -> & C). now apply gdb_boring_iff.
Qed.
Theorem gdb_below_exit : forall l1 e l2, gdb_exit e -> sr_normalize_gdb_frames (l1 ++ e :: l2) = sr_normalize_gdb_frames l2.
Proof. intros l1 e l2 H. rewrite !gdb_norm_eq. apply pipe_below_exit. now apply gdb_exit_iff. Qed.
(* the same for frames that are removed together with everything above them *)
Lemma above_names_stable : forallb (fun r =>
  opt_str_eqb (remove_prefixes (Some (fst r))) (Some (fst r)) &&
  negb (existsb (fun func => existsb (fun v => str_eqb (fst v) (fst r)) (arch_variants func)) arch_functions)) above_table = true.
Proof. vm_compute. reflexivity. Qed.
Lemma above_stable : forall fn sf sf', listed above_table fn sf ->
  remove_prefixes fn = fn /\ find_new_function_name_glibc fn sf' = None.
Proof.
  intros fn sf sf' (n & files & p & s & I & -> & _). pose proof above_names_stable as K.
  rewrite forallb_forall in K. apply K in I. clear K. cbn [fst] in I. apply andb_true_iff in I. destruct I as [A B].
  apply opt_str_eqb_eq in A. split; [exact A|].
  destruct (find_new_function_name_glibc (Some n) sf') as [m|] eqn:E; [|reflexivity].
  unfold find_new_function_name_glibc in E. apply find_some in E. destruct E as [Im E]. apply any_call_iff in E.
  destruct E as (n' & files' & p' & s' & Iv & En & _). injection En as <-.
  apply negb_true_iff in B. exfalso. rewrite <- not_true_iff_false in B. apply B. apply existsb_exists. exists m.
  split; [exact Im|]. apply existsb_exists. exists (n, files'). split; [exact Iv|apply str_eqb_refl].
Qed.
Theorem gdb_below_above : forall l1 e l2, listed above_table (gf_function_name e) (gf_source_file e) ->
  sr_normalize_gdb_frames (l1 ++ e :: l2) = sr_normalize_gdb_frames l2.
Proof.
  intros l1 e l2 H. rewrite !gdb_norm_eq. apply pipe_below_above.
  assert (E : gdb_canon e = e).
  { destruct (above_stable _ _ (gf_source_file e) H) as [E1 E2]. unfold gdb_canon, sr_normalize_gdb_frame.
    destruct (gf_source_file e) as [sf|] eqn:Es; [|destruct H as (n & fs & p & s & _ & _ & X & _); discriminate X].
    rewrite E1, gdb_with_same. unfold gdb_rename. now rewrite Es, E2. }
  rewrite E. unfold gdb_removable_with_above, is_removable_glibc_with_above.
  apply orb_true_iff. left. now apply any_call_iff.
Qed.
Theorem gdb_removed_alone : forall l1 e l2, simple_name (gf_function_name e) ->
  listed removable_table (gf_function_name e) (gf_source_file e) ->
  ~ listed above_table (gf_function_name e) (gf_source_file e) -> ~ gdb_exit e ->
  sr_normalize_gdb_frames (l1 ++ e :: l2) = sr_normalize_gdb_frames (l1 ++ l2).
Proof.
  intros l1 e l2 S R A X. rewrite <- gdb_exit_iff in X. apply not_true_is_false in X.
  rewrite !gdb_norm_eq. apply pipe_alone; rewrite ?gdb_canon_simple by exact S; [exact X|now apply removable_iff|].
  unfold gdb_removable_with_above, is_removable_glibc_with_above. rewrite X, orb_false_r.
  apply not_true_is_false. now rewrite any_call_iff.
Qed.
Lemma gdb_null_iff : forall f, gdb_null_frame f = true <-> gdb_null f.
Proof.
  intro f. unfold gdb_null_frame, gdb_null. rewrite andb_true_iff, Z.eqb_eq.
  destruct (gf_function_name f) as [n|]; [rewrite str_eqb_eq|]; unfold unknown; intuition congruence.
Qed.
Lemma gdb_not_exit : forall f, ~ gdb_boring f -> sr_gdb_is_exit_frame f = false.
Proof. intros f H. apply not_true_is_false. rewrite gdb_exit_iff. unfold gdb_boring in H. tauto. Qed.
Theorem gdb_recursion_collapsed : forall l1 a b l2,
  simple_name (gf_function_name a) -> simple_name (gf_function_name b) -> ~ gdb_boring a -> ~ gdb_boring b ->
  gf_function_name a = gf_function_name b -> gf_function_name a <> Some (L "??") ->
  sr_normalize_gdb_frames (l1 ++ a :: b :: l2) = sr_normalize_gdb_frames (l1 ++ a :: l2).
Proof.
  intros l1 a b l2 Sa Sb Ba Bb En Eu. rewrite !gdb_norm_eq.
  apply pipe_twice; rewrite ?(gdb_canon_simple a) by exact Sa; rewrite ?(gdb_canon_simple b) by exact Sb.
  - exact gdb_same_trans.
  - now apply gdb_not_exit.
  - now apply gdb_not_exit.
  - now apply gdb_boring_iff.
  - now apply gdb_boring_iff.
  - apply not_true_is_false. rewrite gdb_null_iff. intros [_ X]. contradiction.
  - apply not_true_is_false. rewrite gdb_null_iff. intros [_ X]. congruence.
  - apply gdb_same_iff. split; assumption.
Qed.
Theorem gdb_null_ends : forall e l, (forall f, In f (e :: l) -> simple_name (gf_function_name f) /\ ~ gdb_boring f) ->
  gdb_null e -> l <> [] -> ends_not gdb_null l ->
  sr_normalize_gdb_frames (e :: l) = sr_normalize_gdb_frames l /\
  sr_normalize_gdb_frames (l ++ [e]) = sr_normalize_gdb_frames l.
Proof.
  intros e l H N Nl [E1 E2]. rewrite !gdb_norm_eq.
  assert (Hp : forall f, In f (l ++ [e]) -> In f (e :: l)).
  { intros f I. apply in_app_or in I. destruct I as [I|[<-|[]]]; [now right|now left]. }
  split; [apply pipe_first|apply pipe_last]; try exact Nl.
  - intros x I. apply gdb_not_exit. now apply H.
  - intros x I. rewrite gdb_canon_simple by now apply H. apply gdb_boring_iff. now apply H.
  - rewrite gdb_canon_simple by (apply H; now left). now apply gdb_null_iff.
  - intros x r ->. rewrite gdb_canon_simple by (apply H; right; now left). apply not_true_is_false. rewrite gdb_null_iff.
    eapply E1; reflexivity.
  - intros x I. apply gdb_not_exit. now apply H, Hp.
  - intros x I. rewrite gdb_canon_simple by now apply H, Hp. apply gdb_boring_iff. now apply H, Hp.
  - rewrite gdb_canon_simple by (apply H; now left). now apply gdb_null_iff.
  - intros r x ->. rewrite gdb_canon_simple by (apply H; right; apply in_or_app; right; now left).
    apply not_true_is_false. rewrite gdb_null_iff. eapply E2; reflexivity.
Qed.
Lemma gdb_step : forall l1 e n l2, gdb_canon e = gdb_with_name e n -> simple_name n -> ~ gdb_exit e ->
  sr_normalize_gdb_frames (l1 ++ e :: l2) = sr_normalize_gdb_frames (l1 ++ gdb_with_name e n :: l2).
Proof.
  intros l1 e n l2 E S X. rewrite !gdb_norm_eq. apply pipe_canon.
  - now rewrite (gdb_canon_simple (gdb_with_name e n)).
  - apply not_true_is_false. now rewrite gdb_exit_iff.
  - intro H. rewrite E. unfold gdb_removable_with_above. now rewrite H, orb_true_r.
Qed.
Theorem gdb_prefix_dropped : forall l1 e l2 p q r, dropped_prefix p q -> gf_function_name e = Some (p ++ r) ->
  gf_source_file e <> None -> simple_name (Some (q ++ r)) -> ~ gdb_exit e ->
  sr_normalize_gdb_frames (l1 ++ e :: l2) = sr_normalize_gdb_frames (l1 ++ gdb_with_name e (Some (q ++ r)) :: l2).
Proof.
  intros l1 e l2 p q r D En Es S X. apply gdb_step; [|exact S|exact X].
  unfold gdb_canon, sr_normalize_gdb_frame. destruct (gf_source_file e) as [sf|] eqn:Ef; [|congruence].
  rewrite En, (remove_prefixes_one _ _ _ D). unfold gdb_rename. cbn [gdb_with_name gf_function_name gf_source_file].
  now rewrite find_new_simple.
Qed.
Theorem gdb_arch_renamed : forall l1 e l2 func suf file, In func arch_functions -> In suf arch_suffixes ->
  gf_function_name e = Some (L "__" ++ func ++ suf) -> gf_source_file e = Some file -> arch_file func file -> ~ gdb_exit e ->
  sr_normalize_gdb_frames (l1 ++ e :: l2) = sr_normalize_gdb_frames (l1 ++ gdb_with_name e (Some func) :: l2).
Proof.
  intros l1 e l2 func suf file If Is En Ef A X. apply gdb_step; [|now apply arch_simple|exact X].
  destruct (find_new_arch func suf file If Is A) as [E1 E2].
  unfold gdb_canon, sr_normalize_gdb_frame. rewrite Ef, En, E2. unfold gdb_rename.
  cbn [gdb_with_name gf_function_name gf_source_file]. rewrite Ef, E1. reflexivity.
Qed.
Lemma gdb_ends : forall l, ends_not gdb_null l ->
  drop_last gdb_null_frame (drop_first gdb_null_frame l) = l.
Proof.
  intros l [H1 H2]. rewrite drop_first_none.
  - apply drop_last_none. intros r x E. apply not_true_is_false. rewrite gdb_null_iff. exact (H2 r x E).
  - intros x r E. apply not_true_is_false. rewrite gdb_null_iff. exact (H1 x r E).
Qed.
Lemma gdb_merge_noop : forall l, no_neighbours gdb_recursive l -> merge_recursive gdb_same_call l = l.
Proof.
  intros l H. apply merge_none. intros l1 a b l2 E. apply not_true_is_false. rewrite gdb_same_iff. exact (H _ _ _ _ E).
Qed.
Lemma gdb_canon_in : forall l g, In g (sr_normalize_gdb_frames l) -> exists f, g = gdb_canon f.
Proof.
  intros l g I. rewrite gdb_norm_eq in I.
  destruct (pipe_sub sr_gdb_is_exit_frame gdb_removable gdb_removable_with_above gdb_null_frame gdb_same_call gdb_canon (fun f => f) l)
    as (m & S & E). rewrite E in I. apply in_map_iff in I. destruct I as (f & <- & _). eauto.
Qed.
Lemma gdb_canon_stable : forall f, (gf_source_file (gdb_canon f) <> None -> prefix_free (gf_function_name (gdb_canon f))) ->
  gdb_canon (gdb_canon f) = gdb_canon f.
Proof.
  intros f H. set (g := gdb_canon f) in *. unfold gdb_canon at 1.
  assert (E : sr_normalize_gdb_frame g = g).
  { unfold sr_normalize_gdb_frame. destruct (gf_source_file g) eqn:Es; [|reflexivity].
    rewrite remove_prefixes_stable by (apply H; discriminate). apply gdb_with_same. }
  rewrite E. unfold gdb_rename at 1. replace (find_new_function_name_glibc (gf_function_name g) (gf_source_file g)) with (@None str); [reflexivity|].
  symmetry. unfold g, gdb_canon, gdb_rename. set (k := sr_normalize_gdb_frame f).
  destruct (find_new_function_name_glibc (gf_function_name k) (gf_source_file k)) as [n|] eqn:En; [|exact En].
  cbn [gdb_with_name gf_function_name]. apply find_new_stable, arch_no_variant.
  apply find_new_ok in En. destruct En as (_ & _ & _ & I). exact I.
Qed.
Theorem gdb_idempotent : forall l,
  (forall f, In f (sr_normalize_gdb_frames l) -> gf_source_file f <> None -> prefix_free (gf_function_name f)) ->
  ends_not gdb_null (sr_normalize_gdb_frames l) ->
  sr_normalize_gdb_frames (sr_normalize_gdb_frames l) = sr_normalize_gdb_frames l.
Proof.
  intros l H1 H2. pose proof (gdb_nothing_boring l) as B. pose proof (gdb_no_recursion l) as R.
  pose proof (gdb_canon_in l) as C. set (m := sr_normalize_gdb_frames l) in *. clearbody m.
  rewrite Forall_forall in B.
  assert (E : forall g, In g m -> gdb_canon g = g).
  { intros g I. destruct (C g I) as [f ->]. apply gdb_canon_stable. now apply H1. }
  rewrite gdb_norm_eq, pipe_plain.
  - change (map (fun f => gdb_canon f) m) with (map gdb_canon m).
    rewrite (map_ext_in gdb_canon (fun f => f) m E), map_id, gdb_ends by exact H2. now apply gdb_merge_noop.
  - intros x I. apply gdb_not_exit. now apply B.
  - intros x I. rewrite E by exact I. apply gdb_boring_iff. now apply B.
Qed.
(* nothing is removed without a reason *)
Theorem gdb_keeps : forall l,
  (forall f, In f l -> simple_name (gf_function_name f) /\ ~ gdb_boring f) -> ends_not gdb_null l ->
  no_neighbours gdb_recursive l -> sr_normalize_gdb_frames l = l.
Proof.
  intros l H E R. rewrite gdb_norm_eq, pipe_plain.
  - change (map (fun f => gdb_canon f) l) with (map gdb_canon l).
    rewrite (map_ext_in gdb_canon (fun f => f) l) by (intros f I; apply gdb_canon_simple; now apply H).
    rewrite map_id, gdb_ends by exact E. now apply gdb_merge_noop.
  - intros x I. apply gdb_not_exit. now apply H.
  - intros x I. rewrite gdb_canon_simple by now apply H. apply gdb_boring_iff. now apply H.
Qed.

(** ** core *)
Lemma infix_app_cases : forall (a b p : str), infix p (a ++ b) ->
  infix p (skipn (length a - 1) a ++ b) \/
  exists a', (exists x, a = x ++ a') /\ 2 <= length a' /\ (starts_with p a' = true \/ starts_with a' p = true).
Proof.
  intros a b p (x & y & E). destruct (le_lt_dec (length a) (S (length x))) as [H|H].
  - left. assert (D : exists z, skipn (length a - 1) x = z /\ x = firstn (length a - 1) x ++ z) by (eexists; split; [reflexivity|symmetry; apply firstn_skipn]).
    destruct D as (z & _ & Ez).
    assert (F : firstn (length a - 1) (a ++ b) = firstn (length a - 1) x ++ firstn (length a - 1 - length x) (p ++ y)).
    { rewrite E. apply firstn_app. }
    assert (Sk : skipn (length a - 1) (a ++ b) = skipn (length a - 1) x ++ skipn (length a - 1 - length x) (p ++ y)).
    { rewrite E. apply skipn_app. }
    rewrite skipn_app in Sk. replace (length a - 1 - length a) with 0 in Sk by lia. cbn [skipn] in Sk. rewrite Sk.
    destruct (Nat.eq_dec (length a - 1 - length x) 0) as [Z|Z]; [|lia]. rewrite Z. cbn [skipn].
    exists (skipn (length a - 1) x), y. reflexivity.
  - right. exists (skipn (length x) a). split; [exists (firstn (length x) a); symmetry; apply firstn_skipn|].
    split; [rewrite skipn_length; lia|].
    assert (Sk : skipn (length x) (a ++ b) = p ++ y) by (rewrite E, skipn_app, skipn_all, Nat.sub_diag; reflexivity).
    rewrite skipn_app in Sk. replace (length x - length a) with 0 in Sk by lia. cbn [skipn] in Sk.
    revert Sk. generalize (skipn (length x) a) as u. clear. intro u. revert p. induction u as [|c u IH]; intros p Sk.
    + right. reflexivity.
    + destruct p as [|d p]; [left; reflexivity|]. cbn in Sk. injection Sk as -> Sk.
      destruct (IH p Sk) as [H|H]; [left|right]; cbn; now rewrite Ascii.eqb_refl, H.
Qed.
Fixpoint suffixes (s : str) : list str := s :: match s with [] => [] | _ :: r => suffixes r end.
Lemma suffixes_in : forall a x b, a = x ++ b -> In b (suffixes a).
Proof.
  intros a x. revert a. induction x as [|c x IH]; intros a b ->; cbn [app]; [destruct b; left; reflexivity|].
  cbn [suffixes]. right. now apply IH.
Qed.
Definition home : str := L "/home/anonymized/".
Definition safe_pattern (p : str) : bool :=
  match p with [] => true | _ =>
    forallb (fun u => Nat.ltb (length u) 2 || negb (starts_with p u) && negb (starts_with u p)) (suffixes home) end.
Lemma safe_ok : forall p user rest, safe_pattern p = true -> infix p (home ++ rest) -> infix p (L "/home/" ++ user ++ "/"%char :: rest).
Proof.
  intros p user rest S H. apply infix_app_cases in H. destruct H as [H|(u & (x & Eu) & Hl & H)].
  - eapply infix_trans; [exact H|]. exists (L "/home/" ++ user), []. rewrite app_nil_r, <- app_assoc. reflexivity.
  - destruct p as [|c p]; [exists [], (L "/home/" ++ user ++ "/"%char :: rest); reflexivity|].
    unfold safe_pattern in S. rewrite forallb_forall in S. specialize (S u (suffixes_in _ _ _ Eu)).
    apply orb_true_iff in S. destruct S as [S|S]; [apply Nat.ltb_lt in S; lia|].
    apply andb_true_iff in S. destruct S as [S1 S2]. apply negb_true_iff in S1, S2. destruct H; congruence.
Qed.
Lemma anonymize_spec : forall p, same_or_anonymized p (anonymize_path p).
Proof.
  intros [path|]; [|left; reflexivity]. destruct (anonymize_cases path) as [(user & rest & Hu & ->)|H].
  - right. exists user, rest. split; [exact Hu|]. split; [reflexivity|]. now apply anonymize_home.
  - left. now apply anonymize_other.
Qed.
Definition safe_table (t : list (str * list str)) : bool := forallb (fun r => forallb safe_pattern (snd r)) t.
Lemma listed_anonymized : forall t fn sf, safe_table t = true -> listed t fn (anonymize_path sf) -> listed t fn sf.
Proof.
  intros t fn sf S H. destruct (anonymize_spec sf) as [E|(user & rest & Hu & E1 & E2)]; [now rewrite E in H|].
  destruct H as (n & files & p & s & I & En & Es & Ip & Hp). exists n, files, p, (L "/home/" ++ user ++ "/"%char :: rest).
  split; [exact I|]. split; [exact En|]. split; [exact E1|]. split; [exact Ip|]. apply safe_ok.
  - unfold safe_table in S. rewrite forallb_forall in S. specialize (S _ I). cbn [snd] in S. rewrite forallb_forall in S. now apply S.
  - assert (X : s = home ++ rest) by (unfold home; congruence). now rewrite <- X.
Qed.
Lemma removable_safe : safe_table removable_table = true. Proof. vm_compute. reflexivity. Qed.
Lemma above_safe : safe_table above_table = true. Proof. vm_compute. reflexivity. Qed.
Lemma core_exit_safe : safe_table core_exit_table = true. Proof. vm_compute. reflexivity. Qed.
Lemma arch_safe : forallb (fun f => safe_table (arch_variants f)) arch_functions = true. Proof. vm_compute. reflexivity. Qed.
Lemma find_new_anonymized : forall fn sf, find_new_function_name_glibc fn sf = None ->
  find_new_function_name_glibc fn (anonymize_path sf) = None.
Proof.
  intros fn sf H. destruct (find_new_function_name_glibc fn (anonymize_path sf)) as [m|] eqn:E; [|reflexivity].
  unfold find_new_function_name_glibc in *. apply find_some in E. destruct E as [I E].
  eapply find_none in H; [|exact I]. cbn beta in H. apply any_call_iff in E. apply listed_anonymized in E.
  - apply any_call_iff in E. congruence.
  - pose proof arch_safe as A. rewrite forallb_forall in A. now apply A.
Qed.
Definition core_canon (f : core_frame) : core_frame := core_rename (core_prefix f).
Lemma core_with_same : forall f, core_with f (cf_function_name f) (cf_file_name f) = f.
Proof. intros []. reflexivity. Qed.
Lemma core_canon_eq : forall f, exists n, core_canon f = core_with f n (cf_file_name f) /\ canonical_name (cf_function_name f) n /\
  (n = remove_prefixes (cf_function_name f) /\ find_new_function_name_glibc n (cf_file_name f) = None \/ exists m, n = Some m /\ In m arch_functions).
Proof.
  intro f. unfold core_canon, core_rename. cbn [core_prefix core_with cf_function_name cf_file_name].
  destruct (find_new_function_name_glibc (remove_prefixes (cf_function_name f)) (cf_file_name f)) as [n|] eqn:E.
  - exists (Some n). split; [reflexivity|]. apply find_new_ok in E. destruct E as (m & Em & S & I). split; [|right; eauto].
    eapply canonical_trans; [apply remove_prefixes_canonical|]. rewrite Em. apply rt_step, S.
  - exists (remove_prefixes (cf_function_name f)). split; [reflexivity|]. split; [apply remove_prefixes_canonical|left; auto].
Qed.
Definition core_final (f : core_frame) : core_frame := core_anonymize (core_canon f).
Lemma core_final_ok : forall f, core_canonical f (core_final f).
Proof.
  intro f. unfold core_final. destruct (core_canon_eq f) as (n & -> & C & _). unfold core_canonical, core_anonymize.
  cbn [core_with cf_function_name cf_file_name cf_address cf_build_id cf_build_id_offset cf_fingerprint cf_fingerprint_hashed].
  split; [exact C|]. split; [apply anonymize_spec|tauto].
Qed.
Lemma core_canon_simple : forall f, simple_name (cf_function_name f) -> core_canon f = f.
Proof.
  intros f H. destruct (core_canon_eq f) as (n & -> & C & _). apply canonical_simple in C; [|exact H]. subst n. apply core_with_same.
Qed.
Notation core_pipe := (pipe sr_core_thread_is_exit_frame core_removable core_removable_with_above core_null_frame core_same_call core_canon core_anonymize).
Lemma core_norm_eq : forall l, sr_normalize_core_frames l = core_pipe l.
Proof. intro l. unfold sr_normalize_core_frames, pipe. now rewrite map_map. Qed.
Theorem core_selection : forall l, exists m, subseq m l /\ Forall2 core_canonical m (sr_normalize_core_frames l).
Proof.
  intro l. rewrite core_norm_eq.
  destruct (pipe_sub sr_core_thread_is_exit_frame core_removable core_removable_with_above core_null_frame core_same_call core_canon core_anonymize l)
    as (m & S & ->). exists m. split; [exact S|]. clear. induction m; constructor; [apply core_final_ok|assumption].
Qed.
Lemma core_same_iff : forall a b, core_same_call a b = true <-> core_recursive a b.
Proof.
  intros a b. unfold core_same_call, core_recursive. destruct (cf_function_name a) as [n|].
  - rewrite Z.eqb_eq, strcmp0_zero. intuition congruence.
  - intuition congruence.
Qed.
Lemma core_same_trans : forall a b c, core_same_call a b = true -> core_same_call b c = true -> core_same_call a c = true.
Proof. intros a b c. rewrite !core_same_iff. unfold core_recursive. intuition congruence. Qed.
Theorem core_no_recursion : forall l, no_neighbours core_recursive (sr_normalize_core_frames l).
Proof.
  intros l l1 a b l2 E H. rewrite core_norm_eq in E. apply merge_adj in E. apply core_same_iff in H. congruence.
Qed.
Lemma core_exit_iff : forall f, sr_core_thread_is_exit_frame f = true <-> core_exit f.
Proof.
  intro f. unfold core_exit, listed_any, sr_core_thread_is_exit_frame, sr_core_frame_calls_func. rewrite existsb_exists. split.
  - intros ([n files] & I & H). cbn [fst snd] in H. destruct (cf_function_name f) as [fn|]; [|discriminate H].
    destruct (str_eqb fn n) eqn:E; [|discriminate H]. apply str_eqb_eq in E. subst n.
    apply orb_true_iff in H. destruct H as [H|H].
    + left. apply file_match_iff in H. destruct H as (s & p & Es & Ip & Hp). exists fn, files, p, s. auto.
    + right. exists fn. destruct files; [auto|discriminate H].
  - intros [(n & files & p & s & I & En & Es & Ip & Hp)|(n & I & En)].
    + exists (n, files). split; [exact I|]. cbn [fst snd]. rewrite En, str_eqb_refl. apply orb_true_iff. left.
      apply file_match_iff. eauto.
    + exists (n, []). split; [exact I|]. cbn [fst snd]. rewrite En, str_eqb_refl. apply orb_true_r.
Qed.
Lemma core_clean_iff : forall f, clean core_removable core_removable_with_above f <-> ~ core_boring f.
Proof.
  intro f. unfold clean, core_boring, core_removable, core_removable_with_above, is_removable_glibc_with_above.
  rewrite <- removable_iff, <- any_call_iff, <- core_exit_iff.
  destruct (sr_gdb_frame_is_removable _ _), (any_call _ _ _), (sr_core_thread_is_exit_frame f); cbn; intuition discriminate.
Qed.
Lemma core_boring_anonymized : forall f, core_boring (core_anonymize f) -> core_boring f.
Proof.
  intros f. unfold core_boring, core_exit, listed_any. cbn [core_anonymize core_with cf_function_name cf_file_name].
  intros [H|[H|[H|H]]].
  - left. eapply listed_anonymized; [exact removable_safe|exact H].
  - right; left. eapply listed_anonymized; [exact above_safe|exact H].
  - right; right; left. eapply listed_anonymized; [exact core_exit_safe|exact H].
  - right; right; right. exact H.
Qed.
Theorem core_nothing_boring : forall l, Forall (fun f => ~ core_boring f) (sr_normalize_core_frames l).
Proof.
  intro l. apply Forall_forall. intros x I. rewrite core_norm_eq in I. apply pipe_clean in I.
  destruct I as (y & -> & C). apply core_clean_iff in C. intro B. apply C. now apply core_boring_anonymized.
Qed.
Theorem core_below_exit : forall l1 e l2, core_exit e -> sr_normalize_core_frames (l1 ++ e :: l2) = sr_normalize_core_frames l2.
Proof. intros l1 e l2 H. rewrite !core_norm_eq. apply pipe_below_exit. now apply core_exit_iff. Qed.
Lemma core_canon_above : forall e, listed above_table (cf_function_name e) (cf_file_name e) -> core_canon e = e.
Proof.
  intros e H. destruct (above_stable _ _ (cf_file_name e) H) as [E1 E2]. unfold core_canon, core_prefix.
  rewrite E1, core_with_same. unfold core_rename. now rewrite E2.
Qed.
Theorem core_below_above : forall l1 e l2, listed above_table (cf_function_name e) (cf_file_name e) ->
  sr_normalize_core_frames (l1 ++ e :: l2) = sr_normalize_core_frames l2.
Proof.
  intros l1 e l2 H. rewrite !core_norm_eq. apply pipe_below_above. rewrite core_canon_above by exact H.
  unfold core_removable_with_above, is_removable_glibc_with_above. apply orb_true_iff. left. now apply any_call_iff.
Qed.
Theorem core_removed_alone : forall l1 e l2, simple_name (cf_function_name e) ->
  listed removable_table (cf_function_name e) (cf_file_name e) ->
  ~ listed above_table (cf_function_name e) (cf_file_name e) -> ~ core_exit e ->
  sr_normalize_core_frames (l1 ++ e :: l2) = sr_normalize_core_frames (l1 ++ l2).
Proof.
  intros l1 e l2 S R A X. rewrite <- core_exit_iff in X. apply not_true_is_false in X.
  rewrite !core_norm_eq. apply pipe_alone; rewrite ?core_canon_simple by exact S; [exact X|now apply removable_iff|].
  unfold core_removable_with_above, is_removable_glibc_with_above. rewrite X, orb_false_r.
  apply not_true_is_false. now rewrite any_call_iff.
Qed.
Lemma core_null_iff : forall f, core_null_frame f = true <-> core_null f.
Proof.
  intro f. unfold core_null_frame, core_null. rewrite andb_true_iff, Z.eqb_eq.
  destruct (cf_function_name f) as [n|]; intuition congruence.
Qed.
Lemma core_null_anonymize : forall f, core_null_frame (core_anonymize f) = core_null_frame f.
Proof. reflexivity. Qed.
Lemma core_not_exit : forall f, ~ core_boring f -> sr_core_thread_is_exit_frame f = false.
Proof. intros f H. apply not_true_is_false. rewrite core_exit_iff. unfold core_boring in H. tauto. Qed.
Theorem core_recursion_collapsed : forall l1 a b l2,
  simple_name (cf_function_name a) -> simple_name (cf_function_name b) -> ~ core_boring a -> ~ core_boring b ->
  cf_function_name a = cf_function_name b -> cf_function_name a <> None ->
  sr_normalize_core_frames (l1 ++ a :: b :: l2) = sr_normalize_core_frames (l1 ++ a :: l2).
Proof.
  intros l1 a b l2 Sa Sb Ba Bb En Eu. rewrite !core_norm_eq.
  apply pipe_twice; rewrite ?(core_canon_simple a) by exact Sa; rewrite ?(core_canon_simple b) by exact Sb.
  - exact core_same_trans.
  - now apply core_not_exit.
  - now apply core_not_exit.
  - now apply core_clean_iff.
  - now apply core_clean_iff.
  - apply not_true_is_false. rewrite core_null_iff. intros [_ X]. contradiction.
  - apply not_true_is_false. rewrite core_null_iff. intros [_ X]. cbn in X. congruence.
  - apply core_same_iff. split; assumption.
Qed.
Theorem core_null_ends : forall e l, (forall f, In f (e :: l) -> simple_name (cf_function_name f) /\ ~ core_boring f) ->
  core_null e -> l <> [] -> ends_not core_null l ->
  sr_normalize_core_frames (e :: l) = sr_normalize_core_frames l /\
  sr_normalize_core_frames (l ++ [e]) = sr_normalize_core_frames l.
Proof.
  intros e l H N Nl [E1 E2]. rewrite !core_norm_eq.
  assert (Hp : forall f, In f (l ++ [e]) -> In f (e :: l)).
  { intros f I. apply in_app_or in I. destruct I as [I|[<-|[]]]; [now right|now left]. }
  split; [apply pipe_first|apply pipe_last]; try exact Nl.
  - intros x I. apply core_not_exit. now apply H.
  - intros x I. rewrite core_canon_simple by now apply H. apply core_clean_iff. now apply H.
  - rewrite core_canon_simple by (apply H; now left). now apply core_null_iff.
  - intros x r ->. rewrite core_canon_simple by (apply H; right; now left). apply not_true_is_false.
    rewrite core_null_anonymize, core_null_iff. eapply E1; reflexivity.
  - intros x I. apply core_not_exit. now apply H, Hp.
  - intros x I. rewrite core_canon_simple by now apply H, Hp. apply core_clean_iff. now apply H, Hp.
  - rewrite core_canon_simple by (apply H; now left). now apply core_null_iff.
  - intros r x ->. rewrite core_canon_simple by (apply H; right; apply in_or_app; right; now left).
    apply not_true_is_false. rewrite core_null_anonymize, core_null_iff. eapply E2; reflexivity.
Qed.
Lemma core_step : forall l1 e n l2, core_canon e = core_with e n (cf_file_name e) -> simple_name n -> ~ core_exit e ->
  sr_normalize_core_frames (l1 ++ e :: l2) = sr_normalize_core_frames (l1 ++ core_with e n (cf_file_name e) :: l2).
Proof.
  intros l1 e n l2 E S X. rewrite !core_norm_eq. apply pipe_canon.
  - now rewrite (core_canon_simple (core_with e n (cf_file_name e))).
  - apply not_true_is_false. now rewrite core_exit_iff.
  - intro H. rewrite E. unfold core_removable_with_above. now rewrite H, orb_true_r.
Qed.
Theorem core_prefix_dropped : forall l1 e l2 p q r, dropped_prefix p q -> cf_function_name e = Some (p ++ r) ->
  simple_name (Some (q ++ r)) -> ~ core_exit e ->
  sr_normalize_core_frames (l1 ++ e :: l2) = sr_normalize_core_frames (l1 ++ core_with e (Some (q ++ r)) (cf_file_name e) :: l2).
Proof.
  intros l1 e l2 p q r D En S X. apply core_step; [|exact S|exact X].
  unfold core_canon, core_prefix. rewrite En, (remove_prefixes_one _ _ _ D). unfold core_rename.
  cbn [core_with cf_function_name cf_file_name]. now rewrite find_new_simple.
Qed.
Theorem core_arch_renamed : forall l1 e l2 func suf file, In func arch_functions -> In suf arch_suffixes ->
  cf_function_name e = Some (L "__" ++ func ++ suf) -> cf_file_name e = Some file -> arch_file func file -> ~ core_exit e ->
  sr_normalize_core_frames (l1 ++ e :: l2) = sr_normalize_core_frames (l1 ++ core_with e (Some func) (Some file) :: l2).
Proof.
  intros l1 e l2 func suf file If Is En Ef A X. rewrite <- Ef. apply core_step; [|now apply arch_simple|exact X].
  destruct (find_new_arch func suf file If Is A) as [E1 E2].
  unfold core_canon, core_prefix. rewrite En, E2. unfold core_rename.
  cbn [core_with cf_function_name cf_file_name]. rewrite Ef, E1. reflexivity.
Qed.
(* every file name in the result is anonymous *)
Theorem core_anonymous : forall l, Forall (fun f => anonymous (cf_file_name f)) (sr_normalize_core_frames l).
Proof.
  intro l. apply Forall_forall. intros x I. rewrite core_norm_eq in I. apply pipe_clean in I. destruct I as (y & -> & _).
  intros user rest Hu E. cbn [core_anonymize core_with cf_file_name] in E.
  pose proof (anonymize_idempotent (cf_file_name y)) as P. rewrite E in P. rewrite anonymize_home in P by exact Hu.
  injection P as P. change (L "anonymized" ++ "/"%char :: rest = user ++ "/"%char :: rest) in P.
  symmetry. now apply app_inv_tail in P.
Qed.
Lemma core_ends : forall l, ends_not core_null l -> drop_last core_null_frame (drop_first core_null_frame l) = l.
Proof.
  intros l [H1 H2]. rewrite drop_first_none.
  - apply drop_last_none. intros r x E. apply not_true_is_false. rewrite core_null_iff. exact (H2 r x E).
  - intros x r E. apply not_true_is_false. rewrite core_null_iff. exact (H1 x r E).
Qed.
Lemma core_merge_noop : forall l, no_neighbours core_recursive l -> merge_recursive core_same_call l = l.
Proof.
  intros l H. apply merge_none. intros l1 a b l2 E. apply not_true_is_false. rewrite core_same_iff. exact (H _ _ _ _ E).
Qed.
Lemma core_in : forall l g, In g (sr_normalize_core_frames l) -> exists f, g = core_final f.
Proof.
  intros l g I. rewrite core_norm_eq in I.
  destruct (pipe_sub sr_core_thread_is_exit_frame core_removable core_removable_with_above core_null_frame core_same_call core_canon core_anonymize l)
    as (m & S & E). rewrite E in I. apply in_map_iff in I. destruct I as (f & <- & _). exists f. reflexivity.
Qed.
Lemma core_final_stable : forall f, prefix_free (cf_function_name (core_final f)) ->
  core_canon (core_final f) = core_final f /\ core_anonymize (core_final f) = core_final f.
Proof.
  intros f H. split.
  - unfold core_canon. unfold core_prefix. rewrite remove_prefixes_stable by exact H. rewrite core_with_same.
    unfold core_rename. replace (find_new_function_name_glibc (cf_function_name (core_final f)) (cf_file_name (core_final f))) with (@None str); [reflexivity|].
    symmetry. unfold core_final. destruct (core_canon_eq f) as (n & -> & _ & [(_ & N)|(m & -> & I)]);
    cbn [core_anonymize core_with cf_function_name cf_file_name].
    + now apply find_new_anonymized.
    + now apply find_new_stable, arch_no_variant.
  - unfold core_final. unfold core_anonymize at 1 3. cbn [core_anonymize core_with cf_function_name cf_file_name cf_address cf_build_id cf_build_id_offset cf_fingerprint cf_fingerprint_hashed].
    now rewrite anonymize_idempotent.
Qed.
Theorem core_idempotent : forall l,
  (forall f, In f (sr_normalize_core_frames l) -> prefix_free (cf_function_name f)) ->
  ends_not core_null (sr_normalize_core_frames l) ->
  sr_normalize_core_frames (sr_normalize_core_frames l) = sr_normalize_core_frames l.
Proof.
  intros l H1 H2. pose proof (core_nothing_boring l) as B. pose proof (core_no_recursion l) as R.
  pose proof (core_in l) as C. set (m := sr_normalize_core_frames l) in *. clearbody m.
  rewrite Forall_forall in B.
  assert (E : forall g, In g m -> core_canon g = g /\ core_anonymize g = g).
  { intros g I. destruct (C g I) as [f ->]. apply core_final_stable. now apply H1. }
  rewrite core_norm_eq, pipe_plain.
  - rewrite (map_ext_in _ (fun f => f) m), map_id, core_ends by (exact H2 || (intros f I; destruct (E f I) as [E1 E2]; now rewrite E1)).
    now apply core_merge_noop.
  - intros x I. apply core_not_exit. now apply B.
  - intros x I. destruct (E x I) as [-> _]. apply core_clean_iff. now apply B.
Qed.
Theorem core_keeps : forall l,
  (forall f, In f l -> simple_name (cf_function_name f) /\ ~ core_boring f) -> ends_not core_null l ->
  no_neighbours core_recursive l -> Forall2 core_canonical l (sr_normalize_core_frames l).
Proof.
  intros l H E R. enough (X : sr_normalize_core_frames l = map core_anonymize l).
  { rewrite X. clear X E R. induction l as [|f l IH]; constructor; [|apply IH; intros g I; apply H; now right].
    rewrite <- (core_canon_simple f) at 2 by (apply H; now left). apply core_final_ok. }
  rewrite core_norm_eq, pipe_plain.
  - rewrite (map_ext_in _ core_anonymize l) by (intros f I; now rewrite core_canon_simple by now apply H).
    rewrite core_ends.
    + apply core_merge_noop. intros l1 a b l2 X. apply map_eq_app in X. destruct X as (x1 & x2 & -> & X1 & X2).
      destruct x2 as [|fa [|fb x2]]; try discriminate X2. cbn [map] in X2. injection X2 as <- <- X2.
      exact (R x1 fa fb x2 eq_refl).
    + destruct E as [E1 E2]. split.
      * intros x r X. destruct l as [|f l]; [discriminate X|]. injection X as <- _. exact (E1 f l eq_refl).
      * intros r x X. apply map_eq_app in X. destruct X as (x1 & x2 & -> & X1 & X2).
        destruct x2 as [|fa [|fb x2]]; try discriminate X2. injection X2 as <-. exact (E2 x1 fa eq_refl).
  - intros x I. apply core_not_exit. now apply H.
  - intros x I. rewrite core_canon_simple by now apply H. apply core_clean_iff. now apply H.
Qed.
