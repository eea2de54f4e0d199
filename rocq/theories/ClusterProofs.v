(** * Lemmas about clustering: data movement. *)
From Verif Require Import Base DistMatrixModel DistMatrixSpec DistMatrixProofs ClusterModel.
Open Scope Z_scope.

(** ** Loops and arrays *)
Lemma fold_res_ind {A B} (P : list B -> A -> Prop) (f : A -> B -> res A) l a :
  P [] a ->
  (forall pre x post a, l = pre ++ x :: post -> P pre a -> exists a', f a x = Ok a' /\ P (pre ++ [x]) a') ->
  exists a', fold_res f l a = Ok a' /\ P l a'.
Proof.
  intros P0 Step.
  assert (G : forall post pre a, l = pre ++ post -> P pre a -> exists a', fold_res f post a = Ok a' /\ P l a').
  { induction post as [|x post IH]; intros pre b E Hb.
    - rewrite app_nil_r in E. subst. exists b. split; [reflexivity|assumption].
    - destruct (Step pre x post b E Hb) as (b' & E1 & E2). cbn. rewrite E1. cbn.
      apply (IH (pre ++ [x])); [|assumption]. rewrite <- app_assoc. exact E. }
  apply (G l []); auto.
Qed.
Lemma fold_res_ext {A B} (f g : A -> B -> res A) l a : (forall a x, In x l -> f a x = g a x) -> fold_res f l a = fold_res g l a.
Proof.
  revert a; induction l as [|x l IH]; intros a H; cbn; [reflexivity|]. rewrite H by now left.
  destruct (g a x); cbn; try reflexivity. apply IH. intros; apply H; now right.
Qed.
Lemma fold_res_map {A B C} (f : A -> C -> res A) (h : B -> C) l a : fold_res f (map h l) a = fold_res (fun a x => f a (h x)) l a.
Proof. revert a; induction l as [|x l IH]; intros a; cbn; [reflexivity|]. destruct (f a (h x)); cbn; auto. Qed.

Lemma load_nth {A} (l : list A) z v : load l z = Ok v <-> 0 <= z /\ nth_error l (Z.to_nat z) = Some v.
Proof.
  unfold load. destruct (0 <=? z) eqn:E; [|split; [discriminate|lia]].
  destruct (nth_error l (Z.to_nat z)); split; try discriminate.
  - intros [=<-]. split; [lia|reflexivity].
  - intros [_ [=<-]]. reflexivity.
  - intros [_ [=]].
Qed.
Lemma load_some {A} (l : list A) z : 0 <= z < Z.of_nat (length l) -> exists v, load l z = Ok v.
Proof.
  intros H. destruct (nth_error l (Z.to_nat z)) as [v|] eqn:E.
  - exists v. apply load_nth. split; [lia|assumption].
  - apply nth_error_None in E. lia.
Qed.
Lemma load_app_l {A} (a b : list A) z : 0 <= z < Z.of_nat (length a) -> load (a ++ b) z = load a z.
Proof. intros H. unfold load. destruct (0 <=? z); [|reflexivity]. rewrite nth_error_app1 by lia. reflexivity. Qed.
Lemma load_mid {A} (a b : list A) x z : z = Z.of_nat (length a) -> load (a ++ x :: b) z = Ok x.
Proof. intros ->. apply load_nth. split; [lia|]. rewrite Nat2Z.id, nth_error_app2 by lia. now rewrite Nat.sub_diag. Qed.
Lemma store_mid {A} (a b : list A) x y z : z = Z.of_nat (length a) -> store (a ++ x :: b) z y = Ok (a ++ y :: b).
Proof.
  intros ->. unfold store. rewrite app_length. cbn [length]. match goal with |- context [if ?b then _ else _] => replace b with true by (symmetry; apply andb_true_intro; split; [apply Z.leb_le; lia|apply Z.ltb_lt; lia]) end. f_equal. rewrite Nat2Z.id.
  induction a; cbn; congruence.
Qed.
Lemma store_ok {A} (l : list A) z v : 0 <= z < Z.of_nat (length l) -> store l z v = Ok (upd l (Z.to_nat z) v).
Proof. intros H. unfold store. replace ((0 <=? z) && (z <? Z.of_nat (length l))) with true; [reflexivity|]. symmetry. apply andb_true_intro; split; [apply Z.leb_le; lia|apply Z.ltb_lt; lia]. Qed.
Lemma nth_split2 {A} (l : list A) i j x y : (i < j)%nat -> nth_error l i = Some x -> nth_error l j = Some y ->
  exists a b c, l = a ++ x :: b ++ y :: c /\ length a = i /\ (length a + 1 + length b)%nat = j.
Proof.
  intros H Hx Hy. apply nth_error_split in Hx as (a & r & -> & La).
  rewrite nth_error_app2 in Hy by lia. replace (j - length a)%nat with (S (j - i - 1)) in Hy by lia. cbn in Hy.
  apply nth_error_split in Hy as (b & c & -> & Lb). exists a, b, c. split; [reflexivity|]. lia.
Qed.
Lemma zrange_split a b c : a <= b <= c -> zrange a c = zrange a b ++ zrange b c.
Proof.
  intros [H1 H2]. remember (Z.to_nat (b - a)) as k eqn:K. revert a H1 K. induction k as [|k IH]; intros a H1 K.
  - replace a with b by lia. now rewrite (zrange_empty b b) by lia.
  - rewrite (zrange_cons a c), (zrange_cons a b) by lia. cbn. f_equal. apply IH; lia.
Qed.
Lemma zrange_snoc a b : a <= b -> zrange a (b + 1) = zrange a b ++ [b].
Proof. intros H. rewrite (zrange_split a b (b + 1)), (zrange_cons b (b + 1)), (zrange_empty (b + 1) (b + 1)) by lia. reflexivity. Qed.
Lemma zrange_prefix a b pre x post : zrange a b = pre ++ x :: post -> a <= x < b /\ pre = zrange a x.
Proof.
  intros E. assert (Hx : In x (zrange a b)) by (rewrite E; apply in_or_app; right; left; reflexivity).
  apply zrange_in in Hx. split; [exact Hx|].
  rewrite (zrange_split a x b), (zrange_cons x b) in E by lia.
  assert (ND : NoDup (pre ++ x :: post)).
  { rewrite <- E. rewrite <- (zrange_cons x b), <- zrange_split by lia. unfold zrange.
    apply FinFun.Injective_map_NoDup; [intros u v; lia|apply seq_NoDup]. }
  clear Hx. revert E ND. generalize (zrange (x + 1) b), (zrange a x). intros q p. revert pre.
  induction p as [|y p IH]; intros [|z pre] E ND; cbn in E; cbn in ND; apply NoDup_cons_iff in ND as [ND1 ND2].
  - reflexivity.
  - exfalso. injection E as <- E. apply ND1. apply in_or_app. right; left; reflexivity.
  - exfalso. injection E as -> E. apply ND1. rewrite <- E. apply in_or_app. right; left; reflexivity.
  - injection E as <- E. f_equal. apply IH; assumption.
Qed.
Lemma zrange_NoDup a b : NoDup (zrange a b).
Proof. unfold zrange. apply FinFun.Injective_map_NoDup; [intros u v; lia|apply seq_NoDup]. Qed.
Lemma zrange_shift a b k : zrange (a + k) (b + k) = map (fun x => x + k) (zrange a b).
Proof. unfold zrange. rewrite map_map. replace (b + k - (a + k)) with (b - a) by lia. apply map_ext. intros; lia. Qed.

Lemma NoDup_app_remove_l {A} (l1 l2 : list A) : NoDup (l1 ++ l2) -> NoDup l2.
Proof. induction l1 as [|x l1 IH]; cbn; [auto|]. intros H. apply NoDup_cons_iff in H. tauto. Qed.
Lemma NoDup_app_remove_r {A} (l1 l2 : list A) : NoDup (l1 ++ l2) -> NoDup l1.
Proof.
  induction l1 as [|x l1 IH]; cbn; [constructor|]. intros H. apply NoDup_cons_iff in H as [H1 H2]. constructor; [|auto].
  intros H. apply H1, in_or_app. now left.
Qed.

Lemma perm_front {A} (a p b q c : list A) : Permutation (a ++ p ++ b ++ q ++ c) ((p ++ q) ++ a ++ b ++ c).
Proof.
  rewrite Permutation_app_swap_app, <- app_assoc. apply Permutation_app_head.
  rewrite (app_assoc a b (q ++ c)), (app_assoc a b c). apply Permutation_app_swap_app.
Qed.

Section C.
Context {D : Type} (zero : D).
Variables (gt le : D -> D -> bool) (avg : D -> Z -> D -> Z -> D).
Notation mat := (matrix D).

(** ** Finding the closest pair *)
Section Closest.
Variables (R : D -> D -> Prop).
Hypothesis R_refl : forall a, R a a.
Hypothesis R_trans : forall a b c, R a b -> R b c -> R a c.
Hypothesis gt_true : forall a b, gt a b = true -> R b a.
Hypothesis gt_false : forall a b, gt a b = false -> R a b.
Variables (cl : list (list Z)) (d : mat) (m n : Z).
Hypothesis Hn : Z.of_nat (length cl) = n.
Hypothesis Hm : 0 < m < n.
Definition active (i : Z) : Prop := exists c, load cl i = Ok c /\ c <> [].
Definition cand (i j : Z) : Prop := active i /\ active j /\ 0 <= i < m /\ i < j < n.
Hypothesis defined : forall i j, cand i j -> exists v, get_distance zero d i j = Ok v.
Definition good (S : Z -> Z -> Prop) (acc : option (D * Z * Z)) : Prop :=
  match acc with
  | None => forall i j, cand i j -> ~ S i j
  | Some (mn, c1, c2) => cand c1 c2 /\ get_distance zero d c1 c2 = Ok mn /\
      forall i j v, cand i j -> S i j -> get_distance zero d i j = Ok v -> R mn v
  end.
Lemma size_zero (c : list Z) : (size c =? 0) = true <-> c = [].
Proof. unfold size. rewrite Z.eqb_eq. destruct c; cbn; split; intros; try reflexivity; try discriminate; lia. Qed.
Lemma good_weaken (S S' : Z -> Z -> Prop) acc : (forall i j, cand i j -> S' i j -> S i j) -> good S acc -> good S' acc.
Proof.
  intros H. destruct acc as [[[mn c1] c2]|]; cbn.
  - intros (A & B & C). split; [exact A|]. split; [exact B|]. intros i j v Hc Hs. apply (C i j v Hc). now apply H.
  - intros A i j Hc Hs. now apply (A i j Hc), H.
Qed.
Lemma find_row_ok S i acc : active i -> 0 <= i < m -> good S acc ->
  exists acc', find_row zero gt cl d n i acc = Ok acc' /\ good (fun x y => S x y \/ x = i) acc'.
Proof.
  intros Ai Hi G. unfold find_row.
  destruct (fold_res_ind (fun pre acc => good (fun x y => S x y \/ (x = i /\ In y pre)) acc)
    (fun acc j => do cj <- load cl j;
       if size cj =? 0 then Ok acc
       else do dist <- get_distance zero d i j;
            match acc with
            | None => Ok (Some (dist, i, j))
            | Some (min_dist, _, _) => Ok (if gt min_dist dist then Some (dist, i, j) else acc)
            end) (zrange (i + 1) n) acc) as (acc' & E & G').
  - apply (good_weaken S); [|exact G]. intros x y _ [H|[_ []]]; exact H.
  - clear acc G. intros pre j post acc E G.
    assert (Hj : i + 1 <= j < n). { apply zrange_in. rewrite E. apply in_or_app. right; left; reflexivity. }
    destruct (load_some cl j ltac:(lia)) as (cj & Ej). rewrite Ej. cbn [bind].
    destruct (size cj =? 0) eqn:Z0.
    { apply size_zero in Z0. exists acc. split; [reflexivity|].
      apply (good_weaken (fun x y => S x y \/ x = i /\ In y pre)); [|exact G].
      intros x y (_ & (c & Ec & Nc) & _) [H|[-> H]]; [now left|]. right. split; [reflexivity|].
      apply in_app_or in H as [H|[<-|[]]]; [exact H|]. rewrite Ej in Ec. injection Ec as <-. congruence. }
    assert (Nj : cj <> []). { intros ->. cbn in Z0. discriminate. }
    assert (Cij : cand i j). { split; [exact Ai|]. split; [exists cj; auto|]. lia. }
    destruct (defined i j Cij) as (v & Ev). rewrite Ev. cbn [bind].
    destruct acc as [[[mn c1] c2]|].
    + destruct G as (A & B & C). destruct (gt mn v) eqn:Eg; eexists; (split; [reflexivity|]).
      * split; [exact Cij|]. split; [exact Ev|]. intros x y w Hc Hs Ew.
        assert (R v mn) by now apply gt_true.
        destruct Hs as [Hs|[-> Hs]]; [eapply R_trans; [eassumption|]; eapply C; eauto|].
        apply in_app_or in Hs as [Hs|[<-|[]]]; [eapply R_trans; [eassumption|]; eapply C; eauto|].
        rewrite Ev in Ew. injection Ew as <-. apply R_refl.
      * split; [exact A|]. split; [exact B|]. intros x y w Hc Hs Ew.
        destruct Hs as [Hs|[-> Hs]]; [eapply C; eauto|].
        apply in_app_or in Hs as [Hs|[<-|[]]]; [eapply C; eauto|].
        rewrite Ev in Ew. injection Ew as <-. now apply gt_false.
    + eexists. split; [reflexivity|]. cbn in G. split; [exact Cij|]. split; [exact Ev|]. intros x y w Hc Hs Ew.
      destruct Hs as [Hs|[-> Hs]]; [exfalso; apply (G x y Hc); now left|].
      apply in_app_or in Hs as [Hs|[<-|[]]]; [exfalso; apply (G i y Hc); now right|].
      rewrite Ev in Ew. injection Ew as <-. apply R_refl.
  - exists acc'. split; [exact E|]. apply (good_weaken (fun x y => S x y \/ (x = i /\ In y (zrange (i + 1) n)))); [|exact G'].
    intros x y (_ & _ & _ & Hy) [H| ->]; [now left|]. right. split; [reflexivity|]. apply zrange_in. lia.
Qed.
Lemma find_closest_ok j : active 0 -> active j -> 0 < j < n ->
  exists mn c1 c2, find_closest zero gt cl d m n = Ok (mn, c1, c2) /\ cand c1 c2 /\ get_distance zero d c1 c2 = Ok mn /\
    forall i j v, cand i j -> get_distance zero d i j = Ok v -> R mn v.
Proof.
  intros A0 Aj Hj. unfold find_closest.
  destruct (fold_res_ind (fun pre acc => good (fun x y => In x pre) acc)
    (fun acc i => do ci <- load cl i; if size ci =? 0 then Ok acc else find_row zero gt cl d n i acc) (zrange 0 m) None)
    as (acc & E & G).
  - intros x y _ [].
  - intros pre i post acc E G.
    assert (Hi : 0 <= i < m). { apply zrange_in. rewrite E. apply in_or_app. right; left; reflexivity. }
    destruct (load_some cl i ltac:(lia)) as (ci & Ei). rewrite Ei. cbn [bind].
    destruct (size ci =? 0) eqn:Z0.
    + apply size_zero in Z0. exists acc. split; [reflexivity|]. apply (good_weaken (fun x y => In x pre)); [|exact G].
      intros x y ((c & Ec & Nc) & _) H. apply in_app_or in H as [H|[<-|[]]]; [exact H|]. rewrite Ei in Ec. injection Ec as <-. congruence.
    + assert (Ai : active i). { exists ci. split; [exact Ei|]. intros ->. cbn in Z0. discriminate. }
      destruct (find_row_ok _ i acc Ai Hi G) as (acc' & E' & G'). exists acc'. split; [exact E'|].
      apply (good_weaken (fun x y => In x pre \/ x = i)); [|exact G'].
      intros x y _ H. apply in_app_or in H as [H|[<-|[]]]; auto.
  - rewrite E. cbn [bind]. destruct acc as [[[mn c1] c2]|].
    + destruct G as (A & B & C). destruct A as (A1 & A2 & A3 & A4).
      replace (c1 <? c2) with true by lia. cbn [assertb bind]. exists mn, c1, c2. split; [reflexivity|].
      split; [repeat split; auto; lia|]. split; [exact B|]. intros i j0 v Hc. apply C; [exact Hc|].
      apply zrange_in. apply Hc.
    + exfalso. apply (G 0 j); [repeat split; auto; lia|]. apply zrange_in. lia.
Qed.
End Closest.

(** ** Updating the distances of the merged cluster *)
Definition full (d : mat) : Prop :=
  wf d /\ forall i j, in_range (mx_m d) (mx_n d) i j -> exists v, get_distance zero d i j = Ok v.
Lemma update_ok cl d c1 c2 k1 k2 : full d -> Z.of_nat (length cl) = mx_n d ->
  load cl c1 = Ok k1 -> load cl c2 = Ok k2 -> 0 <= c1 < mx_m d -> c1 < c2 < mx_n d ->
  exists d', update_distances zero avg cl d (mx_m d) (mx_n d) c1 c2 = Ok d' /\ full d' /\ mx_m d' = mx_m d /\ mx_n d' = mx_n d /\
    (forall i, active cl i -> i <> c1 -> i <> c2 -> c2 < mx_m d \/ i < mx_m d -> 0 <= i < mx_n d ->
       exists v0 v1, get_distance zero d i c1 = Ok v0 /\ get_distance zero d i c2 = Ok v1 /\
         get_distance zero d' i c1 = Ok (avg v0 (size k1) v1 (size k2))) /\
    (forall x y, x <> c1 -> y <> c1 -> get_distance zero d' x y = get_distance zero d x y).
Proof.
  intros [W F] Hn E1 E2 H1 H2. unfold update_distances. rewrite E1, E2. cbn [bind].
  set (m := mx_m d) in *. set (n := mx_n d) in *.
  set (upd_here := fun pre i => active cl i /\ i <> c1 /\ i <> c2 /\ (c2 < m \/ i < m) /\ In i pre).
  destruct (fold_res_ind (fun pre d' =>
      full d' /\ mx_m d' = m /\ mx_n d' = n /\
      (forall i, upd_here pre i -> exists v0 v1, get_distance zero d i c1 = Ok v0 /\ get_distance zero d i c2 = Ok v1 /\
         get_distance zero d' i c1 = Ok (avg v0 (size k1) v1 (size k2))) /\
      (forall i, ~ In i pre -> get_distance zero d' i c1 = get_distance zero d i c1) /\
      (forall x y, x <> c1 -> y <> c1 -> get_distance zero d' x y = get_distance zero d x y))
    (fun d i => do ci <- load cl i;
      if (size ci =? 0) || (i =? c1) || (i =? c2) then Ok d
      else if negb ((c2 <? m) || (i <? m)) then Ok d
      else do d0 <- get_distance zero d i c1; do d1 <- get_distance zero d i c2;
           set_distance d i c1 (avg d0 (size k1) d1 (size k2))) (zrange 0 n) d) as (d' & E & G).
  - split; [split; assumption|]. split; [reflexivity|]. split; [reflexivity|]. split; [intros i (_ & _ & _ & _ & [])|].
    split; reflexivity.
  - intros pre i post d' E (F' & Em & En & G1 & G2 & G3).
    destruct (zrange_prefix _ _ _ _ _ E) as [Hi Epre].
    assert (Npre : ~ In i pre). { rewrite Epre. rewrite zrange_in. lia. }
    destruct (load_some cl i ltac:(lia)) as (ci & Ei). rewrite Ei. cbn [bind].
    assert (Skip : (~ upd_here (pre ++ [i]) i) -> exists a', Ok d' = Ok a' /\
      (full a' /\ mx_m a' = m /\ mx_n a' = n /\
       (forall i0, upd_here (pre ++ [i]) i0 -> exists v0 v1, get_distance zero d i0 c1 = Ok v0 /\ get_distance zero d i0 c2 = Ok v1 /\
         get_distance zero a' i0 c1 = Ok (avg v0 (size k1) v1 (size k2))) /\
       (forall i0, ~ In i0 (pre ++ [i]) -> get_distance zero a' i0 c1 = get_distance zero d i0 c1) /\
       (forall x y, x <> c1 -> y <> c1 -> get_distance zero a' x y = get_distance zero d x y))).
    { intros N. exists d'. split; [reflexivity|]. split; [exact F'|]. split; [exact Em|]. split; [exact En|]. split; [|split; [|exact G3]].
      - intros x Hx. apply G1. destruct Hx as (X1 & X2 & X3 & X4 & X5). apply in_app_or in X5 as [X5|[<-|[]]]; [repeat split; auto|].
        exfalso. apply N. repeat split; auto. apply in_or_app; right; left; reflexivity.
      - intros x Hx. apply G2. intros H. apply Hx. apply in_or_app. now left. }
    destruct ((size ci =? 0) || (i =? c1) || (i =? c2)) eqn:B1.
    { apply Skip. intros (X1 & X2 & X3 & _). destruct X1 as (c & Ec & Nc). rewrite Ei in Ec. injection Ec as <-.
      apply orb_prop in B1 as [B1|B1]; [apply orb_prop in B1 as [B1|B1]|]; [|lia|lia]. apply size_zero in B1. congruence. }
    destruct (negb ((c2 <? m) || (i <? m))) eqn:B2.
    { apply Skip. intros (X1 & X2 & X3 & X4 & _). lia. }
    apply orb_false_elim in B1 as [B1 B3]. apply orb_false_elim in B1 as [B1 B4].
    assert (Ai : active cl i). { exists ci. split; [exact Ei|]. intros ->. cbn in B1. discriminate. }
    assert (R1 : in_range m n i c1) by (unfold in_range; lia).
    assert (R2 : in_range m n i c2) by (unfold in_range; lia).
    destruct (F i c1 R1) as (v0 & V0). destruct (F i c2 R2) as (v1 & V1).
    rewrite (G2 i Npre), V0. cbn [bind]. rewrite (G3 i c2 ltac:(lia) ltac:(lia)), V1. cbn [bind].
    destruct F' as [W' F'].
    destruct (set_ok d' i c1 (avg v0 (size k1) v1 (size k2)) W') as (d'' & S1 & S2 & S3 & S4 & S5 & S6).
    { rewrite Em, En. exact R1. }
    exists d''. split; [exact S1|]. split; [split; [exact S2|]|].
    { intros x y Hxy. rewrite S3, S4 in Hxy.
      destruct (Z.eq_dec x i) as [->|Nx]; [destruct (Z.eq_dec y c1) as [->|Ny]; [eauto|]|].
      - rewrite S6; [apply F'; exact Hxy|]. intros [[? ?]|[? ?]]; lia.
      - destruct (Z.eq_dec x c1) as [->|Nx']; [destruct (Z.eq_dec y i) as [->|Ny]; [rewrite get_sym; eauto|]|].
        + rewrite S6; [apply F'; exact Hxy|]. intros [[? ?]|[? ?]]; lia.
        + rewrite S6; [apply F'; exact Hxy|]. intros [[? ?]|[? ?]]; lia. }
    split; [congruence|]. split; [congruence|]. split; [|split].
    + intros x (X1 & X2 & X3 & X4 & X5). destruct (Z.eq_dec x i) as [->|Nx].
      * exists v0, v1. auto.
      * destruct (G1 x) as (w0 & w1 & P1 & P2 & P3).
        { repeat split; auto. apply in_app_or in X5 as [X5|[<-|[]]]; [exact X5|congruence]. }
        exists w0, w1. split; [exact P1|]. split; [exact P2|]. rewrite S6; [exact P3|]. intros [[? ?]|[? ?]]; lia.
    + intros x Hx. assert (x <> i) by (intros ->; apply Hx, in_or_app; right; left; reflexivity).
      destruct (Z.eq_dec x c1) as [->|Nx]; [rewrite !get_diag; reflexivity|].
      rewrite S6; [apply G2; intros H'; apply Hx, in_or_app; now left|]. intros [[? ?]|[? ?]]; lia.
    + intros x y Hx Hy. rewrite S6; [now apply G3|]. intros [[? ?]|[? ?]]; lia.
  - exists d'. destruct G as (G1 & G2 & G3 & G4 & _ & G5). split; [exact E|]. split; [exact G1|]. split; [exact G2|].
    split; [exact G3|]. split; [|exact G5]. intros i Ai N1 N2 H Hi. apply G4. repeat split; auto. apply zrange_in. lia.
Qed.

(** ** Levels *)
Definition lv (levels : list (option D)) (o : Z) : option (option D) := nth_error levels (Z.to_nat o).
(** The levels stored for a cluster: one per object but the first. *)
Definition levels_of (levels : list (option D)) (c : list Z) (vs : list D) : Prop :=
  map (lv levels) (tl c) = map (fun v => Some (Some v)) vs.

Fixpoint shift_rec (c : list Z) (levels : list (option D)) : res (list (option D)) :=
  match c with
  | a :: ((b :: _) as r) => do v <- load levels b; do levels <- store levels a v; shift_rec r levels
  | _ => Ok levels
  end.
Lemma shift_rec_cons a b c levels :
  shift_rec (a :: b :: c) levels = do v <- load levels b; do levels <- store levels a v; shift_rec (b :: c) levels.
Proof. reflexivity. Qed.
Lemma load_cons {A} (x : A) l i : 0 <= i -> load (x :: l) (i + 1) = load l i.
Proof. intros H. unfold load. replace (0 <=? i + 1) with true by lia. replace (0 <=? i) with true by lia. replace (Z.to_nat (i + 1)) with (S (Z.to_nat i)) by lia. reflexivity. Qed.
Lemma shift_eq c levels : shift_levels c levels = shift_rec c levels.
Proof.
  revert levels; induction c as [|a c IH]; intros levels; [reflexivity|].
  destruct c as [|b c]; [reflexivity|]. unfold shift_levels.
  replace (size (a :: b :: c)) with (size (b :: c) + 1) by (unfold size; cbn [length]; lia).
  rewrite (zrange_cons 1) by (unfold size; cbn [length]; lia). cbn [fold_res].
  assert (L0 : forall A (x : A) l, load (x :: l) 0 = Ok x) by reflexivity.
  assert (L1 : forall A (x y : A) l, load (x :: y :: l) 1 = Ok y) by reflexivity.
  replace (1 - 1) with 0 by lia. rewrite L0, L1, shift_rec_cons. cbn [bind].
  destruct (load levels b) as [v| |]; cbn [bind]; try reflexivity.
  destruct (store levels a v) as [lv'| |]; cbn [bind]; try reflexivity.
  rewrite <- IH. unfold shift_levels. rewrite zrange_shift, fold_res_map. apply fold_res_ext.
  intros lvs i Hi. apply zrange_in in Hi. replace (i + 1 - 1) with (i - 1 + 1) by lia. rewrite !load_cons by lia. reflexivity.
Qed.
Lemma lv_upd levels a o v : 0 <= a -> 0 <= o -> a < Z.of_nat (length levels) ->
  lv (upd levels (Z.to_nat a) v) o = if o =? a then Some v else lv levels o.
Proof.
  intros Ha Ho Hl. unfold lv. rewrite nth_upd. destruct (Z.eqb_spec o a) as [->|N].
  - rewrite Nat.eqb_refl. replace (_ <? _)%nat with true; [reflexivity|]. symmetry. apply Nat.ltb_lt. lia.
  - replace (Nat.eqb (Z.to_nat o) (Z.to_nat a)) with false; [reflexivity|]. symmetry. apply Nat.eqb_neq. lia.
Qed.
Lemma shift_rec_ok n c levels : NoDup c -> (forall o, In o c -> 0 <= o < n) -> Z.of_nat (length levels) = n ->
  exists levels', shift_rec c levels = Ok levels' /\ length levels' = length levels /\
    map (lv levels') (removelast c) = map (lv levels) (tl c) /\
    (forall o, 0 <= o -> ~ In o c -> lv levels' o = lv levels o).
Proof.
  revert levels; induction c as [|a c IH]; intros levels ND B Ln.
  - exists levels. cbn. auto.
  - destruct c as [|b c].
    + exists levels. cbn. auto.
    + rewrite shift_rec_cons. pose proof (B a ltac:(now left)) as Ha. pose proof (B b ltac:(right; now left)) as Hb.
      destruct (load_some levels b ltac:(lia)) as (v & Ev). rewrite Ev. cbn [bind]. rewrite store_ok by lia. cbn [bind].
      inversion_clear ND as [|? ? Na ND'].
      destruct (IH (upd levels (Z.to_nat a) v) ND') as (l' & E & L' & M & O).
      { intros o Ho. apply B. now right. } { now rewrite upd_length. }
      exists l'. split; [exact E|]. split; [rewrite L'; apply upd_length|].
      assert (Keep : forall o, In o (b :: c) -> lv (upd levels (Z.to_nat a) v) o = lv levels o).
      { intros o Ho. rewrite lv_upd by (try lia; apply B; now right). destruct (Z.eqb_spec o a) as [->|]; [contradiction|reflexivity]. }
      split.
      * change (removelast (a :: b :: c)) with (a :: removelast (b :: c)). cbn [map tl]. f_equal.
        -- rewrite O by (try lia; assumption). rewrite lv_upd, Z.eqb_refl by lia. apply load_nth in Ev as [_ Ev]. unfold lv. now rewrite Ev.
        -- rewrite M. cbn [tl]. apply map_ext_in. intros o Ho. apply Keep. now right.
      * intros o Ho No. rewrite O; [|exact Ho|intros H; apply No; now right]. rewrite lv_upd by lia.
        destruct (Z.eqb_spec o a) as [->|]; [exfalso; apply No; now left|reflexivity].
Qed.
Lemma tl_rev {A} (l : list A) : tl (rev l) = rev (removelast l).
Proof.
  destruct l as [|x l] using rev_ind; [reflexivity|]. rewrite rev_app_distr, removelast_last. reflexivity.
Qed.
Lemma reverse_ok n r c vs levels : NoDup c -> (forall o, In o c -> 0 <= o < n) -> Z.of_nat (length levels) = n ->
  levels_of levels c vs ->
  exists levels', reverse_cluster r c levels = Ok (if r then rev c else c, levels') /\ length levels' = length levels /\
    levels_of levels' (if r then rev c else c) (if r then rev vs else vs) /\
    (forall o, 0 <= o -> ~ In o c -> lv levels' o = lv levels o).
Proof.
  intros ND B Ln LV. unfold reverse_cluster. destruct r; [|exists levels; auto].
  rewrite shift_eq. destruct (shift_rec_ok n c levels ND B Ln) as (l' & E & L' & M & O). rewrite E. cbn [bind].
  exists l'. split; [reflexivity|]. split; [exact L'|]. split; [|exact O].
  unfold levels_of in *. rewrite tl_rev, !map_rev, M, LV. reflexivity.
Qed.
Lemma levels_of_ext levels levels' c vs : (forall o, In o c -> lv levels' o = lv levels o) -> levels_of levels c vs -> levels_of levels' c vs.
Proof.
  unfold levels_of. intros H E. rewrite <- E. apply map_ext_in. intros o Ho. apply H. destruct c; [destruct Ho|now right].
Qed.
Lemma levels_of_length levels c vs : levels_of levels c vs -> length vs = pred (length c).
Proof. intros H. apply (f_equal (@length _)) in H. rewrite !map_length in H. rewrite <- H. now destruct c. Qed.

(** ** One round *)
(** The clusters together with their levels. *)
Definition view : Type := list (list Z * list D).
Definition inv (distances : mat) (s : cstate) (V : view) : Prop :=
  map fst V = s_clusters s /\
  Permutation (concat (map fst V)) (zrange 0 (mx_n distances)) /\
  Forall (fun p => levels_of (s_levels s) (fst p) (snd p)) V /\
  Z.of_nat (length (s_levels s)) = mx_n distances /\
  Z.of_nat (length V) = mx_n distances /\
  full (s_distances s) /\ mx_m (s_distances s) = mx_m distances /\ mx_n (s_distances s) = mx_n distances /\
  (exists p V', V = p :: V' /\ fst p <> []).
Definition flip (p q : list Z * list D) : Prop := q = p \/ q = (rev (fst p), rev (snd p)).

Lemma concat_mid {A} (a b : list (list A)) x : concat (a ++ x :: b) = concat a ++ x ++ concat b.
Proof. rewrite concat_app. reflexivity. Qed.

Lemma merge_once_ok (R : D -> D -> Prop) distances s V :
  (forall a, R a a) -> (forall a b c, R a b -> R b c -> R a c) ->
  (forall a b, gt a b = true -> R b a) -> (forall a b, gt a b = false -> R a b) ->
  full distances -> inv distances s V ->
  (exists p q V1 V2, V = p :: V1 ++ q :: V2 /\ fst q <> []) ->
  exists s' A B C p1 p2 q1 q2 mn,
    merge_once zero gt le avg distances s = Ok s' /\
    V = A ++ p1 :: B ++ p2 :: C /\ fst p1 <> [] /\ fst p2 <> [] /\ flip p1 q1 /\ flip p2 q2 /\
    inv distances s' (A ++ (fst q1 ++ fst q2, snd q1 ++ mn :: snd q2) :: B ++ ([], []) :: C) /\
    let c1 := Z.of_nat (length A) in
    let c2 := Z.of_nat (length A + 1 + length B) in
    c1 < mx_m distances /\
    get_distance zero (s_distances s) c1 c2 = Ok mn /\
    (forall i j v, active (map fst V) i -> active (map fst V) j -> 0 <= i < mx_m distances -> i < j < mx_n distances ->
       get_distance zero (s_distances s) i j = Ok v -> R mn v) /\
    (forall i, active (map fst V) i -> i <> c1 -> i <> c2 -> c2 < mx_m distances \/ i < mx_m distances -> 0 <= i < mx_n distances ->
       exists v0 v1, get_distance zero (s_distances s) i c1 = Ok v0 /\ get_distance zero (s_distances s) i c2 = Ok v1 /\
         get_distance zero (s_distances s') i c1 = Ok (avg v0 (size (fst p1)) v1 (size (fst p2)))) /\
    (forall x y, x <> c1 -> y <> c1 -> get_distance zero (s_distances s') x y = get_distance zero (s_distances s) x y).
Proof.
  intros R_refl R_trans Rt Rf [W F] (I1 & I2 & I3 & I4 & I5 & I6 & I7 & I8 & I9) Two.
  set (m := mx_m distances) in *. set (n := mx_n distances) in *.
  assert (Wmn : 0 < m < n) by apply W.
  assert (Lcl : Z.of_nat (length (s_clusters s)) = n). { rewrite <- I1, map_length. exact I5. }
  assert (A0 : active (s_clusters s) 0).
  { destruct I9 as (p & V' & -> & Np). exists (fst p). rewrite <- I1. split; [reflexivity|exact Np]. }
  destruct Two as (p & q & V1 & V2 & EV & Nq).
  set (j0 := Z.of_nat (S (length V1))).
  assert (Aj : active (s_clusters s) j0).
  { exists (fst q). rewrite <- I1, EV. split; [|exact Nq]. change (p :: V1 ++ q :: V2) with ((p :: V1) ++ q :: V2).
    rewrite map_app. cbn [map]. apply load_mid. cbn. rewrite map_length. reflexivity. }
  assert (Hj0 : 0 < j0 < n).
  { rewrite <- I5, EV. cbn [length]. rewrite app_length. cbn [length]. unfold j0. lia. }
  destruct I6 as [W' F']. rewrite I7, I8 in F'.
  destruct (find_closest_ok R R_refl R_trans Rt Rf (s_clusters s) (s_distances s) m n Lcl Wmn) with (j := j0)
    as (mn & c1 & c2 & Efc & (Ac1 & Ac2 & Hc1 & Hc2) & Emn & Emin); auto.
  { intros i j (_ & _ & Hi & Hj). apply F'. unfold in_range. lia. }
  unfold merge_once. fold m n. rewrite Efc. cbn [bind].
  destruct Ac1 as (k1 & Ek1 & Nk1). destruct Ac2 as (k2 & Ek2 & Nk2).
  destruct (update_ok (s_clusters s) (s_distances s) c1 c2 k1 k2) as (d' & Ed & Fd & Em' & En' & G1 & G2);
    rewrite ?I7, ?I8; try assumption; try (split; assumption).
  { split; [exact W'|]. rewrite I7, I8. exact F'. }
  rewrite I7, I8 in Ed. rewrite Ed. cbn [bind]. rewrite Ek1, Ek2. cbn [bind].
  (* the two clusters in the view *)
  apply load_nth in Ek1 as [_ Ek1]. apply load_nth in Ek2 as [_ Ek2].
  rewrite <- I1 in Ek1, Ek2. rewrite nth_error_map in Ek1, Ek2.
  destruct (nth_error V (Z.to_nat c1)) as [p1|] eqn:Ep1; [|discriminate]. destruct (nth_error V (Z.to_nat c2)) as [p2|] eqn:Ep2; [|discriminate].
  injection Ek1 as <-. injection Ek2 as <-.
  destruct (nth_split2 V (Z.to_nat c1) (Z.to_nat c2) p1 p2 ltac:(lia) Ep1 Ep2) as (A & B & C & EV' & LA & LB).
  assert (Lc1 : Z.of_nat (length A) = c1) by lia. assert (Lc2 : Z.of_nat (length A + 1 + length B) = c2) by lia.
  rewrite EV' in I2, I3. rewrite !map_app in I2. cbn [map] in I2. rewrite map_app in I2. cbn [map] in I2.
  rewrite concat_mid, concat_mid in I2.
  assert (ND : NoDup (concat (map fst A) ++ fst p1 ++ concat (map fst B) ++ fst p2 ++ concat (map fst C))).
  { eapply Permutation_NoDup; [apply Permutation_sym; exact I2|apply zrange_NoDup]. }
  assert (Rng : forall o, In o (concat (map fst A) ++ fst p1 ++ concat (map fst B) ++ fst p2 ++ concat (map fst C)) -> 0 <= o < n).
  { intros o Ho. apply zrange_in. eapply Permutation_in; [exact I2|exact Ho]. }
  assert (ND1 : NoDup (fst p1)). { apply NoDup_app_remove_l in ND. now apply NoDup_app_remove_r in ND. }
  assert (ND2 : NoDup (fst p2)). { apply NoDup_app_remove_l, NoDup_app_remove_l, NoDup_app_remove_l in ND. now apply NoDup_app_remove_r in ND. }
  assert (Disj : forall (l1 l2 : list Z) o, NoDup (l1 ++ l2) -> In o l1 -> In o l2 -> False).
  { intros l1 l2 o H H1 H2. induction l1 as [|x l1 IH]; [destruct H1|]. cbn in H. inversion_clear H as [|? ? Nx H'].
    destruct H1 as [->|H1]; [apply Nx, in_or_app; now right|auto]. }
  assert (D12 : forall o, In o (fst p1) -> In o (fst p2) -> False).
  { intros o H1 H2. apply NoDup_app_remove_l in ND. eapply (Disj _ _ o ND H1). apply in_or_app; right. apply in_or_app; now left. }
  assert (Rng1 : forall o, In o (fst p1) -> 0 <= o < n). { intros o Ho. apply Rng. apply in_or_app; right. apply in_or_app; now left. }
  assert (Rng2 : forall o, In o (fst p2) -> 0 <= o < n).
  { intros o Ho. apply Rng. apply in_or_app; right. apply in_or_app; right. apply in_or_app; right. apply in_or_app; now left. }
  assert (DO : forall c o, In c (map fst (A ++ B ++ C)) -> In o c -> ~ In o (fst p1) /\ ~ In o (fst p2)).
  { assert (ND' : NoDup ((fst p1 ++ fst p2) ++ concat (map fst A) ++ concat (map fst B) ++ concat (map fst C))).
    { eapply Permutation_NoDup; [|exact ND].
      apply perm_front. }
    intros c o Hc Ho. assert (HH : In o (concat (map fst A) ++ concat (map fst B) ++ concat (map fst C))).
    { rewrite !map_app in Hc. rewrite <- !concat_app. apply in_concat. exists c. auto. }
    split; intros H; eapply (Disj _ _ o ND'); try exact HH; apply in_or_app; [now left|now right]. }
  (* directions *)
  assert (ED : exists r1 r2, directions zero le distances m n (fst p1) (fst p2) = Ok (r1, r2)).
  { unfold directions. destruct (m + 1 =? n) eqn:Emn1; [|eauto].
    assert (S1 : 0 < size (fst p1)) by (unfold size; destruct (fst p1); [congruence|cbn; lia]).
    assert (S2 : 0 < size (fst p2)) by (unfold size; destruct (fst p2); [congruence|cbn; lia]).
    assert (LI : forall (l : list Z) z o, load l z = Ok o -> In o l).
    { intros l z o H. apply load_nth in H as [_ H]. eapply nth_error_In; eassumption. }
    destruct (load_some (fst p1) 0) as (f1 & Ef1); [unfold size in *; lia|].
    destruct (load_some (fst p1) (size (fst p1) - 1)) as (l1 & El1); [unfold size in *; lia|].
    destruct (load_some (fst p2) 0) as (f2 & Ef2); [unfold size in *; lia|].
    destruct (load_some (fst p2) (size (fst p2) - 1)) as (l2 & El2); [unfold size in *; lia|].
    rewrite Ef1, El1, Ef2, El2. cbn [bind].
    apply LI in Ef1, El1, Ef2, El2.
    assert (GD : forall x y, In x (fst p1) -> In y (fst p2) -> exists v, get_distance zero distances x y = Ok v).
    { intros x y Hx Hy. apply F. fold m n. pose proof (Rng1 x Hx). pose proof (Rng2 y Hy).
      assert (x <> y) by (intros ->; eauto). unfold in_range. lia. }
    destruct (GD f1 f2 Ef1 Ef2) as (? & ->). destruct (GD l1 f2 El1 Ef2) as (? & ->).
    destruct (GD f1 l2 Ef1 El2) as (? & ->). destruct (GD l1 l2 El1 El2) as (? & ->). cbn [bind].
    repeat match goal with |- context [if ?b then _ else _] => destruct b end; eauto. }
  destruct ED as (r1 & r2 & ED). rewrite ED. cbn [bind fst snd].
  apply Forall_app in I3 as [IA I3]. inversion_clear I3 as [|? ? IP1 I3']. apply Forall_app in I3' as [IB I3']. inversion_clear I3' as [|? ? IP2 IC].
  destruct (reverse_ok n r1 (fst p1) (snd p1) (s_levels s) ND1 Rng1 I4 IP1) as (lv1 & E1 & L1 & P1 & O1).
  rewrite E1. cbn [bind fst snd].
  assert (IP2' : levels_of lv1 (fst p2) (snd p2)).
  { eapply levels_of_ext; [|exact IP2]. intros o Ho. apply O1; [apply Rng2; exact Ho|]. intros H. eauto. }
  destruct (reverse_ok n r2 (fst p2) (snd p2) lv1 ND2 Rng2 ltac:(lia) IP2') as (lv2 & E2 & L2 & P2 & O2).
  rewrite E2. cbn [bind fst snd].
  set (q1 := if r1 then (rev (fst p1), rev (snd p1)) else p1).
  set (q2 := if r2 then (rev (fst p2), rev (snd p2)) else p2).
  assert (Q1 : (if r1 then rev (fst p1) else fst p1) = fst q1) by (unfold q1; now destruct r1).
  assert (Q1' : (if r1 then rev (snd p1) else snd p1) = snd q1) by (unfold q1; now destruct r1).
  assert (Q2 : (if r2 then rev (fst p2) else fst p2) = fst q2) by (unfold q2; now destruct r2).
  assert (Q2' : (if r2 then rev (snd p2) else snd p2) = snd q2) by (unfold q2; now destruct r2).
  rewrite Q1, Q1' in P1. rewrite Q2, Q2' in P2. rewrite Q1, Q2.
  assert (FL1 : flip p1 q1) by (unfold flip, q1; destruct r1; auto).
  assert (FL2 : flip p2 q2) by (unfold flip, q2; destruct r2; auto).
  assert (PQ1 : Permutation (fst p1) (fst q1)). { destruct FL1 as [->| ->]; [reflexivity|apply Permutation_rev]. }
  assert (PQ2 : Permutation (fst p2) (fst q2)). { destruct FL2 as [->| ->]; [reflexivity|apply Permutation_rev]. }
  destruct (fst q2) as [|f2 t2] eqn:Eq2; [exfalso; apply Nk2; apply Permutation_nil; now symmetry|].
  assert (Nq1 : fst q1 <> []). { intros E. rewrite E in PQ1. apply Nk1. apply Permutation_nil. now symmetry. }
  assert (Lf2 : load (f2 :: t2) 0 = Ok f2) by reflexivity. rewrite Lf2. cbn [bind].
  assert (Hf2 : In f2 (fst p2)). { eapply Permutation_in; [symmetry; exact PQ2|now left]. }
  pose proof (Rng2 f2 Hf2) as Rf2.
  rewrite store_ok by lia. cbn [bind].
  assert (ScA : s_clusters s = map fst A ++ fst p1 :: map fst B ++ fst p2 :: map fst C).
  { rewrite <- I1, EV', !map_app. cbn [map]. rewrite map_app. reflexivity. }
  rewrite ScA. rewrite store_mid by (rewrite map_length; lia). cbn [bind].
  assert (EQ : map fst A ++ (fst q1 ++ f2 :: t2) :: map fst B ++ fst p2 :: map fst C =
               (map fst A ++ (fst q1 ++ f2 :: t2) :: map fst B) ++ fst p2 :: map fst C).
  { rewrite <- app_assoc. reflexivity. }
  rewrite EQ. rewrite store_mid by (rewrite app_length; cbn [length]; rewrite !map_length; lia). cbn [bind].
  eexists _, A, B, C, p1, p2, q1, q2, mn. split; [reflexivity|]. split; [exact EV'|]. split; [exact Nk1|]. split; [exact Nk2|].
  split; [exact FL1|]. split; [exact FL2|].
  rewrite Lc1, Lc2, Eq2. rewrite I1.
  split; [|split; [|split; [exact Emn|split; [|split]]]].
  - cbn [s_clusters s_levels s_distances]. unfold inv. fold n m. cbn [s_clusters s_levels s_distances].
    split; [rewrite !map_app; cbn [map fst]; rewrite map_app; cbn [map fst]; rewrite <- app_assoc; reflexivity|].
    split.
    { rewrite !map_app. cbn [map fst]. rewrite map_app. cbn [map fst]. rewrite concat_mid, concat_mid. cbn [app].
      eapply Permutation_trans; [|exact I2]. apply Permutation_app_head. rewrite <- Eq2, <- app_assoc. apply Permutation_app; [now symmetry|].
      rewrite Eq2. rewrite !app_assoc. apply Permutation_app_tail. etransitivity; [apply Permutation_app_comm|]. apply Permutation_app_head. now symmetry. }
    assert (Other : forall p, In p (A ++ B ++ C) -> levels_of (s_levels s) (fst p) (snd p) ->
       levels_of (upd lv2 (Z.to_nat f2) (Some mn)) (fst p) (snd p)).
    { intros x Hx. apply levels_of_ext. intros o Ho.
      assert (Hc : In (fst x) (map fst (A ++ B ++ C))) by now apply in_map.
      destruct (DO (fst x) o Hc Ho) as [X1 X2].
      assert (Ro : 0 <= o < n).
      { apply zrange_in. eapply Permutation_in; [exact I2|]. rewrite !map_app in Hc.
        repeat (apply in_app_or in Hc as [Hc|Hc]).
        - apply in_or_app; left. apply in_concat; eauto.
        - apply in_or_app; right. apply in_or_app; right. apply in_or_app; left. apply in_concat; eauto.
        - apply in_or_app; right. apply in_or_app; right. apply in_or_app; right. apply in_or_app; right. apply in_concat; eauto. }
      rewrite lv_upd by lia. destruct (Z.eqb_spec o f2) as [->|_]; [contradiction|].
      rewrite O2 by (try lia; assumption). now rewrite O1 by (try lia; assumption). }
    split; [|split; [rewrite upd_length; lia|]].
    { rewrite Forall_forall in IA, IB, IC. apply Forall_app. split; [apply Forall_forall; intros x Hx; apply Other; [apply in_or_app; now left|auto]|].
      constructor; [|apply Forall_app; split; [apply Forall_forall; intros x Hx; apply Other; [apply in_or_app; right; apply in_or_app; now left|auto]|
        constructor; [reflexivity|apply Forall_forall; intros x Hx; apply Other; [apply in_or_app; right; apply in_or_app; now right|auto]]]].
      cbn [fst snd]. unfold levels_of in *. cbn [tl] in P2.
      destruct (fst q1) as [|f1 t1] eqn:Eq1; [congruence|]. cbn [app tl]. cbn [tl] in P1.
      assert (I1' : forall o, In o (f1 :: t1) -> In o (fst p1)). { intros o Ho. eapply Permutation_in; [symmetry; exact PQ1|exact Ho]. }
      assert (I2' : forall o, In o (f2 :: t2) -> In o (fst p2)). { intros o Ho. eapply Permutation_in; [symmetry; exact PQ2|exact Ho]. }
      assert (NDt : NoDup (f2 :: t2)) by (eapply Permutation_NoDup; eassumption).
      rewrite !map_app. cbn [map]. f_equal; [|f_equal].
      - rewrite <- P1. apply map_ext_in. intros o Ho. assert (Ho' := I1' o (or_intror Ho)). pose proof (Rng1 o Ho').
        rewrite lv_upd by lia. destruct (Z.eqb_spec o f2) as [->|_]; [exfalso; eauto|].
        apply O2; [lia|]. intros H'. eauto.
      - rewrite lv_upd by lia. now rewrite Z.eqb_refl.
      - rewrite <- P2. apply map_ext_in. intros o Ho. assert (Ho' := I2' o (or_intror Ho)). pose proof (Rng2 o Ho').
        rewrite lv_upd by lia. destruct (Z.eqb_spec o f2) as [->|_]; [inversion NDt; contradiction|reflexivity]. }
    split.
    { rewrite <- I5, EV', !app_length. cbn [length]. rewrite !app_length. reflexivity. }
    split; [exact Fd|]. split; [congruence|]. split; [congruence|].
    destruct I9 as (p0 & V' & E0 & N0). destruct A as [|a A'].
    + eexists _, _. split; [reflexivity|]. cbn [fst]. destruct (fst q1); [congruence|discriminate].
    + rewrite EV' in E0. cbn in E0. injection E0 as -> _. eexists _, _. split; [reflexivity|]. exact N0.
  - lia.
  - intros i j v Ai Aj' Hi Hj Ev. apply (Emin i j v); [|exact Ev]. unfold cand. repeat split; auto; lia.
  - intros i Ai N1 N2 H Hi. rewrite I7, I8 in G1. apply G1; assumption.
  - exact G2.
Qed.
End C.
