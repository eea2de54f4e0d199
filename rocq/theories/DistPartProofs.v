(** * Proofs about splitting a comparison into parts and merging them. *)
From Verif Require Import Base DistMatrixModel DistMatrixSpec DistMatrixProofs.
Open Scope Z_scope.

Section Create.
Context {D dtype : Type} (m n : Z) (dt : dtype).
Notation step := (@part_step D dtype m n dt).
Definition covers (p : part D dtype) (c : list (Z * Z)) : Prop :=
  p = part_new m n dt (pt_m_begin p) (pt_n_begin p) (Z.of_nat (length c)) /\
  hd_error c = Some (pt_m_begin p, pt_n_begin p).

Lemma step_skip l : forall b c per left acc, c + Z.of_nat (length l) <= per ->
  fold_left step l (b, c, per, left, acc) = (b, c + Z.of_nat (length l), per, left, acc).
Proof.
  induction l as [|x l IH]; intros b c per left acc H.
  - cbn. do 4 f_equal. lia.
  - cbn [length] in *. cbn [fold_left]. unfold part_step at 2. replace (per <? c + 1) with false by lia.
    rewrite IH by lia. do 4 f_equal. lia.
Qed.
Lemma step_emit b per left acc x : step (b, per, per, left, acc) x =
  (x, 1, (if left =? 0 then per else if left - 1 =? 0 then per - 1 else per), (if left =? 0 then left else left - 1),
   acc ++ [part_new m n dt (fst b) (snd b) per]).
Proof. unfold part_step. replace (per <? per + 1) with true by lia. destruct (left =? 0); reflexivity. Qed.
Definition finish (st : (Z * Z) * Z * Z * Z * list (part D dtype)) : Prop * list (part D dtype) :=
  let '(b, counter, per, _, acc) := st in (counter = per, acc ++ [part_new m n dt (fst b) (snd b) counter]).
Lemma part_loop k : forall b rest per left acc, (1 <= k)%nat -> (1 <= per)%nat -> (left <= k)%nat ->
  (left = 0%nat /\ (1 + length rest = k * per)%nat \/
   (1 <= left)%nat /\ (1 + length rest = left * per + (k - left) * (per - 1))%nat /\ (2 <= per \/ k = left)%nat) ->
  let st := fold_left step rest (b, 1, Z.of_nat per, Z.of_nat left, acc) in
  exists parts chunks, fst (finish st) /\ snd (finish st) = acc ++ parts /\
    concat chunks = b :: rest /\ Forall2 covers parts chunks /\
    map (@List.length (Z * Z)) chunks = match left with O => repeat per k | _ => repeat per left ++ repeat (per - 1)%nat (k - left) end.
Proof.
  induction k as [|k IH]; intros b rest per left acc Hk Hper Hleft HT; [lia|].
  destruct k as [|k].
  - assert (HL : (1 + length rest = per)%nat) by nia.
    cbv zeta. rewrite step_skip by lia. replace (1 + Z.of_nat (length rest)) with (Z.of_nat per) by lia.
    exists [part_new m n dt (fst b) (snd b) (Z.of_nat per)], [b :: rest]. cbn [finish fst snd].
    split; [reflexivity|]. split; [reflexivity|]. split; [cbn; rewrite app_nil_r; reflexivity|].
    split.
    + constructor; [|constructor]. split; cbn; [f_equal; lia | destruct b; reflexivity].
    + cbn [map length]. destruct left as [|[|l]]; [cbn; f_equal; lia | cbn; f_equal; lia | lia].
  - destruct (Nat.le_gt_cases (length rest) (per - 1)) as [C|C].
    { exfalso. destruct left as [|l]; nia. }
    rewrite <- (firstn_skipn (per - 1) rest). set (r1 := firstn (per - 1) rest).
    assert (L1 : length r1 = (per - 1)%nat) by (unfold r1; rewrite firstn_length; lia).
    assert (L2 : length (skipn (per - 1) rest) = (length rest - (per - 1))%nat) by (rewrite skipn_length; lia).
    destruct (skipn (per - 1) rest) as [|x r2] eqn:E2; [cbn in L2; lia|]. cbn [length] in L2.
    rewrite fold_left_app, step_skip by lia. replace (1 + Z.of_nat (length r1)) with (Z.of_nat per) by lia.
    cbn [fold_left]. rewrite step_emit.
    set (P := part_new m n dt (fst b) (snd b) (Z.of_nat per)).
    assert (HC : covers P (b :: r1)).
    { split; cbn; [unfold P; f_equal; cbn [length]; lia | destruct b; reflexivity]. }
    destruct left as [|[|l]].
    + destruct (IH x r2 per 0%nat (acc ++ [P]) ltac:(lia) ltac:(lia) ltac:(lia)) as (ps & cs & F1 & F2 & F3 & F4 & F5); [left; nia|].
      change (Z.of_nat 0 =? 0) with true. cbv iota beta. exists (P :: ps), ((b :: r1) :: cs). split; [exact F1|]. split; [rewrite F2, <- app_assoc; reflexivity|].
      split; [cbn [concat]; rewrite F3; reflexivity|]. split; [constructor; assumption|].
      cbn [map]. rewrite F5. cbn [length]. rewrite L1. replace (S (per - 1)) with per by lia. reflexivity.
    + assert (Hp2 : (2 <= per)%nat) by nia.
      destruct (IH x r2 (per - 1)%nat 0%nat (acc ++ [P]) ltac:(lia) ltac:(lia) ltac:(lia)) as (ps & cs & F1 & F2 & F3 & F4 & F5); [left; nia|].
      change (Z.of_nat 1 =? 0) with false. change (Z.of_nat 1 - 1 =? 0) with true. cbv iota beta.
      replace (Z.of_nat per - 1) with (Z.of_nat (per - 1)) by lia. change (Z.of_nat 1 - 1) with (Z.of_nat 0).
      exists (P :: ps), ((b :: r1) :: cs). split; [exact F1|]. split; [rewrite F2, <- app_assoc; reflexivity|].
      split; [cbn [concat]; rewrite F3; reflexivity|]. split; [constructor; assumption|].
      cbn [map]. rewrite F5. cbn [length]. rewrite L1. replace (S (per - 1)) with per by lia. cbn. reflexivity.
    + destruct (IH x r2 per (S l) (acc ++ [P]) ltac:(lia) ltac:(lia) ltac:(lia)) as (ps & cs & F1 & F2 & F3 & F4 & F5).
      { right. split; [lia|]. split; [|lia]. destruct HT as [[? _]|(_ & HT & _)]; [lia|].
        replace (S (S k) - S (S l))%nat with (S k - S l)%nat in HT by lia. nia. }
      rewrite (proj2 (Z.eqb_neq (Z.of_nat (S (S l))) 0)) by lia. rewrite (proj2 (Z.eqb_neq (Z.of_nat (S (S l)) - 1) 0)) by lia. cbv iota beta.
      replace (Z.of_nat (S (S l)) - 1) with (Z.of_nat (S l)) by lia.
      exists (P :: ps), ((b :: r1) :: cs). split; [exact F1|]. split; [rewrite F2, <- app_assoc; reflexivity|].
      split; [cbn [concat]; rewrite F3; reflexivity|]. split; [constructor; assumption|].
      cbn [map]. rewrite F5. cbn [length]. rewrite L1. replace (S (per - 1)) with per by lia. cbn. reflexivity.
Qed.
End Create.

Lemma clip_m m n : 0 < m -> 1 < n <= max_n -> (if n <=? m then chk (n - 1) else Ok m) = Ok (Z.min m (n - 1)).
Proof.
  intros Hm Hn. destruct (n <=? m) eqn:C; [rewrite chk_ok; [f_equal; lia | unfold int_max, max_n in *; lia] | f_equal; lia].
Qed.
Lemma loop_pairs_min m n : 0 < m -> 1 < n -> loop_pairs m n = loop_pairs (Z.min m (n - 1)) n.
Proof.
  intros Hm Hn. eapply increasing_ext; [apply loop_pairs_all | apply loop_pairs_all|].
  intros p. rewrite (proj2 (loop_pairs_all _ _)), (proj2 (loop_pairs_all _ _)). unfold upper. lia.
Qed.
Lemma part_create_ok D {dtype} m n (dt : dtype) nparts : 0 < m -> 1 < n <= max_n -> 0 < nparts ->
  let m' := Z.min m (n - 1) in
  let e := entries m' n in
  exists ps chunks, part_create D m n dt nparts = Ok ps /\
    concat chunks = loop_pairs m' n /\ Forall2 (covers m' n dt) ps chunks /\
    map (@List.length (Z * Z)) chunks =
      part_sizes (Z.to_nat (Z.min nparts e)) (Z.to_nat (e mod nparts)) (Z.to_nat (e / nparts)).
Proof.
  intros Hm Hn Hp m' e. unfold part_create. rewrite clip_m by assumption. cbn [bind]. fold m'.
  assert (Hm' : 0 < m' < n) by (unfold m'; lia). rewrite assert_ok by lia. cbn [bind].
  destruct (entries_eq m' n Hm') as (E1 & E2 & E3). fold e in E1, E2.
  assert (Hnn := proj2 (max_n_int n ltac:(lia)) (proj2 Hn)). unfold int_max in Hnn.
  assert (0 <= m' * (m' - 1) <= n * n) by nia. assert (0 <= m' * (n - m') <= n * n) by nia.
  rewrite chk_ok by (unfold int_max; lia). cbn [bind].
  assert (Hrem : Z.rem (m' * (m' - 1)) 2 = 0). { rewrite E3. rewrite Z.mul_comm. apply Z.rem_mul. lia. }
  rewrite Hrem. cbn [assertb Z.eqb bind]. rewrite chk_ok by (unfold int_max; lia). cbn [bind]. rewrite E2.
  assert (He : 0 < e <= n * n).
  { unfold e, entries. set (t := m' * (m' - 1) / 2) in *. nia. }
  rewrite chk_ok by (unfold int_max; lia). cbn [bind]. rewrite assert_ok by (destruct (nparts =? 0) eqn:C; [lia | reflexivity]). cbn [bind].
  set (q := e / nparts) in *. set (r := e mod nparts) in *.
  assert (Hqr : e = nparts * q + r /\ 0 <= r < nparts /\ 0 <= q).
  { unfold q, r. pose proof (Z_div_mod_eq_full e nparts). pose proof (Z.mod_pos_bound e nparts Hp). pose proof (Z.div_pos e nparts ltac:(lia) Hp). lia. }
  set (per := if r =? 0 then q else q + 1).
  assert (Hper : 1 <= per) by (unfold per; destruct (r =? 0) eqn:C; nia).
  assert (Hstart : exists rest, loop_pairs m' n = (0, 1) :: rest).
  { unfold loop_pairs. rewrite zrange_cons by lia. cbn [flat_map]. rewrite zrange_cons by lia. cbn. eauto. }
  destruct Hstart as [rest Er]. rewrite Er in *. cbn [fold_left].
  change (part_step m' n dt (0, 1, 0, per, r, []) (0, 1)) with
    (let '(b, counter, per, leftover, acc) := ((0, 1), 0, per, r, @nil (part D dtype)) in
     if per <? counter + 1 then
       let acc := acc ++ [part_new m' n dt (fst b) (snd b) per] in
       let '(leftover, per) := if leftover =? 0 then (leftover, per)
         else (leftover - 1, if leftover - 1 =? 0 then per - 1 else per) in ((0, 1), 1, per, leftover, acc)
     else (b, counter + 1, per, leftover, acc)).
  cbv beta iota zeta. replace (per <? 0 + 1) with false by lia. change (0 + 1) with 1.
  set (k := Z.to_nat (Z.min nparts e)).
  assert (Hk : Z.of_nat k = Z.min nparts e) by (unfold k; lia).
  assert (HL : Z.of_nat (length rest) = e - 1) by (cbn [length] in E1; lia).
  destruct (part_loop m' n dt (D:=D) k (0, 1) rest (Z.to_nat per) (Z.to_nat r) [] ltac:(lia) ltac:(lia)) as (ps & cs & F1 & F2 & F3 & F4 & F5).
  - apply Nat2Z.inj_le. rewrite Z2Nat.id by lia. rewrite Hk. nia.
  - unfold per in *. destruct (r =? 0) eqn:C.
    + left. split; [lia|]. apply Nat2Z.inj. rewrite Nat2Z.inj_add, Nat2Z.inj_mul, Hk, HL, Z2Nat.id by lia.
      assert (nparts <= e) by nia. rewrite Z.min_l by lia. nia.
    + right. split; [lia|]. destruct (Z_le_dec nparts e) as [Hle|Hgt].
      * rewrite Z.min_l in Hk by lia. assert (1 <= q) by nia. split; [|lia]. apply Nat2Z.inj.
        rewrite !Nat2Z.inj_add, !Nat2Z.inj_mul, !Nat2Z.inj_sub, Hk, HL, !Z2Nat.id by lia. nia.
      * rewrite Z.min_r in Hk by lia. assert (q = 0) by nia. assert (r = e) by nia. split; [|right; lia].
        replace (k - Z.to_nat r)%nat with O by lia. replace (q + 1) with 1 by lia. change (Z.to_nat 1) with 1%nat. lia.
  - rewrite !Z2Nat.id in * by lia.
    destruct (fold_left _ rest _) as [[[[b c] per'] left'] acc'] eqn:EF. cbn [finish fst snd] in F1, F2. subst c.
    rewrite Z.eqb_refl. cbn [assertb bind]. rewrite F2. exists ps, cs. split; [reflexivity|]. split; [exact F3|]. split; [exact F4|].
    rewrite F5. unfold part_sizes, per. fold k. destruct (r =? 0) eqn:C.
    + replace (Z.to_nat r) with O by lia. cbn. rewrite Nat.sub_0_r. reflexivity.
    + destruct (Z.to_nat r) as [|r'] eqn:Er'; [lia|]. replace (Z.to_nat (q + 1)) with (S (Z.to_nat q)) by lia.
      replace (S (Z.to_nat q) - 1)%nat with (Z.to_nat q) by lia. reflexivity.
Qed.

(** ** Computing and merging *)
Lemma load_ok {A} (l : list A) (x : A) i : 0 <= i < Z.of_nat (length l) -> load l i = Ok (nth (Z.to_nat i) l x).
Proof.
  intros H. unfold load. replace (0 <=? i) with true by lia. rewrite (nth_error_nth' l x) by lia. reflexivity.
Qed.
Definition pairval {T D} (f : T -> T -> D) (threads : list T) (x : T) (p : Z * Z) : D :=
  f (nth (Z.to_nat (fst p)) threads x) (nth (Z.to_nat (snd p)) threads x).
Lemma compute_ok {T D} m n (f : T -> T -> D) threads x len : forall p, n <= Z.of_nat (length threads) ->
  Forall (upper m n) (walk n len p) ->
  compute_loop m n f threads len p = Ok (map (pairval f threads x) (walk n len p)).
Proof.
  induction len as [|len IH]; intros [i j] Hn F; [reflexivity|]. cbn [walk] in *. inversion F as [|? ? U F']; subst.
  unfold upper in U; cbn [fst snd] in U. cbn [compute_loop]. rewrite !assert_ok by lia. cbn [bind].
  rewrite !(load_ok _ x) by lia. cbn [bind]. rewrite IH by assumption. reflexivity.
Qed.
Definition writes {D} (l : list ((Z * Z) * D)) (d : matrix D) : res (matrix D) :=
  fold_res (fun d pv => write_cell d (fst (fst pv)) (snd (fst pv)) (snd pv)) l d.
Lemma fold_res_app {A B} (f : A -> B -> res A) l1 l2 a : fold_res f (l1 ++ l2) a = do a' <- fold_res f l1 a; fold_res f l2 a'.
Proof. revert a; induction l1 as [|x l1 IH]; intros a; [reflexivity|]. cbn. destruct (f a x); cbn; auto. Qed.
Lemma merge_loop_writes {D} m n (vals : list D) len : forall k p d, (k + len = length vals)%nat -> Forall (upper m n) (walk n len p) ->
  merge_loop m n vals k len p d = writes (combine (walk n len p) (skipn k vals)) d.
Proof.
  induction len as [|len IH]; intros k [i j] d E F; [reflexivity|]. cbn [walk] in *. inversion F as [|? ? U F']; subst.
  unfold upper in U; cbn [fst snd] in U. cbn [merge_loop]. replace (_ || _) with false by lia.
  destruct (nth_error vals k) as [v|] eqn:Ev; [|apply nth_error_None in Ev; lia].
  assert (Es : skipn k vals = v :: skipn (S k) vals).
  { clear -Ev. revert vals Ev. induction k; intros [|a vals] Ev; try discriminate; cbn in *; [injection Ev as ->; reflexivity | apply IHk; exact Ev]. }
  rewrite Es. cbn [combine]. unfold writes. cbn [fold_res fst snd]. destruct (write_cell d i j v) eqn:Ew; cbn [bind]; auto.
  apply IH; [lia | assumption].
Qed.

(** The effect of a list of writes whose values are given by a function of the pair. *)
Definition touched (n : Z) (l : list (Z * Z)) (x : nat) : Prop := exists p, In p l /\ Z.to_nat (pos n (fst p) (snd p)) = x.
Lemma writes_ok {D} (G : Z * Z -> D) l : forall d, wf d -> Forall (upper (mx_m d) (mx_n d)) l ->
  exists d', writes (map (fun p => (p, G p)) l) d = Ok d' /\ wf d' /\ mx_m d' = mx_m d /\ mx_n d' = mx_n d /\
    (forall p, In p l -> nth_error (mx_cells d') (Z.to_nat (pos (mx_n d) (fst p) (snd p))) = Some (Some (G p))) /\
    (forall x, ~ touched (mx_n d) l x -> nth_error (mx_cells d') x = nth_error (mx_cells d) x).
Proof.
  induction l as [|p l IH]; intros d W F.
  - exists d. split; [reflexivity|]. repeat split; try apply W; intros; auto. contradiction.
  - inversion F as [|? ? U F']; subst. destruct p as [i j]. cbn [map]. unfold writes. cbn [fold_res fst snd].
    pose proof (write_ok d i j (G (i, j)) W U) as Ew. rewrite Ew. cbn [bind].
    destruct (write_wf _ _ _ _ _ W Ew) as (W' & Em & En).
    set (d1 := mk_matrix _ _ _) in *. cbn [mx_m mx_n] in Em, En.
    destruct (IH d1 W') as (d' & E' & W'' & Em' & En' & H1 & H2); [exact F'|].
    exists d'. split; [exact E'|]. split; [exact W''|]. split; [rewrite Em'; reflexivity|]. split; [rewrite En'; reflexivity|].
    pose proof (pos_range _ _ _ _ U ltac:(unfold wf in W; lia)) as R. destruct W as (W1 & W2 & W3).
    split.
    + intros p [<-|Hp]; [|apply H1; exact Hp]. cbn [fst snd].
      destruct (in_dec (fun a b : Z * Z => ltac:(decide equality; apply Z.eq_dec)) (i, j) l) as [Hin|Hout]; [apply (H1 _ Hin)|].
      rewrite H2.
      * cbn [mx_cells d1]. rewrite nth_upd, Nat.eqb_refl. replace (_ <? _)%nat with true by (symmetry; apply Nat.ltb_lt; lia). reflexivity.
      * intros ([i' j'] & Hp & E). apply Hout. rewrite Forall_forall in F'. pose proof (F' _ Hp) as U'.
        cbn [mx_n d1 fst snd] in E. pose proof (pos_range _ _ _ _ U' ltac:(lia)).
        apply Z2Nat.inj in E; [|lia|lia]. apply pos_inj in E; unfold upper in *; cbn [fst snd] in *; try lia.
        destruct E as [-> ->]. exact Hp.
    + intros x Hx. rewrite H2.
      * cbn [mx_cells d1]. rewrite nth_upd. destruct (Nat.eqb x _) eqn:C; [|reflexivity]. apply Nat.eqb_eq in C.
        exfalso. apply Hx. exists (i, j). split; [left; reflexivity | cbn; symmetry; exact C].
      * intros (p & Hp & E). apply Hx. exists p. split; [right; exact Hp | exact E].
Qed.
Lemma touched_dec n l x : touched n l x \/ ~ touched n l x.
Proof.
  induction l as [|p l IH]; [right; intros (p & [] & _)|]. destruct (Nat.eq_dec (Z.to_nat (pos n (fst p) (snd p))) x) as [E|E].
  - left. exists p. split; [left; reflexivity | exact E].
  - destruct IH as [(p' & H & E')|H]; [left; exists p'; split; [right; exact H | exact E']|]. right. intros (p' & [->|Hp] & E'); [contradiction|].
    apply H. exists p'. auto.
Qed.
Lemma nth_error_ext {A} (a b : list A) : (forall x, nth_error a x = nth_error b x) -> a = b.
Proof.
  revert b; induction a as [|x a IH]; intros [|y b] H; auto.
  - discriminate (H O). - discriminate (H O).
  - pose proof (H O) as H0. injection H0 as ->. f_equal. apply IH. intros k. exact (H (S k)).
Qed.
Lemma writes_same {D} (G : Z * Z -> D) l1 l2 d : wf d -> Forall (upper (mx_m d) (mx_n d)) l1 -> (forall p, In p l1 <-> In p l2) ->
  writes (map (fun p => (p, G p)) l1) d = writes (map (fun p => (p, G p)) l2) d.
Proof.
  intros W F1 H. assert (F2 : Forall (upper (mx_m d) (mx_n d)) l2).
  { rewrite Forall_forall in *. intros p Hp. apply F1, H, Hp. }
  destruct (writes_ok G l1 d W F1) as ([m1 n1 c1] & E1 & _ & A1 & A2 & A3 & A4).
  destruct (writes_ok G l2 d W F2) as ([m2 n2 c2] & E2 & _ & B1 & B2 & B3 & B4). cbn [mx_m mx_n mx_cells] in *. rewrite E1, E2. subst.
  do 2 f_equal. apply nth_error_ext. intros x. destruct (touched_dec (mx_n d) l1 x) as [(p & Hp & E)|C].
  - subst x. rewrite A3, B3; [reflexivity | apply H; exact Hp | exact Hp].
  - rewrite A4, B4; auto. intros (p & Hp & E). apply C. exists p. split; [apply H; exact Hp | exact E].
Qed.

(** sr_threads_compare *)
Lemma compare_writes {T D dtype} (ttype : T -> nat) (cmp : dtype -> T -> T -> D) threads x m n dt :
  0 < m -> 1 < n <= max_n -> n <= Z.of_nat (length threads) ->
  (forall a b, In a (firstn (Z.to_nat n) threads) -> In b (firstn (Z.to_nat n) threads) -> ttype a = ttype b) ->
  exists d0, distances_new D m n = Ok d0 /\ wf d0 /\ mx_m d0 = Z.min m (n - 1) /\ mx_n d0 = n /\
    threads_compare ttype cmp threads m n dt =
    writes (map (fun p => (p, pairval (cmp dt) threads x p)) (loop_pairs (Z.min m (n - 1)) n)) d0.
Proof.
  intros Hm Hn Hl Hty. destruct (new_ok D m n Hm Hn) as (d0 & E & W & Em & En & _).
  exists d0. do 4 (split; [assumption|]). unfold threads_compare. rewrite E. cbn [bind]. replace (n <=? 0) with false by lia.
  rewrite (load_ok _ x) by lia. cbn [bind].
  assert (HT : fold_res (fun prev i => do y <- load threads i; do _ <- assertb (Nat.eqb prev (ttype y)); Ok (ttype y)) (zrange 0 n) (ttype (nth (Z.to_nat 0) threads x)) = Ok (ttype (nth (Z.to_nat 0) threads x))).
  { assert (G : forall l t, Forall (fun i => 0 <= i < n) l -> (forall y, In y (firstn (Z.to_nat n) threads) -> ttype y = t) ->
      fold_res (fun prev i => do y <- load threads i; do _ <- assertb (Nat.eqb prev (ttype y)); Ok (ttype y)) l t = Ok t).
    { induction l as [|i l IH]; intros t F H; [reflexivity|]. pose proof (Forall_inv F) as Hi0; pose proof (Forall_inv_tail F) as F0; cbn beta in Hi0. clear F. cbn [fold_res].
      rewrite (load_ok _ x) by lia. cbn [bind]. rewrite H, Nat.eqb_refl; [cbn; apply IH; auto|].
      rewrite <- (firstn_skipn (Z.to_nat n) threads) at 1. rewrite app_nth1 by (rewrite firstn_length; lia).
      apply nth_In. rewrite firstn_length; lia. }
    apply G; [apply Forall_forall; intros i Hi; apply zrange_in in Hi; exact Hi|].
    intros y Hy. apply Hty; [exact Hy|].
    rewrite <- (firstn_skipn (Z.to_nat n) threads) at 1. rewrite app_nth1 by (rewrite firstn_length; lia).
    apply nth_In. rewrite firstn_length; lia. }
  rewrite HT. cbn [bind]. rewrite loop_pairs_min by lia.
  assert (F : Forall (upper (Z.min m (n - 1)) n) (loop_pairs (Z.min m (n - 1)) n)).
  { apply Forall_forall. intros p Hp. apply (proj2 (loop_pairs_all _ _)). exact Hp. }
  clear HT E Hty. unfold writes. revert d0 W Em En. induction F as [|[i j] l U F IH]; intros d0 W Em En; [reflexivity|].
  cbn [map fold_res fst snd]. unfold upper in U; cbn [fst snd] in U. rewrite !(load_ok _ x) by lia. cbn [bind].
  change (cmp dt (nth (Z.to_nat i) threads x) (nth (Z.to_nat j) threads x)) with (pairval (cmp dt) threads x (i, j)).
  destruct (write_cell d0 i j (pairval (cmp dt) threads x (i, j))) as [d1| |] eqn:Ew; [|reflexivity|reflexivity].
  cbn [bind]. destruct (write_wf _ _ _ _ _ W Ew) as (W' & Em' & En'). apply IH; [exact W' | congruence | congruence].
Qed.
Lemma compare_ok {T D dtype} (ttype : T -> nat) (cmp : dtype -> T -> T -> D) threads x m n dt :
  0 < m -> 1 < n <= max_n -> n <= Z.of_nat (length threads) ->
  (forall a b, In a (firstn (Z.to_nat n) threads) -> In b (firstn (Z.to_nat n) threads) -> ttype a = ttype b) ->
  exists d, threads_compare ttype cmp threads m n dt = Ok d /\ wf d /\ mx_m d = Z.min m (n - 1) /\ mx_n d = n /\
    forall z i j, in_range (Z.min m (n - 1)) n i j ->
      get_distance z d i j = Ok (cmp dt (nth (Z.to_nat (Z.min i j)) threads x) (nth (Z.to_nat (Z.max i j)) threads x)).
Proof.
  intros Hm Hn Hl Hty. destruct (compare_writes ttype cmp threads x m n dt Hm Hn Hl Hty) as (d0 & _ & W & Em & En & Ec).
  assert (F : Forall (upper (mx_m d0) (mx_n d0)) (loop_pairs (Z.min m (n - 1)) n)).
  { rewrite Em, En. apply Forall_forall. intros p Hp. apply (proj2 (loop_pairs_all _ _)). exact Hp. }
  destruct (writes_ok (pairval (cmp dt) threads x) _ d0 W F) as (d' & E' & W' & Em' & En' & H1 & _).
  exists d'. split; [rewrite Ec; exact E'|]. split; [exact W'|]. split; [congruence|]. split; [congruence|].
  intros z i j R. rewrite get_eq; [|exact W' | rewrite Em', En', Em, En; exact R]. rewrite En'.
  pose proof (H1 (Z.min i j, Z.max i j)) as H2. cbn [fst snd] in H2. rewrite H2; [reflexivity|]. apply (proj2 (loop_pairs_all _ _)). apply in_range_upper. exact R.
Qed.

(** sr_distances_part_merge of computed parts *)
Lemma hd_walk n k p c : walk n k p = c -> c <> [] -> hd_error c = Some p.
Proof. destruct k; intros <- H; [contradiction | reflexivity]. Qed.
Lemma chunks_walk n chunks : forall k p, concat chunks = walk n k p ->
  Forall (fun c => forall p', hd_error c = Some p' -> c = walk n (length c) p') chunks.
Proof.
  induction chunks as [|c cs IH]; intros k p E; [constructor|]. cbn [concat] in E.
  assert (Hk : (length c <= k)%nat). { apply (f_equal (@List.length _)) in E. rewrite app_length, walk_length in E. lia. }
  replace k with (length c + (k - length c))%nat in E by lia. rewrite walk_add in E.
  assert (Ec : c = walk n (length c) p /\ concat cs = walk n (k - length c) (nexts n (length c) p)).
  { apply app_inv_head_iff with (l := []) in E. cbn in E.
    pose proof (f_equal (firstn (length c)) E) as E1. rewrite firstn_app, Nat.sub_diag, firstn_all in E1. cbn in E1. rewrite app_nil_r in E1.
    rewrite firstn_app, walk_length, Nat.sub_diag in E1. cbn [firstn] in E1. rewrite app_nil_r in E1.
    rewrite (firstn_all2 (walk n (length c) p)) in E1 by (rewrite walk_length; lia). split; [exact E1|].
    rewrite <- E1 in E. apply app_inv_head in E. exact E. }
  destruct Ec as [E1 E2]. constructor; [|eapply IH; exact E2].
  intros p' Hp. destruct c as [|a c]; [discriminate|]. rewrite E1 in Hp. cbn in Hp. injection Hp as <-. exact E1.
Qed.
Definition computed_of {T D dtype} (cmp : dtype -> T -> T -> D) (ck : Z) (threads : list T) (x : T) (p : part D dtype) (c : list (Z * Z)) : part D dtype :=
  mk_part (pt_m p) (pt_n p) (pt_m_begin p) (pt_n_begin p) (pt_len p) (pt_type p) ck (Some (map (pairval (cmp (pt_type p)) threads x) c)).
Lemma part_compute_ok {T D dtype} (cmp : dtype -> T -> T -> D) fc cksum threads x m n dt p c : n <= Z.of_nat (length threads) ->
  covers m n dt p c -> Forall (upper m n) c -> (forall p', hd_error c = Some p' -> c = walk n (length c) p') ->
  part_compute cmp fc cksum threads p = Ok (computed_of cmp (cksum (map fc (firstn (Z.to_nat n) threads))) threads x p c).
Proof.
  intros Hn [Ep Hd] F Hw. pose proof (Hw _ Hd) as Ec. unfold part_compute.
  assert (E1 : pt_m p = m) by (rewrite Ep; reflexivity). assert (E2 : pt_n p = n) by (rewrite Ep; reflexivity).
  assert (E3 : pt_len p = Z.of_nat (length c)) by (rewrite Ep at 1; reflexivity).
  rewrite E1, E2, E3, Nat2Z.id. rewrite (compute_ok _ _ _ _ x); [|exact Hn|rewrite <- Ec; exact F]. rewrite <- Ec. cbn [bind].
  destruct (_ <? _)%nat eqn:C; [apply Nat.ltb_lt in C; lia|]. unfold computed_of. rewrite E1, E2, E3. reflexivity.
Qed.
Lemma fold_res_ext_in {A B} (f g : A -> B -> res A) l : (forall b, In b l -> forall a, f a b = g a b) -> forall a, fold_res f l a = fold_res g l a.
Proof. induction l as [|b l IH]; intros H a; [reflexivity|]. cbn. rewrite H by (left; reflexivity). destruct (g a b); cbn; auto. apply IH. intros; apply H; right; assumption. Qed.
Lemma combine_map_r {A B} (f : A -> B) l : combine l (map f l) = map (fun p => (p, f p)) l.
Proof. induction l; cbn; congruence. Qed.
Lemma merge_writes {T D dtype} (cmp : dtype -> T -> T -> D) threads x m n dt (first : part D dtype) ck
    (pcs : list (part D dtype * list (Z * Z))) : pt_m first = m -> pt_n first = n -> pt_checksum first = ck ->
  Forall (fun pc => covers m n dt (fst pc) (snd pc) /\ Forall (upper m n) (snd pc) /\
            (forall p', hd_error (snd pc) = Some p' -> snd pc = walk n (length (snd pc)) p')) pcs ->
  forall d,
  fold_res (fun d it =>
      match pt_distances it with
      | None => Fail
      | Some vals =>
        if negb (pt_m it =? pt_m first) || negb (pt_n it =? pt_n first) ||
           negb (pt_checksum it =? pt_checksum first) then Fail
        else merge_loop (pt_m it) (pt_n it) vals 0 (Z.to_nat (pt_len it)) (pt_m_begin it, pt_n_begin it) d
      end) (map (fun pc => computed_of cmp ck threads x (fst pc) (snd pc)) pcs) d
  = writes (map (fun p => (p, pairval (cmp dt) threads x p)) (concat (map snd pcs))) d.
Proof.
  intros E1 E2 E3 F. induction F as [|[p c] pcs ([Ep Hd] & Hu & Hw) F IH]; intros d; [reflexivity|].
  cbn [map concat fst snd] in *. rewrite map_app. unfold writes. rewrite fold_res_app. cbn [fold_res].
  set (it := computed_of cmp ck threads x p c).
  assert (M1 : pt_m it = m) by (cbn; rewrite Ep; reflexivity). assert (M2 : pt_n it = n) by (cbn; rewrite Ep; reflexivity).
  assert (M3 : pt_len it = Z.of_nat (length c)) by (cbn; rewrite Ep at 1; reflexivity).
  assert (M4 : pt_type p = dt) by (rewrite Ep; reflexivity).
  change (pt_distances it) with (Some (map (pairval (cmp (pt_type p)) threads x) c)). cbv iota.
  change (pt_checksum it) with ck. rewrite M1, M2, M3, E1, E2, E3, !Z.eqb_refl, M4. cbn [negb orb]. rewrite Nat2Z.id.
  change (pt_m_begin it, pt_n_begin it) with (pt_m_begin p, pt_n_begin p).
  pose proof (Hw _ Hd) as Ec. rewrite merge_loop_writes; [|rewrite map_length; reflexivity | rewrite <- Ec; exact Hu].
  rewrite <- Ec. cbn [skipn]. rewrite combine_map_r.
  change (writes (map (fun p0 => (p0, pairval (cmp dt) threads x p0)) c) d) with
    (fold_res (fun d pv => write_cell d (fst (fst pv)) (snd (fst pv)) (snd pv)) (map (fun p0 => (p0, pairval (cmp dt) threads x p0)) c) d).
  destruct (fold_res _ (map _ c) d) as [d1| |]; [|reflexivity|reflexivity]. cbn [bind]. rewrite E1, E2, E3 in IH. apply IH.
Qed.
Lemma F2_impl {A B} (P Q : A -> B -> Prop) : (forall a b, P a b -> Q a b) -> forall la lb, Forall2 P la lb -> Forall2 Q la lb.
Proof. induction 2; constructor; auto. Qed.
Lemma Forall2_combine {A B} (P : A -> B -> Prop) la lb : Forall2 P la lb -> Forall (fun ab => P (fst ab) (snd ab)) (combine la lb).
Proof. induction 1; cbn; constructor; auto. Qed.
Lemma parts_merge_ok {T D dtype} (ttype : T -> nat) (cmp : dtype -> T -> T -> D) fc cksum threads m n dt nparts :
  0 < m -> 1 < n <= max_n -> 0 < nparts -> n <= Z.of_nat (length threads) ->
  (forall a b, In a (firstn (Z.to_nat n) threads) -> In b (firstn (Z.to_nat n) threads) -> ttype a = ttype b) ->
  exists ps cs, part_create D m n dt nparts = Ok ps /\
    Forall2 (fun p c => part_compute cmp fc cksum threads p = Ok c) ps cs /\
    forall cs', Permutation cs cs' -> part_merge cs' = threads_compare ttype cmp threads m n dt.
Proof.
  intros Hm Hn Hp Hl Hty. destruct threads as [|x threads0] eqn:Et; [cbn in Hl; lia|]. rewrite <- Et in *. clear Et threads0.
  destruct (part_create_ok D m n dt nparts Hm Hn Hp) as (ps & chunks & Ec & Hc & Hcov & Hlen).
  set (m' := Z.min m (n - 1)) in *. assert (Hm' : 0 < m' < n) by (unfold m'; lia).
  assert (Hwalk : Forall (fun c => forall p', hd_error c = Some p' -> c = walk n (length c) p') chunks).
  { apply (chunks_walk n chunks (length (rows 0 m' n)) (0, 1)). rewrite Hc. symmetry. apply (rows_walk m' n ltac:(lia) 0). lia. }
  assert (Hup : Forall (Forall (upper m' n)) chunks).
  { apply Forall_forall. intros c Hin. apply Forall_forall. intros p Hp'. apply (proj2 (loop_pairs_all m' n)).
    change (rows 0 m' n) with (loop_pairs m' n) in *. rewrite <- Hc. apply in_concat. eauto. }
  set (ck := cksum (map fc (firstn (Z.to_nat n) threads))).
  set (pcs := combine ps chunks).
  assert (Hps : map fst pcs = ps /\ map snd pcs = chunks).
  { unfold pcs. clear -Hcov. induction Hcov as [|p c ps cs H F [IH1 IH2]]; cbn; [auto|]. rewrite IH1, IH2. auto. }
  assert (Hall : Forall (fun pc => covers m' n dt (fst pc) (snd pc) /\ Forall (upper m' n) (snd pc) /\
            (forall p', hd_error (snd pc) = Some p' -> snd pc = walk n (length (snd pc)) p')) pcs).
  { pose proof (Forall2_combine _ _ _ Hcov) as HC. fold pcs in HC. rewrite Forall_forall in *. intros pc Hpc.
    assert (In (snd pc) chunks) by (rewrite <- (proj2 Hps); apply in_map; exact Hpc). auto. }
  set (comp := fun pc : part D dtype * list (Z * Z) => computed_of cmp ck threads x (fst pc) (snd pc)).
  exists ps, (map comp pcs). split; [exact Ec|]. split.
  - rewrite <- (proj1 Hps) at 1. clear -Hall Hl. induction pcs as [|pc pcs IH]; cbn [map]; [constructor|].
    inversion Hall as [|? ? (H1 & H2 & H3) HF]; subst. constructor; [|apply IH; exact HF].
    apply (part_compute_ok cmp fc cksum threads x m' n dt); assumption.
  - intros cs' HP. apply Permutation_sym in HP. apply Permutation_map_inv in HP as (pcs' & -> & HP').
    assert (Hall' : Forall (fun pc => covers m' n dt (fst pc) (snd pc) /\ Forall (upper m' n) (snd pc) /\
            (forall p', hd_error (snd pc) = Some p' -> snd pc = walk n (length (snd pc)) p')) pcs').
    { eapply Permutation_Forall; [|exact Hall]. exact HP'. }
    assert (Hsame : forall p, In p (concat (map snd pcs')) <-> In p (loop_pairs m' n)).
    { intros p. rewrite <- Hc. rewrite <- (proj2 Hps). rewrite !in_concat. split; intros (l & H1 & H2); exists l; (split; [|exact H2]);
        [eapply Permutation_in; [apply Permutation_map, Permutation_sym, HP' | exact H1] | eapply Permutation_in; [apply Permutation_map, HP' | exact H1]]. }
    destruct pcs' as [|[p0 c0] pcs'].
    { exfalso. destruct (proj2 (Hsame (0, 1))) as []. apply (proj2 (loop_pairs_all m' n)). unfold upper; cbn; lia. }
    cbn [map]. unfold part_merge.
    inversion Hall' as [|? ? ([Ep _] & _ & _) _]; subst. cbn [fst snd] in Ep.
    assert (F1 : pt_m (comp (p0, c0)) = m') by (cbn; rewrite Ep; reflexivity).
    assert (F2 : pt_n (comp (p0, c0)) = n) by (cbn; rewrite Ep; reflexivity).
    destruct (compare_writes ttype cmp threads x m n dt Hm Hn Hl Hty) as (d0 & En & W & Em0 & En0 & ->).
    assert (End : distances_new D (pt_m (comp (p0, c0))) (pt_n (comp (p0, c0))) = Ok d0).
    { rewrite F1, F2. rewrite <- En. unfold distances_new. rewrite (clip_m m n Hm Hn), (clip_m m' n ltac:(lia) Hn). fold m'.
      replace (Z.min m' (n - 1)) with m' by (unfold m'; lia). reflexivity. }
    rewrite End. cbn [bind].
    change (comp (p0, c0) :: map comp pcs') with (map comp ((p0, c0) :: pcs')).
    unfold comp at 2. rewrite (merge_writes cmp threads x m' n dt (comp (p0, c0)) ck ((p0, c0) :: pcs') F1 F2 eq_refl Hall').
    apply writes_same; [exact W | | exact Hsame]. rewrite Em0, En0. fold m'.
    apply Forall_forall. intros p Hin. apply Hsame in Hin. apply (proj2 (loop_pairs_all m' n)). exact Hin.
Qed.
(** A merge that succeeds has checked every part. *)
Lemma merge_checks {D dtype} (p0 : part D dtype) ps d : part_merge (p0 :: ps) = Ok d ->
  Forall (fun p => pt_m p = pt_m p0 /\ pt_n p = pt_n p0 /\ pt_checksum p = pt_checksum p0 /\ pt_distances p <> None) (p0 :: ps).
Proof.
  unfold part_merge. destruct (distances_new D (pt_m p0) (pt_n p0)) as [d0| |]; [|discriminate|discriminate]. cbn [bind].
  generalize (p0 :: ps) at 1 2. intros l. revert d0. induction l as [|p l IH]; intros d0; [constructor|]. cbn [fold_res].
  destruct (pt_distances p) as [vals|] eqn:E; [|discriminate].
  destruct (_ || _) eqn:C; [discriminate|].
  destruct (merge_loop _ _ _ _ _ _ _) as [d1| |]; [|discriminate|discriminate]. cbn [bind]. intros H. constructor; [|eapply IH; exact H].
  rewrite !orb_false_iff, !negb_false_iff, !Z.eqb_eq in C. rewrite E. intuition discriminate.
Qed.

(** ** A history of assignments *)
Lemma last_set_snoc {D} (h : list (Z * Z * D)) a b v i j : last_set (h ++ [(a, b, v)]) i j = if same_pairb i j a b then Some v else last_set h i j.
Proof.
  induction h as [|[[a' b'] v'] h IH]; cbn.
  - destruct (same_pairb i j a b); reflexivity.
  - rewrite IH. destruct (same_pairb i j a b); reflexivity.
Qed.
Lemma same_pairb_iff i j a b : same_pairb i j a b = true <-> same_pair a b i j.
Proof. unfold same_pairb, same_pair. lia. Qed.
Lemma history_ok {D} m n (hist : list (Z * Z * D)) : 0 < m -> 1 < n <= max_n ->
  Forall (fun s => in_range (Z.min m (n - 1)) n (fst (fst s)) (snd (fst s))) hist ->
  exists d0 d, distances_new D m n = Ok d0 /\
    fold_res (fun d s => set_distance d (fst (fst s)) (snd (fst s)) (snd s)) hist d0 = Ok d /\ wf d /\
    mx_m d = Z.min m (n - 1) /\ mx_n d = n /\
    forall z i j, i <> j -> get_distance z d i j = match last_set hist i j with Some v => Ok v | None => UB end.
Proof.
  intros Hm Hn. destruct (new_ok D m n Hm Hn) as (d0 & E0 & W & Em & En & _).
  induction hist as [|[[a b] v] hist IH] using rev_ind; intros F.
  - exists d0, d0. do 5 (split; [assumption || reflexivity|]). intros z i j Hij. eapply new_unset; eauto.
  - apply Forall_app in F as [F1 F2]. apply Forall_inv in F2. cbn [fst snd] in F2.
    destruct (IH F1) as (d0' & d & E0' & E & W' & Em' & En' & H). rewrite E0 in E0'. injection E0' as <-.
    destruct (set_ok d a b v W' ltac:(rewrite Em', En'; exact F2)) as (d' & Es & W'' & Em'' & En'' & G1 & G2).
    exists d0, d'. split; [exact E0|]. split; [rewrite fold_res_app, E; cbn; rewrite Es; reflexivity|].
    split; [exact W''|]. split; [congruence|]. split; [congruence|]. intros z i j Hij. rewrite last_set_snoc.
    destruct (same_pairb i j a b) eqn:C.
    + apply same_pairb_iff in C. destruct C as [[-> ->]|[-> ->]]; [apply G1 | rewrite get_sym; apply G1].
    + rewrite G2; [apply H; exact Hij|]. rewrite <- same_pairb_iff. congruence.
Qed.
Lemma sizes_balanced e nparts : 0 < e -> 0 < nparts ->
  let s := part_sizes (Z.to_nat (Z.min nparts e)) (Z.to_nat (e mod nparts)) (Z.to_nat (e / nparts)) in
  Z.of_nat (length s) = Z.min nparts e /\
  (forall a b, In a s -> In b s -> (a <= S b)%nat) /\ (forall a, In a s -> (0 < a)%nat).
Proof.
  intros He Hp s. pose proof (Z_div_mod_eq_full e nparts) as E. pose proof (Z.mod_pos_bound e nparts Hp) as B.
  pose proof (Z.div_pos e nparts ltac:(lia) Hp) as Q.
  set (q := e / nparts) in *. set (r := e mod nparts) in *.
  assert (Hr : r <= Z.min nparts e) by nia.
  assert (Hs : forall a, In a s -> a = S (Z.to_nat q) \/ (a = Z.to_nat q /\ r < Z.min nparts e)).
  { intros a Ha. unfold s, part_sizes in Ha. apply in_app_iff in Ha as [Ha|Ha].
    - left. apply repeat_spec in Ha. exact Ha.
    - right. split; [apply repeat_spec in Ha; exact Ha|]. destruct (Z_le_dec (Z.min nparts e) r); [|lia].
      replace (_ - _)%nat with O in Ha by lia. destruct Ha. }
  split; [unfold s, part_sizes; rewrite app_length, !repeat_length; lia|]. split.
  - intros a b Ha Hb. apply Hs in Ha, Hb. lia.
  - intros a Ha. apply Hs in Ha as [->|[-> Hlt]]; [lia|]. assert (0 < q); [|lia].
    destruct (Z_le_dec nparts e); nia.
Qed.
Lemma increasing_nodup l : increasing l -> NoDup l.
Proof.
  induction 1 as [|p l Hp Hl IH]; constructor; [|exact IH]. intros Hin. rewrite Forall_forall in Hp.
  pose proof (Hp _ Hin) as H. unfold before in H. lia.
Qed.
Lemma pairs_once m n l : all_pairs m n l -> NoDup l /\ forall l', all_pairs m n l' -> l' = l.
Proof.
  intros [H1 H2]. split; [apply increasing_nodup; exact H1|]. intros l' [H3 H4].
  apply increasing_ext; [exact H3 | exact H1|]. intros p. rewrite H4, H2. tauto.
Qed.
Lemma part_create_zero D {dtype} m n (dt : dtype) : 0 < m -> 1 < n <= max_n -> part_create D m n dt 0 = UB.
Proof.
  intros Hm Hn. unfold part_create. rewrite clip_m by assumption. cbn [bind]. set (m' := Z.min m (n - 1)).
  assert (Hm' : 0 < m' < n) by (unfold m'; lia). rewrite assert_ok by lia. cbn [bind].
  assert (G : forall (r : res Z) (P : Z -> res (list (part D dtype))), (r = UB \/ exists v, r = Ok v) -> (forall v, P v = UB) -> (do x <- r; P x) = UB).
  { intros r P [->|[v ->]] HP; [reflexivity | apply HP]. }
  assert (GC : forall z, chk z = UB \/ exists v, chk z = Ok v) by (intros z; destruct (chk_cases z); eauto).
  assert (G2 : forall b (P : res (list (part D dtype))), P = UB -> (do _ <- assertb b; P) = UB) by (intros [] P; auto).
  apply G; [apply GC|]. intros v1. apply G2. apply G; [apply GC|]. intros v2. apply G; [apply GC|]. intros v3. reflexivity.
Qed.
