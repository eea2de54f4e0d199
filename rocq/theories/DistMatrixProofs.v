(** * Proofs about the distance matrix. *)
From Verif Require Import Base DistMatrixModel DistMatrixSpec.
Open Scope Z_scope.

Lemma chk_ok z : - int_max - 1 <= z <= int_max -> chk z = Ok z.
Proof. intros H. unfold chk. destruct (_ && _) eqn:E; [reflexivity|]. lia. Qed.
Lemma chk_inv z r : chk z = Ok r -> r = z /\ - int_max - 1 <= z <= int_max.
Proof. unfold chk. destruct (_ && _) eqn:E; [|discriminate]. intros H; injection H as <-. split; [reflexivity|lia]. Qed.
Lemma assert_ok b : b = true -> assertb b = Ok tt.
Proof. intros ->; reflexivity. Qed.

(** The largest supported number of columns. *)
Definition max_n : Z := 46340.
Lemma max_n_int n : 0 <= n -> n * n <= int_max <-> n <= max_n.
Proof. unfold max_n, int_max; nia. Qed.

Lemma tri_even k : (k * k - k) mod 2 = 0.
Proof.
  rewrite <- (Z.mul_1_r k) at 3. rewrite <- Z.mul_sub_distr_l.
  destruct (Z.Even_or_Odd k) as [[q E]|[q E]]; subst.
  - replace (2 * q * (2 * q - 1)) with (q * (2 * q - 1) * 2) by ring. apply Z_mod_mult.
  - replace ((2 * q + 1) * (2 * q + 1 - 1)) with ((2 * q + 1) * q * 2) by ring. apply Z_mod_mult.
Qed.
Definition pos (n i j : Z) : Z := ((n * n - n) - ((n - i) * (n - i) - (n - i))) / 2 + j - 1.
Lemma tri_half k : exists q, k * k - k = 2 * q.
Proof. exists ((k * k - k) / 2). rewrite (Z_div_mod_eq_full (k * k - k) 2) at 1. rewrite tri_even. lia. Qed.
Lemma pos_eq n i j : 2 * pos n i j = 2 * n * i - i * i - i + 2 * j - 2.
Proof.
  unfold pos. destruct (tri_half n) as [a Ha], (tri_half (n - i)) as [b Hb].
  rewrite Ha, Hb. replace (2 * a - 2 * b) with ((a - b) * 2) by ring. rewrite Z_div_mult by lia.
  replace (2 * ((a - b) + j - 1)) with (2 * a - 2 * b + 2 * j - 2) by ring. rewrite <- Ha, <- Hb. ring.
Qed.
Lemma position_ok m n i j : upper m n (i, j) -> n <= max_n -> position m n i j = Ok (pos n i j).
Proof.
  intros [H1 H2] Hn. cbn [fst snd] in *. unfold position.
  rewrite assert_ok by lia. cbn [bind].
  assert (Hnn := proj2 (max_n_int n ltac:(lia)) Hn).
  assert (0 <= (n - i) * (n - i) <= n * n) by nia.
  assert ((n - i) <= (n - i) * (n - i)) by nia.
  assert (0 <= (n * n - n) - ((n - i) * (n - i) - (n - i)) <= n * n - n) by nia.
  unfold int_max in *.
  rewrite chk_ok by (unfold int_max; lia). cbn [bind]. rewrite chk_ok by (unfold int_max; lia). cbn [bind].
  rewrite chk_ok by (unfold int_max; lia). cbn [bind]. rewrite chk_ok by (unfold int_max; lia). cbn [bind].
  rewrite chk_ok by (unfold int_max; lia). cbn [bind]. rewrite chk_ok by (unfold int_max; lia). cbn [bind].
  rewrite Z.quot_div_nonneg by lia.
  set (q := _ / 2). assert (0 <= q <= (n * n - n) / 2) by (split; [apply Z.div_pos; lia | apply Z.div_le_mono; lia]).
  assert ((n * n - n) / 2 <= (n * n - n)) by (apply Z.div_le_upper_bound; nia).
  assert (Hq : 2 * q <= n * n - n). { pose proof (Z.mul_div_le (n * n - n) 2 ltac:(lia)). lia. }
  rewrite chk_ok by (unfold int_max; nia). cbn [bind]. rewrite chk_ok by (unfold int_max; nia). reflexivity.
Qed.
Lemma position_UB m n i j : ~ upper m n (i, j) -> position m n i j = UB.
Proof.
  intros H. unfold position, assertb. destruct (_ && _) eqn:E; [|reflexivity].
  exfalso. apply H. unfold upper; cbn [fst snd]. lia.
Qed.
Lemma pos_inj n i j i' j' : 0 <= i < j -> j < n -> 0 <= i' < j' -> j' < n -> pos n i j = pos n i' j' -> i = i' /\ j = j'.
Proof.
  intros H1 H2 H3 H4 E. pose proof (pos_eq n i j) as E1. pose proof (pos_eq n i' j') as E2. rewrite E in E1.
  assert (i = i'); [|subst; lia].
  destruct (Z.lt_trichotomy i i') as [C|[C|C]]; [exfalso|assumption|exfalso]; nia.
Qed.
Lemma pos_range m n i j : upper m n (i, j) -> m < n -> 0 <= pos n i j <= pos n (m - 1) (n - 1).
Proof.
  intros [H1 H2] Hmn; cbn [fst snd] in *. pose proof (pos_eq n i j). pose proof (pos_eq n (m - 1) (n - 1)). nia.
Qed.

Definition wf {D} (d : matrix D) : Prop :=
  0 < mx_m d < mx_n d /\ mx_n d <= max_n /\
  Z.of_nat (length (mx_cells d)) = pos (mx_n d) (mx_m d - 1) (mx_n d - 1) + 1.

Lemma new_ok D m n : 0 < m -> 1 < n <= max_n ->
  exists d, distances_new D m n = Ok d /\ wf d /\ mx_m d = Z.min m (n - 1) /\ mx_n d = n /\
    Forall (fun c => c = None) (mx_cells d).
Proof.
  intros Hm [Hn Hmax]. unfold distances_new.
  assert (E : (if n <=? m then chk (n - 1) else Ok m) = Ok (Z.min m (n - 1))).
  { destruct (n <=? m) eqn:C; [rewrite chk_ok; [f_equal; lia | unfold int_max, max_n in *; lia] | f_equal; lia]. }
  rewrite E; cbn [bind]. set (m' := Z.min m (n - 1)). assert (0 < m' < n) by (unfold m'; lia).
  rewrite assert_ok by lia. cbn [bind].
  assert (U : upper m' n (m' - 1, n - 1)) by (split; cbn [fst snd]; lia).
  rewrite position_ok by assumption. cbn [bind]. eexists. split; [reflexivity|].
  pose proof (pos_range m' n _ _ U ltac:(lia)) as R.
  split; [|split; [reflexivity | split; [reflexivity|]]].
  - split; [cbn; lia|]. split; [cbn; lia|]. cbn [mx_cells mx_n mx_m]. rewrite repeat_length. lia.
  - cbn [mx_cells]. apply Forall_forall. intros c Hc. apply repeat_spec in Hc; exact Hc.
Qed.
Lemma chk_cases z : chk z = Ok z \/ chk z = UB.
Proof. unfold chk. destruct (_ && _); auto. Qed.
Lemma new_large D m n : max_n < n -> distances_new D m n = UB.
Proof.
  intros Hn. unfold distances_new.
  assert (E : (if n <=? m then chk (n - 1) else Ok m) = UB \/ exists m', (if n <=? m then chk (n - 1) else Ok m) = Ok m').
  { destruct (n <=? m); [destruct (chk_cases (n - 1)) as [-> | ->]|]; eauto. }
  destruct E as [-> | [m' ->]]; [reflexivity|]. cbn [bind]. unfold assertb at 1. destruct (_ && _) eqn:E; [|reflexivity]. cbn [bind].
  unfold position. rewrite assert_ok by lia. cbn [bind].
  destruct (chk_cases (n - (m' - 1))) as [-> | ->]; [|reflexivity]. cbn [bind].
  unfold chk at 1. destruct ((_ <=? n * n) && _) eqn:E3; [|reflexivity].
  unfold max_n, int_max in *. nia.
Qed.

Lemma upd_length {A} (l : list A) k v : length (upd l k v) = length l.
Proof. revert k; induction l; intros [|k]; simpl; auto. Qed.
Lemma nth_upd {A} (l : list A) k v k' : nth_error (upd l k v) k' =
  if Nat.eqb k' k && (k <? length l)%nat then Some v else nth_error l k'.
Proof.
  revert k k'; induction l as [|a l IH]; intros [|k] [|k']; simpl; auto.
  - rewrite Nat.eqb_sym. destruct (Nat.eqb _ _); reflexivity.
  - rewrite IH. reflexivity.
Qed.

Lemma write_ok {D} (d : matrix D) i j v : wf d -> upper (mx_m d) (mx_n d) (i, j) ->
  write_cell d i j v = Ok (mk_matrix (mx_m d) (mx_n d) (upd (mx_cells d) (Z.to_nat (pos (mx_n d) i j)) (Some v))).
Proof.
  intros (H1 & H2 & H3) U. unfold write_cell. rewrite position_ok by assumption. cbn [bind].
  pose proof (pos_range _ _ _ _ U ltac:(lia)). unfold store.
  replace ((0 <=? pos (mx_n d) i j) && (pos (mx_n d) i j <? Z.of_nat (length (mx_cells d)))) with true by lia. reflexivity.
Qed.
Lemma write_wf {D} (d d' : matrix D) i j v : wf d -> write_cell d i j v = Ok d' -> wf d' /\ mx_m d' = mx_m d /\ mx_n d' = mx_n d.
Proof.
  intros (H1 & H2 & H3) E. unfold write_cell in E. destruct (position _ _ _ _); try discriminate. cbn [bind] in E.
  unfold store in E. destruct (_ && _); [|discriminate]. injection E as <-. unfold wf; cbn. rewrite upd_length. auto.
Qed.
Lemma in_range_upper m n i j : in_range m n i j <-> upper m n (Z.min i j, Z.max i j).
Proof. unfold in_range, upper; cbn [fst snd]. lia. Qed.
Lemma swap_eq i j : (if j <? i then (j, i) else (i, j)) = (Z.min i j, Z.max i j).
Proof. destruct (j <? i) eqn:E; f_equal; lia. Qed.
Lemma get_eq {D} (z : D) d i j : wf d -> in_range (mx_m d) (mx_n d) i j ->
  get_distance z d i j = match nth_error (mx_cells d) (Z.to_nat (pos (mx_n d) (Z.min i j) (Z.max i j))) with
                         | Some (Some v) => Ok v | _ => UB end.
Proof.
  intros (H1 & H2 & H3) R. unfold get_distance. destruct (i =? j) eqn:E; [unfold in_range in R; lia|].
  rewrite swap_eq. pose proof (proj1 (in_range_upper _ _ _ _) R) as U. rewrite position_ok by assumption. cbn [bind].
  pose proof (pos_range _ _ _ _ U ltac:(lia)). unfold load. replace (0 <=? pos _ _ _) with true by lia.
  destruct (nth_error _ _) as [[v|]|]; reflexivity.
Qed.
Lemma get_out {D} (z : D) d i j : i <> j -> ~ in_range (mx_m d) (mx_n d) i j -> get_distance z d i j = UB.
Proof.
  intros Hij R. unfold get_distance. destruct (i =? j) eqn:E; [lia|]. rewrite swap_eq, position_UB; [reflexivity|].
  intros U. apply R. apply in_range_upper. exact U.
Qed.
Lemma set_out {D} (d : matrix D) i j v : i <> j -> ~ in_range (mx_m d) (mx_n d) i j -> set_distance d i j v = UB.
Proof.
  intros Hij R. unfold set_distance. destruct (i =? j) eqn:E; [lia|]. rewrite swap_eq. unfold write_cell.
  rewrite position_UB; [reflexivity|]. intros U. apply R. apply in_range_upper. exact U.
Qed.
Lemma set_ok {D} (d : matrix D) i j v : wf d -> in_range (mx_m d) (mx_n d) i j ->
  exists d', set_distance d i j v = Ok d' /\ wf d' /\ mx_m d' = mx_m d /\ mx_n d' = mx_n d /\
    (forall z, get_distance z d' i j = Ok v) /\
    (forall z i' j', ~ same_pair i j i' j' -> get_distance z d' i' j' = get_distance z d i' j').
Proof.
  intros W R. unfold set_distance. destruct (i =? j) eqn:E; [unfold in_range in R; lia|]. rewrite swap_eq.
  pose proof (proj1 (in_range_upper _ _ _ _) R) as U. pose proof (write_ok d _ _ v W U) as Ew.
  eexists. split; [exact Ew|]. destruct (write_wf _ _ _ _ _ W Ew) as (W' & Em & En).
  split; [exact W'|]. split; [exact Em|]. split; [exact En|].
  pose proof (pos_range _ _ _ _ U ltac:(unfold wf in W; lia)) as P. destruct W as (W1 & W2 & W3).
  split.
  - intros z. rewrite get_eq; [|exact W'|exact R]. cbn [mx_cells mx_n]. rewrite nth_upd, Nat.eqb_refl.
    replace (_ <? _)%nat with true; [reflexivity|]. symmetry. apply Nat.ltb_lt. lia.
  - intros z i' j' Hne. destruct (Z.eq_dec i' j') as [->|Hij]; [unfold get_distance; rewrite Z.eqb_refl; reflexivity|].
    destruct (Z_lt_dec (Z.min i' j') 0); [rewrite !get_out; auto; unfold in_range; cbn; lia|].
    destruct (Z_le_dec (mx_m d) (Z.min i' j')); [rewrite !get_out; auto; unfold in_range; cbn; lia|].
    destruct (Z_le_dec (mx_n d) (Z.max i' j')); [rewrite !get_out; auto; unfold in_range; cbn; lia|].
    assert (R' : in_range (mx_m d) (mx_n d) i' j') by (unfold in_range; lia).
    rewrite !get_eq; [|repeat split; assumption || lia|exact R'|exact W'|exact R']. cbn [mx_cells mx_n].
    rewrite nth_upd. replace (Nat.eqb _ _) with false; [reflexivity|]. symmetry. apply Nat.eqb_neq. intros C.
    pose proof (proj1 (in_range_upper _ _ _ _) R') as U'. pose proof (pos_range _ _ _ _ U' ltac:(lia)).
    apply Z2Nat.inj in C; [|lia|lia]. apply pos_inj in C; unfold upper in *; cbn [fst snd] in *; try lia.
    apply Hne. unfold same_pair. lia.
Qed.
Lemma get_sym {D} (z : D) d i j : get_distance z d i j = get_distance z d j i.
Proof.
  unfold get_distance. rewrite Z.eqb_sym, !swap_eq, (Z.min_comm j i), (Z.max_comm j i). reflexivity.
Qed.
Lemma get_diag {D} (z : D) d i : get_distance z d i i = Ok z.
Proof. unfold get_distance. rewrite Z.eqb_refl; reflexivity. Qed.
Lemma set_sym {D} (d : matrix D) i j v : set_distance d i j v = set_distance d j i v.
Proof. unfold set_distance. rewrite Z.eqb_sym, !swap_eq, (Z.min_comm j i), (Z.max_comm j i). reflexivity. Qed.
Lemma set_diag {D} (d : matrix D) i v : set_distance d i i v = Ok d.
Proof. unfold set_distance. rewrite Z.eqb_refl; reflexivity. Qed.
Lemma new_unset D m n d z i j : 0 < m -> 1 < n <= max_n -> distances_new D m n = Ok d -> i <> j -> get_distance z d i j = UB.
Proof.
  intros Hm Hn E Hij. destruct (new_ok D m n Hm Hn) as (d' & E' & W & _ & _ & F). rewrite E in E'. injection E' as <-.
  destruct (Z_lt_dec (Z.min i j) 0); [apply get_out; auto; unfold in_range; lia|].
  destruct (Z_le_dec (mx_m d) (Z.min i j)); [apply get_out; auto; unfold in_range; lia|].
  destruct (Z_le_dec (mx_n d) (Z.max i j)); [apply get_out; auto; unfold in_range; lia|].
  rewrite get_eq; [|exact W|unfold in_range; lia]. destruct (nth_error _ _) as [c|] eqn:En; [|reflexivity].
  apply nth_error_In in En. rewrite Forall_forall in F. rewrite (F c En). reflexivity.
Qed.
Lemma dup_eq {D} (d : matrix D) : wf d -> distances_dup d = Ok d.
Proof.
  intros (W1 & W2 & W3). unfold distances_dup.
  destruct (new_ok D (mx_m d) (mx_n d) ltac:(lia) ltac:(lia)) as (d' & -> & (V1 & V2 & V3) & Em & En & _). cbn [bind].
  assert (U : upper (mx_m d) (mx_n d) (mx_m d - 1, mx_n d - 1)) by (split; cbn [fst snd]; lia).
  rewrite position_ok by assumption. cbn [bind].
  rewrite Z.min_l in Em by lia. rewrite Em, En in V3.
  replace (Z.to_nat (pos (mx_n d) (mx_m d - 1) (mx_n d - 1) + 1)) with (length (mx_cells d)) by lia.
  replace (length (mx_cells d')) with (length (mx_cells d)) by lia. rewrite Nat.leb_refl. cbn [andb].
  rewrite firstn_all, (skipn_all2 (mx_cells d')) by lia. rewrite app_nil_r, Em, En. destruct d; reflexivity.
Qed.

(** ** Pairs *)
Lemma zrange_empty a b : b <= a -> zrange a b = [].
Proof. intros H. unfold zrange. replace (Z.to_nat (b - a)) with O by lia. reflexivity. Qed.
Lemma zrange_cons a b : a < b -> zrange a b = a :: zrange (a + 1) b.
Proof.
  intros H. unfold zrange. replace (Z.to_nat (b - a)) with (S (Z.to_nat (b - (a + 1)))) by lia. cbn [seq map].
  f_equal; [lia|]. rewrite <- seq_shift, map_map. apply map_ext. intros; lia.
Qed.
Lemma zrange_in a b x : In x (zrange a b) <-> a <= x < b.
Proof.
  unfold zrange. rewrite in_map_iff. split.
  - intros (k & <- & Hk). apply in_seq in Hk. lia.
  - intros H. exists (Z.to_nat (x - a)). split; [lia|]. apply in_seq. lia.
Qed.
Lemma zrange_length a b : length (zrange a b) = Z.to_nat (b - a).
Proof. unfold zrange. rewrite map_length, seq_length. reflexivity. Qed.
Definition rows (a m n : Z) : list (Z * Z) := flat_map (fun i => map (fun j => (i, j)) (zrange (i + 1) n)) (zrange a m).
Lemma rows_in a m n p : 0 <= a -> In p (rows a m n) <-> upper m n p /\ a <= fst p.
Proof.
  intros Ha. unfold rows, upper. rewrite in_flat_map. destruct p as [x y]; cbn [fst snd]. split.
  - intros (i & Hi & Hp). apply zrange_in in Hi. apply in_map_iff in Hp as (j & E & Hj). injection E as <- <-.
    apply zrange_in in Hj. lia.
  - intros H. exists x. split; [apply zrange_in; lia|]. apply in_map_iff. exists y. split; [reflexivity|]. apply zrange_in; lia.
Qed.
Lemma increasing_app a b : increasing a -> increasing b -> (forall x y, In x a -> In y b -> before x y) -> increasing (a ++ b).
Proof.
  induction 1 as [|p l Hp Hl IH]; intros Hb H; [exact Hb|]. cbn. constructor.
  - apply Forall_app. split; [exact Hp|]. apply Forall_forall. intros y Hy. apply H; [left; reflexivity | exact Hy].
  - apply IH; [exact Hb|]. intros; apply H; [right|]; assumption.
Qed.
Lemma row_increasing i a n : increasing (map (fun j => (i, j)) (zrange a n)).
Proof.
  destruct (Z_le_dec n a); [rewrite zrange_empty by lia; constructor|].
  remember (Z.to_nat (n - a)) as k eqn:E. revert a E n0. induction k; intros a E n0; [lia|].
  rewrite zrange_cons by lia. cbn [map]. constructor.
  - apply Forall_forall. intros p Hp. apply in_map_iff in Hp as (j & <- & Hj). apply zrange_in in Hj. right; cbn; lia.
  - destruct (Z_le_dec n (a + 1)); [rewrite zrange_empty by lia; constructor|]. apply IHk; lia.
Qed.
Lemma rows_step a m n : a < m -> rows a m n = map (fun j => (a, j)) (zrange (a + 1) n) ++ rows (a + 1) m n.
Proof. intros H. unfold rows. rewrite zrange_cons by lia. reflexivity. Qed.
Lemma rows_end a m n : m <= a -> rows a m n = [].
Proof. intros H. unfold rows. rewrite zrange_empty by lia. reflexivity. Qed.
Lemma rows_ind (P : Z -> Prop) m : (forall a, m <= a -> P a) -> (forall a, 0 <= a < m -> P (a + 1) -> P a) -> forall a, 0 <= a -> P a.
Proof.
  intros H0 HS a Ha. destruct (Z_le_dec m a); [auto|]. remember (Z.to_nat (m - a)) as k eqn:E. revert a E Ha n.
  induction k; intros a E Ha n; [lia|]. apply HS; [lia|]. destruct (Z_le_dec m (a + 1)); [auto|]. apply IHk; lia.
Qed.
Lemma rows_increasing m n : forall a, 0 <= a -> increasing (rows a m n).
Proof.
  apply rows_ind with (m := m); intros a Ha; [rewrite rows_end by lia; constructor|]. intros IH.
  rewrite rows_step by lia. apply increasing_app; [apply row_increasing | exact IH |].
  intros x y Hx Hy. apply in_map_iff in Hx as (j & <- & Hj). apply rows_in in Hy; [|lia]. left; cbn; lia.
Qed.
Lemma loop_pairs_all m n : all_pairs m n (loop_pairs m n).
Proof.
  split; [apply (rows_increasing m n 0); lia|]. intros p. change (In p (rows 0 m n) <-> upper m n p).
  rewrite rows_in by lia. unfold upper. intuition lia.
Qed.
Lemma increasing_ext a : forall b, increasing a -> increasing b -> (forall p, In p a <-> In p b) -> a = b.
Proof.
  assert (irr : forall p, ~ before p p) by (unfold before; intros p; lia).
  assert (asym : forall p q, before p q -> before q p -> False) by (unfold before; intros; lia).
  induction a as [|x a IH]; intros b Ha Hb H.
  - destruct b as [|y b]; [reflexivity|]. destruct (proj2 (H y) (or_introl eq_refl)).
  - destruct b as [|y b]; [destruct (proj1 (H x) (or_introl eq_refl))|].
    inversion Ha as [|? ? Fx Ia]; inversion Hb as [|? ? Fy Ib]; subst. rewrite Forall_forall in Fx, Fy.
    assert (x = y).
    { destruct (proj1 (H x) (or_introl eq_refl)) as [E|E]; [auto|].
      destruct (proj2 (H y) (or_introl eq_refl)) as [E'|E']; [auto|].
      exfalso. exact (asym _ _ (Fx _ E') (Fy _ E)). }
    subst y. f_equal. apply IH; auto. intros p. split; intros Hp.
    + destruct (proj1 (H p) (or_intror Hp)) as [E|E]; [subst; exfalso; exact (irr _ (Fx _ Hp)) | exact E].
    + destruct (proj2 (H p) (or_intror Hp)) as [E|E]; [subst; exfalso; exact (irr _ (Fy _ Hp)) | exact E].
Qed.
Lemma all_pairs_unique m n a b : all_pairs m n a -> all_pairs m n b -> a = b.
Proof. intros [A1 A2] [B1 B2]. apply increasing_ext; auto. intros p. rewrite A2, B2. reflexivity. Qed.

(** Row-major order is the order of [next_pair]. *)
Fixpoint walk (n : Z) (k : nat) (p : Z * Z) : list (Z * Z) :=
  match k with O => [] | S k' => p :: walk n k' (next_pair n p) end.
Fixpoint nexts (n : Z) (k : nat) (p : Z * Z) : Z * Z :=
  match k with O => p | S k' => nexts n k' (next_pair n p) end.
Lemma walk_add n a b p : walk n (a + b) p = walk n a p ++ walk n b (nexts n a p).
Proof. revert p; induction a as [|a IH]; intros p; [reflexivity|]. cbn. rewrite IH. reflexivity. Qed.
Lemma nexts_add n a b p : nexts n (a + b) p = nexts n b (nexts n a p).
Proof. revert p; induction a as [|a IH]; intros p; [reflexivity|]. cbn. apply IH. Qed.
Lemma walk_length n k p : length (walk n k p) = k.
Proof. revert p; induction k; intros p; simpl; auto. Qed.
Lemma row_walk n i : forall k j, j + Z.of_nat k = n -> (0 < k)%nat ->
  walk n k (i, j) = map (fun j => (i, j)) (zrange j n) /\ nexts n k (i, j) = (i + 1, i + 2).
Proof.
  induction k as [|k IH]; intros j E Hk; [lia|]. destruct k as [|k].
  - rewrite zrange_cons, zrange_empty by lia. cbn [walk nexts map next_pair]. replace (n <=? j + 1) with true by lia. auto.
  - destruct (IH (j + 1) ltac:(lia) ltac:(lia)) as [I1 I2]. rewrite zrange_cons by lia.
    change (walk n (S (S k)) (i, j)) with ((i, j) :: walk n (S k) (next_pair n (i, j))).
    change (nexts n (S (S k)) (i, j)) with (nexts n (S k) (next_pair n (i, j))).
    assert (En : next_pair n (i, j) = (i, j + 1)) by (cbn [next_pair]; replace (n <=? j + 1) with false by lia; reflexivity).
    rewrite En, I1, I2. auto.
Qed.
Lemma rows_walk m n : m < n -> forall a, 0 <= a -> walk n (length (rows a m n)) (a, a + 1) = rows a m n.
Proof.
  intros Hmn. apply rows_ind with (m := m); intros a Ha; [rewrite rows_end by lia; reflexivity|]. intros IH.
  rewrite rows_step by lia. rewrite app_length, walk_add, map_length, zrange_length.
  destruct (row_walk n a (Z.to_nat (n - (a + 1))) (a + 1) ltac:(lia) ltac:(lia)) as [E1 E2].
  rewrite E1, E2. f_equal. replace (a + 2) with (a + 1 + 1) by lia. exact IH.
Qed.
Lemma rows_length m n : 0 <= m -> m < n -> forall a, 0 <= a ->
  2 * Z.of_nat (length (rows a m n)) = if m <=? a then 0 else 2 * (m - a) * (n - 1) - (m * m - m) + (a * a - a).
Proof.
  intros Hm Hmn. apply rows_ind with (m := m); intros a Ha; [rewrite rows_end by lia; replace (m <=? a) with true by lia; reflexivity|].
  intros IH. rewrite rows_step by lia. rewrite app_length, map_length, zrange_length.
  replace (m <=? a) with false by lia. destruct (m <=? a + 1) eqn:E; [assert (a = m - 1) by lia; subst a|]; nia.
Qed.
Lemma entries_eq m n : 0 < m < n -> Z.of_nat (length (loop_pairs m n)) = entries m n /\
  Z.quot (m * (m - 1)) 2 + m * (n - m) = entries m n /\ m * (m - 1) = 2 * (m * (m - 1) / 2).
Proof.
  intros H. pose proof (rows_length m n ltac:(lia) ltac:(lia) 0 ltac:(lia)) as E. replace (m <=? 0) with false in E by lia.
  change (rows 0 m n) with (loop_pairs m n) in E. unfold entries.
  destruct (tri_half m) as [q Hq]. replace (m * (m - 1)) with (q * 2) by lia. rewrite Z.quot_div_nonneg by nia.
  rewrite Z_div_mult by lia. nia.
Qed.
