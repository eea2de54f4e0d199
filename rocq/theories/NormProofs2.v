From Verif Require Import Base Types UtilsModel UtilsProofs CmpModel CmpProofs JsonModel JsonProofs NormTables NormModel NormSpec NormProofs.
Open Scope nat_scope.

(** ** Binary search *)
Lemma byte_less_iff : forall a b, byte_less a b <-> (strcmp a b < 0)%Z.
Proof.
  induction a as [|x a IH]; intros [|y b]; cbn; try solve [split; [intros []|lia]]; [split; [lia|tauto]|].
  destruct (Ascii.eqb_spec x y) as [->|N].
  - rewrite <- IH. split; [intros [H|[_ H]]; [lia|exact H]|auto].
  - assert (B : (byte x - byte y < 0)%Z <-> (code x < code y)%N) by (unfold byte, code, nat_of_ascii; rewrite !N_nat_Z; lia).
    rewrite B. split; [intros [H|[H _]]; [exact H|contradiction]|auto].
Qed.
Lemma byte_less_trans : forall a b c, byte_less a b -> byte_less b c -> byte_less a c.
Proof.
  intros a b c. rewrite !byte_less_iff. intros H1 H2.
  assert (L : (strcmp a c <= 0)%Z) by (apply (strcmp_trans a b c); lia).
  destruct (Z.eq_dec (strcmp a c) 0) as [E|E]; [|lia]. apply strcmp_zero in E. subst c.
  rewrite strcmp_flip in H2. lia.
Qed.
Lemma increasing_nth : forall l, increasing l -> forall i j a b, i < j -> nth_error l i = Some a -> nth_error l j = Some b -> byte_less a b.
Proof.
  intros l H i j a b Hij. revert b. induction Hij as [|j Hij IH]; intros b Ha Hb.
  - assert (E : exists l1 l2, l = l1 ++ a :: b :: l2).
    { clear H. revert i Ha Hb. induction l as [|x l IHl]; intros i Ha Hb; [destruct i; discriminate Ha|].
      destruct i as [|i].
      - cbn in Ha, Hb. injection Ha as ->. destruct l as [|y l]; [discriminate Hb|]. injection Hb as ->. now exists [], l.
      - cbn in Ha, Hb. destruct (IHl i Ha Hb) as (l1 & l2 & ->). now exists (x :: l1), l2. }
    destruct E as (l1 & l2 & E). exact (H _ _ _ _ E).
  - destruct (nth_error l j) as [c|] eqn:Ec.
    + apply byte_less_trans with c; [now apply IH|].
      assert (E : exists l1 l2, l = l1 ++ c :: b :: l2).
      { clear H IH Ha Hij. revert j Ec Hb. induction l as [|x l IHl]; intros j Ec Hb; [destruct j; discriminate Ec|].
        destruct j as [|j].
        - cbn in Ec, Hb. injection Ec as ->. destruct l as [|y l]; [discriminate Hb|]. injection Hb as ->. now exists [], l.
        - cbn in Ec, Hb. destruct (IHl j Ec Hb) as (l1 & l2 & ->). now exists (x :: l1), l2. }
      destruct E as (l1 & l2 & E). exact (H _ _ _ _ E).
    + apply nth_error_None in Ec. assert (S j < length l) by (apply nth_error_Some; congruence). lia.
Qed.
Lemma bsearch_loop_ok : forall base, increasing base -> forall key fuel l u, u <= length base -> u - l < fuel ->
  (forall j p, j < l -> nth_error base j = Some p -> byte_less p key) ->
  (forall j p, u <= j -> nth_error base j = Some p -> byte_less key p) ->
  exists b, bsearch_loop fuel (Some key) base l u = Ok b /\ (b = true <-> In key base).
Proof.
  intros base Hi key. induction fuel as [|fuel IH]; intros l u Hu Hf Hl Hr; [lia|]. cbn [bsearch_loop].
  destruct (Nat.ltb_spec l u) as [Hlu|Hlu].
  - set (idx := Nat.div (l + u) 2).
    assert (Hidx : l <= idx < u).
    { unfold idx. pose proof (Nat.div_mod (l + u) 2 ltac:(lia)). pose proof (Nat.mod_upper_bound (l + u) 2 ltac:(lia)). lia. }
    destruct (nth_error base idx) as [p|] eqn:Ep; [|apply nth_error_None in Ep; lia]. cbn [g_strcmp0].
    destruct (Z.ltb_spec (strcmp key p) 0) as [C|C].
    + apply IH; try lia; [exact Hl|]. intros j p' Hj Ej. apply byte_less_iff in C.
      destruct (Nat.eq_dec j idx) as [->|N]; [congruence|].
      apply byte_less_trans with p; [exact C|]. apply (increasing_nth base Hi idx j); [lia|exact Ep|exact Ej].
    + destruct (Z.gtb_spec (strcmp key p) 0) as [C2|C2].
      * apply IH; try lia; [|exact Hr]. intros j p' Hj Ej.
        assert (K : byte_less p key) by (apply byte_less_iff; rewrite strcmp_flip; lia).
        destruct (Nat.eq_dec j idx) as [->|N]; [congruence|].
        apply byte_less_trans with p; [|exact K]. apply (increasing_nth base Hi j idx); [lia|exact Ej|exact Ep].
      * exists true. split; [reflexivity|]. split; [intros _|reflexivity].
        assert (E : strcmp key p = 0%Z) by lia. apply strcmp_zero in E. subst p. eapply nth_error_In; exact Ep.
  - exists false. split; [reflexivity|]. split; [discriminate|]. intro I. exfalso. apply In_nth_error in I.
    destruct I as (j & Ej). assert (irr : forall x, ~ byte_less x x).
    { intro x. rewrite byte_less_iff, strcmp_refl. lia. }
    destruct (le_lt_dec u j) as [H|H]; [apply (irr key); eapply Hr; eassumption|apply (irr key); eapply Hl; [|exact Ej]; lia].
Qed.
Lemma bsearch_null : forall base fuel l u, u <= length base -> u - l < fuel -> bsearch_loop fuel None base l u = Ok false.
Proof.
  intros base. induction fuel as [|fuel IH]; intros l u Hu Hf; [lia|]. cbn [bsearch_loop].
  destruct (Nat.ltb_spec l u) as [Hlu|Hlu]; [|reflexivity].
  assert (Hidx : l <= Nat.div (l + u) 2 < u).
  { pose proof (Nat.div_mod (l + u) 2 ltac:(lia)). pose proof (Nat.mod_upper_bound (l + u) 2 ltac:(lia)). lia. }
  destruct (nth_error base (Nat.div (l + u) 2)) as [p|] eqn:Ep; [|apply nth_error_None in Ep; lia].
  change (bsearch_loop fuel None base l (Nat.div (l + u) 2) = Ok false). apply IH; lia.
Qed.
Theorem bsearch_correct : forall base key, increasing base ->
  exists b, bsearch key base = Ok b /\ (b = true <-> exists n, key = Some n /\ In n base).
Proof.
  intros base [key|] H; unfold bsearch.
  - destruct (bsearch_loop_ok base H key (S (length base)) 0 (length base)) as (b & E & K); [lia|lia|intros j p Hj; lia| |].
    + intros j p Hj Ej. assert (j < length base) by (apply nth_error_Some; congruence). lia.
    + exists b. split; [exact E|]. rewrite K. split; [eauto|]. intros (n & En & I). congruence.
  - exists false. split; [apply bsearch_null; lia|]. split; [discriminate|]. intros (n & En & _). discriminate En.
Qed.
Fixpoint increasing_b (l : list str) : bool :=
  match l with a :: (b :: _) as r => (strcmp a b <? 0)%Z && increasing_b r | _ => true end.
Lemma increasing_b_ok : forall l, increasing_b l = true -> increasing l.
Proof.
  induction l as [|x l IH]; intros H l1 a b l2 E; [destruct l1; discriminate E|].
  destruct l1 as [|y l1].
  - injection E as -> ->. cbn in H. apply andb_true_iff in H. destruct H as [H _]. apply byte_less_iff. now apply Z.ltb_lt.
  - injection E as -> E. apply (IH) with (l1 := l1) (l2 := l2); [|exact E]. destruct l as [|z l]; [reflexivity|].
    cbn in H. apply andb_true_iff in H. exact (proj2 H).
Qed.
Lemma blacklist_increasing : increasing koops_blacklist.
Proof. apply increasing_b_ok. vm_compute. reflexivity. Qed.

(** ** Kernel oops *)
Lemma koops_cut_ok : forall f, cut_name f (koops_cut_suffix f).
Proof.
  intro f. unfold koops_cut_suffix. destruct (kf_function_name f) as [n|] eqn:En.
  - destruct (strchrnul n ".") as [before rest] eqn:Es. apply strchrnul_spec in Es. destruct Es as (-> & Hb & Hr).
    destruct rest as [|c r].
    + unfold cut_name. split; [|tauto]. exists [], before. left. rewrite app_nil_r in *. auto.
    + subst c. unfold cut_name. cbn. split; [|tauto]. exists ("."%char :: r), before. left. split; [exact En|].
      split; [reflexivity|]. split; [exact Hb|]. right. eauto.
  - unfold cut_name. split; [|tauto]. exists [], []. right. auto.
Qed.
Lemma cut_name_unique : forall f g h, cut_name f g -> cut_name f h -> g = h.
Proof.
  intros f g h [(r1 & b1 & N1) G] [(r2 & b2 & N2) H].
  assert (E : kf_function_name g = kf_function_name h).
  { destruct N1 as [(A1 & -> & B1 & C1)|[A1 ->]], N2 as [(A2 & -> & B2 & C2)|[A2 ->]]; try congruence.
    f_equal. rewrite A1 in A2. injection A2 as A2. revert b2 A2 B2. clear A1 G H. induction b1 as [|c b1 IH]; intros b2 A2 B2.
    - destruct b2 as [|d b2]; [reflexivity|]. cbn in A2. exfalso. apply B2. left.
      destruct C1 as [-> |(r & ->)]; [discriminate A2|]. now injection A2.
    - destruct b2 as [|d b2].
      + cbn in A2. exfalso. apply B1. left. destruct C2 as [-> |(r & ->)]; [discriminate A2|]. now injection A2.
      + injection A2 as -> A2. f_equal. apply IH; [intro; apply B1; now right|exact A2|intro; apply B2; now right]. }
  destruct g, h. cbn in *. intuition congruence.
Qed.
Lemma koops_cut_idem : forall f, koops_cut_suffix (koops_cut_suffix f) = koops_cut_suffix f.
Proof.
  intro f. apply cut_name_unique with (koops_cut_suffix f); [apply koops_cut_ok|].
  destruct (koops_cut_ok f) as [(rest & before & [(A & B & C & D)|(A & B)]) E].
  - split; [|tauto]. exists [], before. left. rewrite app_nil_r. auto.
  - split; [|tauto]. exists [], []. right. auto.
Qed.
Lemma koops_remove_ok : forall l, exists r, koops_remove l = Ok r /\ kept (fun f => ~ koops_boring f) l r.
Proof.
  induction l as [|f l (r & E & K)]; cbn [koops_remove]; [exists []; split; [reflexivity|constructor]|].
  destruct (bsearch_correct koops_blacklist (kf_function_name f) blacklist_increasing) as (b & -> & Hb). cbn.
  rewrite E. cbn. unfold koops_boring. destruct (kf_module_name f) as [m|] eqn:Em.
  - exists (f :: r). split; [reflexivity|]. constructor; [intros [X _]; congruence|exact K].
  - destruct b.
    + exists r. split; [reflexivity|]. constructor; [|exact K]. intro N. apply N. split; [exact Em|]. now apply Hb.
    + exists (f :: r). split; [reflexivity|]. constructor; [|exact K]. intros [_ X]. apply Hb in X. discriminate X.
Qed.
Theorem koops_normalize_ok : forall l, exists m r, Forall2 cut_name l m /\
  sr_normalize_koops_frames l = Ok r /\ kept (fun f => ~ koops_boring f) m r.
Proof.
  intro l. unfold sr_normalize_koops_frames. destruct (koops_remove_ok (map koops_cut_suffix l)) as (r & E & K).
  exists (map koops_cut_suffix l), r. split; [|auto]. clear. induction l; constructor; [apply koops_cut_ok|assumption].
Qed.
Lemma kept_all {A} (P : A -> Prop) : forall l r, kept P l r -> (forall x, In x l -> P x) -> r = l.
Proof.
  intros l r K. induction K as [|x a b Px K IH|x a b Px K IH]; intro H; [reflexivity| |].
  - f_equal. apply IH. intros y I. apply H. now right.
  - exfalso. apply Px, H. now left.
Qed.
Lemma kept_in {A} (P : A -> Prop) : forall l r, kept P l r -> forall x, In x r -> In x l /\ P x.
Proof.
  intros l r K. induction K as [|y a b Py K IH|y a b Py K IH]; intros x I; [destruct I| |].
  - destruct I as [<-|I]; [split; [now left|exact Py]|]. apply IH in I. split; [now right|tauto].
  - apply IH in I. split; [now right|tauto].
Qed.
Theorem koops_idempotent : forall l r, sr_normalize_koops_frames l = Ok r -> sr_normalize_koops_frames r = Ok r.
Proof.
  intros l r H. unfold sr_normalize_koops_frames in *. destruct (koops_remove_ok (map koops_cut_suffix l)) as (r' & E & K).
  rewrite E in H. injection H as ->.
  assert (M : map koops_cut_suffix r = r).
  { rewrite <- (map_id r) at 2. apply map_ext_in. intros x I. apply (kept_in _ _ _ K) in I. destruct I as [I _].
    apply in_map_iff in I. destruct I as (y & <- & _). apply koops_cut_idem. }
  rewrite M. destruct (koops_remove_ok r) as (r' & E2 & K2). rewrite E2. f_equal.
  apply (kept_all _ _ _ K2). intros x I. apply (kept_in _ _ _ K) in I. tauto.
Qed.

(** ** Pairing *)
Lemma is_unknown_iff : forall f, is_unknown f = true <-> is_anon f.
Proof. intro f. unfold is_unknown, is_anon. rewrite Z.eqb_eq, strcmp0_zero. reflexivity. Qed.
Lemma libs_compatible_iff : forall a b, libs_compatible a b = true <-> libs_agree a b.
Proof.
  intros a b. unfold libs_compatible, libs_agree. destruct (gf_library_name a) as [x|], (gf_library_name b) as [y|];
    try (split; [intros _ ? ? ? ?; discriminate|reflexivity]).
  rewrite Z.eqb_eq, strcmp_zero. split; [intros -> ? ? E1 E2; congruence|intro H; now apply H].
Qed.
Lemma next_similar_iff : forall a b, next_functions_similar a b = true <-> both same_known a b.
Proof.
  intros [a|] [b|]; cbn; try (split; [discriminate|intros []]); [|tauto].
  rewrite !andb_true_iff, Z.eqb_eq, strcmp0_zero, negb_true_iff, <- not_true_iff_false, is_unknown_iff, libs_compatible_iff.
  unfold same_known. tauto.
Qed.
Lemma nth_rename : forall l p i j, nth_error (rename_at p i l) j =
  if Nat.eqb j p then option_map (fun f => gdb_with_name f (unknown_name i)) (nth_error l p) else nth_error l j.
Proof.
  intros l p i j. unfold rename_at. destruct (nth_error l p) as [f|] eqn:E.
  - assert (Hp : p < length l) by (apply nth_error_Some; congruence).
    assert (Lf : length (firstn p l) = p) by (rewrite firstn_length; lia).
    destruct (Nat.eqb_spec j p) as [->|N].
    + rewrite nth_error_app2, Lf, Nat.sub_diag by lia. reflexivity.
    + destruct (le_lt_dec p j) as [H|H].
      * rewrite nth_error_app2 by lia. rewrite Lf. replace (j - p) with (S (j - S p)) by lia. cbn [nth_error].
        rewrite <- (firstn_skipn (S p) l) at 2. rewrite nth_error_app2 by (rewrite firstn_length; lia).
        f_equal. rewrite firstn_length. lia.
      * rewrite nth_error_app1 by lia. rewrite <- (firstn_skipn p l) at 2. now rewrite nth_error_app1 by lia.
  - destruct (Nat.eqb_spec j p) as [->|N]; [exact E|reflexivity].
Qed.
Lemma length_rename : forall l p i, length (rename_at p i l) = length l.
Proof.
  intros l p i. unfold rename_at. destruct (nth_error l p) as [f|] eqn:E; [|reflexivity].
  assert (p < length l) by (apply nth_error_Some; congruence).
  rewrite app_length. cbn [length]. rewrite firstn_length, skipn_length. lia.
Qed.
Lemma unknown_not_anon : forall k, unknown_name k <> Some (L "??").
Proof. intros k H. unfold unknown_name in H. discriminate H. Qed.
Lemma unknown_name_inj : forall a b, unknown_name a = unknown_name b -> a = b.
Proof.
  intros a b H. unfold unknown_name in H. injection H as H. apply print_N_inj in H. lia.
Qed.
Section Pairing.
Variables l1 l2 : list gdb_frame.
Definition inv := pairing unknown_name l1 l2.
Lemma inv_start : inv l1 l2 [].
Proof.
  constructor; [tauto|split; constructor| | |].
  - intros k p q H. destruct k; discriminate H.
  - split; reflexivity.
  - intros p q [].
Qed.
Lemma inv_anon1 : forall c1 c2 ps p f, inv c1 c2 ps -> nth_error c1 p = Some f -> is_anon f -> ~ In p (map fst ps).
Proof.
  intros c1 c2 ps p f I Ef A X. apply in_map_iff in X. destruct X as ([p' q] & <- & X). apply In_nth_error in X.
  destruct X as (k & X). destruct (pairing_named _ _ _ _ _ _ I k _ _ X) as (a & b & a' & b' & _ & _ & E & _ & _ & _ & _ & _ & _ & N & _).
  cbn [fst] in Ef. rewrite E in Ef. injection Ef as <-. unfold is_anon in A. rewrite N in A. exact (unknown_not_anon k A).
Qed.
Lemma inv_anon2 : forall c1 c2 ps q f, inv c1 c2 ps -> nth_error c2 q = Some f -> is_anon f -> ~ In q (map snd ps).
Proof.
  intros c1 c2 ps q f I Ef A X. apply in_map_iff in X. destruct X as ([p q'] & <- & X). apply In_nth_error in X.
  destruct X as (k & X). destruct (pairing_named _ _ _ _ _ _ I k _ _ X) as (a & b & a' & b' & _ & _ & _ & E & _ & _ & _ & _ & _ & _ & N).
  cbn [snd] in Ef. rewrite E in Ef. injection Ef as <-. unfold is_anon in A. rewrite N in A. exact (unknown_not_anon k A).
Qed.
Lemma known_stays : forall c1 c2 p q i f g a b, nth_error c1 p = Some f -> is_anon f -> nth_error c2 q = Some g -> is_anon g ->
  both same_known (nth_error c1 a) (nth_error c2 b) ->
  both same_known (nth_error (rename_at p i c1) a) (nth_error (rename_at q i c2) b).
Proof.
  intros c1 c2 p q i f g a b Ef Af Eg Ag H. rewrite !nth_rename.
  destruct (Nat.eqb_spec a p) as [->|Na].
  - rewrite Ef in H. destruct (nth_error c2 b) as [y|]; [|destruct H]. destruct H as (_ & N & _). contradiction.
  - destruct (Nat.eqb_spec b q) as [->|Nb]; [|exact H].
    rewrite Eg in H. destruct (nth_error c1 a) as [x|]; [|destruct H]. destruct H as (E & N & _).
    exfalso. apply N. unfold is_anon in *. congruence.
Qed.
Lemma surroundings_stay : forall c1 c2 p q i f g a b, nth_error c1 p = Some f -> is_anon f -> nth_error c2 q = Some g -> is_anon g ->
  same_surroundings c1 c2 a b -> same_surroundings (rename_at p i c1) (rename_at q i c2) a b.
Proof.
  intros c1 c2 p q i f g a b Ef Af Eg Ag [H1 H2]. split; [eapply known_stays; eassumption|].
  destruct a as [|a], b as [|b]; try exact H2. eapply known_stays; eassumption.
Qed.
Lemma inv_step : forall c1 c2 ps p q f g, inv c1 c2 ps -> nth_error c1 p = Some f -> nth_error c2 q = Some g ->
  is_anon f -> is_anon g -> libs_agree f g -> same_surroundings c1 c2 p q ->
  inv (rename_at p (length ps) c1) (rename_at q (length ps) c2) (ps ++ [(p, q)]).
Proof.
  intros c1 c2 ps p q f g I Ef Eg Af Ag Lfg Sur.
  pose proof (inv_anon1 _ _ _ _ _ I Ef Af) as Np. pose proof (inv_anon2 _ _ _ _ _ I Eg Ag) as Nq.
  destruct (pairing_others _ _ _ _ _ _ I) as [O1 O2].
  assert (Nd : forall (l : list nat) x, NoDup l -> ~ In x l -> NoDup (l ++ [x])).
  { intros l x N Hx. apply (Permutation_NoDup (l := x :: l)); [apply Permutation_cons_append|now constructor]. }
  constructor.
  - rewrite !length_rename. exact (pairing_lengths _ _ _ _ _ _ I).
  - destruct (pairing_distinct _ _ _ _ _ _ I). rewrite !map_app. cbn [map fst snd]. split; apply Nd; assumption.
  - intros k a b H. rewrite !nth_rename. destruct (le_lt_dec (length ps) k) as [Hk|Hk].
    + rewrite nth_error_app2 in H by exact Hk. destruct (k - length ps) as [|d] eqn:D; [|destruct d; discriminate H].
      cbn in H. injection H as <- <-. assert (k = length ps) by lia. subst k.
      rewrite !Nat.eqb_refl, Ef, Eg. cbn [option_map]. rewrite <- (O1 p Np), <- (O2 q Nq).
      eexists f, g, _, _. split; [exact Ef|]. split; [exact Eg|]. split; [reflexivity|]. split; [reflexivity|].
      split; [exact Af|]. split; [exact Ag|]. split; [exact Lfg|].
      split; [unfold same_but_name; cbn; tauto|]. split; [unfold same_but_name; cbn; tauto|]. split; reflexivity.
    + rewrite nth_error_app1 in H by exact Hk.
      destruct (Nat.eqb_spec a p) as [->|Na].
      { exfalso. apply Np. apply nth_error_In in H. apply in_map_iff. exists (p, b). auto. }
      destruct (Nat.eqb_spec b q) as [->|Nb].
      { exfalso. apply Nq. apply nth_error_In in H. apply in_map_iff. exists (a, q). auto. }
      exact (pairing_named _ _ _ _ _ _ I k a b H).
  - rewrite !map_app. cbn [map fst snd]. split; intros x Hx; rewrite nth_rename.
    + destruct (Nat.eqb_spec x p) as [->|N]; [exfalso; apply Hx, in_or_app; right; now left|].
      apply O1. intro. apply Hx, in_or_app. now left.
    + destruct (Nat.eqb_spec x q) as [->|N]; [exfalso; apply Hx, in_or_app; right; now left|].
      apply O2. intro. apply Hx, in_or_app. now left.
  - intros a b H. eapply surroundings_stay; try eassumption. apply in_app_or in H. destruct H as [H|[E|[]]].
    + exact (pairing_known _ _ _ _ _ _ I a b H).
    + injection E as <- <-. exact Sur.
Qed.
Lemma later_iff : forall c1 c2 p q f, nth_error c1 (S p) = Some f ->
  later_pair c1 c2 (S p) (S q) = true <->
  exists g, nth_error c2 (S q) = Some g /\ is_anon g /\ libs_agree f g /\ same_surroundings c1 c2 (S p) (S q).
Proof.
  intros c1 c2 p q f Ef. unfold later_pair. rewrite Ef. cbn [Nat.sub]. rewrite !Nat.sub_0_r. unfold same_surroundings.
  destruct (nth_error c2 (S q)) as [g|] eqn:Eg.
  2:{ split; [discriminate|]. intros (g & E & _). discriminate E. }
  destruct (nth_error c1 p) as [a|] eqn:Ea.
  2:{ apply nth_error_None in Ea. assert (S p < length c1) by (apply nth_error_Some; congruence). lia. }
  destruct (nth_error c2 q) as [b|] eqn:Eb.
  2:{ apply nth_error_None in Eb. assert (S q < length c2) by (apply nth_error_Some; congruence). lia. }
  rewrite !andb_true_iff, is_unknown_iff, !libs_compatible_iff, next_similar_iff, Z.eqb_eq, strcmp0_zero, negb_true_iff,
    <- not_true_iff_false, is_unknown_iff. cbn [both]. unfold same_known, is_anon. split.
  - intros (((((H1 & H2) & H3) & H4) & H5) & H6). exists g. rewrite H5. auto 10.
  - intros (g' & E & H1 & H2 & H3 & H5 & H4 & H6). injection E as <-. rewrite H5 in H4. auto 10.
Qed.
(* originally known frames are never touched *)
Lemma known1 : forall c1 c2 ps p f, inv c1 c2 ps -> nth_error l1 p = Some f -> ~ is_anon f -> nth_error c1 p = Some f.
Proof.
  intros c1 c2 ps p f I Ef N. destruct (pairing_others _ _ _ _ _ _ I) as [O1 _]. rewrite O1; [exact Ef|].
  intro X. apply in_map_iff in X. destruct X as ([p' q] & <- & X). apply In_nth_error in X. destruct X as (k & X).
  destruct (pairing_named _ _ _ _ _ _ I k _ _ X) as (a & b & a' & b' & E & _ & _ & _ & A & _).
  cbn [fst] in Ef. rewrite E in Ef. injection Ef as <-. contradiction.
Qed.
Lemma known2 : forall c1 c2 ps q f, inv c1 c2 ps -> nth_error l2 q = Some f -> ~ is_anon f -> nth_error c2 q = Some f.
Proof.
  intros c1 c2 ps q f I Ef N. destruct (pairing_others _ _ _ _ _ _ I) as [_ O2]. rewrite O2; [exact Ef|].
  intro X. apply in_map_iff in X. destruct X as ([p q'] & <- & X). apply In_nth_error in X. destruct X as (k & X).
  destruct (pairing_named _ _ _ _ _ _ I k _ _ X) as (a & b & a' & b' & _ & E & _ & _ & _ & A & _).
  cbn [snd] in Ef. rewrite E in Ef. injection Ef as <-. contradiction.
Qed.
Lemma both_now : forall c1 c2 ps a b, inv c1 c2 ps -> both same_known (nth_error l1 a) (nth_error l2 b) ->
  both same_known (nth_error c1 a) (nth_error c2 b).
Proof.
  intros c1 c2 ps a b I H. destruct (nth_error l1 a) as [x|] eqn:Ea, (nth_error l2 b) as [y|] eqn:Eb; cbn in H; try contradiction.
  - destruct H as (E & N & Lb). rewrite (known1 _ _ _ _ _ I Ea N).
    assert (Ny : ~ is_anon y) by (unfold is_anon in *; congruence). rewrite (known2 _ _ _ _ _ I Eb Ny).
    cbn. unfold same_known. auto.
  - destruct (pairing_lengths _ _ _ _ _ _ I) as [L1 L2]. apply nth_error_None in Ea, Eb.
    replace (nth_error c1 a) with (@None gdb_frame) by (symmetry; apply nth_error_None; lia).
    replace (nth_error c2 b) with (@None gdb_frame) by (symmetry; apply nth_error_None; lia). exact H.
Qed.
Lemma loop_ok : forall ws c1 c2 ps, inv c1 c2 ps -> (forall p, In p ws -> 0 < p) ->
  exists c1' c2' ps', pair_loop ws c1 c2 (length ps) = (c1', c2') /\ inv c1' c2' ps' /\ incl ps ps' /\
    forall p q, In p ws -> eligible l1 l2 p q -> In p (map fst ps') \/ In q (map snd ps').
Proof.
  induction ws as [|p ws IH]; intros c1 c2 ps I Hw; cbn [pair_loop].
  { exists c1, c2, ps. split; [reflexivity|]. split; [exact I|]. split; [apply incl_refl|]. intros p q []. }
  assert (Hw' : forall x, In x ws -> 0 < x) by (intros x Hx; apply Hw; now right).
  assert (Hp : 0 < p) by (apply Hw; now left). destruct p as [|p]; [lia|]. clear Hp.
  assert (skip : (forall q, eligible l1 l2 (S p) q -> In (S p) (map fst ps) \/ In q (map snd ps)) ->
    exists c1' c2' ps', pair_loop ws c1 c2 (length ps) = (c1', c2') /\ inv c1' c2' ps' /\ incl ps ps' /\
      forall p0 q, In p0 (S p :: ws) -> eligible l1 l2 p0 q -> In p0 (map fst ps') \/ In q (map snd ps')).
  { intro Hs. destruct (IH c1 c2 ps I Hw') as (c1' & c2' & ps' & E & I' & Inc & Hc). exists c1', c2', ps'.
    split; [exact E|]. split; [exact I'|]. split; [exact Inc|]. intros p0 q [<-|Hin] El; [|now apply Hc].
    destruct (Hs q El) as [X|X]; [left|right]; apply in_map_iff in X; destruct X as (z & <- & X); apply in_map; now apply Inc. }
  destruct (nth_error c1 (S p)) as [f|] eqn:Ef.
  2:{ apply skip. intros q (f & g & E & _). destruct (pairing_lengths _ _ _ _ _ _ I) as [L1 _].
      apply nth_error_None in Ef. assert (S p < length l1) by (apply nth_error_Some; congruence). lia. }
  destruct (is_unknown f) eqn:Uf.
  2:{ apply skip. intros q (f0 & g & E & _ & Af & _). left. rewrite <- not_true_iff_false, is_unknown_iff in Uf.
      destruct (in_dec Nat.eq_dec (S p) (map fst ps)) as [D|D]; [exact D|].
      destruct (pairing_others _ _ _ _ _ _ I) as [O1 _]. rewrite (O1 _ D), E in Ef. injection Ef as <-. contradiction. }
  apply is_unknown_iff in Uf.
  destruct (find (later_pair c1 c2 (S p)) (seq 1 (length c2 - 1))) as [q|] eqn:Fq.
  - apply find_some in Fq. destruct Fq as [Iq Hq]. apply in_seq in Iq. destruct q as [|q]; [lia|].
    apply (later_iff _ _ _ _ _ Ef) in Hq. destruct Hq as (g & Eg & Ag & Lg & Sur).
    pose proof (inv_step _ _ _ _ _ _ _ I Ef Eg Uf Ag Lg Sur) as I2.
    destruct (IH _ _ _ I2 Hw') as (c1' & c2' & ps' & E & I' & Inc & Hc). exists c1', c2', ps'.
    rewrite app_length, Nat.add_1_r in E. split; [exact E|]. split; [exact I'|].
    split; [intros z Hz; apply Inc, in_or_app; now left|].
    intros p0 q0 [<-|Hin] El; [|now apply Hc]. left. apply in_map_iff. exists (S p, S q). split; [reflexivity|].
    apply Inc, in_or_app. right. now left.
  - apply skip. intros q (f0 & g0 & E1 & E2 & A1 & A2 & Lb & Sur).
    destruct (in_dec Nat.eq_dec (S p) (map fst ps)) as [D1|D1]; [now left|].
    destruct (in_dec Nat.eq_dec q (map snd ps)) as [D2|D2]; [now right|].
    exfalso. destruct (pairing_others _ _ _ _ _ _ I) as [O1 O2].
    rewrite (O1 _ D1), E1 in Ef. injection Ef as <-. assert (E2' := E2). rewrite <- (O2 _ D2) in E2'.
    assert (Hq : 0 < q) by (destruct q; [destruct Sur as [_ []]|lia]). destruct q as [|q]; [lia|].
    assert (Q : In (S q) (seq 1 (length c2 - 1))).
    { apply in_seq. assert (S q < length c2) by (apply nth_error_Some; congruence). lia. }
    assert (Ef' : nth_error c1 (S p) = Some f0) by now rewrite (O1 _ D1).
    pose proof (find_none _ _ Fq _ Q) as X. cbn beta in X. rewrite <- not_true_iff_false in X. apply X.
    apply (later_iff _ _ _ _ _ Ef'). exists g0. split; [exact E2'|]. split; [exact A2|]. split; [exact Lb|].
    destruct Sur as [S1 S2]. split; eapply both_now; eassumption.
Qed.
End Pairing.
Theorem paired_ok : forall l1 l2 l1' l2', sr_normalize_gdb_paired_unknown_function_names l1 l2 = (l1', l2') ->
  exists ps, pairing unknown_name l1 l2 l1' l2' ps /\
    forall p q, eligible l1 l2 p q -> In p (map fst ps) \/ In q (map snd ps).
Proof.
  intros l1 l2 l1' l2' H. unfold sr_normalize_gdb_paired_unknown_function_names in H.
  destruct l1 as [|a1 t1].
  { injection H as <- <-. exists []. split; [apply inv_start|]. intros p q (f & g & E & _). destruct p; discriminate E. }
  destruct l2 as [|a2 t2].
  { injection H as <- <-. exists []. split; [apply inv_start|]. intros p q (f & g & _ & E & _). destruct q; discriminate E. }
  set (l1 := a1 :: t1) in *. set (l2 := a2 :: t2) in *.
  assert (W : forall p, In p (seq 1 (length l1 - 1)) -> 0 < p) by (intros p Hp; apply in_seq in Hp; lia).
  assert (P0 : first_pair l1 l2 = true <-> eligible l1 l2 0 0).
  { unfold first_pair. cbn [nth_error l1 l2].
    rewrite !andb_true_iff, !is_unknown_iff, libs_compatible_iff, next_similar_iff. unfold eligible, same_surroundings. split.
    - intros (((A & B) & C) & D). exists a1, a2. auto 10.
    - intros (f & g & E1 & E2 & A & B & C & D & _). injection E1 as <-. injection E2 as <-. auto. }
  assert (Dom : forall p q, eligible l1 l2 p q -> p = 0 /\ q = 0 \/ In p (seq 1 (length l1 - 1))).
  { intros p q (f & g & E & _ & _ & _ & _ & _ & S). assert (p < length l1) by (apply nth_error_Some; congruence).
    destruct p; [left; destruct q; [auto|destruct S]|right; apply in_seq; lia]. }
  destruct (first_pair l1 l2) eqn:Fp.
  - destruct (proj1 P0 eq_refl) as (f & g & E1 & E2 & A & B & C & D).
    pose proof (inv_step l1 l2 l1 l2 [] 0 0 f g (inv_start l1 l2) E1 E2 A B C D) as I0. cbn [length app] in I0.
    destruct (loop_ok l1 l2 _ _ _ _ I0 W) as (c1 & c2 & ps & E & I & Inc & Hc).
    cbn [length] in E. rewrite E in H. injection H as <- <-. exists ps. split; [exact I|].
    intros p q El. destruct (Dom p q El) as [[-> ->]|Hp]; [|now apply Hc].
    left. apply in_map_iff. exists (0, 0). split; [reflexivity|]. apply Inc. now left.
  - destruct (loop_ok l1 l2 _ _ _ _ (inv_start l1 l2) W) as (c1 & c2 & ps & E & I & Inc & Hc).
    cbn [length] in E. rewrite E in H. injection H as <- <-. exists ps. split; [exact I|].
    intros p q El. destruct (Dom p q El) as [[-> ->]|Hp]; [|now apply Hc].
    apply P0 in El. discriminate El.
Qed.

(** ** Optimised thread *)
Lemma after_last_slash_ok : forall s, exists dir, s = dir ++ after_last_slash s /\ ~ In "/"%char (after_last_slash s) /\
  (dir = [] \/ exists d, dir = d ++ ["/"%char]).
Proof.
  intro s. unfold after_last_slash. destruct (span (fun c => negb (Ascii.eqb c "/")) (rev s)) as [a b] eqn:E. cbn [fst].
  change (strchrnul (rev s) "/" = (a, b)) in E. apply strchrnul_spec in E. destruct E as (E & Ha & Hb).
  exists (rev b). split; [|split].
  - rewrite <- rev_app_distr, <- E. symmetry. apply rev_involutive.
  - rewrite <- in_rev. exact Ha.
  - destruct b as [|c b]; [now left|]. subst c. right. now exists (rev b).
Qed.
Lemma upto_so_ok : forall s, (exists r, s = upto_so s ++ r /\ exists h, upto_so s = h ++ L ".so" /\ ~ infix (L ".so") (h ++ L ".s")) \/
  (upto_so s = s /\ ~ infix (L ".so") s).
Proof.
  induction s as [|c s IH]; cbn [upto_so].
  - right. split; [reflexivity|]. rewrite <- strstr_iff. discriminate.
  - destruct (starts_with (L ".so") (c :: s)) eqn:E.
    + left. apply starts_with_iff in E. destruct E as [r E]. exists r. split; [exact E|]. exists []. split; [reflexivity|].
      rewrite <- strstr_iff. cbn. discriminate.
    + destruct IH as [(r & Es & h & Eh & Hh)|(Es & Hs)].
      * left. exists r. split; [cbn; now rewrite <- Es|]. exists (c :: h). split; [cbn; now rewrite Eh|].
        intro X. apply strstr_iff in X. cbn [app strstr] in X. apply orb_true_iff in X. destruct X as [X|X].
        -- enough (starts_with (L ".so") (c :: s) = true) by congruence. apply starts_with_iff in X. destruct X as [t X].
           apply starts_with_iff. rewrite Es, Eh, <- app_assoc.
           assert (Y : exists t', c :: h ++ L ".so" = L ".so" ++ t').
           { destruct h as [|h1 [|h2 h]]; cbn in X |- *; try discriminate X. injection X as -> -> -> _. eexists; reflexivity. }
           destruct Y as [t' Y]. exists (t' ++ r). change (c :: h ++ L ".so" ++ r = L ".so" ++ t' ++ r). rewrite (app_assoc (L ".so")), <- Y. cbn [app]. now rewrite <- app_assoc.
        -- apply Hh. now apply strstr_iff.
      * right. rewrite Es. split; [reflexivity|]. rewrite <- strstr_iff. cbn [strstr]. rewrite E. cbn [orb]. now rewrite strstr_iff.
Qed.

Lemma base_name_ok : forall s, base_name s (upto_so (after_last_slash s)).
Proof.
  intro s. destruct (after_last_slash_ok s) as (dir & E & Hs & Hd). set (b := after_last_slash s) in *. clearbody b.
  destruct (upto_so_ok b) as [(r & Eb & h & Eh & Hh)|(Eb & Hb)].
  - exists dir, r. split; [now rewrite <- Eb|]. split; [now rewrite <- Eb|]. split; [exact Hd|]. left. exists h. auto.
  - exists dir, []. rewrite app_nil_r, Eb. split; [exact E|]. split; [exact Hs|]. split; [exact Hd|]. right. auto.
Qed.
Lemma find_address_ok : forall libs a, match sr_gdb_sharedlib_find_address libs a with
  | Some l => first_covering libs a l
  | None => forall l, In l libs -> ~ covers l a
  end.
Proof.
  intros libs a. unfold sr_gdb_sharedlib_find_address, covers. destruct (Z.eqb_spec a ulong_max) as [->|N].
  { intros l _ [_ H]. congruence. }
  destruct (find _ libs) as [l|] eqn:E.
  - revert E. induction libs as [|x libs IH]; [discriminate|]. cbn [find].
    destruct ((gl_from x <=? a)%Z && (a <=? gl_to x)%Z) eqn:C; intro E.
    + injection E as ->. apply andb_true_iff in C. destruct C as [C1 C2]. apply Z.leb_le in C1, C2.
      exists [], libs. split; [reflexivity|]. split; [unfold covers; auto|]. intros y [].
    + destruct (IH E) as (x1 & x2 & -> & Cl & Hn). exists (x :: x1), x2. split; [reflexivity|]. split; [exact Cl|].
      intros y [<-|Iy]; [|now apply Hn]. unfold covers. intros [H _]. apply andb_false_iff in C. destruct C as [C|C]; apply Z.leb_gt in C; lia.
  - intros l I [H _]. eapply find_none in E; [|exact I]. cbn beta in E. apply andb_false_iff in E. destruct E as [C|C]; apply Z.leb_gt in C; lia.
Qed.
Lemma set_libnames_ok : forall libs l, match sr_gdb_thread_set_libnames libs l with
  | Ok m => Forall2 (labelled libs) l m
  | Fail => False
  | UB => exists x, In x libs /\ gl_soname x = None
  end.
Proof.
  intros libs. induction l as [|f l IH]; cbn [sr_gdb_thread_set_libnames]; [constructor|].
  pose proof (find_address_ok libs (gf_address f)) as A. destruct (sr_gdb_sharedlib_find_address libs (gf_address f)) as [x|].
  - destruct (gl_soname x) as [s|] eqn:Es.
    + cbn. destruct (sr_gdb_thread_set_libnames libs l) as [m| |]; cbn; [|exact IH|exact IH]. constructor; [|exact IH].
      unfold labelled. cbn. split; [|tauto]. right. exists x, s, (upto_so (after_last_slash s)).
      split; [exact A|]. split; [exact Es|]. split; [reflexivity|apply base_name_ok].
    + cbn. destruct A as (l1 & l2 & -> & _). exists x. split; [apply in_or_app; right; now left|exact Es].
  - cbn. destruct (sr_gdb_thread_set_libnames libs l) as [m| |]; cbn; [|exact IH|exact IH]. constructor; [|exact IH].
    unfold labelled. split; [|tauto]. left. auto.
Qed.
Lemma filter_kept {A} (p : A -> bool) : forall l, kept (fun x => p x = true) l (filter p l).
Proof. induction l as [|x l IH]; cbn; [constructor|]. destruct (p x) eqn:E; constructor; congruence. Qed.
Lemma optimize_kept : forall l, kept (fun f => gf_function_name f <> None /\ gf_function_name f <> Some (L "main")) l
  (filter (fun f => match gf_function_name f with None => false | Some _ => true end) (optimize_frames l)).
Proof.
  induction l as [|f l IH]; cbn [optimize_frames filter]; [constructor|].
  destruct (gf_function_name f) as [n|] eqn:En; cbn [filter].
  - destruct (str_eqb n (L "main")) eqn:Em.
    + apply str_eqb_eq in Em. apply kept_no; [|exact IH]. intros [_ X]. congruence.
    + cbn [filter]. rewrite En. apply kept_yes; [|exact IH]. split; [congruence|]. intro X.
      assert (n = L "main") by congruence. subst n. rewrite str_eqb_refl in Em. discriminate.
  - rewrite En. apply kept_no; [|exact IH]. intros [X _]. congruence.
Qed.
Theorem optimized_ok : forall t libs n, match sr_gdb_thread_get_optimized t libs n with
  | Ok r => gt_number r = gt_number t /\ gt_tid r = gt_tid t /\
      exists m k rest, Forall2 (labelled libs) (gt_frames t) m /\
        kept (fun f => gf_function_name f <> None /\ gf_function_name f <> Some (L "main")) (sr_normalize_gdb_frames m) k /\
        k = gt_frames r ++ rest /\
        ((n <= 0)%Z -> rest = []) /\ ((0 < n)%Z -> (Z.of_nat (length (gt_frames r)) = Z.min n (Z.of_nat (length k)))%Z)
  | Fail => False
  | UB => exists x, In x libs /\ gl_soname x = None
  end.
Proof.
  intros t libs n. unfold sr_gdb_thread_get_optimized.
  assert (A : match match libs with [] => Ok (gt_frames t) | _ => sr_gdb_thread_set_libnames libs (gt_frames t) end with
    | Ok m => Forall2 (labelled libs) (gt_frames t) m | Fail => False | UB => exists x, In x libs /\ gl_soname x = None end).
  { destruct libs as [|x libs]; [|apply set_libnames_ok]. induction (gt_frames t) as [|f l IH]; constructor; [|exact IH].
    unfold labelled. split; [|tauto]. left. split; [|reflexivity]. intros l0 []. }
  destruct (match libs with [] => Ok (gt_frames t) | _ => sr_gdb_thread_set_libnames libs (gt_frames t) end) as [m| |]; cbn [bind]; try exact A.
  cbn. split; [reflexivity|]. split; [reflexivity|]. set (k := filter _ _).
  exists m, k. exists (if (0 <? n)%Z then skipn (Z.to_nat n) k else []). split; [exact A|]. split; [apply optimize_kept|].
  destruct (Z.ltb_spec 0 n) as [H|H].
  - split; [symmetry; apply firstn_skipn|]. split; [lia|]. intros _. rewrite firstn_length. lia.
  - split; [now rewrite app_nil_r|]. split; [reflexivity|lia].
Qed.

(** ** Why a second normalization can still change something *)
Definition fr name file addr := mk_gdb_frame (Some (L name)) None 0%Z (Some (L file)) 1%Z false addr None.
Definition cfr name file addr := mk_core_frame addr None 0%Z name (Some (L file)) None true.
Theorem gdb_idempotent_fails : exists l1 l2,
  sr_normalize_gdb_frames (sr_normalize_gdb_frames l1) <> sr_normalize_gdb_frames l1 /\
  sr_normalize_gdb_frames (sr_normalize_gdb_frames l2) <> sr_normalize_gdb_frames l2.
Proof.
  exists [fr "__GI___GI_work" "w.c" 5%Z], [fr "??" "" 0%Z; fr "??" "" 0%Z; fr "work" "w.c" 5%Z]. split; vm_compute; discriminate.
Qed.
Theorem core_idempotent_fails : exists l1 l2,
  sr_normalize_core_frames (sr_normalize_core_frames l1) <> sr_normalize_core_frames l1 /\
  sr_normalize_core_frames (sr_normalize_core_frames l2) <> sr_normalize_core_frames l2.
Proof.
  exists [cfr (Some (L "__GI___GI_work")) "libw" 5%Z], [cfr None "" 0%Z; cfr None "" 0%Z; cfr (Some (L "work")) "libw" 5%Z].
  split; vm_compute; discriminate.
Qed.
(** simple names are recognised *)
Definition simple_b (n : str) : bool := negb (starts_with (L "__") n) && negb (starts_with (L "IA__g") n).
Lemma simple_b_ok : forall n, simple_b n = true -> simple_name (Some n).
Proof.
  intros n H s m E S. injection E as <-. unfold simple_b in H. apply andb_true_iff in H. destruct H as [A B].
  apply not_simple_start in S. destruct S as [S|S]; rewrite S in *; discriminate.
Qed.
Definition gdb_boring_b (f : gdb_frame) : bool := gdb_removable f || gdb_removable_with_above f.
Lemma gdb_boring_b_ok : forall f, gdb_boring_b f = false -> ~ gdb_boring f.
Proof. intros f H. apply gdb_boring_iff. now apply orb_false_iff in H. Qed.
Definition core_boring_b (f : core_frame) : bool := core_removable f || core_removable_with_above f.
Lemma core_boring_b_ok : forall f, core_boring_b f = false -> ~ core_boring f.
Proof. intros f H. apply core_clean_iff. now apply orb_false_iff in H. Qed.
