(** * Distances between threads that were received. *)
From Verif Require Import Base JsonSpec Types UtilsModel CmpModel DistMatrixModel DistModel JsonTypesModel JsonTypesSpec NormModel TextModel ReportModel ReportSpec
  JsonKeepSpec JsonKeepProofs JsonKeepProofs2.
Open Scope Z_scope.

(** ** Distances look at nothing but the outcome of comparisons *)
Section Related.
Context {F G : Type} (same : F -> F -> bool) (same' : G -> G -> bool) (R : F -> G -> Prop).
Hypothesis same_related : forall x y x' y', R x x' -> R y y' -> same x y = same' x' y'.
Definition related (l : list F) (l' : list G) : Prop := Forall2 R l l'.
Definition related_option (o : option F) (o' : option G) : Prop :=
  match o, o' with Some x, Some y => R x y | None, None => True | _, _ => False end.
Lemma contains_related l l' x x' : related l l' -> R x x' -> contains same l x = contains same' l' x'.
Proof. intros H X. unfold contains. induction H as [|y y' l l' Y L IH]; cbn [existsb]; [reflexivity|]. now rewrite IH, (same_related _ _ _ _ Y X). Qed.
Lemma jaccard_first_related l l' m m' : related l l' -> related m m' -> jaccard_first same l m = jaccard_first same' l' m'.
Proof.
  intros H M. induction H as [|x x' l l' X L IH]; cbn [jaccard_first]; [reflexivity|].
  now rewrite IH, (contains_related _ _ _ _ L X), (contains_related _ _ _ _ M X).
Qed.
Lemma jaccard_second_related l l' : related l l' -> jaccard_second same l = jaccard_second same' l'.
Proof. intros H. induction H as [|x x' l l' X L IH]; cbn [jaccard_second]; [reflexivity|]. now rewrite IH, (contains_related _ _ _ _ L X). Qed.
Lemma jaccard_related l l' m m' : related l l' -> related m m' -> distance_jaccard same l m = distance_jaccard same' l' m'.
Proof. intros H M. unfold distance_jaccard. now rewrite (jaccard_first_related _ _ _ _ H M), (jaccard_second_related _ _ M). Qed.
Lemma jw_inner_related max i x x' m m' : R x x' -> related m m' -> forall j a b t, jw_inner same max i j x m a b t = jw_inner same' max i j x' m' a b t.
Proof.
  intros X M. induction M as [|y y' m m' Y M IH]; intros j a b t; cbn [jw_inner]; [reflexivity|].
  rewrite (same_related _ _ _ _ X Y). destruct a; [reflexivity|]. apply IH.
Qed.
Lemma jw_outer_related max l l' m m' : related l l' -> related m m' -> forall i st p t k, jw_outer same max i l m st p t k = jw_outer same' max i l' m' st p t k.
Proof.
  intros H M. induction H as [|x x' l l' X L IH]; intros i st p t k; cbn [jw_outer]; [reflexivity|].
  rewrite (jw_inner_related max i _ _ _ _ X M). destruct (jw_inner same' max i 1 x' m' false st t) as [[a b] c]. apply IH.
Qed.
Lemma related_length l l' : related l l' -> length l = length l'.
Proof. intros H. induction H; cbn; congruence. Qed.
Lemma jw_related l l' m m' : related l l' -> related m m' -> distance_jaro_winkler same l m = distance_jaro_winkler same' l' m'.
Proof.
  intros H M. unfold distance_jaro_winkler. rewrite (related_length _ _ H), (related_length _ _ M). now rewrite (jw_outer_related _ _ _ _ _ H M).
Qed.
Lemma lev_cell_related tr m i j x x' y y' p p' q q' d d1 : R x x' -> R y y' -> related_option p p' -> related_option q q' ->
  lev_cell same tr m i j x y p q d d1 = lev_cell same' tr m i j x' y' p' q' d d1.
Proof.
  intros X Y P Q. unfold lev_cell. rewrite (same_related _ _ _ _ X Y).
  destruct (load d1 (m + j - i)) as [d2| |]; cbn [bind]; try reflexivity.
  destruct (readz d (m + j - i)) as [dl| |]; cbn [bind]; try reflexivity.
  destruct (store d1 (m + j - i) (Some dl)) as [d1'| |]; cbn [bind]; try reflexivity.
  match goal with |- bind ?e _ = bind ?e _ => destruct e as [[cost v]| |]; cbn [bind]; try reflexivity end.
  destruct (tr && (2 <=? i) && (2 <=? j)); [|reflexivity]. destruct d2 as [d2|]; [|reflexivity]. destruct (d2 + cost <? v); [|reflexivity].
  destruct q as [q|], q' as [q'|]; cbn [related_option] in Q; try contradiction; [|reflexivity]. rewrite (same_related _ _ _ _ X Q).
  destruct (same' x' q'); [|reflexivity].
  destruct p as [p|], p' as [p'|]; cbn [related_option] in P; try contradiction; [|reflexivity]. now rewrite (same_related _ _ _ _ P Y).
Qed.
Lemma lev_rows_related tr m j y y' q q' l l' : R y y' -> related_option q q' -> related l l' -> forall i p p' d d1, related_option p p' ->
  match lev_rows same tr m j y q i l p d d1, lev_rows same' tr m j y' q' i l' p' d d1 with
  | Ok (r, e, e1), Ok (r', e', e1') => related_option r r' /\ e = e' /\ e1 = e1'
  | Fail, Fail => True | UB, UB => True | _, _ => False
  end.
Proof.
  intros Y Q H. induction H as [|x x' l l' X L IH]; intros i p p' d d1 P; cbn [lev_rows]; [auto|].
  rewrite (lev_cell_related tr m i j _ _ _ _ _ _ _ _ d d1 X Y P Q). destruct (lev_cell same' tr m i j x' y' p' q' d d1) as [[e e1]| |]; cbn [bind fst snd]; try exact Logic.I.
  apply IH. exact X.
Qed.
Lemma lev_cols_related tr m l l' : related l l' -> forall k k', related k k' -> forall j p p' q q' d d1, related_option p p' -> related_option q q' ->
  lev_cols same tr m l j k p q d d1 = lev_cols same' tr m l' j k' p' q' d d1.
Proof.
  intros H k k' K. induction K as [|y y' k k' Y K IH]; intros j p p' q q' d d1 P Q; cbn [lev_cols]; [reflexivity|].
  pose proof (lev_rows_related tr m j y y' q q' l l' Y Q H 1 p p' d d1 P) as E.
  destruct (lev_rows same tr m j y q 1 l p d d1) as [[[r e] e1]| |], (lev_rows same' tr m j y' q' 1 l' p' d d1) as [[[r' e'] e1']| |]; cbn [bind]; try contradiction; try reflexivity.
  destruct E as (E & <- & <-). apply IH; [exact E|exact Y].
Qed.
Lemma lev_related tr l l' m m' : related l l' -> related m m' -> distance_levenshtein same tr l m = distance_levenshtein same' tr l' m'.
Proof.
  intros H M. unfold distance_levenshtein. assert (E : lev_counts same tr l m = lev_counts same' tr l' m'); [|now rewrite E].
  unfold lev_counts. rewrite (related_length _ _ H), (related_length _ _ M).
  destruct ((if Z.of_nat (length m') <? Z.of_nat (length l') then Z.of_nat (length l') else Z.of_nat (length m')) =? 0); [reflexivity|].
  destruct (assertb (Z.of_nat (length m') + 1 <=? DistMatrixModel.int_max - 1)); cbn [bind]; try reflexivity.
  destruct (assertb (Z.of_nat (length l') + 1 <=? DistMatrixModel.int_max - (Z.of_nat (length m') + 1 + 1))); cbn [bind]; try reflexivity.
  match goal with |- bind ?e _ = bind ?e _ => destruct e as [d| |]; cbn [bind]; try reflexivity end.
  match goal with |- bind ?e _ = bind ?e _ => destruct e as [d'| |]; cbn [bind]; try reflexivity end.
  now rewrite (lev_cols_related tr (Z.of_nat (length l') + 1) l l' H m m' M 1 None None None None d' _ Logic.I Logic.I).
Qed.
Lemma distance_related dt ty ty' l l' m m' : related l l' -> related m m' -> sr_distance same dt (ty, l) (ty', m) = sr_distance same' dt (ty, l') (ty', m').
Proof.
  intros H M. unfold sr_distance. cbn [fst snd]. destruct (negb (Nat.eqb ty ty')); [reflexivity|].
  destruct dt; [now rewrite (jw_related _ _ _ _ H M)|now rewrite (jaccard_related _ _ _ _ H M)|now apply lev_related|now apply lev_related|reflexivity].
Qed.
End Related.

(** ** Frames that fit compare as before *)
Lemma same_read f g : distance_fits f -> distance_fits g -> frame_same (frame_read f) (frame_read g) = frame_same f g.
Proof.
  intros F G. unfold frame_same. f_equal. destruct f as [f|f|f|f|f|f|f], g as [g|g|g|g|g|g|g]; try reflexivity; cbn [frame_read sr_frame_cmp_distance distance_fits] in *.
  - unfold core_frame_cmp_distance. cbn [core_frame_as_read cf_function_name cf_build_id cf_build_id_offset cf_fingerprint].
    apply clip_address_fits in F, G. now rewrite F, G.
  - destruct F as [F1 F2], G as [G1 G2]. apply with_name_fits in F1, F2, G1, G2. unfold python_frame_cmp_distance.
    cbn [python_frame_as_read pf_function_name pf_file_name pf_special_function pf_special_file]. now rewrite F1, F2, G1, G2.
  - apply with_name_fits in F, G. unfold ruby_frame_cmp_distance. cbn [ruby_frame_as_read rf_function_name rf_file_name rf_special_function]. now rewrite F, G.
  - apply clip32_fits in F, G. unfold js_frame_cmp_distance. cbn [js_frame_as_read jf_function_name jf_file_name jf_file_line]. now rewrite F, G.
Qed.
Lemma distance_read dt ty ty' l m : Forall distance_fits l -> Forall distance_fits m ->
  sr_distance frame_same dt (ty, map frame_read l) (ty', map frame_read m) = sr_distance frame_same dt (ty, l) (ty', m).
Proof.
  intros H M. symmetry. apply (distance_related frame_same frame_same (fun f g => distance_fits f /\ g = frame_read f)).
  - intros x y x' y' (X & ->) (Y & ->). symmetry. now apply same_read.
  - induction H; cbn; constructor; auto.
  - induction M; cbn; constructor; auto.
Qed.
Lemma normalize_keeps_distance t u : Forall distance_fits (sr_thread_frames t) -> sr_thread_normalize t = Ok u -> Forall distance_fits (sr_thread_frames u).
Proof.
  intros H. destruct t as [t|t|t|t|t|t|t]; cbn [sr_thread_normalize]; intros E; try (injection E as <-; exact H).
  - injection E as <-. cbn [sr_thread_frames sr_normalize_core_thread ct_frames] in *. rewrite Forall_map in *.
    apply core_normalize_keeps; [|exact H]. intros f g (_ & _ & S3 & _). cbn [distance_fits]. now rewrite S3.
  - destruct (sr_normalize_koops_frames (ks_frames t)) as [r| |] eqn:Q; cbn [bind] in E; try discriminate E. injection E as <-.
    cbn [sr_thread_frames ks_frames] in *. rewrite Forall_map in *. apply Forall_forall. intros x _. exact Logic.I.
  - injection E as <-. cbn [sr_thread_frames] in *. rewrite Forall_map in *. destruct (gt_frames t) as [|f l] eqn:Q.
    + unfold sr_normalize_gdb_thread. rewrite Q. constructor.
    + apply Forall_inv in H. exact (False_ind _ H).
Qed.
